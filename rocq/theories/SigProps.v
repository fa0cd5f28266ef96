(** C53, C70: signal/sc_signal.c. *)
From Coq Require Import String.
From Verif Require Import Base StrSpec ScModel ScProofs SigModel SigSpec SigProofs.
Open Scope Z_scope.
Open Scope list_scope.

(** C53.  A format that renders as [t] leaves the first size - 1 bytes of [t] and a
    NUL in the buffer, the rest of the buffer as it was, and the number of bytes
    before the NUL is returned. *)
Theorem signal_format_partial junk buf size fmt tl args t left :
  zlen junk = 32 -> 1 <= size <= zlen buf -> renders fmt args t left ->
  let out := firstn (Z.to_nat (size - 1)) t in
  exists r, sig_vsnprintf junk buf size (fmt ++ 0 :: tl) args = Ok (out ++ 0 :: skipn (S (length out)) buf, r) /\
    (zlen out < 2 ^ 31 -> r = zlen out).
Proof.
  intros Hj Hs Hr out. exists (i32 (zlen out)). rewrite (vsn_ok junk buf size fmt tl args t left Hj Hs Hr). fold out. split.
  - unfold overwrite. rewrite <- app_assoc, app_length. cbn [app length]. now rewrite Nat.add_1_r.
  - intro H. pose proof (zlen_nonneg out). apply i32_small. lia.
Qed.
Print Assumptions signal_format_partial.
(** "%s=%ld!" *)
Example signal_format_ex :
  renders [37; 115; 61; 37; 108; 100; 33] [AStr (Some [97; 98; 0; 9]); AInt 2 (-305)] [97; 98; 61; 45; 51; 48; 53; 33] [] /\
  sig_vsnprintf (repeat 7 32) (repeat 1 12) 10 [37; 115; 61; 37; 108; 100; 33; 0] [AStr (Some [97; 98; 0; 9]); AInt 2 (-305)]
  = Ok ([97; 98; 61; 45; 51; 48; 53; 33; 0; 1; 1; 1], 8).
Proof.
  split; [|reflexivity].
  apply (r_string [97; 98] [9] _ _ [61; 45; 51; 48; 53; 33]); [unfold nonul; cbn; intuition discriminate|].
  apply r_char; [easy|easy|].
  apply (r_negative 2 (-305) [51; 48; 53] [33] [] [33]); [lia|cbn; lia|lia| |apply r_char; [easy|easy|constructor]].
  exists [3; 0; 5]. split; [reflexivity|]. split; [repeat constructor; lia|]. split; [reflexivity|]. split; easy.
Qed.
(** The text of a number exists and has the digits. *)
Theorem signal_numeral_exists base n : 2 <= base -> 0 <= n -> exists t, numeral base n t.
Proof. intros Hb Hn. now apply numeral_exists. Qed.
Print Assumptions signal_numeral_exists.
Example signal_numeral_ex : numeral 16 48879 [98; 101; 101; 102].
Proof. exists [11; 14; 14; 15]. split; [reflexivity|]. split; [repeat constructor; lia|]. split; [reflexivity|]. split; easy. Qed.

(** C53.  A '%' with no directive behind it makes the call return -1; only the text
    in front of it has been written, within size - 1 bytes, and no NUL. *)
Theorem signal_format_refuses junk buf size fmt rest tl args t left :
  zlen junk = 32 -> 1 <= size <= zlen buf -> renders fmt args t left -> nonul rest -> malformed rest ->
  let out := firstn (Z.to_nat (size - 1)) t in
  sig_vsnprintf junk buf size (fmt ++ 37 :: rest ++ 0 :: tl) args = Ok (out ++ skipn (length out) buf, -1).
Proof. intros Hj Hs Hr Hn Hm. exact (vsn_bad junk buf size fmt rest tl args t left Hj Hs Hr Hn Hm). Qed.
Print Assumptions signal_format_refuses.
(** "a%lx" *)
Example signal_format_refuses_ex : renders [97] [] [97] [] /\ malformed [108; 120] /\
  sig_vsnprintf (repeat 7 32) [1; 1; 1] 3 [97; 37; 108; 120; 0] [] = Ok ([97; 1; 1], -1).
Proof.
  split; [apply r_char; [easy|easy|constructor]|]. split; [|reflexivity].
  intros d tl [-> | [-> | [-> | (w & c & Hw & Hc & ->)]]] E; try discriminate E.
  assert (w = 1 \/ w = 2 \/ w = 3) as [-> | [-> | ->]] by lia; destruct Hc as [-> | ->]; discriminate E.
Qed.

(** C53 does not hold for the least 64-bit value: its negation overflows. *)
Theorem signal_format_min_refuted : exists junk buf args, zlen junk = 32 /\ zlen buf = 64 /\ args = [AInt 3 (- 2 ^ 63)] /\
  sig_vsnprintf junk buf 64 [37; 108; 108; 100; 0] args = UB.
Proof. exists (repeat 0 32), (repeat 0 64), [AInt 3 (- 2 ^ 63)]. repeat split; vm_compute; reflexivity. Qed.
Print Assumptions signal_format_min_refuted.
(** C53 needs size >= 1: for size 0 the NUL is written all the same. *)
Theorem signal_format_zero_refuted : exists junk buf, zlen junk = 32 /\
  sig_vsnprintf junk buf 0 [0] [] = Ok ([0], 0) /\ buf = [7].
Proof. exists (repeat 0 32), [7]. repeat split; vm_compute; reflexivity. Qed.
Print Assumptions signal_format_zero_refuted.
(** A refused format makes sc_signal_log pass (size_t) -1 to write. *)
Theorem signal_log_overrun_refuted : exists junk buf, zlen junk = 32 /\
  sig_log junk buf 1 4 [37; 120; 0] [AInt 1 5] = Ok (buf, [Overrun 1 (2 ^ 64 - 1)]).
Proof. exists (repeat 0 32), [1; 1; 1; 1]. split; vm_compute; reflexivity. Qed.
Print Assumptions signal_log_overrun_refuted.

(** C71.  sc_signal_log writes the rendering, cut to size - 1 bytes, to the descriptor,
    in one call.  Missing: refused formats, for which it is false
    (signal_log_overrun_refuted). *)
Theorem signal_log_writes_partial junk buf fd size fmt tl args t left :
  zlen junk = 32 -> 1 <= size <= zlen buf -> size <= 2 ^ 31 -> renders fmt args t left ->
  exists buf', sig_log junk buf fd size (fmt ++ 0 :: tl) args = Ok (buf', [Write fd (firstn (Z.to_nat (size - 1)) t)]) /\
    zlen buf' = zlen buf.
Proof.
  intros Hj Hs Hz Hr. eexists. split; [exact (log_cut junk buf fd size fmt tl args t left Hj Hs Hz Hr)|].
  apply zlen_overwrite. rewrite zlen_app, zlen_firstn_cap by lia. change (zlen [0]) with 1. destruct (Z.ltb_spec (zlen t) (size - 1)); lia.
Qed.
Print Assumptions signal_log_writes_partial.
Example signal_log_ex : renders [97; 37; 37] [] [97; 37] [] /\
  sig_log (repeat 0 32) [1; 1; 1; 1] 5 4 [97; 37; 37; 0] [] = Ok ([97; 37; 0; 1], [Write 5 [97; 37]]) /\
  sig_log (repeat 0 32) [1; 1; 1; 1] 5 2 [97; 37; 37; 0] [] = Ok ([97; 0; 1; 1], [Write 5 [97]]).
Proof. split; [|split; reflexivity]. apply r_char; [easy|easy|]. apply r_percent. constructor. Qed.

(** C70.  A shutdown signal is logged.  The first one writes one byte to the shutdown
    descriptor and leaves errno alone; without a descriptor or if the write fails
    the process exits with 0 or 1; a second signal makes it exit with 1. *)
Theorem signal_shutdown junk buf sent err s sig d :
  zlen junk = 32 -> zlen buf = 4096 -> 0 < sig < 2 ^ 31 -> numeral 10 sig d ->
  let log t := Write (log_to s) (t ++ [10]) in
  let recv := log (text "Recv : " ++ signal_name sig ++ text ", (" ++ d ++ text ") ") in
  on_shutdown junk buf sent err s sig = Ok
    (if will_shutdown s then ([recv; log (text "Forcing shut down! "); Exit 1], None)
     else if shutdown_fd s =? -1 then ([recv; log (text "No shutdown handler, shutting down! "); Exit 0], None)
     else if sent then
       ([recv; log (text "Sending shutdown command. "); Write (shutdown_fd s) [1]],
        Some (mk_sigs (log_fd s) (shutdown_fd s) true (errno_ s)))
     else
       ([recv; log (text "Sending shutdown command. "); Write (shutdown_fd s) [1];
         log (text "Failed to send shutdown command, shutting down immediately! "); Exit 1], None)).
Proof.
  intros Hj Hb Hs Hd log recv. unfold on_shutdown. cbn [log_fd shutdown_fd will_shutdown errno_].
  set (fd := if negb (log_fd s =? -1) then log_fd s else 1).
  assert (Efd : fd = log_to s) by (unfold fd, log_to; destruct (log_fd s =? -1); reflexivity).
  pose proof (numeral_zlen 10 sig 10 d ltac:(lia) ltac:(lia) ltac:(lia) Hd) as Ld.
  set (name := signal_name sig).
  assert (En : (if sig =? 2 then T_int else if sig =? 15 then T_term else T_other) = name ++ [0])
    by (unfold name, signal_name; destruct (sig =? 2), (sig =? 15); reflexivity).
  assert (Hn : nonul name /\ zlen name <= 15).
  { unfold name, signal_name. destruct (sig =? 2), (sig =? 15); cbn; (split; [unfold nonul; cbn; intuition discriminate|lia]). }
  destruct Hn as [Hn Ln]. rewrite En.
  pose proof (recv_ok sig name d Hs Hn Hd) as Hr.
  set (t := [82; 101; 99; 118; 32; 58; 32] ++ name ++ [44; 32; 40] ++ d ++ [41; 32; 10]) in *.
  assert (Lt : zlen t < 4095).
  { unfold t. rewrite !zlen_app. change (zlen [82; 101; 99; 118; 32; 58; 32]) with 7.
    change (zlen [44; 32; 40]) with 3. change (zlen [41; 32; 10]) with 3. lia. }
  change T_recv with (firstn 17 T_recv ++ [0]).
  rewrite (log_ok junk buf fd 4096 _ [] _ t [] Hj ltac:(lia) ltac:(lia) ltac:(lia) Hr). cbn [bind].
  assert (Hb1 : zlen (overwrite buf (t ++ [0])) = 4096) by (rewrite zlen_overwrite; [lia|rewrite zlen_app; change (zlen [0]) with 1; lia]).
  set (b1 := overwrite buf (t ++ [0])) in *.
  assert (Er : Write fd t = recv).
  { unfold recv, log. rewrite Efd. f_equal. unfold t. rewrite <- !app_assoc. reflexivity. }
  rewrite Er.
  assert (C : forall b x, zlen b = 4096 -> zlen x < 4095 -> Forall (fun c => c <> 37 /\ c <> 0) x ->
     sig_log junk b fd 4096 (x ++ [0]) [] = Ok (overwrite b (x ++ [0]), [Write (log_to s) x])).
  { intros b x L1 L2 Hx. rewrite <- Efd. apply const_ok; auto; lia. }
  destruct (will_shutdown s).
  - change T_force with ((text "Forcing shut down! " ++ [10]) ++ [0]).
    rewrite C; [reflexivity|assumption|cbn; lia|vm_compute; repeat (constructor; [split; easy|]); constructor].
  - destruct (shutdown_fd s =? -1); cbn [negb].
    + change T_none with ((text "No shutdown handler, shutting down! " ++ [10]) ++ [0]).
      rewrite C; [reflexivity|assumption|cbn; lia|vm_compute; repeat (constructor; [split; easy|]); constructor].
    + change T_send with ((text "Sending shutdown command. " ++ [10]) ++ [0]).
      rewrite C; [|assumption|cbn; lia|vm_compute; repeat (constructor; [split; easy|]); constructor]. cbn [bind].
      destruct sent; cbn [negb]; [reflexivity|].
      change T_fail with ((text "Failed to send shutdown command, shutting down immediately! " ++ [10]) ++ [0]).
      rewrite C; [reflexivity| |cbn; lia|vm_compute; repeat (constructor; [split; easy|]); constructor].
      rewrite zlen_overwrite; [assumption|]. rewrite Hb1. cbn. lia.
Qed.
Print Assumptions signal_shutdown.
Example signal_shutdown_ex : numeral 10 15 [49; 53] /\
  on_shutdown (repeat 0 32) (repeat 0 (Z.to_nat 4096)) true 4 (mk_sigs (-1) 7 false 11) 15
  = Ok ([Write 1 (text "Recv : SIGTERM, (15) " ++ [10]); Write 1 (text "Sending shutdown command. " ++ [10]); Write 7 [1]],
        Some (mk_sigs (-1) 7 true 11)).
Proof.
  split; [|vm_compute; reflexivity].
  exists [1; 5]. split; [reflexivity|]. split; [repeat constructor; lia|]. split; [reflexivity|]. split; easy.
Qed.
(** C70.  Two shutdown signals, one after the other: one byte for the program, then
    the process exits with 1. *)
Theorem signal_shutdown_twice junk buf err junk2 buf2 sent2 err2 s sig sig2 acts s' :
  zlen junk = 32 -> zlen buf = 4096 -> zlen junk2 = 32 -> zlen buf2 = 4096 ->
  0 < sig < 2 ^ 31 -> 0 < sig2 < 2 ^ 31 ->
  on_shutdown junk buf true err s sig = Ok (acts, Some s') ->
  exists t1 t2 t3 t4, acts = [Write (log_to s) t1; Write (log_to s) t2; Write (shutdown_fd s) [1]] /\
    on_shutdown junk2 buf2 sent2 err2 s' sig2 = Ok ([Write (log_to s) t3; Write (log_to s) t4; Exit 1], None).
Proof.
  intros Hj Hb Hj2 Hb2 Hs Hs2 E.
  destruct (numeral_exists 10 ltac:(lia) sig ltac:(lia)) as [d Hd]. destruct (numeral_exists 10 ltac:(lia) sig2 ltac:(lia)) as [d2 Hd2].
  rewrite (signal_shutdown junk buf true err s sig d Hj Hb Hs Hd) in E. cbv zeta in E.
  destruct (will_shutdown s); [discriminate E|]. destruct (shutdown_fd s =? -1); [discriminate E|].
  injection E as <- <-.
  rewrite (signal_shutdown junk2 buf2 sent2 err2 _ sig2 d2 Hj2 Hb2 Hs2 Hd2). cbv zeta. cbn [will_shutdown].
  repeat eexists.
Qed.
Print Assumptions signal_shutdown_twice.
Example signal_shutdown_twice_ex :
  on_shutdown (repeat 0 32) (repeat 0 (Z.to_nat 4096)) false 4 (mk_sigs 9 7 true 11) 2
  = Ok ([Write 9 (text "Recv : SIGINT, (2) " ++ [10]); Write 9 (text "Forcing shut down! " ++ [10]); Exit 1], None).
Proof. vm_compute. reflexivity. Qed.
