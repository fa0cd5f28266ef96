(** C120, C121: signal/sc_signal.c on Windows. *)
From Coq Require Import String.
From Verif Require Import Base CStr CNum StrSpec ScModel ScProofs SigModel SigSpec SigProofs WsigModel.
Open Scope list_scope.
Open Scope Z_scope.

(** ** Specification *)
(** [t] is the text of the integer [n]. *)
Definition decimal (n : Z) (t : list Z) : Prop :=
  (0 <= n /\ numeral 10 n t) \/ (n < 0 /\ exists d, t = 45 :: d /\ numeral 10 (- n) d).
(** The number a DWORD is printed as. *)
Definition as_int (x : Z) : Z := if x <? 2 ^ 31 then x else x - 2 ^ 32.
(** The descriptor errors are logged to. *)
Definition err_to (s : sigs) : Z := if log_fd s =? -1 then 2 else log_fd s.
(** The name of an event of the console. *)
Definition event_name (type : Z) : list Z := if type =? 0 then text "CTRL_C event" else text "CTRL_BREAK event".
(** The name of a signal of the C library. *)
Definition std_name (sig : Z) : list Z :=
  if sig =? 11 then text "SIGSEGV" else if sig =? 22 then text "SIGABRT" else if sig =? 8 then text "SIGFPE"
  else if sig =? 4 then text "SIGILL" else text "unknown signal".

(** ** Proof *)
Lemma i32_as x : 0 <= x < 2 ^ 32 -> i32 x = as_int x /\ - 2 ^ 31 <= as_int x < 2 ^ 31.
Proof.
  intro H. unfold as_int. destruct (Z.ltb_spec x (2 ^ 31)).
  - split; [apply i32_small; lia|lia].
  - split; [|lia]. unfold i32. rewrite <- (Z.mod_unique_pos (x + 2 ^ 31) (2 ^ 32) 1 (x - 2 ^ 31)) by lia. lia.
Qed.
Lemma renders_dec n d f a t a' : - 2 ^ 31 <= n < 2 ^ 31 -> decimal n d -> renders f a t a' ->
  renders (37 :: 100 :: f) (AInt 1 n :: a) (d ++ t) a'.
Proof.
  intros Hn [[H0 Hd]|[H0 (d' & -> & Hd)]] Hr.
  - apply (r_signed 1 n d f a t a'); [lia|cbn; lia|assumption|assumption].
  - apply (r_negative 1 n d' f a t a'); [lia|cbn; lia|lia|assumption|assumption].
Qed.
Lemma decimal_len n d : - 2 ^ 31 <= n < 2 ^ 31 -> decimal n d -> zlen d <= 11.
Proof.
  intros Hn [[H0 Hd]|[H0 (d' & -> & Hd)]].
  - pose proof (numeral_zlen 10 n 10 d ltac:(lia) ltac:(lia) ltac:(lia) Hd). lia.
  - pose proof (numeral_zlen 10 (- n) 10 d' ltac:(lia) ltac:(lia) ltac:(lia) Hd). rewrite zlen_cons. lia.
Qed.
Lemma plain_log junk b fd x : zlen junk = 32 -> zlen b = 128 -> zlen x < 128 -> Forall (fun c => c <> 37 /\ c <> 0) x ->
  sig_log junk b fd 128 (x ++ [0]) [] = Ok (overwrite b (x ++ [0]), [Write fd x]) /\ zlen (overwrite b (x ++ [0])) = 128.
Proof.
  intros Hj Hb Hx Hf. split.
  - apply (log_ok junk b fd 128 x [] [] x []); try lia. rewrite <- (app_nil_r x). apply renders_plain; [assumption|constructor].
  - rewrite zlen_overwrite; [assumption|]. rewrite zlen_app. change (zlen [0]) with 1. lia.
Qed.
Lemma plain_text junk b fd x y : (zlen x <? 128) && forallb (fun c => negb (c =? 37) && negb (c =? 0)) x = true -> y = x ++ [0] ->
  zlen junk = 32 -> zlen b = 128 ->
  sig_log junk b fd 128 y [] = Ok (overwrite b (x ++ [0]), [Write fd x]) /\ zlen (overwrite b (x ++ [0])) = 128.
Proof.
  intros H -> Hj Hb. apply andb_prop in H as [H1 H2]. apply plain_log; [assumption|assumption|lia|].
  rewrite Forall_forall. rewrite forallb_forall in H2. intros c Hc. specialize (H2 c Hc). lia.
Qed.
Lemma tail_renders (p : list Z) : Forall (fun c => c <> 37 /\ c <> 0) p -> renders p [] p [].
Proof. intro H. rewrite <- (app_nil_r p). apply renders_plain; [assumption|constructor]. Qed.
Ltac chars := vm_compute; repeat (constructor; [split; easy|]); constructor.

(** ** Theorems *)

(** C120: what the console handler does for each event, in every state: events other than
    CTRL_C (0) and CTRL_BREAK (1) are logged and end the process with 1; for these the first
    one sends a byte to the shutdown socket and the process goes on with errno as the calls left it; without
    a socket it ends with 0, if the byte is not taken or on a second event with 1. *)
Theorem wsignal_console junk buf sent err s type d :
  zlen junk = 32 -> zlen buf = 128 -> 0 <= type < 2 ^ 32 -> decimal (as_int type) d ->
  let log t := Write (log_to s) (t ++ [10]) in
  let recv := log (text "Received : " ++ event_name type ++ text ", (" ++ d ++ text ") ") in
  console_handler junk buf sent err s type = Ok
    (if (type =? 0) || (type =? 1) then
       if will_shutdown s then ([recv; log (text "Forcing shut down! "); Exit 1], None)
       else if shutdown_fd s =? -1 then ([recv; log (text "No shutdown handler, shutting down! "); Exit 0], None)
       else if sent then
         ([recv; log (text "Sending shutdown command. "); Write (shutdown_fd s) [1]], Some (mk_sigs (log_fd s) (shutdown_fd s) true err))
       else
         ([recv; log (text "Sending shutdown command. "); Write (shutdown_fd s) [1];
           log (text "Failed to send shutdown command, shutting down immediately! "); Exit 1], None)
     else ([log (text "Unknown console event [" ++ d ++ text "], shutting down! "); Exit 1], None)).
Proof.
  intros Hj Hb Ht Hd log recv. unfold console_handler. cbn [log_fd shutdown_fd will_shutdown errno_].
  set (fd := if negb (log_fd s =? -1) then log_fd s else 1).
  assert (Efd : fd = log_to s) by (unfold fd, log_to; destruct (log_fd s =? -1); reflexivity).
  destruct (i32_as type Ht) as [Ei Hi]. rewrite Ei. pose proof (decimal_len _ d Hi Hd) as Ld.
  destruct ((type =? 0) || (type =? 1)) eqn:Ek; cbn [negb].
  - set (name := event_name type).
    assert (En : (if type =? 0 then W_c else W_break) = name ++ [0]) by (unfold name, event_name; destruct (type =? 0); reflexivity).
    assert (Hn : nonul name /\ zlen name <= 16).
    { unfold name, event_name. destruct (type =? 0); cbn; (split; [unfold nonul; cbn; intuition discriminate|lia]). }
    destruct Hn as [Hn Ln]. rewrite En.
    set (t := text "Received : " ++ name ++ text ", (" ++ d ++ (text ") " ++ [10])).
    assert (Hr : renders (firstn 21 W_recv) [AStr (Some (name ++ [0])); AInt 1 (as_int type)] t []).
    { change (firstn 21 W_recv) with (text "Received : " ++ 37 :: 115 :: text ", (" ++ 37 :: 100 :: (text ") " ++ [10])).
      apply renders_plain; [chars|]. apply r_string; [assumption|]. apply renders_plain; [chars|].
      apply renders_dec; [assumption|assumption|]. apply tail_renders. chars. }
    assert (Lt : zlen t < 127) by (unfold t; rewrite !zlen_app; change (zlen (text "Received : ")) with 11; change (zlen (text ", (")) with 3;
      change (zlen (text ") ")) with 2; change (zlen [10]) with 1; lia).
    change W_recv with (firstn 21 W_recv ++ [0]).
    rewrite (log_ok junk buf fd 128 _ [] _ t [] Hj ltac:(lia) ltac:(lia) ltac:(lia) Hr). cbn [bind].
    assert (Hb1 : zlen (overwrite buf (t ++ [0])) = 128) by (rewrite zlen_overwrite; [lia|rewrite zlen_app; change (zlen [0]) with 1; lia]).
    set (b1 := overwrite buf (t ++ [0])) in *.
    assert (Er : Write fd t = recv) by (unfold recv, log; rewrite Efd; f_equal; unfold t; rewrite <- !app_assoc; reflexivity).
    rewrite Er, Efd. destruct (will_shutdown s).
    + destruct (plain_text junk b1 (log_to s) (text "Forcing shut down! " ++ [10]) T_force eq_refl eq_refl Hj Hb1) as [-> _]. reflexivity.
    + destruct (shutdown_fd s =? -1); cbn [negb].
      * destruct (plain_text junk b1 (log_to s) (text "No shutdown handler, shutting down! " ++ [10]) T_none eq_refl eq_refl Hj Hb1) as [-> _]. reflexivity.
      * destruct (plain_text junk b1 (log_to s) (text "Sending shutdown command. " ++ [10]) T_send eq_refl eq_refl Hj Hb1) as [-> Hb2]. cbn [bind].
        destruct sent; cbn [negb]; [reflexivity|].
        destruct (plain_text junk _ (log_to s) (text "Failed to send shutdown command, shutting down immediately! " ++ [10]) T_fail eq_refl eq_refl Hj Hb2) as [-> _].
        reflexivity.
  - set (t := text "Unknown console event [" ++ d ++ (text "], shutting down! " ++ [10])).
    assert (Hr : renders (firstn 44 W_unknown) [AInt 1 (as_int type)] t []).
    { change (firstn 44 W_unknown) with (text "Unknown console event [" ++ 37 :: 100 :: (text "], shutting down! " ++ [10])).
      apply renders_plain; [chars|]. apply renders_dec; [assumption|assumption|]. apply tail_renders. chars. }
    assert (Lt : zlen t < 127) by (unfold t; rewrite !zlen_app; change (zlen (text "Unknown console event [")) with 23;
      change (zlen (text "], shutting down! ")) with 18; change (zlen [10]) with 1; lia).
    change W_unknown with (firstn 44 W_unknown ++ [0]).
    rewrite (log_ok junk buf fd 128 _ [] _ t [] Hj ltac:(lia) ltac:(lia) ltac:(lia) Hr). cbn [bind app].
    unfold log. rewrite Efd. unfold t. rewrite <- !app_assoc. reflexivity.
Qed.
Print Assumptions wsignal_console.
Example wsignal_console_ex : decimal (as_int 1) [49] /\
  console_handler (repeat 0 32) (repeat 0 128) true 4 (mk_sigs 9 7 false 11) 1
  = Ok ([Write 9 (text "Received : CTRL_BREAK event, (1) " ++ [10]); Write 9 (text "Sending shutdown command. " ++ [10]); Write 7 [1]],
        Some (mk_sigs 9 7 true 4)).
Proof.
  split; [|vm_compute; reflexivity]. left. split; [cbn; lia|].
  exists [1]. split; [reflexivity|]. split; [repeat constructor; lia|]. split; [reflexivity|]. split; easy.
Qed.

Lemma decimal_exists n : exists d, decimal n d.
Proof.
  destruct (Z_lt_dec n 0) as [H|H].
  - destruct (numeral_exists 10 ltac:(lia) (- n) ltac:(lia)) as [d Hd]. exists (45 :: d). right. split; [lia|]. exists d. auto.
  - destruct (numeral_exists 10 ltac:(lia) n ltac:(lia)) as [d Hd]. exists d. left. split; [lia|assumption].
Qed.
(** The bytes sent to descriptor [fd], and the exit codes. *)
Definition sent_to (fd : Z) (l : list act) : list (list Z) := flat_map (fun a => match a with Write f b => if f =? fd then [b] else [] | _ => [] end) l.
Definition exits (l : list act) : list Z := flat_map (fun a => match a with Exit c => [c] | _ => [] end) l.
Lemma sent_to_app fd a b : sent_to fd (a ++ b) = sent_to fd a ++ sent_to fd b.
Proof. unfold sent_to. now rewrite flat_map_app. Qed.
Lemma exits_app a b : exits (a ++ b) = exits a ++ exits b.
Proof. unfold exits. now rewrite flat_map_app. Qed.

(** C120: for every sequence of events handled one after the other, with a shutdown socket other than the
    log's descriptor: at most one byte is sent; the process goes on exactly if there was no event, or
    one CTRL_C or CTRL_BREAK, not asked for before, whose byte was taken; else it ends with 1. *)
Theorem wsignal_events junk s l : zlen junk = 32 -> shutdown_fd s <> -1 -> log_to s <> shutdown_fd s ->
  Forall (fun x => let '(buf, _, _, type) := x in zlen buf = 128 /\ 0 <= type < 2 ^ 32) l ->
  exists a o, console_run junk s l = Ok (a, o) /\
    (sent_to (shutdown_fd s) a = [] \/ sent_to (shutdown_fd s) a = [[1]]) /\
    match l with
    | [] => o = Some s /\ a = []
    | (_, sent, err, type) :: l' =>
        let first := negb (will_shutdown s) && ((type =? 0) || (type =? 1)) in
        (sent_to (shutdown_fd s) a = [[1]] <-> first = true) /\
        if first && sent && match l' with [] => true | _ => false end
        then o = Some (mk_sigs (log_fd s) (shutdown_fd s) true err) /\ exits a = []
        else o = None /\ exits a = [1]
    end.
Proof.
  intros Hj Hf Hl Fl. destruct l as [|[[[buf sent] err] type] l']; [exists [], (Some s); cbn; auto|].
  pose proof (Forall_inv Fl) as H0. pose proof (Forall_inv_tail Fl) as Fl'. cbv beta iota in H0. destruct H0 as [Hb Ht]. destruct (decimal_exists (as_int type)) as [d Hd].
  cbn [console_run]. rewrite (wsignal_console junk buf sent err s type d Hj Hb Ht Hd). cbv zeta.
  rewrite (proj2 (Z.eqb_neq _ _) Hf).
  assert (Nl : forall t, sent_to (shutdown_fd s) [Write (log_to s) t] = []) by (intro t; cbn; now rewrite (proj2 (Z.eqb_neq _ _) Hl)).
  assert (Ns : sent_to (shutdown_fd s) [Write (shutdown_fd s) [1]] = [[1]]) by (cbn; now rewrite Z.eqb_refl).
  assert (Ne : forall c, sent_to (shutdown_fd s) [Exit c] = []) by reflexivity.
  destruct ((type =? 0) || (type =? 1)) eqn:Ek.
  2:{ do 2 eexists. split; [cbn [bind]; reflexivity|]. rewrite Bool.andb_false_r. cbn [andb].
      match goal with |- context [Write (log_to s) ?t] => change ([Write (log_to s) t; Exit 1]) with ([Write (log_to s) t] ++ [Exit 1]) end.
      rewrite sent_to_app, Nl, Ne. cbn [app]. repeat split; auto; discriminate. }
  rewrite Bool.andb_true_r. destruct (will_shutdown s) eqn:Ew; cbn [negb andb].
  { do 2 eexists. split; [cbn [bind]; reflexivity|].
    match goal with |- context [[Write (log_to s) ?t; Write (log_to s) ?u; Exit 1]] =>
      change ([Write (log_to s) t; Write (log_to s) u; Exit 1]) with ([Write (log_to s) t] ++ [Write (log_to s) u] ++ [Exit 1]) end.
    rewrite !sent_to_app, !Nl, Ne. cbn [app]. repeat split; auto; discriminate. }
  destruct sent; cbn [andb].
  2:{ do 2 eexists. split; [cbn [bind]; reflexivity|].
    match goal with |- context [[Write (log_to s) ?t; Write (log_to s) ?u; Write ?f ?x; Write (log_to s) ?v; Exit 1]] =>
      change ([Write (log_to s) t; Write (log_to s) u; Write f x; Write (log_to s) v; Exit 1]) with ([Write (log_to s) t] ++ [Write (log_to s) u] ++ [Write f x] ++ [Write (log_to s) v] ++ [Exit 1]) end.
    rewrite !sent_to_app, !Nl, Ns, Ne. cbn [app]. repeat split; auto. }
  cbn [bind]. destruct l' as [|[[[buf2 sent2] err2] type2] l''].
  - cbn [console_run bind]. do 2 eexists. split; [reflexivity|]. rewrite app_nil_r.
    match goal with |- context [[Write (log_to s) ?t; Write (log_to s) ?u; Write ?f ?x]] =>
      change ([Write (log_to s) t; Write (log_to s) u; Write f x]) with ([Write (log_to s) t] ++ [Write (log_to s) u] ++ [Write f x]) end.
    rewrite !sent_to_app, !Nl, Ns. cbn [app]. repeat split; auto.
  - pose proof (Forall_inv Fl') as H0. cbv beta iota in H0. destruct H0 as [Hb2 Ht2]. destruct (decimal_exists (as_int type2)) as [d2 Hd2].
    cbn [console_run]. rewrite (wsignal_console junk buf2 sent2 err2 _ type2 d2 Hj Hb2 Ht2 Hd2). cbv zeta. cbn [will_shutdown log_fd shutdown_fd].
    change (log_to (mk_sigs (log_fd s) (shutdown_fd s) true err)) with (log_to s).
    destruct ((type2 =? 0) || (type2 =? 1)); cbn [bind]; do 2 eexists; (split; [reflexivity|]).
    + match goal with |- context [[Write (log_to s) ?t; Write (log_to s) ?u; Write ?f ?x] ++ [Write (log_to s) ?v; Write (log_to s) ?w; Exit 1]] =>
        change ([Write (log_to s) t; Write (log_to s) u; Write f x] ++ [Write (log_to s) v; Write (log_to s) w; Exit 1]) with ([Write (log_to s) t] ++ [Write (log_to s) u] ++ [Write f x] ++ [Write (log_to s) v] ++ [Write (log_to s) w] ++ [Exit 1]) end.
      rewrite !sent_to_app, !Nl, Ns, Ne. cbn [app]. repeat split; auto.
    + match goal with |- context [[Write (log_to s) ?t; Write (log_to s) ?u; Write ?f ?x] ++ [Write (log_to s) ?v; Exit 1]] =>
        change ([Write (log_to s) t; Write (log_to s) u; Write f x] ++ [Write (log_to s) v; Exit 1]) with ([Write (log_to s) t] ++ [Write (log_to s) u] ++ [Write f x] ++ [Write (log_to s) v] ++ [Exit 1]) end.
      rewrite !sent_to_app, !Nl, Ns, Ne. cbn [app]. repeat split; auto.
Qed.
Print Assumptions wsignal_events.
Example wsignal_events_ex : exists a, console_run (repeat 0 32) (mk_sigs (-1) 7 false 0)
    [(repeat 0 128, true, 0, 0); (repeat 0 128, true, 0, 2); (repeat 0 128, true, 0, 1)] = Ok (a, None) /\
  sent_to 7 a = [[1]] /\ exits a = [1].
Proof. eexists. split; [vm_compute; reflexivity|]. split; reflexivity. Qed.

(** C121: a fatal signal is logged by name and number and ends the process with 1; an
    exception nobody handles is logged with its code, printed as an int, and passed on to
    Windows. *)
Theorem wsignal_fatal junk buf s sig d code dc : zlen junk = 32 -> zlen buf = 128 ->
  0 <= sig < 2 ^ 31 -> decimal sig d -> 0 <= code < 2 ^ 32 -> decimal (as_int code) dc ->
  std_on_fatal junk buf s sig = Ok [Write (err_to s) (text "Fatal signal : [" ++ std_name sig ++ text "][" ++ d ++ text "], shutting down! " ++ [10]); Exit 1] /\
  won_fatal junk buf s code = Ok ([Write (err_to s) (text "Fatal signal : " ++ dc ++ text ", shutting down! " ++ [10])], 0).
Proof.
  intros Hj Hb Hs Hd Hc Hdc. unfold std_on_fatal, won_fatal.
  set (fd := if negb (log_fd s =? -1) then log_fd s else 2).
  assert (Efd : fd = err_to s) by (unfold fd, err_to; destruct (log_fd s =? -1); reflexivity). split.
  - pose proof (decimal_len sig d ltac:(lia) Hd) as Ld. set (name := std_name sig).
    assert (En : (if sig =? 11 then N_segv else if sig =? 22 then N_abrt else if sig =? 8 then N_fpe else if sig =? 4 then N_ill else N_unknown) = name ++ [0])
      by (unfold name, std_name; destruct (sig =? 11), (sig =? 22), (sig =? 8), (sig =? 4); reflexivity).
    assert (Hn : nonul name /\ zlen name <= 16).
    { unfold name, std_name. destruct (sig =? 11), (sig =? 22), (sig =? 8), (sig =? 4); cbn; (split; [unfold nonul; cbn; intuition discriminate|lia]). }
    destruct Hn as [Hn Ln]. rewrite En.
    set (t := text "Fatal signal : [" ++ name ++ text "][" ++ d ++ (text "], shutting down! " ++ [10])).
    assert (Hr : renders (firstn 41 W_std) [AStr (Some (name ++ [0])); AInt 1 sig] t []).
    { change (firstn 41 W_std) with (text "Fatal signal : [" ++ 37 :: 115 :: text "][" ++ 37 :: 100 :: (text "], shutting down! " ++ [10])).
      apply renders_plain; [chars|]. apply r_string; [assumption|]. apply renders_plain; [chars|].
      apply renders_dec; [lia|assumption|]. apply tail_renders. chars. }
    assert (Lt : zlen t < 127) by (unfold t; rewrite !zlen_app; change (zlen (text "Fatal signal : [")) with 16; change (zlen (text "][")) with 2;
      change (zlen (text "], shutting down! ")) with 18; change (zlen [10]) with 1; lia).
    change W_std with (firstn 41 W_std ++ [0]).
    rewrite (log_ok junk buf fd 128 _ [] _ t [] Hj ltac:(lia) ltac:(lia) ltac:(lia) Hr). cbn [bind app]. rewrite Efd. reflexivity.
  - destruct (i32_as code Hc) as [Ei Hi]. rewrite Ei. pose proof (decimal_len _ dc Hi Hdc) as Ld.
    set (t := text "Fatal signal : " ++ dc ++ (text ", shutting down! " ++ [10])).
    assert (Hr : renders (firstn 35 W_fatal) [AInt 1 (as_int code)] t []).
    { change (firstn 35 W_fatal) with (text "Fatal signal : " ++ 37 :: 100 :: (text ", shutting down! " ++ [10])).
      apply renders_plain; [chars|]. apply renders_dec; [assumption|assumption|]. apply tail_renders. chars. }
    assert (Lt : zlen t < 127) by (unfold t; rewrite !zlen_app; change (zlen (text "Fatal signal : ")) with 15;
      change (zlen (text ", shutting down! ")) with 17; change (zlen [10]) with 1; lia).
    change W_fatal with (firstn 35 W_fatal ++ [0]).
    rewrite (log_ok junk buf fd 128 _ [] _ t [] Hj ltac:(lia) ltac:(lia) ltac:(lia) Hr). cbn [bind app]. rewrite Efd. reflexivity.
Qed.
Print Assumptions wsignal_fatal.
(** An access violation, 0xC0000005, is printed as a negative number. *)
Example wsignal_fatal_ex : as_int 3221225477 = -1073741819 /\
  won_fatal (repeat 0 32) (repeat 0 128) (mk_sigs (-1) 7 false 11) 3221225477 =
    Ok ([Write 2 (text "Fatal signal : -1073741819, shutting down! " ++ [10])], 0) /\
  std_on_fatal (repeat 0 32) (repeat 0 128) (mk_sigs (-1) 7 false 11) 22 =
    Ok [Write 2 (text "Fatal signal : [SIGABRT][22], shutting down! " ++ [10]); Exit 1].
Proof. repeat split; vm_compute; reflexivity. Qed.

(** C121: init installs the four handlers, or none and returns -1 if the console handler is
    refused; in both cases no descriptor is set; a CTRL_C by way of SIGINT does the same as one of the
    console. *)
Theorem wsignal_init granted p : let '(p', rc) := wsig_init granted p in
  rc = (if granted then 0 else -1) /\ log_fd (wsigs p') = -1 /\ shutdown_fd (wsigs p') = -1 /\
  will_shutdown (wsigs p') = will_shutdown (wsigs p) /\
  (on_console p', on_exception p', on_abort p', on_int p') =
    (if granted then (true, true, true, true) else (on_console p, on_exception p, on_abort p, on_int p)) /\
  forall junk buf sent err sig, std_on_shutdown junk buf sent err (wsigs p') sig = console_handler junk buf sent err (wsigs p') 0.
Proof. unfold wsig_init. destruct granted; cbn; repeat split. Qed.
Print Assumptions wsignal_init.
Example wsignal_init_ex : wsig_init true (mk_wproc (mk_sigs 5 6 true 0) false false false false) = (mk_wproc (mk_sigs (-1) (-1) true 0) true true true true, 0).
Proof. reflexivity. Qed.
