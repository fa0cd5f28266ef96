(** C91-C93: signal/sc_signal.c, setting up, fatal signals, interrupting signals. *)
From Coq Require Import String Ascii.
From Verif Require Import Base CStr StrSpec StrProofs SigModel SigSpec SigProofs SigProps FatalModel.
Local Open Scope list_scope.
Local Open Scope Z_scope.

(** ** What is to be set up *)
(** The signals that end the program by default and are reported. *)
Definition crash_signals : list Z := [6; 11; 7; 8; 4].
(** What each signal has to be set to: SIGHUP (1) and SIGPIPE (13) ignored, SIGTERM
    (15) and SIGINT (2) handled as requests to end, the crash signals as crashes
    with the signal neither blocked meanwhile nor caught again. *)
Definition wanted (sig : Z) : option action :=
  if (sig =? 1) || (sig =? 13) then Some (mk_action Ignore false false)
  else if (sig =? 15) || (sig =? 2) then Some (mk_action Shutdown false false)
  else if existsb (Z.eqb sig) crash_signals then Some (mk_action Fatal true true)
  else None.

(** C91.  sc_signal_init sets every signal it is responsible for as wanted if the
    kernel grants the request, leaves every other signal alone, sets both
    descriptors to -1, and returns 0 if all requests were granted, else -1. *)
Theorem signal_setup ok p p' rc :
  signal_init ok p = (p', rc) ->
  (forall sig, disp p' sig = match wanted sig with Some a => if ok sig then a else disp p sig | None => disp p sig end) /\
  log_fd (vars p') = -1 /\ shutdown_fd (vars p') = -1 /\ blocked p' = blocked p /\
  rc = (if forallb ok [1; 13; 15; 2; 6; 11; 7; 8; 4] then 0 else -1).
Proof.
  unfold signal_init. intros E. injection E as <- <-. cbn [disp vars blocked log_fd shutdown_fd].
  split; [|split; [reflexivity|split; [reflexivity|split; [reflexivity|]]]].
  - intros sig. unfold sigaction, wanted, crash_signals, SIGHUP, SIGPIPE, SIGTERM, SIGINT, SIGABRT, SIGSEGV, SIGBUS, SIGFPE, SIGILL.
    cbn [existsb].
    destruct (Z.eqb_spec sig 1) as [->|]; [cbn; destruct (ok 1); rewrite ?andb_false_r; reflexivity|].
    destruct (Z.eqb_spec sig 13) as [->|]; [cbn; destruct (ok 13); rewrite ?andb_false_r; reflexivity|].
    destruct (Z.eqb_spec sig 15) as [->|]; [cbn; destruct (ok 15); rewrite ?andb_false_r; reflexivity|].
    destruct (Z.eqb_spec sig 2) as [->|]; [cbn; destruct (ok 2); rewrite ?andb_false_r; reflexivity|].
    destruct (Z.eqb_spec sig 6) as [->|]; [cbn; destruct (ok 6); rewrite ?andb_false_r; reflexivity|].
    destruct (Z.eqb_spec sig 11) as [->|]; [cbn; destruct (ok 11); rewrite ?andb_false_r; reflexivity|].
    destruct (Z.eqb_spec sig 7) as [->|]; [cbn; destruct (ok 7); rewrite ?andb_false_r; reflexivity|].
    destruct (Z.eqb_spec sig 8) as [->|]; [cbn; destruct (ok 8); rewrite ?andb_false_r; reflexivity|].
    destruct (Z.eqb_spec sig 4) as [->|]; [cbn; destruct (ok 4); rewrite ?andb_false_r; reflexivity|].
    rewrite !andb_false_r. reflexivity.
  - unfold SIGHUP, SIGPIPE, SIGTERM, SIGINT, SIGABRT, SIGSEGV, SIGBUS, SIGFPE, SIGILL. cbn [forallb].
    rewrite andb_true_r, !andb_assoc. reflexivity.
Qed.
Print Assumptions signal_setup.
Example signal_setup_ex :
  let p := mk_proc (fun _ => mk_action Default false false) [] (mk_sigs 5 6 false 0) in
  let (p', rc) := signal_init (fun s => negb (s =? 11)) p in
  (rc, map (fun s => hnd (disp p' s)) [13; 15; 8; 11; 3], vars p') =
  (-1, [Ignore; Shutdown; Fatal; Default; Default], mk_sigs (-1) (-1) false 0).
Proof. reflexivity. Qed.

(** ** The crash report *)
(** The name of a crash signal. *)
Definition crash_name (sig : Z) : list Z :=
  if sig =? 6 then text "SIGABRT" else if sig =? 11 then text "SIGSEGV" else if sig =? 7 then text "SIGBUS"
  else if sig =? 8 then text "SIGFPE" else if sig =? 4 then text "SIGILL" else text "unknown signal".
(** The texts of the report, [d] being the number of the signal, [c] the text of the
    instruction pointer if known; the backtrace stands behind the latter. *)
Definition report (fd sig : Z) (d : list Z) (c : option (list Z)) : list fact :=
  let line t := Log (Write fd ([10] ++ t ++ [10])) in
  [line (text "Signal : [" ++ d ++ text "][" ++ crash_name sig ++ text "] ");
   line (text "----------------- CRASH REPORT ---------------- ")] ++
  match c with
  | Some c => [line (text " Caller [0x" ++ c ++ text "] " ++ [10]); Trace fd]
  | None => []
  end ++
  [line (text "--------------- CRASH REPORT END -------------- ");
   line (text "Signal handler completed! ")].

Lemma signal_ok sig name d : 0 < sig < 2 ^ 31 -> nonul name -> numeral 10 sig d ->
  renders (firstn 20 T_signal) [AInt 1 sig; AStr (Some (name ++ [0]))]
    ([10; 83; 105; 103; 110; 97; 108; 32; 58; 32; 91] ++ d ++ [93; 91] ++ name ++ [93; 32; 10]) [].
Proof.
  intros Hs Hn Hd.
  change (firstn 20 T_signal) with ([10; 83; 105; 103; 110; 97; 108; 32; 58; 32; 91] ++ 37 :: modifier 1 ++ 100 :: [93; 91] ++ 37 :: 115 :: [93; 32; 10] ++ []).
  apply renders_plain; [plain|]. apply r_signed; [lia|cbn; lia|assumption|]. apply renders_plain; [plain|].
  apply r_string; [assumption|]. rewrite <- (app_nil_r [93; 32; 10]) at 2. apply renders_plain; [plain|]. constructor.
Qed.
Lemma caller_ok v c : 0 <= v < 2 ^ 64 -> numeral 16 v c ->
  renders (firstn 16 T_caller) [APtr v] ([10; 32; 67; 97; 108; 108; 101; 114; 32; 91] ++ 48 :: 120 :: c ++ [93; 32; 10; 10]) [].
Proof.
  intros Hv Hc.
  change (firstn 16 T_caller) with ([10; 32; 67; 97; 108; 108; 101; 114; 32; 91] ++ 37 :: 112 :: [93; 32; 10; 10] ++ []).
  apply renders_plain; [plain|]. apply r_pointer; [assumption|assumption|].
  rewrite <- (app_nil_r [93; 32; 10; 10]) at 2. apply renders_plain; [plain|]. constructor.
Qed.
Lemma on_fatal_ok junk buf caller s sig d c : zlen junk = 32 -> zlen buf = 4096 -> 0 < sig < 2 ^ 31 -> numeral 10 sig d ->
  match caller, c with Some v, Some c => 0 <= v < 2 ^ 64 /\ numeral 16 v c | None, None => True | _, _ => False end ->
  let fd := if log_fd s =? -1 then 2 else log_fd s in
  on_fatal junk buf caller s sig =
    Ok (report fd sig d c ++ [Shut fd; Set_ sig (mk_action Default true true); Kill sig]).
Proof.
  intros Hj Hb Hs Hd Hc fd. unfold on_fatal.
  replace (if negb (log_fd s =? -1) then log_fd s else 2) with fd by (unfold fd; destruct (log_fd s =? -1); reflexivity).
  clearbody fd.
  pose proof (numeral_zlen 10 sig 10 d ltac:(lia) ltac:(lia) ltac:(lia) Hd) as Ld.
  assert (En : fatal_str sig = crash_name sig ++ [0]).
  { unfold fatal_str, crash_name, SIGABRT, SIGSEGV, SIGBUS, SIGFPE, SIGILL.
    destruct (Z.eqb_spec sig 11) as [->|]; [reflexivity|]. destruct (sig =? 6), (sig =? 7), (sig =? 8), (sig =? 4); reflexivity. }
  assert (Hn : nonul (crash_name sig) /\ zlen (crash_name sig) <= 15).
  { unfold crash_name. destruct (sig =? 6), (sig =? 11), (sig =? 7), (sig =? 8), (sig =? 4); cbn;
      (split; [unfold nonul; cbn; intuition discriminate|lia]). }
  destruct Hn as [Hn Ln]. rewrite En. set (name := crash_name sig) in *.
  pose proof (signal_ok sig name d Hs Hn Hd) as Hr.
  set (t := [10; 83; 105; 103; 110; 97; 108; 32; 58; 32; 91] ++ d ++ [93; 91] ++ name ++ [93; 32; 10]) in *.
  assert (Lt : zlen t < 4095).
  { unfold t. rewrite !zlen_app. change (zlen [10; 83; 105; 103; 110; 97; 108; 32; 58; 32; 91]) with 11.
    change (zlen [93; 91]) with 2. change (zlen [93; 32; 10]) with 3. lia. }
  assert (Ow : forall b x, zlen b = 4096 -> zlen x < 4095 -> zlen (overwrite b (x ++ [0])) = 4096).
  { intros b x L1 L2. rewrite zlen_overwrite; [lia|rewrite zlen_app; change (zlen [0]) with 1; lia]. }
  assert (C : forall b x, zlen b = 4096 -> zlen x < 4095 -> Forall (fun c => c <> 37 /\ c <> 0) x ->
     sig_log junk b fd 4096 (x ++ [0]) [] = Ok (overwrite b (x ++ [0]), [Write fd x])).
  { intros b x L1 L2 Hx. apply const_ok; auto; lia. }
  change T_signal with (firstn 20 T_signal ++ [0]).
  rewrite (log_ok junk buf fd 4096 _ [] _ t [] Hj ltac:(lia) ltac:(lia) ltac:(lia) Hr). cbn [bind].
  pose proof (Ow _ _ Hb Lt) as Hb1. set (b1 := overwrite buf (t ++ [0])) in *. clearbody b1.
  change T_report with (([10] ++ text "----------------- CRASH REPORT ---------------- " ++ [10]) ++ [0]).
  rewrite C; [|assumption|vm_compute; reflexivity|vm_compute; repeat (constructor; [split; easy|]); constructor]. cbn [bind].
  match goal with |- context [overwrite b1 (?x ++ [0])] => pose proof (Ow b1 x Hb1 ltac:(vm_compute; reflexivity)) as Hb2; set (b2 := overwrite b1 (x ++ [0])) in * end.
  clearbody b2.
  assert (K : forall b3 a3, zlen b3 = 4096 ->
    (let* (buf, a4) := sig_log junk b3 fd 4096 T_end [] in
     let* (_, a5) := sig_log junk buf fd 4096 T_done [] in
     Ok (map Log [Write fd t] ++ map Log [Write fd ([10] ++ text "----------------- CRASH REPORT ---------------- " ++ [10])] ++ a3 ++ map Log a4 ++ map Log a5 ++ [Shut fd; Set_ sig (mk_action Default true true); Kill sig])) =
    Ok (map Log [Write fd t] ++ map Log [Write fd ([10] ++ text "----------------- CRASH REPORT ---------------- " ++ [10])] ++ a3 ++
        [Log (Write fd ([10] ++ text "--------------- CRASH REPORT END -------------- " ++ [10]));
         Log (Write fd ([10] ++ text "Signal handler completed! " ++ [10]));
         Shut fd; Set_ sig (mk_action Default true true); Kill sig])).
  { intros b3 a3 Hb3.
    change T_end with (([10] ++ text "--------------- CRASH REPORT END -------------- " ++ [10]) ++ [0]).
    rewrite C; [|assumption|vm_compute; reflexivity|vm_compute; repeat (constructor; [split; easy|]); constructor]. cbn [bind].
    change T_done with (([10] ++ text "Signal handler completed! " ++ [10]) ++ [0]).
    rewrite C; [reflexivity| |vm_compute; reflexivity|vm_compute; repeat (constructor; [split; easy|]); constructor].
    apply Ow; [assumption|vm_compute; reflexivity]. }
  assert (Et : t = [10] ++ (text "Signal : [" ++ d ++ text "][" ++ name ++ text "] ") ++ [10]).
  { unfold t. change (text "Signal : [") with [83; 105; 103; 110; 97; 108; 32; 58; 32; 91]. change (text "][") with [93; 91].
    change (text "] ") with [93; 32]. rewrite <- !app_assoc. reflexivity. }
  destruct caller as [v|], c as [c|]; try contradiction.
  - destruct Hc as [Hv Hc]. pose proof (numeral_zlen 16 v 16 c ltac:(lia) ltac:(lia) ltac:(change (16 ^ 16) with (2 ^ 64); lia) Hc) as Lc.
    pose proof (caller_ok v c Hv Hc) as Hrc.
    set (tc := [10; 32; 67; 97; 108; 108; 101; 114; 32; 91] ++ 48 :: 120 :: c ++ [93; 32; 10; 10]) in *.
    assert (Ltc : zlen tc < 4095).
    { unfold tc. rewrite zlen_app. change (zlen [10; 32; 67; 97; 108; 108; 101; 114; 32; 91]) with 10.
      rewrite (zlen_cons 48), (zlen_cons 120), zlen_app. change (zlen [93; 32; 10; 10]) with 4. lia. }
    change T_caller with (firstn 16 T_caller ++ [0]).
    rewrite (log_ok junk b2 fd 4096 _ [] _ tc [] Hj ltac:(lia) ltac:(lia) ltac:(lia) Hrc). cbn [bind].
    rewrite K; [|apply Ow; assumption]. f_equal. unfold report. rewrite Et. cbn [map app].
    replace tc with ([10] ++ (text " Caller [0x" ++ c ++ text "] " ++ [10]) ++ [10]); [reflexivity|].
    unfold tc. change (text " Caller [0x") with [32; 67; 97; 108; 108; 101; 114; 32; 91; 48; 120]. change (text "] ") with [93; 32].
    rewrite <- !app_assoc. reflexivity.
  - cbn [bind]. rewrite K by assumption. f_equal. unfold report. rewrite Et. reflexivity.
Qed.

(** C92.  After a successful sc_signal_init, a crash signal that is not blocked has the
    report written to the log descriptor (or standard error), the descriptor closed,
    and the process is ended by that same signal. *)
Theorem signal_crash junk buf sent err caller ok p p1 log d c p2 sig :
  zlen junk = 32 -> zlen buf = 4096 -> signal_init ok p = (p1, 0) ->
  p2 = mk_proc (disp p1) (blocked p1) (mk_sigs log (shutdown_fd (vars p1)) (will_shutdown (vars p1)) (errno_ (vars p1))) ->
  In sig crash_signals -> ~ In sig (blocked p) -> numeral 10 sig d ->
  match caller, c with Some v, Some c => 0 <= v < 2 ^ 64 /\ numeral 16 v c | None, None => True | _, _ => False end ->
  let fd := if log =? -1 then 2 else log in
  exists rest, deliver junk buf sent err caller p2 sig = Ok (report fd sig d c ++ Shut fd :: rest, Killed sig) /\
    Forall (fun f => match f with Log _ | Trace _ | Shut _ => False | _ => True end) rest.
Proof.
  intros Hj Hb E -> Hin Hbl Hd Hc fd.
  assert (Hs : 0 < sig < 2 ^ 31) by (cbn in Hin; decompose [or] Hin; subst; try lia; contradiction).
  destruct (signal_setup ok p p1 0 E) as (H1 & H2 & H3 & H4 & H5).
  assert (Hok : ok sig = true).
  { destruct (forallb ok [1; 13; 15; 2; 6; 11; 7; 8; 4]) eqn:F; [|discriminate H5]. rewrite forallb_forall in F. apply F.
    cbn in Hin |- *. tauto. }
  assert (Hd1 : disp p1 sig = mk_action Fatal true true).
  { rewrite H1. replace (wanted sig) with (Some (mk_action Fatal true true)); [now rewrite Hok|].
    cbn in Hin; decompose [or] Hin; subst; try reflexivity; contradiction. }
  assert (Hnb : existsb (Z.eqb sig) (blocked p1) = false).
  { rewrite H4. destruct (existsb (Z.eqb sig) (blocked p)) eqn:F; [|reflexivity]. apply existsb_exists in F as (x & Hx & Ex).
    apply Z.eqb_eq in Ex. subst x. contradiction. }
  unfold deliver. cbn [disp blocked]. rewrite Hnb, Hd1. cbn [hnd].
  unfold enter. cbn [resethand nodefer vars blocked].
  set (v := mk_sigs log _ _ _).
  rewrite (on_fatal_ok junk buf caller v sig d c Hj Hb Hs Hd Hc). cbn [bind].
  replace (if log_fd v =? -1 then 2 else log_fd v) with fd by reflexivity.
  assert (R : forall q, blocked q = blocked p1 -> run_fatal (report fd sig d c ++ [Shut fd; Set_ sig (mk_action Default true true); Kill sig]) q = Ok (Killed sig)).
  { intros q Hq. unfold report. destruct c; cbn [app run_fatal blocked disp]; rewrite Hq, Hnb; unfold sigaction; rewrite Z.eqb_refl; reflexivity. }
  rewrite R by reflexivity. cbn [bind].
  eexists. split; [reflexivity|]. repeat constructor.
Qed.
Print Assumptions signal_crash.
Example signal_crash_ex :
  let p := mk_proc (fun _ => mk_action Default false false) [2] (mk_sigs 5 6 false 0) in
  signal_init (fun _ => true) p = (fst (signal_init (fun _ => true) p), 0) /\ In 11 crash_signals /\ ~ In 11 (blocked p) /\
  (exists l, deliver (repeat 0 32) (repeat 0 (Z.to_nat 4096)) true 4 (Some 255)
     (let q := fst (signal_init (fun _ => true) p) in mk_proc (disp q) (blocked q) (mk_sigs 9 (-1) false 0)) 11 = Ok (l, Killed 11) /\
     firstn 1 l = [Log (Write 9 ([10] ++ text "Signal : [11][SIGSEGV] " ++ [10]))] /\
     firstn 1 (skipn 2 l) = [Log (Write 9 ([10] ++ text " Caller [0xff] " ++ [10; 10]))] /\ In (Shut 9) l).
Proof.
  cbv zeta. split; [reflexivity|]. split; [cbn; auto|]. split; [cbn; intuition discriminate|].
  eexists. split; [vm_compute; reflexivity|]. split; [vm_compute; reflexivity|]. split; [vm_compute; reflexivity|].
  do 6 right. left. reflexivity.
Qed.
(** C92.  After a successful sc_signal_init SIGHUP and SIGPIPE do nothing. *)
Theorem signal_ignored junk buf sent err caller ok p p1 sig :
  signal_init ok p = (p1, 0) -> sig = 1 \/ sig = 13 -> ~ In sig (blocked p) ->
  deliver junk buf sent err caller p1 sig = Ok ([], Runs p1).
Proof.
  intros E Hs Hb. destruct (signal_setup ok p p1 0 E) as (H1 & _ & _ & H4 & H5).
  destruct (forallb ok [1; 13; 15; 2; 6; 11; 7; 8; 4]) eqn:F; [|discriminate H5].
  rewrite forallb_forall in F. assert (Hok : ok sig = true) by (apply F; destruct Hs as [->| ->]; cbn; auto).
  unfold deliver. rewrite H4.
  destruct (existsb (Z.eqb sig) (blocked p)) eqn:B.
  { apply existsb_exists in B as (x & Hx & Ex). apply Z.eqb_eq in Ex. subst x. contradiction. }
  rewrite H1. destruct Hs as [->| ->]; cbn; rewrite Hok; reflexivity.
Qed.
Print Assumptions signal_ignored.
Example signal_ignored_ex :
  let p := mk_proc (fun _ => mk_action Default false false) [] (mk_sigs 5 6 false 0) in
  signal_init (fun _ => true) p = (fst (signal_init (fun _ => true) p), 0) /\
  deliver [] [] true 0 None p 13 = Ok ([], Killed 13).
Proof. split; reflexivity. Qed.

(** ** Signals interrupting each other *)
(** A process in which no handler runs and no request to end was seen. *)
Definition idle (n : nest) : Prop := frames n = [] /\ will n = false /\ taken n = 0 /\ exit_code n = None.

(** How many frames passed the test without having sent yet. *)
Definition owes (f : frame) : Z := match fpc f with Tested | Marked | Sending => 1 | _ => 0 end.
Fixpoint owed (l : list frame) : Z := match l with [] => 0 | f :: r => owes f + owed r end.
Lemma owed_len l : 0 <= owed l <= zlen l.
Proof. induction l as [|f r IH]; cbn [owed]; [rewrite (zlen_nil frame); lia|]. rewrite zlen_cons. unfold owes. destruct (fpc f); lia. Qed.
Definition saved_ok (e0 : Z) (n : nest) : Prop :=
  match rev (frames n) with [] => True | f :: _ => fsaved f = e0 end.
Record inv (e0 fd0 : Z) (n : nest) : Prop := {
  i_fd : sfd n = fd0;
  i_sigs : NoDup (map fsig (frames n)) /\ Forall (fun f => fsig f = 2 \/ fsig f = 15) (frames n);
  i_will : will n = false -> taken n = 0 /\ Forall (fun f => fpc f = Entered \/ fpc f = Tested) (frames n);
  i_count : 0 <= taken n /\ taken n + owed (frames n) <= 2;
  i_errno : match frames n with [] => exit_code n = None -> nerrno n = e0 | _ => saved_ok e0 n end }.
Lemma distinct_two (l : list frame) : NoDup (map fsig l) -> Forall (fun f => fsig f = 2 \/ fsig f = 15) l -> zlen l <= 2.
Proof.
  intros Hd Hf. assert (H : (length (map fsig l) <= length [2%Z; 15%Z])%nat).
  { apply NoDup_incl_length; [assumption|]. intros x Hx. apply in_map_iff in Hx as (f & <- & Hin). rewrite Forall_forall in Hf.
    destruct (Hf f Hin) as [-> | ->]; cbn; auto. }
  rewrite map_length in H. cbn in H. unfold zlen. lia.
Qed.
Lemma saved_tail e0 f r sfd w e t x f' : saved_ok e0 (mk_nest (f :: r) sfd w e t x) -> fsaved f' = fsaved f ->
  forall sfd' w' e' t' x', saved_ok e0 (mk_nest (f' :: r) sfd' w' e' t' x').
Proof.
  unfold saved_ok. cbn [frames]. intros H Hf *. cbn [rev] in *. destruct (rev r); cbn in *; congruence.
Qed.
Lemma saved_push e0 f g r sfd w e t x sfd' w' e' t' x' :
  saved_ok e0 (mk_nest (g :: r) sfd w e t x) <-> saved_ok e0 (mk_nest (f :: g :: r) sfd' w' e' t' x').
Proof.
  unfold saved_ok. cbn [frames]. change (rev (f :: g :: r)) with (rev (g :: r) ++ [f]).
  destruct (rev (g :: r)) eqn:E; [apply (f_equal (@length frame)) in E; rewrite rev_length in E; discriminate E|]. reflexivity.
Qed.
Lemma inv_step e0 fd0 a b : nstep a b -> inv e0 fd0 a -> inv e0 fd0 b.
Proof.
  intros Hs [I1 [I2 I2'] I3 [I4 I4'] I5]. destruct a as [fr sf wl er tk ex]. cbn [frames sfd will nerrno taken exit_code] in *.
  inversion Hs; subst; clear Hs; cbn [frames sfd will nerrno taken exit_code] in *; subst.
  - (* signal *)
    split; cbn [frames sfd will nerrno taken exit_code map fsig]; auto.
    + split; [constructor; assumption|]. constructor; [|assumption]. cbn. unfold SIGINT, SIGTERM in *. tauto.
    + intros Hw. destruct (I3 Hw) as [? ?]. split; [assumption|]. constructor; [now left|assumption].
    + destruct fr as [|g r]; [cbn; auto|]. eapply (proj1 (saved_push _ _ _ _ _ _ _ _ _ _ _ _ _ _)). exact I5.
  - (* test *)
    cbn [map] in I2. pose proof (Forall_inv I2') as Hf. pose proof (Forall_inv_tail I2') as Hr.
    destruct wl.
    + split; cbn [frames sfd will nerrno taken exit_code]; auto; try discriminate.
    + destruct (I3 eq_refl) as [Ht HF]. split; cbn [frames sfd will nerrno taken exit_code map fsig fpc]; auto.
      * intros _. split; [assumption|]. inversion HF; subst. constructor; [now right|assumption].
      * split; [lia|]. assert (L : zlen (f :: r) <= 2) by (apply distinct_two; assumption). rewrite zlen_cons in L.
        pose proof (owed_len r). cbn [owed owes fpc]. lia.
      * eapply saved_tail; [exact I5|reflexivity].
  - (* mark *)
    cbn [map] in I2. pose proof (Forall_inv I2') as Hf. pose proof (Forall_inv_tail I2') as Hr.
    split; cbn [frames sfd will nerrno taken exit_code map fsig]; auto.
    + discriminate.
    + cbn [owed] in *. unfold owes in *. rewrite H1 in I4'. cbn [fpc]. lia.
    + eapply saved_tail; [exact I5|reflexivity].
  - (* fd *)
    cbn [map] in I2. pose proof (Forall_inv I2') as Hf. pose proof (Forall_inv_tail I2') as Hr.
    destruct (fd0 =? -1).
    + split; cbn [frames sfd will nerrno taken exit_code]; auto.
    + split; cbn [frames sfd will nerrno taken exit_code map fsig]; auto.
      * intros Hw. destruct (I3 Hw) as [_ HF]. destruct (Forall_inv HF) as [X|X]; rewrite X in H1; discriminate H1.
      * cbn [owed] in *. unfold owes in *. rewrite H1 in I4'. cbn [fpc]. lia.
      * eapply saved_tail; [exact I5|reflexivity].
  - (* write *)
    cbn [map] in I2. pose proof (Forall_inv I2') as Hf. pose proof (Forall_inv_tail I2') as Hr.
    split; cbn [frames sfd will nerrno taken exit_code map fsig]; auto.
    + intros Hw. destruct (I3 Hw) as [_ HF]. destruct (Forall_inv HF) as [X|X]; rewrite X in H1; discriminate H1.
    + cbn [owed] in *. unfold owes in *. rewrite H1 in I4'. cbn [fpc]. destruct took; lia.
    + eapply saved_tail; [exact I5|reflexivity].
  - (* sent *)
    cbn [map] in I2. pose proof (Forall_inv I2') as Hf. pose proof (Forall_inv_tail I2') as Hr.
    destruct took.
    + split; cbn [frames sfd will nerrno taken exit_code map fsig]; auto.
      * intros Hw. destruct (I3 Hw) as [_ HF]. destruct (Forall_inv HF) as [X|X]; rewrite X in H1; discriminate H1.
      * cbn [owed] in *. unfold owes in *. rewrite H1 in I4'. cbn [fpc]. lia.
      * eapply saved_tail; [exact I5|reflexivity].
    + split; cbn [frames sfd will nerrno taken exit_code]; auto.
  - (* return *)
    cbn [map] in I2. inversion I2; subst. pose proof (Forall_inv_tail I2') as Hr.
    split; cbn [frames sfd will nerrno taken exit_code]; auto.
    + intros Hw. destruct (I3 Hw) as [Ht HF]. split; [assumption|]. now inversion HF.
    + cbn [owed] in *. unfold owes in *. rewrite H1 in I4'. lia.
    + destruct r as [|g r]; [cbn in I5; auto|]. eapply (proj2 (saved_push _ _ _ _ _ _ _ _ _ _ _ _ _ _)). exact I5.
Qed.
Lemma inv_idle n : idle n -> inv (nerrno n) (sfd n) n.
Proof.
  intros (H1 & H2 & H3 & H4). split; try rewrite H1; try rewrite H3; auto.
  - split; constructor.
  - cbn. lia.
Qed.
Lemma inv_runs e0 fd0 a b : nruns a b -> inv e0 fd0 a -> inv e0 fd0 b.
Proof. induction 1; eauto using inv_step. Qed.

Lemma no_fd n m : nruns n m -> frames n = [] -> taken n = 0 -> sfd n = -1 ->
  taken m = 0 /\ sfd m = -1 /\ Forall (fun f => fpc f = Entered \/ fpc f = Tested \/ fpc f = Marked) (frames m).
Proof.
  induction 1 as [n|a b c Hab IH Hbc]; intros H1 H2 H3; [rewrite H1; auto|].
  destruct (IH H1 H2 H3) as (T & S & F).
  destruct Hbc as [n sig e X1 X2 X3|n f r e X1 X2 X3|n f r X1 X2 X3|n f r e X1 X2 X3|n f r e took X1 X2 X3|n f r e took X1 X2 X3|n f r X1 X2 X3];
    cbn [taken sfd frames]; try (rewrite X2 in F; pose proof (Forall_inv F) as F1; pose proof (Forall_inv_tail F) as F2; cbn beta in F1).
  - repeat split; auto.
  - destruct (will n); cbn [taken sfd frames]; repeat split; auto.
  - repeat split; auto.
  - rewrite S. cbn. auto.
  - rewrite X3 in F1. decompose [or] F1; discriminate.
  - rewrite X3 in F1. decompose [or] F1; discriminate.
  - rewrite X3 in F1. decompose [or] F1; discriminate.
Qed.
(** C93.  However SIGINT and SIGTERM interrupt each other's handlers: at most two bytes
    go to the shutdown descriptor, none without one; when no handler runs any more
    errno is what it was; and a signal that comes after a byte was sent ends the
    process with 1.  Missing: at most one byte, see signal_nested_refuted. *)
Theorem signal_nested_partial n m :
  idle n -> nruns n m ->
  0 <= taken m <= 2 /\
  (sfd n = -1 -> taken m = 0) /\
  (frames m = [] -> exit_code m = None -> nerrno m = nerrno n) /\
  (frames m = [] -> exit_code m = None -> 0 < taken m -> forall sig e e', sig = SIGINT \/ sig = SIGTERM ->
     exists m1 m2, nstep m m1 /\ frames m1 = [mk_frame sig Entered (nerrno m)] /\ nerrno m1 = e /\
       nstep m1 m2 /\ nerrno m2 = e' /\ exit_code m2 = Some 1 /\ taken m2 = taken m).
Proof.
  intros Hi Hr. pose proof (inv_runs _ _ _ _ Hr (inv_idle n Hi)) as [I1 [I2 I2'] I3 [I4 I4'] I5].
  pose proof (owed_len (frames m)) as Ho. split; [lia|]. split; [|split].
  - intros Hf. destruct Hi as (H1 & _ & H3 & _). apply (no_fd n m Hr H1 H3 Hf).
  - intros Hf Hx. rewrite Hf in I5. auto.
  - intros Hf Hx Ht sig e e' Hsig.
    assert (W : will m = true).
    { destruct (will m) eqn:W; [reflexivity|]. destruct (I3 eq_refl) as [Z0 _]. lia. }
    exists (mk_nest [mk_frame sig Entered (nerrno m)] (sfd m) (will m) e (taken m) None).
    exists (mk_nest [mk_frame sig Entered (nerrno m)] (sfd m) (will m) e' (taken m) (Some 1)).
    split; [|split; [reflexivity|split; [reflexivity|split; [|auto]]]].
    + pose proof (n_signal m sig e Hx Hsig) as S. rewrite Hf in S. apply S. cbn. auto.
    + pose proof (n_test (mk_nest [mk_frame sig Entered (nerrno m)] (sfd m) (will m) e (taken m) None)
        (mk_frame sig Entered (nerrno m)) [] e' eq_refl eq_refl eq_refl) as S.
      cbn [will sfd taken] in S. rewrite W in S. rewrite W. exact S.
Qed.
Print Assumptions signal_nested_partial.
Tactic Notation "go" hyp(R) tactic(t) :=
  match type of R with nruns ?a ?b =>
    let S := fresh in eassert (S : nstep b _); [t|]; let R' := fresh in pose proof (nr_step _ _ _ R S) as R'; clear R S; rename R' into R; cbn in R
  end.
Example signal_nested_ex : exists m, idle (mk_nest [] 7 false 11 0 None) /\ nruns (mk_nest [] 7 false 11 0 None) m /\
  frames m = [] /\ exit_code m = None /\ taken m = 1 /\ will m = true.
Proof.
  exists (mk_nest [] 7 true 11 1 None). split; [unfold idle; cbn; auto|]. split; [|cbn; auto].
  pose (f p := mk_frame 15 p 11).
  pose proof (nr_refl (mk_nest [] 7 false 11 0 None)) as R.
  go R (apply (n_signal _ 15 5); [reflexivity|right; reflexivity|cbn; intuition discriminate]).
  go R (apply (n_test _ (f Entered) [] 5); reflexivity).
  go R (apply (n_mark _ (f Tested) []); reflexivity).
  go R (apply (n_fd _ (f Marked) [] 5); reflexivity).
  go R (apply (n_write _ (f Sending) [] 5 true); reflexivity).
  go R (apply (n_sent _ (f (Sent true)) [] 5 true); reflexivity).
  go R (apply (n_return _ (f Restoring) []); reflexivity).
  exact R.
Qed.
(** C93, refuted: SIGTERM arrives, and SIGINT while its handler is between testing and
    setting the flag: both send a byte, both handlers return, the second request
    does not end the process. *)
Theorem signal_nested_refuted : exists n m, idle n /\ nruns n m /\ frames m = [] /\ exit_code m = None /\ taken m = 2.
Proof.
  exists (mk_nest [] 7 false 11 0 None), (mk_nest [] 7 true 11 2 None).
  split; [unfold idle; cbn; auto|]. split; [|cbn; auto].
  pose (f p := mk_frame 15 p 11). pose (g p := mk_frame 2 p 5).
  pose proof (nr_refl (mk_nest [] 7 false 11 0 None)) as R.
  go R (apply (n_signal _ 15 5); [reflexivity|right; reflexivity|cbn; intuition discriminate]).
  go R (apply (n_test _ (f Entered) [] 5); reflexivity).
  go R (apply (n_signal _ 2 6); [reflexivity|left; reflexivity|cbn; intuition discriminate]).
  go R (apply (n_test _ (g Entered) [f Tested] 5); reflexivity).
  go R (apply (n_mark _ (g Tested) [f Tested]); reflexivity).
  go R (apply (n_fd _ (g Marked) [f Tested] 5); reflexivity).
  go R (apply (n_write _ (g Sending) [f Tested] 5 true); reflexivity).
  go R (apply (n_sent _ (g (Sent true)) [f Tested] 5 true); reflexivity).
  go R (apply (n_return _ (g Restoring) [f Tested]); reflexivity).
  go R (apply (n_mark _ (f Tested) []); reflexivity).
  go R (apply (n_fd _ (f Marked) [] 5); reflexivity).
  go R (apply (n_write _ (f Sending) [] 5 true); reflexivity).
  go R (apply (n_sent _ (f (Sent true)) [] 5 true); reflexivity).
  go R (apply (n_return _ (f Restoring) []); reflexivity).
  exact R.
Qed.
Print Assumptions signal_nested_refuted.
(** C93.  A signal that is not interrupted does what [on_shutdown] says: the same bytes
    sent, the same end, the same flag and errno. *)
Theorem signal_nested_alone junk buf sent err s sig acts after :
  zlen junk = 32 -> zlen buf = 4096 -> sig = SIGINT \/ sig = SIGTERM ->
  on_shutdown junk buf sent err s sig = Ok (acts, after) ->
  exists m, nruns (mk_nest [] (shutdown_fd s) (will_shutdown s) (errno_ s) 0 None) m /\
    taken m = (if existsb (fun a => match a with Write fd [b] => (fd =? shutdown_fd s) && (b =? 1) | _ => false end) acts && sent then 1 else 0) /\
    match after with
    | Some s' => frames m = [] /\ exit_code m = None /\ will m = will_shutdown s' /\ nerrno m = errno_ s'
    | None => exists c, exit_code m = Some c /\ last acts (Exit 9) = Exit c
    end.
Proof.
  intros Hj Hb Hs E.
  assert (H31 : 0 < sig < 2 ^ 31) by (unfold SIGINT, SIGTERM in Hs; lia).
  destruct (numeral_exists 10 ltac:(lia) sig ltac:(lia)) as [d Hd].
  assert (Ln : d <> []). { destruct Hd as (ds & -> & _ & _ & Hne & _). destruct ds; [contradiction|discriminate]. }
  rewrite (signal_shutdown junk buf sent err s sig d Hj Hb H31 Hd) in E. cbv zeta in E.
  set (F := fun a => match a with Write fd [b] => (fd =? shutdown_fd s) && (b =? 1) | _ => false end) in *.
  set (n0 := mk_nest [] (shutdown_fd s) (will_shutdown s) (errno_ s) 0 None).
  pose (f p := mk_frame sig p (errno_ s)).
  assert (S0 : nruns n0 (mk_nest [f Entered] (shutdown_fd s) (will_shutdown s) err 0 None)).
  { eapply nr_step; [apply nr_refl|]. apply (n_signal n0 sig err); [reflexivity|assumption|cbn; auto]. }
  go S0 (apply (n_test _ (f Entered) [] err); reflexivity).
  destruct (will_shutdown s) eqn:W.
  { injection E as <- <-. eexists. split; [exact S0|]. cbn. eauto. }
  go S0 (apply (n_mark _ (f Tested) []); reflexivity).
  go S0 (apply (n_fd _ (f Marked) [] err); reflexivity).
  destruct (shutdown_fd s =? -1).
  { injection E as <- <-. eexists. split; [exact S0|]. cbn. eauto. }
  go S0 (apply (n_write _ (f Sending) [] err sent); reflexivity).
  go S0 (apply (n_sent _ (f (Sent sent)) [] err sent); reflexivity).
  destruct sent.
  - injection E as <- <-. go S0 (apply (n_return _ (f Restoring) []); reflexivity).
    eexists. split; [exact S0|]. cbn. rewrite Z.eqb_refl. cbn. auto.
  - injection E as <- <-. eexists. split; [exact S0|]. rewrite andb_false_r. cbn. eauto.
Qed.
Print Assumptions signal_nested_alone.
Example signal_nested_alone_ex : exists acts s', on_shutdown (repeat 0 32) (repeat 0 (Z.to_nat 4096)) true 4 (mk_sigs (-1) 7 false 11) 15
  = Ok (acts, Some s') /\ will_shutdown s' = true.
Proof. eexists. eexists. split; [vm_compute; reflexivity|reflexivity]. Qed.
