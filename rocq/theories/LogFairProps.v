(** C162: logger/sc_log.c called by several threads under a fair scheduler. *)
From Coq Require Import String Ascii.
From Verif Require Import Base CStr CNum SigSpec StrSpec StrProofs IniModel LogModel LogSpec LogProofs
  LogConcModel LogConcSpec LogConcProofs LogConcInv LogConcProps LogFairSpec LogFairProofs.
Local Open Scope list_scope.

(** C162.  In every endless run with a fair scheduler and a fair mutex, with any number of
    threads that make any calls (but sc_log_init and sc_log_term) and any results of the
    operations on files, every call returns. *)
Theorem log_fair_returns atomic f h0 w0 rcs0 r i t o :
  Forall op_ok h0 -> run (start f) h0 = Ok (w0, rcs0) -> is_run atomic w0 r -> fair_scheduler r -> fair_mutex r ->
  In (Inv t o) (says r i) -> exists j rc, (i < j)%nat /\ In (Ret t rc) (says r j).
Proof.
  intros H0 E0 R S M H. destruct (called atomic w0 r R i t o H) as [p E].
  destruct (r_any atomic w0 r (run_good _ _ _ _ H0 E0) R S M _ t p E) as (j & rc & L & A). exists j, rc. split; [lia|exact A].
Qed.
Print Assumptions log_fair_returns.

(** A finite schedule, after which nobody moves any more. *)
Section Finite.
Context (at_ : bool) (w0 : world) (cs : list choice) (Hg : good w0) (Hc : Forall call_ok cs).
Definition f_state (i : nat) : machine :=
  match mrun at_ (quiet_machine w0) (firstn i cs) with Ok (m, _) => m | _ => quiet_machine w0 end.
Definition f_run : endless := mk_endless f_state (nth_error cs)
  (fun i => match nth_error cs i with
            | Some c => match mstep at_ (f_state i) c with Ok (_, e) => e | _ => [] end
            | None => []
            end).
Lemma f_late i : (length cs <= i)%nat -> f_state i = f_state (length cs).
Proof. intro L. unfold f_state. rewrite (firstn_all2 cs L), firstn_all. reflexivity. Qed.
Lemma firstn_more (i : nat) : forall (l : list choice) c, nth_error l i = Some c -> firstn (S i) l = firstn i l ++ [c].
Proof.
  induction i as [|i IH]; intros [|x l] c E; try discriminate E; cbn in *; [congruence|]. f_equal. now apply IH.
Qed.
Lemma f_is_run : is_run at_ w0 f_run.
Proof.
  split; [reflexivity|]. intro i. cbn [f_run pick state says]. destruct (nth_error cs i) as [c|] eqn:E.
  - assert (Fc : call_ok c) by (eapply Forall_forall; [exact Hc|]; eapply nth_error_In; exact E). split; [exact Fc|].
    assert (Fi : Forall call_ok (firstn i cs)) by (rewrite <- (firstn_skipn i cs) in Hc; now apply Forall_app in Hc).
    destruct (mrun_inv at_ w0 _ _ [] (inv_start at_ w0 Hg) Fi) as (m & es & d & E1 & _ & I1).
    destruct (mstep_inv at_ w0 m _ c I1 Fc) as (m2 & es2 & d2 & E2 & _ & _).
    unfold f_state. rewrite (firstn_more i cs c E). rewrite E1.
    rewrite (mrun_app at_ _ _ m es [c] m2 es2 E1); [rewrite E2; reflexivity|]. cbn [mrun]. rewrite E2. cbn [bind]. now rewrite app_nil_r.
  - apply nth_error_None in E. split; [|reflexivity]. rewrite (f_late i E). apply f_late. lia.
Qed.
Context (He : forall t, m_prog (f_state (length cs)) t = None).
Lemma f_moves n : forall i t p, m_prog (f_state i) t = Some p -> (length cs <= i + n)%nat ->
  exists j, (i <= j)%nat /\ pick f_run j = Some (Go t) /\ (asks p = true -> m_own (f_state j) = None).
Proof.
  induction n as [|n IH]; intros i t p E L; [rewrite Nat.add_0_r in L; rewrite (f_late i L), He in E; discriminate E|].
  assert (K : forall q, m_prog (f_state (S i)) t = Some q -> (asks p = true -> asks q = true) ->
    exists j, (i <= j)%nat /\ pick f_run j = Some (Go t) /\ (asks p = true -> m_own (f_state j) = None)).
  { intros q Eq A. destruct (IH (S i) t q Eq) as (j & Lj & B & C); [lia|]. exists j. split; [lia|]. auto. }
  destruct (pick_dec f_run i t) as [D|D]; [|destruct (keep at_ w0 f_run Hg f_is_run i t p D E) as (K1 & _); exact (K p K1 (fun x => x))].
  destruct p as [rc|k|k|k|lv k|s k|a]; try (exists i; split; [lia|]; split; [exact D|discriminate]).
  destruct (m_own (f_state i)) as [x|] eqn:O; [|exists i; auto].
  pose proof (proj2 f_is_run i) as H. rewrite D in H. destruct H as [_ H]. cbn [mstep f_run state] in H. unfold go in H. rewrite E, O in H.
  injection H as H _. apply (K (Lock k)); [now rewrite <- H|auto].
Qed.
Lemma f_fair : fair_scheduler f_run /\ fair_mutex f_run.
Proof.
  split.
  - intros i t p E _. destruct (f_moves (length cs) i t p E) as (j & L & A & _); [lia|]. exists j. auto.
  - intros i t p E A _. destruct (f_moves (length cs) i t p E) as (j & L & B & C); [lia|]. exists j. auto.
Qed.
End Finite.
Lemma none_kept at_ t cs : forall m m' es, mrun at_ m cs = Ok (m', es) -> m_prog m t = None ->
  Forall (fun c => match c with Call u _ => u <> t | Go _ => True end) cs -> m_prog m' t = None.
Proof.
  induction cs as [|c cs IH]; intros m m' es E N F; cbn [mrun] in E; [now injection E as <- <-|].
  destruct (mstep at_ m c) as [[m1 e1]| |] eqn:S; cbn [bind] in E; try discriminate E.
  destruct (mrun at_ m1 cs) as [[m2 e2]| |] eqn:R; cbn [bind] in E; try discriminate E. injection E as <- <-.
  inversion F as [|? ? F1 F2]; subst. apply (IH m1 m2 e2 R); [|exact F2]. destruct c as [u o|u]; cbn [mstep] in S.
  - destruct (m_prog m u); [now injection S as <- _|]. destruct (code at_ o); cbn [bind] in S; try discriminate S. injection S as <- _.
    cbn. now rewrite upd_other by auto.
  - destruct (Z.eq_dec u t) as [-> |Nu].
    + unfold go in S. rewrite N in S. now injection S as <- _.
    + unfold go in S. assert (Nt : t <> u) by auto. destruct (m_prog m u) as [[rc|k|k|k|lv k|s k|a]|];
        try (destruct (m_own m) as [x|]; try destruct (x =? u)); try discriminate S;
        try (destruct (strncpy _ s _); cbn [bind] in S); try (destruct (a _ _) as [[x' k]| |]; cbn [bind] in S); try discriminate S;
        injection S as <- _; cbn; rewrite ?upd_other by exact Nt; exact N.
Qed.

(** Two threads log at the same time; the second gets the mutex first. *)
Definition both_world : world := with_lg (start (fun _ => None)) (set_stdout (fst (init 0)) true).
Example log_fair_ex : exists r, run (start (fun _ => None)) [Init 0; SetStdout true] = Ok (both_world, [0; 0]) /\
  is_run false both_world r /\ fair_scheduler r /\ fair_mutex r /\
  In (Inv 1 (tell 1 (text "one"))) (says r 0) /\ m_own (state r 5) = Some 2 /\
  match m_prog (state r 5) 1 with Some p => asks p = true | None => False end.
Proof.
  assert (E : run (start (fun _ => None)) [Init 0; SetStdout true] = Ok (both_world, [0; 0])) by reflexivity.
  assert (G : good both_world) by (eapply run_good; [|exact E]; repeat constructor).
  assert (C : Forall call_ok both) by (unfold both; repeat apply Forall_cons; try apply Forall_nil; cbn; try exact I; split; lia).
  exists (f_run false both_world both). split; [exact E|]. split; [apply f_is_run; assumption|].
  assert (N : forall t, m_prog (f_state false both_world both (length both)) t = None).
  { intro t. destruct (Z.eq_dec t 1) as [-> |N1]; [vm_compute; reflexivity|]. destruct (Z.eq_dec t 2) as [-> |N2]; [vm_compute; reflexivity|].
    unfold f_state. rewrite firstn_all. destruct (mrun false (quiet_machine both_world) both) as [[m es]| |] eqn:R; try reflexivity.
    apply (none_kept false t both _ _ _ R); [reflexivity|]. unfold both. repeat apply Forall_cons; try apply Forall_nil; auto. }
  destruct (f_fair false both_world both G C N) as [F1 F2]. split; [exact F1|]. split; [exact F2|].
  split; [vm_compute; auto|]. split; vm_compute; reflexivity.
Qed.
