(** C54, C55, C72, C73: condition/sc_cond.c and mutex/sc_mutex.c. *)
From Verif Require Import Base CondModel CondSpec CondProofs.

(** C54.  Whatever the schedule, the wakeups and the number of threads, the calls and
    returns are those of a one-slot mailbox whose calls act at one moment each. *)
Theorem cond_mailbox s h : reachable s h -> linearizable h.
Proof. intro H. destruct (reach_sim s h H) as (r & m & R & V & _). exists r, m. auto. Qed.
Print Assumptions cond_mailbox.
(** Two threads; the wait blocks, wakes spuriously, blocks again and is woken. *)
Definition cond_demo : list (nat * choice) :=
  [(0, Start_wait); (0, Run); (0, Run); (0, Run); (0, Spurious); (0, Run); (0, Run); (0, Run);
   (1, Start_signal 7); (1, Run); (1, Run); (1, Run); (1, Wake [0]); (1, Run);
   (0, Run); (0, Run); (0, Run); (0, Run); (0, Run); (0, Run)]%nat.
Example cond_mailbox_ex : exists s, reachable s [Call_wait 0; Call_signal 1 7; Ret_signal 1; Ret_wait 0 7].
Proof.
  destruct (reach_by 2 cond_demo (fun _ h => match h with
    [Call_wait 0; Call_signal 1 7; Ret_signal 1; Ret_wait 0 7] => true | _ => false end)) as (s & h & R & E);
    [vm_compute; reflexivity|]. exists s.
  repeat match type of E with (match ?x with _ => _ end) = true => destruct x; try discriminate E end. exact R.
Qed.
(** In a mailbox every delivery takes the value of the signal that acted last before
    it, and that signal is not delivered again. *)
Theorem cond_mailbox_last l t : forall s s', mrun s (l ++ [Act t]) s' -> forall v, stat s' t = Received v ->
  slot s' = None /\ exists s1, mrun s l s1 /\ slot s1 = Some v.
Proof.
  induction l as [|e l IH]; intros s s' H v Hv; inversion H as [|? ? s1 ? ? H1 H2]; subst.
  - inversion H2; subst. inversion H1; subst; cbn in Hv; rewrite set_same in Hv; [discriminate|].
    injection Hv as ->. split; [reflexivity|]. exists s. split; [constructor|assumption].
  - destruct (IH s1 s' H2 v Hv) as (A & s2 & B & C). split; [exact A|]. exists s2. split; [econstructor; eauto|exact C].
Qed.
Print Assumptions cond_mailbox_last.
Example cond_mailbox_last_ex : exists s', mrun mail_start ([Ev (Call_wait 0); Ev (Call_signal 1 7); Act 1; Ev (Ret_signal 1)] ++ [Act 0]) s' /\
  stat s' 0 = Received 7.
Proof.
  eexists. split.
  - econstructor; [apply m_call_wait; reflexivity|]. econstructor; [apply m_call_signal; reflexivity|].
    econstructor; [apply m_signal; reflexivity|]. econstructor; [apply m_ret_signal; reflexivity|].
    econstructor; [apply m_wait; reflexivity|]. constructor.
  - reflexivity.
Qed.
(** C54.  A value is delivered at most as often as it was sent: nothing is invented
    or delivered twice. *)
Theorem cond_no_duplicate s h v : reachable s h -> (receipts v h <= sends v h)%nat.
Proof. intro H. apply linearizable_counts. exact (cond_mailbox s h H). Qed.
Print Assumptions cond_no_duplicate.
Example cond_no_duplicate_ex : receipts 7 [Call_wait 0; Call_signal 1 7; Ret_signal 1; Ret_wait 0 7] = 1%nat /\
  sends 7 [Call_wait 0; Call_signal 1 7; Ret_signal 1; Ret_wait 0 7] = 1%nat.
Proof. split; reflexivity. Qed.

(** C55.  While a signal is pending and a thread is anywhere inside sc_cond_wait
    before taking it, the code can go on by itself, without new calls or spurious
    wakeups and waking one thread at a time, until a wait returns. *)
Theorem cond_no_lost_wakeup s h t : reachable s h -> cdone s = true ->
  (pcs s t = W_lock \/ pcs s t = W_wait \/ pcs s t = W_relock \/ pcs s t = W_test) ->
  exists l s' h' u v, exec s l = Some (s', h') /\ forallb (fun x => own_step (snd x)) l = true /\ In (Ret_wait u v) h'.
Proof.
  intros H Hd Hp. destruct (reach_sim s h H) as (r & m & _ & _ & S).
  apply (delivery (rank (at_owner s)) s m t S Hd); [|lia].
  destruct Hp as [-> | [-> | [-> | ->]]]; reflexivity.
Qed.
Print Assumptions cond_no_lost_wakeup.
(** Thread 0 is blocked, thread 1 has set done and not yet woken anybody. *)
Example cond_no_lost_wakeup_ex : exists s h, reachable s h /\ cdone s = true /\ pcs s 0%nat = W_wait.
Proof.
  destruct (reach_by 2 (firstn 12 cond_demo) (fun s _ => cdone s && blocked (pcs s 0%nat))) as (s & h & R & E); [vm_compute; reflexivity|].
  apply andb_true_iff in E as [E1 E2]. exists s, h. split; [exact R|]. split; [exact E1|]. destruct (pcs s 0%nat); easy.
Qed.
(** C55.  With a signal pending no thread stays blocked alone: as soon as the mutex is
    free, some thread that was woken is on its way to it. *)
Theorem cond_awake s h t : reachable s h -> cdone s = true -> owner s = None -> pcs s t = W_wait ->
  exists u, pcs s u = W_relock /\ exists s', step s u Run = Some (s', []).
Proof.
  intros H Hd Ho Hp. destruct (reach_sim s h H) as (r & m & _ & _ & [So Ss St Sw Si]).
  destruct Sw as (u & Hu & Hq); [exact Hd|exists t; now rewrite Hp|].
  assert (A : holding (pcs s u) = false) by (destruct (holding (pcs s u)) eqn:E; [apply So in E; congruence|reflexivity]).
  exists u. destruct (pcs s u) eqn:E; try easy. split; [reflexivity|].
  unfold step. rewrite (ltb_true _ _ Hu), E, Ho. eexists. reflexivity.
Qed.
Print Assumptions cond_awake.
Example cond_awake_ex : exists s h, reachable s h /\ cdone s = true /\ owner s = None /\ pcs s 0%nat = W_wait.
Proof.
  destruct (reach_by 3 ([(0, Start_wait); (0, Run); (0, Run); (0, Run); (2, Start_wait); (2, Run); (2, Run); (2, Run)] ++
      [(1, Start_signal 7); (1, Run); (1, Run); (1, Run); (1, Wake [2]); (1, Run)])%nat
    (fun s _ => cdone s && match owner s with None => true | _ => false end && blocked (pcs s 0%nat))) as (s & h & R & E); [vm_compute; reflexivity|].
  apply andb_true_iff in E as [E1 E2]. apply andb_true_iff in E1 as [E0 E1]. exists s, h. split; [exact R|]. split; [exact E0|].
  split; [destruct (owner s); easy|destruct (pcs s 0%nat); easy].
Qed.
(** At most one thread is in the critical section. *)
Theorem cond_exclusive s h t u : reachable s h -> holding (pcs s t) = true -> holding (pcs s u) = true -> t = u.
Proof.
  intros H Ht Hu. destruct (reach_sim s h H) as (r & m & _ & _ & [So _ _ _ _]). apply So in Ht, Hu. congruence.
Qed.
Print Assumptions cond_exclusive.
Example cond_exclusive_ex : exists s h, reachable s h /\ holding (pcs s 1%nat) = true /\ holding (pcs s 0%nat) = false.
Proof.
  destruct (reach_by 2 (firstn 12 cond_demo) (fun s _ => holding (pcs s 1%nat) && negb (holding (pcs s 0%nat)))) as (s & h & R & E); [vm_compute; reflexivity|].
  apply andb_true_iff in E as [E1 E2]. apply negb_true_iff in E2. exists s, h. auto.
Qed.

(** C72.  sc_cond_init leaves a mutex and a condition variable on success and
    nothing on failure, where it returns -1 and sets errno to the error. *)
Theorem cond_init_resources ra rm rc err :
  let '(acts, ret, errno, init) := cond_init ra rm rc err in
  (ra = 0 /\ rm = 0 /\ rc = 0 /\ ret = 0 /\ init = true /\ alive acts [] = Some [Mutex; Cond]) \/
  (ret = -1 /\ init = false /\ errno <> 0 /\ (errno = ra \/ errno = rm \/ errno = rc) /\ alive acts [] = Some []).
Proof.
  unfold cond_init. destruct (Z.eqb_spec ra 0); cbn [negb]; [|right; cbn; auto 10].
  destruct (Z.eqb_spec rm 0); cbn [negb]; [|right; cbn; auto 10].
  destruct (Z.eqb_spec rc 0); cbn [negb]; [left|right]; cbn; auto 10.
Qed.
Print Assumptions cond_init_resources.
Example cond_init_ex : cond_init 0 0 12 0 = ([Create Attr; Create Mutex; Destroy Mutex; Destroy Attr], -1, 12, false).
Proof. reflexivity. Qed.
(** C72.  sc_cond_term after sc_cond_init destroys both and returns 0 when the
    calls succeed; a second term does nothing.  Missing: calls that fail, for which the
    header is not followed (cond_term_refuted). *)
Theorem cond_term_resources_partial rm rc :
  let '(acts, ret, init) := cond_term true rm rc in
  init = false /\ (ret = 0 <-> rm = 0 /\ rc = 0) /\ (ret = 0 -> alive acts [Mutex; Cond] = Some []) /\
  forall rm2 rc2, cond_term init rm2 rc2 = ([], 0, false).
Proof.
  unfold cond_term. cbn [negb]. destruct (Z.eqb_spec rm 0), (Z.eqb_spec rc 0); cbn [negb andb Z.eqb]; subst;
    repeat split; intros; try tauto; try reflexivity; try (destruct (Z.eqb_spec rm 0); cbn in *; congruence); try lia.
  all: try (rewrite (proj2 (Z.eqb_neq rm 0)) in * by assumption; cbn in *; tauto).
Qed.
Print Assumptions cond_term_resources_partial.
Example cond_term_ex : cond_term true 16 0 = ([Destroy Cond], 16, false).
Proof. reflexivity. Qed.
(** C72 as the header states it (negative on error) fails: the error number is positive;
    and the mutex that could not be destroyed stays behind for good. *)
Theorem cond_term_refuted : exists acts ret, cond_term true 16 0 = (acts, ret, false) /\ 0 < ret /\ alive acts [Mutex; Cond] = Some [Mutex].
Proof. exists [Destroy Cond], 16. split; [reflexivity|]. split; [lia|reflexivity]. Qed.
Print Assumptions cond_term_refuted.
(** C73.  The mutex wrapper creates one mutex or none, and leaves no attribute object. *)
Theorem mutex_resources ra rm :
  let '(acts, ret) := mutex_init ra rm in
  (ret = 0 /\ ra = 0 /\ rm = 0 /\ alive acts [] = Some [Mutex] /\
     forall r, let '(acts2, ret2) := mutex_term r in
       (ret2 = 0 /\ alive (acts ++ acts2) [] = Some []) \/ (ret2 = -1 /\ alive (acts ++ acts2) [] = Some [Mutex])) \/
  (ret = -1 /\ (ra <> 0 \/ rm <> 0) /\ alive acts [] = Some []).
Proof.
  unfold mutex_init, mutex_term. destruct (Z.eqb_spec ra 0); cbn [negb]; [|right; cbn; auto].
  destruct (Z.eqb_spec rm 0); cbn [negb]; [left|right; cbn; auto].
  cbn. repeat split; auto. intro r. destruct (Z.eqb_spec r 0); cbn; auto.
Qed.
Print Assumptions mutex_resources.
Example mutex_ex : mutex_init 0 0 = ([Create Attr; Create Mutex; Destroy Attr], 0).
Proof. reflexivity. Qed.
