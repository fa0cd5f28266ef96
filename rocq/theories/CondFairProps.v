(** C161: condition/sc_cond.c under a fair scheduler. *)
From Verif Require Import Base CondModel CondSpec CondProofs CondProps CondFairSpec CondFairProofs.

(** C161.  In every endless run with a fair scheduler and a fair mutex, whatever the
    number of threads, the calls they make and the wakeups: while a signal is pending
    and a thread is anywhere inside sc_cond_wait before taking it, a wait will return. *)
Theorem cond_fair_delivery r i t : is_run r -> fair_scheduler r -> fair_mutex r ->
  cdone (state r i) = true ->
  (pcs (state r i) t = W_lock \/ pcs (state r i) t = W_wait \/ pcs (state r i) t = W_relock \/ pcs (state r i) t = W_test) ->
  exists j u v, (i <= j)%nat /\ In (Ret_wait u v) (says r j).
Proof.
  intros R S M D [H|[H|[H|H]]].
  - apply (g_lock r R S M i t); auto.
  - apply (g_wait r R S M i t); auto.
  - apply (g_lock r R S M i t); auto.
  - apply (g_test r R S i t); auto.
Qed.
Print Assumptions cond_fair_delivery.
(** C161.  Every call of sc_cond_signal returns. *)
Theorem cond_fair_signal r i t d : is_run r -> fair_scheduler r -> fair_mutex r ->
  In (Call_signal t d) (says r i) -> exists j, (i < j)%nat /\ In (Ret_signal t) (says r j).
Proof.
  intros R S M H. apply (called_signal r R) in H. destruct (signal_acts r R S M _ t d H) as (j & L & A & _).
  destruct (signal_ret r R S j t d A) as (k & L2 & B). exists k. split; [lia|exact B].
Qed.
Print Assumptions cond_fair_signal.
(** C161.  When a thread has called sc_cond_wait and then somebody calls
    sc_cond_signal, a call of sc_cond_wait returns. *)
Theorem cond_fair_wait r i t j s d : is_run r -> fair_scheduler r -> fair_mutex r ->
  In (Call_wait t) (says r i) -> (i <= j)%nat -> In (Call_signal s d) (says r j) ->
  exists k u v, (i < k)%nat /\ In (Ret_wait u v) (says r k).
Proof.
  intros R S M W L H. apply (called_wait r R) in W. apply (called_signal r R) in H.
  destruct (signal_acts r R S M _ s d H) as (k & Lk & A & D).
  destruct (stays r R (k - (i + 1)) (Datatypes.S i) t) as [B|(l & v & Ll & B)]; [now rewrite W| |exists l, t, v; split; [lia|exact B]].
  replace (Datatypes.S i + (k - (i + 1)))%nat with k in B by lia.
  assert (N : holding (pcs (state r k) t) = false).
  { destruct (holding (pcs (state r k) t)) eqn:E; [|reflexivity].
    assert (F : t = s) by (apply (alone r R k); [exact E|now rewrite A]). subst. rewrite A in B. discriminate B. }
  destruct (cond_fair_delivery r k t R S M D) as (l & u & v & Ll & Hl); [destruct (pcs (state r k) t); try discriminate; auto|].
  exists l, u, v. split; [lia|exact Hl].
Qed.
Print Assumptions cond_fair_wait.
(** C161.  If one thread only waits, its own wait returns. *)
Theorem cond_fair_sole r i t j s d : is_run r -> fair_scheduler r -> fair_mutex r ->
  (forall k u, In (Call_wait u) (says r k) -> u = t) ->
  In (Call_wait t) (says r i) -> (i <= j)%nat -> In (Call_signal s d) (says r j) ->
  exists k v, (i < k)%nat /\ In (Ret_wait t v) (says r k).
Proof.
  intros R S M O W L H. destruct (cond_fair_wait r i t j s d R S M W L H) as (k & u & v & Lk & A).
  destruct (wait_called r R k u (ret_in r R k u v A)) as (l & _ & B). apply O in B. subst. eauto.
Qed.
Print Assumptions cond_fair_sole.

(** The run of cond_demo, after which nobody moves any more. *)
Definition demo_state (i : nat) : cond :=
  match exec (cond_start 2) (firstn i cond_demo) with Some (s, _) => s | None => cond_start 0 end.
Definition demo_run : endless := mk_endless demo_state (nth_error cond_demo)
  (fun i => match nth_error cond_demo i with
            | Some (t, c) => match step (demo_state i) t c with Some (_, e) => e | None => [] end
            | None => []
            end).
Lemma demo_late i : demo_state (20 + i) = demo_state 20.
Proof. unfold demo_state. rewrite !firstn_all2; [reflexivity|cbn; lia|cbn; lia]. Qed.
Lemma demo_split i : (i < 20)%nat \/ exists k, i = (20 + k)%nat.
Proof. destruct (Nat.lt_ge_cases i 20) as [H|H]; [auto|right; exists (i - 20)%nat; lia]. Qed.
Lemma demo_is_run : is_run demo_run.
Proof.
  split; [exists 2%nat; reflexivity|]. intro i. cbn [demo_run mover state says]. destruct (demo_split i) as [H|[k ->]].
  - do 20 (destruct i as [|i]; [vm_compute; reflexivity|]). lia.
  - assert (E : nth_error cond_demo (20 + k) = None) by (apply nth_error_None; cbn; lia). rewrite E.
    split; [|reflexivity]. change (S (20 + k)) with (20 + S k)%nat. now rewrite !demo_late.
Qed.
Definition moves_soon (i t : nat) : bool :=
  existsb (fun j => Nat.leb i j && match nth_error cond_demo j with Some (u, _) => Nat.eqb u t | None => false end) (seq 0 20).
Lemma demo_soon i t : holding (pcs (demo_state i) t) || wants (pcs (demo_state i) t) = true -> exists j, (i <= j)%nat /\ moves demo_run j t.
Proof.
  intro H. assert (S : moves_soon i t = true).
  { destruct (demo_split i) as [L|[k ->]].
    - destruct t as [|[|t]]; do 20 (destruct i as [|i]; [vm_compute in H |- *; first [reflexivity | discriminate H]|]); lia.
    - rewrite demo_late in H. destruct t as [|[|t]]; vm_compute in H; discriminate H. }
  apply existsb_exists in S as (j & _ & A). apply andb_true_iff in A as [A B]. apply Nat.leb_le in A. exists j. split; [exact A|].
  unfold moves. cbn [demo_run mover]. destruct (nth_error cond_demo j) as [[u c]|]; [|discriminate B].
  apply Nat.eqb_eq in B as ->. eauto.
Qed.
(** Thread 0 waits (called at moment 0), thread 1 signals (at 8); the run is fair, done is
    set with thread 0 blocked at 12, and only thread 0 waits. *)
Example cond_fair_ex : is_run demo_run /\ fair_scheduler demo_run /\ fair_mutex demo_run /\
  In (Call_wait 0) (says demo_run 0) /\ In (Call_signal 1 7) (says demo_run 8) /\
  cdone (state demo_run 12) = true /\ pcs (state demo_run 12) 0%nat = W_wait /\
  (forall k u, In (Call_wait u) (says demo_run k) -> u = 0%nat).
Proof.
  split; [exact demo_is_run|]. split; [intros i t H; apply demo_soon; cbn [demo_run state] in H; now rewrite H|].
  split; [intros i t H _; apply demo_soon; cbn [demo_run state] in H; rewrite H; apply orb_true_r|].
  split; [vm_compute; auto|]. split; [vm_compute; auto|]. split; [reflexivity|]. split; [reflexivity|].
  intros k u H. destruct (demo_split k) as [L|[l ->]].
  - do 20 (destruct k as [|k]; [vm_compute in H; repeat (destruct H as [H|H]; [try discriminate H; injection H as <-; reflexivity|]); now destruct H|]). lia.
  - cbn [demo_run says] in H. assert (E : nth_error cond_demo (20 + l) = None) by (apply nth_error_None; cbn; lia). rewrite E in H. easy.
Qed.
