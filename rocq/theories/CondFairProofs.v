(** Proofs for C161. *)
From Verif Require Import Base CondModel CondSpec CondProofs CondFairSpec.

Section Run.
Context (r : endless) (Hr : is_run r) (Hs : fair_scheduler r) (Hm : fair_mutex r).
Notation P i t := (pcs (state r i) t).

Lemma run_sim i : exists m, sim (state r i) m.
Proof.
  destruct Hr as [[n H0] H]. induction i as [|i [m IH]].
  - rewrite H0. exists mail_start. apply sim_start.
  - specialize (H i). destruct (mover r i) as [[t c]|].
    + destruct (sim_step _ _ _ _ _ _ IH H) as (l & m' & _ & _ & S). eauto.
    + destruct H as [-> _]. eauto.
Qed.
Lemma alone i t u : holding (P i t) = true -> holding (P i u) = true -> t = u.
Proof. destruct (run_sim i) as [m [So _ _ _ _]]. intros A B. apply So in A, B. congruence. Qed.
Lemma held i t : holding (P i t) = true <-> owner (state r i) = Some t.
Proof. destruct (run_sim i) as [m [So _ _ _ _]]. apply So. Qed.
Lemma moves_dec i t : moves r i t \/ ~ moves r i t.
Proof.
  unfold moves. destruct (mover r i) as [[u c]|]; [|right; intros [x H]; discriminate H].
  destruct (Nat.eq_dec u t) as [-> |N]; [left; eauto|right; intros [x H]; congruence].
Qed.

(** A step of another thread. *)
Lemma step_other s t c s' e u : step s t c = Some (s', e) -> u <> t ->
  pcs s' u = pcs s u \/ (pcs s u = W_wait /\ pcs s' u = W_relock).
Proof.
  intros H N. unfold step in H. destruct (negb _); [discriminate|].
  destruct (pcs s t), c; try discriminate H; try (destruct (owner s)); try discriminate H;
    try (destruct (wake s w) as [p|] eqn:W; [|discriminate H]); try destruct (cdone s);
    injection H as <- <-; cbn [pcs]; rewrite goto_other by exact N; auto.
  all: destruct (wake_spec s w p W) as (W1 & W2 & _); destruct (W2 u) as [[-> I] | [-> _]]; auto.
  all: right; destruct (W1 u I); auto.
Qed.
(** Only the holder of the mutex changes done. *)
Lemma step_done s t c s' e : step s t c = Some (s', e) -> cdone s' = cdone s \/ holding (pcs s t) = true.
Proof.
  intros H. unfold step in H. destruct (negb _); [discriminate|].
  destruct (pcs s t), c; try discriminate H; try (destruct (owner s)); try discriminate H;
    try (destruct (wake s w) as [p|] eqn:W; [|discriminate H]); try destruct (cdone s) eqn:D;
    injection H as <- <-; cbn [cdone holding]; auto.
Qed.
Lemma step_clears s t c s' e : step s t c = Some (s', e) -> cdone s = true -> cdone s' = false -> exists v, pcs s' t = W_unlock v.
Proof.
  intros H. unfold step in H. destruct (negb _); [discriminate|].
  destruct (pcs s t), c; try discriminate H; try (destruct (owner s)); try discriminate H;
    try (destruct (wake s w) as [p|] eqn:W; [|discriminate H]); try destruct (cdone s) eqn:D;
    injection H as <- <-; cbn [cdone pcs]; try congruence; rewrite goto_same; eauto.
Qed.

Lemma keep i t : ~ moves r i t -> P (S i) t = P i t \/ (P i t = W_wait /\ P (S i) t = W_relock).
Proof.
  intro N. destruct Hr as [_ H]. specialize (H i). unfold moves in N. destruct (mover r i) as [[u c]|].
  - apply (step_other _ _ _ _ _ _ H). intros ->. apply N. eauto.
  - destruct H as [-> _]. auto.
Qed.
Lemma keep_done i t : ~ moves r i t -> holding (P i t) = true -> cdone (state r (S i)) = cdone (state r i).
Proof.
  intros N A. destruct Hr as [_ H]. specialize (H i). unfold moves in N. destruct (mover r i) as [[u c]|].
  - destruct (step_done _ _ _ _ _ H) as [E|E]; [exact E|]. rewrite (alone i t u A E) in N. destruct N. eauto.
  - destruct H as [-> _]. auto.
Qed.
Lemma first_move n : forall i t, P i t <> W_wait -> moves r (i + n) t ->
  exists j c, (i <= j)%nat /\ mover r j = Some (t, c) /\ P j t = P i t /\ (holding (P i t) = true -> cdone (state r j) = cdone (state r i)).
Proof.
  induction n as [|n IH]; intros i t W M.
  - destruct M as [c M]. rewrite Nat.add_0_r in M. exists i, c. auto.
  - destruct (moves_dec i t) as [[c D]|D]; [exists i, c; auto|].
    destruct (keep i t D) as [K|[K _]]; [|congruence]. replace (i + S n)%nat with (S i + n)%nat in M by lia.
    destruct (IH (S i) t) as (j & c & A & B & C & E); [congruence|exact M|].
    exists j, c. split; [lia|]. split; [exact B|]. split; [congruence|]. intro F.
    rewrite E by congruence. now apply (keep_done i t).
Qed.
Lemma hold_step i t : holding (P i t) = true ->
  exists j c, (i <= j)%nat /\ step (state r j) t c = Some (state r (S j), says r j) /\ P j t = P i t /\ cdone (state r j) = cdone (state r i).
Proof.
  intro A. destruct (Hs i t A) as (k & L & M). replace k with (i + (k - i))%nat in M by lia.
  destruct (first_move (k - i) i t) as (j & c & B & C & D & E); [intro E; now rewrite E in A|exact M|].
  exists j, c. split; [exact B|]. split; [|auto]. destruct Hr as [_ H]. specialize (H j). now rewrite C in H.
Qed.

(** The next place of a thread that holds the mutex. *)
Definition after (p : pc) (done : bool) (q : pc) : Prop :=
  match p with
  | S_data d => q = S_done d | S_done d => q = S_wake d | S_wake d => q = S_unlock d | S_unlock _ => q = Idle
  | W_test => q = (if done then W_load else W_call) | W_call => q = W_wait
  | W_load => exists v, q = W_null v | W_null v => q = W_clear v | W_clear v => q = W_unlock v | W_unlock _ => q = Idle
  | _ => False
  end.
Lemma step_after s t c s' e : step s t c = Some (s', e) -> holding (pcs s t) = true ->
  after (pcs s t) (cdone s) (pcs s' t) /\
  match pcs s t with
  | S_unlock _ => e = [Ret_signal t] /\ owner s' = None
  | W_unlock v => e = [Ret_wait t v] /\ owner s' = None
  | W_call => owner s' = None
  | S_done _ => cdone s' = true
  | W_clear _ => cdone s' = false
  | _ => cdone s' = cdone s
  end.
Proof.
  intros H A. unfold step in H. destruct (negb _); [discriminate|].
  destruct (pcs s t), c; try discriminate H; try discriminate A;
    try (destruct (wake s w) as [p|] eqn:W; [|discriminate H]); try destruct (cdone s) eqn:D;
    injection H as <- <-; cbn [cdone pcs owner after]; rewrite goto_same; eauto.
Qed.

(** A wait returns from moment [i] on. *)
Definition gets (i : nat) : Prop := exists j u v, (i <= j)%nat /\ In (Ret_wait u v) (says r j).
Lemma gets_later i j : (i <= j)%nat -> gets j -> gets i.
Proof. intros L (k & u & v & A & B). exists k, u, v. split; [lia|exact B]. Qed.
Lemma g_unlock i t v : P i t = W_unlock v -> gets i.
Proof.
  intro A. destruct (hold_step i t) as (j & c & L & St & E & _); [now rewrite A|].
  rewrite A in E. destruct (step_after _ _ _ _ _ St) as [_ B]; [now rewrite E|]. rewrite E in B. destruct B as [B _].
  exists j, t, v. split; [exact L|]. rewrite B. now left.
Qed.
Lemma g_clear i t v : P i t = W_clear v -> gets i.
Proof.
  intro A. destruct (hold_step i t) as (j & c & L & St & E & _); [now rewrite A|].
  rewrite A in E. destruct (step_after _ _ _ _ _ St) as [B _]; [now rewrite E|]. rewrite E in B.
  apply (gets_later i (S j)); [lia|]. exact (g_unlock _ t v B).
Qed.
Lemma g_null i t v : P i t = W_null v -> gets i.
Proof.
  intro A. destruct (hold_step i t) as (j & c & L & St & E & _); [now rewrite A|].
  rewrite A in E. destruct (step_after _ _ _ _ _ St) as [B _]; [now rewrite E|]. rewrite E in B.
  apply (gets_later i (S j)); [lia|]. exact (g_clear _ t v B).
Qed.
Lemma g_load i t : P i t = W_load -> gets i.
Proof.
  intro A. destruct (hold_step i t) as (j & c & L & St & E & _); [now rewrite A|].
  rewrite A in E. destruct (step_after _ _ _ _ _ St) as [B _]; [now rewrite E|]. rewrite E in B. destruct B as [v B].
  apply (gets_later i (S j)); [lia|]. exact (g_null _ t v B).
Qed.
Lemma g_test i t : P i t = W_test -> cdone (state r i) = true -> gets i.
Proof.
  intros A D. destruct (hold_step i t) as (j & c & L & St & E & F); [now rewrite A|].
  rewrite A in E. destruct (step_after _ _ _ _ _ St) as [B _]; [now rewrite E|]. rewrite E, F, D in B. cbn in B.
  apply (gets_later i (S j)); [lia|]. exact (g_load _ t B).
Qed.
Lemma lost n : forall i, cdone (state r i) = true -> cdone (state r (i + n)) = false -> gets i.
Proof.
  induction n as [|n IH]; intros i A B; [rewrite Nat.add_0_r in B; congruence|].
  replace (i + S n)%nat with (S i + n)%nat in B by lia. apply (gets_later i (S i)); [lia|].
  destruct (cdone (state r (S i))) eqn:D; [now apply IH|].
  destruct Hr as [_ H]. specialize (H i). destruct (mover r i) as [[t c]|]; [|destruct H as [H _]; rewrite H in D; congruence].
  destruct (step_clears _ _ _ _ _ H A D) as [v C]. exact (g_unlock _ t v C).
Qed.

(** The mutex is free again and again. *)
Definition left (p : pc) : nat :=
  match p with
  | S_data _ => 4 | S_done _ => 3 | S_wake _ => 2 | S_unlock _ => 1
  | W_test => 5 | W_call => 1 | W_load => 4 | W_null _ => 3 | W_clear _ => 2 | W_unlock _ => 1 | _ => 0
  end%nat.
Lemma freed n : forall i t, holding (P i t) = true -> (left (P i t) <= n)%nat -> exists k, (i <= k)%nat /\ owner (state r k) = None.
Proof.
  induction n as [|n IH]; intros i t A B; [destruct (P i t); cbn in *; try discriminate A; lia|].
  destruct (hold_step i t A) as (j & c & L & St & E & F). rewrite <- E in A, B.
  destruct (step_after _ _ _ _ _ St A) as [C D].
  assert (G : (exists k, (S j <= k)%nat /\ owner (state r k) = None) -> exists k, (i <= k)%nat /\ owner (state r k) = None)
    by (intros (k & K1 & K2); exists k; split; [lia|exact K2]).
  apply G. assert (N : forall q, P (S j) t = q -> holding q = true -> (left q <= n)%nat -> exists k, (S j <= k)%nat /\ owner (state r k) = None)
    by (intros q Eq H1 H2; apply (IH (S j) t); rewrite Eq; assumption).
  assert (Z : owner (state r (S j)) = None -> exists k, (S j <= k)%nat /\ owner (state r k) = None) by (intro H; exists (S j); auto).
  destruct (P j t) eqn:Q; try discriminate A; cbn [after left] in C, B.
  - apply (N _ C); [reflexivity|cbn; lia].
  - apply (N _ C); [reflexivity|cbn; lia].
  - apply (N _ C); [reflexivity|cbn; lia].
  - apply Z. apply D.
  - apply (N _ C); destruct (cdone (state r j)); try reflexivity; cbn; lia.
  - apply Z. apply D.
  - destruct C as [v C]. apply (N _ C); [reflexivity|cbn; lia].
  - apply (N _ C); [reflexivity|cbn; lia].
  - apply (N _ C); [reflexivity|cbn; lia].
  - apply Z. apply D.
Qed.
Lemma often_free j : exists k, (j <= k)%nat /\ owner (state r k) = None.
Proof.
  destruct (owner (state r j)) as [t|] eqn:E; [|exists j; auto]. apply held in E. exact (freed _ j t E (le_n _)).
Qed.
Lemma locks i t : wants (P i t) = true ->
  exists j, (i <= j)%nat /\ match P i t with S_lock d => P (S j) t = S_data d | _ => P (S j) t = W_test end.
Proof.
  intro A. destruct (Hm i t A often_free) as (k & L & M). replace k with (i + (k - i))%nat in M by lia.
  destruct (first_move (k - i) i t) as (j & c & B & C & D & _); [intro E; now rewrite E in A|exact M|].
  exists j. split; [exact B|]. destruct Hr as [_ H]. specialize (H j). rewrite C in H. rewrite <- D in *.
  unfold step in H. destruct (negb _); [discriminate|].
  destruct (P j t), c; try discriminate A; try discriminate H; destruct (owner (state r j)); try discriminate H;
    injection H as <- _; cbn [pcs]; now rewrite goto_same.
Qed.
Lemma g_lock i t : P i t = W_lock \/ P i t = W_relock -> cdone (state r i) = true -> gets i.
Proof.
  intros A D. destruct (locks i t) as (j & L & B); [destruct A as [-> | ->]; reflexivity|].
  assert (C : P (S j) t = W_test) by (destruct A as [A|A]; rewrite A in B; exact B).
  destruct (cdone (state r (S j))) eqn:E.
  - apply (gets_later i (S j)); [lia|]. exact (g_test _ t C E).
  - apply (lost (S j - i) i D). now replace (i + (S j - i))%nat with (S j) by lia.
Qed.
Lemma leaves n : forall i t, P i t = W_wait -> P (i + n) t = W_wait \/ exists k, (i <= k <= i + n)%nat /\ P k t = W_relock.
Proof.
  induction n as [|n IH]; intros i t A; [left; now rewrite Nat.add_0_r|].
  replace (i + S n)%nat with (S i + n)%nat by lia.
  assert (B : P (S i) t = W_wait \/ P (S i) t = W_relock).
  { destruct (moves_dec i t) as [[c D]|D].
    - destruct Hr as [_ H]. specialize (H i). rewrite D in H. unfold step in H. destruct (negb _); [discriminate|].
      rewrite A in H. destruct c; try discriminate H. injection H as <- _. cbn [pcs]. rewrite goto_same. auto.
    - destruct (keep i t D) as [K|[_ K]]; [left; congruence|auto]. }
  destruct B as [B|B]; [|right; exists (S i); split; [lia|exact B]].
  destruct (IH (S i) t B) as [C|(k & K1 & K2)]; [auto|]. right. exists k. split; [lia|exact K2].
Qed.
Lemma g_relock_later i j t : (i <= j)%nat -> cdone (state r i) = true -> P j t = W_relock -> gets i.
Proof.
  intros L D A. destruct (cdone (state r j)) eqn:E.
  - apply (gets_later i j L). apply (g_lock j t); auto.
  - apply (lost (j - i) i D). now replace (i + (j - i))%nat with j by lia.
Qed.
Lemma g_wait i t : P i t = W_wait -> cdone (state r i) = true -> gets i.
Proof.
  intros A D. destruct (run_sim i) as [m [_ _ _ Sw _]].
  destruct Sw as (u & _ & B); [exact D|exists t; now rewrite A|].
  destruct (P i u) eqn:Q; try easy; [|exact (g_test i u Q D)|apply (g_lock i u); auto|exact (g_load i u Q)|exact (g_null i u v Q)|exact (g_clear i u v Q)].
  destruct (hold_step i u) as (j & c & L & St & E & F); [now rewrite Q|].
  destruct (leaves (j - i) i t A) as [G|(k & K1 & K2)]; [|apply (g_relock_later i k t); auto; lia].
  replace (i + (j - i))%nat with j in G by lia. rewrite Q in E.
  assert (Nu : u <> t) by congruence.
  unfold step in St. destruct (negb _); [discriminate|]. rewrite E in St. destruct c; try discriminate St.
  destruct (wake (state r j) w) as [p|] eqn:W; [|discriminate St]. injection St as St _.
  destruct (wake_spec _ _ _ W) as (W1 & W2 & W3).
  assert (Ht : (t < threads (state r j))%nat) by (destruct (run_sim j) as [m' [_ _ _ _ Si]]; apply Si; congruence).
  destruct w as [|x w]; [exfalso; apply W3; [|reflexivity]; exists t; split; [exact Ht|now rewrite G]|].
  destruct (W1 x (or_introl eq_refl)) as [_ X]. assert (Nx : x <> u) by congruence.
  apply (g_relock_later i (S j) x); [lia|exact D|]. rewrite <- St. cbn [pcs]. rewrite goto_other by exact Nx.
  destruct (W2 x) as [[Y _]|[_ Y]]; [exact Y|]. destruct Y. now left.
Qed.

(** What the calls do. *)
Lemma called_wait i t : In (Call_wait t) (says r i) -> P (S i) t = W_lock.
Proof.
  intro A. destruct Hr as [_ H]. specialize (H i). destruct (mover r i) as [[u c]|]; [|destruct H as [_ H]; rewrite H in A; easy].
  unfold step in H. destruct (negb _); [discriminate|].
  destruct (P i u), c; try discriminate H; try (destruct (owner (state r i))); try discriminate H;
    try (destruct (wake (state r i) w) as [p|] eqn:W; [|discriminate H]); try destruct (cdone (state r i));
    injection H as H E; rewrite <- E in A; cbn in A; try easy;
    destruct A as [A|[]]; try discriminate A; injection A as ->; rewrite <- H; cbn [pcs]; now rewrite goto_same.
Qed.
Lemma called_signal i t d : In (Call_signal t d) (says r i) -> P (S i) t = S_lock d.
Proof.
  intro A. destruct Hr as [_ H]. specialize (H i). destruct (mover r i) as [[u c]|]; [|destruct H as [_ H]; rewrite H in A; easy].
  unfold step in H. destruct (negb _); [discriminate|].
  destruct (P i u), c; try discriminate H; try (destruct (owner (state r i))); try discriminate H;
    try (destruct (wake (state r i) w) as [p|] eqn:W; [|discriminate H]); try destruct (cdone (state r i));
    injection H as H E; rewrite <- E in A; cbn in A; try easy;
    destruct A as [A|[]]; try discriminate A; injection A as -> ->; rewrite <- H; cbn [pcs]; now rewrite goto_same.
Qed.
(** A signal sets done and returns. *)
Lemma signal_acts i t d : P i t = S_lock d ->
  exists j, (i <= j)%nat /\ P j t = S_wake d /\ cdone (state r j) = true.
Proof.
  intro A. destruct (locks i t) as (j & L & B); [now rewrite A|]. rewrite A in B.
  destruct (hold_step (S j) t) as (k & c & L2 & St & E & _); [now rewrite B|]. rewrite B in E.
  destruct (step_after _ _ _ _ _ St) as [C _]; [now rewrite E|]. rewrite E in C. cbn in C.
  destruct (hold_step (S k) t) as (l & c' & L3 & St' & E' & _); [now rewrite C|]. rewrite C in E'.
  destruct (step_after _ _ _ _ _ St') as [C' D]; [now rewrite E'|]. rewrite E' in C', D. cbn in C'.
  exists (S l). split; [lia|]. auto.
Qed.
Lemma signal_ret i t d : P i t = S_wake d -> exists j, (i <= j)%nat /\ In (Ret_signal t) (says r j).
Proof.
  intro A. destruct (hold_step i t) as (k & c & L2 & St & E & _); [now rewrite A|]. rewrite A in E.
  destruct (step_after _ _ _ _ _ St) as [C _]; [now rewrite E|]. rewrite E in C. cbn in C.
  destruct (hold_step (S k) t) as (l & c' & L3 & St' & E' & _); [now rewrite C|]. rewrite C in E'.
  destruct (step_after _ _ _ _ _ St') as [_ D]; [now rewrite E'|]. rewrite E' in D. destruct D as [D _].
  exists l. split; [lia|]. rewrite D. now left.
Qed.
(** A thread stays in sc_cond_wait until it returns. *)
Definition in_wait (p : pc) : bool :=
  match p with W_lock | W_test | W_call | W_wait | W_relock | W_load | W_null _ | W_clear _ | W_unlock _ => true | _ => false end.
Lemma stays n : forall i t, in_wait (P i t) = true ->
  in_wait (P (i + n) t) = true \/ exists k v, (i <= k)%nat /\ In (Ret_wait t v) (says r k).
Proof.
  induction n as [|n IH]; intros i t A; [left; now rewrite Nat.add_0_r|].
  replace (i + S n)%nat with (S i + n)%nat by lia.
  assert (B : in_wait (P (S i) t) = true \/ exists v, In (Ret_wait t v) (says r i)).
  { destruct (moves_dec i t) as [[c D]|D].
    - destruct Hr as [_ H]. specialize (H i). rewrite D in H. unfold step in H. destruct (negb _); [discriminate|].
      destruct (P i t) eqn:Q, c; try discriminate A; try discriminate H; try (destruct (owner (state r i))); try discriminate H;
        try destruct (cdone (state r i)); injection H as <- <-; cbn [pcs]; try rewrite goto_same; cbn [in_wait In]; eauto.
    - destruct (keep i t D) as [K|[_ K]]; left; rewrite K; auto. }
  destruct B as [B|(v & B)]; [|right; exists i, v; split; [lia|exact B]].
  destruct (IH (S i) t B) as [C|(k & v & K1 & K2)]; [auto|]. right. exists k, v. split; [lia|exact K2].
Qed.
(** Who returns from a wait called it. *)
Lemma wait_called i : forall u, in_wait (P i u) = true -> exists k, (k < i)%nat /\ In (Call_wait u) (says r k).
Proof.
  induction i as [|i IH]; intros u A.
  - destruct Hr as [[n H0] _]. rewrite H0 in A. discriminate A.
  - assert (B : in_wait (P i u) = true \/ In (Call_wait u) (says r i)).
    { destruct (moves_dec i u) as [[c D]|D].
      - destruct Hr as [_ H]. specialize (H i). rewrite D in H. unfold step in H. destruct (negb _); [discriminate|].
        destruct (P i u) eqn:Q, c; try discriminate H; try (destruct (owner (state r i))); try discriminate H;
          try (destruct (wake (state r i) w) as [p|] eqn:W; [|discriminate H]); try destruct (cdone (state r i));
          injection H as H <-; rewrite <- H in A; cbn [pcs] in A; try rewrite goto_same in A; cbn [in_wait In] in *; auto; discriminate A.
      - destruct (keep i u D) as [K|[K _]]; rewrite K in *; auto. }
    destruct B as [B|B]; [destruct (IH u B) as (k & K1 & K2); exists k; split; [lia|exact K2]|exists i; auto].
Qed.
Lemma ret_in i u v : In (Ret_wait u v) (says r i) -> in_wait (P i u) = true.
Proof.
  intro A. destruct Hr as [_ H]. specialize (H i). destruct (mover r i) as [[t c]|]; [|destruct H as [_ H]; rewrite H in A; easy].
  unfold step in H. destruct (negb _); [discriminate|].
  destruct (P i t) eqn:Q, c; try discriminate H; try (destruct (owner (state r i))); try discriminate H;
    try (destruct (wake (state r i) w) as [p|] eqn:W; [|discriminate H]); try destruct (cdone (state r i));
    injection H as H E; rewrite <- E in A; cbn in A; try easy;
    destruct A as [A|[]]; try discriminate A; injection A as -> ->; now rewrite Q.
Qed.
End Run.
