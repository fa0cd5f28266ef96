(** Proofs for C162. *)
From Verif Require Import Base CStr CNum SigSpec StrSpec StrProofs IniModel LogModel LogSpec LogConcModel LogConcSpec LogConcProofs LogConcInv LogFairSpec.

Section Run.
Context (at_ : bool) (w0 : world) (r : endless) (Hg : good w0) (Hr : is_run at_ w0 r) (Hs : fair_scheduler r) (Hm : fair_mutex r).
Notation P i t := (m_prog (state r i) t).

Lemma inv_at i : exists l, inv at_ w0 (state r i) l.
Proof.
  destruct Hr as [H0 H]. induction i as [|i [l IH]].
  - rewrite H0. exists []. now apply inv_start.
  - specialize (H i). destruct (pick r i) as [c|].
    + destruct H as [Hc H]. destruct (mstep_inv at_ w0 _ l c IH Hc) as (m' & es & d & E & _ & I).
      rewrite H in E. injection E as <- <-. eauto.
    + destruct H as [-> _]. eauto.
Qed.
Lemma pick_dec i t : pick r i = Some (Go t) \/ pick r i <> Some (Go t).
Proof.
  destruct (pick r i) as [[u o|u]|]; [right; discriminate| |right; discriminate].
  destruct (Z.eq_dec u t) as [-> |N]; [auto|right; congruence].
Qed.
(** A moment at which the thread does not move. *)
Lemma keep i t p : pick r i <> Some (Go t) -> P i t = Some p ->
  P (S i) t = Some p /\ m_name (state r (S i)) t = m_name (state r i) t /\
  (m_own (state r i) = Some t -> m_own (state r (S i)) = Some t /\ m_rest (state r (S i)) = m_rest (state r i) /\
     (at_ = false -> m_lev (state r (S i)) = m_lev (state r i))).
Proof.
  intros N Ep. destruct Hr as [_ H]. specialize (H i). destruct (inv_at i) as [l Hi].
  destruct (pick r i) as [[u o|u]|]; [| |destruct H as [-> _]; auto].
  - destruct H as [_ H]. cbn [mstep] in H. destruct (P i u) as [q|] eqn:Eu; [injection H as <- _; auto|].
    destruct (code at_ o) as [q| |]; cbn [bind] in H; try discriminate H. injection H as <- _. cbn.
    rewrite upd_other by congruence. auto.
  - assert (Nt : t <> u) by congruence. destruct H as [_ H]. cbn [mstep] in H. unfold go in H.
    destruct (P i u) as [q|] eqn:Eu; [|injection H as <- _; auto].
    assert (T : touches at_ q -> m_own (state r i) <> Some t)
      by (intros T O; rewrite (inv_touch _ _ _ _ _ _ Hi Eu T) in O; congruence).
    destruct q as [rc|k|k|k|lv k|s k|a].
    + injection H as <- _. cbn. rewrite upd_other by exact Nt. auto.
    + destruct (m_own (state r i)) as [x|] eqn:O; injection H as <- _; [rewrite O; auto|]. cbn. rewrite upd_other by exact Nt.
      split; [exact Ep|]. split; [reflexivity|discriminate].
    + destruct (m_own (state r i)) as [x|] eqn:O; [|discriminate H]. destruct (Z.eqb_spec x u) as [-> |]; [|discriminate H].
      injection H as <- _. cbn. rewrite upd_other by exact Nt. split; [exact Ep|]. split; [reflexivity|congruence].
    + injection H as <- _. cbn. rewrite upd_other by exact Nt. auto.
    + injection H as <- _. cbn. rewrite upd_other by exact Nt. split; [exact Ep|]. split; [reflexivity|].
      intro O. split; [exact O|]. split; [reflexivity|]. intro F. destruct (T F O).
    + destruct (strncpy _ s _) as [b| |]; cbn [bind] in H; try discriminate H. injection H as <- _. cbn.
      rewrite !upd_other by exact Nt. auto.
    + destruct (a _ _) as [[x k]| |]; cbn [bind] in H; try discriminate H. injection H as <- _. cbn.
      rewrite upd_other by exact Nt. split; [exact Ep|]. split; [reflexivity|]. intro O. destruct (T I O).
Qed.
Lemma first_go n : forall i t p, P i t = Some p -> pick r (i + n) = Some (Go t) ->
  exists j, (i <= j)%nat /\ pick r j = Some (Go t) /\ P j t = Some p /\ m_name (state r j) t = m_name (state r i) t /\
  (m_own (state r i) = Some t -> m_own (state r j) = Some t /\ m_rest (state r j) = m_rest (state r i) /\
     (at_ = false -> m_lev (state r j) = m_lev (state r i))).
Proof.
  induction n as [|n IH]; intros i t p Ep M.
  - rewrite Nat.add_0_r in M. exists i. auto 10.
  - destruct (pick_dec i t) as [D|D]; [exists i; auto 10|].
    destruct (keep i t p D Ep) as (K1 & K2 & K3). replace (i + S n)%nat with (S i + n)%nat in M by lia.
    destruct (IH (S i) t p K1 M) as (j & L & A & B & C & E). exists j. split; [lia|]. split; [exact A|]. split; [exact B|].
    split; [congruence|]. intro O. destruct (K3 O) as (O1 & O2 & O3). destruct (E O1) as (E1 & E2 & E3).
    split; [exact E1|]. split; [congruence|]. intro F. rewrite (E3 F). auto.
Qed.
Lemma next_go i t p : P i t = Some p -> asks p = false ->
  exists j, (i <= j)%nat /\ go (state r j) t = Ok (state r (S j), says r j) /\ P j t = Some p /\ m_name (state r j) t = m_name (state r i) t /\
  (m_own (state r i) = Some t -> m_own (state r j) = Some t /\ m_rest (state r j) = m_rest (state r i) /\
     (at_ = false -> m_lev (state r j) = m_lev (state r i))).
Proof.
  intros Ep A. destruct (Hs i t p Ep A) as (k & L & M). replace k with (i + (k - i))%nat in M by lia.
  destruct (first_go (k - i) i t p Ep M) as (j & L2 & B & C & D & E). exists j. split; [exact L2|].
  split; [|auto]. destruct Hr as [_ H]. specialize (H j). rewrite B in H. apply H.
Qed.

(** The holder gives the mutex back. *)
Lemma freed name p x y k : runs (negb at_) name p x y k -> forall i t,
  P i t = Some p -> m_name (state r i) t = name -> m_own (state r i) = Some t ->
  m_rest (state r i) = snd x -> (at_ = false -> m_lev (state r i) = fst x) ->
  exists j, (i <= j)%nat /\ m_own (state r j) = None /\ P j t = Some k.
Proof.
  induction 1 as [k x|k lev q y p F _ IH|k lv lev q y p F _ IH|a lev q q1 k y p Ea _ IH]; intros i t Ep En Eo Er El; cbn [fst snd] in *.
  - destruct (next_go i t _ Ep eq_refl) as (j & L & G & Q & _ & O). destruct (O Eo) as (O1 & _). unfold go in G.
    rewrite Q, O1, Z.eqb_refl in G. injection G as G _. exists (S j). rewrite <- G. cbn. rewrite upd_same. split; [lia|auto].
  - apply negb_true_iff in F. destruct (next_go i t _ Ep eq_refl) as (j & L & G & Q & N & O). destruct (O Eo) as (O1 & O2 & O3).
    unfold go in G. rewrite Q in G. injection G as G _.
    assert (V : m_lev (state r j) = lev) by (rewrite (O3 F); auto).
    destruct (IH (S j) t) as (h & L2 & H); [rewrite <- G; cbn; rewrite ?upd_same, ?V; auto; congruence ..|].
    exists h. split; [lia|exact H].
  - apply negb_true_iff in F. destruct (next_go i t _ Ep eq_refl) as (j & L & G & Q & N & O). destruct (O Eo) as (O1 & O2 & O3).
    unfold go in G. rewrite Q in G. injection G as G _.
    destruct (IH (S j) t) as (h & L2 & H); [rewrite <- G; cbn; rewrite ?upd_same; auto; congruence ..|].
    exists h. split; [lia|exact H].
  - destruct (next_go i t _ Ep eq_refl) as (j & L & G & Q & N & O). destruct (O Eo) as (O1 & O2 & O3).
    unfold go in G. rewrite Q in G. replace (a (m_name (state r j) t) (m_rest (state r j))) with (a name q) in G by congruence.
    rewrite Ea in G. cbn [bind] in G. injection G as G _.
    destruct (IH (S j) t) as (h & L2 & H); [rewrite <- G; cbn; rewrite ?upd_same; auto; try congruence ..|].
    { intro F. rewrite (O3 F). auto. }
    exists h. split; [lia|exact H].
Qed.
Lemma holder i t : m_own (state r i) = Some t -> exists j rc, (i <= j)%nat /\ m_own (state r j) = None /\ P j t = Some (Done rc).
Proof.
  intro O. destruct (inv_at i) as [l Hi]. destruct (inv_own _ _ _ _ _ Hi O) as (p & lev' & r' & rc & Ep & R).
  destruct (freed _ _ _ _ _ R i t Ep eq_refl O eq_refl (fun _ => eq_refl)) as (j & L & H). exists j, rc. auto.
Qed.
Lemma often_free j : exists k, (j <= k)%nat /\ m_own (state r k) = None.
Proof.
  destruct (m_own (state r j)) as [t|] eqn:E; [|exists j; auto].
  destruct (holder j t E) as (k & rc & L & H & _). exists k. auto.
Qed.

Definition returns (i : nat) (t : Z) : Prop := exists j rc, (i <= j)%nat /\ In (Ret t rc) (says r j).
Lemma later i j t : (i <= j)%nat -> returns j t -> returns i t.
Proof. intros L (k & rc & A & B). exists k, rc. split; [lia|exact B]. Qed.
Lemma r_done i t rc : P i t = Some (Done rc) -> returns i t.
Proof.
  intro Ep. destruct (next_go i t _ Ep eq_refl) as (j & L & G & Q & _). unfold go in G. rewrite Q in G. injection G as _ G.
  exists j, rc. split; [exact L|]. rewrite <- G. now left.
Qed.
Lemma r_own i t : m_own (state r i) = Some t -> returns i t.
Proof. intro O. destruct (holder i t O) as (j & rc & L & _ & E). apply (later i j t L). exact (r_done j t rc E). Qed.
Lemma lock_kept n : forall i t k, P i t = Some (Lock k) -> P (i + n) t = Some (Lock k) \/ exists j, (i <= j)%nat /\ m_own (state r j) = Some t.
Proof.
  induction n as [|n IH]; intros i t k Ep; [left; now rewrite Nat.add_0_r|]. replace (i + S n)%nat with (S i + n)%nat by lia.
  assert (A : P (S i) t = Some (Lock k) \/ m_own (state r (S i)) = Some t).
  { destruct (pick_dec i t) as [D|D]; [|left; apply (keep i t _ D Ep)].
    destruct Hr as [_ H]. specialize (H i). rewrite D in H. destruct H as [_ H]. cbn [mstep] in H. unfold go in H. rewrite Ep in H.
    destruct (m_own (state r i)); injection H as <- _; [auto|right; reflexivity]. }
  destruct A as [A|A]; [|right; exists (S i); split; [lia|exact A]].
  destruct (IH (S i) t k A) as [B|(j & L & B)]; [auto|right; exists j; split; [lia|exact B]].
Qed.
Lemma r_lock i t k : P i t = Some (Lock k) -> returns i t.
Proof.
  intro Ep. destruct (Hm i t _ Ep eq_refl often_free) as (j & L & D & O).
  destruct (lock_kept (j - i) i t k Ep) as [A|(h & Lh & A)]; [|apply (later i h t Lh); exact (r_own h t A)].
  replace (i + (j - i))%nat with j in A by lia. apply (later i (S j)); [lia|]. apply r_own.
  destruct Hr as [_ H]. specialize (H j). rewrite D in H. destruct H as [_ H]. cbn [mstep] in H. unfold go in H.
  rewrite A, O in H. injection H as <- _. reflexivity.
Qed.
Lemma r_any i t p : P i t = Some p -> returns i t.
Proof.
  intro Ep. destruct (inv_at i) as [l Hi]. pose proof Hi as (lev0 & r0 & _ & G & _ & _ & T). specialize (T t). unfold thread in T. rewrite Ep in T.
  destruct T as [[_ [(rc & -> & _)|[(o & Ho & Ec & B & _)|(Ea & lv & msg & ao & af & mv & ok & crc & -> & _)]]]|[O' _]];
    [exact (r_done i t rc Ep)| |exact (r_lock i t _ Ep)|exact (r_own i t O')].
  destruct p as [rc|k|k|k|lv k|s k|a]; try contradiction.
  - exact (r_lock i t _ Ep).
  - destruct (next_go i t _ Ep eq_refl) as (j & L & H & Q & _). unfold go in H. rewrite Q in H. injection H as H _.
    apply (later i (S j)); [lia|].
    assert (X : P (S j) t = Some (k (m_lev (state r j)))) by (rewrite <- H; cbn; now rewrite upd_same).
    destruct o as [rc0|ok|u m0|s|b|q c ok nl tell e|c|u lv msg ao af mv ok crc]; cbn [code] in Ec; try discriminate.
    { destruct (find_level s 0 level_names) as [[x|]| |]; cbn [bind] in Ec; try discriminate. destruct at_; discriminate. }
    assert (Ht : at_ = true) by (clear - Ec; destruct at_; [reflexivity|discriminate Ec]). rewrite Ht in Ec. injection Ec as <-. cbn beta in X.
    destruct (lv <? m_lev (state r j)); [exact (r_done _ t _ X)|exact (r_lock _ t _ X)].
  - destruct (next_go i t _ Ep eq_refl) as (j & L & H & Q & _). unfold go in H. rewrite Q in H. injection H as H _.
    apply (later i (S j)); [lia|].
    assert (X : P (S j) t = Some k) by (rewrite <- H; cbn; now rewrite upd_same).
    destruct o as [rc0|ok|u m0|s|b|q c ok nl tell e|c|u lv0 msg ao af mv ok crc]; cbn [code] in Ec; try discriminate.
    2:{ destruct at_; discriminate. }
    destruct (find_level s 0 level_names) as [[x|]| |]; cbn [bind] in Ec; try discriminate.
    assert (Ht : at_ = true) by (clear - Ec; destruct at_; [reflexivity|discriminate Ec]). rewrite Ht in Ec. injection Ec as <- <-. exact (r_done _ t _ X).
  - destruct (next_go i t _ Ep eq_refl) as (j & L & H & Q & _). unfold go in H. rewrite Q in H.
    destruct (strncpy _ s (32 - 1)); cbn [bind] in H; try discriminate. injection H as H _.
    apply (later i (S j)); [lia|].
    assert (X : P (S j) t = Some k) by (rewrite <- H; cbn; now rewrite upd_same).
    destruct o as [rc0|ok|u m0|x|b|q c ok nl tell e|c|u lv0 msg ao af mv ok crc]; cbn [code] in Ec; try discriminate.
    2:{ destruct (find_level x 0 level_names) as [[y|]| |]; cbn [bind] in Ec; try discriminate. destruct at_; discriminate. }
    2:{ destruct at_; discriminate. }
    injection Ec as <- <-. exact (r_done _ t _ X).
Qed.
Lemma called i t o : In (Inv t o) (says r i) -> exists p, P (S i) t = Some p.
Proof.
  intro A. destruct Hr as [_ H]. specialize (H i). destruct (pick r i) as [[u o'|u]|]; [| |destruct H as [_ H]; rewrite H in A; easy].
  - destruct H as [_ H]. cbn [mstep] in H. destruct (P i u) as [q|]; [injection H as _ H; rewrite <- H in A; easy|].
    destruct (code at_ o') as [q| |]; cbn [bind] in H; try discriminate H. injection H as H E. rewrite <- E in A.
    destruct A as [A|[]]. injection A as -> _. exists q. rewrite <- H. cbn. now rewrite upd_same.
  - destruct H as [_ H]. cbn [mstep] in H. unfold go in H.
    destruct (P i u) as [[rc|k|k|k|lv k|s k|a]|];
      try (destruct (m_own (state r i)) as [x|]; try destruct (x =? u)); try discriminate H;
      try (destruct (strncpy _ s _); cbn [bind] in H); try (destruct (a _ _) as [[x' k]| |]; cbn [bind] in H); try discriminate H;
      injection H as _ H; rewrite <- H in A; cbn in A; try easy; destruct A as [A|[]]; discriminate A.
Qed.
End Run.
