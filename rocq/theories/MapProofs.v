(** Proofs about the sc_map model. *)
From Verif Require Import Base Bits MapModel MapSpec.
From Coq Require Import SpecFloat.

(** ** Capacity arithmetic *)
Lemma smear32 x : 0 < x < 2^32 ->
  fold_left (fun v i => Z.lor v (Z.shiftr v i)) [1; 2; 4; 8; 16] x = 2^(Z.log2 x + 1) - 1.
Proof.
  intros Hx. apply (smeared_ones x 32); [lia|lia|lia|]. cbn [fold_left].
  apply (smeared_step x 16); [lia|]. apply (smeared_step x 8); [lia|].
  apply (smeared_step x 4); [lia|]. apply (smeared_step x 2); [lia|].
  apply (smeared_step x 1); [lia|]. apply smeared_1. lia.
Qed.

Lemma next_pow2_ok v : 2 <= v <= 2^31 ->
  next_pow2_32 v = 2^(Z.log2 (v - 1) + 1) /\ v <= next_pow2_32 v <= 2^31.
Proof.
  intro Hv. unfold next_pow2_32. rewrite (u32_small (v - 1)) by lia.
  rewrite smear32 by lia.
  pose proof (Z.log2_spec (v - 1) ltac:(lia)) as [H1 H2].
  assert (Hl : Z.log2 (v - 1) < 31) by (apply Z.log2_lt_pow2; lia).
  pose proof (Z.log2_nonneg (v - 1)).
  assert (Hb : 2 ^ (Z.log2 (v - 1) + 1) <= 2^31) by (apply Z.pow_le_mono_r; lia).
  replace (Z.succ (Z.log2 (v - 1))) with (Z.log2 (v - 1) + 1) in H2 by lia.
  replace (2 ^ (Z.log2 (v - 1) + 1) - 1 + 1) with (2 ^ (Z.log2 (v - 1) + 1)) by lia.
  rewrite u32_small by lia. lia.
Qed.

Lemma next_pow2_pow k : 1 <= k <= 31 -> next_pow2_32 (2^k) = 2^k.
Proof.
  intro Hk. assert (2^1 <= 2^k) by (apply Z.pow_le_mono_r; lia).
  assert (2^k <= 2^31) by (apply Z.pow_le_mono_r; lia).
  destruct (next_pow2_ok (2^k)) as [-> _]; [lia|].
  f_equal. replace (2^k - 1) with (Z.pred (2^k)) by lia. rewrite Z.log2_pred_pow2 by lia. lia.
Qed.

Definition lf_ok (lf : Z) := lf = 0 \/ 25 <= lf <= 95.

Definition thr_ok (k lf : nat) : bool :=
  let t := map_threshold (2 ^ Z.of_nat k) (Z.of_nat lf) in
  (0 <=? t) && (t <? 2 ^ Z.of_nat k).
Lemma thr_ok_spec k lf : thr_ok k lf = true ->
  0 <= map_threshold (2 ^ Z.of_nat k) (Z.of_nat lf) < 2 ^ Z.of_nat k.
Proof.
  unfold thr_ok. generalize (map_threshold (2 ^ Z.of_nat k) (Z.of_nat lf)). intros t H.
  apply andb_true_iff in H as [H1 H2]. apply Z.leb_le in H1. apply Z.ltb_lt in H2. lia.
Qed.
(** The whole domain: every capacity and every accepted load factor. *)
Lemma thr_check_ok :
  forallb (fun k => forallb (thr_ok k) (0 :: seq 25 71)%nat) (seq 3 29) = true.
Proof. vm_compute. reflexivity. Qed.

Lemma threshold_lt k lf : 3 <= k <= 31 -> lf_ok lf -> 0 <= map_threshold (2^k) lf < 2^k.
Proof.
  intros Hk Hlf.
  pose proof (proj1 (forallb_forall _ _) thr_check_ok (Z.to_nat k)) as H.
  assert (Hin : In (Z.to_nat lf) (0 :: seq 25 71)%nat).
  { destruct Hlf as [->|Hlf]; [now left|right; apply in_seq; lia]. }
  assert (Hin2 : In (Z.to_nat k) (seq 3 29)) by (apply in_seq; lia).
  specialize (H Hin2). pose proof (proj1 (forallb_forall _ _) H (Z.to_nat lf) Hin) as H2.
  apply thr_ok_spec in H2. rewrite !Z2Nat.id in H2 by (destruct Hlf; lia). exact H2.
Qed.

(** Cyclic distance from x to y. *)
Definition dist (c x y : Z) : Z := if x <=? y then y - x else y - x + c.

Ltac dsolve := unfold dist in *;
  repeat match goal with
  | |- context [?a <=? ?b] => destruct (Z.leb_spec a b)
  | H : context [?a <=? ?b] |- _ => destruct (Z.leb_spec a b)
  end; lia.

Lemma dist_range c x y : 0 <= x < c -> 0 <= y < c -> 0 <= dist c x y < c.
Proof. intros. dsolve. Qed.

Lemma dist_inj c p x y : 0 <= p < c -> 0 <= x < c -> 0 <= y < c -> x <> y -> dist c p x <> dist c p y.
Proof. intros. dsolve. Qed.

Definition nextpos (c x : Z) : Z := if x + 1 <? c then x + 1 else 0.

Lemma land_next c k x : c = 2^k -> 0 <= k <= 31 -> 0 <= x < c ->
  Z.land (u32 (x + 1)) (u32 (c - 1)) = nextpos c x.
Proof.
  intros -> Hk Hx. assert (2^k <= 2^31) by (apply Z.pow_le_mono_r; lia).
  rewrite !u32_small by lia.
  replace (2^k - 1) with (Z.ones k) by (rewrite Z.ones_equiv; lia).
  rewrite Z.land_ones by lia. unfold nextpos.
  destruct (Z.ltb_spec (x + 1) (2^k)).
  - apply Z.mod_small. lia.
  - replace (x + 1) with (2^k) by lia. apply Z.mod_same. lia.
Qed.

Lemma land_home c k h : c = 2^k -> 0 <= k <= 31 -> Z.land h (u32 (c - 1)) = h mod c.
Proof.
  intros -> Hk. assert (0 < 2^k <= 2^31) by (split; [lia|apply Z.pow_le_mono_r; lia]).
  rewrite u32_small by lia.
  replace (2^k - 1) with (Z.ones k) by (rewrite Z.ones_equiv; lia).
  apply Z.land_ones. lia.
Qed.

(** ** Bindings *)
Section Proofs.
Context {K V : Type} (ko : keyops K) (vzero : V).
Hypothesis Hlaw : lawful ko.

Notation slot := (slot K V).
Notation smap := (smap K V).

Let Hnull : forall k, ko.(isnull) k = true <-> k = ko.(knull) := proj1 Hlaw.
Let Hrefl : forall a, ko.(keq) a a = true := proj1 (proj2 Hlaw).
Let Hsym : forall a b, ko.(keq) a b = true -> ko.(keq) b a = true := proj1 (proj2 (proj2 Hlaw)).
Let Htrans : forall a b c, ko.(keq) a b = true -> ko.(keq) b c = true -> ko.(keq) a c = true
  := proj1 (proj2 (proj2 (proj2 Hlaw))).
Let Hhash : forall a b, ko.(keq) a b = true -> ko.(hashk) a = ko.(hashk) b
  := proj1 (proj2 (proj2 (proj2 (proj2 Hlaw)))).
Let Hrange : forall a, 0 <= ko.(hashk) a < 2^32 := proj2 (proj2 (proj2 (proj2 (proj2 Hlaw)))).

Notation same := (MapSpec.same ko).
Notation lookup := (@MapSpec.lookup K V ko).
Notation remove := (@MapSpec.remove K V ko).

Lemma knull_null : ko.(isnull) ko.(knull) = true.
Proof. now apply Hnull. Qed.

Lemma same_refl a : same a a = true.
Proof. unfold MapSpec.same. destruct (isnull ko a); [reflexivity|]. cbn. apply Hrefl. Qed.
Lemma same_sym a b : same a b = true -> same b a = true.
Proof.
  unfold MapSpec.same. destruct (isnull ko a) eqn:Ea, (isnull ko b) eqn:Eb; cbn; try congruence. apply Hsym.
Qed.
Lemma same_sym_eq a b : same a b = same b a.
Proof.
  destruct (same a b) eqn:E1, (same b a) eqn:E2; try reflexivity.
  - apply same_sym in E1. congruence.
  - apply same_sym in E2. congruence.
Qed.
Lemma same_trans a b c : same a b = true -> same b c = true -> same a c = true.
Proof.
  unfold MapSpec.same. destruct (isnull ko a) eqn:Ea, (isnull ko b) eqn:Eb, (isnull ko c) eqn:Ec;
    cbn; try congruence. apply Htrans.
Qed.

Fixpoint uniq (l : list (K * V)) : Prop :=
  match l with
  | [] => True
  | p :: r => (forall q, In q r -> same (fst p) (fst q) = false) /\ uniq r
  end.

Lemma uniq_perm l l' : Permutation l l' -> uniq l -> uniq l'.
Proof.
  induction 1 as [|p l l' Hp IH|p q l|l1 l2 l3 _ IH1 _ IH2]; cbn [uniq].
  - auto.
  - intros [H1 H2]. split; [|auto]. intros q Hq. apply H1. now apply (Permutation_in _ (Permutation_sym Hp)).
  - intros [H1 [H2 H3]]. split; [|split; [|exact H3]].
    + intros x [<-|Hx]; [|now apply H2]. rewrite same_sym_eq. apply H1. now left.
    + intros x Hx. apply H1. now right.
  - auto.
Qed.

Lemma lookup_cons k p l : lookup k (p :: l) = if same (fst p) k then Some (snd p) else lookup k l.
Proof. unfold MapSpec.lookup. cbn. now destruct (same (fst p) k). Qed.

Lemma lookup_none k l : (forall p, In p l -> same (fst p) k = false) -> lookup k l = None.
Proof.
  induction l as [|p l IH]; intro H; [reflexivity|]. rewrite lookup_cons, (H p) by now left.
  apply IH. intros q Hq. apply H. now right.
Qed.

Lemma lookup_in k v p l : uniq l -> In p l -> same (fst p) k = true -> v = snd p -> lookup k l = Some v.
Proof.
  induction l as [|q l IH]; intros Hu Hi Hs ->; [easy|]. destruct Hu as [H1 H2].
  rewrite lookup_cons. destruct Hi as [->|Hi]; [now rewrite Hs|].
  destruct (same (fst q) k) eqn:E; [|now apply IH].
  specialize (H1 p Hi). rewrite (same_trans (fst q) k (fst p)) in H1; [discriminate|exact E|].
  now apply same_sym.
Qed.

Lemma lookup_perm k l l' : Permutation l l' -> uniq l -> lookup k l = lookup k l'.
Proof.
  intros Hp Hu. unfold MapSpec.lookup at 1.
  destruct (find (fun p => same (fst p) k) l) as [p|] eqn:E; cbn.
  - apply find_some in E as [E1 E2]. symmetry. apply (lookup_in k (snd p) p); auto.
    + now apply (uniq_perm l).
    + now apply (Permutation_in _ Hp).
  - symmetry. apply lookup_none. intros p Hi.
    apply (find_none _ _ E p). now apply (Permutation_in _ (Permutation_sym Hp)).
Qed.

Lemma remove_none k l : (forall p, In p l -> same (fst p) k = false) -> remove k l = l.
Proof.
  induction l as [|p l IH]; intro H; [reflexivity|]. cbn. rewrite (H p) by now left. cbn.
  f_equal. apply IH. intros q Hq. apply H. now right.
Qed.

Lemma remove_cons_same k p l : uniq (p :: l) -> same (fst p) k = true -> remove k (p :: l) = l.
Proof.
  intros [H1 H2] Hs. cbn. rewrite Hs. cbn. apply remove_none. intros q Hq.
  destruct (same (fst q) k) eqn:E; [|reflexivity].
  rewrite <- (H1 q Hq). symmetry. apply (same_trans _ k); [exact Hs|now apply same_sym].
Qed.

Lemma remove_perm k l l' : Permutation l l' -> Permutation (remove k l) (remove k l').
Proof.
  induction 1 as [|p l l' _ IH|p q l|l1 l2 l3 _ IH1 _ IH2]; cbn.
  - constructor.
  - destruct (same (fst p) k); cbn; [exact IH|now constructor].
  - destruct (same (fst p) k), (same (fst q) k); cbn; try reflexivity. apply perm_swap.
  - now transitivity (remove k l2).
Qed.

Lemma uniq_remove k l : uniq l -> uniq (remove k l).
Proof.
  induction l as [|p l IH]; [auto|]. intros [H1 H2]. cbn.
  destruct (same (fst p) k); cbn; [auto|]. split; [|auto].
  intros q Hq. apply filter_In in Hq. apply H1. tauto.
Qed.

Lemma uniq_put k v l : uniq l -> uniq ((k, v) :: remove k l).
Proof.
  intro Hu. split; [|now apply uniq_remove].
  intros q Hq. apply filter_In in Hq as [_ Hq]. apply negb_true_iff in Hq.
  cbn. now rewrite same_sym_eq.
Qed.

(** ** Table entries *)
Definition occ (s : slot) : bool := negb (ko.(isnull) (skey s)).
Definition ent (s : slot) : list (K * V) := if occ s then [(skey s, sval s)] else [].
Definition ents (t : list slot) : list (K * V) := flat_map ent t.

Lemma ents_zset t i s0 s : zget t i = Some s0 ->
  Permutation (ent s0 ++ ents (zset t i s)) (ent s ++ ents t).
Proof.
  revert i. induction t as [|x t IH]; intros i H.
  - apply zget_Some_range in H. change (zlen (@nil slot)) with 0 in H. lia.
  - destruct (Z.eq_dec i 0) as [->|Hi].
    + rewrite zget_cons0 in H. injection H as ->. cbn.
      rewrite !app_assoc. apply Permutation_app_tail. apply Permutation_app_comm.
    + pose proof (zget_Some_range _ _ _ H) as Hr.
      rewrite zget_consS in H by lia. specialize (IH _ H).
      assert (E : zset (x :: t) i s = x :: zset t (i - 1) s).
      { unfold zset. destruct (Z.ltb_spec i 0); [lia|]. destruct (Z.ltb_spec (i - 1) 0); [lia|].
        replace (Z.to_nat i) with (S (Z.to_nat (i - 1))) by lia. reflexivity. }
      rewrite E. cbn [ents flat_map]. fold (ents (zset t (i - 1) s)). fold (ents t).
      rewrite !app_assoc. rewrite (Permutation_app_comm (ent s0)), (Permutation_app_comm (ent s)).
      rewrite <- !app_assoc. apply Permutation_app_head. exact IH.
Qed.

Lemma In_ents t p : In p (ents t) <-> exists i s, zget t i = Some s /\ occ s = true /\ p = (skey s, sval s).
Proof.
  unfold ents. rewrite in_flat_map. split.
  - intros (s & Hs & Hp). apply In_zget in Hs as (i & _ & Hi). exists i, s. split; [exact Hi|].
    unfold ent in Hp. destruct (occ s); [|easy]. destruct Hp as [<-|[]]. auto.
  - intros (i & s & Hi & Ho & ->). exists s. split; [now apply (zget_In _ i)|].
    unfold ent. rewrite Ho. now left.
Qed.

Lemma ents_full t : (forall s, In s t -> occ s = true) -> length (ents t) = length t.
Proof.
  induction t as [|x t IH]; intro H; [reflexivity|]. cbn. rewrite app_length.
  unfold ents in IH. rewrite IH by (intros; apply H; now right).
  unfold ent. rewrite (H x) by now left. reflexivity.
Qed.
Lemma ents_le t : (length (ents t) <= length t)%nat.
Proof.
  induction t as [|x t IH]; [auto|]. cbn. rewrite app_length. unfold ents in IH.
  assert (length (ent x) <= 1)%nat by (unfold ent; destruct (occ x); cbn; lia). lia.
Qed.

Lemma empty_exists t : zlen (ents t) < zlen t -> exists i s, zget t i = Some s /\ occ s = false.
Proof.
  intro H. destruct (forallb occ t) eqn:E.
  - rewrite forallb_forall in E. apply ents_full in E. unfold zlen in H. lia.
  - assert (exists s, In s t /\ occ s = false) as (s & Hs & Ho).
    { clear H. induction t as [|x t IH]; [discriminate|]. cbn in E.
      destruct (occ x) eqn:Ex; [|exists x; split; [now left|auto]].
      destruct (IH E) as (s & Hs & Ho). exists s. split; [now right|auto]. }
    apply In_zget in Hs as (i & _ & Hi). eauto.
Qed.

Lemma ents_null t : (forall s, In s t -> occ s = false) -> ents t = [].
Proof.
  induction t as [|x t IH]; intro H; [reflexivity|]. cbn. unfold ents in IH.
  rewrite IH by (intros; apply H; now right). unfold ent. rewrite (H x) by now left. reflexivity.
Qed.

(** ** Table invariant *)
Definition occ_at (t : list slot) (j : Z) : Prop := exists s, zget t j = Some s /\ occ s = true.
Definition home (c : Z) (s : slot) : Z := ko.(hashk) (skey s) mod c.

Record table (t : list slot) (c : Z) : Prop := mk_table {
  tb_len : zlen t = c;
  tb_pow : exists k, 0 <= k <= 31 /\ c = 2^k;
  tb_hash : forall i s, zget t i = Some s -> occ s = true -> ko.(strk) = true -> shash s = ko.(hashk) (skey s) }.

Definition chain (t : list slot) (c : Z) : Prop :=
  forall i s j, zget t i = Some s -> occ s = true -> 0 <= j < c ->
    dist c (home c s) j < dist c (home c s) i -> occ_at t j.

Lemma tb_pos t c : table t c -> 0 < c <= 2^31.
Proof.
  intros [_ (k & Hk & ->) _]. split; [lia|]. apply Z.pow_le_mono_r; lia.
Qed.

Lemma home_range c s : 0 < c -> 0 <= home c s < c.
Proof. intro. apply Z.mod_pos_bound. lia. Qed.

Lemma hashof_ok t c i s : table t c -> zget t i = Some s -> occ s = true ->
  map_hashof ko s = ko.(hashk) (skey s).
Proof.
  intros [_ _ H] Hi Ho. unfold map_hashof. destruct (strk ko) eqn:E; [|reflexivity]. now apply (H i).
Qed.

Lemma cmp_ok t c i s k : table t c -> zget t i = Some s -> occ s = true ->
  map_cmp ko s k (ko.(hashk) k) = ko.(keq) (skey s) k.
Proof.
  intros [_ _ H] Hi Ho. unfold map_cmp. destruct (strk ko) eqn:E; [|reflexivity].
  rewrite (H i s Hi Ho eq_refl). destruct (keq ko (skey s) k) eqn:Ek.
  - apply Hhash in Ek. rewrite Ek, Z.eqb_refl. reflexivity.
  - now rewrite andb_false_r.
Qed.

(** First index from [h] on (cyclically) satisfying [f]. *)
Definition adv (c h d : Z) : Z := if h + d <? c then h + d else h + d - c.

Lemma adv_0 c h : 0 <= h < c -> adv c h 0 = h.
Proof. intro. unfold adv. destruct (Z.ltb_spec (h + 0) c); lia. Qed.
Lemma adv_next c h d : 0 <= h < c -> 0 <= d < c - 1 -> nextpos c (adv c h d) = adv c h (d + 1).
Proof.
  intros. unfold adv, nextpos.
  destruct (Z.ltb_spec (h + d) c), (Z.ltb_spec (h + (d + 1)) c);
    repeat match goal with |- context [?a <? ?b] => destruct (Z.ltb_spec a b) end; lia.
Qed.
Lemma adv_range c h d : 0 <= h < c -> 0 <= d < c -> 0 <= adv c h d < c.
Proof. intros. unfold adv. destruct (Z.ltb_spec (h + d) c); lia. Qed.
Lemma dist_adv c h d : 0 <= h < c -> 0 <= d < c -> dist c h (adv c h d) = d.
Proof. intros. unfold adv. destruct (Z.ltb_spec (h + d) c); dsolve. Qed.
Lemma adv_dist c h i : 0 <= h < c -> 0 <= i < c -> adv c h (dist c h i) = i.
Proof.
  intros. unfold adv, dist. destruct (Z.leb_spec h i).
  - destruct (Z.ltb_spec (h + (i - h)) c); lia.
  - destruct (Z.ltb_spec (h + (i - h + c)) c); lia.
Qed.

Lemma least (f : Z -> bool) n : 0 <= n -> f n = true ->
  exists m, 0 <= m <= n /\ f m = true /\ forall d, 0 <= d < m -> f d = false.
Proof.
  intros Hn. revert n Hn. refine (Zlt_0_ind _ _). intros n IH Hn Hf.
  destruct (forallb (fun d => negb (f (Z.of_nat d))) (seq 0 (Z.to_nat n))) eqn:E.
  - exists n. split; [lia|]. split; [exact Hf|]. intros d Hd. rewrite forallb_forall in E.
    specialize (E (Z.to_nat d)). rewrite in_seq, Z2Nat.id in E by lia.
    specialize (E ltac:(lia)). now apply negb_true_iff in E.
  - assert (exists d, 0 <= d < n /\ f d = true) as (d & Hd & Hfd).
    { assert (Hx : existsb (fun d => f (Z.of_nat d)) (seq 0 (Z.to_nat n)) = true).
      { clear - E. induction (seq 0 (Z.to_nat n)) as [|a l IHl]; [discriminate|]. cbn in *.
        destruct (f (Z.of_nat a)); [reflexivity|]. cbn in *. auto. }
      apply existsb_exists in Hx as (d & Hd & Hfd). apply in_seq in Hd.
      exists (Z.of_nat d). split; [lia|exact Hfd]. }
    destruct (IH d Hd Hfd) as (m & Hm & H1 & H2). exists m. split; [lia|auto].
Qed.

(** The probe loop runs to the first stopping index. *)
Lemma probe_run t c k h : table t c -> forall n d0 d,
  0 <= h mod c + 0 -> d0 = d + Z.of_nat n -> 0 <= d -> d0 < c ->
  (forall e, d <= e < d0 -> exists x, zget t (adv c (h mod c) e) = Some x /\ occ x = true /\ map_cmp ko x k h = false) ->
  (exists x, zget t (adv c (h mod c) d0) = Some x /\ (occ x = false \/ map_cmp ko x k h = true)) ->
  forall fuel, (n < fuel)%nat ->
  exists x, zget t (adv c (h mod c) d0) = Some x /\
    probe ko fuel t (u32 (c - 1)) (adv c (h mod c) d) k h = Ok (adv c (h mod c) d0, x).
Proof.
  intros Ht. pose proof (tb_pos _ _ Ht) as Hc. destruct (tb_pow _ _ Ht) as (kk & Hkk & Hck).
  assert (Hh : 0 <= h mod c < c) by (apply Z.mod_pos_bound; lia).
  induction n as [|n IH]; intros d0 d _ Hd Hd0 Hlt Hpath (x & Hx & Hstop) fuel Hf;
    (destruct fuel as [|fuel]; [lia|]); cbn [probe].
  - replace d0 with d in * by lia. exists x. split; [exact Hx|]. rewrite (zload_ok _ _ _ Hx). cbn [bind].
    unfold occ in Hstop. destruct (isnull ko (skey x)); [reflexivity|].
    destruct Hstop as [Hs|Hs]; [discriminate|]. now rewrite Hs.
  - destruct (Hpath d) as (y & Hy & Hoy & Hcy); [lia|].
    rewrite (zload_ok _ _ _ Hy). cbn [bind].
    unfold occ in Hoy. apply negb_true_iff in Hoy. rewrite Hoy, Hcy.
    rewrite (land_next c kk) by (auto; apply adv_range; lia).
    rewrite adv_next by lia.
    apply IH; [lia|lia|lia|lia| |eauto|lia].
    intros e He. apply Hpath. lia.
Qed.

Lemma probe_spec t c k fuel :
  table t c -> chain t c -> (exists i s, zget t i = Some s /\ occ s = false) ->
  (length t < fuel)%nat -> ko.(isnull) k = false ->
  exists pos x, probe ko fuel t (u32 (c - 1)) (Z.land (ko.(hashk) k) (u32 (c - 1))) k (ko.(hashk) k) = Ok (pos, x) /\
    zget t pos = Some x /\
    ((occ x = true /\ ko.(keq) (skey x) k = true) \/
     (occ x = false /\ (forall p, In p (ents t) -> ko.(keq) (fst p) k = false) /\
      (forall j, 0 <= j < c -> dist c (ko.(hashk) k mod c) j < dist c (ko.(hashk) k mod c) pos -> occ_at t j))).
Proof.
  intros Ht Hch (ie & se & Hie & Hse) Hf Hk.
  pose proof (tb_pos _ _ Ht) as Hc. destruct (tb_pow _ _ Ht) as (kk & Hkk & Hck).
  set (h := hashk ko k). rewrite (land_home c kk) by auto.
  assert (Hh : 0 <= h mod c < c) by (apply Z.mod_pos_bound; lia).
  assert (Hlen : zlen t = c) by apply Ht.
  assert (Hier : 0 <= ie < c) by (apply zget_Some_range in Hie; lia).
  set (f := fun d => match zget t (adv c (h mod c) d) with
                     | Some x => negb (occ x) || map_cmp ko x k h | None => false end).
  destruct (least f (dist c (h mod c) ie)) as (d0 & Hd0 & Hfd & Hfl).
  { apply dist_range; lia. }
  { unfold f. rewrite adv_dist by lia. rewrite Hie, Hse. reflexivity. }
  pose proof (dist_range c (h mod c) ie Hh Hier) as Hdr.
  destruct (probe_run t c k h Ht (Z.to_nat d0) d0 0) with (fuel := fuel) as (x & Hx & Hp).
  - lia.
  - lia.
  - lia.
  - lia.
  - intros e He. specialize (Hfl e He). unfold f in Hfl.
    destruct (zget_in_range t (adv c (h mod c) e)) as (y & Hy).
    { rewrite Hlen. apply adv_range; lia. }
    rewrite Hy in Hfl. apply orb_false_iff in Hfl as [H1 H2]. apply negb_false_iff in H1. eauto.
  - unfold f in Hfd. destruct (zget t (adv c (h mod c) d0)) as [x|]; [|discriminate].
    exists x. split; [auto|]. apply orb_true_iff in Hfd as [H|H]; [left|right; exact H].
    now apply negb_true_iff in H.
  - unfold zlen in Hlen. lia.
  - rewrite adv_0 in Hp by lia. exists (adv c (h mod c) d0), x. split; [exact Hp|]. split; [exact Hx|].
    unfold f in Hfd. rewrite Hx in Hfd.
    destruct (occ x) eqn:Eo.
    + left. split; [reflexivity|]. cbn [negb orb] in Hfd. unfold h in Hfd. now rewrite (cmp_ok t c _ x k Ht Hx Eo) in Hfd.
    + right. split; [reflexivity|]. split.
      * intros p Hpi. apply In_ents in Hpi as (i & s & Hi & Ho & ->). cbn [fst].
        destruct (keq ko (skey s) k) eqn:E; [|reflexivity]. exfalso.
        pose proof (Hhash _ _ E) as Hhs.
        assert (Hir : 0 <= i < c) by (apply zget_Some_range in Hi; lia).
        assert (Hhome : home c s = h mod c) by (unfold home, h; now rewrite Hhs).
        destruct (Z.lt_trichotomy d0 (dist c (h mod c) i)) as [Hlt|[Heq|Hgt]].
        -- destruct (Hch i s (adv c (h mod c) d0) Hi Ho) as (y & Hy & Hoy).
           ++ apply adv_range; lia.
           ++ rewrite Hhome, dist_adv by lia. lia.
           ++ congruence.
        -- rewrite Heq, adv_dist in Hx by lia. congruence.
        -- pose proof (dist_range c (h mod c) i Hh Hir).
           specialize (Hfl (dist c (h mod c) i) ltac:(lia)). unfold f in Hfl.
           rewrite adv_dist in Hfl by lia. rewrite Hi, Ho in Hfl. cbn [negb orb] in Hfl.
           unfold h in Hfl. rewrite (cmp_ok t c i s k Ht Hi Ho) in Hfl. congruence.
      * intros j Hj Hlt. rewrite dist_adv in Hlt by lia.
        pose proof (dist_range c (h mod c) j Hh Hj).
        specialize (Hfl (dist c (h mod c) j) ltac:(lia)). unfold f in Hfl.
        rewrite adv_dist in Hfl by lia.
        destruct (zget_in_range t j) as (y & Hy); [lia|]. rewrite Hy in Hfl.
        apply orb_false_iff in Hfl as [H1 _]. apply negb_false_iff in H1. exists y. auto.
Qed.

(** Storing an occupied slot at a position reachable from its home. *)
Lemma chain_set t c pos s0 s : table t c -> chain t c -> zget t pos = Some s0 ->
  occ s = true -> (ko.(strk) = true -> shash s = ko.(hashk) (skey s)) ->
  (forall j, 0 <= j < c -> dist c (home c s) j < dist c (home c s) pos -> occ_at t j) ->
  table (zset t pos s) c /\ chain (zset t pos s) c.
Proof.
  intros Ht Hch H0 Ho Hsh Hpath. pose proof (zget_Some_range _ _ _ H0) as Hr.
  assert (Hocc : forall j, occ_at t j -> occ_at (zset t pos s) j).
  { intros j (y & Hy & Hoy). unfold occ_at. rewrite zget_zset by exact Hr.
    destruct (Z.eqb_spec pos j); [exists s; auto|exists y; auto]. }
  split.
  - destruct Ht as [H1 H2 H3]. constructor; [now rewrite zlen_zset|exact H2|].
    intros i y Hi Hoy Hst. rewrite zget_zset in Hi by exact Hr.
    destruct (Z.eqb_spec pos i); [injection Hi as <-; auto|now apply (H3 i)].
  - intros i y j Hi Hoy Hj Hd. apply Hocc. rewrite zget_zset in Hi by exact Hr.
    destruct (Z.eqb_spec pos i); [injection Hi as <-; subst; auto|].
    exact (Hch i y j Hi Hoy Hj Hd).
Qed.

(** ** Rehashing *)
Lemma place_run t c s h : table t c -> h = h mod c -> forall n d0 d,
  d0 = d + Z.of_nat n -> 0 <= d -> d0 < c ->
  (forall e, d <= e < d0 -> exists x, zget t (adv c h e) = Some x /\ occ x = true) ->
  (exists x, zget t (adv c h d0) = Some x /\ occ x = false) ->
  forall fuel, (n < fuel)%nat ->
  place ko fuel t (u32 (c - 1)) (adv c h d) s = Ok (zset t (adv c h d0) s).
Proof.
  intros Ht Hhm. pose proof (tb_pos _ _ Ht) as Hc. destruct (tb_pow _ _ Ht) as (kk & Hkk & Hck).
  assert (Hh : 0 <= h < c) by (rewrite Hhm; apply Z.mod_pos_bound; lia).
  induction n as [|n IH]; intros d0 d Hd Hd0 Hlt Hpath (x & Hx & Hstop) fuel Hf;
    (destruct fuel as [|fuel]; [lia|]); cbn [place].
  - replace d0 with d in * by lia. rewrite (zload_ok _ _ _ Hx). cbn [bind].
    unfold occ in Hstop. apply negb_false_iff in Hstop. rewrite Hstop.
    apply zput_ok. now apply zget_Some_range in Hx.
  - destruct (Hpath d) as (y & Hy & Hoy); [lia|].
    rewrite (zload_ok _ _ _ Hy). cbn [bind].
    unfold occ in Hoy. apply negb_true_iff in Hoy. rewrite Hoy.
    rewrite (land_next c kk) by (auto; apply adv_range; lia).
    rewrite adv_next by lia.
    apply IH; [lia|lia|lia| |eauto|lia].
    intros e He. apply Hpath. lia.
Qed.

Lemma place_spec t c s :
  table t c -> chain t c -> zlen (ents t) < c -> occ s = true ->
  (ko.(strk) = true -> shash s = ko.(hashk) (skey s)) ->
  exists t', place ko (S (Z.to_nat c)) t (u32 (c - 1)) (Z.land (map_hashof ko s) (u32 (c - 1))) s = Ok t' /\
    table t' c /\ chain t' c /\ Permutation (ents t') ((skey s, sval s) :: ents t).
Proof.
  intros Ht Hch Hsp Ho Hsh.
  pose proof (tb_pos _ _ Ht) as Hc. destruct (tb_pow _ _ Ht) as (kk & Hkk & Hck).
  assert (Hlen : zlen t = c) by apply Ht.
  rewrite (land_home c kk) by auto.
  assert (Hhs : map_hashof ko s = hashk ko (skey s)).
  { unfold map_hashof. destruct (strk ko); [auto|reflexivity]. }
  rewrite Hhs. set (h := hashk ko (skey s) mod c).
  assert (Hh : 0 <= h < c) by (apply Z.mod_pos_bound; lia).
  destruct (empty_exists t) as (ie & se & Hie & Hse); [lia|].
  assert (Hier : 0 <= ie < c) by (apply zget_Some_range in Hie; lia).
  set (f := fun d => match zget t (adv c h d) with Some x => negb (occ x) | None => false end).
  destruct (least f (dist c h ie)) as (d0 & Hd0 & Hfd & Hfl).
  { apply dist_range; lia. }
  { unfold f. rewrite adv_dist by lia. rewrite Hie, Hse. reflexivity. }
  pose proof (dist_range c h ie Hh Hier) as Hdr.
  assert (Hx : exists x, zget t (adv c h d0) = Some x /\ occ x = false).
  { unfold f in Hfd. destruct (zget t (adv c h d0)) as [x|]; [|discriminate].
    exists x. split; [auto|]. now apply negb_true_iff in Hfd. }
  assert (Hpl : place ko (S (Z.to_nat c)) t (u32 (c - 1)) (adv c h 0) s = Ok (zset t (adv c h d0) s)).
  { apply (place_run t c s h Ht) with (n := Z.to_nat d0).
    - unfold h. rewrite Z.mod_mod by lia. reflexivity.
    - lia.
    - lia.
    - lia.
    - intros e He. specialize (Hfl e He). unfold f in Hfl.
      destruct (zget_in_range t (adv c h e)) as (y & Hy).
      { rewrite Hlen. apply adv_range; lia. }
      rewrite Hy in Hfl. apply negb_false_iff in Hfl. eauto.
    - exact Hx.
    - lia. }
  rewrite adv_0 in Hpl by lia. destruct Hx as (x & Hx & Hox).
  exists (zset t (adv c h d0) s). split; [exact Hpl|].
  destruct (chain_set t c (adv c h d0) x s Ht Hch Hx Ho Hsh) as [H1 H2].
  { intros j Hj Hlt. unfold home in Hlt. fold h in Hlt. rewrite dist_adv in Hlt by lia.
    pose proof (dist_range c h j Hh Hj). specialize (Hfl (dist c h j) ltac:(lia)). unfold f in Hfl.
    rewrite adv_dist in Hfl by lia. destruct (zget_in_range t j) as (y & Hy); [lia|].
    rewrite Hy in Hfl. apply negb_false_iff in Hfl. exists y. auto. }
  split; [exact H1|]. split; [exact H2|].
  pose proof (ents_zset t _ x s Hx) as Hp. unfold ent in Hp. rewrite Hox, Ho in Hp. exact Hp.
Qed.

Lemma rehash_spec c : forall old t,
  table t c -> chain t c -> zlen (ents t) + zlen (ents old) < c ->
  (forall s, In s old -> occ s = true -> ko.(strk) = true -> shash s = ko.(hashk) (skey s)) ->
  exists t', foldM (fun t s => if ko.(isnull) (skey s) then Ok t
                    else place ko (S (Z.to_nat c)) t (u32 (c - 1)) (Z.land (map_hashof ko s) (u32 (c - 1))) s)
                  t old = Ok t' /\
    table t' c /\ chain t' c /\ Permutation (ents t') (ents old ++ ents t).
Proof.
  induction old as [|s old IH]; intros t Ht Hch Hsp Hsh; cbn [foldM].
  - exists t. split; [reflexivity|]. split; [exact Ht|]. split; [exact Hch|]. reflexivity.
  - cbn [ents flat_map] in *. fold (ents old) in *.
    destruct (isnull ko (skey s)) eqn:En; cbn [bind].
    + assert (Ho : occ s = false) by (unfold occ; now rewrite En).
      unfold ent in *. rewrite Ho in *. cbn [app] in *.
      apply IH; [exact Ht|exact Hch|exact Hsp|]. intros y Hy. apply Hsh. now right.
    + assert (Ho : occ s = true) by (unfold occ; now rewrite En).
      unfold ent in Hsp at 1. unfold ent at 1. rewrite Ho in *. cbn [app] in *.
      rewrite zlen_cons in Hsp. pose proof (zlen_nonneg (ents old)).
      destruct (place_spec t c s Ht Hch) as (t1 & Hp & Ht1 & Hch1 & Hpe).
      { lia. } { exact Ho. } { apply Hsh; [now left|exact Ho]. }
      rewrite Hp. cbn [bind].
      destruct (IH t1 Ht1 Hch1) as (t' & Hf & Ht' & Hch' & Hpe').
      { assert (zlen (ents t1) = zlen (ents t) + 1).
        { unfold zlen. rewrite (Permutation_length Hpe). cbn. lia. }
        lia. }
      { intros y Hy. apply Hsh. now right. }
      exists t'. split; [exact Hf|]. split; [exact Ht'|]. split; [exact Hch'|].
      rewrite Hpe', Hpe. symmetry. apply Permutation_middle.
Qed.

Lemma zget_repeat_slot0 n i s : zget (repeat (slot0 ko vzero) n) i = Some s -> s = slot0 ko vzero.
Proof. intro H. apply zget_In in H. now apply repeat_spec in H. Qed.

Lemma occ_slot0 : occ (slot0 ko vzero) = false.
Proof. unfold occ, slot0. cbn. now rewrite knull_null. Qed.

Lemma empty_table k : 0 <= k <= 31 ->
  let t := repeat (slot0 ko vzero) (Z.to_nat (2^k)) in
  table t (2^k) /\ chain t (2^k) /\ ents t = [].
Proof.
  intros Hk t. assert (0 < 2^k) by lia. split; [|split].
  - constructor.
    + unfold t. rewrite zlen_repeat. lia.
    + exists k. auto.
    + intros i s Hi Ho. apply zget_repeat_slot0 in Hi. subst. rewrite occ_slot0 in Ho. discriminate.
  - intros i s j Hi Ho. apply zget_repeat_slot0 in Hi. subst. rewrite occ_slot0 in Ho. discriminate.
  - apply ents_null. intros s Hs. apply repeat_spec in Hs. subst. apply occ_slot0.
Qed.

(** ** Back-shift deletion *)
(** Table with a hole: chains hold except at [prev], and only slots still ahead
    of the scan position (offset greater than [n] from [pos0]) miss it. *)
Definition holed (t : list slot) (c pos0 prev n : Z) : Prop :=
  (forall i s j, zget t i = Some s -> occ s = true -> 0 <= j < c -> j <> prev ->
     dist c (home c s) j < dist c (home c s) i -> occ_at t j) /\
  (forall i s, zget t i = Some s -> occ s = true ->
     dist c (home c s) prev < dist c (home c s) i -> n < dist c pos0 i).

Lemma move_cond c p prev it : 0 <= p < c -> 0 <= prev < c -> 0 <= it < c -> prev <> it ->
  (((it <? p) && ((p <=? prev) || (prev <=? it))) || ((p <=? prev) && (prev <=? it)))
  = (dist c prev it <=? dist c p it).
Proof.
  intros. unfold dist.
  destruct (Z.ltb_spec it p), (Z.leb_spec p prev), (Z.leb_spec prev it), (Z.leb_spec p it); cbn [andb orb];
    match goal with |- _ = (?a <=? ?b) => destruct (Z.leb_spec a b) end; try reflexivity; exfalso; lia.
Qed.

Lemma chain_of_holed t c pos0 prev E : 0 < c -> zlen t = c ->
  0 <= pos0 < c -> 0 <= prev < c -> 0 <= E < c ->
  dist c pos0 prev < dist c pos0 E ->
  (forall s, zget t E = Some s -> occ s = false) ->
  holed t c pos0 prev (dist c pos0 E - 1) -> chain t c.
Proof.
  intros Hc Hlen Hp0 Hpr HE Hlt Hemp [H1 H2] i s j Hi Ho Hj Hd.
  destruct (Z.eq_dec j prev) as [->|Hne]; [|now apply (H1 i s)].
  exfalso. pose proof (H2 i s Hi Ho Hd) as Hoff.
  assert (Hir : 0 <= i < c) by (apply zget_Some_range in Hi; lia).
  pose proof (home_range c s Hc) as Hhr.
  assert (HiE : i <> E) by (intros ->; specialize (Hemp s Hi); congruence).
  destruct (H1 i s E Hi Ho HE) as (y & Hy & Hoy).
  - intros ->. lia.
  - clear H1 H2 Hemp Hi Hlen Ho. revert Hd Hhr. generalize (home c s). intros p Hd Hpr2. dsolve.
  - specialize (Hemp y Hy). congruence.
Qed.

Lemma backshift_spec c pos0 E : forall n fuel t prev it,
  table t c -> 0 <= pos0 < c -> 0 <= prev < c -> 0 <= it < c -> 0 <= E < c ->
  dist c pos0 prev <= dist c pos0 it -> dist c pos0 it < dist c pos0 E ->
  (exists s, zget t E = Some s /\ occ s = false) ->
  (exists s, zget t prev = Some s /\ occ s = false) ->
  holed t c pos0 prev (dist c pos0 it) ->
  dist c pos0 E - dist c pos0 it = Z.of_nat n -> (n <= fuel)%nat ->
  exists t', backshift ko fuel t (u32 (c - 1)) prev it = Ok t' /\
    table t' c /\ chain t' c /\ Permutation (ents t') (ents t).
Proof.
  induction n as [|n IH]; intros fuel t prev it Ht Hp0 Hpr Hit HE Hord Hlt (sE & HsE & HoE) (sp & Hsp & Hop) Hh Hn Hf;
    [lia|].
  destruct fuel as [|fuel]; [lia|]. cbn [backshift].
  pose proof (tb_pos _ _ Ht) as Hc. destruct (tb_pow _ _ Ht) as (kk & Hkk & Hck).
  assert (Hlen : zlen t = c) by apply Ht.
  rewrite (land_next c kk) by auto.
  remember (nextpos c it) as it' eqn:Eit.
  assert (Hit' : 0 <= it' < c /\ dist c pos0 it' = dist c pos0 it + 1).
  { subst it'. unfold nextpos. destruct (Z.ltb_spec (it + 1) c); dsolve. }
  destruct Hit' as [Hit' Hdi].
  destruct (zget_in_range t it') as (x & Hx); [lia|].
  rewrite (zload_ok _ _ _ Hx). cbn [bind].
  destruct (isnull ko (skey x)) eqn:En.
  - (* empty: done *)
    exists t. split; [reflexivity|]. split; [exact Ht|]. split; [|reflexivity].
    apply (chain_of_holed t c pos0 prev it'); auto; try lia.
    + intros s Hs. assert (s = x) by congruence. subst. unfold occ. now rewrite En.
    + replace (dist c pos0 it' - 1) with (dist c pos0 it) by lia. exact Hh.
  - assert (Hox : occ x = true) by (unfold occ; now rewrite En).
    assert (HEit : it' <> E) by (intros <-; congruence).
    assert (Hprit : prev <> it') by (intros <-; congruence).
    assert (Hlt' : dist c pos0 it' < dist c pos0 E).
    { assert (dist c pos0 it' <> dist c pos0 E) by now apply dist_inj. clear - Hlt Hdi H. lia. }
    rewrite (hashof_ok t c it' x Ht Hx Hox), (land_home c kk) by auto.
    fold (home c x). pose proof (home_range c x ltac:(lia)) as Hhx.
    rewrite (move_cond c) by auto.
    destruct Hh as [Hh1 Hh2].
    destruct (Z.leb_spec (dist c prev it') (dist c (home c x) it')) as [Hmv|Hmv].
    + (* move *)
      rewrite zput_ok by lia. cbn [bind]. rewrite zput_ok by (rewrite zlen_zset; lia). cbn [bind].
      set (s0 := mk_slot (knull ko) (sval x) (shash x)).
      assert (Ho0 : occ s0 = false) by (unfold occ, s0; cbn; now rewrite knull_null).
      set (t1 := zset t prev x). set (t2 := zset t1 it' s0).
      assert (Hl1 : zlen t1 = c) by (unfold t1; rewrite zlen_zset; exact Hlen).
      assert (Hg : forall i, zget t2 i = if it' =? i then Some s0 else if prev =? i then Some x else zget t i).
      { intro i. unfold t2. rewrite zget_zset by lia. destruct (Z.eqb_spec it' i); [reflexivity|].
        unfold t1. rewrite zget_zset by lia. reflexivity. }
      assert (Ht2 : table t2 c).
      { constructor.
        - unfold t2. rewrite zlen_zset. exact Hl1.
        - apply Ht.
        - intros i s Hi Ho. rewrite Hg in Hi.
          destruct (Z.eqb_spec it' i); [injection Hi as <-; congruence|].
          destruct (Z.eqb_spec prev i); [injection Hi as <-; now apply (tb_hash _ _ Ht it')|].
          now apply (tb_hash _ _ Ht i). }
      assert (Hocc2 : forall j, j <> it' -> (j = prev \/ occ_at t j) -> occ_at t2 j).
      { intros j Hj Hor. unfold occ_at. rewrite Hg. destruct (Z.eqb_spec it' j); [congruence|].
        destruct (Z.eqb_spec prev j); [exists x; auto|].
        destruct Hor as [->|Hor]; [congruence|exact Hor]. }
      destruct (IH fuel t2 it' it' Ht2 Hp0 Hit' Hit' HE) as (t' & Hb & Htb & Hct & Hpe).
      * lia.
      * exact Hlt'.
      * exists sE. rewrite Hg. destruct (Z.eqb_spec it' E); [congruence|].
        destruct (Z.eqb_spec prev E); [subst; lia|]. auto.
      * exists s0. rewrite Hg, Z.eqb_refl. auto.
      * split.
        -- intros i s j Hi Ho Hj Hji Hd. apply Hocc2; [exact Hji|].
           rewrite Hg in Hi. destruct (Z.eqb_spec it' i); [injection Hi as <-; congruence|].
           destruct (Z.eqb_spec prev i) as [<-|Hpi].
           ++ injection Hi as <-.
              right. apply (Hh1 it' x j Hx Hox Hj).
              ** intros ->. lia.
              ** clear - Hd Hmv Hj Hpr Hit' Hhx Hprit Hc. revert Hd Hmv Hhx. generalize (home c x). intros p Hd Hmv Hp. dsolve.
           ++ destruct (Z.eq_dec j prev) as [->|Hjp]; [now left|]. right. now apply (Hh1 i s j).
        -- intros i s Hi Ho Hd.
           rewrite Hg in Hi. destruct (Z.eqb_spec it' i) as [|Hii]; [injection Hi as <-; congruence|].
           destruct (Z.eqb_spec prev i) as [<-|Hpi].
           ++ injection Hi as <-. exfalso.
              clear - Hd Hmv Hpr Hit' Hhx Hprit Hc. revert Hd Hmv Hhx. generalize (home c x). intros p Hd Hmv Hp. dsolve.
           ++ assert (Hir : 0 <= i < c) by (apply zget_Some_range in Hi; lia).
              destruct (Z.lt_ge_cases (dist c pos0 it') (dist c pos0 i)) as [|Hge]; [assumption|]. exfalso.
              pose proof (home_range c s ltac:(lia)) as Hhs.
              destruct (Hh1 i s E Hi Ho HE) as (y & Hy & Hoy).
              ** intros ->. lia.
              ** clear - Hd Hge Hhs Hir HE Hit' Hp0 Hlt' Hii Hc. revert Hd Hhs. generalize (home c s). intros p Hd Hp. dsolve.
              ** congruence.
      * lia.
      * lia.
      * exists t'. fold t1. fold s0. fold t2. split; [exact Hb|]. split; [exact Htb|]. split; [exact Hct|].
        rewrite Hpe.
        assert (Hx1 : zget t1 it' = Some x).
        { unfold t1. rewrite zget_zset_neq by exact Hprit. exact Hx. }
        pose proof (ents_zset t prev sp x Hsp) as P1. pose proof (ents_zset t1 it' x s0 Hx1) as P2.
        unfold ent in P1, P2. rewrite Hop, Hox in P1. rewrite Ho0, Hox in P2. cbn [app] in P1, P2.
        fold t1 in P1. fold t2 in P2. rewrite P1 in P2. now apply Permutation_cons_inv in P2.
    + (* keep *)
      apply IH; auto; try lia.
      * eauto.
      * eauto.
      * split; [exact Hh1|]. intros i s Hi Ho Hd. pose proof (Hh2 i s Hi Ho Hd) as Hoff.
        assert (Hir : 0 <= i < c) by (apply zget_Some_range in Hi; lia).
        assert (i <> it').
        { intros ->. assert (s = x) by congruence. subst s.
          clear - Hd Hmv Hpr Hit' Hhx Hprit Hc. revert Hd Hmv Hhx. generalize (home c x). intros p Hd Hmv Hp. dsolve. }
        assert (dist c pos0 i <> dist c pos0 it') by now apply dist_inj. clear - Hoff Hdi H0. lia.
Qed.

(** ** The map invariant *)
Definition zent (m : smap) : list (K * V) := if used m then [(ko.(knull), sval (zslot m))] else [].

Record wf (m : smap) (l : binds (K:=K) (V:=V)) : Prop := mk_wf {
  w_tab : table (mem m) (cap m);
  w_chain : chain (mem m) (cap m);
  w_lf : lf_ok (load_fac m);
  w_kind : (static m = true /\ cap m = 1 /\ size m = 0 /\ used m = false /\ remap m = 0) \/
           (static m = false /\ exists k, 3 <= k <= 31 /\ cap m = 2^k /\
              remap m = map_threshold (cap m) (load_fac m));
  w_z : skey (zslot m) = ko.(knull);
  w_size : size m = zlen l;
  w_room : size m < cap m;
  w_ents : Permutation (zent m ++ ents (mem m)) l;
  w_uniq : uniq l }.

Lemma wf_room m l : wf m l -> zlen (ents (mem m)) < zlen (mem m).
Proof.
  intros W. pose proof (Permutation_length (w_ents _ _ W)) as Hp. rewrite app_length in Hp.
  pose proof (w_room _ _ W). rewrite (w_size _ _ W) in *. rewrite (tb_len _ _ (w_tab _ _ W)).
  unfold zlen in *. lia.
Qed.

Lemma ents_nonnull t p : In p (ents t) -> ko.(isnull) (fst p) = false.
Proof.
  intro H. apply In_ents in H as (i & s & _ & Ho & ->). cbn. unfold occ in Ho. now apply negb_true_iff in Ho.
Qed.

Lemma wf_set_flags m l o f : wf m l ->
  wf (mk_map (mem m) (zslot m) (static m) (cap m) (size m) (load_fac m) (remap m) (used m) o f) l.
Proof. intros []. constructor; assumption. Qed.

Lemma lookup_null m l k : wf m l -> ko.(isnull) k = true ->
  lookup k l = if used m then Some (sval (zslot m)) else None.
Proof.
  intros W Hk. rewrite <- (lookup_perm k _ _ (w_ents _ _ W)).
  - assert (Hn : lookup k (ents (mem m)) = None).
    { apply lookup_none. intros p Hp. apply ents_nonnull in Hp. unfold MapSpec.same.
      rewrite Hp, Hk. reflexivity. }
    unfold zent. destruct (used m); cbn [app]; [|exact Hn].
    rewrite lookup_cons. cbn [fst snd]. unfold MapSpec.same. rewrite knull_null, Hk. reflexivity.
  - apply (uniq_perm l); [symmetry; apply W|apply W].
Qed.

Lemma zent_null m p : In p (zent m) -> ko.(isnull) (fst p) = true.
Proof. unfold zent. destruct (used m); [|easy]. intros [<-|[]]. apply knull_null. Qed.

Lemma same_nonnull a k : ko.(isnull) k = false -> ko.(isnull) a = false -> same a k = ko.(keq) a k.
Proof. intros Hk Ha. unfold MapSpec.same. now rewrite Hk, Ha. Qed.
Lemma same_null a k : ko.(isnull) k = false -> ko.(isnull) a = true -> same a k = false.
Proof. intros Hk Ha. unfold MapSpec.same. now rewrite Hk, Ha. Qed.
Lemma same_null' a k : ko.(isnull) k = true -> ko.(isnull) a = false -> same a k = false.
Proof. intros Hk Ha. unfold MapSpec.same. now rewrite Hk, Ha. Qed.

(** Probing in a well-formed map. *)
Lemma wf_probe m l k : wf m l -> ko.(isnull) k = false ->
  exists pos x,
    probe ko (pfuel m) (mem m) (u32 (cap m - 1)) (Z.land (ko.(hashk) k) (u32 (cap m - 1))) k (ko.(hashk) k) = Ok (pos, x) /\
    zget (mem m) pos = Some x /\
    ((occ x = true /\ ko.(keq) (skey x) k = true /\ lookup k l = Some (sval x)) \/
     (occ x = false /\ lookup k l = None /\ (forall p, In p l -> same (fst p) k = false) /\
      (forall j, 0 <= j < cap m -> dist (cap m) (ko.(hashk) k mod cap m) j < dist (cap m) (ko.(hashk) k mod cap m) pos ->
         occ_at (mem m) j))).
Proof.
  intros W Hk.
  destruct (probe_spec (mem m) (cap m) k (pfuel m)) as (pos & x & Hp & Hx & Hor).
  - apply W.
  - apply W.
  - apply empty_exists. now apply (wf_room m l).
  - unfold pfuel. lia.
  - exact Hk.
  - exists pos, x. split; [exact Hp|]. split; [exact Hx|].
    destruct Hor as [[Ho He]|(Ho & Hn & Hpath)]; [left|right].
    + split; [exact Ho|]. split; [exact He|].
      apply (lookup_in k (sval x) (skey x, sval x) l); [apply W| | |reflexivity].
      * apply (Permutation_in _ (w_ents _ _ W)). apply in_or_app. right. apply In_ents. eauto.
      * cbn. rewrite same_nonnull; auto. unfold occ in Ho. now apply negb_true_iff in Ho.
    + assert (Hns : forall p, In p l -> same (fst p) k = false).
      { intros p Hpi. apply (Permutation_in _ (Permutation_sym (w_ents _ _ W))) in Hpi.
        apply in_app_or in Hpi as [Hpi|Hpi].
        - apply same_null; [exact Hk|]. now apply (zent_null m).
        - rewrite same_nonnull; [now apply Hn|exact Hk|]. now apply (ents_nonnull (mem m)). }
      split; [exact Ho|]. split; [now apply lookup_none|]. split; [exact Hns|exact Hpath].
Qed.

Lemma get_ok m l k : wf m l ->
  map_get ko vzero m k = Ok (set_found m (some (lookup k l)), orz vzero (lookup k l)).
Proof.
  intros W. unfold map_get. destruct (isnull ko k) eqn:Hk.
  - rewrite (lookup_null m l k W Hk). now destruct (used m).
  - destruct (wf_probe m l k W Hk) as (pos & x & Hp & Hx & Hor). rewrite Hp. cbn [bind].
    unfold occ in Hor. destruct Hor as [(Ho & _ & ->)|(Ho & -> & _)].
    + apply negb_true_iff in Ho. now rewrite Ho.
    + apply negb_false_iff in Ho. now rewrite Ho.
Qed.

Lemma table_1 : table [slot0 ko vzero] 1 /\ chain [slot0 ko vzero] 1 /\ ents [slot0 ko vzero] = [].
Proof. exact (empty_table 0 ltac:(lia)). Qed.

Lemma wf_static lf o f : lf_ok lf ->
  wf (mk_map [slot0 ko vzero] (slot0 ko vzero) true 1 0 lf 0 false o f) [].
Proof.
  intro Hlf. destruct table_1 as (H1 & H2 & H3).
  constructor; cbn [mem zslot static cap size load_fac remap used]; auto.
  all: try lia.
  - unfold zent. cbn [used mem]. rewrite H3. constructor.
  - exact I.
Qed.

Lemma wf_new k lf o f : 3 <= k <= 31 -> lf_ok lf ->
  wf (mk_map (repeat (slot0 ko vzero) (Z.to_nat (2^k))) (slot0 ko vzero) false (2^k) 0 lf
        (map_threshold (2^k) lf) false o f) [].
Proof.
  intros Hk Hlf. destruct (empty_table k ltac:(lia)) as (H1 & H2 & H3).
  constructor; cbn [mem zslot static cap size load_fac remap used]; auto.
  - right. split; [reflexivity|]. exists k. auto.
  - pose proof (tb_pos _ _ H1). lia.
  - unfold zent. cbn [used mem]. rewrite H3. constructor.
  - exact I.
Qed.

Lemma alloc_pow2 c : 0 <= c <= 2^31 ->
  exists k, 3 <= k <= 31 /\ next_pow2_32 (if c <? 8 then 8 else u32 (c * 1)) = 2^k /\ c <= 2^k.
Proof.
  intro Hc. destruct (Z.ltb_spec c 8).
  - exists 3. split; [lia|]. split; [|lia]. apply (next_pow2_pow 3). lia.
  - rewrite Z.mul_1_r, u32_small by lia. destruct (next_pow2_ok c) as [H1 H2]; [lia|].
    exists (Z.log2 (c - 1) + 1). split; [|split; [exact H1|]].
    + assert (2 <= Z.log2 (c - 1)) by (change 2 with (Z.log2 4); apply Z.log2_le_mono; lia).
      assert (Z.log2 (c - 1) < 31) by (apply Z.log2_lt_pow2; lia). lia.
    + rewrite <- H1. lia.
Qed.

Lemma init_ok g c lf ok m : 0 <= c <= 2^31 -> map_init ko vzero g c lf ok = Some m -> wf m [].
Proof.
  intros Hc. unfold map_init. set (f := if lf =? 0 then 75 else lf).
  destruct ((95 <? f) || (f <? 25)) eqn:E; [discriminate|].
  assert (Hlf : lf_ok f) by (right; apply orb_false_iff in E as [E1 E2]; lia).
  destruct (Z.eqb_spec c 0) as [->|Hc0].
  - intros [= <-]. now apply wf_static.
  - unfold map_alloc. destruct (SC_MAP_MAX / 1 <? c); [discriminate|].
    destruct (alloc_pow2 c Hc) as (k & Hk & Hp & _). rewrite Hp.
    destruct ok; [|discriminate]. intros [= <-]. now apply wf_new.
Qed.

Lemma clear_ok m l : wf m l -> exists m', map_clear ko m = Ok m' /\ wf m' [] /\ oom m' = oom m /\ found m' = found m.
Proof.
  intros W. unfold map_clear. destruct (Z.ltb_spec 0 (size m)) as [Hs|Hs].
  - destruct (w_kind _ _ W) as [(_ & _ & H0 & _)|(Hst & k & Hk & Hcap & Hrm)]; [lia|].
    rewrite Hst, (tb_len _ _ (w_tab _ _ W)), Z.eqb_refl. cbn [negb].
    eexists. split; [reflexivity|]. split; [|auto].
    set (t := map (fun s => mk_slot (knull ko) (sval s) (shash s)) (mem m)).
    assert (Hn : forall i s, zget t i = Some s -> occ s = false).
    { intros i s Hi. unfold t in Hi. rewrite zget_map in Hi. destruct (zget (mem m) i); [|discriminate].
      cbn in Hi. injection Hi as <-. unfold occ. cbn. now rewrite knull_null. }
    constructor; cbn [mem zslot static cap size load_fac remap used].
    + constructor.
      * unfold t. rewrite zlen_map. apply W.
      * apply W.
      * intros i s Hi Ho. rewrite (Hn i s Hi) in Ho. discriminate.
    + intros i s j Hi Ho. rewrite (Hn i s Hi) in Ho. discriminate.
    + apply W.
    + right. split; [reflexivity|]. exists k. auto.
    + apply W.
    + reflexivity.
    + pose proof (tb_pos _ _ (w_tab _ _ W)). lia.
    + unfold zent. cbn [used mem]. rewrite ents_null; [constructor|].
      intros s Hi. apply In_zget in Hi as (i & _ & Hi). now apply (Hn i).
    + exact I.
  - exists m. split; [reflexivity|]. split; [|auto].
    assert (l = []) by (apply zlen_zero; pose proof (w_size _ _ W); pose proof (zlen_nonneg l); lia).
    now subst.
Qed.

Lemma term_ok m l : wf m l -> wf (map_term ko vzero m) [].
Proof.
  intro W. unfold map_term. destruct (static m) eqn:E.
  - destruct (w_kind _ _ W) as [(_ & _ & H0 & _)|(Hst & _)]; [|congruence].
    assert (l = []) by (apply zlen_zero; pose proof (w_size _ _ W); lia). now subst.
  - apply wf_static. now left.
Qed.

(** Deletion. *)
Lemma del_ok m l k : wf m l ->
  exists m', map_del ko vzero m k = Ok (m', orz vzero (lookup k l)) /\
    wf m' (remove k l) /\ found m' = some (lookup k l) /\ oom m' = oom m.
Proof.
  intros W. unfold map_del. pose proof (zlen_nonneg l) as Hll.
  pose proof (w_room _ _ W) as Hroom. pose proof (tb_pos _ _ (w_tab _ _ W)) as Hcp.
  pose proof (w_size _ _ W) as Hsz.
  destruct (isnull ko k) eqn:Hk.
  - rewrite (lookup_null m l k W Hk).
    eexists. split; [apply f_equal; apply f_equal2; [reflexivity|now destruct (used m)]|].
    split; [|split; [cbn; now destruct (used m)|reflexivity]].
    assert (Hrem : remove k (ents (mem m)) = ents (mem m)).
    { apply remove_none. intros p Hp. apply ents_nonnull in Hp. now apply same_null'. }
    assert (Hperm : Permutation (ents (mem m)) (remove k l)).
    { rewrite <- (remove_perm k _ _ (w_ents _ _ W)). unfold zent.
      destruct (used m); cbn [app]; [|now rewrite Hrem].
      cbn [MapSpec.remove filter fst].
      replace (same (knull ko) k) with true by (unfold MapSpec.same; now rewrite knull_null, Hk).
      cbn [negb]. fold (remove k (ents (mem m))). now rewrite Hrem. }
    assert (Hlen : zlen (remove k l) = zlen l - (if used m then 1 else 0)).
    { unfold zlen. rewrite <- (Permutation_length Hperm), <- (Permutation_length (w_ents _ _ W)), app_length.
      unfold zent. destruct (used m); cbn [length]; lia. }
    assert (Hsz' : u32 (size m - (if used m then 1 else 0)) = zlen (remove k l)).
    { pose proof (zlen_nonneg (remove k l)). rewrite Hlen. rewrite u32_small; destruct (used m); lia. }
    constructor; cbn [mem zslot static cap size load_fac remap used]; try apply W.
    + destruct (w_kind _ _ W) as [(H1 & H2 & H3 & H4 & H5)|H]; [left|right; exact H].
      rewrite H4, H3. auto.
    + exact Hsz'.
    + rewrite Hsz', Hlen. destruct (used m); lia.
    + unfold zent. cbn [used mem app]. exact Hperm.
    + apply uniq_remove. apply W.
  - destruct (wf_probe m l k W Hk) as (pos & x & Hp & Hx & Hor). rewrite Hp. cbn [bind].
    destruct Hor as [(Ho & He & Hlk)|(Ho & Hlk & Hns & _)].
    + assert (Hnx : isnull ko (skey x) = false) by (unfold occ in Ho; now apply negb_true_iff in Ho).
      rewrite Hnx, Hlk.
      assert (Hst : static m = false).
      { destruct (w_kind _ _ W) as [(H1 & H2 & H3 & _)|[H _]]; [|exact H]. exfalso.
        assert (l = []) by (apply zlen_zero; lia). subst l. cbn in Hlk. discriminate. }
      unfold write_slot. rewrite Hst.
      pose proof (zget_Some_range _ _ _ Hx) as Hpr.
      pose proof (tb_len _ _ (w_tab _ _ W)) as Hlen. rewrite Hlen in Hpr.
      rewrite zput_ok by lia. cbn [bind].
      set (s0 := mk_slot (knull ko) (sval x) (shash x)). set (t := zset (mem m) pos s0).
      assert (Ho0 : occ s0 = false) by (unfold occ, s0; cbn; now rewrite knull_null).
      assert (Hg : forall i, zget t i = if pos =? i then Some s0 else zget (mem m) i).
      { intro i. unfold t. now rewrite zget_zset by lia. }
      destruct (empty_exists (mem m)) as (E & sE & HE & HoE); [now apply (wf_room m l)|].
      assert (HEr : 0 <= E < cap m) by (apply zget_Some_range in HE; lia).
      assert (HEp : E <> pos) by (intros ->; congruence).
      destruct (backshift_spec (cap m) pos E (Z.to_nat (dist (cap m) pos E)) (pfuel m) t pos pos)
        as (t' & Hb & Htb & Hch & Hpe).
      * constructor.
        -- unfold t. rewrite zlen_zset. exact Hlen.
        -- apply W.
        -- intros i s Hi Hoi. rewrite Hg in Hi. destruct (Z.eqb_spec pos i); [injection Hi as <-; congruence|].
           now apply (tb_hash _ _ (w_tab _ _ W) i).
      * exact Hpr.
      * exact Hpr.
      * exact Hpr.
      * exact HEr.
      * lia.
      * clear - HEr Hpr HEp. unfold dist. rewrite Z.leb_refl. destruct (Z.leb_spec pos E); lia.
      * exists sE. rewrite Hg. destruct (Z.eqb_spec pos E); [congruence|auto].
      * exists s0. rewrite Hg, Z.eqb_refl. auto.
      * split.
        -- intros i s j Hi Hoi Hj Hjp Hd. rewrite Hg in Hi.
           destruct (Z.eqb_spec pos i); [injection Hi as <-; congruence|].
           destruct (w_chain _ _ W i s j Hi Hoi Hj Hd) as (y & Hy & Hoy).
           exists y. rewrite Hg. destruct (Z.eqb_spec pos j); [congruence|auto].
        -- intros i s Hi Hoi _. rewrite Hg in Hi.
           destruct (Z.eqb_spec pos i) as [|Hne]; [injection Hi as <-; congruence|].
           apply zget_Some_range in Hi. rewrite Hlen in Hi. clear - Hi Hne Hpr.
           unfold dist. rewrite Z.leb_refl. destruct (Z.leb_spec pos i); lia.
      * assert (dist (cap m) pos pos = 0) by (unfold dist; rewrite Z.leb_refl; lia).
        pose proof (dist_range (cap m) pos E Hpr HEr). lia.
      * pose proof (dist_range (cap m) pos E Hpr HEr). unfold pfuel. unfold zlen in Hlen. lia.
      * rewrite Hb. cbn [bind]. eexists. split; [reflexivity|].
        split; [|split; reflexivity].
        pose proof (ents_zset (mem m) pos x s0 Hx) as P1. unfold ent in P1. rewrite Ho, Ho0 in P1.
        cbn [app] in P1. fold t in P1.
        assert (Hl : Permutation l ((skey x, sval x) :: zent m ++ ents t)).
        { rewrite <- (w_ents _ _ W), <- P1. symmetry. apply Permutation_middle. }
        assert (Hu : uniq ((skey x, sval x) :: zent m ++ ents t)) by (apply (uniq_perm l); [exact Hl|apply W]).
        assert (Hrl : Permutation (remove k l) (zent m ++ ents t)).
        { rewrite (remove_perm k _ _ Hl). rewrite remove_cons_same; [reflexivity|exact Hu|].
          cbn. rewrite same_nonnull; auto. }
        assert (Hlen1 : zlen l = zlen (remove k l) + 1).
        { unfold zlen. rewrite (Permutation_length Hl), (Permutation_length Hrl). cbn [length]. lia. }
        pose proof (zlen_nonneg (remove k l)).
        assert (Hs1 : u32 (size m - 1) = zlen (remove k l)) by (clear - Hsz Hlen1 Hroom Hcp H; rewrite u32_small; lia).
        constructor; cbn [mem zslot static cap size load_fac remap used]; try apply W; auto.
        -- destruct (w_kind _ _ W) as [(H1 & _)|H1]; [congruence|right]. rewrite Hst in H1. exact H1.
        -- lia.
        -- unfold zent in *. cbn [used mem zslot]. rewrite Hpe, Hrl. reflexivity.
        -- apply uniq_remove. apply W.
    + assert (Hnx : isnull ko (skey x) = true) by (unfold occ in Ho; now apply negb_false_iff in Ho).
      rewrite Hnx, Hlk. eexists. split; [reflexivity|]. split; [|auto].
      rewrite remove_none by exact Hns. now apply wf_set_flags.
Qed.

(** Growing. *)
Lemma remap_ok m l ok : wf m l ->
  (map_remap ko vzero m ok = Ok None /\ (ok = false \/ 2^31 <= cap m)) \/
  (exists m', map_remap ko vzero m ok = Ok (Some m') /\ wf m' l /\ static m' = false /\
     size m' + 1 < cap m' /\ oom m' = oom m /\ found m' = found m).
Proof.
  intros W. unfold map_remap. pose proof (w_room _ _ W) as Hroom.
  destruct (Z.ltb_spec (size m) (remap m)) as [Hlt|Hge].
  - right. exists m. split; [reflexivity|]. split; [exact W|].
    destruct (w_kind _ _ W) as [(_ & _ & H3 & _ & H5)|(Hst & k & Hk & Hcap & Hrm)]; [lia|].
    pose proof (threshold_lt k (load_fac m) Hk (w_lf _ _ W)) as Hthr. rewrite <- Hcap, <- Hrm in Hthr.
    split; [exact Hst|]. split; [lia|auto].
  - assert (Hal : exists k, 0 <= k <= 31 /\ cap m = 2^k /\ (k = 0 \/ 3 <= k)).
    { destruct (w_kind _ _ W) as [(_ & H2 & _)|(_ & k & Hk & Hcap & _)].
      - exists 0. rewrite H2. split; [lia|]. split; [reflexivity|]. now left.
      - exists k. split; [lia|]. split; [exact Hcap|]. right. lia. }
    destruct Hal as (k & Hk & Hcap & Hk2).
    unfold map_alloc.
    destruct (Z.ltb_spec (SC_MAP_MAX / 2) (cap m)) as [Hmax|Hmax].
    + left. split; [reflexivity|]. right. unfold SC_MAP_MAX in Hmax.
      rewrite Hcap in *. assert (Hm : 2^31 - 1 < 2^k) by exact Hmax.
      destruct (Z.lt_ge_cases k 31) as [Hk31|Hk31].
      * assert (2^k <= 2^30) by (apply Z.pow_le_mono_r; lia). lia.
      * apply Z.pow_le_mono_r; lia.
    + assert (Hm : cap m <= 2^31 - 1) by exact Hmax. clear Hmax.
      assert (Hk3 : k < 31).
      { destruct (Z.lt_ge_cases k 31); [assumption|]. assert (2^31 <= 2^k) by (apply Z.pow_le_mono_r; lia). lia. }
      assert (Hnew : exists k', 3 <= k' <= 31 /\
                 next_pow2_32 (if cap m <? 8 then 8 else u32 (cap m * 2)) = 2^k' /\ size m + 1 < 2^k').
      { destruct Hk2 as [->|Hk2].
        - change (2^0) with 1 in Hcap. exists 3. rewrite Hcap. split; [lia|]. split; [|lia].
          change (1 <? 8) with true. cbv iota. exact (next_pow2_pow 3 ltac:(lia)).
        - assert (2^3 <= 2^k) by (apply Z.pow_le_mono_r; lia).
          exists (k + 1). split; [lia|].
          assert (Hd : 2^(k+1) = 2^k * 2) by (rewrite Z.pow_add_r by lia; reflexivity).
          rewrite Hcap in *. split; [|lia].
          destruct (Z.ltb_spec (2^k) 8); [lia|].
          rewrite u32_small by lia. rewrite <- Hd. apply next_pow2_pow. lia. }
      destruct Hnew as (k' & Hk' & Hnp & Hsz). rewrite Hnp.
      destruct ok; [|left; auto].
      rewrite (tb_len _ _ (w_tab _ _ W)), Z.eqb_refl. cbn [negb].
      destruct (empty_table k' ltac:(lia)) as (T1 & T2 & T3).
      destruct (rehash_spec (2^k') (mem m) (repeat (slot0 ko vzero) (Z.to_nat (2^k'))) T1 T2)
        as (t' & Hf & Ht' & Hc' & Hp').
      { rewrite T3. change (zlen (@nil (K * V))) with 0. pose proof (wf_room m l W) as Hr.
        pose proof (Permutation_length (w_ents _ _ W)) as Hpl. rewrite app_length in Hpl.
        rewrite (w_size _ _ W) in Hsz. unfold zlen in *. lia. }
      { intros s Hs. apply In_zget in Hs as (i & _ & Hi). now apply (tb_hash _ _ (w_tab _ _ W) i). }
      rewrite Hf. cbn [bind].
      right. eexists. split; [reflexivity|].
      rewrite T3, app_nil_r in Hp'.
      split; [|cbn [static size cap oom found]; auto].
      constructor; cbn [mem zslot static cap size load_fac remap used]; try apply W; auto.
      * right. split; [reflexivity|]. exists k'. auto.
      * destruct (static m); [reflexivity|apply W].
      * lia.
      * unfold zent. cbn [used zslot mem]. rewrite Hp'.
        pose proof (w_ents _ _ W) as Hpe. unfold zent in Hpe.
        destruct (w_kind _ _ W) as [(H1 & _ & _ & H4 & _)|(H1 & _)].
        -- rewrite H4 in *. exact Hpe.
        -- rewrite H1. exact Hpe.
Qed.

Lemma put_ok m l k v ok : wf m l ->
  exists m' ret, map_put ko vzero m k v ok = Ok (m', ret) /\
    (oom m' = true -> ret = vzero /\ wf m' l /\ (ok = false \/ 2^31 <= cap m)) /\
    (oom m' = false -> ret = orz vzero (lookup k l) /\ wf m' ((k, v) :: remove k l) /\
       found m' = some (lookup k l)).
Proof.
  intros W0. unfold map_put.
  pose proof (wf_set_flags m l false (found m) W0) as W1.
  set (m1 := mk_map (mem m) (zslot m) (static m) (cap m) (size m) (load_fac m) (remap m) (used m) false (found m)) in *.
  destruct (remap_ok m1 l ok W1) as [[Hr Hf]|(m2 & Hr & W & Hst & Hroom & Hoo & Hfo)]; rewrite Hr; cbn [bind].
  - eexists _, _. split; [reflexivity|]. split; [|discriminate].
    intros _. split; [reflexivity|]. split; [|exact Hf]. now apply wf_set_flags.
  - clear Hr. cbn [oom m1] in Hoo. pose proof (zlen_nonneg l) as Hll.
    pose proof (tb_pos _ _ (w_tab _ _ W)) as Hcp. pose proof (w_size _ _ W) as Hsz.
    destruct (isnull ko k) eqn:Hk.
    + rewrite Hst. eexists _, _. split; [reflexivity|]. cbn [oom found].
      split; [rewrite Hoo; discriminate|]. intros _.
      rewrite (lookup_null m2 l k W Hk).
      split; [now destruct (used m2)|]. split; [|now destruct (used m2)].
      assert (Hrem : remove k (ents (mem m2)) = ents (mem m2)).
      { apply remove_none. intros p Hp. apply ents_nonnull in Hp. now apply same_null'. }
      assert (Hperm : Permutation (ents (mem m2)) (remove k l)).
      { rewrite <- (remove_perm k _ _ (w_ents _ _ W)). unfold zent.
        destruct (used m2); cbn [app]; [|now rewrite Hrem].
        cbn [MapSpec.remove filter fst].
        replace (same (knull ko) k) with true by (unfold MapSpec.same; now rewrite knull_null, Hk).
        cbn [negb]. fold (remove k (ents (mem m2))). now rewrite Hrem. }
      assert (Hlen : zlen ((k, v) :: remove k l) = zlen l + (if used m2 then 0 else 1)).
      { rewrite zlen_cons. unfold zlen.
        rewrite <- (Permutation_length Hperm), <- (Permutation_length (w_ents _ _ W)), app_length.
        unfold zent. destruct (used m2); cbn [length]; lia. }
      assert (Hs2 : u32 (size m2 + (if used m2 then 0 else 1)) = zlen ((k, v) :: remove k l)).
      { rewrite Hlen, Hsz. destruct (used m2); rewrite u32_small; lia. }
      assert (Hkn : k = knull ko) by now apply Hnull.
      constructor; cbn [mem zslot static cap size load_fac remap used skey]; try apply W.
      * destruct (w_kind _ _ W) as [(H1 & _)|H1]; [congruence|right]. rewrite Hst in H1. exact H1.
      * exact Hs2.
      * rewrite Hs2, Hlen, <- Hsz. destruct (used m2); lia.
      * unfold zent. cbn [used zslot sval mem app]. rewrite Hperm, <- Hkn. reflexivity.
      * apply uniq_put. apply W.
    + destruct (wf_probe m2 l k W Hk) as (pos & x & Hp & Hx & Hor). rewrite Hp. cbn [bind].
      unfold write_slot. rewrite Hst.
      pose proof (zget_Some_range _ _ _ Hx) as Hpr.
      pose proof (tb_len _ _ (w_tab _ _ W)) as Hlen. rewrite Hlen in Hpr.
      rewrite zput_ok by lia. cbn [bind].
      set (s1 := map_assign ko x k v (hashk ko k)).
      assert (Ho1 : occ s1 = true) by (unfold occ, s1, map_assign; cbn; now rewrite Hk).
      assert (Hsh1 : strk ko = true -> shash s1 = hashk ko (skey s1)).
      { unfold s1, map_assign. cbn. intros ->. reflexivity. }
      assert (Hke : (skey s1, sval s1) = (k, v)) by reflexivity.
      eexists _, _. split; [reflexivity|]. cbn [oom found].
      split; [rewrite Hoo; discriminate|]. intros _.
      pose proof (ents_zset (mem m2) pos x s1 Hx) as P1. unfold ent in P1. rewrite Ho1, Hke in P1.
      destruct Hor as [(Ho & He & Hlk)|(Ho & Hlk & Hns & Hpath)].
      * assert (Hnx : isnull ko (skey x) = false) by (unfold occ in Ho; now apply negb_true_iff in Ho).
        rewrite Hnx, Hlk. split; [reflexivity|]. split; [|reflexivity].
        rewrite Ho in P1. cbn [app] in P1.
        destruct (chain_set (mem m2) (cap m2) pos x s1) as [C1 C2]; auto; try apply W.
        { intros j Hj Hd. apply (w_chain _ _ W pos x j Hx Ho Hj).
          replace (home (cap m2) x) with (home (cap m2) s1); [exact Hd|].
          unfold home, s1, map_assign. cbn. f_equal. symmetry. now apply Hhash. }
        (* old entry out, new entry in *)
        assert (Hin : In (skey x, sval x) (ents (mem m2))) by (apply In_ents; eauto).
        apply in_split in Hin as (a & b & Hab).
        assert (P2 : Permutation (ents (zset (mem m2) pos s1)) ((k, v) :: a ++ b)).
        { rewrite Hab in P1. apply (Permutation_cons_inv (a := (skey x, sval x))). rewrite P1.
          rewrite perm_swap. constructor. symmetry. apply Permutation_middle. }
        assert (Hl : Permutation l ((skey x, sval x) :: zent m2 ++ a ++ b)).
        { rewrite <- (w_ents _ _ W), Hab. rewrite app_assoc. rewrite <- Permutation_middle. now rewrite app_assoc. }
        assert (Hu : uniq ((skey x, sval x) :: zent m2 ++ a ++ b)) by (apply (uniq_perm l); [exact Hl|apply W]).
        assert (Hrl : Permutation (remove k l) (zent m2 ++ a ++ b)).
        { rewrite (remove_perm k _ _ Hl). rewrite remove_cons_same; [reflexivity|exact Hu|].
          cbn. rewrite same_nonnull; auto. }
        assert (Hsl : zlen l = zlen (remove k l) + 1).
        { unfold zlen. rewrite (Permutation_length Hl), (Permutation_length Hrl). cbn [length]. clear; lia. }
        constructor; cbn [mem zslot static cap size load_fac remap used]; try apply W; auto.
        -- destruct (w_kind _ _ W) as [(H1 & _)|H1]; [congruence|right]. rewrite Hst in H1. exact H1.
        -- rewrite zlen_cons. clear - Hsz Hsl. lia.
        -- unfold zent in *. cbn [used zslot mem]. rewrite P2, Hrl. symmetry. apply Permutation_middle.
        -- apply uniq_put. apply W.
      * assert (Hnx : isnull ko (skey x) = true) by (unfold occ in Ho; now apply negb_false_iff in Ho).
        rewrite Hnx, Hlk. split; [reflexivity|]. split; [|reflexivity].
        rewrite Ho in P1. cbn [app] in P1.
        destruct (chain_set (mem m2) (cap m2) pos x s1) as [C1 C2]; auto; try apply W.
        rewrite (remove_none k l Hns).
        assert (Hs2 : u32 (size m2 + 1) = zlen ((k, v) :: l)) by (rewrite zlen_cons; clear - Hsz Hroom Hcp Hll; rewrite u32_small; lia).
        constructor; cbn [mem zslot static cap size load_fac remap used]; try apply W; auto.
        -- destruct (w_kind _ _ W) as [(H1 & _)|H1]; [congruence|right]. rewrite Hst in H1. exact H1.
        -- rewrite Hs2, zlen_cons. clear - Hsz Hroom. lia.
        -- unfold zent in *. cbn [used zslot mem]. rewrite P1.
           rewrite <- Permutation_middle. constructor. apply W.
        -- rewrite <- (remove_none k l Hns). apply uniq_put. apply W.
Qed.

(** ** Iteration *)
Lemma foreach_slots_ok {S} (b : S -> K -> V -> S * bool) : forall ts s,
  foreach_slots ko ts b s = visit b s (ents ts).
Proof.
  induction ts as [|x ts IH]; intro s; [reflexivity|]. cbn [foreach_slots ents flat_map].
  unfold ent at 1. fold (occ x). destruct (occ x); cbn [app visit]; [|apply IH].
  destruct (b s (skey x) (sval x)) as [s' [|]]; [reflexivity|]. apply IH.
Qed.

Lemma foreach_ok m l : wf m l -> forall (S : Type) (b : S -> K -> V -> S * bool) (s : S),
  map_foreach ko m b s = Ok (visit b s (zent m ++ ents (mem m))).
Proof.
  intros W S b s. unfold map_foreach. rewrite (tb_len _ _ (w_tab _ _ W)), Z.eqb_refl. cbn [negb].
  rewrite (w_z _ _ W), knull_null, orb_false_r. unfold zent. rewrite foreach_slots_ok.
  destruct (used m); cbn [app visit]; [|reflexivity].
  destruct (b s (knull ko) (sval (zslot m))) as [s' [|]]; [reflexivity|].
  now rewrite foreach_slots_ok.
Qed.

Lemma foreach_key_slots {S} (b : S -> K -> S * bool) : forall (ts : list slot) s,
  foreach_slots_key ko ts b s = foreach_slots ko ts (fun s k (_ : V) => b s k) s.
Proof.
  induction ts as [|x ts IH]; intro s; [reflexivity|]. cbn. destruct (negb _); [|apply IH].
  destruct (b s (skey x)) as [s' [|]]; [reflexivity|apply IH].
Qed.
Lemma foreach_key_eq {S} (m : smap) (b : S -> K -> S * bool) s :
  map_foreach_key ko m b s = map_foreach ko m (fun s k _ => b s k) s.
Proof.
  unfold map_foreach_key, map_foreach. destruct (negb _); [reflexivity|].
  destruct (_ || _); [destruct (b s _) as [s' [|]]|]; now rewrite ?foreach_key_slots.
Qed.
Lemma foreach_value_slots {S} (b : S -> V -> S * bool) : forall (ts : list slot) s,
  foreach_slots_value ko ts b s = foreach_slots ko ts (fun s (_ : K) v => b s v) s.
Proof.
  induction ts as [|x ts IH]; intro s; [reflexivity|]. cbn. destruct (negb _); [|apply IH].
  destruct (b s (sval x)) as [s' [|]]; [reflexivity|apply IH].
Qed.
Lemma foreach_value_eq {S} (m : smap) (b : S -> V -> S * bool) s :
  map_foreach_value ko m b s = map_foreach ko m (fun s _ v => b s v) s.
Proof.
  unfold map_foreach_value, map_foreach. destruct (negb _); [reflexivity|].
  destruct (_ || _); [destruct (b s _) as [s' [|]]|]; now rewrite ?foreach_value_slots.
Qed.

Lemma wf_shows m l : wf m l -> shows ko vzero m l.
Proof.
  intro W. split; [apply W|]. split.
  - intro k. exists (set_found m (some (lookup k l))). split; [now apply get_ok|reflexivity].
  - exists (zent m ++ ents (mem m)). split; [apply W|]. now apply (foreach_ok m l).
Qed.

Lemma step_ok m l o : wf m l ->
  exists m' ret, map_step ko vzero m o = Ok (m', ret) /\
    ret = orz vzero (ideal_ret ko l o (failed o m')) /\
    (match o with
     | Put k v ok => (oom m' = true -> ok = false \/ 2^31 <= cap m) /\
                     (oom m' = false -> found m' = some (lookup k l))
     | Get k | Del k => found m' = some (lookup k l)
     | _ => True
     end) /\ wf m' (ideal ko l o (failed o m')).
Proof.
  intro W. destruct o as [k v ok|k|k| |]; cbn [map_step ideal ideal_ret failed].
  - destruct (put_ok m l k v ok W) as (m' & ret & Hp & H1 & H2). exists m', ret.
    split; [exact Hp|]. destruct (oom m') eqn:E.
    + destruct (H1 eq_refl) as (-> & Hw & Hf). split; [reflexivity|]. split; [|exact Hw]. split; [auto|discriminate].
    + destruct (H2 eq_refl) as (-> & Hw & Hf). split; [reflexivity|]. split; [|exact Hw]. split; [discriminate|auto].
  - rewrite (get_ok m l k W). eexists _, _. split; [reflexivity|]. split; [reflexivity|].
    split; [reflexivity|]. now apply wf_set_flags.
  - destruct (del_ok m l k W) as (m' & Hd & Hw & Hf & _). exists m'. eexists. split; [exact Hd|]. auto.
  - destruct (clear_ok m l W) as (m' & Hc & Hw & _). rewrite Hc. cbn [bind].
    eexists _, _. split; [reflexivity|]. split; [reflexivity|]. auto.
  - eexists _, _. split; [reflexivity|]. split; [reflexivity|]. split; [exact I|]. now apply (term_ok m l).
Qed.

Lemma history_ok ops : forall m l, wf m l -> obeys ko vzero m l ops.
Proof.
  induction ops as [|o ops IH]; intros m l W; (split; [now apply wf_shows|]); [exact I|].
  destruct (step_ok m l o W) as (m' & ret & H1 & H2 & H3 & H4).
  exists m', ret. auto.
Qed.

Lemma reach_wf m l : reach ko vzero m l -> wf m l.
Proof.
  induction 1 as [g c lf ok m Hc Hi|m l o m' ret Hr IH Hs].
  - now apply (init_ok g c lf ok).
  - destruct (step_ok m l o IH) as (m2 & ret2 & H1 & _ & _ & H4). rewrite Hs in H1. now injection H1 as <- <-.
Qed.

End Proofs.
