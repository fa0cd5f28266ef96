(** Proofs about the CRC model: everything is linear over exclusive or. *)
From Verif Require Import Base BufProofs CrcModel CrcSpec.
From Coq Require Import ZifyBool.

(** ** Bit-level facts *)
Lemma lxor_nonneg' a b : 0 <= a -> 0 <= b -> 0 <= Z.lxor a b.
Proof. intros. apply Z.lxor_nonneg. lia. Qed.
Lemma lt_pow2_bits a n : 0 <= n -> 0 <= a -> (forall i, n <= i -> Z.testbit a i = false) -> a < 2^n.
Proof.
  intros Hn Ha H. destruct (Z.eq_dec a 0) as [->|Hz]; [apply Z.pow_pos_nonneg; lia|].
  apply Z.log2_lt_pow2; [lia|]. destruct (Z.lt_ge_cases (Z.log2 a) n); [assumption|].
  specialize (H (Z.log2 a) H0). rewrite Z.bit_log2 in H by lia. discriminate.
Qed.
Lemma bits_lt_pow2 a n i : 0 <= a < 2^n -> n <= i -> Z.testbit a i = false.
Proof.
  intros Ha Hi. destruct (Z.lt_ge_cases n 0).
  { rewrite (Z.pow_neg_r 2 n) in Ha by lia. lia. }
  destruct (Z.eq_dec a 0) as [->|Hz]; [apply Z.bits_0|]. apply Z.bits_above_log2; [lia|].
  assert (Z.log2 a < n) by (apply Z.log2_lt_pow2; lia). lia.
Qed.
Lemma lxor_lt a b n : 0 <= n -> 0 <= a < 2^n -> 0 <= b < 2^n -> 0 <= Z.lxor a b < 2^n.
Proof.
  intros Hn Ha Hb. split; [apply lxor_nonneg'; lia|]. apply lt_pow2_bits; [exact Hn|apply lxor_nonneg'; lia|].
  intros i Hi. rewrite Z.lxor_spec, !(bits_lt_pow2 _ n) by lia. reflexivity.
Qed.
Lemma shiftr_lt a n k : 0 <= k <= n -> 0 <= a < 2^n -> 0 <= Z.shiftr a k < 2^(n - k).
Proof.
  intros Hk Ha. rewrite Z.shiftr_div_pow2 by lia. assert (0 < 2^k) by (apply Z.pow_pos_nonneg; lia).
  split; [apply Z.div_pos; lia|]. apply Z.div_lt_upper_bound; [lia|]. rewrite <- Z.pow_add_r by lia.
  replace (k + (n - k)) with n by lia. lia.
Qed.
Lemma land_255 x : Z.land x 255 = x mod 256.
Proof. change 255 with (Z.ones 8). rewrite Z.land_ones by lia. reflexivity. Qed.
Lemma land_255_range x : 0 <= Z.land x 255 < 256.
Proof. rewrite land_255. apply Z.mod_pos_bound. lia. Qed.
(** A number is its low [k] bits and the rest. *)
Lemma split_bits x k : 0 <= k -> x = Z.lxor (Z.land x (Z.ones k)) (Z.shiftl (Z.shiftr x k) k).
Proof.
  intro Hk. apply Z.bits_inj'. intros i Hi. rewrite Z.lxor_spec, Z.land_spec, Z.shiftl_spec by lia.
  destruct (Z.lt_ge_cases i k).
  - rewrite Z.ones_spec_low by lia. rewrite (Z.testbit_neg_r _ (i - k)) by lia. now rewrite andb_true_r, xorb_false_r.
  - rewrite Z.ones_spec_high by lia. rewrite Z.shiftr_spec by lia. replace (i - k + k) with i by lia.
    now rewrite andb_false_r, xorb_false_l.
Qed.
Lemma split_byte x : x = Z.lxor (Z.land x 255) (Z.shiftl (Z.shiftr x 8) 8).
Proof. exact (split_bits x 8 ltac:(lia)). Qed.
Lemma add_shift_xor b acc : 0 <= b < 256 -> 0 <= acc -> b + 256 * acc = Z.lxor b (Z.shiftl acc 8).
Proof.
  intros Hb Ha. rewrite <- (Z.add_nocarry_lxor b (Z.shiftl acc 8)); [rewrite Z.shiftl_mul_pow2 by lia; lia|].
  apply Z.bits_inj'. intros i Hi. rewrite Z.land_spec, Z.shiftl_spec, Z.bits_0 by lia.
  destruct (Z.lt_ge_cases i 8); [rewrite (Z.testbit_neg_r acc) by lia; apply andb_false_r|].
  rewrite (bits_lt_pow2 b 8) by (try exact H; change (2^8) with 256; lia). reflexivity.
Qed.

(** ** The register *)
Definition step (x : Z) : Z := shift_in x false.
Fixpoint stepn (n : nat) (x : Z) : Z := match n with O => x | S n => stepn n (step x) end.
Lemma step_lxor a b : step (Z.lxor a b) = Z.lxor (step a) (step b).
Proof.
  unfold step, shift_in. rewrite !xorb_false_r, Z.shiftr_lxor.
  assert (H : Z.odd (Z.lxor a b) = xorb (Z.odd a) (Z.odd b)) by (rewrite <- !Z.bit0_odd; apply Z.lxor_spec).
  rewrite H. apply Z.bits_inj'. intros i Hi. rewrite !Z.lxor_spec.
  destruct (Z.odd a), (Z.odd b); cbn [xorb]; rewrite ?Z.bits_0;
    destruct (Z.testbit (Z.shiftr a 1) i), (Z.testbit (Z.shiftr b 1) i), (Z.testbit castagnoli i); reflexivity.
Qed.
Lemma stepn_lxor n a b : stepn n (Z.lxor a b) = Z.lxor (stepn n a) (stepn n b).
Proof. revert a b. induction n as [|n IH]; intros a b; [reflexivity|]. cbn [stepn]. now rewrite step_lxor, IH. Qed.
Lemma stepn_0 n : stepn n 0 = 0.
Proof. induction n as [|n IH]; [reflexivity|]. exact IH. Qed.
Lemma stepn_S n x : stepn (S n) x = stepn n (step x).
Proof. reflexivity. Qed.
Lemma stepn_add n m x : stepn (n + m) x = stepn m (stepn n x).
Proof.
  revert x. induction n as [|n IH]; intro x; [reflexivity|]. cbn [Nat.add]. now rewrite !stepn_S, IH.
Qed.
Lemma step_double x : 0 <= x -> step (Z.shiftl x 1) = x.
Proof.
  intro Hx. unfold step, shift_in. rewrite xorb_false_r.
  assert (Z.odd (Z.shiftl x 1) = false) as -> by (rewrite <- Z.bit0_odd, Z.shiftl_spec by lia; apply Z.testbit_neg_r; lia).
  rewrite Z.lxor_0_r, Z.shiftr_shiftl_l by lia. apply Z.shiftl_0_r.
Qed.
Lemma stepn_shiftl n x : 0 <= x -> stepn n (Z.shiftl x (Z.of_nat n)) = x.
Proof.
  intro Hx. induction n as [|n IH]; [apply Z.shiftl_0_r|]. rewrite stepn_S.
  replace (Z.shiftl x (Z.of_nat (S n))) with (Z.shiftl (Z.shiftl x (Z.of_nat n)) 1)
    by (rewrite Z.shiftl_shiftl by lia; f_equal; lia).
  rewrite step_double; [exact IH|]. now apply Z.shiftl_nonneg.
Qed.
Lemma step_range k x : 32 <= k -> 0 <= x < 2^(k + 1) -> 0 <= step x < 2^k.
Proof.
  intros Hk Hx. unfold step, shift_in. apply lxor_lt; [lia| |].
  - pose proof (shiftr_lt x (k + 1) 1 ltac:(lia) Hx). replace (k + 1 - 1) with k in H by lia. exact H.
  - assert (2^32 <= 2^k) by (apply Z.pow_le_mono_r; lia). destruct (xorb _ _); [unfold castagnoli|]; lia.
Qed.
Lemma step_range32 x : 0 <= x < 2^32 -> 0 <= step x < 2^32.
Proof. intro H. apply step_range; lia. Qed.
Lemma stepn_range32 n x : 0 <= x < 2^32 -> 0 <= stepn n x < 2^32.
Proof. revert x. induction n as [|n IH]; intros x H; [exact H|]. rewrite stepn_S. apply IH, step_range32, H. Qed.
Lemma stepn_range n : forall x, 0 <= x < 2^(32 + Z.of_nat n) -> 0 <= stepn n x < 2^32.
Proof.
  induction n as [|n IH]; intros x H; [replace (32 + Z.of_nat 0) with 32 in H by lia; exact H|].
  rewrite stepn_S. apply IH. apply step_range; [lia|]. replace (32 + Z.of_nat n + 1) with (32 + Z.of_nat (S n)) by lia. exact H.
Qed.
Lemma stepn_nonneg n x : 0 <= x -> 0 <= stepn n x.
Proof.
  revert x. induction n as [|n IH]; intros x H; [exact H|]. rewrite stepn_S. apply IH. unfold step, shift_in.
  apply lxor_nonneg'; [now apply Z.shiftr_nonneg|]. destruct (xorb _ _); [unfold castagnoli|]; lia.
Qed.

Lemma shift_in_step c b : shift_in c b = step (Z.lxor c (Z.b2z b)).
Proof.
  unfold step, shift_in. rewrite xorb_false_r.
  assert (Z.odd (Z.lxor c (Z.b2z b)) = xorb (Z.odd c) b) as -> by (rewrite <- !Z.bit0_odd, Z.lxor_spec; now destruct b).
  f_equal. rewrite Z.shiftr_lxor. replace (Z.shiftr (Z.b2z b) 1) with 0 by (destruct b; reflexivity). now rewrite Z.lxor_0_r.
Qed.
(** Feeding the [n] bits of a number. *)
Lemma feed_bits n : forall c m, 0 <= m < 2^Z.of_nat n ->
  fold_left shift_in (map (fun i => Z.testbit m (Z.of_nat i)) (seq 0 n)) c = stepn n (Z.lxor c m).
Proof.
  induction n as [|n IH]; intros c m Hm.
  - assert (m = 0) as -> by (cbn in Hm; lia). now rewrite Z.lxor_0_r.
  - cbn [seq map fold_left]. rewrite <- seq_shift, map_map.
    rewrite (map_ext _ (fun i => Z.testbit (Z.shiftr m 1) (Z.of_nat i))).
    2:{ intro i. rewrite Z.shiftr_spec by lia. f_equal. lia. }
    rewrite IH.
    2:{ pose proof (shiftr_lt m (Z.of_nat (S n)) 1 ltac:(lia) Hm).
        replace (Z.of_nat (S n) - 1) with (Z.of_nat n) in H by lia. exact H. }
    rewrite shift_in_step, stepn_S. f_equal.
    rewrite (split_bits m 1) at 3 by lia.
    rewrite <- (Z.lxor_assoc c), (step_lxor (Z.lxor c (Z.land m (Z.ones 1)))), step_double by (apply Z.shiftr_nonneg; lia).
    f_equal. f_equal. f_equal.
    rewrite Z.land_ones by lia. change (Z.of_nat 0) with 0. rewrite Z.bit0_mod. reflexivity.
Qed.
(** Feeding bytes. *)
Definition feed (c : Z) (l : list Z) : Z := fold_left (fun c b => stepn 8 (Z.lxor c b)) l c.
Lemma bits_cons b l : bits (b :: l) = byte_bits b ++ bits l.
Proof. reflexivity. Qed.
Lemma feed_cons c b l : feed c (b :: l) = feed (stepn 8 (Z.lxor c b)) l.
Proof. reflexivity. Qed.
Lemma feed_byte c b : byte b -> fold_left shift_in (byte_bits b) c = stepn 8 (Z.lxor c b).
Proof. exact (feed_bits 8 c b). Qed.
Lemma feed_spec l : Forall byte l -> forall c, fold_left shift_in (bits l) c = feed c l.
Proof.
  induction 1 as [|b l Hb _ IH]; intro c; [reflexivity|].
  rewrite bits_cons, fold_left_app, feed_byte, feed_cons by exact Hb. apply IH.
Qed.
Lemma feed_app c a b : feed c (a ++ b) = feed (feed c a) b.
Proof. apply fold_left_app. Qed.
Lemma byte_64 b : byte b -> 0 <= b < 2^64.
Proof. unfold byte. lia. Qed.
Lemma feed_range l : Forall byte l -> forall c, 0 <= c < 2^32 -> 0 <= feed c l < 2^32.
Proof.
  induction 1 as [|b l Hb _ IH]; intros c Hc; [exact Hc|]. apply IH. apply stepn_range32. apply lxor_lt; [lia|lia|]. unfold byte in Hb; lia.
Qed.
(** Feeding from [c] is shifting [c] by the length, plus feeding from 0. *)
Lemma feed_linear l : forall c d, feed (Z.lxor c d) l = Z.lxor (stepn (8 * length l) c) (feed d l).
Proof.
  induction l as [|b l IH]; intros c d; [reflexivity|]. cbn [feed fold_left]. change (fold_left _ l ?x) with (feed x l).
  rewrite Z.lxor_assoc, stepn_lxor, IH. f_equal. rewrite <- stepn_add. f_equal. cbn [length]. lia.
Qed.
Lemma feed_shift l c : feed c l = Z.lxor (stepn (8 * length l) c) (feed 0 l).
Proof. rewrite <- feed_linear. now rewrite Z.lxor_0_r. Qed.
(** Feeding a little-endian word at once. *)
Lemma le64_range l : Forall byte l -> 0 <= le64 l < 2^(8 * zlen l).
Proof.
  induction 1 as [|b l Hb _ IH]; [cbn; lia|]. cbn [le64]. rewrite zlen_cons. unfold byte in Hb.
  replace (8 * (zlen l + 1)) with (8 + 8 * zlen l) by lia. rewrite Z.pow_add_r by (pose proof (zlen_nonneg l); lia).
  change (2^8) with 256. nia.
Qed.
Lemma feed_word l : Forall byte l -> forall c, feed c l = stepn (8 * length l) (Z.lxor c (le64 l)).
Proof.
  induction 1 as [|b l Hb Hl IH]; intro c; [cbn; now rewrite Z.lxor_0_r|].
  cbn [feed fold_left le64]. change (fold_left _ l ?x) with (feed x l). rewrite IH.
  replace (8 * length (b :: l))%nat with (8 + 8 * length l)%nat by (cbn [length]; lia). rewrite stepn_add. f_equal.
  pose proof (le64_range l Hl). rewrite add_shift_xor by (unfold byte in Hb; lia).
  rewrite <- Z.lxor_assoc, (stepn_lxor 8 (Z.lxor c b)). f_equal. symmetry. exact (stepn_shiftl 8 (le64 l) ltac:(lia)).
Qed.

(** ** Tables *)
Lemma crc_bit_step x : crc_bit x = step x.
Proof.
  unfold crc_bit, step, shift_in. rewrite xorb_false_r. change POLY with castagnoli.
  change 1 with (Z.ones 1) at 1. rewrite Z.land_ones by lia. change (2^1) with 2. rewrite Zmod_odd.
  destruct (Z.odd x); cbn; [reflexivity|now rewrite Z.lxor_0_r].
Qed.
Lemma byte_entry_step n : byte_entry n = stepn 8 n.
Proof.
  transitivity (crc_bit (crc_bit (crc_bit (crc_bit (crc_bit (crc_bit (crc_bit (crc_bit n)))))))); [reflexivity|].
  rewrite !stepn_S. rewrite <- !crc_bit_step. reflexivity.
Qed.
Lemma zget_zseq n i : 0 <= i < Z.of_nat n -> zget (zseq n) i = Some i.
Proof.
  intro H. unfold zget, zseq. destruct (Z.ltb_spec i 0); [lia|]. rewrite nth_error_map.
  assert (nth_error (seq 0 n) (Z.to_nat i) = Some (Z.to_nat i)) as ->.
  { rewrite nth_error_nth' with (d := O) by (rewrite seq_length; lia). rewrite seq_nth by lia. reflexivity. }
  cbn. f_equal. lia.
Qed.
Lemma zget_map {A B} (f : A -> B) l i : zget (map f l) i = option_map f (zget l i).
Proof. unfold zget. destruct (i <? 0); [reflexivity|]. apply nth_error_map. Qed.
Lemma table0_ok i : 0 <= i < 256 -> zload table0 i = Ok (stepn 8 i).
Proof. intro H. unfold zload, table0. rewrite zget_map, zget_zseq by lia. cbn [option_map or_ub]. now rewrite byte_entry_step. Qed.
Lemma step8_table x : 0 <= x -> Z.lxor (stepn 8 (Z.land x 255)) (Z.shiftr x 8) = stepn 8 x.
Proof.
  intro Hx. rewrite (split_byte x) at 3. rewrite stepn_lxor. f_equal. symmetry.
  apply (stepn_shiftl 8). now apply Z.shiftr_nonneg.
Qed.
Lemma next_entry_ok x : 0 <= x -> next_entry x = Ok (stepn 8 x).
Proof. intro Hx. unfold next_entry. rewrite table0_ok by apply land_255_range. cbn [bind]. now rewrite step8_table. Qed.
Lemma entries_ok k : forall x, 0 <= x -> exists l, entries k x = Ok l /\ length l = k /\
  forall j, (j < k)%nat -> nth_error l j = Some (stepn (8 * S j) x).
Proof.
  induction k as [|k IH]; intros x Hx; [exists []; repeat split; intros; lia|].
  cbn [entries]. rewrite next_entry_ok by exact Hx. cbn [bind].
  destruct (IH (stepn 8 x) (stepn_nonneg 8 x Hx)) as (l & -> & Hl & H). cbn [bind].
  exists (stepn 8 x :: l). split; [reflexivity|]. split; [cbn; lia|]. intros [|j] Hj; [reflexivity|].
  cbn [nth_error]. rewrite H by lia. rewrite <- stepn_add. do 2 f_equal. lia.
Qed.
Lemma mapM_ok {A B} (f : A -> res B) (P : A -> B -> Prop) l :
  (forall x, In x l -> exists y, f x = Ok y /\ P x y) ->
  exists ys, mapM f l = Ok ys /\ Forall2 P l ys.
Proof.
  induction l as [|x l IH]; intro H; cbn [mapM]; [exists []; auto|].
  destruct (H x (or_introl eq_refl)) as (y & -> & Hy). cbn [bind].
  destruct IH as (ys & -> & Hys); [intros z Hz; apply H; now right|]. cbn [bind]. exists (y :: ys). auto.
Qed.
Lemma Forall2_zget {A B} (P : A -> B -> Prop) l ys i x : Forall2 P l ys -> zget l i = Some x -> exists y, zget ys i = Some y /\ P x y.
Proof.
  intro F. unfold zget. destruct (i <? 0); [discriminate|]. generalize (Z.to_nat i) as n. clear i.
  induction F as [|a b l ys Hab _ IH]; intros [|n] H; cbn in *; try discriminate; [injection H as <-; eauto|eauto].
Qed.
Lemma Forall2_zlen {A B} (P : A -> B -> Prop) l ys : Forall2 P l ys -> zlen ys = zlen l.
Proof. induction 1; [reflexivity|]. rewrite !zlen_cons. lia. Qed.
Lemma in_zseq n x : In x (zseq n) -> 0 <= x < Z.of_nat n.
Proof. unfold zseq. rewrite in_map_iff. intros (y & <- & H). apply in_seq in H. lia. Qed.
Lemma zseq_len n : zlen (zseq n) = Z.of_nat n.
Proof. unfold zseq, zlen. now rewrite map_length, seq_length. Qed.

(** A table of [g k n] for k < m, n < 256. *)
Definition tabulates (t : list (list Z)) (m : Z) (g : Z -> Z -> Z) : Prop :=
  forall k n, 0 <= k < m -> 0 <= n < 256 -> tab t k n = Ok (g k n).
Lemma init_sw_ok : exists t, init_sw = Ok t /\ zlen t = 256 /\ Forall (fun r => zlen r = 8) t /\
  tabulates t 8 (fun k n => stepn (Z.to_nat (8 * (k + 1))) n).
Proof.
  set (P := fun n (r : list Z) => length r = 8%nat /\ forall j, (j < 8)%nat -> nth_error r j = Some (stepn (8 * S j) n)).
  unfold init_sw. edestruct (mapM_ok (fun n => let* e := zload table0 n in let* l := entries 7 e in Ok (e :: l)) P (zseq 256))
    as (t & -> & F).
  { intros n Hn. apply in_zseq in Hn. rewrite table0_ok by lia. cbn [bind].
    destruct (entries_ok 7 (stepn 8 n) (stepn_nonneg 8 n ltac:(lia))) as (l & -> & Hl & H). cbn [bind].
    eexists. split; [reflexivity|]. split; [cbn; lia|]. intros [|j] Hj; [reflexivity|]. cbn [nth_error]. rewrite H by lia.
    rewrite <- stepn_add. do 2 f_equal. lia. }
  exists t. split; [reflexivity|]. split; [rewrite (Forall2_zlen _ _ _ F); apply zseq_len|]. split.
  - clear - F. induction F as [|n r l ys [H _] _ IH]; constructor; [unfold zlen; lia|exact IH].
  - intros k n Hk Hn. destruct (Forall2_zget P _ _ n n F) as (r & Hr & _ & H); [apply zget_zseq; lia|].
    unfold tab, zload. rewrite Hr. cbn [or_ub bind]. unfold zget. destruct (Z.ltb_spec k 0); [lia|].
    rewrite H by lia. cbn [or_ub]. do 2 f_equal. lia.
Qed.

(** ** Software, little endian *)
Lemma zget_byte l i b : Forall byte l -> zget l i = Some b -> byte b.
Proof. intros F H. rewrite Forall_forall in F. apply F. unfold zget in H. destruct (i <? 0); [discriminate|]. eapply nth_error_In; eauto. Qed.
Lemma zload_byte l i : Forall byte l -> 0 <= i < zlen l -> exists b, zload l i = Ok b /\ zget l i = Some b /\ byte b.
Proof.
  intros F H. destruct (zget_in_range l i H) as (b & Hb). exists b. unfold zload. rewrite Hb. split; [reflexivity|].
  split; [reflexivity|]. eapply zget_byte; eauto.
Qed.
Lemma zslice_S l i n : 0 <= i -> 0 <= n -> forall b : Z, zget l i = Some b -> zslice l i (n + 1) = b :: zslice l (i + 1) n.
Proof.
  intros Hi Hn b Hb. unfold zslice. replace (Z.to_nat (n + 1)) with (S (Z.to_nat n)) by lia.
  replace (Z.to_nat (i + 1)) with (S (Z.to_nat i)) by lia. unfold zget in Hb. destruct (Z.ltb_spec i 0); [lia|].
  generalize dependent (Z.to_nat i). clear i Hi H. intro i. revert l. induction i as [|i IH]; intros [|x l] Hb; cbn in *; try discriminate.
  - now injection Hb as ->.
  - now apply IH.
Qed.
Lemma zslice_0 l i : zslice l i 0 = @nil Z.
Proof. reflexivity. Qed.
Lemma Forall_zslice (P : Z -> Prop) l i n : Forall P l -> Forall P (zslice l i n).
Proof. intro H. unfold zslice. apply Forall_firstn, Forall_skipn, H. Qed.

Definition sw_table (t : list (list Z)) : Prop := tabulates t 8 (fun k n => stepn (Z.to_nat (8 * (k + 1))) n).

Lemma step8_byte c b : 0 <= c -> byte b ->
  Z.lxor (stepn 8 (Z.land (Z.lxor c b) 255)) (Z.shiftr c 8) = stepn 8 (Z.lxor c b).
Proof.
  intros Hc Hb. unfold byte in Hb. rewrite <- (step8_table (Z.lxor c b)) by (apply lxor_nonneg'; lia). f_equal.
  rewrite Z.shiftr_lxor. replace (Z.shiftr b 8) with 0; [now rewrite Z.lxor_0_r|].
  rewrite Z.shiftr_div_pow2 by lia. symmetry. apply Z.div_small. exact Hb.
Qed.
Lemma sw_byte_ok t buf next c : sw_table t -> Forall byte buf -> 0 <= next < zlen buf -> 0 <= c ->
  exists b, zget buf next = Some b /\ byte b /\ sw_byte t buf next c = Ok (stepn 8 (Z.lxor c b)).
Proof.
  intros Ht F H Hc. destruct (zload_byte buf next F H) as (b & E & Hg & Hb). exists b. split; [exact Hg|]. split; [exact Hb|].
  unfold sw_byte. rewrite E. cbn [bind]. rewrite (Ht 0) by (pose proof (land_255_range (Z.lxor c b)); lia). cbn [bind].
  change (Z.to_nat (8 * (0 + 1))) with 8%nat. now rewrite step8_byte.
Qed.
Lemma range_next c b : 0 <= c < 2^32 -> byte b -> 0 <= stepn 8 (Z.lxor c b) < 2^32.
Proof. intros. apply stepn_range32, lxor_lt; unfold byte in *; lia. Qed.

Lemma sw_lead_ok t buf addr : sw_table t -> Forall byte buf -> forall n next c,
  0 <= next -> next + Z.of_nat n <= zlen buf -> 0 <= c < 2^32 ->
  exists k m, n = (k + m)%nat /\ (m = O \/ Z.land (addr + (next + Z.of_nat k)) 7 = 0) /\
    sw_lead t buf addr n next c = Ok (next + Z.of_nat k, m, feed c (zslice buf next (Z.of_nat k))).
Proof.
  intros Ht F. induction n as [|n IH]; intros next c H1 H2 Hc; cbn [sw_lead].
  - exists O, O. split; [reflexivity|]. split; [auto|]. rewrite zslice_0. do 3 f_equal; lia.
  - destruct (Z.eqb_spec (Z.land (addr + next) 7) 0).
    + exists O, (S n). split; [reflexivity|]. rewrite zslice_0. split; [right; rewrite Z.add_0_r; exact e|]. do 3 f_equal; lia.
    + destruct (sw_byte_ok t buf next c Ht F ltac:(lia) ltac:(lia)) as (b & Hg & Hb & ->). cbn [bind].
      destruct (IH (next + 1) (stepn 8 (Z.lxor c b))) as (k & m & -> & Hm & ->); [lia|lia|now apply range_next|].
      exists (S k), m. split; [reflexivity|]. split; [destruct Hm as [Hm|Hm]; [auto|right; rewrite <- Hm; f_equal; lia]|].
      replace (Z.of_nat (S k)) with (Z.of_nat k + 1) by lia. rewrite (zslice_S _ _ (Z.of_nat k) H1 ltac:(lia) b Hg).
      do 3 f_equal; lia.
Qed.
Lemma sw_tail_ok t buf : sw_table t -> Forall byte buf -> forall n next c,
  0 <= next -> next + Z.of_nat n <= zlen buf -> 0 <= c < 2^32 ->
  sw_tail t buf n next c = Ok (feed c (zslice buf next (Z.of_nat n))).
Proof.
  intros Ht F. induction n as [|n IH]; intros next c H1 H2 Hc; cbn [sw_tail]; [now rewrite zslice_0|].
  destruct (sw_byte_ok t buf next c Ht F ltac:(lia) ltac:(lia)) as (b & Hg & Hb & ->). cbn [bind].
  rewrite IH; [|lia|lia|now apply range_next].
  replace (Z.of_nat (S n)) with (Z.of_nat n + 1) by lia. now rewrite (zslice_S _ _ (Z.of_nat n) H1 ltac:(lia) b Hg).
Qed.
(** Eight table look-ups are 64 steps. *)
Lemma split_stepn n x : (8 <= n)%nat -> 0 <= x ->
  stepn n x = Z.lxor (stepn n (Z.land x 255)) (stepn (n - 8) (Z.shiftr x 8)).
Proof.
  intros Hn Hx. rewrite (split_byte x) at 1. rewrite stepn_lxor. f_equal.
  replace n with (8 + (n - 8))%nat at 1 by lia. rewrite stepn_add. f_equal. apply (stepn_shiftl 8). now apply Z.shiftr_nonneg.
Qed.
Lemma eight_bytes x : 0 <= x < 2^64 ->
  stepn 64 x = Z.lxor (Z.lxor (Z.lxor (Z.lxor (Z.lxor (Z.lxor (Z.lxor
    (stepn 64 (Z.land x 255)) (stepn 56 (Z.land (Z.shiftr x 8) 255))) (stepn 48 (Z.land (Z.shiftr x 16) 255)))
    (stepn 40 (Z.land (Z.shiftr x 24) 255))) (stepn 32 (Z.land (Z.shiftr x 32) 255))) (stepn 24 (Z.land (Z.shiftr x 40) 255)))
    (stepn 16 (Z.land (Z.shiftr x 48) 255))) (stepn 8 (Z.shiftr x 56)).
Proof.
  intro Hx. assert (Hs : forall k, 0 <= k -> 0 <= Z.shiftr x k) by (intros; apply Z.shiftr_nonneg; lia).
  rewrite (split_stepn 64 x) by lia. change (64 - 8)%nat with 56%nat.
  rewrite (split_stepn 56) by (try apply Hs; lia). change (56 - 8)%nat with 48%nat. rewrite Z.shiftr_shiftr by lia. change (8 + 8) with 16.
  rewrite (split_stepn 48) by (try apply Hs; lia). change (48 - 8)%nat with 40%nat. rewrite (Z.shiftr_shiftr x 16 8) by lia. change (16 + 8) with 24.
  rewrite (split_stepn 40 (Z.shiftr x 24)) by (try apply Hs; lia). change (40 - 8)%nat with 32%nat. rewrite (Z.shiftr_shiftr x 24 8) by lia. change (24 + 8) with 32.
  rewrite (split_stepn 32 (Z.shiftr x 32)) by (try apply Hs; lia). change (32 - 8)%nat with 24%nat. rewrite (Z.shiftr_shiftr x 32 8) by lia. change (32 + 8) with 40.
  rewrite (split_stepn 24 (Z.shiftr x 40)) by (try apply Hs; lia). change (24 - 8)%nat with 16%nat. rewrite (Z.shiftr_shiftr x 40 8) by lia. change (40 + 8) with 48.
  rewrite (split_stepn 16 (Z.shiftr x 48)) by (try apply Hs; lia). change (16 - 8)%nat with 8%nat. rewrite (Z.shiftr_shiftr x 48 8) by lia. change (48 + 8) with 56.
  now rewrite !Z.lxor_assoc.
Qed.
Lemma zslice_len_Z (l : list Z) i n : 0 <= i -> 0 <= n -> i + n <= zlen l -> zlen (zslice l i n) = n.
Proof. intros. apply zlen_zslice; lia. Qed.
Lemma sw_word_ok t buf addr next c : sw_table t -> Forall byte buf -> 0 <= next -> next + 8 <= zlen buf ->
  Z.land (addr + next) 7 = 0 -> 0 <= c < 2^32 -> sw_word t buf addr next c = Ok (feed c (zslice buf next 8)).
Proof.
  intros Ht F H1 H2 Ha Hc. unfold sw_word, load64_aligned, load64. rewrite Ha. change (0 =? 0) with true. cbn iota.
  replace ((0 <=? next) && (next + 8 <=? zlen buf)) with true by lia. cbn [bind].
  pose proof (Forall_zslice byte buf next 8 F) as Fs. pose proof (zslice_len_Z buf next 8 H1 ltac:(lia) H2) as Hl.
  rewrite (feed_word _ Fs). pose proof (le64_range _ Fs) as Hr. rewrite Hl in Hr. change (8 * 8) with 64 in Hr.
  replace (8 * length (zslice buf next 8))%nat with 64%nat by (unfold zlen in Hl; lia).
  set (x := Z.lxor c (le64 (zslice buf next 8))). assert (Hx : 0 <= x < 2^64) by (apply lxor_lt; lia).
  pose proof (shiftr_lt x 64 56 ltac:(lia) Hx) as H56. change (2^(64-56)) with 256 in H56.
  rewrite (Ht 7), (Ht 6), (Ht 5), (Ht 4), (Ht 3), (Ht 2), (Ht 1), (Ht 0) by (first [lia|apply land_255_range]).
  cbn [bind]. rewrite (eight_bytes x Hx). reflexivity.
Qed.
Lemma land7_add a : Z.land (a + 8) 7 = Z.land a 7.
Proof. change 7 with (Z.ones 3). rewrite !Z.land_ones by lia. change (2^3) with 8. replace (a + 8) with (a + 1 * 8) by lia. apply Z_mod_plus_full. Qed.
Lemma zslice_split (l : list Z) i n m : 0 <= i -> 0 <= n -> 0 <= m -> i + n + m <= zlen l -> zslice l i (n + m) = zslice l i n ++ zslice l (i + n) m.
Proof. intros. now apply zslice_app. Qed.
Lemma sw_words_ok t buf addr : sw_table t -> Forall byte buf -> forall fuel next len c,
  0 <= next -> 0 <= len -> next + len <= zlen buf -> (len < 8 \/ Z.land (addr + next) 7 = 0) -> 0 <= c < 2^32 ->
  len <= Z.of_nat fuel ->
  exists k, 0 <= k /\ 8 * k <= len < 8 * k + 8 /\
    sw_words fuel t buf addr next len c = Ok (next + 8 * k, len - 8 * k, feed c (zslice buf next (8 * k))).
Proof.
  intros Ht F. induction fuel as [|fuel IH]; intros next len c H1 H2 H3 Ha Hc Hf; cbn [sw_words].
  - replace (len <? 8) with true by lia. exists 0. split; [lia|]. split; [lia|]. rewrite zslice_0. do 3 f_equal; lia.
  - destruct (Z.ltb_spec len 8).
    + exists 0. split; [lia|]. split; [lia|]. rewrite zslice_0. do 3 f_equal; lia.
    + destruct Ha as [Ha|Ha]; [lia|]. rewrite sw_word_ok by (assumption || lia). cbn [bind].
      destruct (IH (next + 8) (len - 8) (feed c (zslice buf next 8))) as (k & K1 & K2 & ->); [lia|lia|lia| | |lia|].
      * right. rewrite Z.add_assoc, land7_add. exact Ha.
      * apply feed_range; [now apply Forall_zslice|exact Hc].
      * exists (k + 1). split; [lia|]. split; [lia|].
        replace (8 * (k + 1)) with (8 + 8 * k) by lia. rewrite zslice_split by lia. rewrite feed_app. do 3 f_equal; lia.
Qed.

Lemma not32_range c : 0 <= c < 2^32 -> 0 <= not32 c < 2^32.
Proof. intro H. apply lxor_lt; lia. Qed.
Lemma crc32c_feed c l : Forall byte l -> crc32c c l = not32 (feed (not32 c) l).
Proof. intro F. unfold crc32c. now rewrite feed_spec. Qed.
Lemma not32_invol c : not32 (not32 c) = c.
Proof. unfold not32. now rewrite Z.lxor_assoc, Z.lxor_nilpotent, Z.lxor_0_r. Qed.

Lemma sw_ok t crc buf addr len : sw_table t -> Forall byte buf -> 0 <= crc < 2^32 -> 0 <= len <= zlen buf ->
  crc32_sw_le t crc buf addr len = Ok (crc32c crc (zslice buf 0 len)).
Proof.
  intros Ht F Hc Hl. unfold crc32_sw_le. pose proof (not32_range crc Hc) as Hn.
  destruct (sw_lead_ok t buf addr Ht F (Z.to_nat len) 0 (not32 crc)) as (k & m & Hk & Ha & ->); [lia|lia|exact Hn|]. cbn [bind].
  assert (R1 := feed_range (zslice buf 0 (Z.of_nat k)) (Forall_zslice _ _ _ _ F) _ Hn).
  destruct (sw_words_ok t buf addr Ht F m (0 + Z.of_nat k) (Z.of_nat m) (feed (not32 crc) (zslice buf 0 (Z.of_nat k))))
    as (q & Q1 & Q2 & ->); [lia|lia|lia|destruct Ha as [->|Ha]; [left; lia|right; exact Ha]|exact R1|lia|]. cbn [bind].
  assert (R2 := feed_range (zslice buf (0 + Z.of_nat k) (8 * q)) (Forall_zslice _ _ _ _ F) _ R1).
  rewrite u32_small by exact R2. rewrite sw_tail_ok by (assumption || lia). cbn [bind].
  rewrite crc32c_feed by (now apply Forall_zslice). do 2 f_equal. rewrite <- !feed_app. f_equal.
  replace (zslice buf 0 len) with (zslice buf 0 (Z.of_nat k + 8 * q + Z.of_nat (Z.to_nat (Z.of_nat m - 8 * q)))) by (f_equal; lia).
  rewrite !zslice_split by lia. rewrite <- app_assoc, Z.add_0_l. reflexivity.
Qed.

(** ** The CRC32 instruction *)
Lemma reflect_nonneg n : forall x, 0 <= reflect n x.
Proof.
  induction n as [|n IH]; intro x; cbn [reflect]; [lia|]. apply Z.lor_nonneg. split; [|apply IH].
  apply Z.shiftl_nonneg. apply Z.land_nonneg. lia.
Qed.
Lemma reflect_bit n : forall x i, 0 <= i -> Z.testbit (reflect n x) i = if i <? Z.of_nat n then Z.testbit x (Z.of_nat n - 1 - i) else false.
Proof.
  induction n as [|n IH]; intros x i Hi; cbn [reflect].
  - replace (i <? Z.of_nat 0) with false by lia. apply Z.bits_0.
  - rewrite Z.lor_spec, Z.shiftl_spec, IH by lia. change 1 with (Z.ones 1) at 1.
    destruct (Z.ltb_spec i (Z.of_nat n)).
    + replace (i <? Z.of_nat (S n)) with true by lia. rewrite (Z.testbit_neg_r (Z.land x (Z.ones 1))) by lia.
      rewrite Z.shiftr_spec by lia. cbn [orb]. f_equal. lia.
    + rewrite orb_false_r, Z.land_spec. destruct (Z.ltb_spec i (Z.of_nat (S n))).
      * replace (i - Z.of_nat n) with 0 by lia. rewrite Z.ones_spec_low by lia. rewrite andb_true_r. f_equal. lia.
      * rewrite Z.ones_spec_high by lia. apply andb_false_r.
Qed.
Lemma zseq_in n x : 0 <= x < Z.of_nat n -> In x (zseq n).
Proof. intro H. unfold zseq. rewrite in_map_iff. exists (Z.to_nat x). split; [lia|]. apply in_seq. lia. Qed.
Lemma poly_bits j : 0 <= j < 32 -> Z.testbit 0x11EDC6F41 j = Z.testbit castagnoli (31 - j).
Proof.
  intro Hj. assert (H : forallb (fun j => Bool.eqb (Z.testbit 0x11EDC6F41 j) (Z.testbit castagnoli (31 - j))) (zseq 32) = true) by reflexivity.
  rewrite forallb_forall in H. apply eqb_prop. apply H. apply zseq_in. lia.
Qed.
Lemma step_bit x i : 0 <= i -> Z.testbit (step x) i = xorb (Z.testbit x (i + 1)) (Z.odd x && Z.testbit castagnoli i).
Proof.
  intro Hi. unfold step, shift_in. rewrite xorb_false_r, Z.lxor_spec, Z.shiftr_spec by lia.
  destruct (Z.odd x); [reflexivity|]. now rewrite Z.bits_0.
Qed.
Lemma mod2_ok n : forall x, mod2 n (reflect (32 + n) x) = reflect 32 (stepn n x).
Proof.
  induction n as [|n IH]; intro x; [reflexivity|]. cbn [mod2]. rewrite stepn_S, <- IH. f_equal.
  rewrite reflect_bit by lia. replace (32 + Z.of_nat n <? Z.of_nat (32 + S n)) with true by lia.
  replace (Z.of_nat (32 + S n) - 1 - (32 + Z.of_nat n)) with 0 by lia. rewrite Z.bit0_odd.
  apply Z.bits_inj'. intros i Hi. rewrite (reflect_bit (32 + n)) by lia.
  assert (L : Z.testbit (if Z.odd x then Z.lxor (reflect (32 + S n) x) (Z.shiftl 0x11EDC6F41 (Z.of_nat n)) else reflect (32 + S n) x) i
    = xorb (Z.testbit (reflect (32 + S n) x) i) (Z.odd x && Z.testbit 0x11EDC6F41 (i - Z.of_nat n))).
  { destruct (Z.odd x); [rewrite Z.lxor_spec, Z.shiftl_spec by lia; reflexivity|now rewrite xorb_false_r]. }
  rewrite L, reflect_bit by lia. clear L.
  destruct (Z.ltb_spec i (Z.of_nat (32 + n))).
  - replace (i <? Z.of_nat (32 + S n)) with true by lia. rewrite step_bit by lia.
    replace (Z.of_nat (32 + S n) - 1 - i) with (Z.of_nat (32 + n) - 1 - i + 1) by lia. do 2 f_equal.
    destruct (Z.lt_ge_cases i (Z.of_nat n)).
    + rewrite Z.testbit_neg_r by lia. symmetry. apply (bits_lt_pow2 castagnoli 32); [unfold castagnoli|]; lia.
    + rewrite poly_bits by lia. f_equal. lia.
  - destruct (Z.eq_dec i (Z.of_nat (32 + n))) as [->|Hne].
    + replace (Z.of_nat (32 + n) <? Z.of_nat (32 + S n)) with true by lia.
      replace (Z.of_nat (32 + S n) - 1 - Z.of_nat (32 + n)) with 0 by lia.
      replace (Z.of_nat (32 + n) - Z.of_nat n) with 32 by lia. rewrite Z.bit0_odd. change (Z.testbit 0x11EDC6F41 32) with true.
      destruct (Z.odd x); reflexivity.
    + replace (i <? Z.of_nat (32 + S n)) with false by lia.
      rewrite (bits_lt_pow2 0x11EDC6F41 33) by lia. now rewrite andb_false_r.
Qed.
Lemma insn_ok n crc v : 0 <= crc < 2^32 -> 0 <= v < 2^Z.of_nat n -> crc32_insn n crc v = stepn n (Z.lxor crc v).
Proof.
  intros Hc Hv. unfold crc32_insn. cbv zeta.
  replace (Z.lxor (Z.shiftl (reflect n v) 32) (Z.shiftl (reflect 32 crc) (Z.of_nat n))) with (reflect (32 + n) (Z.lxor crc v)).
  - rewrite mod2_ok. set (y := stepn n (Z.lxor crc v)).
    assert (Hy : 0 <= y < 2^32).
    { apply stepn_range. assert (2^32 <= 2^(32 + Z.of_nat n)) by (apply Z.pow_le_mono_r; lia).
      assert (2^Z.of_nat n <= 2^(32 + Z.of_nat n)) by (apply Z.pow_le_mono_r; lia). apply lxor_lt; lia. }
    apply Z.bits_inj'. intros i Hi. rewrite reflect_bit by lia. destruct (Z.ltb_spec i (Z.of_nat 32)).
    + rewrite reflect_bit by lia. replace (Z.of_nat 32 - 1 - i <? Z.of_nat 32) with true by lia. f_equal. lia.
    + symmetry. apply (bits_lt_pow2 y 32); [exact Hy|lia].
  - apply Z.bits_inj'. intros i Hi. rewrite reflect_bit, !Z.lxor_spec, !Z.shiftl_spec by lia.
    assert (A : forall j, Z.testbit (reflect n v) j = if (0 <=? j) && (j <? Z.of_nat n) then Z.testbit v (Z.of_nat n - 1 - j) else false).
    { intro j. destruct (Z.leb_spec 0 j); [now rewrite reflect_bit by lia|apply Z.testbit_neg_r; lia]. }
    assert (B : forall j, Z.testbit (reflect 32 crc) j = if (0 <=? j) && (j <? 32) then Z.testbit crc (32 - 1 - j) else false).
    { intro j. destruct (Z.leb_spec 0 j); [now rewrite reflect_bit by lia|apply Z.testbit_neg_r; lia]. }
    rewrite A, B. destruct (Z.ltb_spec i (Z.of_nat (32 + n))).
    + rewrite xorb_comm. f_equal.
      * destruct (Z.leb_spec 0 (i - 32)); cbn [andb].
        -- replace (i - 32 <? Z.of_nat n) with true by lia. f_equal. lia.
        -- apply (bits_lt_pow2 v (Z.of_nat n)); [exact Hv|lia].
      * destruct (Z.leb_spec 0 (i - Z.of_nat n)); cbn [andb].
        -- replace (i - Z.of_nat n <? 32) with true by lia. f_equal. lia.
        -- apply (bits_lt_pow2 crc 32); [exact Hc|lia].
    + replace (i - 32 <? Z.of_nat n) with false by lia. replace (i - Z.of_nat n <? 32) with false by lia.
      now rewrite !andb_false_r.
Qed.
Lemma u8_insn c b : 0 <= c < 2^32 -> byte b -> mm_crc32_u8 c b = stepn 8 (Z.lxor c b).
Proof. intros Hc Hb. unfold mm_crc32_u8. rewrite u32_small by exact Hc. now apply insn_ok. Qed.

(** ** Matrices *)
Definition is_op (mat : list Z) (n : nat) : Prop :=
  length mat = 32%nat /\ forall i, (i < 32)%nat -> nth_error mat i = Some (stepn n (Z.shiftl 1 (Z.of_nat i))).
Lemma times_loop_ok n : forall mat vec sum j, (forall i, (i < length mat)%nat -> nth_error mat i = Some (stepn n (Z.shiftl 1 (j + Z.of_nat i)))) ->
  0 <= j -> 0 <= vec < 2^zlen mat -> times_loop mat vec sum = Ok (Z.lxor sum (stepn n (Z.shiftl vec j))).
Proof.
  induction mat as [|m mat IH]; intros vec sum j Hm Hj Hv; cbn [times_loop]; destruct (Z.eqb_spec vec 0) as [->|Hz].
  - now rewrite Z.shiftl_0_l, stepn_0, Z.lxor_0_r.
  - change (zlen (@nil Z)) with 0 in Hv. lia.
  - now rewrite Z.shiftl_0_l, stepn_0, Z.lxor_0_r.
  - rewrite (IH _ _ (j + 1)).
    + f_equal. rewrite (split_bits vec 1) at 3 by lia. rewrite Z.shiftl_lxor, stepn_lxor, Z.shiftl_shiftl by lia.
      rewrite <- Z.lxor_assoc. rewrite (Z.add_comm 1 j). f_equal.
      specialize (Hm 0%nat ltac:(cbn; lia)). cbn [nth_error] in Hm. injection Hm as ->. rewrite Z.add_0_r.
      change (Z.land vec 1) with (Z.land vec (Z.ones 1)). rewrite Z.land_ones by lia. change (2^1) with 2. rewrite Zmod_odd.
      destruct (Z.odd vec); cbn [Z.eqb]; [reflexivity|]. now rewrite Z.shiftl_0_l, stepn_0, Z.lxor_0_r.
    + intros i Hi. specialize (Hm (S i) ltac:(cbn; lia)). cbn [nth_error] in Hm. rewrite Hm. do 3 f_equal. lia.
    + lia.
    + rewrite zlen_cons in Hv. pose proof (shiftr_lt vec (zlen mat + 1) 1 ltac:(pose proof (zlen_nonneg mat); lia) Hv) as H.
      replace (zlen mat + 1 - 1) with (zlen mat) in H by lia. exact H.
Qed.
Lemma matrix_times_ok mat n vec : is_op mat n -> 0 <= vec < 2^32 -> matrix_times mat vec = Ok (stepn n vec).
Proof.
  intros [Hl Hm] Hv. unfold matrix_times. rewrite (times_loop_ok n mat vec 0 0).
  - rewrite Z.lxor_0_l, Z.shiftl_0_r. reflexivity.
  - intros i Hi. rewrite Hm by lia. reflexivity.
  - lia.
  - unfold zlen. rewrite Hl. exact Hv.
Qed.
Lemma is_op_zget mat n i : is_op mat n -> 0 <= i < 32 -> zload mat i = Ok (stepn n (Z.shiftl 1 i)).
Proof.
  intros [_ H] Hi. unfold zload, zget. destruct (Z.ltb_spec i 0); [lia|]. rewrite H by lia. cbn [or_ub]. do 3 f_equal. lia.
Qed.
Lemma one_shift_range i : 0 <= i < 32 -> 0 <= Z.shiftl 1 i < 2^32.
Proof. intro H. rewrite Z.shiftl_1_l. split; [apply Z.pow_nonneg; lia|apply Z.pow_lt_mono_r; lia]. Qed.
Lemma matrix_square_ok mat n : is_op mat n -> exists mat', matrix_square mat = Ok mat' /\ is_op mat' (n + n).
Proof.
  intro H. unfold matrix_square.
  destruct (mapM_ok (fun n => let* m := zload mat n in matrix_times mat m) (fun i y => y = stepn (n + n) (Z.shiftl 1 i)) (zseq 32)) as (ys & -> & F).
  { intros i Hi. apply in_zseq in Hi. rewrite (is_op_zget mat n) by (auto; lia). cbn [bind].
    rewrite (matrix_times_ok mat n) by (auto using stepn_range32, one_shift_range).
    eexists. split; [reflexivity|]. now rewrite stepn_add. }
  exists ys. split; [reflexivity|]. pose proof (Forall2_zlen _ _ _ F) as Hl. rewrite zseq_len in Hl. split; [unfold zlen in Hl; lia|].
  intros i Hi. destruct (Forall2_zget _ _ _ (Z.of_nat i) (Z.of_nat i) F) as (y & Hy & ->); [apply zget_zseq; lia|].
  unfold zget in Hy. destruct (Z.ltb_spec (Z.of_nat i) 0); [lia|]. rewrite Nat2Z.id in Hy. exact Hy.
Qed.
Lemma one_bit_ok : is_op one_bit_op 1.
Proof.
  split; [reflexivity|]. intros [|i] Hi; [reflexivity|]. unfold one_bit_op. cbn [nth_error stepn].
  unfold zseq. rewrite map_map, nth_error_map.
  rewrite nth_error_nth' with (d := O) by (rewrite seq_length; lia). rewrite seq_nth by lia. cbn [option_map Nat.add].
  f_equal. replace (Z.of_nat (S i)) with (Z.of_nat i + 1) by lia. rewrite <- (Z.shiftl_shiftl 1 (Z.of_nat i) 1) by lia.
  rewrite step_double; [reflexivity|]. apply Z.shiftl_nonneg. lia.
Qed.
Lemma zeros_loop_ok : forall fuel odd e len, is_op odd e -> 0 <= len < 4^Z.of_nat fuel -> (0 < fuel)%nat ->
  exists m, zeros_loop fuel odd len = Ok m /\ is_op m (e * 2 * 2^Z.to_nat (Z.log2 len)).
Proof.
  induction fuel as [|fuel IH]; intros odd e len Ho Hl Hf; [lia|]. cbn [zeros_loop].
  destruct (matrix_square_ok odd e Ho) as (even & -> & He). cbn [bind].
  assert (Hd1 : Z.shiftr len 1 = len / 2) by apply Z.shiftr_div_pow2, Z.le_0_1.
  rewrite Hd1. destruct (Z.eqb_spec (len / 2) 0) as [H0|H0].
  { exists even. split; [reflexivity|]. assert (len = 0 \/ len = 1) as [->| ->] by (Z.div_mod_to_equations; lia);
      [change (Z.to_nat (Z.log2 0)) with O|change (Z.to_nat (Z.log2 1)) with O]; cbn [Nat.pow];
      (replace (e * 2 * 1)%nat with (e + e)%nat by lia; exact He). }
  destruct (matrix_square_ok even (e + e) He) as (odd' & -> & Ho'). cbn [bind].
  rewrite (Z.shiftr_div_pow2 (len / 2) 1) by lia. change (2^1) with 2. rewrite Z.div_div by lia. change (2 * 2) with 4.
  destruct (Z.eqb_spec (len / 4) 0) as [H4|H4].
  { exists odd'. split; [reflexivity|]. assert (Z.log2 len = 1) as ->.
    { apply Z.log2_unique; Z.div_mod_to_equations; lia. }
    change (Z.to_nat 1) with 1%nat. cbn [Nat.pow]. replace (e * 2 * (2 * 1))%nat with (e + e + (e + e))%nat by lia. exact Ho'. }
  assert (Hlog : Z.log2 (len / 4) = Z.log2 len - 2).
  { change 4 with (2^2). rewrite <- Z.shiftr_div_pow2 by lia. rewrite Z.log2_shiftr by (Z.div_mod_to_equations; lia).
    assert (2 <= Z.log2 len) by (apply Z.log2_le_pow2; Z.div_mod_to_equations; lia). lia. }
  assert (Hfu : (0 < fuel)%nat). { destruct fuel; [|lia]. change (4^Z.of_nat 1) with 4 in Hl. Z.div_mod_to_equations; lia. }
  destruct (IH odd' (e + e + (e + e))%nat (len / 4) Ho') as (m & -> & Hm); [|exact Hfu|].
  { replace (Z.of_nat (S fuel)) with (1 + Z.of_nat fuel) in Hl by lia. rewrite Z.pow_add_r in Hl by lia.
    split; [apply Z.div_pos; lia|]. apply Z.div_lt_upper_bound; lia. }
  exists m. split; [reflexivity|]. rewrite Hlog in Hm.
  assert (2 <= Z.log2 len) by (apply Z.log2_le_pow2; Z.div_mod_to_equations; lia).
  replace (Z.to_nat (Z.log2 len)) with (2 + Z.to_nat (Z.log2 len - 2))%nat by lia. rewrite Nat.pow_add_r. change (2^2)%nat with 4%nat.
  replace (e * 2 * (4 * 2 ^ Z.to_nat (Z.log2 len - 2)))%nat with ((e + e + (e + e)) * 2 * 2 ^ Z.to_nat (Z.log2 len - 2))%nat by lia.
  exact Hm.
Qed.
(** The operator for [len] zero bytes; for any length, that of the largest
    power of two below. *)
Lemma zeros_op_ok len : 0 <= len < 2^64 -> exists m, zeros_op len = Ok m /\ is_op m (8 * 2^Z.to_nat (Z.log2 len)).
Proof.
  intro Hl. unfold zeros_op. destruct (matrix_square_ok _ _ one_bit_ok) as (even & -> & He). cbn [bind].
  destruct (matrix_square_ok _ _ He) as (odd & -> & Ho). cbn [bind].
  destruct (zeros_loop_ok 64 odd _ len Ho) as (m & E & Hm).
  - change (4^Z.of_nat 64) with (2^128). lia.
  - lia.
  - exists m. split; [exact E|]. replace (8 * 2 ^ Z.to_nat (Z.log2 len))%nat with ((1 + 1 + (1 + 1)) * 2 * 2 ^ Z.to_nat (Z.log2 len))%nat by lia. exact Hm.
Qed.
Lemma zeros_tables_ok len : 0 <= len < 2^64 -> exists z, zeros_tables len = Ok z /\
  tabulates z 4 (fun k n => stepn (8 * 2^Z.to_nat (Z.log2 len)) (Z.shiftl n (8 * k))).
Proof.
  intro Hl. unfold zeros_tables. destruct (zeros_op_ok len Hl) as (op & -> & Ho). cbn [bind].
  set (N := (8 * 2^Z.to_nat (Z.log2 len))%nat) in *.
  edestruct (mapM_ok (fun n => let* z0 := matrix_times op n in let* z1 := matrix_times op (Z.shiftl n 8) in
     let* z2 := matrix_times op (Z.shiftl n 16) in let* z3 := matrix_times op (Z.shiftl n 24) in Ok [z0; z1; z2; z3])
    (fun n y => y = [stepn N n; stepn N (Z.shiftl n 8); stepn N (Z.shiftl n 16); stepn N (Z.shiftl n 24)]) (zseq 256)) as (z & -> & F).
  { intros n Hn. apply in_zseq in Hn. rewrite !(matrix_times_ok op N) by (auto; rewrite ?Z.shiftl_mul_pow2; lia).
    cbn [bind]. eexists. split; reflexivity. }
  exists z. split; [reflexivity|]. intros k n Hk Hn.
  destruct (Forall2_zget _ _ _ n n F) as (y & Hy & ->); [apply zget_zseq; lia|].
  unfold tab, zload. rewrite Hy. cbn [or_ub bind].
  assert (k = 0 \/ k = 1 \/ k = 2 \/ k = 3) as [->|[->|[->| ->]]] by lia; cbn; rewrite ?Z.shiftl_0_r; reflexivity.
Qed.
Definition op_table (z : list (list Z)) (N : nat) : Prop := tabulates z 4 (fun k n => stepn N (Z.shiftl n (8 * k))).
Lemma crc_shift_ok z N c : op_table z N -> 0 <= c < 2^32 -> crc_shift z c = Ok (stepn N c).
Proof.
  intros Hz Hc. unfold crc_shift. rewrite (Hz 0), (Hz 1), (Hz 2), (Hz 3) by (first [lia|apply land_255_range]). cbn [bind].
  f_equal. rewrite <- !stepn_lxor. f_equal. rewrite Z.shiftr_0_r, Z.shiftl_0_r.
  change (8 * 1) with 8. change (8 * 2) with 16. change (8 * 3) with 24.
  rewrite (split_byte c) at 5. rewrite (split_byte (Z.shiftr c 8)) at 2. rewrite Z.shiftl_lxor, Z.shiftl_shiftl, !Z.shiftr_shiftr by lia.
  change (8 + 8) with 16. rewrite (split_byte (Z.shiftr c 16)) at 2. rewrite Z.shiftl_lxor, Z.shiftl_shiftl, !Z.shiftr_shiftr by lia.
  change (8 + 16) with 24. change (16 + 8) with 24.
  replace (Z.land (Z.shiftr c 24) 255) with (Z.shiftr c 24); [now rewrite !Z.lxor_assoc|].
  rewrite land_255. symmetry. apply Z.mod_small. pose proof (shiftr_lt c 32 24 ltac:(lia) Hc) as H. exact H.
Qed.

(** ** Hardware loops *)
Lemma u64_insn buf next c : Forall byte buf -> 0 <= next -> next + 8 <= zlen buf -> 0 <= c < 2^32 ->
  exists w, load64 true buf next = Ok w /\ mm_crc32_u64 c w = feed c (zslice buf next 8).
Proof.
  intros F H1 H2 Hc. unfold load64. replace ((0 <=? next) && (next + 8 <=? zlen buf)) with true by lia.
  eexists. split; [reflexivity|]. pose proof (Forall_zslice byte buf next 8 F) as Fs.
  pose proof (zslice_len_Z buf next 8 H1 ltac:(lia) H2) as Hl. pose proof (le64_range _ Fs) as Hr. rewrite Hl in Hr.
  unfold mm_crc32_u64. rewrite u32_small by exact Hc. rewrite insn_ok by (assumption || exact Hr).
  rewrite (feed_word _ Fs). f_equal. unfold zlen in Hl. lia.
Qed.
Lemma feed_zslice_range buf i n c : Forall byte buf -> 0 <= c < 2^32 -> 0 <= feed c (zslice buf i n) < 2^32.
Proof. intros F Hc. apply feed_range; [now apply Forall_zslice|exact Hc]. Qed.
Lemma hw_lead_ok buf addr : Forall byte buf -> forall n next c,
  0 <= next -> next + Z.of_nat n <= zlen buf -> 0 <= c < 2^32 ->
  exists k m, n = (k + m)%nat /\ hw_lead buf addr n next c = Ok (next + Z.of_nat k, m, feed c (zslice buf next (Z.of_nat k))).
Proof.
  intros F. induction n as [|n IH]; intros next c H1 H2 Hc; cbn [hw_lead].
  - exists O, O. split; [reflexivity|]. rewrite zslice_0. do 3 f_equal; lia.
  - destruct (Z.eqb_spec (Z.land (addr + next) 7) 0).
    + exists O, (S n). split; [reflexivity|]. rewrite zslice_0. do 3 f_equal; lia.
    + destruct (zload_byte buf next F ltac:(lia)) as (b & -> & Hg & Hb). cbn [bind]. rewrite u8_insn by assumption.
      destruct (IH (next + 1) (stepn 8 (Z.lxor c b))) as (k & m & -> & ->); [lia|lia|now apply range_next|].
      exists (S k), m. split; [reflexivity|].
      replace (Z.of_nat (S k)) with (Z.of_nat k + 1) by lia. rewrite (zslice_S _ _ (Z.of_nat k) H1 ltac:(lia) b Hg).
      do 3 f_equal; lia.
Qed.
Lemma hw_tail_ok buf : Forall byte buf -> forall n next c,
  0 <= next -> next + Z.of_nat n <= zlen buf -> 0 <= c < 2^32 ->
  hw_tail buf n next c = Ok (feed c (zslice buf next (Z.of_nat n))).
Proof.
  intros F. induction n as [|n IH]; intros next c H1 H2 Hc; cbn [hw_tail]; [now rewrite zslice_0|].
  destruct (zload_byte buf next F ltac:(lia)) as (b & -> & Hg & Hb). cbn [bind]. rewrite u8_insn by assumption.
  rewrite IH; [|lia|lia|now apply range_next].
  replace (Z.of_nat (S n)) with (Z.of_nat n + 1) by lia. now rewrite (zslice_S _ _ (Z.of_nat n) H1 ltac:(lia) b Hg).
Qed.
Lemma hw_words_ok buf : Forall byte buf -> forall fuel next q c, 0 <= q <= Z.of_nat fuel -> 0 <= next -> next + 8 * q <= zlen buf ->
  0 <= c < 2^32 -> hw_words fuel buf next (next + 8 * q) c = Ok (next + 8 * q, feed c (zslice buf next (8 * q))).
Proof.
  intro F. induction fuel as [|fuel IH]; intros next q c Hq H1 H2 Hc; cbn [hw_words]; destruct (Z.ltb_spec next (next + 8 * q)).
  - lia.
  - assert (q = 0) as -> by lia. rewrite zslice_0. do 2 f_equal; lia.
  - destruct (u64_insn buf next c F H1 ltac:(lia) Hc) as (w & -> & Hw). cbn [bind]. rewrite Hw.
    replace (next + 8 * q) with (next + 8 + 8 * (q - 1)) by lia.
    rewrite IH; [|lia|lia|lia|now apply feed_zslice_range]. replace (8 * q) with (8 + 8 * (q - 1)) by lia.
    rewrite zslice_split by lia. now rewrite feed_app.
  - assert (q = 0) as -> by lia. rewrite zslice_0. do 2 f_equal; lia.
Qed.
Lemma hw_inner_ok buf k : Forall byte buf -> forall fuel next r c0 c1 c2, 1 <= r <= Z.of_nat fuel -> 0 <= next -> 0 <= k ->
  next + 2 * k + 8 * r <= zlen buf -> 0 <= c0 < 2^32 -> 0 <= c1 < 2^32 -> 0 <= c2 < 2^32 ->
  hw_inner fuel buf k next (next + 8 * r) c0 c1 c2 =
    Ok (next + 8 * r, feed c0 (zslice buf next (8 * r)), feed c1 (zslice buf (next + k) (8 * r)), feed c2 (zslice buf (next + k * 2) (8 * r))).
Proof.
  intro F. induction fuel as [|fuel IH]; intros next r c0 c1 c2 Hr H1 Hk H2 Hc0 Hc1 Hc2; [lia|]. cbn [hw_inner].
  destruct (u64_insn buf next c0 F H1 ltac:(lia) Hc0) as (w0 & -> & W0). cbn [bind].
  destruct (u64_insn buf (next + k) c1 F ltac:(lia) ltac:(lia) Hc1) as (w1 & -> & W1). cbn [bind].
  destruct (u64_insn buf (next + k * 2) c2 F ltac:(lia) ltac:(lia) Hc2) as (w2 & -> & W2). cbn [bind]. rewrite W0, W1, W2.
  destruct (Z.ltb_spec (next + 8) (next + 8 * r)).
  - replace (next + 8 * r) with (next + 8 + 8 * (r - 1)) by lia.
    rewrite IH by (try apply feed_zslice_range; assumption || lia).
    replace (8 * r) with (8 + 8 * (r - 1)) by lia. rewrite !zslice_split by lia. rewrite !feed_app.
    replace (next + 8 + k) with (next + k + 8) by lia. replace (next + 8 + k * 2) with (next + k * 2 + 8) by lia. reflexivity.
  - assert (r = 1) as -> by lia. reflexivity.
Qed.
Lemma hw_blocks_ok z buf k : Forall byte buf -> op_table z (8 * Z.to_nat k) -> 0 < k -> k mod 8 = 0 -> forall fuel next len c,
  0 <= next -> 0 <= len <= Z.of_nat fuel -> next + len <= zlen buf -> 0 <= c < 2^32 ->
  exists m, 0 <= m <= len /\ hw_blocks fuel z buf k next len c = Ok (next + m, len - m, feed c (zslice buf next m)).
Proof.
  intros F Hz Hk Hk8. induction fuel as [|fuel IH]; intros next len c H1 Hl H2 Hc; cbn [hw_blocks]; destruct (Z.leb_spec (k * 3) len).
  - lia.
  - exists 0. split; [lia|]. rewrite zslice_0. do 3 f_equal; lia.
  - assert (Hk' : k = 8 * (k / 8)) by (Z.div_mod_to_equations; lia). set (r := k / 8) in *.
    pose proof (hw_inner_ok buf k F (Z.to_nat k) next r c 0 0 ltac:(lia) H1 ltac:(lia) ltac:(lia) Hc ltac:(lia) ltac:(lia)) as E.
    rewrite <- Hk' in E. rewrite E. cbn [bind]. clear E.
    assert (L : forall i, 0 <= i -> i + k <= zlen buf -> length (zslice buf i k) = Z.to_nat k).
    { intros i Hi Hb. pose proof (zslice_len_Z buf i k Hi ltac:(lia) Hb) as Z1. unfold zlen in Z1. lia. }
    assert (R0 := feed_zslice_range buf next k c F Hc).
    rewrite (crc_shift_ok z _ _ Hz R0). cbn [bind].
    replace (8 * Z.to_nat k)%nat with (8 * length (zslice buf (next + k) k))%nat in * by (rewrite L by lia; reflexivity).
    rewrite <- feed_shift. assert (R1 := feed_zslice_range buf (next + k) k _ F R0).
    rewrite (crc_shift_ok z _ _ Hz R1). cbn [bind].
    replace (8 * length (zslice buf (next + k) k))%nat with (8 * length (zslice buf (next + k * 2) k))%nat by (rewrite !L by lia; reflexivity).
    rewrite <- feed_shift. assert (R2 := feed_zslice_range buf (next + k * 2) k _ F R1).
    destruct (IH (next + k + k * 2) (len - k * 3) _ ltac:(lia) ltac:(lia) ltac:(lia) R2) as (m & Hm & ->).
    exists (k * 3 + m). split; [lia|]. replace (zslice buf next (k * 3 + m)) with (zslice buf next (k + (k + (k + m)))) by (f_equal; lia).
    rewrite !zslice_split by lia. rewrite !feed_app.
    replace (next + k + k) with (next + k * 2) by lia. replace (next + k * 2 + k) with (next + k + k * 2) by lia. do 3 f_equal; lia.
  - exists 0. split; [lia|]. rewrite zslice_0. do 3 f_equal; lia.
Qed.
Lemma init_hw_ok : exists l s, init_hw = Ok (l, s) /\ op_table l (8 * Z.to_nat CRC32_LONG) /\ op_table s (8 * Z.to_nat CRC32_SHORT).
Proof.
  unfold init_hw. destruct (zeros_tables_ok CRC32_LONG) as (l & -> & Hl); [unfold CRC32_LONG; lia|]. cbn [bind].
  destruct (zeros_tables_ok CRC32_SHORT) as (s & -> & Hs); [unfold CRC32_SHORT; lia|]. cbn [bind].
  exists l, s. split; [reflexivity|]. split; [exact Hl|exact Hs].
Qed.
Lemma hw_ok l s crc buf addr len : op_table l (8 * Z.to_nat CRC32_LONG) -> op_table s (8 * Z.to_nat CRC32_SHORT) ->
  Forall byte buf -> 0 <= crc < 2^32 -> 0 <= len <= zlen buf ->
  crc32_hw (l, s) crc buf addr len = Ok (crc32c crc (zslice buf 0 len)).
Proof.
  intros Hl Hs F Hc Hlen. unfold crc32_hw. cbv zeta. change (Z.lxor crc 0xffffffff) with (not32 crc). cbn [fst snd].
  pose proof (not32_range crc Hc) as Hn.
  destruct (hw_lead_ok buf addr F (Z.to_nat len) 0 (not32 crc)) as (k & m & Hk & ->); [lia|lia|exact Hn|]. cbn [bind].
  assert (R1 := feed_zslice_range buf 0 (Z.of_nat k) _ F Hn).
  destruct (hw_blocks_ok l buf CRC32_LONG F Hl eq_refl eq_refl m (0 + Z.of_nat k) (Z.of_nat m) _ ltac:(lia) ltac:(lia) ltac:(lia) R1)
    as (m1 & M1 & ->). cbn [bind].
  assert (R2 := feed_zslice_range buf (0 + Z.of_nat k) m1 _ F R1).
  destruct (hw_blocks_ok s buf CRC32_SHORT F Hs eq_refl eq_refl m (0 + Z.of_nat k + m1) (Z.of_nat m - m1) _ ltac:(lia) ltac:(lia) ltac:(lia) R2)
    as (m2 & M2 & ->). cbn [bind].
  assert (R3 := feed_zslice_range buf (0 + Z.of_nat k + m1) m2 _ F R2).
  set (r := Z.of_nat m - m1 - m2) in *.
  assert (Hr : Z.land r 7 = r mod 8) by (change 7 with (Z.ones 3); now rewrite Z.land_ones by lia). rewrite Hr.
  pose proof (Z.mod_pos_bound r 8 ltac:(lia)) as Hb. pose proof (Z.div_mod r 8 ltac:(lia)) as Hd.
  replace (r - r mod 8) with (8 * (r / 8)) by lia.
  rewrite hw_words_ok by (assumption || lia). cbn [bind].
  assert (R4 := feed_zslice_range buf (0 + Z.of_nat k + m1 + m2) (8 * (r / 8)) _ F R3).
  rewrite hw_tail_ok by (assumption || lia). cbn [bind].
  assert (R5 := feed_zslice_range buf (0 + Z.of_nat k + m1 + m2 + 8 * (r / 8)) (Z.of_nat (Z.to_nat (r mod 8))) _ F R4).
  rewrite u32_small by exact R5. rewrite crc32c_feed by (now apply Forall_zslice). unfold not32 at 2. do 2 f_equal.
  rewrite <- !feed_app. f_equal.
  replace (zslice buf 0 len) with (zslice buf 0 (Z.of_nat k + m1 + m2 + 8 * (r / 8) + Z.of_nat (Z.to_nat (r mod 8)))) by (f_equal; lia).
  rewrite !zslice_split by lia. rewrite !Z.add_0_l, <- !app_assoc. reflexivity.
Qed.

(** ** Software, big endian *)
Lemma u64_bit z i : 0 <= i < 64 -> Z.testbit (u64 z) i = Z.testbit z i.
Proof. intro H. unfold u64. apply Z.mod_pow2_bits_low. lia. Qed.
Lemma lor_lt a b n : 0 <= n -> 0 <= a < 2^n -> 0 <= b < 2^n -> 0 <= Z.lor a b < 2^n.
Proof.
  intros Hn Ha Hb. assert (0 <= Z.lor a b) by (apply Z.lor_nonneg; lia). split; [assumption|].
  apply lt_pow2_bits; [lia|assumption|]. intros i Hi.
  rewrite Z.lor_spec, (bits_lt_pow2 a n), (bits_lt_pow2 b n) by assumption. reflexivity.
Qed.
Lemma swap_range x : 0 <= swap x < 2^64.
Proof.
  unfold swap. cbv zeta. set (y := Z.lor (Z.land _ 0xffff0000ffff0000) _).
  assert (H : 0 <= y < 2^64).
  { assert (L : forall a m, 0 <= m < 2^64 -> 0 <= Z.land a m < 2^64).
    { intros a m Hm. assert (0 <= Z.land a m) by (apply Z.land_nonneg; lia). split; [assumption|]. apply lt_pow2_bits; [lia|assumption|]. intros i Hi.
      rewrite Z.land_spec, (bits_lt_pow2 m 64) by assumption. apply andb_false_r. }
    apply lor_lt; [lia|apply L; lia|apply L; lia]. }
  apply lor_lt; [lia|apply u64_range|].
  pose proof (shiftr_lt y 64 32 ltac:(lia) H) as H2. change (2^(64-32)) with (2^32) in H2. lia.
Qed.
Ltac const_bits := repeat match goal with |- context [Z.testbit (Zpos ?p) ?k] =>
  let v := eval vm_compute in (Z.testbit (Zpos p) k) in change (Z.testbit (Zpos p) k) with v end.
Lemma swap_bit x i : 0 <= i < 64 -> Z.testbit (swap x) i = Z.testbit x (56 - 8 * (i / 8) + i mod 8).
Proof.
  intro Hi. unfold swap. cbv zeta.
  set (y := Z.lor (Z.land (u64 (Z.shiftl x 8)) 0xff00ff00ff00ff00) (Z.land (Z.shiftr x 8) 0xff00ff00ff00ff)).
  set (z := Z.lor (Z.land (u64 (Z.shiftl y 16)) 0xffff0000ffff0000) (Z.land (Z.shiftr y 16) 0xffff0000ffff)).
  assert (A : forall i, 0 <= i < 64 -> Z.testbit y i =
    (Z.testbit x (i - 8) && Z.testbit 0xff00ff00ff00ff00 i) || (Z.testbit x (i + 8) && Z.testbit 0xff00ff00ff00ff i)).
  { intros j Hj. unfold y. rewrite Z.lor_spec, !Z.land_spec, u64_bit, Z.shiftl_spec, Z.shiftr_spec by lia. reflexivity. }
  assert (B : forall i, 0 <= i < 64 -> Z.testbit z i =
    (Z.testbit y (i - 16) && Z.testbit 0xffff0000ffff0000 i) || (Z.testbit y (i + 16) && Z.testbit 0xffff0000ffff i)).
  { intros j Hj. unfold z. rewrite Z.lor_spec, !Z.land_spec, u64_bit, Z.shiftl_spec, Z.shiftr_spec by lia. reflexivity. }
  rewrite Z.lor_spec, u64_bit, Z.shiftl_spec, Z.shiftr_spec by lia.
  assert (Z64 : forall i, 64 <= i -> Z.testbit z i = false).
  { intros j Hj. unfold z. rewrite Z.lor_spec, !Z.land_spec. rewrite (bits_lt_pow2 0xffff0000ffff0000 64), (bits_lt_pow2 0xffff0000ffff 64) by lia.
    now rewrite !andb_false_r. }
  pose proof (zseq_in 64 i Hi) as Hin. clear Hi. clearbody y z. vm_compute in Hin.
  repeat (destruct Hin as [<-|Hin];
    [match goal with |- _ = Z.testbit x ?k => let v := eval vm_compute in k in change k with v end;
     match goal with |- Z.testbit z ?a || Z.testbit z ?b = _ =>
       let a' := eval vm_compute in a in let b' := eval vm_compute in b in change (Z.testbit z a) with (Z.testbit z a'); change (Z.testbit z b) with (Z.testbit z b') end;
     first [rewrite Z.testbit_neg_r by reflexivity; cbn [orb]; rewrite B by lia|rewrite B, Z64 by lia; rewrite orb_false_r];
     const_bits; rewrite ?andb_true_r, ?andb_false_r; cbn [orb]; rewrite ?orb_false_r;
     match goal with |- Z.testbit y ?k = _ => let v := eval vm_compute in k in change k with v end;
     rewrite A by lia; const_bits; rewrite ?andb_true_r, ?andb_false_r; cbn [orb]; rewrite ?orb_false_r; reflexivity|]).
  destruct Hin.
Qed.
Lemma swap_eq x y : 0 <= y < 2^64 -> (forall i, 0 <= i < 64 -> Z.testbit x (56 - 8 * (i / 8) + i mod 8) = Z.testbit y i) -> swap x = y.
Proof.
  intros Hy H. apply Z.bits_inj'. intros i Hi. destruct (Z.lt_ge_cases i 64).
  - rewrite swap_bit by lia. apply H. lia.
  - rewrite (bits_lt_pow2 (swap x) 64 i), (bits_lt_pow2 y 64 i) by (assumption || apply swap_range). reflexivity.
Qed.
Lemma swap_lxor a b : swap (Z.lxor a b) = Z.lxor (swap a) (swap b).
Proof.
  apply swap_eq; [apply lxor_lt; [lia|apply swap_range|apply swap_range]|].
  intros i Hi. now rewrite !Z.lxor_spec, !swap_bit by lia.
Qed.
Lemma swap_swap x : 0 <= x < 2^64 -> swap (swap x) = x.
Proof.
  intro Hx. apply swap_eq; [exact Hx|]. intros i Hi. rewrite swap_bit by (Z.div_mod_to_equations; lia).
  f_equal. Z.div_mod_to_equations; lia.
Qed.
(** Byte [k] of the swapped word is byte [7-k]. *)
Lemma swap_byte x k : 0 <= k <= 7 -> Z.land (Z.shiftr (swap x) (8 * k)) 255 = Z.land (Z.shiftr x (8 * (7 - k))) 255.
Proof.
  intro Hk. change 255 with (Z.ones 8). apply Z.bits_inj'. intros i Hi. rewrite !Z.land_spec, !Z.shiftr_spec by lia.
  destruct (Z.lt_ge_cases i 8).
  - rewrite swap_bit by lia. do 2 f_equal. Z.div_mod_to_equations; lia.
  - rewrite Z.ones_spec_high by lia. now rewrite !andb_false_r.
Qed.
Lemma swap_shift b k : byte b -> 0 <= k <= 7 -> swap (Z.shiftl b (8 * k)) = Z.shiftl b (8 * (7 - k)).
Proof.
  intros Hb Hk. unfold byte in Hb. apply swap_eq.
  - rewrite Z.shiftl_mul_pow2 by lia. split; [apply Z.mul_nonneg_nonneg; [lia|apply Z.pow_nonneg; lia]|].
    apply Z.lt_le_trans with (256 * 2^(8 * (7 - k))); [apply Z.mul_lt_mono_pos_r; [apply Z.pow_pos_nonneg|]; lia|].
    change 256 with (2^8). rewrite <- Z.pow_add_r by lia. apply Z.pow_le_mono_r; lia.
  - assert (B : forall j, j < 0 \/ 8 <= j -> Z.testbit b j = false).
    { intros j [Hj|Hj]; [apply Z.testbit_neg_r; lia|apply (bits_lt_pow2 b 8); [exact Hb|lia]]. }
    intros i Hi. rewrite !Z.shiftl_spec by (Z.div_mod_to_equations; lia).
    destruct (Z.eq_dec (i / 8) (7 - k)) as [E|E].
    + f_equal. Z.div_mod_to_equations; lia.
    + rewrite !B; [reflexivity| |]; Z.div_mod_to_equations; lia.
Qed.
Lemma le64_cons b l : byte b -> 0 <= le64 l -> le64 (b :: l) = Z.lxor b (Z.shiftl (le64 l) 8).
Proof. intros Hb Hl. cbn [le64]. apply add_shift_xor; unfold byte in Hb; lia. Qed.
Lemma le64_eight b0 b1 b2 b3 b4 b5 b6 b7 : Forall byte [b0; b1; b2; b3; b4; b5; b6; b7] ->
  le64 [b0; b1; b2; b3; b4; b5; b6; b7] =
    Z.lxor b0 (Z.lxor (Z.shiftl b1 8) (Z.lxor (Z.shiftl b2 16) (Z.lxor (Z.shiftl b3 24) (Z.lxor (Z.shiftl b4 32)
      (Z.lxor (Z.shiftl b5 40) (Z.lxor (Z.shiftl b6 48) (Z.shiftl b7 56))))))).
Proof.
  intro F. assert (R : forall l, Forall byte l -> 0 <= le64 l) by (intros l Fl; pose proof (le64_range l Fl); lia).
  repeat match goal with H : Forall byte (_ :: _) |- _ => inversion H; subst; clear H end.
  rewrite !le64_cons by (first [assumption|apply R; repeat (apply Forall_cons; [assumption|]); apply Forall_nil]).
  change (le64 []) with 0. rewrite Z.shiftl_0_l, Z.lxor_0_r. rewrite !Z.shiftl_lxor, !Z.shiftl_shiftl by lia. reflexivity.
Qed.
Lemma le64_rev l : Forall byte l -> length l = 8%nat -> le64 (rev l) = swap (le64 l).
Proof.
  intros F Hl. destruct l as [|b0 [|b1 [|b2 [|b3 [|b4 [|b5 [|b6 [|b7 [|]]]]]]]]]; try discriminate Hl.
  pose proof F as F2. apply Forall_rev in F2. cbn [rev app] in *. rewrite !le64_eight by assumption.
  repeat match goal with H : Forall byte (_ :: _) |- _ => inversion H; subst; clear H end.
  rewrite !swap_lxor. rewrite <- (Z.shiftl_0_r b0) at 2.
  pose proof (fun b Hb => swap_shift b 0 Hb ltac:(lia)) as S0. pose proof (fun b Hb => swap_shift b 1 Hb ltac:(lia)) as S1.
  pose proof (fun b Hb => swap_shift b 2 Hb ltac:(lia)) as S2. pose proof (fun b Hb => swap_shift b 3 Hb ltac:(lia)) as S3.
  pose proof (fun b Hb => swap_shift b 4 Hb ltac:(lia)) as S4. pose proof (fun b Hb => swap_shift b 5 Hb ltac:(lia)) as S5.
  pose proof (fun b Hb => swap_shift b 6 Hb ltac:(lia)) as S6. pose proof (fun b Hb => swap_shift b 7 Hb ltac:(lia)) as S7.
  change (8 * 0) with 0 in *. change (8 * 1) with 8 in *. change (8 * 2) with 16 in *. change (8 * 3) with 24 in *.
  change (8 * 4) with 32 in *. change (8 * 5) with 40 in *. change (8 * 6) with 48 in *. change (8 * 7) with 56 in *.
  rewrite S0, S1, S2, S3, S4, S5, S6, S7 by assumption.
  change (8 * (7 - 0)) with 56. change (8 * (7 - 1)) with 48. change (8 * (7 - 2)) with 40. change (8 * (7 - 3)) with 32.
  change (8 * (7 - 4)) with 24. change (8 * (7 - 5)) with 16. change (8 * (7 - 6)) with 8. change (8 * (7 - 7)) with 0. rewrite Z.shiftl_0_r.
  set (c0 := Z.shiftl b0 56). set (c1 := Z.shiftl b1 48). set (c2 := Z.shiftl b2 40). set (c3 := Z.shiftl b3 32).
  set (c4 := Z.shiftl b4 24). set (c5 := Z.shiftl b5 16). set (c6 := Z.shiftl b6 8).
  apply Z.bits_inj'. intros i _. rewrite !Z.lxor_spec.
  destruct (Z.testbit c0 i), (Z.testbit c1 i), (Z.testbit c2 i), (Z.testbit c3 i), (Z.testbit c4 i), (Z.testbit c5 i), (Z.testbit c6 i), (Z.testbit b7 i); reflexivity.
Qed.
Definition be_table (t : list (list Z)) : Prop := tabulates t 8 (fun k n => swap (stepn (Z.to_nat (8 * (k + 1))) n)).
Lemma zload_map {A B} (f : A -> B) l i v : zload l i = Ok v -> zload (map f l) i = Ok (f v).
Proof.
  unfold zload, zget. destruct (i <? 0); [discriminate|]. rewrite nth_error_map. destruct (nth_error l _); [|discriminate].
  cbn. congruence.
Qed.
Lemma be_table_map t : sw_table t -> be_table (map (map swap) t).
Proof.
  intros T k n Hk Hn. specialize (T k n Hk Hn). cbv beta in T |- *. revert T. generalize (stepn (Z.to_nat (8 * (k + 1))) n). intros v T.
  unfold tab in *. destruct (zload t n) as [r| |] eqn:E1; cbn [bind] in T; try discriminate.
  rewrite (zload_map (map swap) t n _ E1). cbn [bind]. now apply zload_map.
Qed.
Lemma init_be_ok : exists t, init_sw_be = Ok t /\ be_table t.
Proof.
  destruct init_sw_ok as (t & E & _ & _ & T). exists (map (map swap) t). split; [|now apply be_table_map].
  unfold init_sw_be. rewrite E. reflexivity.
Qed.
Lemma be_byte_ok buf next c : Forall byte buf -> 0 <= next < zlen buf -> 0 <= c ->
  exists b, zget buf next = Some b /\ byte b /\ be_byte buf next c = Ok (stepn 8 (Z.lxor c b)).
Proof.
  intros F H Hc. destruct (zload_byte buf next F H) as (b & E & Hg & Hb). exists b. split; [exact Hg|]. split; [exact Hb|].
  unfold be_byte. rewrite E. cbn [bind]. rewrite table0_ok by apply land_255_range. cbn [bind]. now rewrite step8_byte.
Qed.
Lemma be_lead_ok buf addr : Forall byte buf -> forall n next c,
  0 <= next -> next + Z.of_nat n <= zlen buf -> 0 <= c < 2^32 ->
  exists k m, n = (k + m)%nat /\ (m = O \/ Z.land (addr + (next + Z.of_nat k)) 7 = 0) /\
    be_lead buf addr n next c = Ok (next + Z.of_nat k, m, feed c (zslice buf next (Z.of_nat k))).
Proof.
  intros F. induction n as [|n IH]; intros next c H1 H2 Hc; cbn [be_lead].
  - exists O, O. split; [reflexivity|]. split; [auto|]. rewrite zslice_0. do 3 f_equal; lia.
  - destruct (Z.eqb_spec (Z.land (addr + next) 7) 0).
    + exists O, (S n). split; [reflexivity|]. rewrite zslice_0. split; [right; rewrite Z.add_0_r; exact e|]. do 3 f_equal; lia.
    + destruct (be_byte_ok buf next c F ltac:(lia) ltac:(lia)) as (b & Hg & Hb & ->). cbn [bind].
      destruct (IH (next + 1) (stepn 8 (Z.lxor c b))) as (k & m & -> & Hm & ->); [lia|lia|now apply range_next|].
      exists (S k), m. split; [reflexivity|]. split; [destruct Hm as [Hm|Hm]; [auto|right; rewrite <- Hm; f_equal; lia]|].
      replace (Z.of_nat (S k)) with (Z.of_nat k + 1) by lia. rewrite (zslice_S _ _ (Z.of_nat k) H1 ltac:(lia) b Hg).
      do 3 f_equal; lia.
Qed.
Lemma be_tail_ok buf : Forall byte buf -> forall n next c,
  0 <= next -> next + Z.of_nat n <= zlen buf -> 0 <= c < 2^32 ->
  be_tail buf n next c = Ok (feed c (zslice buf next (Z.of_nat n))).
Proof.
  intros F. induction n as [|n IH]; intros next c H1 H2 Hc; cbn [be_tail]; [now rewrite zslice_0|].
  destruct (be_byte_ok buf next c F ltac:(lia) ltac:(lia)) as (b & Hg & Hb & ->). cbn [bind].
  rewrite IH; [|lia|lia|now apply range_next].
  replace (Z.of_nat (S n)) with (Z.of_nat n + 1) by lia. now rewrite (zslice_S _ _ (Z.of_nat n) H1 ltac:(lia) b Hg).
Qed.
Lemma be_word_ok t buf addr next c : be_table t -> Forall byte buf -> 0 <= next -> next + 8 <= zlen buf ->
  Z.land (addr + next) 7 = 0 -> 0 <= c < 2^32 -> be_word t buf addr next (swap c) = Ok (swap (feed c (zslice buf next 8))).
Proof.
  intros Ht F H1 H2 Ha Hc. unfold be_word, load64_aligned, load64. rewrite Ha. change (0 =? 0) with true. cbn iota.
  replace ((0 <=? next) && (next + 8 <=? zlen buf)) with true by lia. cbn [bind].
  pose proof (Forall_zslice byte buf next 8 F) as Fs. pose proof (zslice_len_Z buf next 8 H1 ltac:(lia) H2) as Hl.
  rewrite (feed_word _ Fs). pose proof (le64_range _ Fs) as Hr. rewrite Hl in Hr. change (8 * 8) with 64 in Hr.
  rewrite (le64_rev _ Fs) by (unfold zlen in Hl; lia).
  replace (8 * length (zslice buf next 8))%nat with 64%nat by (unfold zlen in Hl; lia). rewrite <- swap_lxor.
  set (x := Z.lxor c (le64 (zslice buf next 8))). assert (Hx : 0 <= x < 2^64) by (apply lxor_lt; lia).
  pose proof (shiftr_lt x 64 56 ltac:(lia) Hx) as H56. change (2^(64-56)) with 256 in H56.
  pose proof (swap_byte x 0 ltac:(lia)) as B0. pose proof (swap_byte x 1 ltac:(lia)) as B1. pose proof (swap_byte x 2 ltac:(lia)) as B2.
  pose proof (swap_byte x 3 ltac:(lia)) as B3. pose proof (swap_byte x 4 ltac:(lia)) as B4. pose proof (swap_byte x 5 ltac:(lia)) as B5.
  pose proof (swap_byte x 6 ltac:(lia)) as B6. pose proof (swap_byte x 7 ltac:(lia)) as B7.
  change (8 * 0) with 0 in B0. change (8 * (7 - 0)) with 56 in B0.
  change (8 * 1) with 8 in B1. change (8 * (7 - 1)) with 48 in B1.
  change (8 * 2) with 16 in B2. change (8 * (7 - 2)) with 40 in B2.
  change (8 * 3) with 24 in B3. change (8 * (7 - 3)) with 32 in B3.
  change (8 * 4) with 32 in B4. change (8 * (7 - 4)) with 24 in B4.
  change (8 * 5) with 40 in B5. change (8 * (7 - 5)) with 16 in B5.
  change (8 * 6) with 48 in B6. change (8 * (7 - 6)) with 8 in B6.
  change (8 * 7) with 56 in B7. change (8 * (7 - 7)) with 0 in B7.
  rewrite Z.shiftr_0_r in B0, B7.
  assert (T : Z.shiftr (swap x) 56 = Z.land x 255).
  { rewrite <- B7. symmetry. rewrite land_255. apply Z.mod_small. exact (shiftr_lt (swap x) 64 56 ltac:(lia) (swap_range x)). }
  assert (U : Z.land (Z.shiftr x 56) 255 = Z.shiftr x 56) by (rewrite land_255; apply Z.mod_small; exact H56).
  rewrite ?T, ?B0, ?B1, ?B2, ?B3, ?B4, ?B5, ?B6, ?B7, U.
  rewrite (Ht 7), (Ht 6), (Ht 5), (Ht 4), (Ht 3), (Ht 2), (Ht 1), (Ht 0) by (first [lia|apply land_255_range]).
  cbn [bind]. rewrite <- !swap_lxor, (eight_bytes x Hx). do 2 f_equal.
  apply Z.bits_inj'. intros i _. rewrite !Z.lxor_spec.
  repeat match goal with |- context [Z.to_nat ?k] => let v := eval vm_compute in (Z.to_nat k) in change (Z.to_nat k) with v end.
  repeat match goal with |- context [Z.testbit (stepn ?n ?a) i] => generalize (Z.testbit (stepn n a) i); intros [] end; reflexivity.
Qed.
Lemma be_words_ok t buf addr : be_table t -> Forall byte buf -> forall fuel next len c,
  0 <= next -> 0 <= len -> next + len <= zlen buf -> (len < 8 \/ Z.land (addr + next) 7 = 0) -> 0 <= c < 2^32 ->
  len <= Z.of_nat fuel ->
  exists k, 0 <= k /\ 8 * k <= len < 8 * k + 8 /\
    be_words fuel t buf addr next len (swap c) = Ok (next + 8 * k, len - 8 * k, swap (feed c (zslice buf next (8 * k)))).
Proof.
  intros Ht F. induction fuel as [|fuel IH]; intros next len c H1 H2 H3 Ha Hc Hf; cbn [be_words].
  - replace (len <? 8) with true by lia. exists 0. split; [lia|]. split; [lia|]. rewrite zslice_0. do 3 f_equal; lia.
  - destruct (Z.ltb_spec len 8).
    + exists 0. split; [lia|]. split; [lia|]. rewrite zslice_0. do 3 f_equal; lia.
    + destruct Ha as [Ha|Ha]; [lia|]. rewrite be_word_ok by (assumption || lia). cbn [bind].
      destruct (IH (next + 8) (len - 8) (feed c (zslice buf next 8))) as (k & K1 & K2 & ->); [lia|lia|lia| | |lia|].
      * right. rewrite Z.add_assoc, land7_add. exact Ha.
      * now apply feed_zslice_range.
      * exists (k + 1). split; [lia|]. split; [lia|]. replace (8 * (k + 1)) with (8 + 8 * k) by lia.
        rewrite zslice_split by lia. rewrite feed_app. do 3 f_equal; lia.
Qed.
Lemma be_ok t crc buf addr len : be_table t -> Forall byte buf -> 0 <= crc < 2^32 -> 0 <= len <= zlen buf ->
  crc32_sw_be t crc buf addr len = Ok (crc32c crc (zslice buf 0 len)).
Proof.
  intros Ht F Hc Hl. unfold crc32_sw_be. pose proof (not32_range crc Hc) as Hn.
  destruct (be_lead_ok buf addr F (Z.to_nat len) 0 (not32 crc)) as (k & m & Hk & Ha & ->); [lia|lia|exact Hn|]. cbn [bind].
  assert (R1 := feed_zslice_range buf 0 (Z.of_nat k) _ F Hn).
  rewrite crc32c_feed by (now apply Forall_zslice).
  destruct (Z.ltb_spec (Z.of_nat m) 8) as [H8|H8]; cbn [bind].
  - rewrite be_tail_ok by (assumption || lia). cbn [bind]. do 2 f_equal. rewrite <- feed_app. f_equal.
    replace (zslice buf 0 len) with (zslice buf 0 (Z.of_nat k + Z.of_nat (Z.to_nat (Z.of_nat m)))) by (f_equal; lia).
    rewrite zslice_split by lia. reflexivity.
  - destruct (be_words_ok t buf addr Ht F m (0 + Z.of_nat k) (Z.of_nat m) (feed (not32 crc) (zslice buf 0 (Z.of_nat k))))
      as (q & Q1 & Q2 & ->); [lia|lia|lia|destruct Ha as [->|Ha]; [left; lia|right; exact Ha]|exact R1|lia|]. cbn [bind].
    assert (R2 := feed_zslice_range buf (0 + Z.of_nat k) (8 * q) _ F R1).
    rewrite swap_swap by lia. rewrite u32_small by exact R2. rewrite be_tail_ok by (assumption || lia). cbn [bind].
    do 2 f_equal. rewrite <- !feed_app. f_equal.
    replace (zslice buf 0 len) with (zslice buf 0 (Z.of_nat k + 8 * q + Z.of_nat (Z.to_nat (Z.of_nat m - 8 * q)))) by (f_equal; lia).
    rewrite !zslice_split by lia. rewrite <- app_assoc, Z.add_0_l. reflexivity.
Qed.
