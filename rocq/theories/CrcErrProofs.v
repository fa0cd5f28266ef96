(** Error detection of CRC-32C. *)
From Verif Require Import Base BufProofs CrcModel CrcSpec CrcProofs.
From Coq Require Import Znumtheory.

(** ** The register step is injective *)
Lemma step_zero x : 0 <= x < 2^32 -> step x = 0 -> x = 0.
Proof.
  intros Hx H. unfold step, shift_in in H. rewrite xorb_false_r in H. apply Z.lxor_eq in H.
  rewrite Z.shiftr_div_pow2 in H by lia. change (2^1) with 2 in H. pose proof (Zmod_odd x) as Ho.
  destruct (Z.odd x).
  - unfold castagnoli in H. Z.div_mod_to_equations; lia.
  - Z.div_mod_to_equations; lia.
Qed.
Lemma step_inj x y : 0 <= x < 2^32 -> 0 <= y < 2^32 -> step x = step y -> x = y.
Proof.
  intros Hx Hy H. apply Z.lxor_eq. apply step_zero; [apply lxor_lt; lia|].
  rewrite step_lxor, H. apply Z.lxor_nilpotent.
Qed.
Lemma stepn_inj n : forall x y, 0 <= x < 2^32 -> 0 <= y < 2^32 -> stepn n x = stepn n y -> x = y.
Proof.
  induction n as [|n IH]; intros x y Hx Hy H; [exact H|]. rewrite !stepn_S in H.
  apply step_inj; try assumption. apply IH; try apply step_range32; assumption.
Qed.
Lemma b2z_32 b : 0 <= Z.b2z b < 2^32.
Proof. destruct b; cbn; lia. Qed.
Lemma shift_in_range c b : 0 <= c < 2^32 -> 0 <= shift_in c b < 2^32.
Proof. intro H. rewrite shift_in_step. apply step_range32, lxor_lt; [lia|exact H|apply b2z_32]. Qed.
Lemma fold_range l : forall c, 0 <= c < 2^32 -> 0 <= fold_left shift_in l c < 2^32.
Proof. induction l as [|b l IH]; intros c H; [exact H|]. cbn [fold_left]. apply IH, shift_in_range, H. Qed.
Lemma fold_inj l : forall x y, 0 <= x < 2^32 -> 0 <= y < 2^32 -> fold_left shift_in l x = fold_left shift_in l y -> x = y.
Proof.
  induction l as [|b l IH]; intros x y Hx Hy H; [exact H|]. cbn [fold_left] in H.
  apply IH in H; [|apply shift_in_range; assumption|apply shift_in_range; assumption]. rewrite !shift_in_step in H.
  apply step_inj in H; [|apply lxor_lt; auto using b2z_32; lia|apply lxor_lt; auto using b2z_32; lia].
  apply (f_equal (fun z => Z.lxor z (Z.b2z b))) in H. now rewrite !Z.lxor_assoc, Z.lxor_nilpotent, !Z.lxor_0_r in H.
Qed.

(** ** The difference of two messages *)
Fixpoint diff (a b : list bool) : list bool :=
  match a, b with x :: a, y :: b => xorb x y :: diff a b | _, _ => [] end.
Lemma fold_diff a : forall b x y, length a = length b ->
  Z.lxor (fold_left shift_in a x) (fold_left shift_in b y) = fold_left shift_in (diff a b) (Z.lxor x y).
Proof.
  induction a as [|p a IH]; intros [|q b] x y Hl; try discriminate Hl; [reflexivity|]. cbn [fold_left diff].
  rewrite IH by (cbn in Hl; lia). f_equal. rewrite !shift_in_step, <- step_lxor. f_equal.
  apply Z.bits_inj'. intros i _. rewrite !Z.lxor_spec. replace (Z.b2z (xorb p q)) with (Z.lxor (Z.b2z p) (Z.b2z q)) by (destruct p, q; reflexivity).
  rewrite Z.lxor_spec. destruct (Z.testbit x i), (Z.testbit y i), (Z.testbit (Z.b2z p) i), (Z.testbit (Z.b2z q) i); reflexivity.
Qed.
Lemma diff_app a1 : forall b1 a2 b2, length a1 = length b1 -> diff (a1 ++ a2) (b1 ++ b2) = diff a1 b1 ++ diff a2 b2.
Proof. induction a1 as [|x a IH]; intros [|y b] a2 b2 H; try discriminate H; [reflexivity|]. cbn. f_equal. apply IH. now injection H. Qed.
Fixpoint ones (l : list bool) : nat := match l with [] => O | b :: l => ((if b then 1 else 0) + ones l)%nat end.
Lemma ones_diff a : forall b, ones (diff a b) = hamming a b.
Proof. induction a as [|x a IH]; intros [|y b]; try reflexivity. cbn. now rewrite IH. Qed.
Lemma diff_len a : forall b, length a = length b -> length (diff a b) = length a.
Proof. induction a as [|x a IH]; intros [|y b] H; try discriminate H; [reflexivity|]. cbn. f_equal. apply IH. now injection H. Qed.
Lemma bits_len m : length (bits m) = (8 * length m)%nat.
Proof.
  induction m as [|b m IH]; [reflexivity|]. rewrite bits_cons, app_length, IH. unfold byte_bits. rewrite map_length, seq_length.
  cbn [length]. lia.
Qed.
Lemma crc_eq_diff c m1 m2 : length m1 = length m2 -> 0 <= c < 2^32 -> crc32c c m1 = crc32c c m2 ->
  fold_left shift_in (diff (bits m1) (bits m2)) 0 = 0.
Proof.
  intros Hl Hc H. unfold crc32c in H.
  assert (E : fold_left shift_in (bits m1) (Z.lxor c 0xffffffff) = fold_left shift_in (bits m2) (Z.lxor c 0xffffffff)).
  { apply (f_equal (fun z => Z.lxor z 0xffffffff)) in H. now rewrite !Z.lxor_assoc, Z.lxor_nilpotent, !Z.lxor_0_r in H. }
  pose proof (fold_diff (bits m1) (bits m2) (Z.lxor c 0xffffffff) (Z.lxor c 0xffffffff) ltac:(now rewrite !bits_len, Hl)) as D.
  rewrite E, !Z.lxor_nilpotent in D. now symmetry.
Qed.
Lemma fold_zeros n : forall c, fold_left shift_in (repeat false n) c = stepn n c.
Proof.
  induction n as [|n IH]; intro c; [reflexivity|]. cbn [repeat fold_left]. rewrite IH, stepn_S, shift_in_step. f_equal. f_equal.
  apply Z.lxor_0_r.
Qed.

(** ** Bursts *)
Lemma fold_number a : exists v, 0 <= v < 2^Z.of_nat (length a) /\ (v = 0 -> a = repeat false (length a)) /\
  forall c, fold_left shift_in a c = stepn (length a) (Z.lxor c v).
Proof.
  induction a as [|b a (v & Hv & Hn & IH)].
  - exists 0. split; [cbn; lia|]. split; [reflexivity|]. intro c. now rewrite Z.lxor_0_r.
  - set (w := 2 * v + Z.b2z b). assert (Hb : 0 <= Z.b2z b <= 1) by (destruct b; cbn; lia).
    exists w. cbn [length]. split; [|split].
    + replace (Z.of_nat (S (length a))) with (Z.of_nat (length a) + 1) by lia. rewrite Z.pow_add_r by lia. unfold w. lia.
    + intro H0. unfold w in H0. cbn [repeat]. f_equal; [destruct b; [cbn [Z.b2z] in H0; lia|reflexivity]|]. apply Hn. lia.
    + intro c. cbn [fold_left]. rewrite IH, stepn_S, shift_in_step. f_equal.
      rewrite (split_bits w 1) by lia. change (Z.ones 1) with (2^1 - 1).
      replace (Z.land w (2^1 - 1)) with (Z.b2z b).
      2:{ change (2^1-1) with (Z.ones 1). rewrite Z.land_ones by lia. unfold w. change (2^1) with 2. Z.div_mod_to_equations; lia. }
      replace (Z.shiftr w 1) with v by (rewrite Z.shiftr_div_pow2 by lia; unfold w; change (2^1) with 2; Z.div_mod_to_equations; lia).
      rewrite <- Z.lxor_assoc, (step_lxor (Z.lxor c (Z.b2z b))), step_double by lia. reflexivity.
Qed.
Lemma fold_short e : (length e <= 32)%nat -> fold_left shift_in e 0 = 0 -> e = repeat false (length e).
Proof.
  intros Hl H. destruct (fold_number e) as (v & Hv & Hz & Hf). apply Hz. rewrite Hf, Z.lxor_0_l in H.
  assert (2^Z.of_nat (length e) <= 2^32) by (apply Z.pow_le_mono_r; lia).
  apply (stepn_inj (length e)); [lia|lia|]. now rewrite stepn_0.
Qed.
Lemma diff_eq a : forall b, length a = length b -> diff a b = repeat false (length (diff a b)) -> a = b.
Proof.
  induction a as [|x a IH]; intros [|y b] Hl H; try discriminate Hl; [reflexivity|]. cbn in H. injection H as Hx Hr.
  f_equal; [destruct x, y; cbn in Hx; congruence|]. apply IH; [now injection Hl|exact Hr].
Qed.

(** ** Odd numbers of errors *)
Fixpoint par (n : nat) (x : Z) : bool := match n with O => false | S n => xorb (Z.odd x) (par n (Z.shiftr x 1)) end.
Lemma par_lxor n : forall x y, par n (Z.lxor x y) = xorb (par n x) (par n y).
Proof.
  induction n as [|n IH]; intros x y; [reflexivity|]. cbn [par]. rewrite Z.shiftr_lxor, IH. rewrite <- !Z.bit0_odd, Z.lxor_spec.
  destruct (Z.testbit x 0), (Z.testbit y 0), (par n (Z.shiftr x 1)), (par n (Z.shiftr y 1)); reflexivity.
Qed.
Lemma par_last n : forall x, 0 <= x < 2^Z.of_nat n -> par (S n) x = par n x.
Proof.
  induction n as [|n IH]; intros x Hx.
  - assert (x = 0) as -> by (cbn in Hx; lia). reflexivity.
  - cbn [par]. f_equal. apply (IH (Z.shiftr x 1)). pose proof (shiftr_lt x (Z.of_nat (S n)) 1 ltac:(lia) Hx) as H.
    replace (Z.of_nat (S n) - 1) with (Z.of_nat n) in H by lia. exact H.
Qed.
Lemma par_step x : 0 <= x < 2^32 -> par 32 (step x) = par 32 x.
Proof.
  intro Hx. unfold step, shift_in. rewrite xorb_false_r, par_lxor. rewrite <- (par_last 32 x) by exact Hx.
  change (par 33 x) with (xorb (Z.odd x) (par 32 (Z.shiftr x 1))). destruct (Z.odd x).
  - change (par 32 castagnoli) with true. apply xorb_comm.
  - change (par 32 0) with false. apply xorb_comm.
Qed.
Lemma par_fold e : forall c, 0 <= c < 2^32 -> par 32 (fold_left shift_in e c) = xorb (par 32 c) (Nat.odd (ones e)).
Proof.
  induction e as [|b e IH]; intros c Hc; [cbn [fold_left ones]; now rewrite xorb_false_r|]. cbn [fold_left ones].
  rewrite IH by (now apply shift_in_range). rewrite shift_in_step, par_step by (apply lxor_lt; auto using b2z_32; lia).
  rewrite par_lxor, Nat.odd_add. rewrite xorb_assoc. f_equal. f_equal. destruct b; reflexivity.
Qed.

(** ** Two errors: the order of the register step *)
Definition M31 : Z := 2^31 - 1.
Lemma M31_prime : prime M31.
Proof.
  assert (H : forallb (fun a => forallb (fun b => negb (M31 mod (216 * a + b + 2) =? 0)) (zseq 216)) (zseq 216) = true)
    by (vm_compute; reflexivity).
  assert (D : forall k, 2 <= k <= 46341 -> ~ (k | M31)).
  { intros k Hk Hd. apply Z.mod_divide in Hd; [|lia]. rewrite forallb_forall in H.
    specialize (H ((k - 2) / 216)). rewrite forallb_forall in H. specialize (fun h => H h ((k - 2) mod 216)).
    replace (216 * ((k - 2) / 216) + (k - 2) mod 216 + 2) with k in H by (Z.div_mod_to_equations; lia).
    rewrite Hd in H. change (negb (0 =? 0)) with false in H. assert (false = true) by (apply H; apply zseq_in; Z.div_mod_to_equations; lia). discriminate. }
  apply prime_alt. split; [unfold M31; lia|]. intros n Hn Hd. destruct (Z.le_gt_cases n 46341); [apply (D n); [lia|exact Hd]|].
  destruct Hd as [q Hq]. apply (D q); [|exists n; lia]. unfold M31 in *. clear - Hq H0 Hn.
  assert (q < 46341) by nia. assert (1 < q) by nia. lia.
Qed.
Fixpoint squares (k : nat) (m : list Z) : res (list Z) :=
  match k with O => Ok m | S k => let* m := matrix_square m in squares k m end.
Lemma squares_ok k : forall m e, 0 <= e -> is_op m (Z.to_nat e) -> exists m', squares k m = Ok m' /\ is_op m' (Z.to_nat (e * 2^Z.of_nat k)).
Proof.
  induction k as [|k IH]; intros m e He H; cbn [squares].
  - exists m. split; [reflexivity|]. change (2^Z.of_nat 0) with 1. now rewrite Z.mul_1_r.
  - destruct (matrix_square_ok _ _ H) as (m2 & -> & H2). cbn [bind]. destruct (IH m2 (2 * e)) as (m' & E & H').
    + lia.
    + replace (Z.to_nat (2 * e)) with (Z.to_nat e + Z.to_nat e)%nat by lia. exact H2.
    + exists m'. split; [exact E|]. replace (Z.of_nat (S k)) with (1 + Z.of_nat k) by lia. rewrite Z.pow_add_r by lia.
      replace (e * (2^1 * 2 ^ Z.of_nat k)) with (2 * e * 2 ^ Z.of_nat k) by lia. exact H'.
Qed.
Lemma squares_31 : squares 31 one_bit_op = Ok one_bit_op.
Proof. vm_compute. reflexivity. Qed.
Definition zstep (z x : Z) : Z := stepn (Z.to_nat z) x.
Lemma zstep_add a b x : 0 <= a -> 0 <= b -> zstep (a + b) x = zstep b (zstep a x).
Proof. intros Ha Hb. unfold zstep. rewrite <- stepn_add. f_equal. lia. Qed.
Lemma zstep_range z x : 0 <= x < 2^32 -> 0 <= zstep z x < 2^32.
Proof. apply stepn_range32. Qed.
Lemma op_unique m a b : is_op m a -> is_op m b -> stepn a 1 = stepn b 1.
Proof.
  intros [_ Ha] [_ Hb]. specialize (Ha 0%nat ltac:(lia)). specialize (Hb 0%nat ltac:(lia)). rewrite Ha in Hb.
  injection Hb. auto.
Qed.
Lemma zstep_M31 : zstep M31 1 = 1.
Proof.
  destruct (squares_ok 31 one_bit_op 1 ltac:(lia) one_bit_ok) as (m & E & H). rewrite squares_31 in E. injection E as <-.
  assert (F : Z.to_nat (1 * 2 ^ Z.of_nat 31) = (Z.to_nat M31 + 1)%nat).
  { replace (1 * 2^Z.of_nat 31) with (M31 + 1) by (unfold M31; lia). rewrite Z2Nat.inj_add by (unfold M31; lia). reflexivity. }
  rewrite F in H. pose proof (op_unique _ _ _ H one_bit_ok) as U. rewrite stepn_add in U. unfold zstep.
  apply (stepn_inj 1); [apply stepn_range32; lia|lia|exact U].
Qed.
Lemma zstep_mul a n : 0 <= a -> 0 <= n -> zstep a 1 = 1 -> zstep (n * a) 1 = 1.
Proof.
  intros Ha Hn H. revert n Hn. apply natlike_ind; [reflexivity|]. intros n Hn IH.
  replace (Z.succ n * a) with (a + n * a) by lia. rewrite zstep_add by lia. now rewrite H.
Qed.
Lemma order_M31 d : 0 < d < M31 -> zstep d 1 <> 1.
Proof.
  intros Hd H. assert (R : rel_prime d M31).
  { apply rel_prime_sym, prime_rel_prime; [apply M31_prime|]. intro D. apply Z.divide_pos_le in D; lia. }
  destruct (rel_prime_bezout _ _ R) as [u v E]. set (u' := u mod M31). set (w := - v - d * (u / M31)).
  pose proof (Z.mod_pos_bound u M31 ltac:(lia)) as Hu. fold u' in Hu.
  assert (E2 : u' * d = 1 + w * M31).
  { unfold u', w. rewrite Z.mod_eq by lia. lia. }
  assert (Hw : 0 <= w) by nia.
  pose proof (zstep_mul d u' ltac:(lia) ltac:(lia) H) as A. rewrite E2, Z.add_comm, zstep_add in A by nia.
  rewrite zstep_mul in A by (apply zstep_M31 || lia). discriminate A.
Qed.
Lemma ones_0 e : ones e = 0%nat -> e = repeat false (length e).
Proof. induction e as [|[] e IH]; intro H; [reflexivity|discriminate|]. cbn in *. f_equal. auto. Qed.
Lemma ones_S e n : ones e = S n -> exists i r, e = repeat false i ++ true :: r /\ ones r = n.
Proof.
  induction e as [|[] e IH]; intro H; cbn in H; [discriminate| |].
  - exists O, e. split; [reflexivity|]. lia.
  - destruct (IH H) as (i & r & -> & Hr). exists (S i), r. split; [reflexivity|exact Hr].
Qed.
Lemma shift_true c : shift_in c true = step (Z.lxor c 1).
Proof. apply (shift_in_step c true). Qed.
Lemma fold_two e : ones e = 2%nat -> Z.of_nat (length e) <= M31 -> fold_left shift_in e 0 <> 0.
Proof.
  intros H2 Hl H. destruct (ones_S e _ H2) as (i & r & -> & H1). destruct (ones_S r _ H1) as (d & s & -> & H0).
  apply ones_0 in H0. rewrite H0 in *. rewrite !app_length in Hl. cbn [length] in Hl. rewrite app_length, !repeat_length in Hl. cbn [length] in Hl.
  rewrite fold_left_app, fold_zeros, stepn_0 in H. cbn [fold_left] in H. rewrite fold_left_app, fold_zeros in H. cbn [fold_left] in H.
  rewrite fold_zeros, !shift_true, Z.lxor_0_l in H.
  change (stepn d (step 1)) with (stepn (S d) 1) in H. change (step (Z.lxor (stepn (S d) 1) 1)) with (stepn 1 (Z.lxor (stepn (S d) 1) 1)) in H.
  rewrite <- stepn_add in H. set (N := (1 + length s)%nat) in *. rewrite <- (stepn_0 N) in H.
  apply stepn_inj in H; [|apply lxor_lt; [lia|apply stepn_range32; lia|lia]|lia]. apply Z.lxor_eq in H.
  apply (order_M31 (Z.of_nat (S d))); [lia|]. unfold zstep. rewrite Nat2Z.id. exact H.
Qed.
Lemma byte_bits_inj x y : byte x -> byte y -> byte_bits x = byte_bits y -> x = y.
Proof.
  intros Hx Hy H. apply Z.bits_inj'. intros i Hi. unfold byte in *. destruct (Z.lt_ge_cases i 8).
  - apply (f_equal (fun l => nth_error l (Z.to_nat i))) in H. unfold byte_bits in H. rewrite !nth_error_map in H.
    rewrite (nth_error_nth' _ O) in H by (rewrite seq_length; lia). rewrite seq_nth in H by lia. cbn [option_map Nat.add] in H.
    rewrite Z2Nat.id in H by lia. congruence.
  - rewrite (bits_lt_pow2 x 8 i), (bits_lt_pow2 y 8 i) by (assumption || lia). reflexivity.
Qed.
Lemma bits_inj a b : Forall byte a -> Forall byte b -> bits a = bits b -> a = b.
Proof.
  intro Fa. revert b. induction Fa as [|x a Hx _ IH]; intros b Fb H.
  - destruct b; [reflexivity|]. apply (f_equal (@length bool)) in H. rewrite !bits_len in H. cbn in H. lia.
  - destruct b as [|y b]; [apply (f_equal (@length bool)) in H; rewrite !bits_len in H; cbn in H; lia|].
    inversion Fb; subst. rewrite !bits_cons in H. apply app_inj_len in H; [|unfold byte_bits; now rewrite !map_length].
    destruct H as [E1 E2]. f_equal; [now apply byte_bits_inj|now apply IH].
Qed.
