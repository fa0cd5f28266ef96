(** C160: what sc_perf_end prints, in doubles. *)
From Verif Require Import Base PerfDoubleModel.
From Coq Require Import ZifyBool.

(** ** Specification *)
(** The double [x] is the number [v] exactly. *)
Definition is_exactly (x : double) (v : Z) : Prop :=
  match x with
  | S754_zero _ => v = 0
  | S754_finite false m e => if 0 <=? e then v = Zpos m * 2 ^ e else Zpos m = v * 2 ^ (- e)
  | _ => False
  end.

(** No double is nearer to the number [v] than [x]; distances in units of 2^-1074. *)
Definition units (x : double) : option Z :=
  match x with
  | S754_zero _ => Some 0
  | S754_finite s m e => Some ((if s then - Zpos m else Zpos m) * 2 ^ (e + 1074))
  | _ => None
  end.
Definition is_nearest (x : double) (v : Z) : Prop :=
  match units x with
  | None => False
  | Some a => forall y b, valid_binary 53 1024 y = true -> units y = Some b -> Z.abs (a - v * 2 ^ 1074) <= Z.abs (b - v * 2 ^ 1074)
  end.

(** ** Proofs *)
Lemma digits2 p : Zpos (digits2_pos p) = Z.log2 (Zpos p) + 1.
Proof.
  induction p as [p IH|p IH|]; cbn [digits2_pos]; [| |reflexivity].
  - rewrite Pos2Z.inj_succ, IH. rewrite (Pos2Z.inj_xI p), Z.log2_succ_double by lia. lia.
  - rewrite Pos2Z.inj_succ, IH. rewrite (Pos2Z.inj_xO p), Z.log2_double by lia. lia.
Qed.
Lemma fexp_big e : - 1021 <= e -> fexp 53 1024 e = e - 53.
Proof. unfold fexp, emin. lia. Qed.

(** Nothing to round. *)
Lemma round_canon s m e : Z.log2 (Zpos m) = 52 -> -1074 <= e <= 971 ->
  binary_round_aux 53 1024 s (Zpos m) e loc_Exact = S754_finite s m e.
Proof.
  intros Hm He.
  assert (Hs : shr_fexp 53 1024 (Zpos m) e loc_Exact = (Build_shr_record (Zpos m) false false, e)).
  { unfold shr_fexp. cbn [Zdigits2 shr_record_of_loc]. rewrite digits2, Hm, fexp_big by lia.
    replace (52 + 1 + e - 53 - e) with 0 by lia. reflexivity. }
  unfold binary_round_aux. rewrite Hs. cbn [shr_m loc_of_shr_record round_nearest_even]. rewrite Hs. cbn [shr_m].
  rewrite Zle_imp_le_bool by lia. reflexivity.
Qed.

(** Shifting right. *)
Lemma shr_1_m r : 0 <= shr_m r -> shr_m (shr_1 r) = shr_m r / 2.
Proof.
  destruct r as [m a b]. cbn [shr_m]. intros H. destruct m as [|[p|p|]|p]; try lia; cbn [shr_1 shr_m]; try reflexivity.
  - rewrite (Pos2Z.inj_xI p). rewrite Z.add_comm, Z.mul_comm, Z.div_add by lia. reflexivity.
  - rewrite (Pos2Z.inj_xO p). rewrite Z.mul_comm, Z.div_mul by lia. reflexivity.
Qed.
Lemma shr_iter_m n : forall r, 0 <= shr_m r -> shr_m (iter_pos shr_1 n r) = shr_m r / 2 ^ Zpos n.
Proof.
  induction n as [n IH|n IH|]; intros r H; cbn [iter_pos].
  - assert (H1 : 0 <= shr_m (shr_1 r)) by (rewrite shr_1_m by exact H; apply Z.div_pos; lia).
    assert (H2 : 0 <= shr_m (iter_pos shr_1 n (shr_1 r))) by (rewrite IH by exact H1; apply Z.div_pos; lia).
    rewrite IH, IH, shr_1_m by assumption. rewrite !Z.div_div by lia. f_equal.
    rewrite (Pos2Z.inj_xI n). rewrite Z.pow_add_r, Z.pow_twice_r by lia. lia.
  - assert (H2 : 0 <= shr_m (iter_pos shr_1 n r)) by (rewrite IH by exact H; apply Z.div_pos; lia).
    rewrite IH, IH by assumption. rewrite !Z.div_div by lia. f_equal.
    rewrite (Pos2Z.inj_xO n). rewrite Z.pow_twice_r. lia.
  - rewrite shr_1_m by exact H. reflexivity.
Qed.

(** What the two bits kept while shifting right say about the bits lost. *)
Definition shifted (v n : Z) (r : shr_record) : Prop := exists rem, v = shr_m r * 2 ^ n + rem /\ 0 <= shr_m r /\ 0 <= rem < 2 ^ n /\
  match shr_r r, shr_s r with
  | false, false => rem = 0
  | false, true => 0 < rem /\ 2 * rem < 2 ^ n
  | true, false => 2 * rem = 2 ^ n
  | true, true => 2 ^ n < 2 * rem
  end.
Lemma shifted_1 v n r : 0 <= n -> shifted v n r -> shifted v (n + 1) (shr_1 r).
Proof.
  intros Hn (rem & E & P & B & S). destruct r as [m a b]. cbn [shr_m shr_r shr_s] in *.
  assert (H2 : 2 ^ (n + 1) = 2 * 2 ^ n) by (rewrite Z.pow_add_r by lia; lia). assert (Hp : 0 < 2 ^ n) by lia.
  assert (Hb : exists m' c, m = 2 * m' + (if c : bool then 1 else 0) /\ 0 <= m' /\ shr_1 (Build_shr_record m a b) = Build_shr_record m' c (a || b)).
  { destruct m as [|[q|q|]|q]; try lia; cbn [shr_1]; [exists 0, false|exists (Zpos q), true|exists (Zpos q), false|exists 0, true];
      (split; [lia|split; [lia|reflexivity]]). }
  destruct Hb as (m' & c & -> & Hm & ->). exists ((if c then 2 ^ n else 0) + rem). cbn [shr_m shr_r shr_s]. rewrite H2.
  split; [rewrite E; destruct c; lia|]. split; [exact Hm|]. split; [destruct c; lia|].
  destruct c, a, b; cbn [orb]; lia.
Qed.
Lemma shifted_iter v k : forall n r, 0 <= n -> shifted v n r -> shifted v (n + Zpos k) (iter_pos shr_1 k r).
Proof.
  induction k as [k IH|k IH|]; intros n r Hn H; cbn [iter_pos].
  - replace (n + Z.pos k~1) with (n + 1 + Zpos k + Zpos k) by lia. apply IH; [lia|]. apply IH; [lia|]. now apply shifted_1.
  - replace (n + Z.pos k~0) with (n + Zpos k + Zpos k) by lia. apply IH; [lia|]. now apply IH.
  - now apply shifted_1.
Qed.
Lemma shifted_round v n r : shifted v n r -> 2 * Z.abs (round_nearest_even (shr_m r) (loc_of_shr_record r) * 2 ^ n - v) <= 2 ^ n.
Proof.
  intros (rem & E & P & B & S). destruct r as [m a b]. cbn [shr_m shr_r shr_s loc_of_shr_record] in *.
  destruct a, b; cbn [round_nearest_even]; try destruct (Z.even m); rewrite ?Z.mul_add_distr_r; lia.
Qed.
(** A multiple of 2^n that is off by half of 2^n at most, for a number of 53 + n bits. *)
Lemma nearest_core v n z k j : 0 <= n -> 2 ^ (52 + n) <= v -> 2 * Z.abs (z * 2 ^ n - v) <= 2 ^ n -> 0 <= k < 2 ^ 53 -> 0 <= j ->
  Z.abs (z * 2 ^ n - v) <= Z.abs (k * 2 ^ j - v).
Proof.
  intros Hn Hv Hz Hk Hj.
  assert (A : forall c, Z.abs (z * 2 ^ n - v) <= Z.abs (c * 2 ^ n - v)).
  { intro c. assert (Hp : 0 < 2 ^ n) by lia. destruct (Z.lt_trichotomy c z) as [H|[-> |H]]; [|lia|].
    - assert (c * 2 ^ n <= z * 2 ^ n - 2 ^ n) by nia. lia.
    - assert (z * 2 ^ n + 2 ^ n <= c * 2 ^ n) by nia. lia. }
  destruct (Z.le_gt_cases n j) as [H|H].
  - replace (k * 2 ^ j) with (k * 2 ^ (j - n) * 2 ^ n) by (rewrite <- Z.mul_assoc, <- Z.pow_add_r by lia; do 2 f_equal; lia). apply A.
  - specialize (A (2 ^ 52)). rewrite <- Z.pow_add_r in A by lia.
    assert (B : k * 2 ^ j < 2 ^ (52 + n)); [|lia].
    apply Z.lt_le_trans with (2 ^ 53 * 2 ^ j); [apply Z.mul_lt_mono_pos_r; lia|]. rewrite <- Z.pow_add_r by lia. apply Z.pow_le_mono_r; lia.
Qed.

(** A number below 2^64 becomes a finite double. *)
Lemma dbl_small v : 0 < v -> Z.log2 v <= 52 -> exists m, dbl v = S754_finite false m (Z.log2 v - 52) /\ Zpos m = v * 2 ^ (52 - Z.log2 v).
Proof.
  intros Hv Hl. destruct v as [|p|p]; try lia. pose proof (Z.log2_nonneg (Zpos p)) as Hn.
  unfold dbl, binary_normalize, binary_round. rewrite digits2, fexp_big by lia. unfold shl_align.
  replace (Z.log2 (Zpos p) + 1 + 0 - 53 - 0) with (Z.log2 (Zpos p) - 52) by lia.
  destruct (Z.log2 (Zpos p) - 52) as [|q|q] eqn:E; try lia.
  - exists p. replace (52 - Z.log2 (Zpos p)) with 0 by lia. split; [|lia]. apply round_canon; lia.
  - exists (shift_pos q p). assert (Hq : Zpos (shift_pos q p) = Zpos p * 2 ^ (52 - Z.log2 (Zpos p))).
    { rewrite shift_pos_correct, Zpower_pos_nat, Zpower_nat_Z, positive_nat_Z. rewrite Z.mul_comm. f_equal. f_equal. lia. }
    split; [|exact Hq]. replace (Z.log2 (Zpos p) + 1 + 0 - 53) with (Z.neg q) by lia.
    apply round_canon; [|lia]. rewrite Hq, <- Z.shiftl_mul_pow2 by lia. rewrite Z.log2_shiftl by lia. lia.
Qed.

Lemma dbl_large v : 52 < Z.log2 v <= 63 -> exists m e, dbl v = S754_finite false m e /\ Z.log2 (Zpos m) = 52 /\ 0 <= e <= 12 /\
  exists z, Zpos m * 2 ^ e = z * 2 ^ (Z.log2 v - 52) /\ 2 * Z.abs (z * 2 ^ (Z.log2 v - 52) - v) <= 2 ^ (Z.log2 v - 52).
Proof.
  intros Hl. assert (Hv : 0 < v) by (destruct (Z.lt_ge_cases 0 v); [assumption|]; rewrite Z.log2_nonpos in Hl; lia).
  destruct v as [|p|p]; try lia.
  unfold dbl, binary_normalize, binary_round. rewrite digits2, fexp_big by lia. unfold shl_align.
  replace (Z.log2 (Zpos p) + 1 + 0 - 53 - 0) with (Z.log2 (Zpos p) - 52) by lia.
  destruct (Z.log2 (Zpos p) - 52) as [|q|q] eqn:E; try lia.
  unfold binary_round_aux. unfold shr_fexp at 1. cbn [Zdigits2 shr_record_of_loc]. rewrite digits2, fexp_big by lia.
  replace (Z.log2 (Zpos p) + 1 + 0 - 53 - 0) with (Zpos q) by lia. unfold shr at 1.
  set (r := iter_pos shr_1 q _).
  assert (Hr : shr_m r = Zpos p / 2 ^ Zpos q) by (unfold r; rewrite shr_iter_m; cbn [shr_m]; [reflexivity|lia]).
  pose proof (Z.log2_spec (Zpos p) Hv) as Hs.
  assert (Hb : 2 ^ 52 <= shr_m r < 2 ^ 53).
  { rewrite Hr. replace (Z.succ (Z.log2 (Zpos p))) with (53 + Zpos q) in Hs by lia. replace (Z.log2 (Zpos p)) with (52 + Zpos q) in Hs by lia.
    rewrite !Z.pow_add_r in Hs by lia. split; [apply Z.div_le_lower_bound; lia|apply Z.div_lt_upper_bound; lia]. }
  set (z := round_nearest_even (shr_m r) (loc_of_shr_record r)).
  assert (Hz : 2 ^ 52 <= z <= 2 ^ 53).
  { unfold z, round_nearest_even. destruct (loc_of_shr_record r) as [|[]]; try lia. destruct (Z.even _); lia. }
  assert (Hx : 2 * Z.abs (z * 2 ^ Zpos q - Zpos p) <= 2 ^ Zpos q).
  { apply (shifted_round (Zpos p) (Zpos q) r). unfold r. apply (shifted_iter (Zpos p) q 0); [lia|]. exists 0. cbn [shr_m shr_r shr_s]. lia. }
  clearbody z. clearbody r. destruct (Z.eq_dec z (2 ^ 53)) as [->|Hne].
  - unfold shr_fexp. change (Zdigits2 (2 ^ 53)) with 54. rewrite fexp_big by lia.
    replace (54 + (0 + Z.pos q) - 53 - (0 + Z.pos q)) with 1 by lia. cbn [shr iter_pos].
    change (shr_m (shr_1 (shr_record_of_loc (2 ^ 53) loc_Exact))) with (2 ^ 52). change (2 ^ 52) with (Zpos 4503599627370496). cbv iota.
    rewrite Zle_imp_le_bool by lia. do 2 eexists. split; [reflexivity|]. split; [reflexivity|]. split; [lia|].
    exists (2 ^ 53). split; [|exact Hx]. rewrite !Z.add_0_l. rewrite (Z.pow_add_r 2 (Zpos q) 1) by lia. lia.
  - destruct z as [|z|z]; try lia. assert (Hlog : Z.log2 (Zpos z) = 52) by (apply Z.log2_unique; lia).
    unfold shr_fexp. cbn [Zdigits2 shr_record_of_loc]. rewrite digits2, Hlog, fexp_big by lia.
    replace (52 + 1 + (0 + Z.pos q) - 53 - (0 + Z.pos q)) with 0 by lia. cbn [shr shr_m].
    rewrite Zle_imp_le_bool by lia. do 2 eexists. split; [reflexivity|]. split; [exact Hlog|]. split; [lia|].
    exists (Zpos z). split; [reflexivity|exact Hx].
Qed.

Lemma dbl_finite v : 0 < v < 2 ^ 64 -> exists m e, dbl v = S754_finite false m e /\ Z.log2 (Zpos m) = 52 /\ -52 <= e <= 12.
Proof.
  intros Hv. assert (Hl : Z.log2 v < 64) by (apply Z.log2_lt_pow2; lia).
  destruct (Z.le_gt_cases (Z.log2 v) 52) as [H|H].
  - destruct (dbl_small v) as (m & E & Hm); [lia|exact H|]. pose proof (Z.log2_nonneg v). exists m. eexists. split; [exact E|]. split; [|lia].
    rewrite Hm, <- Z.shiftl_mul_pow2 by lia. rewrite Z.log2_shiftl by lia. lia.
  - destruct (dbl_large v) as (m & e & E & Hm & He & _); [lia|]. exists m, e. split; [exact E|]. split; [exact Hm|lia].
Qed.

Lemma units_valid y b : valid_binary 53 1024 y = true -> units y = Some b -> exists s k j, 0 <= k < 2 ^ 53 /\ 0 <= j /\ b = (if s : bool then - k else k) * 2 ^ j.
Proof.
  intros Hv Hu. destruct y as [s| | |s m e]; try discriminate Hu; injection Hu as <-.
  - exists false, 0, 0. lia.
  - cbn [valid_binary] in Hv. apply andb_true_iff in Hv as [Hc _]. apply Zeq_bool_eq in Hc. rewrite digits2 in Hc.
    unfold fexp, emin in Hc. exists s, (Zpos m), (e + 1074). split; [|split; [lia|reflexivity]]. split; [lia|]. apply Z.log2_lt_pow2; lia.
Qed.
Lemma exact_nearest x v a : units x = Some a -> a = v * 2 ^ 1074 -> is_nearest x v.
Proof. intros E ->. unfold is_nearest. rewrite E. intros y b _ _. lia. Qed.
Lemma dbl_nearest v : 0 <= v < 2 ^ 64 -> is_nearest (dbl v) v.
Proof.
  intros Hv. destruct (Z.eq_dec v 0) as [->|Hne]; [apply (exact_nearest _ 0 0); reflexivity|].
  assert (Hl : Z.log2 v < 64) by (apply Z.log2_lt_pow2; lia). destruct (Z.le_gt_cases (Z.log2 v) 52) as [H|H].
  - destruct (dbl_small v) as (m & E & Hm); [lia|exact H|]. pose proof (Z.log2_nonneg v). rewrite E.
    eapply exact_nearest; [reflexivity|]. rewrite Hm. rewrite <- Z.mul_assoc, <- Z.pow_add_r by lia. do 2 f_equal. lia.
  - destruct (dbl_large v) as (m & e & E & Hm & He & z & Ez & Hz); [lia|]. rewrite E. unfold is_nearest. cbn [units]. intros y b V U.
    destruct (units_valid y b V U) as (s & k & j & Hk & Hj & ->).
    set (n := Z.log2 v - 52) in *. assert (Hn : 0 <= n) by lia.
    replace (Zpos m * 2 ^ (e + 1074)) with (z * 2 ^ (n + 1074)) by (rewrite !Z.pow_add_r by lia; rewrite !Z.mul_assoc; now rewrite Ez).
    assert (Hlow : 2 ^ (52 + (n + 1074)) <= v * 2 ^ 1074).
    { rewrite Z.add_assoc, (Z.pow_add_r 2 (52 + n) 1074) by lia. apply Z.mul_le_mono_nonneg_r; [lia|].
      replace (52 + n) with (Z.log2 v) by (unfold n; lia). apply Z.log2_spec. lia. }
    assert (Hoff : 2 * Z.abs (z * 2 ^ (n + 1074) - v * 2 ^ 1074) <= 2 ^ (n + 1074)).
    { rewrite (Z.pow_add_r 2 n 1074) by lia. replace (z * (2 ^ n * 2 ^ 1074) - v * 2 ^ 1074) with ((z * 2 ^ n - v) * 2 ^ 1074) by ring.
      rewrite Z.abs_mul, (Z.abs_eq (2 ^ 1074)) by lia. rewrite Z.mul_assoc. apply Z.mul_le_mono_nonneg_r; [lia|exact Hz]. }
    assert (C : forall k, 0 <= k < 2 ^ 53 -> Z.abs (z * 2 ^ (n + 1074) - v * 2 ^ 1074) <= Z.abs (k * 2 ^ j - v * 2 ^ 1074))
      by (intros k' Hk'; apply nearest_core; auto; lia).
    destruct s; [|now apply C]. specialize (C 0 ltac:(lia)). rewrite Z.mul_0_l, Z.sub_0_l in C.
    assert (0 <= k * 2 ^ j) by lia. assert (0 <= v * 2 ^ 1074) by lia. lia.
Qed.

(** A double divided by itself is 1. *)
Definition done : double := S754_finite false 4503599627370496 (-52).
Lemma ddiv_same m e : ddiv (S754_finite false m e) (S754_finite false m e) = done.
Proof.
  unfold ddiv, SFdiv, SFdiv_core_binary. cbn [Zdigits2].
  replace (Zpos (digits2_pos m) + e - (Zpos (digits2_pos m) + e)) with 0 by lia. replace (e - e) with 0 by lia.
  change (Z.min (fexp 53 1024 0) 0) with (-53). change (0 - -53) with 53. cbv iota.
  rewrite Z.shiftl_mul_pow2 by lia.
  assert (Hd : Z.div_eucl (Zpos m * 2 ^ 53) (Zpos m) = (2 ^ 53, 0)).
  { pose proof (Z.div_mul (2 ^ 53) (Zpos m)) as H1. pose proof (Z_mod_mult (2 ^ 53) (Zpos m)) as H2. unfold Z.div, Z.modulo in H1, H2.
    rewrite (Z.mul_comm (Zpos m)). destruct (Z.div_eucl (2 ^ 53 * Zpos m) (Zpos m)) as [q r]. rewrite H1, H2 by lia. reflexivity. }
  rewrite Hd. assert (Hloc : new_location (Zpos m) 0 = loc_Exact) by (unfold new_location; destruct (Z.even _); reflexivity).
  rewrite Hloc. vm_compute. reflexivity.
Qed.

(** A double times 1 is itself. *)
Lemma dmul_one m e : Z.log2 (Zpos m) = 52 -> -1022 <= e <= 971 -> dmul (S754_finite false m e) done = S754_finite false m e.
Proof.
  intros Hm He. unfold dmul, SFmul, done. cbn [xorb].
  assert (Hz : Zpos (m * 4503599627370496) = Z.shiftl (Zpos m) 52) by (rewrite Z.shiftl_mul_pow2 by lia; reflexivity).
  assert (Hs : shr_fexp 53 1024 (Zpos (m * 4503599627370496)) (e + -52) loc_Exact = (Build_shr_record (Zpos m) false false, e)).
  { unfold shr_fexp. cbn [Zdigits2 shr_record_of_loc]. rewrite digits2, Hz, Z.log2_shiftl, Hm, fexp_big by lia.
    replace (52 + 52 + 1 + (e + -52) - 53 - (e + -52)) with 52 by lia. rewrite <- Hz, Pos.mul_comm.
    cbn [shr]. apply f_equal2; [reflexivity|lia]. }
  assert (Hs2 : shr_fexp 53 1024 (Zpos m) e loc_Exact = (Build_shr_record (Zpos m) false false, e)).
  { unfold shr_fexp. cbn [Zdigits2 shr_record_of_loc]. rewrite digits2, Hm, fexp_big by lia.
    replace (52 + 1 + e - 53 - e) with 0 by lia. reflexivity. }
  unfold binary_round_aux. rewrite Hs. cbn [shr_m loc_of_shr_record round_nearest_even]. rewrite Hs2. cbn [shr_m].
  rewrite Zle_imp_le_bool by lia. reflexivity.
Qed.

Lemma printed_all v enabled : 0 <= v < 2 ^ 64 -> 0 < enabled < 2 ^ 64 -> dprinted (v, enabled, enabled) = (dbl v, dbl 100).
Proof.
  intros Hv He. unfold dprinted, dread. replace ((enabled >? 0) && (enabled >? 0)) with true by lia.
  destruct (dbl_finite enabled He) as (m & e & -> & _). rewrite ddiv_same. cbv iota. f_equal.
  destruct (Z.eq_dec v 0) as [->|Hne]; [reflexivity|].
  destruct (dbl_finite v) as (m' & e' & -> & Hm' & He'); [lia|]. rewrite dmul_one by lia. reflexivity.
Qed.

(** ** C160 *)
(** A counter that ran all the time: the value printed is the double nearest
    to the count, and the count itself up to 2^53; the active share is 100. *)
Theorem perf_double_exact :
  forall v enabled, 0 <= v < 2 ^ 64 -> 0 < enabled < 2 ^ 64 ->
    exists value share, dprinted (v, enabled, enabled) = (value, share) /\ is_exactly share 100 /\
      is_nearest value v /\ (v <= 2 ^ 53 -> is_exactly value v).
Proof.
  intros v enabled Hv He. exists (dbl v), (dbl 100). split; [|split; [vm_compute; reflexivity|split; [now apply dbl_nearest|]]].
  - now apply printed_all.
  - intros H53. destruct (Z.eq_dec v 0) as [->|Hne]; [reflexivity|]. destruct (Z.eq_dec v (2 ^ 53)) as [->|Hn2]; [vm_compute; reflexivity|].
    assert (Hl : Z.log2 v < 53) by (apply Z.log2_lt_pow2; lia).
    destruct (dbl_small v) as (m & -> & Hm); [lia|lia|]. cbn [is_exactly].
    destruct (Z.leb_spec 0 (Z.log2 v - 52)).
    + replace (Z.log2 v) with 52 in * by lia. cbn in Hm |- *. lia.
    + rewrite Hm. f_equal. f_equal. lia.
Qed.
Print Assumptions perf_double_exact.
Example perf_double_exact_ex :
  dprinted (7, 20, 20) = (S754_finite false 7881299347898368 (-50), S754_finite false 7036874417766400 (-46)) /\
  is_exactly (S754_finite false 7881299347898368 (-50)) 7 /\ dprinted (100, 20, 10) = (dbl 50, dbl 50).
Proof. vm_compute. auto. Qed.
(** A counter that the kernel gave no time: the count is printed as it is, with
    a share of 0. *)
Theorem perf_double_untimed :
  forall v enabled run, 0 <= v < 2 ^ 64 -> enabled = 0 \/ run = 0 ->
    exists value share, dprinted (v, enabled, run) = (value, share) /\ is_exactly share 0 /\
      is_nearest value v /\ (v <= 2 ^ 53 -> is_exactly value v).
Proof.
  intros v enabled run Hv H. exists (dbl v), (S754_zero false).
  destruct (perf_double_exact v 1 Hv) as (value & share & E & _ & N & X); [lia|].
  assert (Ev : value = dbl v) by (rewrite (printed_all v 1) in E by lia; now injection E as <- _). subst value.
  split; [|split; [reflexivity|auto]]. unfold dprinted, dread. replace ((enabled >? 0) && (run >? 0)) with false by lia.
  f_equal. destruct (Z.eq_dec v 0) as [->|Hne]; [reflexivity|]. change (dbl 1) with done.
  destruct (dbl_finite v) as (m' & e' & -> & Hm' & He'); [lia|]. rewrite dmul_one by lia. reflexivity.
Qed.
Print Assumptions perf_double_untimed.
Example perf_double_untimed_ex : dprinted (7, 20, 0) = (dbl 7, S754_zero false).
Proof. vm_compute. reflexivity. Qed.

(** ** Counters that ran part of the time *)
(** The double [x] is the fraction a/d exactly. *)
Definition is_ratio (x : double) (a d : Z) : Prop :=
  match x with
  | S754_zero _ => a = 0
  | S754_finite false m e => if 0 <=? e then a = d * (Zpos m * 2 ^ e) else d * Zpos m = a * 2 ^ (- e)
  | _ => False
  end.
(** The double 2^-k. *)
Definition dpow (k : Z) : double := S754_finite false 4503599627370496 (-52 - k).
Lemma ddiv_pow m e k : 0 <= k <= 64 -> ddiv (S754_finite false m e) (S754_finite false m (e + k)) = dpow k.
Proof.
  intros Hk. unfold ddiv, SFdiv, SFdiv_core_binary. cbn [Zdigits2].
  replace (Zpos (digits2_pos m) + e - (Zpos (digits2_pos m) + (e + k))) with (- k) by lia. replace (e - (e + k)) with (- k) by lia.
  rewrite fexp_big by lia. replace (Z.min (- k - 53) (- k)) with (- k - 53) by lia. replace (- k - (- k - 53)) with 53 by lia. cbv iota.
  rewrite Z.shiftl_mul_pow2 by lia.
  assert (Hd : Z.div_eucl (Zpos m * 2 ^ 53) (Zpos m) = (2 ^ 53, 0)).
  { pose proof (Z.div_mul (2 ^ 53) (Zpos m)) as H1. pose proof (Z_mod_mult (2 ^ 53) (Zpos m)) as H2. unfold Z.div, Z.modulo in H1, H2.
    rewrite (Z.mul_comm (Zpos m)). destruct (Z.div_eucl (2 ^ 53 * Zpos m) (Zpos m)) as [q r]. rewrite H1, H2 by lia. reflexivity. }
  rewrite Hd. assert (Hloc : new_location (Zpos m) 0 = loc_Exact) by (unfold new_location; destruct (Z.even _); reflexivity).
  rewrite Hloc. change (2 ^ 53) with (Zpos 9007199254740992).
  assert (Hs : shr_fexp 53 1024 (Zpos 9007199254740992) (- k - 53) loc_Exact = (Build_shr_record (Zpos 4503599627370496) false false, -52 - k)).
  { unfold shr_fexp. cbn [shr_record_of_loc]. change (Zdigits2 (Zpos 9007199254740992)) with 54. rewrite fexp_big by lia.
    replace (54 + (- k - 53) - 53 - (- k - 53)) with 1 by lia. cbn [shr]. apply f_equal2; [reflexivity|lia]. }
  unfold binary_round_aux. rewrite Hs. cbn [shr_m loc_of_shr_record round_nearest_even].
  assert (Hs2 : shr_fexp 53 1024 (Zpos 4503599627370496) (-52 - k) loc_Exact = (Build_shr_record (Zpos 4503599627370496) false false, -52 - k)).
  { unfold shr_fexp. cbn [shr_record_of_loc]. change (Zdigits2 (Zpos 4503599627370496)) with 53. rewrite fexp_big by lia.
    replace (53 + (-52 - k) - 53 - (-52 - k)) with 0 by lia. reflexivity. }
  rewrite Hs2. cbn [shr_m]. rewrite Zle_imp_le_bool by lia. reflexivity.
Qed.
Lemma dmul_pow m e k : Z.log2 (Zpos m) = 52 -> -900 <= e <= 900 -> 0 <= k <= 64 ->
  dmul (S754_finite false m e) (dpow k) = S754_finite false m (e - k) /\ dmul (dpow k) (S754_finite false m e) = S754_finite false m (e - k).
Proof.
  intros Hm He Hk.
  assert (Hz : Zpos (m * 4503599627370496) = Z.shiftl (Zpos m) 52) by (rewrite Z.shiftl_mul_pow2 by lia; reflexivity).
  assert (Hs : forall t, t = e - k - 52 -> shr_fexp 53 1024 (Zpos (m * 4503599627370496)) t loc_Exact = (Build_shr_record (Zpos m) false false, e - k)).
  { intros t ->. unfold shr_fexp. cbn [Zdigits2 shr_record_of_loc]. rewrite digits2, Hz, Z.log2_shiftl, Hm, fexp_big by lia.
    replace (52 + 52 + 1 + (e - k - 52) - 53 - (e - k - 52)) with 52 by lia. rewrite <- Hz, Pos.mul_comm.
    cbn [shr]. apply f_equal2; [reflexivity|lia]. }
  assert (Hs2 : shr_fexp 53 1024 (Zpos m) (e - k) loc_Exact = (Build_shr_record (Zpos m) false false, e - k)).
  { unfold shr_fexp. cbn [Zdigits2 shr_record_of_loc]. rewrite digits2, Hm, fexp_big by lia.
    replace (52 + 1 + (e - k) - 53 - (e - k)) with 0 by lia. reflexivity. }
  split; unfold dmul, SFmul, dpow; cbn [xorb]; [|rewrite (Pos.mul_comm 4503599627370496 m)].
  - unfold binary_round_aux. rewrite Hs by lia. cbn [shr_m loc_of_shr_record round_nearest_even]. rewrite Hs2. cbn [shr_m].
    rewrite Zle_imp_le_bool by lia. reflexivity.
  - unfold binary_round_aux. rewrite Hs by lia. cbn [shr_m loc_of_shr_record round_nearest_even]. rewrite Hs2. cbn [shr_m].
    rewrite Zle_imp_le_bool by lia. reflexivity.
Qed.

(** A counter that ran for a power of two of the time it was enabled: what is printed is exactly the count times that share (see
    perf_value_refuted for why it should be the count divided by it), and the share in percent. *)
Theorem perf_double_part : forall v run k,
  0 <= v < 2 ^ 53 -> 0 < run -> 0 <= k -> run * 2 ^ k < 2 ^ 53 ->
  exists value share, dprinted (v, run * 2 ^ k, run) = (value, share) /\ is_ratio share 100 (2 ^ k) /\ is_ratio value v (2 ^ k).
Proof.
  intros v run k Hv Hr Hk He.
  assert (Hp : 0 < 2 ^ k) by lia. assert (Hre : 0 < run * 2 ^ k) by nia.
  assert (Hl : Z.log2 (run * 2 ^ k) = Z.log2 run + k) by (rewrite Z.log2_mul_pow2 by lia; lia).
  pose proof (Z.log2_nonneg run) as Hn. assert (Hl2 : Z.log2 (run * 2 ^ k) < 53) by (apply Z.log2_lt_pow2; lia).
  destruct (dbl_small run) as (m & E1 & M1); [lia|lia|]. destruct (dbl_small (run * 2 ^ k)) as (m2 & E2 & M2); [lia|lia|].
  assert (Em : m2 = m).
  { assert (Zpos m2 = Zpos m); [|congruence]. rewrite M1, M2, Hl, <- Z.mul_assoc, <- Z.pow_add_r by lia. do 2 f_equal. lia. } subst m2.
  assert (D : ddiv (dbl run) (dbl (run * 2 ^ k)) = dpow k).
  { rewrite E1, E2, Hl. replace (Z.log2 run + k - 52) with (Z.log2 run - 52 + k) by lia. apply ddiv_pow. lia. }
  unfold dprinted, dread. replace ((run * 2 ^ k >? 0) && (run >? 0)) with true by lia. cbv iota. rewrite D.
  assert (H100 : dmul (dpow k) (dbl 100) = S754_finite false 7036874417766400 (-46 - k)).
  { change (dbl 100) with (S754_finite false 7036874417766400 (-46)). apply dmul_pow; [reflexivity|lia|lia]. }
  rewrite H100. eexists. eexists. split; [reflexivity|]. split.
  - cbn [is_ratio]. replace (0 <=? -46 - k) with false by lia. replace (- (-46 - k)) with (46 + k) by lia. rewrite Z.pow_add_r by lia. lia.
  - destruct (Z.eq_dec v 0) as [->|Hne].
    + change (dbl 0) with (S754_zero false). reflexivity.
    + assert (Hl3 : Z.log2 v < 53) by (apply Z.log2_lt_pow2; lia). pose proof (Z.log2_nonneg v) as Hn3.
      destruct (dbl_small v) as (m3 & -> & M3); [lia|lia|].
      assert (L3 : Z.log2 (Zpos m3) = 52) by (rewrite M3, Z.log2_mul_pow2 by lia; lia).
      rewrite (proj1 (dmul_pow m3 (Z.log2 v - 52) k L3 ltac:(lia) ltac:(lia))).
      change (dadd dzero (S754_finite false m3 (Z.log2 v - 52 - k))) with (S754_finite false m3 (Z.log2 v - 52 - k)). cbn [is_ratio].
      destruct (Z.leb_spec 0 (Z.log2 v - 52 - k)) as [H|H].
      * replace k with 0 in * by lia. replace (Z.log2 v) with 52 in * by lia. cbn in M3 |- *. lia.
      * rewrite M3. replace (- (Z.log2 v - 52 - k)) with (k + (52 - Z.log2 v)) by lia. rewrite Z.pow_add_r by lia. ring.
Qed.
Print Assumptions perf_double_part.
(** 1000 counted in a quarter of the time: 250 is printed, with 25 percent. *)
Example perf_double_part_ex : dprinted (1000, 5 * 2 ^ 2, 5) = (dbl 250, dbl 25) /\ is_ratio (dbl 250) 1000 (2 ^ 2).
Proof. split; vm_compute; reflexivity. Qed.
