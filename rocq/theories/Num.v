(** Arithmetic facts shared by several proofs. *)
From Verif Require Import Base.

Lemma lor_add a b k : 0 <= k -> 0 <= a < 2^k -> 0 <= b -> Z.lor (Z.shiftl b k) a = b * 2^k + a.
Proof.
  intros Hk Ha Hb. rewrite <- Z.shiftl_mul_pow2 by lia.
  assert (Hl : Z.land (Z.shiftl b k) a = 0).
  { apply Z.bits_inj'. intros i Hi. rewrite Z.land_spec, Z.shiftl_spec, Z.bits_0 by lia.
    destruct (Z.lt_ge_cases i k).
    - rewrite (Z.testbit_neg_r b) by lia. reflexivity.
    - destruct (Z.eq_dec a 0) as [->|]; [rewrite Z.bits_0; apply andb_false_r|].
      rewrite (Z.bits_above_log2 a); [apply andb_false_r|lia|].
      assert (Z.log2 a < k) by (apply Z.log2_lt_pow2; lia). lia. }
  rewrite <- Z.lxor_lor by exact Hl. symmetry. now apply Z.add_nocarry_lxor.
Qed.
