(** Shift-or smearing, used by the next-power-of-two loops. *)
From Verif Require Import Base.

(** [v] has bit j set iff x has one of the bits j .. j+n-1 set. *)
Definition smeared (x n v : Z) : Prop :=
  0 <= v /\ forall j, 0 <= j -> (Z.testbit v j = true <-> exists d, 0 <= d < n /\ Z.testbit x (j + d) = true).

Lemma smeared_1 x : 0 <= x -> smeared x 1 x.
Proof.
  intro Hx. split; [exact Hx|]. intros j Hj. split.
  - intro H. exists 0. rewrite Z.add_0_r. split; [lia|exact H].
  - intros (d & Hd & H). replace d with 0 in H by lia. now rewrite Z.add_0_r in H.
Qed.

Lemma smeared_step x n v : 0 < n -> smeared x n v -> smeared x (2 * n) (Z.lor v (Z.shiftr v n)).
Proof.
  intros Hn [Hv H]. split.
  - apply Z.lor_nonneg. split; [exact Hv|]. now apply Z.shiftr_nonneg.
  - intros j Hj. rewrite Z.lor_spec, Z.shiftr_spec by exact Hj. rewrite orb_true_iff.
    rewrite (H j Hj), (H (j + n)) by lia. split.
    + intros [(d & Hd & Hb)|(d & Hd & Hb)].
      * exists d. split; [lia|exact Hb].
      * exists (n + d). split; [lia|]. now rewrite Z.add_assoc.
    + intros (d & Hd & Hb). destruct (Z.lt_ge_cases d n).
      * left. exists d. split; [lia|exact Hb].
      * right. exists (d - n). split; [lia|]. now replace (j + n + (d - n)) with (j + d) by lia.
Qed.

Lemma smeared_ones x n v : 0 < x -> x < 2^n -> 0 < n -> smeared x n v -> v = 2^(Z.log2 x + 1) - 1.
Proof.
  intros Hx Hlt Hn [Hv H]. pose proof (Z.log2_nonneg x) as Hl.
  replace (2 ^ (Z.log2 x + 1) - 1) with (Z.ones (Z.log2 x + 1)) by (rewrite Z.ones_equiv; lia).
  apply Z.bits_inj'. intros j Hj.
  destruct (Z.lt_ge_cases (Z.log2 x) j) as [Hlj|Hlj].
  - rewrite Z.ones_spec_high by lia. apply not_true_iff_false. rewrite (H j Hj).
    intros (d & Hd & Hb). rewrite Z.bits_above_log2 in Hb; [discriminate|lia|lia].
  - rewrite Z.ones_spec_low by lia. apply H; [exact Hj|].
    exists (Z.log2 x - j). split.
    + apply Z.log2_lt_pow2 in Hlt; [lia|lia].
    + replace (j + (Z.log2 x - j)) with (Z.log2 x) by lia. now apply Z.bit_log2.
Qed.
