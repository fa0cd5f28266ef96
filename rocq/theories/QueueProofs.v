(** Proofs about the sc_queue model. *)
From Coq Require Import ZifyBool ZifyNat.
From Verif Require Import Base QueueModel QueueSpec.

Section Proofs.
Context {A : Type}.
Implicit Types (q : queue A) (l : list A).

Lemma pow2_range k : 0 <= k <= 63 -> 1 <= 2^k <= 2^63.
Proof.
  intros. split; [assert (0 < 2^k) by (apply Z.pow_pos_nonneg; lia); lia|].
  apply Z.pow_le_mono_r; lia.
Qed.

Lemma mask_mod x k : 0 <= k <= 63 -> mask x (2^k) = x mod 2^k.
Proof.
  intros Hk. unfold mask. pose proof (pow2_range k Hk).
  rewrite (u64_small (2^k - 1)) by lia.
  replace (2^k - 1) with (Z.ones k) by (rewrite Z.ones_equiv; lia).
  rewrite Z.land_ones by lia. unfold u64.
  replace (2^64) with (2^k * 2^(64-k)) by (rewrite <- Z.pow_add_r by lia; f_equal; lia).
  assert (0 < 2^(64-k)) by (apply Z.pow_pos_nonneg; lia).
  rewrite Z.rem_mul_r by lia.
  rewrite Z.mul_comm, Z.mod_add by lia. apply Z.mod_mod. lia.
Qed.

(** Wrapping of an index in (-c, 2c). *)
Definition wrap (c a : Z) : Z := if a <? 0 then a + c else if a <? c then a else a - c.

Lemma mod_wrap c a : 0 < c -> - c <= a < 2 * c -> a mod c = wrap c a.
Proof.
  intros Hc Ha. unfold wrap. destruct (a <? 0) eqn:E; [|destruct (a <? c) eqn:E2].
  - symmetry. apply (Z.mod_unique_pos _ _ (-1)); lia.
  - apply Z.mod_small. lia.
  - symmetry. apply (Z.mod_unique_pos _ _ 1); lia.
Qed.

Ltac uw := unfold wrap in *; repeat match goal with
  | |- context [if ?a <? ?b then _ else _] => destruct (Z.ltb_spec a b)
  | H : context [if ?a <? ?b then _ else _] |- _ => destruct (Z.ltb_spec a b)
  end.

Definition qwf q l : Prop :=
  (exists k, 3 <= k <= 63 /\ qcap q = 2^k) /\
  zlen (qelems q) = qcap q /\ 0 <= qfirst q < qcap q /\ zlen l < qcap q /\
  qlast q = wrap (qcap q) (qfirst q + zlen l) /\
  forall i x, zget l i = Some x -> zget (qelems q) (wrap (qcap q) (qfirst q + i)) = Some x.

Lemma mask_wrap q l a : qwf q l -> - qcap q <= a < 2 * qcap q -> mask a (qcap q) = wrap (qcap q) a.
Proof.
  intros ((k & Hk & Hc) & _) Ha. rewrite Hc in *. rewrite mask_mod by lia.
  pose proof (pow2_range k ltac:(lia)). apply mod_wrap; lia.
Qed.

Lemma qcap_range q l : qwf q l -> 8 <= qcap q <= 2^63.
Proof.
  intros ((k & Hk & ->) & _). split.
  - change 8 with (2^3). apply Z.pow_le_mono_r; lia.
  - apply Z.pow_le_mono_r; lia.
Qed.

Lemma size_ok q l : qwf q l -> q_size q = zlen l.
Proof.
  intros Hwf. pose proof (qcap_range _ _ Hwf). pose proof (zlen_nonneg l).
  pose proof Hwf as (_ & _ & Hf & Hl & Hla & _).
  unfold q_size. rewrite (mask_wrap q l) by (auto; rewrite Hla; uw; lia). rewrite Hla. uw; lia.
Qed.

Lemma qwf_shows q l : qwf q l -> q_shows q l.
Proof.
  intros Hwf. pose proof (qcap_range _ _ Hwf) as Hc. pose proof (zlen_nonneg l) as Hl0.
  pose proof Hwf as (_ & He & Hf & Hl & Hla & Hi).
  split; [now apply size_ok|]. split; [|split; [|split]].
  - unfold q_empty. rewrite Hla. split.
    + intros H. apply zlen_zero. uw; lia.
    + intros ->. change (zlen (@nil A)) with 0. uw; lia.
  - intros i x Hx. pose proof (zget_Some_range _ _ _ Hx). unfold q_at.
    rewrite (mask_wrap q l) by (auto; lia). apply zload_ok. auto.
  - intros x r ->. unfold q_peek_first. apply zload_ok.
    specialize (Hi 0 x eq_refl). rewrite Z.add_0_r in Hi.
    replace (wrap (qcap q) (qfirst q)) with (qfirst q) in Hi by (uw; lia). auto.
  - intros x r ->. rewrite zlen_app, zlen_cons, zlen_nil in *. pose proof (zlen_nonneg r).
    unfold q_peek_last. rewrite (mask_wrap q (r ++ [x])) by (auto; rewrite Hla; uw; lia).
    apply zload_ok. rewrite <- (Hi (zlen r) x).
    + f_equal. rewrite Hla. uw; lia.
    + rewrite zget_app2 by lia. now rewrite Z.sub_diag.
Qed.

Lemma init_ok zero : qwf (q_init zero true) [].
Proof.
  split; [exists 3; split; [lia|reflexivity]|]. cbn [q_init qcap qelems qfirst qlast].
  split; [reflexivity|]. split; [lia|]. split; [reflexivity|]. split; [reflexivity|].
  intros i x Hx. apply zget_Some_range in Hx. change (zlen (@nil A)) with 0 in Hx. lia.
Qed.

Lemma expand_ok zero q l ok : qwf q l ->
  exists q', q_expand zero q ok = Ok q' /\ qwf q' l /\
    (qoom q' = false -> zlen l + 1 < qcap q') /\
    (qoom q' = true -> qoom q = true \/ ok = false \/ 2^63 - 1 <= zlen l).
Proof.
  intros Hwf. pose proof (qcap_range _ _ Hwf) as Hc. pose proof (zlen_nonneg l) as Hl0.
  pose proof Hwf as ((k & Hk & Hck) & He & Hf & Hl & Hla & Hi).
  unfold q_expand.
  rewrite (mask_wrap q l) by (auto; rewrite Hla; uw; lia).
  destruct (wrap (qcap q) (qlast q + 1) =? qfirst q) eqn:Efull.
  - assert (Hfull : zlen l = qcap q - 1) by (rewrite Hla in Efull; uw; lia).
    change ((2^64-1)/2) with (2^63-1).
    assert (Hsame : qwf (mk_q true (qcap q) (qfirst q) (qlast q) (qelems q)) l).
    { split; [exists k; auto|]. cbn. auto. }
    destruct (2^63 - 1 <? qcap q) eqn:Emax.
    { eexists; split; [reflexivity|]. split; [exact Hsame|]. cbn [qoom]. split; [discriminate|]. lia. }
    destruct ok.
    2: { eexists; split; [reflexivity|]. split; [exact Hsame|]. cbn [qoom]. split; [discriminate|]. auto. }
    destruct (zlen (qelems q) <? qcap q) eqn:Eub; [lia|].
    rewrite (u64_small (qcap q * 2)) by lia. rewrite (u64_small (qcap q - 1)) by lia.
    assert (Hk63 : k < 63).
    { destruct (Z.eq_dec k 63) as [->|]; [|lia]. rewrite Hck in Emax. change (2^63) with 9223372036854775808 in Emax. lia. }
    rewrite (firstn_all2 (qelems q)) by (unfold zlen in He; lia).
    eexists; split; [reflexivity|]. split.
    + split; [exists (k+1); split; [lia|]; cbn [qcap]; rewrite Hck, Z.pow_add_r by lia; lia|].
      cbn [qcap qelems qfirst qlast]. split; [|split; [lia|split; [lia|split]]].
      * autorewrite with zl. lia.
      * uw; lia.
      * intros i x Hx. pose proof (zget_Some_range _ _ _ Hx) as Hr. specialize (Hi i x Hx).
        rewrite Z.add_0_l. replace (wrap (qcap q * 2) i) with i by (uw; lia).
        destruct (Z_lt_dec (qfirst q + i) (qcap q)) as [Hlt|Hge].
        -- replace (wrap (qcap q) (qfirst q + i)) with (qfirst q + i) in Hi by (uw; lia).
           rewrite zget_app1 by (rewrite zlen_skipn; lia).
           rewrite zget_skipn by lia. rewrite <- Hi. f_equal. lia.
        -- replace (wrap (qcap q) (qfirst q + i)) with (qfirst q + i - qcap q) in Hi by (uw; lia).
           rewrite zget_app2 by (rewrite zlen_skipn; lia). rewrite zlen_skipn.
           rewrite zget_app1 by (rewrite zlen_firstn; lia).
           rewrite zget_firstn. uw; try lia. rewrite <- Hi. f_equal. lia.
    + cbn [qoom qcap]. split; [lia|discriminate].
  - exists q. split; [reflexivity|]. split; [exact Hwf|]. split; [|auto].
    intros _. rewrite Hla in Efull. uw; lia.
Qed.

Lemma add_last_ok zero q l x ok : qwf q l ->
  exists q', q_add_last zero q x ok = Ok q' /\ qwf q' (if qoom q' then l else l ++ [x]) /\
    (qoom q' = true -> qoom q = true \/ ok = false \/ 2^63 - 1 <= zlen l).
Proof.
  intros Hwf0. unfold q_add_last.
  destruct (expand_ok zero q l ok Hwf0) as (q1 & -> & Hwf & Hroom & Hfail). cbn [bind].
  destruct (qoom q1) eqn:Eo.
  - exists q1. rewrite Eo. auto.
  - specialize (Hroom eq_refl). clear Hwf0 Hfail.
    pose proof (qcap_range _ _ Hwf) as Hc. pose proof (zlen_nonneg l) as Hl0.
    pose proof Hwf as (Hk & He & Hf & Hl & Hla & Hi).
    assert (Hlr : 0 <= qlast q1 < qcap q1) by (rewrite Hla; uw; lia).
    rewrite zput_ok by lia. cbn [bind]. eexists; split; [reflexivity|]. cbn [qoom].
    split; [|discriminate]. split; [auto|]. cbn [qcap qelems qfirst qlast].
    rewrite zlen_zset, zlen_app, zlen_cons, zlen_nil.
    split; [auto|]. split; [auto|]. split; [lia|]. split.
    + rewrite (mask_wrap q1 l) by (auto; lia). rewrite Hla. uw; lia.
    + intros i y Hy. rewrite zget_zset by lia.
      pose proof (zget_Some_range _ _ _ Hy) as Hr. rewrite zlen_app, zlen_cons, zlen_nil in Hr.
      rewrite zget_app in Hy. destruct (Z.ltb_spec i (zlen l)).
      * destruct (qlast q1 =? wrap (qcap q1) (qfirst q1 + i)) eqn:E; [rewrite Hla in E; uw; lia|]. auto.
      * replace i with (zlen l) in * by lia. rewrite Z.sub_diag in Hy. cbn in Hy.
        rewrite <- Hla, Z.eqb_refl. auto.
Qed.

Lemma add_first_ok zero q l x ok : qwf q l ->
  exists q', q_add_first zero q x ok = Ok q' /\ qwf q' (if qoom q' then l else x :: l) /\
    (qoom q' = true -> qoom q = true \/ ok = false \/ 2^63 - 1 <= zlen l).
Proof.
  intros Hwf0. unfold q_add_first.
  destruct (expand_ok zero q l ok Hwf0) as (q1 & -> & Hwf & Hroom & Hfail). cbn [bind].
  destruct (qoom q1) eqn:Eo.
  - exists q1. rewrite Eo. auto.
  - specialize (Hroom eq_refl). clear Hwf0 Hfail.
    pose proof (qcap_range _ _ Hwf) as Hc. pose proof (zlen_nonneg l) as Hl0.
    pose proof Hwf as (Hk & He & Hf & Hl & Hla & Hi).
    rewrite (mask_wrap q1 l) by (auto; lia).
    set (f' := wrap (qcap q1) (qfirst q1 - 1)).
    assert (Hf' : 0 <= f' < qcap q1) by (subst f'; uw; lia).
    rewrite zput_ok by lia. cbn [bind]. eexists; split; [reflexivity|]. cbn [qoom].
    split; [|discriminate]. split; [auto|]. cbn [qcap qelems qfirst qlast].
    rewrite zlen_zset, zlen_cons.
    split; [auto|]. split; [auto|]. split; [lia|]. split.
    + rewrite Hla. subst f'. uw; lia.
    + intros i y Hy. rewrite zget_zset by lia.
      pose proof (zget_Some_range _ _ _ Hy) as Hr. rewrite zlen_cons in Hr.
      rewrite zget_cons in Hy. destruct (i =? 0) eqn:Ei.
      * replace i with 0 by lia. rewrite Z.add_0_r.
        replace (wrap (qcap q1) f') with f' by (unfold wrap; destruct (f' <? 0) eqn:?, (f' <? qcap q1) eqn:?; lia).
        rewrite Z.eqb_refl. auto.
      * specialize (Hi _ _ Hy).
        replace (wrap (qcap q1) (f' + i)) with (wrap (qcap q1) (qfirst q1 + (i - 1))) by (subst f'; uw; lia).
        destruct (f' =? wrap (qcap q1) (qfirst q1 + (i - 1))) eqn:E; [subst f'; uw; lia|]. auto.
Qed.

Lemma del_last_ok q l x : qwf q (l ++ [x]) ->
  exists q', q_del_last q = Ok (q', x) /\ qwf q' l /\ qoom q' = qoom q.
Proof.
  intros Hwf. pose proof (qcap_range _ _ Hwf) as Hc. pose proof (zlen_nonneg l) as Hl0.
  pose proof (qwf_shows _ _ Hwf) as (_ & _ & _ & _ & Hpl). specialize (Hpl x l eq_refl).
  pose proof Hwf as (Hk & He & Hf & Hl & Hla & Hi). rewrite zlen_app, zlen_cons, zlen_nil in *.
  unfold q_del_last, q_peek_last in *. rewrite Hpl. cbn [bind].
  eexists; split; [reflexivity|]. split; [|reflexivity]. split; [auto|].
  cbn [qcap qelems qfirst qlast]. split; [auto|]. split; [auto|]. split; [lia|]. split.
  - rewrite (mask_wrap q (l ++ [x])) by (auto; rewrite Hla; uw; lia). rewrite Hla. uw; lia.
  - intros i y Hy. apply Hi. rewrite zget_app1; [auto|]. now apply zget_Some_range in Hy.
Qed.

Lemma del_first_ok q l x : qwf q (x :: l) ->
  exists q', q_del_first q = Ok (q', x) /\ qwf q' l /\ qoom q' = qoom q.
Proof.
  intros Hwf. pose proof (qcap_range _ _ Hwf) as Hc. pose proof (zlen_nonneg l) as Hl0.
  pose proof (qwf_shows _ _ Hwf) as (_ & _ & _ & Hpf & _). specialize (Hpf x l eq_refl).
  pose proof Hwf as (Hk & He & Hf & Hl & Hla & Hi). rewrite zlen_cons in *.
  unfold q_del_first, q_peek_first in *. rewrite Hpf. cbn [bind].
  rewrite (mask_wrap q (x :: l)) by (auto; lia).
  eexists; split; [reflexivity|]. split; [|reflexivity]. split; [auto|].
  cbn [qcap qelems qfirst qlast]. split; [auto|]. split; [uw; lia|]. split; [lia|]. split.
  - rewrite Hla. uw; lia.
  - intros i y Hy. pose proof (zget_Some_range _ _ _ Hy).
    rewrite <- (Hi (i + 1) y).
    + f_equal. uw; lia.
    + rewrite zget_consS by lia. rewrite <- Hy. f_equal. lia.
Qed.

Lemma clear_ok q l : qwf q l -> qwf (q_clear q) [].
Proof.
  intros Hwf. pose proof (qcap_range _ _ Hwf) as Hc.
  destruct Hwf as (Hk & He & Hf & Hl & Hla & Hi).
  split; [auto|]. cbn [q_clear qcap qelems qfirst qlast]. change (zlen (@nil A)) with 0.
  split; [auto|]. split; [lia|]. split; [lia|]. split; [uw; lia|].
  intros i x Hx. apply zget_Some_range in Hx. change (zlen (@nil A)) with 0 in Hx. lia.
Qed.

Lemma step_ok zero q l o : qwf q l -> q_allowed l o ->
  exists q' ret l', q_step zero q o = Ok (q', ret) /\ q_ideal l o (q_oom q') l' ret /\
    (q_oom q' = true -> q_may_fail q l o) /\ qwf q' l'.
Proof.
  intros Hwf Hal. destruct o as [x ok|x ok| | |]; cbn [q_step q_allowed q_ideal q_may_fail] in *.
  - destruct (add_last_ok zero q l x ok Hwf) as (q' & -> & Hw & Hf). cbn [bind].
    exists q', None, (if qoom q' then l else l ++ [x]). auto.
  - destruct (add_first_ok zero q l x ok Hwf) as (q' & -> & Hw & Hf). cbn [bind].
    exists q', None, (if qoom q' then l else x :: l). auto.
  - destruct (@exists_last A l Hal) as (l' & x & ->).
    destruct (del_last_ok q l' x Hwf) as (q' & -> & Hw & Ho). cbn [bind].
    exists q', (Some x), l'. split; [auto|]. split; [eauto|]. split; [|auto].
    unfold q_oom in *. congruence.
  - destruct l as [|x l']; [congruence|].
    destruct (del_first_ok q l' x Hwf) as (q' & -> & Hw & Ho). cbn [bind].
    exists q', (Some x), l'. split; [auto|]. split; [eauto|]. split; [|auto].
    unfold q_oom in *. congruence.
  - exists (q_clear q), None, []. split; [auto|]. split; [auto|]. split; [discriminate|].
    eapply clear_ok; eauto.
Qed.

Lemma history_ok zero ops : forall q l, qwf q l -> q_obeys zero q l ops.
Proof.
  induction ops as [|o ops IH]; intros q l Hwf; cbn [q_obeys]; (split; [now apply qwf_shows|]); [exact I|].
  intros Hal. destruct (step_ok zero q l o Hwf Hal) as (q' & ret & l' & H1 & H2 & H3 & H4).
  exists q', ret, l'. auto.
Qed.

Lemma foreach_outer_ok {S} (b : S -> A -> S * bool) q l : qwf q l ->
  forall r done s fuel, l = done ++ r -> (length r + 1 < fuel)%nat ->
  qforeach_outer fuel b q true (wrap (qcap q) (qfirst q + zlen done)) s = Ok (q_visit b s r).
Proof.
  intros Hwf. pose proof (qcap_range _ _ Hwf) as Hc. pose proof (zlen_nonneg l) as Hl0.
  pose proof Hwf as (_ & He & Hf & Hl & Hla & Hi).
  induction r as [|x r IH]; intros done s fuel Heq Hfu.
  - destruct fuel as [|f]; [lia|]. cbn [qforeach_outer]. rewrite app_nil_r in Heq. subst.
    rewrite Hla, Z.eqb_refl. reflexivity.
  - destruct fuel as [|f]; [lia|]. cbn [qforeach_outer].
    pose proof (zlen_nonneg done). pose proof (zlen_nonneg r).
    assert (Hlen : zlen l = zlen done + zlen r + 1) by (rewrite Heq, zlen_app, zlen_cons; lia).
    assert (Hx : zget l (zlen done) = Some x).
    { rewrite Heq. rewrite zget_app2 by lia. now rewrite Z.sub_diag. }
    destruct (wrap (qcap q) (qfirst q + zlen done) =? qlast q) eqn:E; [rewrite Hla in E; uw; lia|].
    cbn [andb negb]. rewrite (zload_ok _ _ _ (Hi _ _ Hx)). cbn [bind qforeach_inner].
    cbn [q_visit]. destruct (b s x) as [s' []]; cbn [bind negb].
    + destruct f as [|f]; [cbn in Hfu; lia|]. reflexivity.
    + replace (q_next q (wrap (qcap q) (qfirst q + zlen done)))
        with (wrap (qcap q) (qfirst q + zlen (done ++ [x]))).
      * apply IH; [now rewrite <- app_assoc|]. cbn in Hfu; lia.
      * unfold q_next. rewrite (mask_wrap q l) by (auto; uw; lia).
        rewrite zlen_app, zlen_cons, zlen_nil. uw; lia.
Qed.

Lemma foreach_ok {S} (b : S -> A -> S * bool) q l s : qwf q l -> q_foreach b q s = Ok (q_visit b s l).
Proof.
  intros Hwf. unfold q_foreach. rewrite (size_ok q l Hwf).
  replace (qfirst q) with (wrap (qcap q) (qfirst q + zlen (@nil A))).
  - apply (foreach_outer_ok b q l Hwf l []); [reflexivity|]. unfold zlen. lia.
  - change (zlen (@nil A)) with 0. destruct Hwf as (_ & _ & Hf & _). uw; lia.
Qed.
End Proofs.
