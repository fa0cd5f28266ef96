(** Proofs about the sc_array model. *)
From Coq Require Import ZifyBool ZifyNat.
From Verif Require Import Base ArrayModel ArraySpec.
Ltac Zify.zify_post_hook ::= Z.div_mod_to_equations.

Section Proofs.
Context {A : Type}.
Implicit Types (a : arr A) (l : list A).

Definition wf (sz : Z) (a : arr A) (l : list A) : Prop :=
  size a = zlen l /\ cap a = zlen (elems a) /\ zlen l <= cap a /\
  cap a * sz < 2^64 /\
  forall i x, zget l i = Some x -> zget (elems a) i = Some (Some x).

Lemma wf_shows sz a l : 1 <= sz -> wf sz a l -> shows a l.
Proof.
  intros Hsz (H1 & H2 & H3 & H4 & H5). split; [|split].
  - exact H1.
  - intros i x Hx. unfold arr_at. apply zread_ok. auto.
  - intros l' x ->. unfold arr_last. rewrite H1, zlen_app, zlen_cons, zlen_nil.
    rewrite u64_small.
    + apply zread_ok. apply H5. rewrite zget_app2 by lia.
      replace (zlen l' + (0 + 1) - 1 - zlen l') with 0 by lia. reflexivity.
    + pose proof (zlen_nonneg l'). rewrite zlen_app, zlen_cons, zlen_nil in H3. nia.
Qed.

Lemma wf_init sz : 1 <= sz -> wf sz arr_init [].
Proof.
  intros. split; [|split; [|split; [|split]]]; cbn; try reflexivity; try lia.
  intros i x Hx. apply zget_Some_range in Hx. unfold zlen in Hx; cbn in Hx; lia.
Qed.

Lemma store_ok sz a l x :
  1 <= sz -> wf sz a l -> zlen l < cap a ->
  exists a', (let* e := zput (elems a) (size a) (Some x) in
              Ok (mk_arr false (cap a) (u64 (size a + 1)) e)) = Ok a' /\
             oom a' = false /\ wf sz a' (l ++ [x]).
Proof.
  intros Hsz (H1 & H2 & H3 & H4 & H5) Hlt. pose proof (zlen_nonneg l).
  rewrite zput_ok by lia. cbn [bind]. eexists; split; [reflexivity|]. split; [reflexivity|].
  split; [|split; [|split; [|split]]]; cbn.
  - rewrite H1, zlen_app, zlen_cons, zlen_nil. apply u64_small. nia.
  - now rewrite zlen_zset.
  - rewrite zlen_app, zlen_cons, zlen_nil. lia.
  - lia.
  - intros i y Hy. rewrite zget_app in Hy. rewrite zget_zset by lia.
    destruct (i <? zlen l) eqn:E.
    + destruct (size a =? i) eqn:E2; [lia|]. auto.
    + pose proof (zget_Some_range _ _ _ Hy) as Hr. rewrite zlen_cons, zlen_nil in Hr.
      replace (i - zlen l) with 0 in Hy by lia. cbn in Hy.
      destruct (size a =? i) eqn:E2; [congruence|lia].
Qed.

Lemma add_ok sz a l x ok :
  1 <= sz -> 8 * sz < 2^64 -> wf sz a l ->
  exists a', arr_add sz a x ok = Ok a' /\
    (arr_oom a' = true -> ok = false \/ 2^63 <= zlen l * sz) /\
    wf sz a' (if arr_oom a' then l else l ++ [x]) /\
    (arr_oom a' = true -> size a' = size a /\ cap a' = cap a /\ elems a' = elems a) /\
    (zlen l < cap a -> arr_oom a' = false).
Proof.
  intros Hsz H8 Hwf. pose proof Hwf as (H1 & H2 & H3 & H4 & H5).
  pose proof (zlen_nonneg l).
  unfold arr_add. destruct (cap a =? size a) eqn:E.
  - destruct (arr_max / sz / 2 <? cap a) eqn:Eg.
    + eexists; split; [reflexivity|]. cbn. repeat split; try tauto; try lia.
      intros _; right.
      assert (cap a * sz >= 2^63); [|nia].
      unfold arr_max in Eg. rewrite Z.div_div in Eg by lia.
      assert (Hq : (2^64 - 1) / (sz * 2) < cap a) by lia.
      apply Z.div_lt_upper_bound in Hq || idtac.
      pose proof (Z.mul_succ_div_gt (2^64-1) (sz*2)). nia.
    + destruct ok.
      * set (c' := if cap a =? 0 then 8 else u64 (cap a * 2)).
        assert (Hc' : zlen (elems a) < c' /\ c' * sz < 2^64).
        { subst c'. destruct (cap a =? 0) eqn:E0; [split; lia|].
          assert (cap a * 2 * sz < 2^64).
          { unfold arr_max in Eg. rewrite Z.div_div in Eg by lia.
            pose proof (Z.mul_div_le (2^64-1) (sz*2)). nia. }
          rewrite u64_small by nia. split; nia. }
        destruct Hc' as [Hc1 Hc2].
        destruct (realloc_block_spec (elems a) c' sz) as [Hr1 Hr2]; try lia.
        set (blk := realloc_block (elems a) (u64 (c' * sz)) sz) in *.
        set (am := mk_arr (oom a) c' (size a) blk).
        assert (Hwfm : wf sz am l).
        { split; [|split; [|split; [|split]]]; cbn; auto; try lia. }
        destruct (store_ok sz am l x Hsz Hwfm) as (a' & Ha' & Ho & Hw); [cbn; lia|].
        exists a'. split; [exact Ha'|]. unfold arr_oom. rewrite Ho.
        repeat split; try discriminate; auto; apply Hw.
      * eexists; split; [reflexivity|]. cbn. repeat split; try tauto; try lia.
  - destruct (store_ok sz a l x Hsz Hwf) as (a' & Ha' & Ho & Hw); [lia|].
    exists a'. split; [exact Ha'|]. unfold arr_oom. rewrite Ho.
    repeat split; try discriminate; auto; apply Hw.
Qed.

Lemma zlen_remove_at i l : 0 <= i < zlen l -> zlen (remove_at i l) = zlen l - 1.
Proof.
  intros. unfold remove_at. rewrite zlen_app, zlen_firstn, zlen_skipn. lia.
Qed.

Lemma zget_remove_at i l j : 0 <= i < zlen l -> 0 <= j ->
  zget (remove_at i l) j = if j <? i then zget l j else zget l (j + 1).
Proof.
  intros. unfold remove_at. rewrite zget_app, zlen_firstn.
  replace (Z.min (Z.of_nat (Z.to_nat i)) (zlen l)) with i by lia.
  destruct (j <? i) eqn:E.
  - rewrite zget_firstn. destruct (j <? Z.of_nat (Z.to_nat i)) eqn:E2; [auto|lia].
  - rewrite zget_skipn by lia. f_equal. lia.
Qed.

Lemma del_ok sz a l i :
  1 <= sz -> wf sz a l -> 0 <= i < zlen l ->
  exists a', arr_del a i = Ok a' /\ wf sz a' (remove_at i l).
Proof.
  intros Hsz (H1 & H2 & H3 & H4 & H5) Hi.
  assert (zlen l < 2^64) by nia.
  unfold arr_del. rewrite (u64_small i) by lia.
  destruct (i <? size a) eqn:E; [|lia].
  rewrite (u64_small (size a - i)) by lia. rewrite u64_small by lia.
  destruct (0 <? size a - i - 1) eqn:Ec.
  - unfold memmove_slots.
    destruct ((0 <=? i) && (i + (size a - i - 1) <=? zlen (elems a)) &&
              (0 <=? i + 1) && (i + 1 + (size a - i - 1) <=? zlen (elems a))) eqn:Em; [|lia].
    cbn [bind]. eexists; split; [reflexivity|].
    split; [|split; [|split; [|split]]]; cbn.
    + rewrite zlen_remove_at by lia. lia.
    + rewrite !zlen_app, zlen_firstn, zlen_skipn, zlen_zslice by lia. lia.
    + rewrite zlen_remove_at by lia. lia.
    + lia.
    + intros j x Hj. pose proof (zget_Some_range _ _ _ Hj) as Hr.
      rewrite zlen_remove_at in Hr by lia.
      rewrite zget_remove_at in Hj by lia.
      rewrite zget_app, zlen_firstn.
      replace (Z.min (Z.of_nat (Z.to_nat i)) (zlen (elems a))) with i by lia.
      destruct (j <? i) eqn:Eji.
      * rewrite zget_firstn. destruct (j <? Z.of_nat (Z.to_nat i)) eqn:E2; [auto|lia].
      * rewrite zget_app1 by (rewrite zlen_zslice by lia; lia).
        rewrite zget_zslice by lia.
        destruct ((0 <=? j - i) && (j - i <? size a - i - 1)) eqn:E3; [|lia].
        replace (i + 1 + (j - i)) with (j + 1) by lia. auto.
  - cbn [bind]. eexists; split; [reflexivity|].
    split; [|split; [|split; [|split]]]; cbn; auto.
    + rewrite zlen_remove_at by lia. lia.
    + rewrite zlen_remove_at by lia. lia.
    + intros j x Hj. pose proof (zget_Some_range _ _ _ Hj) as Hr.
      rewrite zlen_remove_at in Hr by lia. rewrite zget_remove_at in Hj by lia.
      destruct (j <? i) eqn:E2; [auto|lia].
Qed.

Lemma removelast_snoc l' (z : A) : removelast (l' ++ [z]) = l'.
Proof. rewrite removelast_app by discriminate. apply app_nil_r. Qed.

Lemma snoc_cases l : l = [] \/ exists l' z, l = l' ++ [z].
Proof.
  destruct l as [|y t]; [auto|]. right.
  destruct (@exists_last A (y :: t)) as (l' & z & H); [discriminate|]. eauto.
Qed.

Lemma del_last_ok sz a l :
  wf sz a l -> l <> [] -> exists a', arr_del_last a = Ok a' /\ wf sz a' (removelast l).
Proof.
  intros (H1 & H2 & H3 & H4 & H5) Hn.
  destruct (snoc_cases l) as [->|(l' & z & ->)]; [congruence|].
  rewrite removelast_snoc. rewrite zlen_app, zlen_cons, zlen_nil in *.
  pose proof (zlen_nonneg l').
  unfold arr_del_last. destruct (size a =? 0) eqn:E; [lia|].
  eexists; split; [reflexivity|].
  split; [|split; [|split; [|split]]]; cbn; auto; try lia.
  intros i x Hx. apply H5. rewrite zget_app1; [auto|]. now apply zget_Some_range in Hx.
Qed.

Lemma del_unordered_ok sz a l i :
  1 <= sz -> wf sz a l -> 0 <= i < zlen l ->
  exists a', arr_del_unordered a i = Ok a' /\ wf sz a' (swap_remove i l).
Proof.
  intros Hsz (H1 & H2 & H3 & H4 & H5) Hi.
  destruct (snoc_cases l) as [->|(l' & z & ->)]; [rewrite zlen_nil in Hi; lia|].
  rewrite zlen_app, zlen_cons, zlen_nil in *. pose proof (zlen_nonneg l').
  unfold arr_del_unordered, swap_remove. rewrite u64_small by nia.
  destruct (i <? size a) eqn:E; [|lia].
  assert (Hz : zget (elems a) (size a - 1) = Some (Some z)).
  { apply H5. rewrite zget_app2 by lia. replace (size a - 1 - zlen l') with 0 by lia. reflexivity. }
  rewrite (zread_ok _ _ _ Hz). cbn [bind]. rewrite zput_ok by lia. cbn [bind].
  eexists; split; [reflexivity|]. rewrite rev_app_distr. cbn [rev app].
  assert (Hsw : exists l2 w, zset (l' ++ [z]) i z = l2 ++ [w] /\ zlen l2 = zlen l').
  { destruct (snoc_cases (zset (l' ++ [z]) i z)) as [Hz0|(l2 & w & Hz0)].
    - apply (f_equal zlen) in Hz0. rewrite zlen_zset, zlen_app, zlen_cons, !zlen_nil in Hz0. lia.
    - exists l2, w. split; [auto|]. apply (f_equal zlen) in Hz0.
      rewrite zlen_zset, !zlen_app, !zlen_cons, !zlen_nil in Hz0. lia. }
  destruct Hsw as (l2 & w & Hsw & Hl2). rewrite Hsw, removelast_snoc.
  split; [|split; [|split; [|split]]]; cbn; auto; try lia.
  - now rewrite zlen_zset.
  - intros j x Hj. pose proof (zget_Some_range _ _ _ Hj) as Hr.
    assert (Hj2 : zget (l2 ++ [w]) j = Some x) by (rewrite zget_app1 by lia; auto).
    rewrite <- Hsw in Hj2. rewrite zget_zset in Hj2 by (rewrite zlen_app, zlen_cons, zlen_nil; lia).
    rewrite zget_zset by lia. destruct (i =? j) eqn:Eij; [congruence|]. auto.
Qed.

Lemma clear_ok sz a l : wf sz a l -> wf sz (arr_clear a) [].
Proof.
  intros (H1 & H2 & H3 & H4 & H5). pose proof (zlen_nonneg l).
  split; [|split; [|split; [|split]]]; cbn; auto; try (unfold zlen in *; cbn; lia).
  intros i x Hx. apply zget_Some_range in Hx. unfold zlen in Hx; cbn in Hx; lia.
Qed.

Lemma history_ok sz ops : 1 <= sz -> 8 * sz < 2^64 ->
  forall a l, wf sz a l -> obeys sz a l ops.
Proof.
  intros Hsz H8. induction ops as [|o ops IH]; intros a l Hwf; cbn [obeys];
    (split; [eapply wf_shows; eauto|]); [exact I|].
  intros Hal. destruct o as [x ok|i|i| |]; cbn [arr_step allowed ideal] in *.
  - destruct (add_ok sz a l x ok Hsz H8 Hwf) as (a' & Ha & Hoom & Hw & _).
    exists a'. split; [exact Ha|]. split; [exact Hoom|]. apply IH. exact Hw.
  - destruct (del_ok sz a l i Hsz Hwf Hal) as (a' & Ha & Hw). eauto.
  - destruct (del_unordered_ok sz a l i Hsz Hwf Hal) as (a' & Ha & Hw). eauto.
  - destruct (del_last_ok sz a l Hwf Hal) as (a' & Ha & Hw). eauto.
  - eexists; split; [reflexivity|]. split; [exact I|]. apply IH. eapply clear_ok; eauto.
Qed.

(** [obeys] specialised to the end of the history. *)
Lemma reachable_wf sz ops : 1 <= sz -> 8 * sz < 2^64 ->
  forall a l a', wf sz a l -> foldM (arr_step sz) a ops = Ok a' ->
  (forall i, In (Del i) ops \/ In (DelUnordered i) ops -> 0 <= i < 2^64) ->
  exists l', wf sz a' l'.
Proof.
  intros Hsz H8. induction ops as [|o ops IH]; intros a l a' Hwf Hr Hin.
  - cbn in Hr. injection Hr as <-. eauto.
  - cbn [foldM] in Hr. apply bind_ok in Hr as (am & Ham & Hr).
    assert (exists lm, wf sz am lm) as (lm & Hm).
    { destruct o as [x ok|i|i| |]; cbn [arr_step] in Ham.
      - destruct (add_ok sz a l x ok Hsz H8 Hwf) as (a2 & Ha & _ & Hw & _).
        rewrite Ha in Ham; injection Ham as <-. eauto.
      - assert (Hi : 0 <= i < 2^64) by (apply Hin; cbn; auto).
        assert (0 <= i < zlen l).
        { unfold arr_del in Ham. rewrite u64_small in Ham by lia.
          destruct (i <? size a) eqn:E; [|discriminate]. destruct Hwf as (? & ?). lia. }
        destruct (del_ok sz a l i Hsz Hwf) as (a2 & Ha & Hw); [auto|].
        rewrite Ha in Ham; injection Ham as <-. eauto.
      - assert (Hi : 0 <= i < 2^64) by (apply Hin; cbn; auto).
        assert (0 <= i < zlen l).
        { unfold arr_del_unordered in Ham. rewrite u64_small in Ham by lia.
          destruct (i <? size a) eqn:E; [|discriminate]. destruct Hwf as (? & ?). lia. }
        destruct (del_unordered_ok sz a l i Hsz Hwf) as (a2 & Ha & Hw); [auto|].
        rewrite Ha in Ham; injection Ham as <-. eauto.
      - destruct (snoc_cases l) as [->|(l' & z & ->)].
        + unfold arr_del_last in Ham. destruct Hwf as (H1 & _). rewrite zlen_nil in H1.
          rewrite H1 in Ham. discriminate.
        + destruct (del_last_ok sz a (l' ++ [z]) Hwf) as (a2 & Ha & Hw); [now destruct l'|].
          rewrite Ha in Ham; injection Ham as <-. eauto.
      - injection Ham as <-. exists []. eapply clear_ok; eauto. }
    eapply IH; [exact Hm | exact Hr |]. intros j Hj. apply Hin. cbn; tauto.
Qed.

(** ** foreach *)
Lemma foreach_inner_2 {S} (b : @body A S) x s :
  foreach_inner 2 b x true s = Ok (let (s', brk) := b s x in (s', brk)).
Proof. cbn. destruct (b s x) as [s' []]; reflexivity. Qed.

Lemma foreach_outer_ok {S} sz (b : @body A S) a l :
  1 <= sz -> wf sz a l ->
  forall r done s fuel, l = done ++ r -> (length r + 1 < fuel)%nat ->
  foreach_outer fuel b a true (zlen done) s = Ok (visit b s r).
Proof.
  intros Hsz (H1 & H2 & H3 & H4 & H5).
  induction r as [|x r IH]; intros done s fuel Hl Hf.
  - destruct fuel as [|f]; [lia|]. cbn [foreach_outer]. rewrite app_nil_r in Hl. subst.
    rewrite H1, Z.eqb_refl. reflexivity.
  - destruct fuel as [|f]; [lia|]. cbn [foreach_outer].
    pose proof (zlen_nonneg done). pose proof (zlen_nonneg r).
    assert (Hlen : zlen l = zlen done + zlen r + 1)
      by (subst l; rewrite zlen_app, zlen_cons; lia).
    destruct (zlen done =? size a) eqn:E; [lia|]. cbn [andb negb].
    assert (Hx : zget l (zlen done) = Some x).
    { subst l. rewrite zget_app2 by lia. now rewrite Z.sub_diag. }
    rewrite (zread_ok _ _ _ (H5 _ _ Hx)). cbn [bind].
    rewrite foreach_inner_2. cbn [visit]. destruct (b s x) as [s' brk]. cbn [bind].
    destruct brk; cbn [negb].
    + destruct f as [|f]; [cbn in Hf; lia|]. reflexivity.
    + replace (u64 (zlen done + 1)) with (zlen (done ++ [x])).
      * apply IH; [subst l; now rewrite <- app_assoc|]. cbn in Hf; lia.
      * rewrite zlen_app, zlen_cons, zlen_nil. symmetry. apply u64_small. nia.
Qed.

Lemma foreach_ok {S} sz (b : @body A S) a l s :
  1 <= sz -> wf sz a l -> arr_foreach b a s = Ok (visit b s l).
Proof.
  intros Hsz Hwf. unfold arr_foreach.
  apply (foreach_outer_ok sz b a l Hsz Hwf l [] s); [reflexivity|].
  destruct Hwf as (H1 & _). rewrite H1. unfold zlen. lia.
Qed.

End Proofs.
