(** Proofs about the sc_heap model. *)
From Coq Require Import ZifyBool ZifyNat.
From Verif Require Import Base HeapModel HeapSpec.

(** Halving, as linear facts (keeps lia fast: no division in its goals). *)
Lemma hb j : 2 * (j / 2) <= j < 2 * (j / 2) + 2.
Proof. pose proof (Z.div_mod j 2). pose proof (Z.mod_pos_bound j 2). lia. Qed.

Section Proofs.
Context {D : Type}.
Notation blk := (list (option (item D))).
Implicit Types (e : blk) (x p last : item D).

(** Key in slot [i] (0 for an unusable slot). *)
Definition keyat e i : Z := match zget e i with Some (Some it) => fst it | _ => 0 end.
Definition written e n : Prop := forall j, 1 <= j <= n -> exists it, zget e j = Some (Some it).
Definition ordered e n : Prop := forall j, 2 <= j <= n -> keyat e (j / 2) <= keyat e j.

Lemma keyat_zset_eq e i x : 0 <= i < zlen e -> keyat (zset e i (Some x)) i = fst x.
Proof. intros. unfold keyat. now rewrite zget_zset_eq. Qed.
Lemma keyat_zset_neq e i j x : i <> j -> keyat (zset e i (Some x)) j = keyat e j.
Proof. intros. unfold keyat. now rewrite zget_zset_neq. Qed.
Lemma keyat_some e i x : zget e i = Some (Some x) -> keyat e i = fst x.
Proof. unfold keyat. now intros ->. Qed.

Lemma zset_zset {A} (l : list A) i v w : zset (zset l i v) i w = zset l i w.
Proof.
  apply zget_ext; rewrite !zlen_zset; [auto|]. intros j Hj.
  destruct (Z.eq_dec i j) as [->|Hne].
  - rewrite !zget_zset_eq; rewrite ?zlen_zset; auto.
  - now rewrite !zget_zset_neq.
Qed.

(** Moving the content of [q] into the hole [i] and filling [q] is a swap. *)
Lemma slice_swap e i q x p n :
  1 <= i <= n -> 1 <= q <= n -> n < zlen e -> i <> q ->
  zget e q = Some (Some p) ->
  Permutation (zslice (zset (zset e i (Some p)) q (Some x)) 1 n)
              (zslice (zset e i (Some x)) 1 n).
Proof.
  intros Hi Hq Hn Hne Hp.
  rewrite !zslice_zset_in by lia.
  set (s := zslice e 1 n).
  assert (Hs : zlen s = n) by (unfold s; apply zlen_zslice; lia).
  assert (Hsq : zget s (q - 1) = Some (Some p)).
  { unfold s. rewrite zget_zslice by lia.
    destruct ((0 <=? q - 1) && (q - 1 <? n)) eqn:E; [|lia].
    replace (1 + (q - 1)) with q by lia. auto. }
  replace (zset (zset s (i - 1) (Some p)) (q - 1) (Some x))
    with (zset (zset (zset s (i - 1) (Some x)) (i - 1) (Some p)) (q - 1) (Some x))
    by (now rewrite zset_zset).
  apply Permutation_swap.
  - apply zget_zset_eq. lia.
  - rewrite zget_zset_neq by lia. auto.
Qed.

(** Order of the block with the hole [i] filled by the new item (sift-up):
    only the edge above the hole may be wrong. *)
Definition upinv (F : blk) n i : Prop :=
  (forall j, 2 <= j <= n -> j <> i -> keyat F (j / 2) <= keyat F j) /\
  (forall j, 2 <= j <= n -> 2 <= i -> j / 2 = i -> keyat F (i / 2) <= keyat F j).

Lemma sift_up_ok : forall fuel e i x n,
  (Z.to_nat i <= fuel)%nat -> 1 <= i <= n -> n < zlen e ->
  written (zset e i (Some x)) n -> upinv (zset e i (Some x)) n i ->
  exists e', sift_up fuel e i x = Ok e' /\ zlen e' = zlen e /\
    ordered e' n /\ written e' n /\
    Permutation (zslice e' 1 n) (zslice (zset e i (Some x)) 1 n) /\
    (forall j, j < 1 \/ n < j -> zget e' j = zget e j).
Proof.
  induction fuel as [|f IH]; intros e i x n Hf Hi Hn Hw [Ho Hg]; [lia|]. pose proof (hb i) as Hbi.
  assert (Hdone : (i = 1 \/ keyat (zset e i (Some x)) (i/2) <= fst x) ->
    exists e', zput e i (Some x) = Ok e' /\ zlen e' = zlen e /\
    ordered e' n /\ written e' n /\
    Permutation (zslice e' 1 n) (zslice (zset e i (Some x)) 1 n) /\
    (forall j, j < 1 \/ n < j -> zget e' j = zget e j)).
  { intros Hc. exists (zset e i (Some x)). rewrite zput_ok by lia. rewrite zlen_zset.
    split; [auto|]. split; [auto|]. split.
    - intros j Hj. destruct (Z.eq_dec j i) as [->|Hne]; [|auto].
      rewrite (keyat_zset_eq e i x) by lia. destruct Hc as [->|Hc]; [lia|auto].
    - split; [auto|]. split; [auto|]. intros j Hj. apply zget_zset_neq. lia. }
  cbn [sift_up]. destruct (i =? 1) eqn:E1; [apply Hdone; lia|].
  destruct (Hw (i/2)) as [p Hp]; [lia|].
  rewrite zget_zset_neq in Hp by lia.
  rewrite (zread_ok _ _ _ Hp). cbn [bind].
  destruct (fst x <? fst p) eqn:Ek.
  2: { apply Hdone. right. rewrite keyat_zset_neq by lia. rewrite (keyat_some _ _ _ Hp). lia. }
  rewrite zput_ok by lia. cbn [bind].
  set (q := i / 2) in *. set (F := zset e i (Some x)) in *.
  set (F1 := zset (zset e i (Some p)) q (Some x)).
  assert (Hq : 1 <= q < i) by lia.
  assert (KFi : keyat F i = fst x) by (apply keyat_zset_eq; lia).
  assert (KFq : keyat F q = fst p) by (unfold F; rewrite keyat_zset_neq by lia; now apply keyat_some).
  assert (K1q : keyat F1 q = fst x) by (apply keyat_zset_eq; rewrite zlen_zset; lia).
  assert (K1i : keyat F1 i = fst p).
  { unfold F1. rewrite keyat_zset_neq by lia. apply keyat_zset_eq; lia. }
  assert (K1 : forall j, j <> i -> j <> q -> keyat F1 j = keyat F j).
  { intros j Hj1 Hj2. unfold F1, F. rewrite !keyat_zset_neq by lia. auto. }
  destruct (IH (zset e i (Some p)) q x n) as (e' & He & Hl & Hord & Hwr & Hperm & Hout).
  - lia.
  - lia.
  - rewrite zlen_zset; lia.
  - intros j Hj. destruct (Z.eq_dec j q) as [->|Hjq].
    { exists x. apply zget_zset_eq. rewrite zlen_zset; lia. }
    rewrite zget_zset_neq by lia. destruct (Z.eq_dec j i) as [->|Hji].
    { exists p. apply zget_zset_eq. lia. }
    destruct (Hw j Hj) as [it Hit]. unfold F in Hit. rewrite zget_zset_neq in Hit by lia.
    exists it. rewrite zget_zset_neq by lia. auto.
  - fold F1. split.
    + intros j Hj Hjq. pose proof (hb j) as Hbj.
      destruct (Z.eq_dec j i) as [->|Hji].
      { fold q. rewrite K1q, K1i. lia. }
      rewrite (K1 j) by lia.
      destruct (Z.eq_dec (j/2) i) as [Hji2|Hji2].
      { rewrite Hji2, K1i, <- KFq. unfold q. apply Hg; lia. }
      destruct (Z.eq_dec (j/2) q) as [Hjq2|Hjq2].
      { rewrite Hjq2, K1q. specialize (Ho j Hj Hji). rewrite Hjq2, KFq in Ho. lia. }
      rewrite K1 by lia. auto.
    + intros j Hj Hq2 Hjq. pose proof (hb j) as Hbj. pose proof (hb q) as Hbq.
      assert (Hqq : keyat F1 (q/2) <= fst p).
      { rewrite K1 by lia. rewrite <- KFq. apply Ho; lia. }
      destruct (Z.eq_dec j i) as [->|Hji].
      { rewrite K1i. auto. }
      rewrite (K1 j) by lia. specialize (Ho j Hj Hji). rewrite Hjq, KFq in Ho. lia.
  - exists e'. split; [exact He|]. rewrite zlen_zset in Hl. split; [auto|].
    split; [auto|]. split; [auto|]. split.
    + rewrite Hperm. apply slice_swap; auto; lia.
    + intros j Hj. rewrite Hout by auto. apply zget_zset_neq. lia.
Qed.

(** Order of the block with the hole [i] filled by the last item (sift-down):
    only the edges below the hole may be wrong. *)
Definition downinv (F : blk) n i : Prop :=
  (forall j, 2 <= j <= n -> j / 2 <> i -> keyat F (j / 2) <= keyat F j) /\
  (forall j, 2 <= j <= n -> 2 <= i -> j / 2 = i -> keyat F (i / 2) <= keyat F j).

Ltac dz := first [ assumption | congruence | lia ].
Lemma sift_down_ok : forall fuel e i last n,
  (Z.to_nat (n - i) < fuel)%nat -> 1 <= i <= n -> n < zlen e -> n < 2^62 ->
  written (zset e i (Some last)) n -> downinv (zset e i (Some last)) n i ->
  exists e', sift_down fuel e i (2 * i) n last = Ok e' /\ zlen e' = zlen e /\
    ordered e' n /\ written e' n /\
    Permutation (zslice e' 1 n) (zslice (zset e i (Some last)) 1 n) /\
    (forall j, j < 1 \/ n < j -> zget e' j = zget e j).
Proof.
  induction fuel as [|f IH]; intros e i last n Hf Hi Hn Hn62 Hw [Ho Hg]; [lia|].
  assert (Hdone :
    (forall j, 2 <= j <= n -> j / 2 = i -> fst last <= keyat (zset e i (Some last)) j) ->
    exists e', zput e i (Some last) = Ok e' /\ zlen e' = zlen e /\
    ordered e' n /\ written e' n /\
    Permutation (zslice e' 1 n) (zslice (zset e i (Some last)) 1 n) /\
    (forall j, j < 1 \/ n < j -> zget e' j = zget e j)).
  { intros Hc. exists (zset e i (Some last)). rewrite zput_ok by lia. rewrite zlen_zset.
    split; [auto|]. split; [auto|]. split.
    - intros j Hj. destruct (Z.eq_dec (j/2) i) as [He|Hne]; [|auto].
      rewrite He, (keyat_zset_eq e i last) by lia. auto.
    - split; [auto|]. split; [auto|]. intros j Hj. apply zget_zset_neq. lia. }
  cbn [sift_down]. destruct (2 * i <=? n) eqn:Ec; [|apply Hdone; intros j Hj Hj2; pose proof (hb j); lia].
  set (F := zset e i (Some last)) in *.
  assert (HF : forall j, j <> i -> zget F j = zget e j) by (intros; apply zget_zset_neq; lia).
  assert (KF : forall j, j <> i -> keyat F j = keyat e j) by (intros; apply keyat_zset_neq; lia).
  assert (Hpick : exists c, (if 2 * i <? n then
                     let* a := zread e (2 * i) in
                     let* b := zread e (2 * i + 1) in
                     Ok (if fst b <? fst a then 2 * i + 1 else 2 * i)
                   else Ok (2 * i)) = Ok c /\ 2*i <= c <= 2*i+1 /\ c <= n /\
                   forall j, 2 <= j <= n -> j/2 = i -> keyat e c <= keyat e j).
  { destruct (Hw (2*i)) as [a Ha]; [lia|]. rewrite HF in Ha by lia.
    destruct (2 * i <? n) eqn:E2.
    - destruct (Hw (2*i+1)) as [b Hb]; [lia|]. rewrite HF in Hb by lia.
      rewrite (zread_ok _ _ _ Ha), (zread_ok _ _ _ Hb). cbn [bind].
      eexists; split; [reflexivity|].
      pose proof (keyat_some _ _ _ Ha). pose proof (keyat_some _ _ _ Hb).
      destruct (fst b <? fst a) eqn:E3.
      + split; [lia|]. split; [lia|]. intros j Hj Hj2. pose proof (hb j) as Hbj. assert (j = 2*i \/ j = 2*i+1) as [->| ->] by lia; lia.
      + split; [lia|]. split; [lia|]. intros j Hj Hj2. pose proof (hb j) as Hbj. assert (j = 2*i \/ j = 2*i+1) as [->| ->] by lia; lia.
    - exists (2*i). split; [auto|]. split; [lia|]. split; [lia|].
      intros j Hj Hj2. pose proof (hb j) as Hbj. assert (j = 2*i) as -> by lia. lia. }
  destruct Hpick as (c & -> & Hc & Hcn & Hmin). cbn [bind].
  assert (Hc2 : c / 2 = i) by (pose proof (hb c); lia). pose proof (hb i) as Hbi.
  assert (Hilc : i < c) by lia.
  destruct (Hw c) as [v Hv]; [lia|]. rewrite HF in Hv by lia.
  pose proof (keyat_some _ _ _ Hv) as Kv.
  rewrite (zread_ok _ _ _ Hv). cbn [bind].
  destruct (fst last <=? fst v) eqn:Ek.
  { apply Hdone. intros j Hj Hj2. pose proof (hb j). rewrite KF by lia. specialize (Hmin j Hj Hj2). lia. }
  rewrite zput_ok by lia. cbn [bind].
  rewrite u64_small by lia. replace (c * 2) with (2 * c) by lia.
  clear Hdone. assert (Hcr : 1 <= c <= n) by lia. 
  assert (Hk : fst v < fst last) by lia. clear Ek Ec.
  set (F1 := zset (zset e i (Some v)) c (Some last)).
  assert (K1c : keyat F1 c = fst last) by (apply keyat_zset_eq; rewrite zlen_zset; dz).
  assert (K1i : keyat F1 i = fst v).
  { unfold F1. rewrite keyat_zset_neq by dz. apply keyat_zset_eq; dz. }
  assert (K1 : forall j, j <> i -> j <> c -> keyat F1 j = keyat e j).
  { intros j Hj1 Hj2. unfold F1. rewrite !keyat_zset_neq by dz. auto. }
  assert (Hf' : (Z.to_nat (n - c) < f)%nat) by (clear - Hf Hilc Hcn Hi; lia).
  assert (Hi2 : i / 2 < i) by (clear - Hbi Hi; lia).
  clear Hf Hbi Hc.
  destruct (IH (zset e i (Some v)) c last n) as (e' & He & Hl & Hord & Hwr & Hperm & Hout).
  - lia.
  - lia.
  - rewrite zlen_zset; dz.
  - lia.
  - intros j Hj. destruct (Z.eq_dec j c) as [->|Hjc].
    { exists last. apply zget_zset_eq. rewrite zlen_zset; dz. }
    rewrite zget_zset_neq by dz. destruct (Z.eq_dec j i) as [->|Hji].
    { exists v. apply zget_zset_eq. lia. }
    destruct (Hw j Hj) as [it Hit]. rewrite HF in Hit by dz.
    exists it. rewrite zget_zset_neq by dz. auto.
  - fold F1. split.
    + intros j Hj Hjc. pose proof (hb j) as Hbj.
      destruct (Z.eq_dec j c) as [->|Hjc'].
      { rewrite Hc2. rewrite K1i, K1c. lia. }
      destruct (Z.eq_dec (j/2) i) as [Hji|Hji].
      { rewrite Hji, K1i, (K1 j) by dz. rewrite <- Kv. auto. }
      destruct (Z.eq_dec j i) as [->|Hji2].
      { rewrite K1i, K1 by dz. rewrite <- Kv, <- (KF c), <- KF by dz. apply Hg; dz. }
      rewrite !K1 by dz. rewrite <- !KF by dz. auto.
    + intros j Hj Hc2' Hjc. pose proof (hb j) as Hbj. rewrite Hc2. rewrite K1i.
      rewrite (K1 j) by dz. rewrite <- Kv, <- (KF c), <- (KF j) by dz.
      rewrite <- Hjc. apply Ho; dz.
  - exists e'. split; [exact He|]. rewrite zlen_zset in Hl. split; [auto|].
    split; [auto|]. split; [auto|]. split.
    + rewrite Hperm. apply slice_swap; auto; dz.
    + intros j Hj. rewrite Hout by auto. apply zget_zset_neq. lia.
Qed.

(** ** The heap invariant *)
Definition hwf (lim : Z) (h : heap D) (m : list (item D)) : Prop :=
  hsize h = zlen m /\
  (hsize h < hcap h \/ (hsize h = 0 /\ hcap h = 0)) /\
  0 <= hcap h <= zlen (helems h) /\ 16 * hcap h <= lim /\
  written (helems h) (hsize h) /\ ordered (helems h) (hsize h) /\
  Permutation (zslice (helems h) 1 (hsize h)) (map Some m).

Lemma root_min e n : written e n -> ordered e n ->
  forall j, 1 <= j <= n -> keyat e 1 <= keyat e j.
Proof.
  intros Hw Ho. assert (H : forall k j, (Z.to_nat j <= k)%nat -> 1 <= j <= n -> keyat e 1 <= keyat e j).
  { induction k as [|k IH]; intros j Hk Hj; [lia|].
    destruct (Z.eq_dec j 1) as [->|Hne]; [lia|].
    specialize (IH (j/2)). specialize (Ho j). pose proof (hb j). lia. }
  intros j Hj. apply (H (Z.to_nat j)); lia.
Qed.

Lemma slice_In e n it : n < zlen e ->
  In (Some it) (zslice e 1 n) <-> exists j, 1 <= j <= n /\ zget e j = Some (Some it).
Proof.
  intros Hn. split.
  - intros H. apply In_zget in H as (i & Hi & Hg).
    assert (0 <= n) by (unfold zslice in Hi; rewrite zlen_firstn in Hi; lia).
    rewrite zget_zslice in Hg by lia.
    destruct ((0 <=? i) && (i <? n)) eqn:E; [|discriminate].
    exists (1 + i). split; [lia|auto].
  - intros (j & Hj & Hg). apply (zget_In _ (j - 1)). rewrite zget_zslice by lia.
    destruct ((0 <=? j - 1) && (j - 1 <? n)) eqn:E; [|lia].
    replace (1 + (j - 1)) with j by lia. auto.
Qed.

Lemma hwf_min lim h m it : hwf lim h m -> 0 < hsize h ->
  zget (helems h) 1 = Some (Some it) -> is_min it m.
Proof.
  intros (H1 & H2 & H3 & H4 & Hw & Ho & Hp) Hs Hit.
  assert (Hlt : hsize h < zlen (helems h)) by lia.
  split.
  - assert (In (Some it) (map Some m)) as Hin.
    { rewrite <- Hp. apply slice_In; [auto|]. exists 1. split; [lia|auto]. }
    apply in_map_iff in Hin as (y & Hy & Hin). congruence.
  - intros it' Hin. assert (In (Some it') (map Some m)) as Hin' by (now apply in_map).
    rewrite <- Hp in Hin'. apply slice_In in Hin' as (j & Hj & Hg); [|auto].
    pose proof (root_min _ _ Hw Ho j Hj) as Hr.
    rewrite (keyat_some _ _ _ Hit), (keyat_some _ _ _ Hg) in Hr. auto.
Qed.

Lemma peek_correct lim h m : hwf lim h m -> exists o, heap_peek h = Ok o /\ peek_ok m o.
Proof.
  intros Hwf. pose proof Hwf as (H1 & H2 & H3 & H4 & Hw & Ho & Hp).
  pose proof (zlen_nonneg m).
  unfold heap_peek. destruct (hsize h =? 0) eqn:E.
  - exists None. split; [auto|]. cbn. apply zlen_zero. lia.
  - destruct (Hw 1) as [it Hit]; [lia|]. rewrite (zread_ok _ _ _ Hit).
    exists (Some it). split; [auto|]. cbn. eapply hwf_min; eauto. lia.
Qed.

Lemma zslice_all_1 e n x : n + 1 < zlen e -> 0 <= n ->
  zslice (zset e (n + 1) (Some x)) 1 (n + 1) = zslice e 1 n ++ [Some x].
Proof.
  intros. apply zget_ext.
  - rewrite zlen_app, zlen_cons, zlen_nil, !zlen_zslice; rewrite ?zlen_zset; lia.
  - intros i Hi. rewrite zlen_zslice in Hi by (rewrite ?zlen_zset; lia).
    rewrite zget_zslice by lia. destruct ((0 <=? i) && (i <? n + 1)) eqn:E; [|lia].
    rewrite zget_zset by lia. rewrite zget_app, zlen_zslice by lia.
    destruct (n + 1 =? 1 + i) eqn:E2.
    + destruct (i <? n) eqn:E3; [lia|]. replace (i - n) with 0 by lia. reflexivity.
    + destruct (i <? n) eqn:E3; [|lia]. rewrite zget_zslice by lia.
      destruct ((0 <=? i) && (i <? n)) eqn:E4; [auto|lia].
Qed.

Lemma finish_ok lim cap e m k (d : D) :
  let n := zlen m in
  n + 1 < cap -> cap <= zlen e -> 16 * cap <= lim -> lim < 2^62 ->
  written e n -> ordered e n -> Permutation (zslice e 1 n) (map Some m) ->
  exists e', sift_up (S (Z.to_nat (n + 1))) e (n + 1) (k, d) = Ok e' /\
    hwf lim (mk_heap cap (n + 1) e') ((k, d) :: m).
Proof.
  intros n Hc He Hlim Hlim62 Hw Ho Hp. assert (Hn : 0 <= n) by apply zlen_nonneg.
  destruct (sift_up_ok (S (Z.to_nat (n+1))) e (n+1) (k,d) (n+1)) as
    (e' & He' & Hl & Hord & Hwr & Hperm & Hout).
  - lia.
  - lia.
  - lia.
  - intros j Hj. destruct (Z.eq_dec j (n+1)) as [->|Hne].
    + exists (k,d). apply zget_zset_eq. lia.
    + rewrite zget_zset_neq by lia. apply Hw. lia.
  - split.
    + intros j Hj Hne. pose proof (hb j). rewrite !keyat_zset_neq by lia. apply Ho. lia.
    + intros j Hj Hn2 Hj2. pose proof (hb j). lia.
  - exists e'. split; [exact He'|].
    split; [cbn [hsize]; rewrite zlen_cons; reflexivity|]. cbn [hsize hcap helems].
    split; [lia|]. split; [lia|]. split; [auto|]. split; [auto|]. split; [auto|].
    rewrite Hperm, zslice_all_1 by lia. rewrite Hp.
    change (map Some ((k, d) :: m)) with (Some (k,d) :: map Some m).
    symmetry. apply Permutation_cons_append.
Qed.

Lemma add_correct lim h m k (d : D) ok : hwf lim h m -> lim < 2^62 ->
  exists h' ret, heap_add lim h k d ok = Ok (h', ret) /\
    (ret = true -> hwf lim h' ((k, d) :: m)) /\
    (ret = false -> ok = false \/ lim < Z.max 128 (64 * (zlen m + 1))) /\
    (hsize h + 1 < hcap h -> ret = true).
Proof.
  intros (H1 & H2 & H3 & H4 & Hw & Ho & Hp) Hlim. pose proof (zlen_nonneg m).
  unfold heap_add. rewrite (u64_small (hsize h + 1)) by lia. rewrite H1 in *.
  destruct (hcap h <=? zlen m + 1) eqn:E.
  - set (c' := if hcap h =? 0 then 4 else u64 (hcap h * 2)).
    assert (Hc' : c' = Z.max 4 (2 * hcap h) \/ (hcap h = 1 /\ c' = 2)).
    { subst c'. destruct (hcap h =? 0) eqn:E0; [left; lia|]. rewrite u64_small by lia. lia. }
    assert (Hrange : hcap h < c' <= 2^60 /\ zlen m + 1 < c'); [lia|].
    rewrite (u64_small (c' * 2)) by lia.
    assert (Hm : u64 (c' * 2 * 16) = c' * 2 * 16) by (apply u64_small; lia).
    destruct ((heap_max / 2 <=? hcap h) || negb (granted lim ok (u64 (c' * 2 * 16)))) eqn:Eg.
    + do 2 eexists. split; [reflexivity|]. split; [discriminate|]. split; [|lia].
      intros _. unfold granted in Eg. rewrite Hm in Eg. unfold heap_max in Eg. change ((2^64-1)/16/2) with (2^59-1) in Eg.
      destruct ok; [right|left; auto].
      assert (lim < c' * 2 * 16) by lia. lia.
    + unfold granted in Eg. rewrite Hm in Eg. destruct ok; cbn in Eg; [|lia].
      rewrite Hm.
      destruct (realloc_block_gen (helems h) (c' * 2 * 16) 16 (c' * 2)) as [Hr1 Hr2]; try lia.
      set (e1 := realloc_block (helems h) (c' * 2 * 16) 16) in *.
      assert (Hsl : zslice e1 1 (zlen m) = zslice (helems h) 1 (zlen m)).
      { destruct (Z.eq_dec (zlen m) 0) as [->|Hz]; [reflexivity|].
        apply zget_ext; [rewrite !zlen_zslice; lia|]. intros i Hi.
        rewrite zlen_zslice in Hi by lia. rewrite !zget_zslice by lia.
        destruct ((0 <=? i) && (i <? zlen m)) eqn:E3; [|lia]. apply Hr2; lia. }
      assert (Hfin := finish_ok lim c' e1 m k d). cbv zeta in Hfin.
      destruct Hfin as (e' & He & Hwf'); auto; try lia.
      * intros j Hj. destruct (Hw j Hj) as [it Hit]. exists it.
        pose proof (zget_Some_range _ _ _ Hit). rewrite Hr2; auto; lia.
      * intros j Hj. pose proof (hb j). unfold keyat. rewrite !Hr2 by lia. apply Ho. lia.
      * rewrite Hsl. auto.
      * rewrite He. cbn [bind]. do 2 eexists. split; [reflexivity|].
        split; [intros _; exact Hwf'|]. split; [discriminate|auto].
  - assert (Hfin := finish_ok lim (hcap h) (helems h) m k d).
    cbv zeta in Hfin. destruct Hfin as (e' & He & Hwf'); auto; try lia.
    rewrite He. cbn [bind]. do 2 eexists. split; [reflexivity|].
    split; [intros _; exact Hwf'|]. split; [discriminate|auto].
Qed.

Lemma zslice_cons {A} (l : list A) from n v : 0 <= from -> 0 < n ->
  zget l from = Some v -> zslice l from n = v :: zslice l (from + 1) (n - 1).
Proof.
  intros Hf Hn Hv. pose proof (zget_Some_range _ _ _ Hv).
  assert (Hl : forall k, zlen (zslice l (from + k) (n - k)) = Z.min (Z.max 0 (n-k)) (Z.max 0 (zlen l - Z.max 0 (from + k)))).
  { intros. unfold zslice. rewrite zlen_firstn, zlen_skipn. lia. }
  apply zget_ext.
  - rewrite zlen_cons, Hl. replace (zslice l from n) with (zslice l (from + 0) (n - 0)) by (f_equal; lia).
    rewrite Hl. lia.
  - intros i Hi. rewrite zget_cons, !zget_zslice by lia.
    destruct (i =? 0) eqn:E.
    + assert (i = 0) by lia; subst. destruct ((0 <=? 0) && (0 <? n)) eqn:E2; [|lia].
      rewrite Z.add_0_r. auto.
    + replace ((0 <=? i) && (i <? n)) with ((0 <=? i - 1) && (i - 1 <? n - 1)) by lia.
      replace (from + 1 + (i - 1)) with (from + i) by lia. auto.
Qed.

Lemma zslice_snoc {A} (l : list A) from n v : 0 <= from -> 0 <= n ->
  zget l (from + n) = Some v -> zslice l from (n + 1) = zslice l from n ++ [v].
Proof.
  intros Hf Hn Hv. pose proof (zget_Some_range _ _ _ Hv).
  apply zget_ext.
  - rewrite zlen_app, zlen_cons, zlen_nil, !zlen_zslice; lia.
  - intros i Hi. rewrite zlen_zslice in Hi by lia.
    rewrite zget_app, zlen_zslice, !zget_zslice by lia.
    destruct ((0 <=? i) && (i <? n + 1)) eqn:E; [|lia].
    destruct (i <? n) eqn:E2.
    + replace ((0 <=? i) && true) with true by lia. auto.
    + replace i with n by lia. rewrite Z.sub_diag. auto.
Qed.

Lemma pop_correct lim h m : hwf lim h m -> lim < 2^62 ->
  exists h' o m', heap_pop h = Ok (h', o) /\ heap_peek h = Ok o /\
    pop_ok m o m' /\ hwf lim h' m'.
Proof.
  intros Hwf Hlim. pose proof Hwf as (H1 & H2 & H3 & H4 & Hw & Ho & Hp).
  pose proof (zlen_nonneg m).
  unfold heap_pop, heap_peek. destruct (hsize h =? 0) eqn:E.
  - exists h, None, []. assert (m = []) by (apply zlen_zero; lia). subst m.
    split; [reflexivity|]. split; [reflexivity|]. split; [split; reflexivity|exact Hwf].
  - set (n := hsize h - 1) in *.
    destruct (Hw 1) as [top Htop]; [lia|]. rewrite (zread_ok _ _ _ Htop). cbn [bind].
    rewrite zput_ok by lia. cbn [bind].
    set (e := zset (helems h) 0 (Some top)) in *.
    assert (Hle : zlen e = zlen (helems h)) by apply zlen_zset.
    assert (HeH : forall j, j <> 0 -> zget e j = zget (helems h) j)
      by (intros; apply zget_zset_neq; lia).
    destruct (Hw (hsize h)) as [last Hlast]; [lia|].
    rewrite (zread_ok e (hsize h) last) by (rewrite HeH by lia; auto). cbn [bind].
    assert (Hmin : is_min top m) by (eapply hwf_min; eauto; lia).
    assert (Hslice : zslice (helems h) 1 (hsize h) = zslice e 1 n ++ [Some last]).
    { replace (hsize h) with (n + 1) by lia.
      replace (zslice e 1 n) with (zslice (helems h) 1 n).
      - apply zslice_snoc; try lia. replace (1 + n) with (hsize h) by lia. auto.
      - unfold e. symmetry. apply zslice_zset_out; lia. }
    assert (exists e', sift_down (S (Z.to_nat n)) e 1 2 n last = Ok e' /\
              zlen e' = zlen e /\ ordered e' n /\ written e' n /\ zget e' 0 = Some (Some top) /\
              Permutation (Some top :: zslice e' 1 n) (zslice (helems h) 1 (hsize h)))
      as (e' & He' & Hl' & Ho' & Hw' & H0' & Hp').
    { destruct (Z.eq_dec n 0) as [Hn0|Hn0].
      - rewrite Hn0. cbn [sift_down Z.to_nat]. replace (2 <=? 0) with false by lia.
        rewrite zput_ok by lia. eexists; split; [reflexivity|].
        rewrite zlen_zset. split; [auto|]. split; [intros j Hj; lia|]. split; [intros j Hj; lia|].
        split; [rewrite zget_zset_neq by lia; apply zget_zset_eq; lia|].
        rewrite Hslice, Hn0. replace (hsize h) with 1 in Hlast by lia.
        assert (top = last) by congruence. subst. reflexivity.
      - assert (He1 : zget e 1 = Some (Some top)) by (rewrite HeH by lia; auto).
        destruct (sift_down_ok (S (Z.to_nat n)) e 1 last n)
          as (e' & He' & Hl' & Ho' & Hw' & Hp' & Hout'); try lia.
        + intros j Hj. destruct (Z.eq_dec j 1) as [->|Hne].
          * exists last. apply zget_zset_eq. lia.
          * rewrite zget_zset_neq, HeH by lia. apply Hw. lia.
        + split.
          * intros j Hj Hj2. pose proof (hb j). rewrite !keyat_zset_neq by lia.
            unfold keyat. rewrite !HeH by lia. apply Ho. lia.
          * intros; lia.
        + exists e'. rewrite Z.mul_1_r in He'. split; [exact He'|]. split; [auto|].
          split; [auto|]. split; [auto|].
          split; [rewrite Hout' by lia; apply zget_zset_eq; lia|].
          rewrite Hslice, Hp', zslice_zset_in by lia. rewrite Z.sub_diag.
          rewrite (zslice_cons e 1 n (Some top)) by (auto; lia).
          change (zset (Some top :: zslice e (1 + 1) (n - 1)) 0 (Some last))
            with (Some last :: zslice e (1 + 1) (n - 1)).
          cbn [app]. constructor. apply Permutation_cons_append. }
    rewrite He'. cbn [bind]. rewrite (zread_ok _ _ _ H0'). cbn [bind].
    assert (Hm : Permutation (Some top :: zslice e' 1 n) (map Some m)) by (now rewrite Hp').
    assert (exists m', zslice e' 1 n = map Some m') as (m' & Hm').
    { assert (Hall : forall o, In o (zslice e' 1 n) -> exists it, o = Some it).
      { intros o Ho2. assert (In o (map Some m)) as Hin by (rewrite <- Hm; now right).
        apply in_map_iff in Hin as (y & <- & _). eauto. }
      revert Hall. generalize (zslice e' 1 n). induction l as [|o l IH]; intros Hall.
      - exists []. auto.
      - destruct (Hall o) as [it ->]; [now left|]. destruct IH as [m' ->].
        + intros o Ho2. apply Hall. now right.
        + exists (it :: m'). auto. }
    assert (Hpm : Permutation m (top :: m')).
    { rewrite Hm' in Hm. change (Some top :: map Some m') with (map Some (top :: m')) in Hm.
      symmetry. apply (Permutation_map (fun o => match o with Some a => a | None => top end)) in Hm.
      rewrite !map_map in Hm. rewrite !map_id in Hm. exact Hm. }
    exists (mk_heap (hcap h) n e'), (Some top), m'.
    split; [reflexivity|]. split; [reflexivity|]. split; [split; auto|].
    assert (Hlm : zlen m' = n).
    { apply Permutation_length in Hpm. unfold zlen in *. cbn [length] in Hpm. lia. }
    split; [cbn; auto|]. cbn [hsize hcap helems]. split; [lia|]. split; [lia|].
    split; [auto|]. split; [auto|]. split; [auto|]. now rewrite Hm'.
Qed.

Lemma hwf_empty lim cap e : 0 <= cap <= zlen e -> 16 * cap <= lim ->
  hwf lim (mk_heap cap 0 e) [].
Proof.
  intros. split; [reflexivity|]. cbn [hsize hcap helems].
  split; [lia|]. split; [lia|]. split; [lia|].
  split; [intros j Hj; lia|]. split; [intros j Hj; lia|].
  unfold zslice. cbn. constructor.
Qed.

Lemma init_correct lim cap ok h : 0 <= cap < 2^64 -> 0 <= lim < 2^62 ->
  heap_init lim cap ok = (h, true) -> hwf lim h [].
Proof.
  intros Hc Hlim. unfold heap_init. destruct (cap =? 0) eqn:E.
  - intros H; injection H as <-. apply hwf_empty; [unfold zlen; cbn|]; lia.
  - destruct (_ || _) eqn:Eg; [discriminate|]. intros H; injection H as <-.
    unfold heap_max, granted in Eg. change ((2^64-1)/16) with (2^60 - 1) in Eg.
    rewrite (u64_small (cap * 16)) in * by lia.
    destruct (@realloc_block_gen (item D) [] (cap * 16) 16 cap) as [Hr1 Hr2]; try lia.
    apply hwf_empty; lia.
Qed.

Lemma clear_correct lim h m : hwf lim h m -> hwf lim (heap_clear h) [].
Proof.
  intros (H1 & H2 & H3 & H4 & Hw & Ho & Hp). apply hwf_empty; auto.
Qed.

Lemma pq_history lim ops : lim < 2^62 -> forall h m, hwf lim h m -> pq_obeys lim h m ops.
Proof.
  intros Hlim. induction ops as [|o ops IH]; intros h m Hwf; cbn [pq_obeys];
    (split; [apply Hwf|]); (split; [eapply peek_correct; eauto|]); [exact I|].
  destruct o as [k d ok| |].
  - destruct (add_correct lim h m k d ok Hwf Hlim) as (h' & ret & Ha & Ht & Hf & _).
    exists h', ret. split; [exact Ha|]. split; [intros; apply IH; auto|auto].
  - destruct (pop_correct lim h m Hwf Hlim) as (h' & o & m' & Ha & Hpk & Hpo & Hw').
    exists h', o, m'. repeat (split; auto).
  - apply IH. eapply clear_correct; eauto.
Qed.

Lemma add_all_correct lim l : lim < 2^62 -> forall h m h', hwf lim h m ->
  add_all lim h l = Ok (h', true) -> exists m', hwf lim h' m' /\ Permutation m' (l ++ m).
Proof.
  intros Hlim. induction l as [|[k d] l IH]; intros h m h' Hwf Ha; cbn [add_all] in Ha.
  - injection Ha as <-. exists m. split; [auto|]. reflexivity.
  - destruct (add_correct lim h m k d true Hwf Hlim) as (h1 & ret & H1 & Ht & Hf & _).
    rewrite H1 in Ha. cbn [bind] in Ha. apply bind_ok in Ha as ([h2 ok2] & Ha2 & Ha3).
    injection Ha3 as <- Hand. apply andb_prop in Hand as [Hret Hok2]. subst.
    destruct (IH h1 _ h2 (Ht eq_refl) Ha2) as (m' & Hw' & Hp').
    exists m'. split; [auto|]. rewrite Hp'. cbn. symmetry. apply Permutation_middle.
Qed.

Lemma pop_n_correct lim : lim < 2^62 -> forall n h m, hwf lim h m -> length m = n ->
  exists h' l, pop_n n h = Ok (h', map Some l) /\ Permutation l m /\ sorted_keys l /\ hwf lim h' [].
Proof.
  intros Hlim. induction n as [|n IH]; intros h m Hwf Hn.
  - destruct m; [|discriminate]. exists h, []. repeat split; auto; apply Hwf.
  - cbn [pop_n]. destruct (pop_correct lim h m Hwf Hlim) as (h1 & o & m1 & Ha & _ & Hpo & Hw1).
    rewrite Ha. cbn [bind]. destruct o as [it|]; cbn in Hpo.
    2: { destruct Hpo as [-> _]; discriminate. }
    destruct Hpo as [[Hin Hmin] Hperm].
    destruct (IH h1 m1 Hw1) as (h2 & l & Hpn & Hpl & Hsl & Hw2).
    { apply Permutation_length in Hperm. cbn in Hperm. lia. }
    rewrite Hpn. cbn [bind]. exists h2, (it :: l).
    split; [reflexivity|]. split; [rewrite Hperm; now constructor|].
    split; [|auto]. cbn. split; [|auto]. intros y Hy. apply Hmin.
    rewrite Hperm. right. rewrite <- Hpl. auto.
Qed.

End Proofs.
