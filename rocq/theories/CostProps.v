(** What calls cost: growth of arrays, queues and heaps, and comparisons of
    the heap (C138, C139). *)
From Coq Require Import ZifyBool.
From Verif Require Import Base ArrayModel QueueModel QueueSpec QueueProofs HeapModel HeapSpec HeapProofs HeapProps CostModel.
Local Open Scope Z_scope.

(** ** Specification *)

(** All states of a run, the first one included. *)
Fixpoint trail {S O} (step : S -> O -> res S) (s : S) (ops : list O) : res (list S) :=
  match ops with
  | [] => Ok [s]
  | o :: r =>
      let* s' := step s o in
      let* t := trail step s' r in
      Ok (s :: t)
  end.

(** The items that had to be moved because blocks were replaced: whenever the
    capacity changes, at most the old capacity. *)
Fixpoint moved {S} (cap : S -> Z) (t : list S) : Z :=
  match t with
  | s :: r =>
      match r with
      | s' :: _ => (if cap s' =? cap s then 0 else cap s) + moved cap r
      | [] => 0
      end
  | [] => 0
  end.

(** How often the capacity changed. *)
Fixpoint growths {S} (cap : S -> Z) (t : list S) : Z :=
  match t with
  | s :: r =>
      match r with
      | s' :: _ => (if cap s' =? cap s then 0 else 1) + growths cap r
      | [] => 0
      end
  | [] => 0
  end.

(** The largest number of items held at any time. *)
Fixpoint peak {S} (size : S -> Z) (t : list S) : Z :=
  match t with [] => 0 | s :: r => Z.max (size s) (peak size r) end.

(** What all of them promise, [c0] being the capacity after the first
    allocation and [k] the number of allocations (0 or 1) that are not counted:
    the capacity is never more than twice the number of items, all moves
    together cost no more than that, and the number of moves is logarithmic. *)
Definition grows_well {S} (cap size : S -> Z) (c0 k : Z) (t : list S) : Prop :=
  (forall s, In s t -> cap s <= Z.max c0 (2 * peak size t)) /\
  moved cap t <= 2 * peak size t /\
  (growths cap t <= k \/ c0 * 2^(growths cap t - k - 1) <= peak size t).

(** ** Growth in general *)
Section Doubling.
Context {S O : Type} (step : S -> O -> res S) (cap size : S -> Z) (c0 : Z) (inv : S -> Prop).
Hypothesis Hc0 : 0 < c0.
Hypothesis Hstep : forall s o s', inv s -> step s o = Ok s' ->
  inv s' /\
  (cap s' = cap s \/ (cap s = 0 /\ cap s' = c0) \/
   (0 < cap s /\ cap s' = 2 * cap s /\ cap s <= size s')).

Lemma trail_head : forall ops s t, trail step s ops = Ok t -> exists r, t = s :: r.
Proof.
  intros [|o ops] s t Ht; cbn [trail] in Ht; [injection Ht as <-; eauto|].
  apply bind_ok in Ht as (? & _ & Ht). apply bind_ok in Ht as (? & _ & Ht). injection Ht as <-. eauto.
Qed.

Lemma doubling : forall ops s t, inv s -> 0 <= cap s -> (cap s = 0 \/ c0 <= cap s) ->
  trail step s ops = Ok t ->
  exists c, (forall x, In x t -> cap x <= c) /\ cap s <= c /\
    (c = cap s \/ (cap s = 0 /\ c = c0) \/ c <= 2 * peak size t) /\
    moved cap t + cap s <= c /\ (cap s = 0 -> moved cap t = 0 \/ moved cap t + c0 <= c) /\
    0 <= growths cap t /\
    (c = cap s /\ growths cap t = 0 \/
     cap s = 0 /\ 1 <= growths cap t /\ c = c0 * 2^(growths cap t - 1) \/
     0 < cap s /\ c = cap s * 2^growths cap t).
Proof.
  induction ops as [|o ops IH]; intros s t Hi H0 Hz Ht; cbn [trail] in Ht.
  - injection Ht as <-. exists (cap s). cbn [moved growths peak]. repeat split; try lia.
    intros x [<-|[]]. lia.
  - apply bind_ok in Ht as (s1 & Hs & Ht). apply bind_ok in Ht as (t1 & Ht & E). injection E as <-.
    destruct (Hstep _ _ _ Hi Hs) as (Hi1 & Hcase).
    destruct (IH s1 t1 Hi1 ltac:(lia) ltac:(lia) Ht) as (c & Hall & Hle & Hpk & Hmv & Hmv0 & Hg0 & Hgr).
    destruct (trail_head _ _ _ Ht) as (r & ->).
    exists c.
    assert (Hp1 : size s1 <= peak size (s1 :: r)) by (cbn [peak]; lia).
    assert (Hp2 : peak size (s1 :: r) <= peak size (s :: s1 :: r)) by (cbn [peak]; lia).
    set (r1 := s1 :: r) in *.
    assert (Em : moved cap (s :: r1) = (if cap s1 =? cap s then 0 else cap s) + moved cap r1) by reflexivity.
    assert (Eg : growths cap (s :: r1) = (if cap s1 =? cap s then 0 else 1) + growths cap r1) by reflexivity.
    rewrite Em, Eg.
    split; [intros x [<-|Hx]; [lia|auto]|].
    split; [lia|].
    destruct (Z.eqb_spec (cap s1) (cap s)) as [E|E].
    + rewrite E in *. change (0 + growths cap r1) with (growths cap r1).
      change (0 + moved cap r1) with (moved cap r1). repeat split; try lia; auto.
    + destruct Hcase as [? | [(Ha & Hb) | (Ha & Hb & Hc)]]; [lia| |].
      * repeat split; try lia. right. left. split; [lia|]. split; [lia|].
        replace (1 + growths cap r1 - 1) with (growths cap r1) by lia.
        destruct Hgr as [(-> & ->) | [? | (_ & Hgr)]]; [lia|lia|]. now rewrite <- Hb.
      * repeat split; try lia. right. right. split; [lia|].
        rewrite Z.pow_add_r by lia. change (2^1) with 2.
        destruct Hgr as [(Hq & ->) | [? | (_ & Hgr)]]; [lia|lia|]. rewrite Hgr, Hb. ring.
Qed.

(** From an object without a block. *)
Lemma doubling_from_0 ops s t : inv s -> cap s = 0 -> trail step s ops = Ok t -> 0 <= peak size t ->
  grows_well cap size c0 1 t.
Proof.
  intros Hi Hs Ht Hp.
  destruct (doubling ops s t Hi ltac:(lia) ltac:(lia) Ht) as (c & Hall & Hle & Hpk & Hmv & Hmv0 & Hg0 & Hgr).
  split; [intros x Hx; specialize (Hall x Hx); lia|]. split; [specialize (Hmv0 Hs); lia|].
  destruct Hgr as [(_ & ->) | [(_ & H1 & Hgr) | ?]]; [lia| |lia].
  destruct (Z.eq_dec (growths cap t) 1) as [->|Hne]; [lia|]. right.
  replace (growths cap t - 1) with (1 + (growths cap t - 1 - 1)) in Hgr by lia.
  rewrite Z.pow_add_r in Hgr by lia. change (2^1) with 2 in Hgr.
  pose proof (Z.pow_pos_nonneg 2 (growths cap t - 1 - 1) ltac:(lia) ltac:(lia)). nia.
Qed.

(** From an object that has a block. *)
Lemma doubling_from ops s t : inv s -> cap s = c0 -> trail step s ops = Ok t -> 0 <= peak size t ->
  grows_well cap size c0 0 t.
Proof.
  intros Hi Hs Ht Hp.
  destruct (doubling ops s t Hi ltac:(lia) ltac:(lia) Ht) as (c & Hall & Hle & Hpk & Hmv & Hmv0 & Hg0 & Hgr).
  split; [intros x Hx; specialize (Hall x Hx); lia|]. split; [lia|].
  destruct Hgr as [(_ & ->) | [? | (_ & Hgr)]]; [lia|lia|].
  destruct (Z.eq_dec (growths cap t) 0) as [->|Hne]; [lia|]. right.
  replace (growths cap t) with (1 + (growths cap t - 0 - 1)) in Hgr by lia.
  rewrite Z.pow_add_r in Hgr by lia. change (2^1) with 2 in Hgr. rewrite Hs in Hgr.
  pose proof (Z.pow_pos_nonneg 2 (growths cap t - 0 - 1) ltac:(lia) ltac:(lia)). nia.
Qed.
End Doubling.

(** ** Arrays *)

(** C138: for every sequence of calls of an array, the growth costs. *)
Theorem array_growth :
  forall (A : Type) (sz : Z) (ops : list (op A)) (t : list (arr A)),
    1 <= sz ->
    trail (arr_step sz) arr_init ops = Ok t ->
    grows_well cap arr_size 8 1 t.
Proof.
  intros A sz ops t Hsz Ht.
  refine (doubling_from_0 (arr_step sz) cap arr_size 8 (fun a => 0 <= size a) ltac:(lia) _ ops arr_init t _ _ Ht _);
    [|cbn; lia|reflexivity|].
  2:{ destruct (trail_head _ _ _ _ Ht) as (r & ->). cbn [peak]. cbn. lia. }
  intros a o a' Hi Hs.
  assert (Hmax : arr_max / sz / 2 < 2^63).
  { rewrite Zdiv_Zdiv by lia. apply Z.div_lt_upper_bound; [lia|]. unfold arr_max. lia. }
  assert (Hu : forall x, 0 <= u64 x) by (intros x; unfold u64; apply Z.mod_pos_bound; lia).
  destruct o as [x ok|i|i| |]; cbn [arr_step] in Hs.
  - unfold arr_add in Hs. destruct (Z.eqb_spec (cap a) (size a)) as [E|E].
    + destruct (Z.ltb_spec (arr_max / sz / 2) (cap a)) as [L|L].
      { injection Hs as <-. cbn. auto. }
      destruct ok; [|injection Hs as <-; cbn; auto].
      apply bind_ok in Hs as (e & He & Hs). injection Hs as <-. cbn [cap arr_size size].
      split; [apply Hu|].
      destruct (Z.eqb_spec (cap a) 0) as [C|C]; [auto|]. right. right.
      unfold u64. rewrite !Z.mod_small by lia. lia.
    + apply bind_ok in Hs as (e & He & Hs). injection Hs as <-. cbn. split; [apply Hu|auto].
  - unfold arr_del in Hs. pose proof (Hu i). destruct (Z.ltb_spec (u64 i) (size a)); [|discriminate].
    apply bind_ok in Hs as (e & _ & Hs). injection Hs as <-. cbn. lia.
  - unfold arr_del_unordered in Hs. pose proof (Hu i). destruct (Z.ltb_spec (u64 i) (size a)); [|discriminate].
    apply bind_ok in Hs as (v & _ & Hs). apply bind_ok in Hs as (e & _ & Hs). injection Hs as <-. cbn. lia.
  - unfold arr_del_last in Hs. destruct (Z.eqb_spec (size a) 0); [discriminate|]. injection Hs as <-. cbn. lia.
  - injection Hs as <-. cbn. lia.
Qed.
Print Assumptions array_growth.

(** 40 adds: blocks of 8, 16, 32 and 64 items; 8 + 16 + 32 items are moved. *)
Example array_growth_ex :
  exists t, trail (arr_step 4) arr_init (map (fun n => ArrayModel.Add (Z.of_nat n) true) (seq 1 40)) = Ok t /\
    moved cap t = 56 /\ growths cap t = 4 /\ peak arr_size t = 40 /\ map cap (skipn 40 t) = [64].
Proof. vm_example. Qed.

(** ** Queues *)

Ltac qw := unfold wrap in *; repeat match goal with
  | |- context [if ?a <? ?b then _ else _] => destruct (Z.ltb_spec a b)
  | H : context [if ?a <? ?b then _ else _] |- _ => destruct (Z.ltb_spec a b)
  end.

(** A call of a queue, its result not looked at; to delete from an empty queue
    is outside the contract. *)
Definition q_run {A} (zero : A) (q : queue A) (o : qop A) : res (queue A) :=
  match o with
  | QueueModel.DelLast | QueueModel.DelFirst =>
      if q_size q =? 0 then UB else let* (q, _) := q_step zero q o in Ok q
  | _ => let* (q, _) := q_step zero q o in Ok q
  end.

Lemma expand_cap {A} (zero : A) q l ok q' : qwf q l -> q_expand zero q ok = Ok q' ->
  qcap q' = qcap q \/
  (qcap q' = 2 * qcap q /\ qoom q' = false /\ zlen l = qcap q - 1).
Proof.
  intros Hwf H. pose proof (qcap_range _ _ Hwf) as Hc. pose proof (zlen_nonneg l) as Hl0.
  pose proof Hwf as ((k & Hk & Hck) & He & Hf & Hl & Hla & Hi).
  unfold q_expand in H. rewrite (mask_wrap q l) in H by (auto; rewrite Hla; qw; lia).
  destruct (Z.eqb_spec (wrap (qcap q) (qlast q + 1)) (qfirst q)) as [E|E]; [|injection H as <-; auto].
  assert (Hfull : zlen l = qcap q - 1) by (rewrite Hla in E; qw; lia).
  change ((2^64-1)/2) with (2^63-1) in H.
  destruct (Z.ltb_spec (2^63-1) (qcap q)); [injection H as <-; auto|].
  destruct ok; [|injection H as <-; auto].
  destruct (Z.ltb_spec (zlen (qelems q)) (qcap q)); [discriminate|].
  injection H as <-. cbn [qcap qoom]. right. split; [|auto]. unfold u64. rewrite Z.mod_small; lia.
Qed.

(** C138: the same for queues, which start with 8 slots. *)
Theorem queue_growth :
  forall (A : Type) (zero : A) (ops : list (qop A)) (t : list (queue A)),
    trail (q_run zero) (q_init zero true) ops = Ok t ->
    grows_well qcap q_size 8 0 t.
Proof.
  intros A zero ops t Ht.
  assert (Hinit := init_ok zero).
  refine (doubling_from (q_run zero) qcap q_size 8 (fun q => exists l, qwf q l) ltac:(lia) _ ops (q_init zero true) t
            (ex_intro _ [] Hinit) eq_refl Ht _).
  2:{ destruct (trail_head _ _ _ _ Ht) as (r & ->). cbn [peak]. rewrite (size_ok _ _ Hinit). unfold zlen; cbn. lia. }
  intros q o q' (l & Hwf) Hs. pose proof (qcap_range _ _ Hwf) as Hc.
  assert (Hal : q_allowed l o).
  { destruct o; cbn [q_allowed q_run] in *; auto; rewrite (size_ok _ _ Hwf) in Hs;
      intros ->; unfold zlen in Hs; cbn in Hs; discriminate. }
  destruct (step_ok zero q l o Hwf Hal) as (q1 & ret & l1 & H1 & H2 & _ & Hw1).
  assert (q1 = q') as ->.
  { unfold q_run in Hs. rewrite H1 in Hs. cbn [bind] in Hs.
    destruct o; try (destruct (q_size q =? 0)); congruence. }
  split; [eauto|]. rewrite (size_ok _ _ Hw1).
  destruct o as [x ok|x ok| | |]; cbn [q_step q_ideal] in *.
  - apply bind_ok in H1 as (q2 & H1 & E). injection E as -> <-. unfold q_add_last in H1.
    apply bind_ok in H1 as (q3 & He & H1). destruct (expand_cap zero q l ok q3 Hwf He) as [Hcap | (Hcap & Ho & Hz)].
    + destruct (qoom q3); [injection H1 as <-; auto|].
      apply bind_ok in H1 as (e & _ & H1). injection H1 as <-. cbn [qcap]. auto.
    + rewrite Ho in H1. apply bind_ok in H1 as (e & _ & H1). injection H1 as <-. cbn [qcap q_oom qoom] in *.
      destruct H2 as (-> & _). rewrite zlen_app, zlen_cons, (zlen_nil A). lia.
  - apply bind_ok in H1 as (q2 & H1 & E). injection E as -> <-. unfold q_add_first in H1.
    apply bind_ok in H1 as (q3 & He & H1). destruct (expand_cap zero q l ok q3 Hwf He) as [Hcap | (Hcap & Ho & Hz)].
    + destruct (qoom q3); [injection H1 as <-; auto|].
      apply bind_ok in H1 as (e & _ & H1). injection H1 as <-. cbn [qcap]. auto.
    + rewrite Ho in H1. apply bind_ok in H1 as (e & _ & H1). injection H1 as <-. cbn [qcap q_oom qoom] in *.
      destruct H2 as (-> & _). rewrite zlen_cons. lia.
  - apply bind_ok in H1 as ((q2 & v) & H1 & E). injection E as -> <-. unfold q_del_last in H1.
    apply bind_ok in H1 as (w & _ & H1). injection H1 as <- _. auto.
  - apply bind_ok in H1 as ((q2 & v) & H1 & E). injection E as -> <-. unfold q_del_first in H1.
    apply bind_ok in H1 as (w & _ & H1). injection H1 as <- _. auto.
  - injection H1 as <- _. auto.
Qed.
Print Assumptions queue_growth.

(** 20 adds at both ends: rings of 8, 16 and 32 slots. *)
Example queue_growth_ex :
  exists t, trail (q_run 0) (q_init 0 true)
              (flat_map (fun n => [AddLast (Z.of_nat n) true; AddFirst 0 true]) (seq 1 10)) = Ok t /\
    moved qcap t = 24 /\ growths qcap t = 2 /\ peak q_size t = 20.
Proof. vm_example. Qed.

(** ** Heaps *)

(** A call of a heap; runs are followed as long as adds succeed. *)
Definition h_run {D} (lim : Z) (h : heap D) (o : hop D) : res (heap D) :=
  match o with
  | HAdd k d ok => let* (h', r) := heap_add lim h k d ok in if r then Ok h' else UB
  | HPop => let* (h', _) := heap_pop h in Ok h'
  | HClear => Ok (heap_clear h)
  end.

(** C138: the same for heaps initialised with capacity [c], as long as adds
    succeed; without initial capacity they start with 4. *)
Theorem heap_growth :
  forall (D : Type) (lim c : Z) (ok : bool) (h0 : heap D) (ops : list (hop D)) (t : list (heap D)),
    0 <= lim < 2^62 -> 0 <= c < 2^64 ->
    heap_init lim c ok = (h0, true) ->
    trail (h_run lim) h0 ops = Ok t ->
    grows_well hcap heap_size (if c =? 0 then 4 else c) (if c =? 0 then 1 else 0) t.
Proof.
  intros D lim c ok h0 ops t Hl Hc Hi Ht.
  pose proof (init_correct lim c ok h0 Hc Hl Hi) as Hwf0.
  assert (Hcap0 : hcap h0 = c /\ hsize h0 = 0).
  { unfold heap_init in Hi. destruct (Z.eqb_spec c 0); [injection Hi as <-; cbn; lia|].
    destruct (_ || _); [discriminate|]. injection Hi as <-. auto. }
  destruct Hcap0 as (Hcap0 & Hsz0).
  assert (Hp : 0 <= peak heap_size t).
  { destruct (trail_head _ _ _ _ Ht) as (r & ->). cbn [peak]. unfold heap_size. lia. }
  assert (Hstep : forall (h : heap D) o h', (exists m, hwf lim h m) -> h_run lim h o = Ok h' ->
            (exists m, hwf lim h' m) /\
            (hcap h' = hcap h \/ (hcap h = 0 /\ hcap h' = 4) \/
             (0 < hcap h /\ hcap h' = 2 * hcap h /\ hcap h <= heap_size h'))).
  { intros h o h' (m & Hm) Hs. pose proof Hm as (Hz & Hsz & Hcp & Hlim & _).
    pose proof (zlen_nonneg m). destruct o as [k d b| |]; cbn [h_run] in Hs.
    - destruct (add_correct lim h m k d b Hm ltac:(lia)) as (h2 & ret & Ha & Hr & _).
      rewrite Ha in Hs. cbn [bind] in Hs. destruct ret; [|discriminate]. injection Hs as <-.
      split; [eauto|]. unfold heap_add in Ha.
      rewrite (u64_small (hsize h + 1)) in Ha by lia.
      destruct (Z.leb_spec (hcap h) (hsize h + 1)).
      + destruct (_ || _); [discriminate|]. cbn beta zeta in Ha.
        apply bind_ok in Ha as (e & _ & Ha). injection Ha as <-. cbn [hcap heap_size hsize].
        destruct (Z.eqb_spec (hcap h) 0); [auto|]. rewrite u64_small by lia. lia.
      + apply bind_ok in Ha as (e & _ & Ha). injection Ha as <-. auto.
    - destruct (pop_correct lim h m Hm ltac:(lia)) as (h2 & r & m2 & Ha & _ & _ & Hw).
      rewrite Ha in Hs. cbn [bind] in Hs. injection Hs as <-. split; [eauto|]. left.
      unfold heap_pop in Ha. destruct (hsize h =? 0); [now injection Ha as <- _|].
      repeat (apply bind_ok in Ha as (? & _ & Ha)). now injection Ha as <- _.
    - injection Hs as <-. split; [exists []; eapply clear_correct; eauto|auto]. }
  destruct (Z.eqb_spec c 0) as [->|Hne].
  - exact (doubling_from_0 (h_run lim) hcap heap_size 4 _ ltac:(lia) Hstep ops h0 t
             (ex_intro _ [] Hwf0) Hcap0 Ht Hp).
  - refine (doubling_from (h_run lim) hcap heap_size c (fun h => exists m, hwf lim h m /\ hcap h <> 0) ltac:(lia) _ ops h0 t
              _ Hcap0 Ht Hp).
    + intros h o h' (m & Hm & Hnz) Hs. destruct (Hstep h o h' (ex_intro _ m Hm) Hs) as ((m' & Hm') & Hcase).
      split; [exists m'; split; [auto|lia]|lia].
    + exists []. split; [auto|lia].
Qed.
Print Assumptions heap_growth.

(** Twelve adds without an initial capacity: 4, 8 and 16 slots. *)
Example heap_growth_ex :
  exists h0 t, heap_init (2^40) 0 true = (h0, true) /\
    trail (h_run (2^40)) h0 (map (fun n => HAdd (Z.of_nat n) 0 true) (seq 1 12)) = Ok t /\
    moved hcap t = 12 /\ growths hcap t = 3 /\ peak heap_size t = 12.
Proof. vm_example. Qed.

(** ** Comparisons of the heap *)
Section Compare.
Context {D : Type}.
Implicit Types (h : heap D) (e : list (option (item D))).

Lemma sift_up_erase : forall fuel e i x n,
  sift_up fuel e i x = (let* (e', _) := sift_up_c fuel e i x n in Ok e').
Proof.
  induction fuel as [|f IH]; intros e i x n; [reflexivity|]. cbn [sift_up sift_up_c].
  destruct (i =? 1); [destruct (zput e i (Some x)); reflexivity|].
  destruct (zread e (i / 2)) as [p| |]; cbn [bind]; try reflexivity.
  destruct (fst x <? fst p).
  - destruct (zput e i (Some p)) as [e'| |]; cbn [bind]; try reflexivity. apply IH.
  - destruct (zput e i (Some x)); reflexivity.
Qed.

Lemma add_erase lim h k d ok :
  heap_add lim h k d ok = (let* (h', r, _) := heap_add_c lim h k d ok in Ok (h', r)).
Proof.
  unfold heap_add, heap_add_c. cbv zeta.
  assert (E : forall cap e size,
    (let* e' := sift_up (S (Z.to_nat size)) e size (k, d) in Ok (mk_heap cap size e', true)) =
    (let* (h', r, _) := (let* (e', n) := sift_up_c (S (Z.to_nat size)) e size (k, d) 0 in
                         Ok (mk_heap cap size e', true, n)) in Ok (h', r))).
  { intros cap e size. rewrite (sift_up_erase _ _ _ _ 0).
    destruct (sift_up_c _ _ _ _ _) as [[e' n]| |]; reflexivity. }
  destruct (hcap h <=? u64 (hsize h + 1)); [destruct (_ || _); [reflexivity|]|]; apply E.
Qed.

Lemma sift_down_erase : forall fuel e i child n x k,
  sift_down fuel e i child n x = (let* (e', _) := sift_down_c fuel e i child n x k in Ok e').
Proof.
  induction fuel as [|f IH]; intros e i child n x k; [reflexivity|]. cbn [sift_down sift_down_c].
  destruct (child <=? n); [|destruct (zput e i (Some x)); reflexivity].
  assert (E : forall c k', 
     (let* v := zread e c in
      if fst x <=? fst v then zput e i (Some x)
      else let* e' := zput e i (Some v) in sift_down f e' c (u64 (c * 2)) n x) =
     (let* (e', _) := (let* v := zread e c in
      if fst x <=? fst v then let* e := zput e i (Some x) in Ok (e, k' + 1)
      else let* e' := zput e i (Some v) in sift_down_c f e' c (u64 (c * 2)) n x (k' + 1)) in Ok e')).
  { intros c k'. destruct (zread e c) as [v| |]; cbn [bind]; try reflexivity.
    destruct (fst x <=? fst v); [destruct (zput e i (Some x)); reflexivity|].
    destruct (zput e i (Some v)) as [e'| |]; cbn [bind]; try reflexivity. apply IH. }
  destruct (child <? n); [|cbn [bind]; apply E].
  destruct (zread e child) as [a| |]; cbn [bind]; try reflexivity.
  destruct (zread e (child + 1)) as [b| |]; cbn [bind]; try reflexivity. apply E.
Qed.

Lemma pop_erase h : heap_pop h = (let* (h', o, _) := heap_pop_c h in Ok (h', o)).
Proof.
  unfold heap_pop, heap_pop_c. destruct (hsize h =? 0); [reflexivity|].
  destruct (zread (helems h) 1) as [top| |]; cbn [bind]; try reflexivity.
  destruct (zput (helems h) 0 (Some top)) as [e| |]; cbn [bind]; try reflexivity.
  destruct (zread e (hsize h)) as [last| |]; cbn [bind]; try reflexivity. cbv zeta.
  rewrite (sift_down_erase _ _ _ _ _ _ 0).
  destruct (sift_down_c _ _ _ _ _ _ _) as [[e' k]| |]; cbn [bind]; try reflexivity.
  destruct (zread e' 0); reflexivity.
Qed.

Lemma log2_half i : 2 <= i -> Z.log2 i = Z.log2 (i / 2) + 1.
Proof.
  intros Hi. replace (i / 2) with (Z.shiftr i 1) by (rewrite Z.shiftr_div_pow2; [reflexivity|lia]).
  rewrite Z.log2_shiftr by lia. assert (1 <= Z.log2 i) by (apply (Z.log2_le_pow2 i 1); lia). lia.
Qed.

Lemma sift_up_cost : forall fuel e i x n e' n', 1 <= i -> 
  sift_up_c fuel e i x n = Ok (e', n') -> n' <= n + Z.log2 i.
Proof.
  induction fuel as [|f IH]; intros e i x n e' n' Hi H; [discriminate|]. cbn [sift_up_c] in H.
  destruct (Z.eqb_spec i 1) as [->|Hne].
  - apply bind_ok in H as (e1 & _ & H). injection H as _ <-. cbn. lia.
  - apply bind_ok in H as (p & _ & H). pose proof (log2_half i ltac:(lia)) as Hlog.
    pose proof (Z.log2_nonneg (i / 2)).
    destruct (fst x <? fst p).
    + apply bind_ok in H as (e1 & _ & H). assert (1 <= i / 2) by (apply Z.div_le_lower_bound; lia).
      apply IH in H; lia.
    + apply bind_ok in H as (e1 & _ & H). injection H as _ <-. lia.
Qed.

(** [d] turns remain: [child] is on level [log2 child] of the tree. *)
Lemma sift_down_cost : forall fuel e i child n x k e' k', 1 <= child -> 0 <= n < 2^62 ->
  sift_down_c fuel e i child n x k = Ok (e', k') ->
  k' <= k + 2 * Z.max 0 (Z.log2 n - Z.log2 child + 1).
Proof.
  induction fuel as [|f IH]; intros e i child n x k e' k' Hc Hn H; [discriminate|]. cbn [sift_down_c] in H.
  destruct (Z.leb_spec child n) as [Hle|Hgt].
  2:{ apply bind_ok in H as (e1 & _ & H). injection H as _ <-. lia. }
  pose proof (Z.log2_le_mono child n Hle) as Hll.
  apply bind_ok in H as ((c & k1) & H1 & H).
  assert (Hc1 : child <= c <= n /\ k1 <= k + 1).
  { destruct (Z.ltb_spec child n).
    - apply bind_ok in H1 as (a & _ & H1). apply bind_ok in H1 as (b & _ & H1). injection H1 as <- <-.
      destruct (fst b <? fst a); lia.
    - injection H1 as <- <-. lia. }
  apply bind_ok in H as (v & _ & H). destruct (fst x <=? fst v).
  - apply bind_ok in H as (e1 & _ & H). injection H as _ <-. lia.
  - apply bind_ok in H as (e1 & _ & H). rewrite u64_small in H by lia.
    specialize (IH _ _ (c * 2) _ _ _ _ _ ltac:(lia) Hn H).
    rewrite (Z.mul_comm c 2), Z.log2_double in IH by lia.
    pose proof (Z.log2_le_mono child c ltac:(lia)). lia.
Qed.

End Compare.

(** C139: adding to a heap that then holds [n] items compares at most log2 n
    times, and removing the least item of [n] at most 2 log2 n times; the
    counting functions are the functions of the model. *)
Theorem heap_comparisons :
  forall (D : Type) (lim : Z) (h : heap D),
    0 <= heap_size h < 2^62 ->
    (forall k d ok h' r n,
       heap_add_c lim h k d ok = Ok (h', r, n) ->
       heap_add lim h k d ok = Ok (h', r) /\ n <= Z.log2 (heap_size h')) /\
    (forall h' o n,
       heap_pop_c h = Ok (h', o, n) ->
       heap_pop h = Ok (h', o) /\ n <= 2 * Z.log2 (heap_size h')) /\
    (forall k d ok h' r,
       heap_add lim h k d ok = Ok (h', r) -> exists n, heap_add_c lim h k d ok = Ok (h', r, n)) /\
    (forall h' o,
       heap_pop h = Ok (h', o) -> exists n, heap_pop_c h = Ok (h', o, n)).
Proof.
  intros D lim h Hs. unfold heap_size in *. split; [|split; [|split]].
  - intros k d ok h' r n H. split; [rewrite add_erase, H; reflexivity|].
    unfold heap_add_c in H. cbv zeta in H. rewrite u64_small in H by lia.
    assert (F : forall cap e,
      (let* (e', n) := sift_up_c (S (Z.to_nat (hsize h + 1))) e (hsize h + 1) (k, d) 0 in
       Ok (mk_heap cap (hsize h + 1) e', true, n)) = Ok (h', r, n) -> n <= Z.log2 (hsize h')).
    { intros cap e F. apply bind_ok in F as ((e' & n') & F & E). injection E as <- _ <-. cbn [hsize].
      apply sift_up_cost in F; lia. }
    destruct (hcap h <=? hsize h + 1); [destruct (_ || _)|]; [|eauto|eauto].
    injection H as <- _ <-. apply Z.log2_nonneg.
  - intros h' o n H. split; [rewrite pop_erase, H; reflexivity|].
    unfold heap_pop_c in H. destruct (Z.eqb_spec (hsize h) 0).
    { injection H as <- _ <-. pose proof (Z.log2_nonneg (hsize h)). lia. }
    apply bind_ok in H as (? & _ & H). apply bind_ok in H as (? & _ & H). apply bind_ok in H as (? & _ & H).
    cbv zeta in H. apply bind_ok in H as ((e' & k) & H & E). apply bind_ok in E as (? & _ & E).
    injection E as <- _ <-. cbn [hsize].
    pose proof (sift_down_cost _ _ _ 2 (hsize h - 1) _ _ _ _ ltac:(lia) ltac:(lia) H) as B.
    change (Z.log2 2) with 1 in B. pose proof (Z.log2_nonneg (hsize h - 1)). lia.
  - intros k d ok h' r H. rewrite add_erase in H. apply bind_ok in H as (((h1 & r1) & n) & H & E).
    injection E as <- <-. eauto.
  - intros h' o H. rewrite pop_erase in H. apply bind_ok in H as (((h1 & r1) & n) & H & E).
    injection E as <- <-. eauto.
Qed.
Print Assumptions heap_comparisons.

Example heap_comparisons_ex :
  exists h0 h7 n7 h8 h9, heap_init (2^40) 16 true = (h0, true) /\
    add_all_c (2^40) h0 (map (fun k => (k, k)) [70; 60; 50; 40; 30; 20; 10]) = Ok (h7, true, n7) /\ n7 = 10 /\
    heap_add_c (2^40) h7 5 5 true = Ok (h8, true, 3) /\
    heap_pop_c h8 = Ok (h9, Some (5, 5), 4).
Proof. vm_example. Qed.

Lemma add_all_cost {D} lim : lim < 2^62 -> forall (l : list (item D)) h m N h', hwf lim h m ->
  zlen m + zlen l <= N -> add_all lim h l = Ok (h', true) ->
  exists n, add_all_c lim h l = Ok (h', true, n) /\ n <= zlen l * Z.log2 N.
Proof.
  intros Hl. induction l as [|[k d] l IH]; intros h m N h' Hwf HN H; cbn [add_all add_all_c] in *.
  - injection H as <-. exists 0. split; [reflexivity|]. unfold zlen; cbn. lia.
  - apply bind_ok in H as ((h1 & ok1) & Ha & H). apply bind_ok in H as ((h2 & ok2) & Hb & E).
    injection E as <- E. apply andb_prop in E as (-> & ->).
    pose proof Hwf as (Hz & Hsz & Hcp & Hlim & _). rewrite zlen_cons in HN.
    pose proof (zlen_nonneg m). pose proof (zlen_nonneg l).
    destruct (heap_comparisons D lim h) as (Hadd & _ & Hadd2 & _); [unfold heap_size; lia|].
    destruct (Hadd2 _ _ _ _ _ Ha) as (n1 & Hc). rewrite Hc. cbn [bind].
    destruct (Hadd _ _ _ _ _ _ Hc) as (_ & Hn1).
    destruct (add_correct lim h m k d true Hwf Hl) as (h3 & ret & Ha3 & Hr & _).
    rewrite Ha in Ha3. injection Ha3 as <- <-. specialize (Hr eq_refl).
    destruct (IH h1 ((k, d) :: m) N h2 Hr ltac:(rewrite zlen_cons; lia) Hb) as (n2 & -> & Hn2). cbn [bind].
    exists (n1 + n2). split; [reflexivity|]. rewrite zlen_cons.
    assert (heap_size h1 = zlen m + 1) by (destruct Hr as (E & _); unfold heap_size; rewrite E, zlen_cons; lia).
    pose proof (Z.log2_le_mono (heap_size h1) N ltac:(lia)). lia.
Qed.

Lemma pop_n_cost {D} lim : lim < 2^62 -> forall n (h : heap D) m N, hwf lim h m -> length m = n -> zlen m <= N ->
  exists h' l k, pop_n_c n h = Ok (h', l, k) /\ pop_n n h = Ok (h', l) /\ k <= Z.of_nat n * (2 * Z.log2 N).
Proof.
  intros Hl. induction n as [|n IH]; intros h m N Hwf Hlen HN; cbn [pop_n pop_n_c].
  - exists h, [], 0. repeat split; lia.
  - pose proof Hwf as (Hz & Hsz & Hcp & Hlim & _). pose proof (zlen_nonneg m).
    destruct (heap_comparisons D lim h) as (_ & Hpop & _ & Hpop2); [unfold heap_size; lia|].
    destruct (pop_correct lim h m Hwf Hl) as (h1 & o & m1 & Ha & _ & Hok & Hw1).
    destruct (Hpop2 _ _ Ha) as (k1 & Hc). destruct (Hpop _ _ _ Hc) as (_ & Hk1).
    rewrite Hc, Ha. cbn [bind].
    assert (Hl1 : length m1 = n).
    { destruct o as [it|]; cbn [pop_ok] in Hok; [|destruct Hok as (-> & _); discriminate].
      destruct Hok as (_ & Hp). apply Permutation_length in Hp. cbn [length] in Hp. lia. }
    assert (zlen m = zlen m1 + 1) by (unfold zlen; lia).
    destruct (IH h1 m1 N Hw1 Hl1 ltac:(lia)) as (h2 & l & k2 & -> & -> & Hk2). cbn [bind].
    exists h2, (o :: l), (k1 + k2). repeat split.
    assert (heap_size h1 = zlen m1) by (destruct Hw1 as (E & _); exact E).
    pose proof (Z.log2_le_mono (heap_size h1) N ltac:(lia)). lia.
Qed.

(** C139: sorting [n] items with a heap, i.e. adding all and removing all,
    takes at most 3 n log2 n comparisons. *)
Theorem heap_sort_comparisons :
  forall (D : Type) (lim cap : Z) (ok : bool) (h0 h1 : heap D) (l : list (item D)),
    0 <= lim < 2^62 -> 0 <= cap < 2^64 ->
    heap_init lim cap ok = (h0, true) ->
    add_all lim h0 l = Ok (h1, true) ->
    exists n1 h2 out n2,
      add_all_c lim h0 l = Ok (h1, true, n1) /\
      pop_n_c (length l) h1 = Ok (h2, out, n2) /\ pop_n (length l) h1 = Ok (h2, out) /\
      n1 + n2 <= 3 * zlen l * Z.log2 (zlen l).
Proof.
  intros D lim cap ok h0 h1 l Hl Hc Hi Ha.
  pose proof (init_correct lim cap ok h0 Hc Hl Hi) as Hwf.
  destruct (add_all_cost lim ltac:(lia) l h0 [] (zlen l) h1 Hwf ltac:(unfold zlen at 1; cbn; lia) Ha) as (n1 & H1 & Hn1).
  destruct (add_all_correct lim l ltac:(lia) h0 [] h1 Hwf Ha) as (m & Hm & Hp).
  rewrite app_nil_r in Hp. apply Permutation_length in Hp.
  destruct (pop_n_cost lim ltac:(lia) (length l) h1 m (zlen l) Hm Hp ltac:(unfold zlen; lia))
    as (h2 & out & n2 & H2 & H3 & Hn2).
  exists n1, h2, out, n2. repeat split; auto. unfold zlen in *. lia.
Qed.
Print Assumptions heap_sort_comparisons.

Example heap_sort_comparisons_ex :
  exists h0 h1 n1 h2 out n2, heap_init (2^40) 0 true = (h0, true) /\
    add_all_c (2^40) h0 (map (fun k => (k, k)) [5; 3; 8; 1; 9; 2; 7; 4]) = Ok (h1, true, n1) /\
    pop_n_c 8 h1 = Ok (h2, out, n2) /\ (n1, n2) = (10, 17) /\
    out = map (fun k => Some (k, k)) [1; 2; 3; 4; 5; 7; 8; 9].
Proof. vm_example. Qed.
