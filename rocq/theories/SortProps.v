(** Sorting arrays (C141). *)
From Coq Require Import ZifyBool.
From Verif Require Import Base ArrayModel ArraySpec ArrayProofs SortModel.
Local Open Scope Z_scope.

(** ** Specification *)
Section Spec.
Context {A : Type}.

(** What ISO C asks of a comparison function (7.22.5p4): it defines an order. *)
Definition cmp_ok (cmp : cmp_fn A) : Prop :=
  (forall x y, cmp x y < 0 <-> cmp y x > 0) /\
  (forall x y z, cmp x y <= 0 -> cmp y z <= 0 -> cmp x z <= 0).

(** No item compares greater than a later one. *)
Definition in_order (cmp : cmp_fn A) (l : list A) : Prop :=
  forall i j x y, i <= j -> zget l i = Some x -> zget l j = Some y -> cmp x y <= 0.

(** What ISO C promises of qsort (7.22.5.2). *)
Definition qsort_ok (q : cmp_fn A -> list A -> list A) : Prop :=
  forall cmp l, cmp_ok cmp -> Permutation (q cmp l) l /\ in_order cmp (q cmp l).

(** An array used with sorting: as in ArraySpec.v, and sorting leaves the same
    items, in order. *)
Fixpoint obeys_sort (strict : bool) (q : cmp_fn A -> list A -> list A) (sz : Z) (a : arr A) (l : list A)
    (ops : list (sop A)) : Prop :=
  shows a l /\
  match ops with
  | [] => True
  | Call o :: r =>
      allowed l o ->
      exists a', arr_step sz a o = Ok a' /\
        (match o with
         | Add _ ok => arr_oom a' = true -> ok = false \/ 2^63 <= zlen l * sz
         | _ => True end) /\
        obeys_sort strict q sz a' (ideal l o (arr_oom a')) r
  | Sort cmp :: r =>
      cmp_ok cmp -> (strict = true -> l <> []) ->
      exists a' l', arr_sort strict q cmp a = Ok a' /\ Permutation l' l /\ in_order cmp l' /\
        arr_oom a' = arr_oom a /\ obeys_sort strict q sz a' l' r
  end.
End Spec.

(** ** Proofs *)
Section Proofs.
Context {A : Type}.

Lemma written_ok : forall (l : list A) e, (forall i x, zget l i = Some x -> zget e i = Some (Some x)) ->
  written_items (length l) e = Ok l.
Proof.
  induction l as [|x l IH]; intros e H; [reflexivity|]. cbn [length written_items].
  destruct e as [|o e]; [specialize (H 0 x eq_refl); discriminate|].
  pose proof (H 0 x eq_refl) as H0. cbn in H0. injection H0 as ->.
  rewrite (IH e); [reflexivity|]. intros i y Hi. pose proof (zget_Some_range _ _ _ Hi) as Hr.
  specialize (H (i + 1) y). unfold zget in *. destruct (Z.ltb_spec i 0); [lia|].
  destruct (Z.ltb_spec (i + 1) 0); [lia|]. replace (Z.to_nat (i + 1)) with (S (Z.to_nat i)) in H by lia.
  cbn [nth_error] in H. auto.
Qed.

Lemma sort_ok strict q sz (a : arr A) l cmp : qsort_ok q -> cmp_ok cmp -> wf sz a l ->
  (strict = true -> l <> []) ->
  exists a' l', arr_sort strict q cmp a = Ok a' /\ Permutation l' l /\ in_order cmp l' /\
    arr_oom a' = arr_oom a /\ wf sz a' l'.
Proof.
  intros Hq Hc (H1 & H2 & H3 & H4 & H5) Hs. unfold arr_sort.
  assert (E : strict && (zlen (elems a) =? 0) = false).
  { destruct strict; [|reflexivity]. cbn. apply Z.eqb_neq. intro E. apply (Hs eq_refl).
    apply zlen_zero. pose proof (zlen_nonneg l). lia. }
  rewrite E. destruct (Hq cmp l Hc) as (Hp & Ho).
  replace (Z.to_nat (size a)) with (length l) by (rewrite H1; unfold zlen; lia).
  rewrite (written_ok l (elems a) H5). cbn [bind].
  exists (mk_arr (oom a) (cap a) (size a) (map Some (q cmp l) ++ skipn (length l) (elems a))), (q cmp l).
  pose proof (Permutation_length Hp) as Hlen.
  repeat split; auto; cbn [size cap elems].
  - unfold zlen in *. lia.
  - rewrite H2. unfold zlen in *. rewrite app_length, map_length, skipn_length. lia.
  - unfold zlen in *. lia.
  - intros i x Hi. pose proof (zget_Some_range _ _ _ Hi) as Hr. unfold zget in *.
    destruct (i <? 0); [discriminate|]. rewrite nth_error_app1 by (rewrite map_length; unfold zlen in Hr; lia).
    rewrite nth_error_map, Hi. reflexivity.
Qed.
End Proofs.

(** C141: arrays with sorting in between behave as sequences; sorting gives the
    same items in order.  Proved for qsort implementations that accept NULL for
    zero items, or for arrays that are not empty. *)
Theorem array_sort_partial :
  forall (A : Type) (strict : bool) (q : cmp_fn A -> list A -> list A) (sz : Z) (ops : list (sop A)),
    qsort_ok q -> 1 <= sz -> 8 * sz < 2^64 ->
    obeys_sort strict q sz arr_init [] ops.
Proof.
  intros A strict q sz ops Hq Hsz H8.
  assert (H : forall ops (a : arr A) l, wf sz a l -> obeys_sort strict q sz a l ops); [|apply H; now apply wf_init].
  clear ops. induction ops as [|[o|cmp] ops IH]; intros a l Hwf; cbn [obeys_sort];
    (split; [eapply wf_shows; eauto|]); [exact I| |].
  - intros Hal. destruct o as [x ok|i|i| |]; cbn [arr_step allowed ideal] in *.
    + destruct (add_ok sz a l x ok Hsz H8 Hwf) as (a' & Ha & Hoom & Hw & _). exists a'. auto.
    + destruct (del_ok sz a l i Hsz Hwf Hal) as (a' & Ha & Hw). eauto.
    + destruct (del_unordered_ok sz a l i Hsz Hwf Hal) as (a' & Ha & Hw). eauto.
    + destruct (del_last_ok sz a l Hwf Hal) as (a' & Ha & Hw). eauto.
    + eexists; split; [reflexivity|]. split; [exact I|]. apply IH. eapply clear_ok; eauto.
  - intros Hc Hs. destruct (sort_ok strict q sz a l cmp Hq Hc Hwf Hs) as (a' & l' & H1 & H2 & H3 & H4 & H5).
    exists a', l'. repeat split; auto.
Qed.
Print Assumptions array_sort_partial.

(** A qsort: sorting by insertion. *)
Fixpoint insert {A} (cmp : cmp_fn A) (x : A) (l : list A) : list A :=
  match l with
  | [] => [x]
  | y :: r => if cmp x y <=? 0 then x :: l else y :: insert cmp x r
  end.
Definition isort {A} (cmp : cmp_fn A) (l : list A) : list A := fold_right (insert cmp) [] l.

Lemma insert_perm {A} (cmp : cmp_fn A) x l : Permutation (insert cmp x l) (x :: l).
Proof.
  induction l as [|y l IH]; cbn [insert]; [reflexivity|]. destruct (cmp x y <=? 0); [reflexivity|].
  rewrite IH. apply perm_swap.
Qed.

Lemma in_order_cons {A} (cmp : cmp_fn A) x l : in_order cmp (x :: l) <->
  (forall y, In y (x :: l) -> cmp x y <= 0) /\ in_order cmp l.
Proof.
  split.
  - intros H. split.
    + intros y Hy. apply In_zget in Hy as (j & Hj & Hy). apply (H 0 j x y); auto; lia.
    + intros i j a b Hij Hi Hj. pose proof (zget_Some_range _ _ _ Hi). pose proof (zget_Some_range _ _ _ Hj).
      apply (H (i + 1) (j + 1) a b); [lia| |]; unfold zget in *;
        [destruct (Z.ltb_spec (i + 1) 0); [lia|]; destruct (Z.ltb_spec i 0); [lia|];
         replace (Z.to_nat (i + 1)) with (S (Z.to_nat i)) by lia
        |destruct (Z.ltb_spec (j + 1) 0); [lia|]; destruct (Z.ltb_spec j 0); [lia|];
         replace (Z.to_nat (j + 1)) with (S (Z.to_nat j)) by lia]; auto.
  - intros (H1 & H2) i j a b Hij Hi Hj. pose proof (zget_Some_range _ _ _ Hi). pose proof (zget_Some_range _ _ _ Hj).
    destruct (Z.eq_dec i 0) as [->|Hne].
    + cbn in Hi. injection Hi as <-. apply H1. eapply zget_In; eauto.
    + apply (H2 (i - 1) (j - 1) a b); [lia| |]; unfold zget in *;
        [destruct (Z.ltb_spec (i - 1) 0); [lia|]; destruct (Z.ltb_spec i 0); [lia|];
         replace (Z.to_nat i) with (S (Z.to_nat (i - 1))) in Hi by lia
        |destruct (Z.ltb_spec (j - 1) 0); [lia|]; destruct (Z.ltb_spec j 0); [lia|];
         replace (Z.to_nat j) with (S (Z.to_nat (j - 1))) in Hj by lia]; auto.
Qed.

Lemma isort_ok {A} : qsort_ok (@isort A).
Proof.
  intros cmp l (Hsym & Htr). split.
  - induction l as [|x l IH]; cbn [isort fold_right]; [reflexivity|]. rewrite insert_perm. now constructor.
  - assert (Hrefl : forall x, cmp x x <= 0) by (intros x; specialize (Hsym x x); lia).
    assert (Hins : forall x l, in_order cmp l -> in_order cmp (insert cmp x l)).
    { clear l. intros x. induction l as [|y l IH]; intros Ho; cbn [insert].
      - apply in_order_cons. split; [|exact Ho]. intros y [<-|[]]. apply Hrefl.
      - apply in_order_cons in Ho as (H1 & H2). destruct (Z.leb_spec (cmp x y) 0) as [L|L].
        + apply in_order_cons. split; [|apply in_order_cons; auto].
          intros z [<-|Hz]; [apply Hrefl|]. apply (Htr x y z); auto.
        + apply in_order_cons. split; [|auto]. intros z Hz.
          destruct Hz as [<-|Hz]; [apply Hrefl|].
          eapply Permutation_in in Hz; [|apply insert_perm]. destruct Hz as [<-|Hz].
          * specialize (Hsym y x). lia.
          * apply H1. now right. }
    induction l as [|x l IH]; cbn [isort fold_right]; [|now apply Hins].
    intros i j x y _ Hi. unfold zget in Hi. destruct (i <? 0); [discriminate|]. destruct (Z.to_nat i); discriminate.
Qed.

(** Five items, a deletion, two sorts in different directions. *)
Example array_sort_ex :
  let up x y := x - y in let down x y := y - x in
  qsort_ok (@isort Z) /\ cmp_ok up /\ cmp_ok down /\
  exists a b c d e, foldM (arr_step 4) arr_init (map (fun x => Add x true) [3; 9; 4; 1; 7]) = Ok a /\
    arr_sort true isort up a = Ok b /\ firstn 5 (elems b) = map Some [1; 3; 4; 7; 9] /\
    arr_step 4 b (Del 1) = Ok c /\
    arr_sort true isort down c = Ok d /\ firstn 4 (elems d) = map Some [9; 7; 4; 1] /\
    arr_step 4 d (Add 5 true) = Ok e /\ firstn 5 (elems e) = map Some [9; 7; 4; 1; 5].
Proof.
  intros up down. split; [apply isort_ok|]. split; [unfold cmp_ok, up; split; intros; lia|].
  split; [unfold cmp_ok, down; split; intros; lia|].
  vm_example.
Qed.

(** Missing: by the letter of ISO C an array that never held an item must not
    be sorted, since qsort gets NULL. *)
Theorem array_sort_empty_refuted :
  forall (A : Type) (q : cmp_fn A -> list A -> list A) (cmp : cmp_fn A),
    arr_sort true q cmp arr_init = UB.
Proof. reflexivity. Qed.
Print Assumptions array_sort_empty_refuted.
