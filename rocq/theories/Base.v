(** Shared vocabulary of all models: outcomes with undefined behaviour,
    machine-integer wrap-around and bounds-checked memory blocks.
    Nothing in this file models a particular /repo function; it models the C
    language notions the functions are written in (array access, unsigned
    conversion).  All models below build on these definitions. *)
From Coq Require Export ZArith List Bool Lia Permutation.
From Coq Require Import ZifyBool.
Export ListNotations.
Global Open Scope Z_scope.
Global Open Scope list_scope.

(** Outcome of running a piece of C code.
    [UB] = undefined behaviour (out-of-bounds access, use of an unwritten
    slot, NULL dereference, signed overflow ...); [Fuel] = the model's loop
    bound ran out (used only for loops whose termination is not structural;
    theorems show it does not happen or that it always happens).
    (Used for every function of /repo modelled; ISO C 3.4.3.) *)
Inductive res (A : Type) : Type :=
| Ok (a : A)
| UB
| Fuel.
Arguments Ok {A} a.
Arguments UB {A}.
Arguments Fuel {A}.

(** Sequencing of outcomes: UB and Fuel propagate.
    (ISO C 6.8: statements in sequence.) *)
Definition bind {A B} (m : res A) (f : A -> res B) : res B :=
  match m with Ok a => f a | UB => UB | Fuel => Fuel end.
Notation "'let*' x ':=' m 'in' k" := (bind m (fun x => k))
  (at level 200, x pattern, m at level 100, k at level 200, right associativity).

(** Option as outcome: a failed bounds check is undefined behaviour.
    (ISO C 6.5.6p8, 3.4.3.) *)
Definition or_ub {A} (o : option A) : res A :=
  match o with Some a => Ok a | None => UB end.

(** Unsigned machine conversions (ISO C 6.3.1.3p2): uint8_t. *)
Definition u8 (x : Z) : Z := x mod 2^8.
(** uint16_t, ISO C 6.3.1.3p2. *)
Definition u16 (x : Z) : Z := x mod 2^16.
(** uint32_t, ISO C 6.3.1.3p2. *)
Definition u32 (x : Z) : Z := x mod 2^32.
(** uint64_t and 64-bit size_t, ISO C 6.3.1.3p2. *)
Definition u64 (x : Z) : Z := x mod 2^64.

(** Memory blocks are lists; an index is a C integer.
    (ISO C 6.5.2.1.) *)
Definition zlen {A} (l : list A) : Z := Z.of_nat (length l).

(** Bounds-checked read [l[i]]: None when outside the block.
    (ISO C 6.5.2.1.) *)
Definition zget {A} (l : list A) (i : Z) : option A :=
  if i <? 0 then None else nth_error l (Z.to_nat i).

(** Update of a list position (nat index); unchanged if outside.
    (ISO C 6.5.16.) *)
Fixpoint lset {A} (l : list A) (n : nat) (v : A) : list A :=
  match l, n with
  | [], _ => []
  | _ :: t, O => v :: t
  | h :: t, S n' => h :: lset t n' v
  end.

(** Update of a list position (C index); unchanged if outside.
    (ISO C 6.5.16.) *)
Definition zset {A} (l : list A) (i : Z) (v : A) : list A :=
  if i <? 0 then l else lset l (Z.to_nat i) v.

(** Bounds-checked write [l[i] = v]: undefined behaviour outside the block.
    (ISO C 6.5.16, 6.5.6p8.) *)
Definition zput {A} (l : list A) (i : Z) (v : A) : res (list A) :=
  if (0 <=? i) && (i <? zlen l) then Ok (zset l i v) else UB.

(** Bounds-checked read as an outcome.
    (ISO C 6.5.2.1, 6.5.6p8.) *)
Definition zload {A} (l : list A) (i : Z) : res A := or_ub (zget l i).

(** Read of a slot that may be unwritten ([None] inside): indeterminate
    value, treated as undefined behaviour.
    (ISO C 6.3.2.1p2.) *)
Definition zread {A} (l : list (option A)) (i : Z) : res A :=
  match zget l i with Some (Some v) => Ok v | _ => UB end.

(** Sub-block [from, from+n).
    (For memory copies, ISO C 7.24.2.1.) *)
Definition zslice {A} (l : list A) (from n : Z) : list A :=
  firstn (Z.to_nat n) (skipn (Z.to_nat from) l).

(** realloc(p, bytes) of a block of [sz]-byte slots: keeps the common prefix
    of the slots, new slots are unwritten.  The number of usable slots follows
    from the byte count actually passed; NULL is the empty block.
    (ISO C 7.22.3.5; array/sc_array.h:101, heap/sc_heap.c:90.) *)
Definition realloc_block {A} (l : list (option A)) (bytes sz : Z) : list (option A) :=
  let n := Z.to_nat (bytes / sz) in
  firstn n l ++ repeat None (n - length l).

(** Run an operation over a list of commands (ISO C 6.8, statements in sequence).
    (For the histories the theorems range over.) *)
Fixpoint foldM {S X} (f : S -> X -> res S) (s : S) (xs : list X) : res S :=
  match xs with
  | [] => Ok s
  | x :: xs' => let* s' := f s x in foldM f s' xs'
  end.

(* ------------------------------------------------------------------ *)
(** * Lemmas *)

Lemma zlen_nonneg {A} (l : list A) : 0 <= zlen l.
Proof. unfold zlen; lia. Qed.

Lemma zlen_nil (A : Type) : zlen (@nil A) = 0.
Proof. reflexivity. Qed.

Lemma zlen_cons {A} (a : A) l : zlen (a :: l) = zlen l + 1.
Proof. unfold zlen; cbn [length]; lia. Qed.

Lemma zlen_app {A} (l1 l2 : list A) : zlen (l1 ++ l2) = zlen l1 + zlen l2.
Proof. unfold zlen; rewrite app_length; lia. Qed.

Lemma zlen_repeat {A} (a : A) n : zlen (repeat a n) = Z.of_nat n.
Proof. unfold zlen; rewrite repeat_length; lia. Qed.

Lemma zlen_map {A B} (f : A -> B) l : zlen (map f l) = zlen l.
Proof. unfold zlen; rewrite map_length; lia. Qed.

Lemma zlen_rev {A} (l : list A) : zlen (rev l) = zlen l.
Proof. unfold zlen; rewrite rev_length; lia. Qed.

Lemma zlen_zero {A} (l : list A) : zlen l = 0 -> l = [].
Proof. destruct l; [auto|]. rewrite zlen_cons. pose proof (zlen_nonneg l); lia. Qed.

Lemma lset_length {A} (l : list A) n v : length (lset l n v) = length l.
Proof. revert n; induction l; destruct n; cbn; auto. Qed.

Lemma zlen_zset {A} (l : list A) i v : zlen (zset l i v) = zlen l.
Proof. unfold zlen, zset; destruct (i <? 0); [auto|]. now rewrite lset_length. Qed.

Lemma nth_error_lset_eq {A} (l : list A) n v :
  (n < length l)%nat -> nth_error (lset l n v) n = Some v.
Proof. revert n; induction l; destruct n; cbn; intros; try lia; auto. apply IHl; lia. Qed.

Lemma nth_error_lset_neq {A} (l : list A) n m v :
  n <> m -> nth_error (lset l n v) m = nth_error l m.
Proof.
  revert n m; induction l; destruct n, m; cbn; intros; auto; try congruence.
Qed.

Lemma zget_Some_range {A} (l : list A) i v : zget l i = Some v -> 0 <= i < zlen l.
Proof.
  unfold zget, zlen. destruct (i <? 0) eqn:E; [discriminate|].
  intros H. assert (nth_error l (Z.to_nat i) <> None) as H0 by congruence.
  apply nth_error_Some in H0. lia.
Qed.

Lemma zget_in_range {A} (l : list A) i : 0 <= i < zlen l -> exists v, zget l i = Some v.
Proof.
  unfold zget, zlen. intros H. destruct (i <? 0) eqn:E; [lia|].
  destruct (nth_error l (Z.to_nat i)) eqn:En; eauto.
  apply nth_error_None in En. lia.
Qed.

Lemma zget_None {A} (l : list A) i : zget l i = None <-> (i < 0 \/ zlen l <= i).
Proof.
  unfold zget, zlen. destruct (i <? 0) eqn:E.
  - split; [lia|auto].
  - rewrite nth_error_None. lia.
Qed.

Lemma zget_neg {A} (l : list A) i : i < 0 -> zget l i = None.
Proof. intros; apply zget_None; lia. Qed.

Lemma zget_zset_eq {A} (l : list A) i v : 0 <= i < zlen l -> zget (zset l i v) i = Some v.
Proof.
  unfold zget, zset, zlen; intros. destruct (i <? 0) eqn:E; [lia|].
  apply nth_error_lset_eq. lia.
Qed.

Lemma zget_zset_neq {A} (l : list A) i j v : i <> j -> zget (zset l i v) j = zget l j.
Proof.
  unfold zget, zset; intros. destruct (j <? 0) eqn:E; [auto|].
  destruct (i <? 0) eqn:E2; [auto|].
  apply nth_error_lset_neq. lia.
Qed.

Lemma zget_zset {A} (l : list A) i j v : 0 <= i < zlen l ->
  zget (zset l i v) j = if i =? j then Some v else zget l j.
Proof.
  intros. destruct (i =? j) eqn:E.
  - assert (i = j) by lia; subst. now apply zget_zset_eq.
  - apply zget_zset_neq; lia.
Qed.

Lemma zget_app1 {A} (l1 l2 : list A) i : i < zlen l1 -> zget (l1 ++ l2) i = zget l1 i.
Proof.
  unfold zget, zlen; intros. destruct (i <? 0) eqn:E; [auto|].
  apply nth_error_app1. lia.
Qed.

Lemma zget_app2 {A} (l1 l2 : list A) i : zlen l1 <= i -> zget (l1 ++ l2) i = zget l2 (i - zlen l1).
Proof.
  unfold zget, zlen; intros. destruct (i <? 0) eqn:E; [lia|].
  destruct (i - Z.of_nat (length l1) <? 0) eqn:E2; [lia|].
  rewrite nth_error_app2 by lia. f_equal. lia.
Qed.

Lemma zget_app {A} (l1 l2 : list A) i :
  zget (l1 ++ l2) i = if i <? zlen l1 then zget l1 i else zget l2 (i - zlen l1).
Proof. destruct (i <? zlen l1) eqn:E; [apply zget_app1 | apply zget_app2]; lia. Qed.

Lemma zget_cons0 {A} (a : A) l : zget (a :: l) 0 = Some a.
Proof. reflexivity. Qed.

Lemma zget_consS {A} (a : A) l i : 0 < i -> zget (a :: l) i = zget l (i - 1).
Proof.
  intros. unfold zget. destruct (i <? 0) eqn:E; [lia|].
  destruct (i - 1 <? 0) eqn:E2; [lia|].
  replace (Z.to_nat i) with (S (Z.to_nat (i - 1))) by lia. reflexivity.
Qed.

Lemma zget_cons {A} (a : A) l i :
  zget (a :: l) i = if i =? 0 then Some a else zget l (i - 1).
Proof.
  destruct (i =? 0) eqn:E.
  - assert (i = 0) by lia; subst; reflexivity.
  - destruct (Z_lt_dec i 0).
    + rewrite !zget_neg by lia; auto.
    + apply zget_consS; lia.
Qed.

Lemma zget_repeat {A} (a : A) n i :
  zget (repeat a n) i = if (0 <=? i) && (i <? Z.of_nat n) then Some a else None.
Proof.
  destruct ((0 <=? i) && (i <? Z.of_nat n)) eqn:E.
  - destruct (zget_in_range (repeat a n) i) as [v Hv]; [rewrite zlen_repeat; lia|].
    rewrite Hv. f_equal. unfold zget in Hv. destruct (i <? 0); [discriminate|].
    apply nth_error_In in Hv. symmetry. now apply repeat_spec in Hv.
  - apply zget_None. rewrite zlen_repeat. lia.
Qed.

Lemma zget_map {A B} (f : A -> B) l i : zget (map f l) i = option_map f (zget l i).
Proof.
  unfold zget. destruct (i <? 0); [reflexivity|].
  apply nth_error_map.
Qed.

Lemma zget_ext {A} (l1 l2 : list A) :
  zlen l1 = zlen l2 -> (forall i, 0 <= i < zlen l1 -> zget l1 i = zget l2 i) -> l1 = l2.
Proof.
  revert l2; induction l1 as [|a l1 IH]; intros [|b l2] Hl Hi.
  - auto.
  - rewrite zlen_nil, zlen_cons in Hl. pose proof (zlen_nonneg l2); lia.
  - rewrite zlen_nil, zlen_cons in Hl. pose proof (zlen_nonneg l1); lia.
  - rewrite !zlen_cons in *. f_equal.
    + specialize (Hi 0). rewrite !zget_cons0 in Hi. pose proof (zlen_nonneg l1).
      assert (Some a = Some b) by (apply Hi; lia). congruence.
    + apply IH; [lia|]. intros i Hr. specialize (Hi (i+1)).
      rewrite !zget_consS in Hi by lia. replace (i+1-1) with i in Hi by lia.
      apply Hi; lia.
Qed.

Lemma zget_In {A} (l : list A) i v : zget l i = Some v -> In v l.
Proof.
  unfold zget. destruct (i <? 0); [discriminate|]. apply nth_error_In.
Qed.

Lemma In_zget {A} (l : list A) v : In v l -> exists i, 0 <= i < zlen l /\ zget l i = Some v.
Proof.
  intros H. apply In_nth_error in H as [n Hn].
  exists (Z.of_nat n). assert (Hz : zget l (Z.of_nat n) = Some v).
  { unfold zget. destruct (Z.of_nat n <? 0) eqn:E; [lia|]. now rewrite Nat2Z.id. }
  split; [now apply zget_Some_range in Hz | auto].
Qed.

Lemma zset_out {A} (l : list A) i v : i < 0 \/ zlen l <= i -> zset l i v = l.
Proof.
  unfold zset, zlen. destruct (i <? 0) eqn:E; [auto|]. intros [?|H]; [lia|].
  assert ((length l <= Z.to_nat i)%nat) by lia. clear - H0.
  revert H0. generalize (Z.to_nat i) as n. induction l; destruct n; cbn; intros; auto; try lia.
  f_equal; apply IHl; lia.
Qed.

Lemma zset_same {A} (l : list A) i v : zget l i = Some v -> zset l i v = l.
Proof.
  intros H. apply zget_ext; rewrite ?zlen_zset; auto.
  intros j Hj. rewrite zget_zset by (eapply zget_Some_range; eauto).
  destruct (i =? j) eqn:E; [|auto]. assert (i = j) by lia; subst; auto.
Qed.

Lemma zput_ok {A} (l : list A) i v : 0 <= i < zlen l -> zput l i v = Ok (zset l i v).
Proof. intros. unfold zput. destruct ((0 <=? i) && (i <? zlen l)) eqn:E; [auto|lia]. Qed.

Lemma zput_inv {A} (l : list A) i v l' :
  zput l i v = Ok l' -> 0 <= i < zlen l /\ l' = zset l i v.
Proof.
  unfold zput. destruct ((0 <=? i) && (i <? zlen l)) eqn:E; [|discriminate].
  intros H; inversion H; subst. split; [lia|auto].
Qed.

Lemma zread_ok {A} (l : list (option A)) i v : zget l i = Some (Some v) -> zread l i = Ok v.
Proof. unfold zread; intros ->; auto. Qed.

Lemma zload_ok {A} (l : list A) i v : zget l i = Some v -> zload l i = Ok v.
Proof. unfold zload; intros ->; auto. Qed.

Lemma zget_firstn {A} (l : list A) n i :
  zget (firstn n l) i = if i <? Z.of_nat n then zget l i else None.
Proof.
  unfold zget. destruct (i <? 0) eqn:E; [destruct (i <? Z.of_nat n); reflexivity|].
  destruct (i <? Z.of_nat n) eqn:E2.
  - assert (Z.to_nat i < n)%nat as H by lia. clear E E2.
    revert n H; generalize (Z.to_nat i) as k; induction l; destruct k, n; cbn; intros; try lia; auto.
    apply IHl; lia.
  - apply nth_error_None. rewrite firstn_length. lia.
Qed.

Lemma zget_skipn {A} (l : list A) n i :
  0 <= i -> zget (skipn n l) i = zget l (i + Z.of_nat n).
Proof.
  intros. unfold zget. destruct (i <? 0) eqn:E; [lia|].
  destruct (i + Z.of_nat n <? 0) eqn:E2; [lia|].
  replace (Z.to_nat (i + Z.of_nat n)) with (n + Z.to_nat i)%nat by lia.
  clear. generalize (Z.to_nat i) as k. revert l.
  induction n; intros; cbn; auto. destruct l; cbn; auto. now destruct k.
Qed.

Lemma zlen_firstn {A} (l : list A) n : zlen (firstn n l) = Z.min (Z.of_nat n) (zlen l).
Proof. unfold zlen; rewrite firstn_length; lia. Qed.

Lemma zlen_skipn {A} (l : list A) n : zlen (skipn n l) = Z.max 0 (zlen l - Z.of_nat n).
Proof. unfold zlen; rewrite skipn_length; lia. Qed.

Lemma zget_zslice {A} (l : list A) from n i : 0 <= from ->
  zget (zslice l from n) i = if (0 <=? i) && (i <? n) then zget l (from + i) else None.
Proof.
  intros. unfold zslice. rewrite zget_firstn.
  destruct ((0 <=? i) && (i <? n)) eqn:E.
  - destruct (i <? Z.of_nat (Z.to_nat n)) eqn:E2; [|lia].
    rewrite zget_skipn by lia. f_equal; lia.
  - destruct (i <? Z.of_nat (Z.to_nat n)) eqn:E2; auto.
    apply zget_neg. lia.
Qed.

Lemma zlen_zslice {A} (l : list A) from n :
  0 <= from -> 0 <= n -> from + n <= zlen l -> zlen (zslice l from n) = n.
Proof. intros. unfold zslice. rewrite zlen_firstn, zlen_skipn. lia. Qed.

Lemma bind_ok {A B} (m : res A) (f : A -> res B) b :
  bind m f = Ok b -> exists a, m = Ok a /\ f a = Ok b.
Proof. destruct m; cbn; try discriminate; eauto. Qed.

Lemma foldM_app {S X} (f : S -> X -> res S) s xs ys :
  foldM f s (xs ++ ys) = let* s' := foldM f s xs in foldM f s' ys.
Proof. revert s; induction xs; cbn; intros; auto. destruct (f s a); cbn; auto. Qed.

Lemma Permutation_zset {A} (l : list A) i v w :
  zget l i = Some w -> Permutation (w :: zset l i v) (v :: l).
Proof.
  unfold zget, zset. destruct (i <? 0); [discriminate|].
  generalize (Z.to_nat i) as n. induction l; destruct n; cbn; intros; try discriminate.
  - injection H as ->. apply perm_swap.
  - apply IHl in H. etransitivity; [apply perm_swap|].
    rewrite H. apply perm_swap.
Qed.

Lemma u64_small x : 0 <= x < 2^64 -> u64 x = x.
Proof. intros. unfold u64. apply Z.mod_small; lia. Qed.

Lemma u64_range x : 0 <= u64 x < 2^64.
Proof. unfold u64. apply Z.mod_pos_bound. lia. Qed.

Lemma u32_small x : 0 <= x < 2^32 -> u32 x = x.
Proof. intros. unfold u32. apply Z.mod_small; lia. Qed.

Lemma u32_range x : 0 <= u32 x < 2^32.
Proof. unfold u32. apply Z.mod_pos_bound. lia. Qed.

Lemma u8_small x : 0 <= x < 2^8 -> u8 x = x.
Proof. intros. unfold u8. apply Z.mod_small; lia. Qed.

Lemma u8_range x : 0 <= u8 x < 2^8.
Proof. unfold u8. apply Z.mod_pos_bound. lia. Qed.

Lemma realloc_block_spec {A} (e : list (option A)) n sz :
  1 <= sz -> zlen e <= n -> n * sz < 2^64 ->
  zlen (realloc_block e (u64 (n * sz)) sz) = n /\
  forall i x, zget e i = Some x -> zget (realloc_block e (u64 (n * sz)) sz) i = Some x.
Proof.
  intros Hsz Hn Hb. pose proof (zlen_nonneg e).
  unfold realloc_block. rewrite u64_small by nia.
  rewrite Z.div_mul by lia. unfold zlen in *. split.
  - rewrite app_length, firstn_length, repeat_length. lia.
  - intros i x Hx. pose proof (zget_Some_range _ _ _ Hx). unfold zlen in *.
    rewrite firstn_all2 by lia. rewrite zget_app1 by (unfold zlen; lia). auto.
Qed.

Lemma realloc_block_gen {A} (e : list (option A)) bytes sz n :
  1 <= sz -> 0 <= n -> bytes / sz = n ->
  zlen (realloc_block e bytes sz) = n /\
  forall i, i < n -> i < zlen e -> zget (realloc_block e bytes sz) i = zget e i.
Proof.
  intros Hsz Hn Hb. unfold realloc_block. rewrite Hb. split.
  - unfold zlen. rewrite app_length, firstn_length, repeat_length. lia.
  - intros i Hi Hie. rewrite zget_app, zlen_firstn.
    destruct (i <? Z.min (Z.of_nat (Z.to_nat n)) (zlen e)) eqn:E; [|lia].
    rewrite zget_firstn. destruct (i <? Z.of_nat (Z.to_nat n)) eqn:E2; [auto|lia].
Qed.

(** Slices under updates. *)
Lemma zslice_zset_in {A} (l : list A) from n i v :
  0 <= from -> from <= i -> i < from + n ->
  zslice (zset l i v) from n = zset (zslice l from n) (i - from) v.
Proof.
  intros. assert (Hlen : zlen (zslice (zset l i v) from n) = zlen (zslice l from n)).
  { unfold zslice. rewrite !zlen_firstn, !zlen_skipn, zlen_zset. reflexivity. }
  apply zget_ext; [now rewrite zlen_zset|]. intros j Hj.
  assert (Hjn : j < zlen (zslice l from n)) by lia.
  assert (Hj2 : j < n /\ from + j < zlen l).
  { unfold zslice in Hjn. rewrite zlen_firstn, zlen_skipn in Hjn. lia. }
  rewrite zget_zslice by lia.
  destruct ((0 <=? j) && (j <? n)) eqn:E; [|lia].
  destruct (Z.eq_dec i (from + j)) as [->|Hne].
  - rewrite zget_zset_eq by lia. replace (from + j - from) with j by lia.
    rewrite zget_zset_eq by lia. auto.
  - rewrite zget_zset_neq by lia. rewrite zget_zset_neq by lia.
    rewrite zget_zslice by lia. now rewrite E.
Qed.

Lemma zslice_zset_out {A} (l : list A) from n i v :
  0 <= from -> i < from \/ from + n <= i ->
  zslice (zset l i v) from n = zslice l from n.
Proof.
  intros. assert (Hlen : zlen (zslice (zset l i v) from n) = zlen (zslice l from n)).
  { unfold zslice. rewrite !zlen_firstn, !zlen_skipn, zlen_zset. reflexivity. }
  apply zget_ext; [auto|]. intros j Hj. rewrite !zget_zslice by lia.
  destruct ((0 <=? j) && (j <? n)) eqn:E; [|auto].
  rewrite zget_zset_neq by lia. auto.
Qed.

Lemma Permutation_swap {A} (l : list A) i j x y :
  zget l i = Some x -> zget l j = Some y ->
  Permutation (zset (zset l i y) j x) l.
Proof.
  intros Hi Hj. destruct (Z.eq_dec i j) as [->|Hne].
  - assert (x = y) by congruence. subst.
    rewrite (zset_same (zset l j y)); [now rewrite zset_same|].
    apply zget_zset_eq. eapply zget_Some_range; eauto.
  - assert (Hj' : zget (zset l i y) j = Some y) by (rewrite zget_zset_neq by lia; auto).
    pose proof (Permutation_zset (zset l i y) j x y Hj') as P1.
    pose proof (Permutation_zset l i y x Hi) as P2.
    apply Permutation_cons_inv with (a := y). rewrite P1. exact P2.
Qed.

#[global] Hint Rewrite @zlen_cons @zlen_nil @zlen_app @zlen_repeat @zlen_map @zlen_rev
  @zlen_zset @zlen_firstn @zlen_skipn : zl.

Lemma nodup_app {A} (a b : list A) :
  NoDup (a ++ b) <-> NoDup a /\ NoDup b /\ (forall x, In x a -> ~ In x b).
Proof.
  induction a as [|y a IH]; cbn [app].
  - split; [intro H; split; [constructor|split; [exact H|easy]]|tauto].
  - rewrite !NoDup_cons_iff, IH, in_app_iff. split.
    + intros (H1 & H2 & H3 & H4). repeat split; auto. intros x [<-|Hx]; auto.
    + intros ((H1 & H2) & H3 & H4). repeat split; auto.
      * intros [H|H]; [auto|]. apply (H4 y); [now left|auto].
      * intros x Hx. apply H4. now right.
Qed.

(** Discharges concrete examples: existentials, conjunctions, computation. *)
Ltac vm_example :=
  repeat match goal with
         | |- exists _, _ => eexists
         | |- _ /\ _ => split; [vm_compute; try reflexivity; try discriminate|]
         end; vm_compute; try reflexivity; try discriminate.
