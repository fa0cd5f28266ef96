(** Specification of sc_heap: a multiset of (key, data) entries. *)
From Verif Require Import Base HeapModel.

Section Spec.
Context {D : Type}.

(** [it] is an entry of [m] with the least key. *)
Definition is_min (it : item D) (m : list (item D)) : Prop :=
  In it m /\ forall it', In it' m -> fst it <= fst it'.

(** peek on the multiset [m] may return [o]. *)
Definition peek_ok (m : list (item D)) (o : option (item D)) : Prop :=
  match o with None => m = [] | Some it => is_min it m end.

(** pop on [m] may return [o] and leave [m']. *)
Definition pop_ok (m : list (item D)) (o : option (item D)) (m' : list (item D)) : Prop :=
  match o with
  | None => m = [] /\ m' = []
  | Some it => is_min it m /\ Permutation m (it :: m')
  end.

(** The heap obeys the ideal priority queue along a history.  The history is
    followed as long as adds succeed; an add may fail only if the allocator
    refused the request. *)
Fixpoint pq_obeys (lim : Z) (h : heap D) (m : list (item D)) (ops : list (hop D)) : Prop :=
  heap_size h = zlen m /\
  (exists o, heap_peek h = Ok o /\ peek_ok m o) /\
  match ops with
  | [] => True
  | HAdd k d ok :: r =>
      exists h' ret, heap_add lim h k d ok = Ok (h', ret) /\
        (ret = true -> pq_obeys lim h' ((k, d) :: m) r) /\
        (ret = false -> ok = false \/ lim < Z.max 128 (64 * (zlen m + 1)))
  | HPop :: r =>
      exists h' o m', heap_pop h = Ok (h', o) /\ heap_peek h = Ok o /\
        pop_ok m o m' /\ pq_obeys lim h' m' r
  | HClear :: r => pq_obeys lim (heap_clear h) [] r
  end.

(** Keys in non-decreasing order. *)
Fixpoint sorted_keys (l : list (item D)) : Prop :=
  match l with
  | [] => True
  | x :: r => (forall y, In y r -> fst x <= fst y) /\ sorted_keys r
  end.
End Spec.
