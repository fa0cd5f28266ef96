(** Model of [sc_array_sort] (array/sc_array.h:194-195): a call of qsort. *)
From Verif Require Import Base ArrayModel.

Section Sort.
Context {A : Type}.

(** A user's comparison function as seen by qsort: a number below, equal to or
    above 0.  It only looks at the two items.  (array/sc_array.h:192.) *)
Definition cmp_fn := A -> A -> Z.

(** The items qsort reads: the first [n] slots of the block, all of which must
    have been written.  (array/sc_array.h:195, ISO C 7.22.5.2.) *)
Fixpoint written_items (n : nat) (e : list (option A)) : res (list A) :=
  match n with
  | O => Ok []
  | S n =>
      match e with
      | Some x :: r => let* l := written_items n r in Ok (x :: l)
      | _ => UB
      end
  end.

(** array/sc_array.h:194-195 [sc_array_sort].  [q] is qsort as a function on
    the sequence of items.  [strict]: the pointer must be valid even for zero
    items (ISO C 7.22.5p1), otherwise NULL is accepted then (glibc). *)
Definition arr_sort (strict : bool) (q : cmp_fn -> list A -> list A) (cmp : cmp_fn) (a : arr A) : res (arr A) :=
  if strict && (zlen (elems a) =? 0) then UB
  else
    let* l := written_items (Z.to_nat (size a)) (elems a) in
    Ok (mk_arr (oom a) (cap a) (size a) (map Some (q cmp l) ++ skipn (Z.to_nat (size a)) (elems a))).

(** A call in a program that also sorts (the user's program).
    (array/sc_array.h:89-195.) *)
Inductive sop := Call (o : op A) | Sort (cmp : cmp_fn).
End Sort.
Arguments cmp_fn : clear implicits.
Arguments sop : clear implicits.
