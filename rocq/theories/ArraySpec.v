(** Specification of sc_array: an ideal sequence.  Independent of the model's
    internals: it only mentions the public operations. *)
From Verif Require Import Base ArrayModel.

Section Spec.
Context {A : Type}.

(** Documented preconditions ("if i is out of range, result is undefined"). *)
Definition allowed (l : list A) (o : op A) : Prop :=
  match o with
  | Add _ _ | Clear => True
  | Del i | DelUnordered i => 0 <= i < zlen l
  | DelLast => l <> []
  end.

(** Remove position [i], keeping the order of the others. *)
Definition remove_at (i : Z) (l : list A) : list A :=
  firstn (Z.to_nat i) l ++ skipn (S (Z.to_nat i)) l.

(** Replace position [i] by the last element, then drop the last. *)
Definition swap_remove (i : Z) (l : list A) : list A :=
  match rev l with
  | [] => []
  | x :: _ => removelast (zset l i x)
  end.

(** Ideal effect; [failed] is what sc_array_oom reports after the call. *)
Definition ideal (l : list A) (o : op A) (failed : bool) : list A :=
  match o with
  | Add x _ => if failed then l else l ++ [x]
  | Del i => remove_at i l
  | DelUnordered i => swap_remove i l
  | DelLast => removelast l
  | Clear => []
  end.

(** What a user can see of the array equals the ideal sequence. *)
Definition shows (a : arr A) (l : list A) : Prop :=
  arr_size a = zlen l /\
  (forall i x, zget l i = Some x -> arr_at a i = Ok x) /\
  (forall l' x, l = l' ++ [x] -> arr_last a = Ok x).

(** The array obeys the ideal sequence along a history: at every point what it
    shows is the ideal content; every allowed call runs without undefined
    behaviour and leads to the ideal next content.  An add reports failure
    only if the allocator refused or the array is at its size limit. *)
Fixpoint obeys (sz : Z) (a : arr A) (l : list A) (ops : list (op A)) : Prop :=
  shows a l /\
  match ops with
  | [] => True
  | o :: rest =>
      allowed l o ->
      exists a', arr_step sz a o = Ok a' /\
        (match o with
         | Add _ ok => arr_oom a' = true -> ok = false \/ 2^63 <= zlen l * sz
         | _ => True end) /\
        obeys sz a' (ideal l o (arr_oom a')) rest
  end.

(** Running a loop body over a list, stopping after a break. *)
Fixpoint visit {S} (b : S -> A -> S * bool) (s : S) (l : list A) : S :=
  match l with
  | [] => s
  | x :: r => let (s', brk) := b s x in if brk then s' else visit b s' r
  end.
End Spec.
