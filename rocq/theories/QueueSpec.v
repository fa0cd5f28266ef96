(** Specification of sc_queue: an ideal double-ended sequence. *)
From Verif Require Import Base QueueModel.

Section Spec.
Context {A : Type}.

(** Documented preconditions: deletion needs a non-empty queue. *)
Definition q_allowed (l : list A) (o : qop A) : Prop :=
  match o with DelLast | DelFirst => l <> [] | _ => True end.

(** Ideal effect and returned value; [failed] = what sc_queue_oom reports. *)
Definition q_ideal (l : list A) (o : qop A) (failed : bool) (l' : list A) (ret : option A) : Prop :=
  match o with
  | AddLast x _ => l' = (if failed then l else l ++ [x]) /\ ret = None
  | AddFirst x _ => l' = (if failed then l else x :: l) /\ ret = None
  | DelLast => exists x, l = l' ++ [x] /\ ret = Some x
  | DelFirst => exists x, l = x :: l' /\ ret = Some x
  | Clear => l' = [] /\ ret = None
  end.

(** Everything the user can read equals the ideal sequence. *)
Definition q_shows (q : queue A) (l : list A) : Prop :=
  q_size q = zlen l /\ (q_empty q = true <-> l = []) /\
  (forall i x, zget l i = Some x -> q_at q i = Ok x) /\
  (forall x r, l = x :: r -> q_peek_first q = Ok x) /\
  (forall x r, l = r ++ [x] -> q_peek_last q = Ok x).

(** When an add may report failure: the flag was already set and not cleared,
    the allocator refused, or the ring has 2^63 slots. *)
Definition q_may_fail (q : queue A) (l : list A) (o : qop A) : Prop :=
  match o with
  | AddLast _ ok | AddFirst _ ok => q_oom q = true \/ ok = false \/ 2^63 - 1 <= zlen l
  | DelLast | DelFirst => q_oom q = true
  | Clear => False
  end.

Fixpoint q_obeys (zero : A) (q : queue A) (l : list A) (ops : list (qop A)) : Prop :=
  q_shows q l /\
  match ops with
  | [] => True
  | o :: rest =>
      q_allowed l o ->
      exists q' ret l', q_step zero q o = Ok (q', ret) /\
        q_ideal l o (q_oom q') l' ret /\
        (q_oom q' = true -> q_may_fail q l o) /\
        q_obeys zero q' l' rest
  end.

(** Running a loop body over a list, stopping after a break. *)
Fixpoint q_visit {S} (b : S -> A -> S * bool) (s : S) (l : list A) : S :=
  match l with
  | [] => s
  | x :: r => let (s', brk) := b s x in if brk then s' else q_visit b s' r
  end.
End Spec.

(** [q_reach zero q l]: some history of allowed calls from a successful init
    leads to queue [q] while the ideal sequence has become [l]. *)
Inductive q_reach {A} (zero : A) : queue A -> list A -> Prop :=
| reach_init : q_reach zero (q_init zero true) []
| reach_step q l o q' ret l' :
    q_reach zero q l -> q_allowed l o -> q_step zero q o = Ok (q', ret) ->
    q_ideal l o (q_oom q') l' ret -> q_reach zero q' l'.
