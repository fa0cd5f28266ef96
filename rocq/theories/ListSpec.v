(** Specification of sc_list: a world of disjoint sequences of nodes.
    A world is a collection of (head, contents) pairs.  An initialised node
    that is in no list is its own empty list (x, []). *)
From Verif Require Import Base ListModel.

Definition world := list (node * list node).

(** All nodes of a world. *)
Definition nodes (w : world) : list node := concat (map (fun p => fst p :: snd p) w).

(** [unlinked x w w1]: [w1] is [w] after taking [x] out of the list it is in
    (nothing happens if it is in none). *)
Definition unlinked (x : node) (w w1 : world) : Prop :=
  (exists r, Permutation w ((x, []) :: r) /\ w1 = (x, []) :: r) \/
  (exists l a b r, Permutation w ((l, a ++ x :: b) :: r) /\ w1 = (x, []) :: (l, a ++ b) :: r).

(** Insertion of a free node [x] into a list by rewriting its contents. *)
Definition inserted (x : node) (w1 w2 : world) (how : node -> list node -> list node -> Prop) : Prop :=
  exists l ys ys' r, Permutation w1 ((x, []) :: (l, ys) :: r) /\ w2 = (l, ys') :: r /\ how l ys ys'.

(** Loops whose body decides per node: what stays in the list, and which
    nodes stay initialised but in no list. *)
Definition kept (dec : node -> action) (xs : list node) : list node :=
  filter (fun x => match dec x with Keep => true | _ => false end) xs.
Definition loose (dec : node -> action) (xs : list node) : list node :=
  filter (fun x => match dec x with Delete => true | _ => false end) xs.
Definition singles (xs : list node) : world := map (fun x => (x, [])) xs.

(** The ideal effect of each call on the world, and what is returned.  Adding
    a node next to itself takes it out of its list. *)
Definition ideal (w : world) (o : lop) (w' : world) (ret : list node) : Prop :=
  match o with
  | Init l => w' = (l, []) :: w /\ ret = []
  | AddHead l x => ret = [] /\ exists w1, unlinked x w w1 /\
      if x =? l then w' = w1 else inserted x w1 w' (fun h ys ys' => h = l /\ ys' = x :: ys)
  | AddTail l x => ret = [] /\ exists w1, unlinked x w w1 /\
      if x =? l then w' = w1 else inserted x w1 w' (fun h ys ys' => h = l /\ ys' = ys ++ [x])
  | AddAfter p x => ret = [] /\ exists w1, unlinked x w w1 /\
      if x =? p then w' = w1 else inserted x w1 w' (fun h ys ys' =>
        (h = p /\ ys' = x :: ys) \/ (exists a b, ys = a ++ p :: b /\ ys' = a ++ p :: x :: b))
  | AddBefore n x => ret = [] /\ exists w1, unlinked x w w1 /\
      if x =? n then w' = w1 else inserted x w1 w' (fun h ys ys' =>
        (h = n /\ ys' = ys ++ [x]) \/ (exists a b, ys = a ++ n :: b /\ ys' = a ++ x :: n :: b))
  | PopHead l =>
      (exists r, Permutation w ((l, []) :: r) /\ w' = w /\ ret = []) \/
      (exists x ys r, Permutation w ((l, x :: ys) :: r) /\
         w' = (x, []) :: (l, ys) :: r /\ ret = [x])
  | PopTail l =>
      (exists r, Permutation w ((l, []) :: r) /\ w' = w /\ ret = []) \/
      (exists x ys r, Permutation w ((l, ys ++ [x]) :: r) /\
         w' = (x, []) :: (l, ys) :: r /\ ret = [x])
  | Del x => ret = [] /\ unlinked x w w'
  | Clear l => ret = [] /\ exists ys r, Permutation w ((l, ys) :: r) /\
      w' = (l, []) :: singles ys ++ r
  | ForeachSafe l dec => exists ys r, Permutation w ((l, ys) :: r) /\ ret = ys /\
      w' = (l, kept dec ys) :: singles (loose dec ys) ++ r
  | ForeachSafeR l dec => exists ys r, Permutation w ((l, ys) :: r) /\ ret = rev ys /\
      w' = (l, kept dec ys) :: singles (loose dec ys) ++ r
  end.

(** [x] may be added somewhere: it is initialised and is not itself the head
    of a non-empty list. *)
Definition addable (w : world) (x : node) : Prop :=
  In x (nodes w) /\ forall ys, In (x, ys) w -> ys = [].
Definition is_head (w : world) (l : node) : Prop := exists ys, In (l, ys) w.

(** Documented preconditions: nodes and lists are initialised once; one adds
    nodes (not non-empty lists) to lists. *)
Definition allowed (w : world) (o : lop) : Prop :=
  match o with
  | Init l => l <> 0 /\ ~ In l (nodes w)
  | AddHead l x | AddTail l x => is_head w l /\ addable w x
  | AddAfter p x | AddBefore p x => In p (nodes w) /\ addable w x
  | PopHead l | PopTail l | Clear l | ForeachSafe l _ | ForeachSafeR l _ => is_head w l
  | Del x => addable w x
  end.

(** What the user observes of list [l]: forwards it is [xs], backwards its
    reverse; the accessor functions agree.  The body of the loops collects
    the visited nodes (and may break: see ListProps). *)
Definition shows_list (m : mem) (l : node) (xs : list node) : Prop :=
  (forall fuel, (length xs < fuel)%nat ->
     list_foreach fuel m l (fun s x => (s ++ [x], false)) [] = Ok xs /\
     list_foreach_r fuel m l (fun s x => (s ++ [x], false)) [] = Ok (rev xs) /\
     (zlen xs < 2^64 -> list_count fuel m l = Ok (zlen xs))) /\
  list_is_empty m l = Ok (match xs with [] => true | _ => false end) /\
  list_head m l = Ok (hd_error xs) /\
  list_tail m l = Ok (hd_error (rev xs)).

Definition shows (m : mem) (w : world) : Prop :=
  NoDup (nodes w) /\ forall l xs, In (l, xs) w -> shows_list m l xs.

(** The implementation obeys the ideal world along a history. *)
Fixpoint obeys (m : mem) (w : world) (ops : list lop) : Prop :=
  shows m w /\
  match ops with
  | [] => True
  | o :: rest => allowed w o ->
      exists w' ret, ideal w o w' ret /\
      exists m', (forall fuel, (length (nodes w) < fuel)%nat -> list_step fuel m o = Ok (m', ret)) /\
        obeys m' w' rest
  end.

(** [reach m w]: heap [m] results from some history of allowed calls, starting
    with no initialised node, and [w] is the world that history describes. *)
Inductive reach : mem -> world -> Prop :=
| reach_nil : reach (fun _ => None) []
| reach_step m w fuel o m' w' ret :
    reach m w -> allowed w o -> list_step fuel m o = Ok (m', ret) -> ideal w o w' ret ->
    reach m' w'.

(** Iteration with break. *)
Fixpoint visit {S} (b : S -> node -> S * bool) (s : S) (l : list node) : S :=
  match l with
  | [] => s
  | x :: r => let (s', brk) := b s x in if brk then s' else visit b s' r
  end.

(** Functional description of an insertion, for C13: the node that is added,
    the node naming the place, and the new contents of the list holding the
    place. *)
Definition added (o : lop) : option (node * node) :=
  match o with
  | AddHead l x | AddTail l x | AddAfter l x | AddBefore l x => Some (x, l)
  | _ => None
  end.
Definition without (x : node) (zs : list node) : list node := filter (fun y => negb (y =? x)) zs.
Definition put_in (o : lop) (l : node) (zs : list node) : list node :=
  match o with
  | AddHead _ x => x :: zs
  | AddTail _ x => zs ++ [x]
  | AddAfter p x => if l =? p then x :: zs
                    else flat_map (fun y => if y =? p then [y; x] else [y]) zs
  | AddBefore n x => if l =? n then zs ++ [x]
                     else flat_map (fun y => if y =? n then [x; y] else [y]) zs
  | _ => zs
  end.
