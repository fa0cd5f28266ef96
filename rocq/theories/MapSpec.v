(** Specification of sc_map: a finite map given as a list of bindings with
    pairwise different keys. *)
From Verif Require Import Base MapModel.

Section Spec.
Context {K V : Type} (ko : keyops K) (vzero : V).

(** "Same key": the NULL/0 key only equals itself, other keys are compared by
    the macro's comparison. *)
Definition same (a b : K) : bool :=
  if ko.(isnull) a then ko.(isnull) b else negb (ko.(isnull) b) && ko.(keq) a b.

(** What the macro parameters must satisfy (proved for every key type of the
    library in MapProps). *)
Definition lawful : Prop :=
  (forall k, ko.(isnull) k = true <-> k = ko.(knull)) /\
  (forall a, ko.(keq) a a = true) /\
  (forall a b, ko.(keq) a b = true -> ko.(keq) b a = true) /\
  (forall a b c, ko.(keq) a b = true -> ko.(keq) b c = true -> ko.(keq) a c = true) /\
  (forall a b, ko.(keq) a b = true -> ko.(hashk) a = ko.(hashk) b) /\
  (forall a, 0 <= ko.(hashk) a < 2^32).

(** The ideal map. *)
Definition binds := list (K * V).
Definition lookup (k : K) (l : binds) : option V :=
  option_map snd (find (fun p => same (fst p) k) l).
Definition remove (k : K) (l : binds) : binds := filter (fun p => negb (same (fst p) k)) l.
Definition orz (o : option V) : V := match o with Some v => v | None => vzero end.
Definition some (o : option V) : bool := match o with Some _ => true | None => false end.

(** Ideal effect of a call on the bindings, the value it returns and what
    sc_map_found says afterwards; [fail] = the call reported sc_map_oom. *)
Definition ideal (l : binds) (o : mop K V) (fail : bool) : binds :=
  match o with
  | Put k v _ => if fail then l else (k, v) :: remove k l
  | Get _ => l
  | Del k => remove k l
  | Clear | Term => []
  end.
Definition ideal_ret (l : binds) (o : mop K V) (fail : bool) : option V :=
  match o with
  | Put k _ _ => if fail then None else lookup k l
  | Get k | Del k => lookup k l
  | Clear | Term => None
  end.

(** Loop over bindings with break. *)
Fixpoint visit {S} (b : S -> K -> V -> S * bool) (s : S) (l : binds) : S :=
  match l with
  | [] => s
  | (k, v) :: r => let (s', brk) := b s k v in if brk then s' else visit b s' r
  end.

(** What the user observes of a map whose bindings are [l]: size, every get,
    and the loop, which goes over the bindings in some order. *)
Definition shows (m : smap K V) (l : binds) : Prop :=
  map_size m = zlen l /\
  (forall k, exists m', map_get ko vzero m k = Ok (m', orz (lookup k l)) /\ found m' = some (lookup k l)) /\
  (exists l', Permutation l' l /\
     forall (S : Type) (b : S -> K -> V -> S * bool) (s : S), map_foreach ko m b s = Ok (visit b s l')).

(** Does a call report failure?  Only put can. *)
Definition failed (o : mop K V) (m' : smap K V) : bool :=
  match o with Put _ _ _ => oom m' | _ => false end.

(** Along any history the map shows the ideal bindings; a put fails only if
    the allocator refuses or the table has its maximal capacity 2^31. *)
Fixpoint obeys (m : smap K V) (l : binds) (ops : list (mop K V)) : Prop :=
  shows m l /\
  match ops with
  | [] => True
  | o :: rest =>
      exists m' ret, map_step ko vzero m o = Ok (m', ret) /\
        ret = orz (ideal_ret l o (failed o m')) /\
        (match o with
         | Put k v ok => (oom m' = true -> ok = false \/ 2^31 <= cap m) /\
                         (oom m' = false -> found m' = some (lookup k l))
         | Get k | Del k => found m' = some (lookup k l)
         | _ => True
         end) /\
        obeys m' (ideal l o (failed o m')) rest
  end.

(** Maps reachable from a successful init. *)
Inductive reach : smap K V -> binds -> Prop :=
| reach_init g c lf ok m : 0 <= c <= 2^31 -> map_init ko vzero g c lf ok = Some m -> reach m []
| reach_step m l o m' ret : reach m l -> map_step ko vzero m o = Ok (m', ret) ->
    reach m' (ideal l o (failed o m')).
End Spec.
