(** Specification of the option lookup on texts. *)
From Verif Require Import Base.

(** An option: its letter and its name, if it has one. *)
Definition opt : Type := Z * option (list Z).
(** The three forms of an argument that name an option; [v] is the value. *)
Inductive names (o : opt) : list Z -> list Z -> Prop :=
| N_letter : names o [45; fst o] []
| N_letter_value v : names o (45 :: fst o :: 61 :: v) v
| N_letter_space v : names o (45 :: fst o :: 32 :: v) (32 :: v)
| N_name n : snd o = Some n -> names o (45 :: 45 :: n) []
| N_name_value n v : snd o = Some n -> names o (45 :: 45 :: n ++ 61 :: v) v.
(** The first option of the table the argument names, and its value. *)
Definition first_named (opts : list opt) (arg : list Z) (letter : Z) (v : list Z) : Prop :=
  exists pre o post, opts = pre ++ o :: post /\ letter = fst o /\ names o arg v /\
    forall p w, In p pre -> ~ names p arg w.
(** Letters and names an option can be given by: the letter is not '-', the name
    contains no '=' (and, being a C string, no NUL). *)
Definition opt_ok (o : opt) : Prop :=
  fst o <> 45 /\ match snd o with Some n => ~ In 61 n /\ ~ In 0 n | None => True end.
(** [x] is the item in memory of the option [o]: the name is followed by a NUL. *)
Definition stored (x : Z * option (list Z)) (o : opt) : Prop :=
  fst x = fst o /\ match snd o with
                   | None => snd x = None
                   | Some n => exists tl, snd x = Some (n ++ 0 :: tl)
                   end.
