(** Model of option/sc_option.c.  Arguments and option names are memory blocks
    holding C strings, the value is an offset into the argument's block. *)
From Verif Require Import Base CStr.

(** option/sc_option.h:40-43, struct sc_option_item: letter and name, which may be
    NULL. *)
Definition opt_item : Type := Z * option (list Z).
(** option/sc_option.c:57 and :78: pos + ( *pos != '=' ? 0 : 1). *)
Definition opt_value (m : list Z) (pos : Z) : res Z :=
  let* c := zload m pos in Ok (pos + (if negb (c =? 61) then 0 else 1)).
(** option/sc_option.c:52-60: the loop over the options for "-x"; [n] iterations are left. *)
Fixpoint opt_short (n : nat) (opts : list opt_item) (i : Z) (m : list Z) (pos : Z) : res (Z * option Z) :=
  match n with
  | O => Ok (63, None)
  | S n =>
      let* (letter, _) := zload opts i in
      let* c := zload m pos in
      if c =? letter then
        let* d := zload m (pos + 1) in
        if strchr_in [61; 32] d then let* v := opt_value m (pos + 1) in Ok (c, Some v)
        else opt_short n opts (i + 1) m pos
      else opt_short n opts (i + 1) m pos
  end.
(** memcmp of equally long byte sequences (option/sc_option.c:76). *)
Fixpoint same (a b : list Z) : bool :=
  match a, b with
  | [], [] => true
  | x :: a, y :: b => (x =? y) && same a b
  | _, _ => false
  end.
(** option/sc_option.c:66-81: the loop over the options for "--name"; [pos] is
    behind the name. *)
Fixpoint opt_long (n : nat) (opts : list opt_item) (i : Z) (m : list Z) (pos : Z) : res (Z * option Z) :=
  match n with
  | O => Ok (63, None)
  | S n =>
      let* (letter, name) := zload opts i in
      let len := u64 (pos - 2) in
      match name with
      | None => opt_long n opts (i + 1) m pos
      | Some name =>
          let* k := strlen name in
          if len =? k then
            let* a := bytes_at name 0 len in
            let* b := bytes_at m 2 len in
            if same a b then let* v := opt_value m pos in Ok (letter, Some v)
            else opt_long n opts (i + 1) m pos
          else opt_long n opts (i + 1) m pos
      end
  end.
(** option/sc_option.c:36-85 [sc_option_at]: the letter and the value, None for NULL. *)
Definition option_at (opts : list opt_item) (count : Z) (argv : list (list Z)) (index : Z) : res (Z * option Z) :=
  let* m := zload argv index in
  let* c := zload m 0 in
  if negb (c =? 45) then Ok (63, None)
  else
    let* c := zload m 1 in
    if negb (c =? 45) then opt_short (Z.to_nat count) opts 0 m 1
    else
      let* l := from m 1 in
      let* k := strcspn l [61] in
      opt_long (Z.to_nat count) opts 0 m (1 + k).
