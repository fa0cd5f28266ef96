(** Model of programs that mix sc_str_token_begin, sc_str_token_end and setting the save pointer to NULL again
    (string/sc_str.c:253-290), with other delimiters in every call. *)
From Verif Require Import Base CStr StrModel.

(** One call (string/sc_str.h:183-214). *)
Inductive tok :=
| TBegin (delim : list Z)   (* string/sc_str.c:253 *)
| TEnd                      (* string/sc_str.c:276 *)
| TRestart.                 (* save = NULL *)
(** What the caller sees of a call: the token read as a C string, right after the call (string/sc_str.c:253-290).
    None: NULL, or the call returns nothing. *)
Definition tok_do (s : sstr) (save : option Z) (o : tok) : res (sstr * option Z * option (list Z)) :=
  match o with
  | TBegin delim =>
      let* (s, save, it) := token_begin s save delim in
      match it with
      | None => Ok (s, save, None)
      | Some it => let* t := read_token s it in Ok (s, save, Some t)
      end
  | TEnd => let* s := token_end s save in Ok (s, save, None)
  | TRestart => Ok (s, None, None)
  end.
(** A program (for string/sc_str.c:253-290). *)
Fixpoint tok_run (s : sstr) (save : option Z) (l : list tok) : res (sstr * option Z * list (option (list Z))) :=
  match l with
  | [] => Ok (s, save, [])
  | o :: l =>
      let* (s, save, r) := tok_do s save o in
      let* (s, save, rs) := tok_run s save l in
      Ok (s, save, r :: rs)
  end.
