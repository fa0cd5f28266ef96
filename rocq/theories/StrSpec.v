(** Specification of length-prefixed strings: plain byte sequences. *)
From Verif Require Import Base CStr StrModel.

(** A C string's contents: no NUL. *)
Definition nonul (l : list Z) : Prop := ~ In 0 l.
(** The string holds exactly these bytes: length field, bytes, terminator, and
    nothing else in its block. *)
Definition holds (v : option sstr) (c : option (list Z)) : Prop :=
  v = option_map (fun t => mk_sstr (zlen t) (t ++ [0])) c /\
  match c with None => True | Some t => zlen t <= STR_MAX end.

(** [pat] occurs in [t] at position [k]. *)
Definition occurs (pat t : list Z) (k : Z) : Prop := exists a b, t = a ++ pat ++ b /\ zlen a = k.
(** [replaced pat w t t']: every occurrence of [pat], found from left to right
    without overlaps, is replaced by [w]. *)
Inductive replaced (pat w : list Z) : list Z -> list Z -> Prop :=
| Rep_none t : (forall k, ~ occurs pat t k) -> replaced pat w t t
| Rep_some a b b' : (forall k, k < zlen a -> ~ occurs pat (a ++ pat ++ b) k) -> replaced pat w b b' ->
    replaced pat w (a ++ pat ++ b) (a ++ w ++ b').
(** [t] up to its first NUL. *)
Fixpoint before_nul (t : list Z) : list Z :=
  match t with [] => [] | c :: r => if c =? 0 then [] else c :: before_nul r end.
(** Replacement as the C library sees the text: up to the first NUL. *)
Definition c_replaced (pat w t t' : list Z) : Prop :=
  exists c c' tl, t = c ++ tl /\ t' = c' ++ tl /\ c = before_nul t /\ replaced pat w c c'.

(** [mid] is [t] without the characters [L] at its start and [R] at its end. *)
Definition trimmed (L R : Z -> Prop) (t mid : list Z) : Prop :=
  exists l r, t = l ++ mid ++ r /\ Forall L l /\ Forall R r /\
    (forall x y, mid = x :: y -> ~ L x) /\ (forall x y, mid = y ++ [x] -> ~ R x).

(** Operations on a string variable. *)
Inductive sop :=
| Set_ (p : option (list Z)) | SetFmt (text : option (list Z)) | Append (p : list Z) | AppendFmt (text : option (list Z))
| Substr (i j : Z) | Trim (set : list Z) | Replace (pat w : list Z) | Destroy.
Definition sstep (fuel : nat) (v : option sstr) (o : sop) (a : alloc) : res (option sstr * bool) :=
  match o with
  | Set_ p => str_set v p a
  | SetFmt text => str_set_fmt v text a
  | Append p => str_append v p a
  | AppendFmt text => str_append_fmt v text a
  | Substr i j => str_substring v i j a
  | Trim set => str_trim v set a
  | Replace pat w => str_replace fuel v pat w a
  | Destroy => Ok (None, true)
  end.
(** Arguments are C strings, formats produce less than 2^31 - 1 bytes (a larger
    vsnprintf result is an error) and indices are uint32_t.  Empty patterns are
    treated separately. *)
Definition text_ok (before : Z) (t : option (list Z)) : Prop :=
  match t with None => True | Some t => nonul t /\ before + zlen t < 2^31 - 1 end.
Definition sop_ok (c : option (list Z)) (o : sop) : Prop :=
  match o with
  | Set_ p => match p with None => True | Some p => nonul p end
  | SetFmt t => text_ok 0 t
  | Append p => nonul p /\ zlen p < 2^63
  | AppendFmt t => text_ok (match c with None => 0 | Some c => zlen c end) t
  | Substr i j => 0 <= i < 2^32 /\ 0 <= j < 2^32
  | Trim set => nonul set
  | Replace pat w => nonul pat /\ nonul w /\ pat <> []
  | Destroy => True
  end.
(** What success means for the contents. *)
Definition effect (o : sop) (c c' : option (list Z)) : Prop :=
  match o with
  | Set_ p => p <> None /\ c' = p
  | SetFmt t => t <> None /\ c' = t
  | Append p => c' = Some (match c with None => p | Some t => t ++ p end)
  | AppendFmt x => exists x', x = Some x' /\ c' = Some (match c with None => x' | Some t => before_nul t ++ x' end)
  | Substr i j => exists a b t', c = Some (a ++ t' ++ b) /\ c' = Some t' /\ zlen a = i /\ zlen a + zlen t' = j
  | Trim set =>
      match c with
      | None => c' = None
      | Some t => exists t', c' = Some t' /\ trimmed (fun x => In x set) (fun x => x = 0 \/ In x set) t t'
      end
  | Replace pat w =>
      match c with None => c' = None | Some t => exists t', c' = Some t' /\ c_replaced pat w t t' end
  | Destroy => c' = None
  end.
(** When an operation may fail although memory is available. *)
Definition refused (o : sop) (c : option (list Z)) : Prop :=
  match o with
  | Set_ p => match p with None => True | Some p => STR_MAX < zlen p end
  | SetFmt t | AppendFmt t => t = None
  | Append p => STR_MAX < zlen p + match c with None => 0 | Some t => zlen t end
  | Substr i j => match c with None => True | Some t => j < i \/ zlen t < j end
  | Replace pat w =>
      match c with
      | None => False
      | Some t => 2^32 - 1 <= zlen pat \/ 2^32 - 1 <= zlen w \/ exists t', c_replaced pat w t t' /\ STR_MAX < zlen t'
      end
  | Trim _ | Destroy => False
  end.

(** The pieces of [t] between the delimiters. *)
Inductive splits (delim : list Z) : list Z -> list (list Z) -> Prop :=
| Sp_last t : Forall (fun x => ~ In x delim) t -> splits delim t [t]
| Sp_more p x t ts : Forall (fun x => ~ In x delim) p -> In x delim -> splits delim t ts ->
    splits delim (p ++ x :: t) (p :: ts).
