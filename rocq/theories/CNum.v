(** Number conversions of the C library that the modelled code calls, after
    ISO C 7.22.1.4 (strtoll, strtoull), 7.4 and 7.21.6 (printf); each use cites
    the call.  Strings are memory blocks from the given pointer on; reading past
    the block is UB.  The "C" locale is assumed. *)
From Verif Require Import Base.

(** isspace, isdigit, tolower (7.4); used by sc/sc.c:143, :156, :164.  Bytes >= 128 are no letters. *)
Definition isspace (c : Z) : bool := (c =? 32) || ((9 <=? c) && (c <=? 13)).
(** isdigit, ISO C 7.4.1.5, for the conversions of sc/sc.c:143, uri/sc_uri.c:96. *)
Definition isdigit (c : Z) : bool := (48 <=? c) && (c <=? 57).
(** tolower, ISO C 7.4.2.1; sc/sc.c:156, :164, logger/sc_log.c:227. *)
Definition tolower (c : Z) : Z := if (65 <=? c) && (c <=? 90) then c + 32 else c.

(** The longest run of characters satisfying [p], and what follows.
    (ISO C 7.22.1.4, for sc/sc.c:143.) *)
Fixpoint span (p : Z -> bool) (l : list Z) : res (list Z * list Z) :=
  match l with
  | [] => UB
  | c :: r => if p c then let* (a, b) := span p r in Ok (c :: a, b) else Ok ([], l)
  end.
(** The value of a run of digits.
    (ISO C 7.22.1.4, for sc/sc.c:143.) *)
Definition dec (ds : list Z) : Z := fold_left (fun v d => 10 * v + (d - 48)) ds 0.
(** The sign, and what follows.
    (ISO C 7.22.1.4, for sc/sc.c:143.) *)
Definition sign (l : list Z) : list Z * list Z :=
  match l with
  | c :: r => if (c =? 43) || (c =? 45) then ([c], r) else ([], l)
  | [] => ([], l)
  end.
(** The subject sequence: (spaces, sign, digits); no digits = no conversion.
    (ISO C 7.22.1.4p4, for sc/sc.c:143.) *)
Definition subject (l : list Z) : res (list Z * list Z * list Z) :=
  let* (sp, r) := span isspace l in
  let '(sg, r) := sign r in
  let* (ds, r) := span isdigit r in
  Ok (sp, sg, ds).
(** Limit of long long, for sc/sc.c:143. *)
Definition INT64_MAX : Z := 2^63 - 1.
(** Limit of long long, for sc/sc.c:143. *)
Definition INT64_MIN : Z := - 2^63.
(** Limit of unsigned long, for uri/sc_uri.c:96. *)
Definition UINT64_MAX : Z := 2^64 - 1.
(** strtoll(l, &end, 10): (value, errno = ERANGE, end - l).
    (ISO C 7.22.1.4; sc/sc.c:143.) *)
Definition strtoll (l : list Z) : res (Z * bool * Z) :=
  let* (sp, sg, ds) := subject l in
  match ds with
  | [] => Ok (0, false, 0)
  | _ =>
      let v := if match sg with [45] => true | _ => false end then - dec ds else dec ds in
      let e := zlen sp + zlen sg + zlen ds in
      if INT64_MAX <? v then Ok (INT64_MAX, true, e)
      else if v <? INT64_MIN then Ok (INT64_MIN, true, e)
      else Ok (v, false, e)
  end.
(** strtoull(l, &end, 10), also strtoul with 64-bit long: a minus sign negates
    in the unsigned type.
    (ISO C 7.22.1.4; uri/sc_uri.c:96.) *)
Definition strtoull (l : list Z) : res (Z * bool * Z) :=
  let* (sp, sg, ds) := subject l in
  match ds with
  | [] => Ok (0, false, 0)
  | _ =>
      let e := zlen sp + zlen sg + zlen ds in
      if UINT64_MAX <? dec ds then Ok (UINT64_MAX, true, e)
      else Ok (if match sg with [45] => true | _ => false end then u64 (- dec ds) else dec ds, false, e)
  end.

(** The decimal digits of n >= 0 as printed by %d, %u: at most [fuel].
    (ISO C 7.21.6.1; sc/sc.c:108, socket/sc_sock.c:796.) *)
Fixpoint digits (fuel : nat) (n : Z) : list Z :=
  match fuel with
  | O => []
  | S fuel => (if n <? 10 then [] else digits fuel (n / 10)) ++ [48 + n mod 10]
  end.
(** snprintf(buf, len, ...) producing [text]: at most len - 1 characters and a
    NUL are stored; the result is the length of the whole text.
    (ISO C 7.21.6.5; sc/sc.c:108, :120, uri/sc_uri.c:139.) *)
Definition snprintf (buf : list Z) (len : Z) (text : list Z) : res (list Z * Z) :=
  if len =? 0 then Ok (buf, zlen text)
  else
    let out := firstn (Z.to_nat (len - 1)) text ++ [0] in
    if zlen out <=? zlen buf then Ok (out ++ skipn (length out) buf, zlen text) else UB.
