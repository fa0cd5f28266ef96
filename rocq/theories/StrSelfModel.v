(** Model of string/sc_str.c with arguments that point into the string itself, at [*str + d].  What StrModel takes from the
    contents of a separate argument is read here from the string's own block, at the time the code reads it. *)
From Verif Require Import Base CStr StrModel.

(** string/sc_str.c:176-189 [sc_str_set(&s, s + d)]; the string is destroyed after the copy was made (line 185). *)
Definition set_self (m : sstr) (d : Z) (a : alloc) : res (option sstr * bool) :=
  let* src := from (sbuf m) d in
  let* len := strlen src in
  let* c := if STR_MAX <? len then Ok None else str_create_len (Some src) (u32 len) a in
  match c with None => Ok (Some m, false) | Some c => Ok (Some c, true) end.
(** string/sc_str.c:208-233 [sc_str_append(&s, s + d)].  [moved]: realloc puts the string elsewhere and releases the old block,
    into which param points.  memcpy of overlapping areas is undefined (ISO C 7.24.2.1). *)
Definition append_self (m : sstr) (d : Z) (moved : bool) (a : alloc) : res (option sstr * bool) :=
  let* src := from (sbuf m) d in
  let* len := strlen src in
  let bytes := str_bytes (u64 (slen m + len)) in
  if u64 (STR_MAX - slen m) <? len then Ok (Some m, false)
  else
    match realloc (sbuf m) (bytes - 4) a with
    | None => Ok (Some m, false)
    | Some b =>
        let* xs := if moved then UB else bytes_at b d len in
        let* b := if (0 <? len) && (d <? slen m + len) && (slen m <? d + len) then UB else memcpy b (slen m) xs in
        let n := u32 (slen m + u32 len) in
        let* b := zput b n 0 in
        Ok (Some (mk_sstr n b), true)
    end.
(** The C string at [d] in memory [m], as string/sc_str.c:303, :308, :381, :392, :415 read it. *)
Definition c_at (m : list Z) (d : Z) : res (list Z) :=
  let* l := from m d in
  let* n := strlen l in
  Ok (zslice l 0 n).
(** string/sc_str.c:292-326 [sc_str_trim(&s, s + d)]: the list is read (303, 308) before anything is changed. *)
Definition trim_self (m : sstr) (d : Z) (a : alloc) : res (option sstr * bool) :=
  let* set := c_at (sbuf m) d in str_trim (Some m) set a.
(** string/sc_str.c:381-386 with [replace] = s + d: each strstr reads the pattern from the string, which the loop
    changes; rep_len was taken before (:367). *)
Fixpoint rep_same_self (fuel : nat) (m : list Z) (orig d rep_len : Z) (w : list Z) : res (list Z) :=
  match fuel with
  | O => Fuel
  | S fuel =>
      let* pat := c_at m d in
      let* r := find m orig pat in
      match r with
      | None => Ok m
      | Some p => let* m := memcpy m p w in rep_same_self fuel m (p + rep_len) d rep_len w
      end
  end.
(** string/sc_str.c:353-431 [sc_str_replace(&s, s + d, with)].  Without the same-size loop the string is only read until it is
    destroyed, after the last use of the pattern. *)
Definition replace_self (fuel : nat) (m : sstr) (d : Z) (w : list Z) (a : alloc) : res (option sstr * bool) :=
  let* pat := c_at (sbuf m) d in
  if (2^32 - 1 <=? zlen pat) || (2^32 - 1 <=? zlen w) then Ok (Some m, false)
  else if zlen w - zlen pat =? 0 then
    let* b := rep_same_self fuel (sbuf m) 0 d (zlen pat) w in
    Ok (Some (mk_sstr (slen m) b), true)
  else str_replace fuel (Some m) pat w a.
(** string/sc_str.c:381-386 with [with] = s + d: memcpy within the string. *)
Fixpoint rep_same_by_self (fuel : nat) (m : list Z) (orig d rep_len : Z) (pat : list Z) : res (list Z) :=
  match fuel with
  | O => Fuel
  | S fuel =>
      let* r := find m orig pat in
      match r with
      | None => Ok m
      | Some p =>
          let* xs := bytes_at m d rep_len in
          let* m := if (0 <? rep_len) && (p <? d + rep_len) && (d <? p + rep_len) then UB else memcpy m p xs in
          rep_same_by_self fuel m (p + rep_len) d rep_len pat
      end
  end.
(** string/sc_str.c:353-431 [sc_str_replace(&s, replace, s + d)]. *)
Definition replace_by_self (fuel : nat) (m : sstr) (d : Z) (pat : list Z) (a : alloc) : res (option sstr * bool) :=
  let* w := c_at (sbuf m) d in
  if (2^32 - 1 <=? zlen pat) || (2^32 - 1 <=? zlen w) then Ok (Some m, false)
  else if zlen w - zlen pat =? 0 then
    let* b := rep_same_by_self fuel (sbuf m) 0 d (zlen pat) pat in
    Ok (Some (mk_sstr (slen m) b), true)
  else str_replace fuel (Some m) pat w a.
