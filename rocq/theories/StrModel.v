(** Model of string/sc_str.c.  A length-prefixed string is its length field and
    the bytes of its buf[] array.  NULL is None.  C string arguments are given by
    their contents (bytes without NUL), and do not overlap the string; memory
    owned by other strings is never touched, so freeing is not modelled beyond
    the owner's pointer being replaced. *)
From Verif Require Import Base CStr.

(** string/sc_str.c:50-53 [struct sc_str]. *)
Record sstr := mk_sstr { slen : Z; sbuf : list Z }.

(** string/sc_str.c:58 [sc_str_bytes], size_t arithmetic; :60-62 SC_STR_MAX. *)
Definition str_bytes (n : Z) : Z := u64 (n + 4 + 1).
(** string/sc_str.c:60-62: SC_STR_MAX. *)
Definition STR_MAX : Z := 2^32 - 1 - 4 - 1.
(** A block of [str_bytes n] bytes has 4 bytes of length, the rest is buf.
    (string/sc_str.c:45-58, :83, :110, :406.) *)
Definition block (n : Z) (a : alloc) : option (list Z) := malloc (str_bytes n - 4) a.

(** string/sc_str.c:75-93 [sc_str_create_len]; [src] = the memory at str. *)
Definition str_create_len (src : option (list Z)) (len : Z) (a : alloc) : res (option sstr) :=
  match src with
  | None => Ok None
  | Some src =>
      match block len a with
      | None => Ok None
      | Some m =>
          let* xs := bytes_at src 0 len in
          let* m := memcpy m 0 xs in
          let* m := zput m len 0 in
          Ok (Some (mk_sstr len m))
      end
  end.
(** string/sc_str.c:64-73 [sc_str_create]; the argument's contents. *)
Definition str_create (s : option (list Z)) (a : alloc) : res (option sstr) :=
  match s with
  | None => Ok None
  | Some s =>
      let* len := strlen (s ++ [0]) in
      if STR_MAX <? len then Ok None else str_create_len (Some (s ++ [0])) (u32 len) a
  end.
(** string/sc_str.c:95-131 [sc_str_create_va], :133-143 [sc_str_create_fmt]:
    [text] is what the format produces, None if vsnprintf fails.  Both calls of
    vsnprintf produce the same text. *)
Definition str_create_fmt (text : option (list Z)) (a : alloc) : res (option sstr) :=
  match text with
  | None => Ok None
  | Some text =>
      let rc := zlen text in
      match block rc a with
      | None => Ok None
      | Some m =>
          let len := u32 rc in
          if rc <? 1024 then
            let* xs := bytes_at (text ++ [0]) 0 (u32 (len + 1)) in
            let* m := memcpy m 0 xs in
            Ok (Some (mk_sstr len m))
          else
            let* m := memcpy m 0 (firstn (Z.to_nat len) text ++ [0]) in
            if len <? u32 rc then Ok None else Ok (Some (mk_sstr len m))
      end
  end.
(** string/sc_str.c:155-162 [sc_str_len]. *)
Definition str_len (s : option sstr) : Z := match s with None => -1 | Some s => slen s end.
(** string/sc_str.c:164-174 [sc_str_dup]. *)
Definition str_dup (s : option sstr) (a : alloc) : res (option sstr) :=
  match s with None => Ok None | Some s => str_create_len (Some (sbuf s)) (slen s) a end.
(** string/sc_str.c:176-189 [sc_str_set]: (new *str, result). *)
Definition str_set (s : option sstr) (param : option (list Z)) (a : alloc) : res (option sstr * bool) :=
  let* c := str_create param a in
  match c with None => Ok (s, false) | Some c => Ok (Some c, true) end.
(** string/sc_str.c:191-206 [sc_str_set_fmt]. *)
Definition str_set_fmt (s : option sstr) (text : option (list Z)) (a : alloc) : res (option sstr * bool) :=
  let* c := str_create_fmt text a in
  match c with None => Ok (s, false) | Some c => Ok (Some c, true) end.
(** string/sc_str.h:134-136 [sc_str_append_fmt]: "%s" of the string up to its
    first NUL, then the text of the format. *)
Definition str_append_fmt (s : option sstr) (text : option (list Z)) (a : alloc) : res (option sstr * bool) :=
  match s with
  | None => str_set_fmt s text a
  | Some m =>
      let* n := strlen (sbuf m) in
      str_set_fmt s (option_map (app (zslice (sbuf m) 0 n)) text) a
  end.
(** string/sc_str.c:208-233 [sc_str_append]. *)
Definition str_append (s : option sstr) (param : list Z) (a : alloc) : res (option sstr * bool) :=
  match s with
  | None => let* c := str_create (Some param) a in Ok (c, match c with None => false | Some _ => true end)
  | Some m =>
      let* len := strlen (param ++ [0]) in
      let bytes := str_bytes (u64 (slen m + len)) in
      if u64 (STR_MAX - slen m) <? len then Ok (s, false)
      else
        match realloc (sbuf m) (bytes - 4) a with
        | None => Ok (s, false)
        | Some b =>
            let* xs := bytes_at (param ++ [0]) 0 len in
            let* b := memcpy b (slen m) xs in
            let n := u32 (slen m + u32 len) in
            let* b := zput b n 0 in
            Ok (Some (mk_sstr n b), true)
        end
  end.
(** string/sc_str.c:235-241 [sc_str_cmp]. *)
Definition str_cmp (s1 s2 : sstr) : res bool :=
  if slen s1 =? slen s2 then
    let* a := bytes_at (sbuf s1) 0 (slen s1) in
    let* b := bytes_at (sbuf s2) 0 (slen s1) in
    Ok (if list_eq_dec Z.eq_dec a b then true else false)
  else Ok false.

(** string/sc_str.c:305-312 the loop of [sc_str_trim]: [n] = end - head. *)
Fixpoint trim_end (n : nat) (m : list Z) (hd : Z) (set : list Z) : res Z :=
  match n with
  | O => Ok hd
  | S n =>
      let e := hd + Z.of_nat n in
      let* c := or_ub (zget m e) in
      if strchr_in set c then trim_end n m hd set else Ok (e + 1)
  end.
(** string/sc_str.c:292-326 [sc_str_trim]. *)
Definition str_trim (s : option sstr) (set : list Z) (a : alloc) : res (option sstr * bool) :=
  match s with
  | None => Ok (s, true)
  | Some m =>
      let* hd := strspn (sbuf m) set in
      let* e := trim_end (Z.to_nat (slen m - hd)) (sbuf m) hd set in
      let e := if slen m <? hd then slen m else e in
      if negb (hd =? 0) || negb (e =? slen m) then
        let* src := from (sbuf m) hd in
        let* c := str_create_len (Some src) (u32 (e - hd)) a in
        match c with None => Ok (s, false) | Some c => Ok (Some c, true) end
      else Ok (s, true)
  end.
(** string/sc_str.c:328-351 [sc_str_substring]. *)
Definition str_substring (s : option sstr) (start e : Z) (a : alloc) : res (option sstr * bool) :=
  match s with
  | None => Ok (s, false)
  | Some m =>
      if (slen m <? start) || (slen m <? e) || (e <? start) then Ok (s, false)
      else
        let* src := from (sbuf m) start in
        let* c := str_create_len (Some src) (u32 (e - start)) a in
        match c with None => Ok (s, false) | Some c => Ok (Some c, true) end
  end.

(** strstr(m + p, pat) as a position in [m].
    (string/sc_str.c:381, :392, :415.) *)
Definition find (m : list Z) (p : Z) (pat : list Z) : res (option Z) :=
  let* l := from m p in
  let* r := strstr l pat in
  Ok (option_map (Z.add p) r).
(** string/sc_str.c:381-386 the same-size loop.  [fuel] bounds the number of
    iterations; a loop that needs more is reported as Fuel. *)
Fixpoint rep_same (fuel : nat) (m : list Z) (orig : Z) (pat w : list Z) : res (list Z) :=
  match fuel with
  | O => Fuel
  | S fuel =>
      let* r := find m orig pat in
      match r with
      | None => Ok m
      | Some p => let* m := memcpy m p w in rep_same fuel m (p + zlen pat) pat w
      end
  end.
(** string/sc_str.c:394-401 the counting loop: (count, size), or None for the
    early return. *)
Fixpoint rep_count (fuel : nat) (m : list Z) (tmp : Z) (pat : list Z) (diff count size : Z) : res (option (Z * Z)) :=
  match fuel with
  | O => Fuel
  | S fuel =>
      let* r := find m tmp pat in
      match r with
      | None => Ok (Some (count, size))
      | Some p =>
          if STR_MAX - diff <? size then Ok None
          else rep_count fuel m (p + zlen pat) pat diff (count + 1) (u64 (size + diff))
      end
  end.
(** string/sc_str.c:416-426 the copying loop: (dest, tmp, orig). *)
Fixpoint rep_copy (count : nat) (m dest : list Z) (tmp orig : Z) (pat w : list Z) : res (list Z * Z * Z) :=
  match count with
  | O => Ok (dest, tmp, orig)
  | S count =>
      let* r := find m orig pat in
      let* p := or_ub r in
      let n := p - orig in
      let* xs := bytes_at m orig n in
      let* dest := memcpy dest tmp xs in
      let* dest := memcpy dest (tmp + n) (w ++ [0]) in
      rep_copy count m dest (tmp + n + zlen w) (orig + n + zlen pat) pat w
  end.
(** string/sc_str.c:353-431 [sc_str_replace].  strlen of the arguments is their
    length. *)
Definition str_replace (fuel : nat) (s : option sstr) (pat w : list Z) (a : alloc) : res (option sstr * bool) :=
  match s with
  | None => Ok (s, true)
  | Some m =>
      if (2^32 - 1 <=? zlen pat) || (2^32 - 1 <=? zlen w) then Ok (s, false)
      else
        let diff := zlen w - zlen pat in
        if diff =? 0 then
          let* b := rep_same fuel (sbuf m) 0 pat w in
          Ok (Some (mk_sstr (slen m) b), true)
        else
          let* r := rep_count fuel (sbuf m) 0 pat diff 0 (slen m) in
          match r with
          | None => Ok (s, false)
          | Some (count, size) =>
              if count =? 0 then Ok (s, true)
              else
                match block size a with
                | None => Ok (s, false)
                | Some d =>
                    let* (d, tmp, orig) := rep_copy (Z.to_nat count) (sbuf m) d 0 0 pat w in
                    let* xs := bytes_at (sbuf m) orig (slen m - orig + 1) in
                    let* d := memcpy d tmp xs in
                    Ok (Some (mk_sstr (u32 size) d), true)
                end
          end
  end.

(** string/sc_str.c:243-251 [swap]: the byte after the string and the byte at
    position [d]. *)
Definition str_swap (s : sstr) (d : Z) : res sstr :=
  let* c := or_ub (zget (sbuf s) (slen s)) in
  let* x := or_ub (zget (sbuf s) d) in
  let* b := zput (sbuf s) (slen s) x in
  let* b := zput b d c in
  Ok (mk_sstr (slen s) b).
(** string/sc_str.c:253-274 [sc_str_token_begin]; positions for pointers:
    (string, *save, token). *)
Definition token_begin (s : sstr) (save : option Z) (delim : list Z) : res (sstr * option Z * option Z) :=
  let go s it :=
    let* l := from (sbuf s) it in
    let* n := strcspn l delim in
    let* s := str_swap s (it + n) in
    Ok (s, Some (it + n), Some it) in
  match save with
  | None => go s 0
  | Some it =>
      let* s := str_swap s it in
      let* c := or_ub (zget (sbuf s) it) in
      if c =? 0 then Ok (s, save, None) else go s (it + 1)
  end.
(** string/sc_str.c:276-290 [sc_str_token_end].  *save is read only when set. *)
Definition token_end (s : sstr) (save : option Z) : res sstr :=
  let* c := or_ub (zget (sbuf s) (slen s)) in
  if c =? 0 then Ok s else let* d := or_ub save in str_swap s d.
(** The loop of string/sc_str.h:200-204, for at most [n] calls: the tokens read
    as C strings, and whether it ended by itself. *)
Definition read_token (s : sstr) (it : Z) : res (list Z) :=
  let* l := from (sbuf s) it in
  let* n := strlen l in
  Ok (zslice l 0 n).
(** The loop a user writes with string/sc_str.c:253-290, [n] rounds at most. *)
Fixpoint tokens (n : nat) (s : sstr) (save : option Z) (delim : list Z) : res (sstr * option Z * list (list Z) * bool) :=
  match n with
  | O => Ok (s, save, [], false)
  | S n =>
      let* (s, save, it) := token_begin s save delim in
      match it with
      | None => Ok (s, save, [], true)
      | Some it =>
          let* t := read_token s it in
          let* (s, save, ts, e) := tokens n s save delim in
          Ok (s, save, t :: ts, e)
      end
  end.
