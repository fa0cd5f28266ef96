(** Model of uri/sc_uri.c.  The text and the new block are lists of bytes, pointers
    are offsets.  64-bit long, 32-bit int. *)
From Verif Require Import Base CStr CNum ScModel IniModel.

(** A "%.*s" argument pair: memory from the pointer on, and the length.  The code
    passes a size_t where printf takes an int (undefined by ISO C); as on the
    common 64-bit ABIs, its low 32 bits are taken. *)
Definition piece : Type := list Z * Z.
(** uri/sc_uri.c:55-56: the literal "" the pointers start with. *)
Definition no_piece : piece := ([0], 0).
(** What "%.*s" prints (ISO C 7.21.6.1): a negative precision is as if absent; used
    by uri/sc_uri.c:139-142, :161-164. *)
Definition print_s (p : piece) : res (list Z) :=
  let '(l, n) := p in
  let k := i32 n in
  if k <? 0 then cstring l else upto_nul (Z.to_nat k) l.
(** snprintf with its int result (uri/sc_uri.c:139, :161): -1 when the length does not fit. *)
Definition snprintf_int (buf : list Z) (len : Z) (text : list Z) : res (list Z * Z) :=
  let* (b, n) := snprintf buf len text in Ok (b, if n <=? 2^31 - 1 then n else -1).

(** uri/sc_uri.c:73-104, the part behind "//": userinfo, host, port and the
    position behind them; None is `return NULL`. *)
Definition uri_authority (m : list Z) (pos : Z) : res (option (piece * piece * piece * Z)) :=
  let* l := from m pos in
  let* at_ := strchr l 64 in
  let '(user, pos) := match at_ with Some k => ((l, k + 1), pos + k + 1) | None => (no_piece, pos) end in
  let* c := zload m pos in
  let* l := from m pos in
  let* k := strcspn l (if c =? 91 then [93] else [58; 47; 63; 35]) in
  let host_len := k + (if c =? 91 then 1 else 0) in
  let host := (l, host_len) in
  let* open := (if c =? 91 then let* d := zload m (pos + host_len - 1) in Ok (negb (d =? 93)) else Ok false) in
  if (open : bool) then Ok None
  else
    let pos := pos + host_len in
    let* l := from m pos in
    let* colon := strchr l 58 in
    match colon with
    | None => Ok (Some (user, host, no_piece, pos))
    | Some k =>
        let* d := zload m (pos + k + 1) in
        if d =? 0 then Ok None
        else
          let* l1 := from m (pos + k + 1) in
          let* (val, err, e) := strtoull l1 in
          if err || (65536 <? val) then Ok None
          else
            let* lp := from m (pos + k) in
            Ok (Some (user, host, (lp, 1 + e), pos + k + 1 + e))
    end.
(** uri/sc_uri.c:107-121: path, query and fragment. *)
Definition uri_tail (m : list Z) (pos : Z) : res (piece * piece * piece) :=
  let* l := from m pos in
  let* path_len := strcspn l [63; 35] in
  let path := (l, path_len) in
  let pos := pos + path_len in
  let* l := from m pos in
  let* q := strchr l 63 in
  let* (query, pos) :=
    match q with
    | Some k => let* lq := from m (pos + k) in let* n := strcspn lq [35] in Ok ((lq, n), pos + k + n)
    | None => Ok (no_piece, pos)
    end in
  let* c := zload m pos in
  if c =? 35 then let* l := from m pos in let* n := strlen l in Ok (path, query, (l, n))
  else Ok (path, query, no_piece).

(** uri/sc_uri.h:64-75, struct sc_uri: the flexible array and the offsets the
    pointers have in it. *)
Record uri := mk_uri { ubuf : list Z; ustr : Z; uscheme : Z; uuser : Z; uhost : Z; uport : Z; upath : Z; uquery : Z; ufragment : Z }.
(** uri/sc_uri.c:149-150: a length without its delimiter. *)
Definition undelimited (n : Z) : Z := n - (if n =? 0 then 0 else 1).
(** uri/sc_uri.c:151-159: the same for a pointer at a leading delimiter. *)
Definition behind (p : piece) : piece := let '(l, n) := p in if n =? 0 then p else (skipn 1 l, n - 1).
(** uri/sc_uri.c:123-183: the block is filled with the whole text and then the
    parts.  [alen] is 2 when there is a "//"; the struct's 64 bytes before the
    array are left out of the block. *)
Definition uri_build (scheme : piece) (alen : Z) (user host port path query fragment : piece) (a : alloc) : res (option uri) :=
  let full_len := u64 (snd scheme + alen + snd user + snd host + snd port + snd path + snd query + snd fragment + 1) in
  let one (p : piece) := if snd p =? 0 then 0 else 1 in
  let parts_len := u64 (full_len - alen + 7 - one scheme - one user - one port - one query - one fragment) in
  match malloc (u64 (parts_len + full_len)) a with
  | None => Ok None
  | Some buf =>
      let* s1 := print_s scheme in
      let* s2 := print_s ([47; 47; 0], alen) in
      let* s3 := print_s user in
      let* s4 := print_s host in
      let* s5 := print_s port in
      let* s6 := print_s path in
      let* s7 := print_s query in
      let* s8 := print_s fragment in
      let* (buf, ret) := snprintf_int buf full_len (s1 ++ s2 ++ s3 ++ s4 ++ s5 ++ s6 ++ s7 ++ s8) in
      if (ret <? 0) || negb (ret =? full_len - 1) then Ok None
      else
        let* n := strlen buf in
        let dest := n + 1 in
        let scheme := (fst scheme, undelimited (snd scheme)) in
        let user := (fst user, undelimited (snd user)) in
        let port := behind port in
        let query := behind query in
        let fragment := behind fragment in
        let* t1 := print_s scheme in
        let* t2 := print_s user in
        let* t3 := print_s host in
        let* t4 := print_s port in
        let* t5 := print_s path in
        let* t6 := print_s query in
        let* t7 := print_s fragment in
        let* d := from buf dest in
        let* (d, ret) := snprintf_int d parts_len (t1 ++ [0] ++ t2 ++ [0] ++ t3 ++ [0] ++ t4 ++ [0] ++ t5 ++ [0] ++ t6 ++ [0] ++ t7 ++ [0]) in
        if (ret <? 0) || negb (ret =? parts_len - 1) then Ok None
        else
          let o_user := dest + snd scheme + 1 in
          let o_host := o_user + snd user + 1 in
          let o_port := o_host + snd host + 1 in
          let o_path := o_port + snd port + 1 in
          let o_query := o_path + snd path + 1 in
          let o_fragment := o_query + snd query + 1 in
          Ok (Some (mk_uri (firstn (Z.to_nat dest) buf ++ d) 0 dest o_user o_host o_port o_path o_query o_fragment))
  end.
(** uri/sc_uri.c:42-183 [sc_uri_create]. *)
Definition uri_create (str : option (list Z)) (a : alloc) : res (option uri) :=
  match str with
  | None => Ok None
  | Some m =>
      let* ptr := strstr m [58] in
      match ptr with
      | None => Ok None
      | Some ptr =>
          let scheme := (m, ptr + 1) in
          let pos := ptr + 1 in
          let* c := zload m pos in
          let* slashes := (if c =? 47 then let* d := zload m (pos + 1) in Ok (d =? 47) else Ok false) in
          let* au := (if (slashes : bool) then uri_authority m (pos + 2) else Ok (Some (no_piece, no_piece, no_piece, pos))) in
          match au with
          | None => Ok None
          | Some (user, host, port, pos) =>
              let* (path, query, fragment) := uri_tail m pos in
              uri_build scheme (if slashes then 2 else 0) user host port path query fragment a
          end
      end
  end.
