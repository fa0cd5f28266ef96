(** Model of ini/sc_ini.c.  The line buffer, the section and the key are memory
    blocks, pointers into the line buffer are offsets.  Every access is checked
    against the block.  [strict] says whether forming a pointer outside the block
    (without using it) is UB too, as ISO C 6.5.6p8 has it. *)
From Verif Require Import Base CStr CNum.

(** A pointer into [m] as the result of arithmetic.
    (ini/sc_ini.c:52.) *)
Definition ptr (strict : bool) (m : list Z) (p : Z) : res Z :=
  if strict && negb ((0 <=? p) && (p <=? zlen m)) then UB else Ok p.
(** The characters of the C string at the start of [l].
    (As the callback of ini/sc_ini.c:114, :131 reads its arguments.) *)
Fixpoint cstring (l : list Z) : res (list Z) :=
  match l with
  | [] => UB
  | c :: r => if c =? 0 then Ok [] else let* s := cstring r in Ok (c :: s)
  end.

(** ini/sc_ini.c:53-55: while (end > str && isspace( *end )) end--; [n] bounds the
    number of iterations. *)
Fixpoint trim_end (n : nat) (m : list Z) (str e : Z) : res Z :=
  match n with
  | O => Fuel
  | S n =>
      if e <=? str then Ok e
      else let* c := zload m e in if isspace c then trim_end n m str (e - 1) else Ok e
  end.
(** ini/sc_ini.c:44-60 [trim_space]. *)
Definition trim_space (strict : bool) (m : list Z) (str : Z) : res (list Z * Z) :=
  let* l := from m str in
  let* (sp, r) := span isspace l in
  let str := str + zlen sp in
  let* len := strlen r in
  let* e := ptr strict m (str + len - 1) in
  let* e := trim_end (S (Z.to_nat len)) m str e in
  let* m := zput m (e + 1) 0 in
  Ok (m, str).

(** ini/sc_ini.c:71-77: the loop over blanks; each round advances, [n] bounds
    their number. *)
Fixpoint cut_comment (n : nat) (m : list Z) (s : Z) : res (list Z) :=
  match n with
  | O => Fuel
  | S n =>
      let* c := zload m s in
      if c =? 0 then Ok m
      else
        let* l := from m s in
        let* o := strchr l 32 in
        match o with
        | None => Ok m
        | Some k =>
            let s := s + k + 1 in
            let* c := zload m s in
            if (c =? 59) || (c =? 35) then zput m s 0 else cut_comment n m s
        end
  end.
(** ini/sc_ini.c:62-80 [trim_comment]; it returns its argument. *)
Definition trim_comment (m : list Z) (str : Z) : res (list Z) :=
  let* c := zload m str in
  if (c =? 0) || (c =? 59) || (c =? 35) then zput m str 0 else cut_comment (S (length m)) m str.
(** ini/sc_ini.c:82-93 [trim_bom]. *)
Definition trim_bom (m : list Z) (str : Z) : res Z :=
  let* l := from m str in
  let* n := strlen l in
  if 3 <=? n then
    let* a := zload m str in
    let* b := zload m (str + 1) in
    let* c := zload m (str + 2) in
    if (a =? 239) && (b =? 187) && (c =? 191) then Ok (str + 3) else Ok str
  else Ok str.
(** strpbrk(head, "=:"), ini/sc_ini.c:124: the distance, or NULL. *)
Definition strpbrk (l : list Z) : res (option Z) :=
  let* n := strcspn l [61; 58] in
  let* c := zload l n in
  Ok (if c =? 0 then None else Some n).
(** The characters strncpy takes: up to the NUL, at most [n].
    (ini/sc_ini.c:122, :130.) *)
Fixpoint upto_nul (n : nat) (l : list Z) : res (list Z) :=
  match n with
  | O => Ok []
  | S n => match l with [] => UB | c :: r => if c =? 0 then Ok [] else let* s := upto_nul n r in Ok (c :: s) end
  end.
(** strncpy(dst, src, n), ini/sc_ini.c:122, :130: pads with zeros. *)
Definition strncpy (dst src : list Z) (n : Z) : res (list Z) :=
  let* s := upto_nul (Z.to_nat n) src in
  if n <=? zlen dst then Ok (s ++ repeat 0 (Z.to_nat n - length s) ++ skipn (Z.to_nat n) dst) else UB.

(** The arguments of one callback: line, section, key, value.
    (ini/sc_ini.h:53-55.) *)
Definition item : Type := (Z * list Z * list Z * list Z).
(** ini/sc_ini.c:99-100: the local arrays. *)
Record ini := mk_ini { ibuf : list Z; isec : list Z; ikey : list Z }.
(** What one line leads to: nothing more, a callback with this state
    afterwards, `return line`.
    (The cases of ini/sc_ini.c:104-139.) *)
Inductive after := Go (s : ini) | Call (s : ini) (i : item) | Bad.
(** ini/sc_ini.c:103-137: the loop body up to the callback, with the line in the
    buffer and [line] already incremented. *)
Definition ini_line (strict : bool) (s : ini) (line : Z) : res after :=
  let* head := if line =? 1 then trim_bom (ibuf s) 0 else Ok 0 in
  let* m := trim_comment (ibuf s) head in
  let* (m, head) := trim_space strict m head in
  let* c := zload m head in
  if c =? 0 then Ok (Go (mk_ini m (isec s) (ikey s)))
  else
    let* k := zload (ikey s) 0 in
    let* sec := cstring (isec s) in
    if (0 <? head) && negb (k =? 0) then
      let* l := from m head in
      let* v := cstring l in
      let* kk := cstring (ikey s) in
      Ok (Call (mk_ini m (isec s) (ikey s)) (line, sec, kk, v))
    else if c =? 91 then
      let* l := from m head in
      let* o := strchr l 93 in
      match o with
      | None => Ok Bad
      | Some e =>
          let* key := zput (ikey s) 0 0 in
          let* m := zput m (head + e) 0 in
          let* l := from m (head + 1) in
          let* sec := strncpy (isec s) l 255 in
          Ok (Go (mk_ini m sec key))
      end
    else
      let* l := from m head in
      let* o := strpbrk l in
      match o with
      | None => Ok Bad
      | Some e =>
          let* m := zput m (head + e) 0 in
          let* (m, _) := trim_space strict m head in
          let* l := from m head in
          let* key := strncpy (ikey s) l 255 in
          let* (m, v) := trim_space strict m (head + e + 1) in
          let* l := from m head in
          let* kk := cstring l in
          let* l := from m v in
          let* vv := cstring l in
          Ok (Call (mk_ini m (isec s) key) (line, sec, kk, vv))
      end.

(** A source of lines: NULL, or the rest of the source and the buffer filled.
    (ini/sc_ini.c:142-169.) *)
Definition source (S : Type) : Type := S -> list Z -> res (option (S * list Z)).
(** ini/sc_ini.c:95-140 [sc_ini_parse].  [cb] is the callback: its result may
    depend on all earlier calls [calls] and this one.  `++line` past INT_MAX is
    UB.  [fuel] bounds the number of lines. *)
Fixpoint ini_loop {S} (strict : bool) (next : source S) (cb : list item -> item -> Z)
    (fuel : nat) (src : S) (s : ini) (line : Z) (calls : list item) : res (list item * Z) :=
  match fuel with
  | O => Fuel
  | Datatypes.S fuel =>
      let* o := next src (ibuf s) in
      match o with
      | None => Ok (calls, 0)
      | Some (src, buf) =>
          let line := line + 1 in
          if 2^31 <=? line then UB
          else
            let* a := ini_line strict (mk_ini buf (isec s) (ikey s)) line in
            match a with
            | Go s => ini_loop strict next cb fuel src s line calls
            | Bad => Ok (calls, line)
            | Call s i =>
                if cb calls i =? 0 then ini_loop strict next cb fuel src s line (calls ++ [i])
                else Ok (calls ++ [i], line)
            end
      end
  end.
(** ini/sc_ini.c:98-100; [junk] is what the uninitialised buffer holds. *)
Definition ini_start (junk : list Z) : ini := mk_ini junk (repeat 0 256) (repeat 0 256).

(** ini/sc_ini.c:147-169 [string_line]; the source is `*p`, None for NULL. *)
Definition string_line : source (option (list Z)) := fun src buf =>
  match src with
  | None => Ok None
  | Some str =>
      let* c := zload str 0 in
      if c =? 0 then Ok None
      else
        let* o := strchr str 10 in
        let* t := match o with Some t => Ok t | None => strlen str end in
        let size := 1023 in
        let len := if t <? size then t else size in
        let* xs := bytes_at str 0 len in
        let* buf := memcpy buf 0 xs in
        let* buf := zput buf len 0 in
        let* c := zload str t in
        if c =? 0 then Ok (Some (None, buf))
        else let* r := from str (t + 1) in Ok (Some (Some r, buf))
  end.
(** ini/sc_ini.c:191-195 [sc_ini_parse_string]; [str] = None for NULL. *)
Definition ini_parse_string (strict : bool) (cb : list item -> item -> Z) (junk : list Z) (str : option (list Z)) : res (list item * Z) :=
  ini_loop strict string_line cb (match str with Some s => S (length s) | None => 1%nat end) str (ini_start junk) 0 [].

(** An open file: the bytes still to come, and whether reading then fails
    (instead of reaching the end).
    (ini/sc_ini.c:171-189.) *)
Definition file : Type := list Z * bool.
(** What fgets(buf, n + 1, fp) reads: at most [n] bytes, up to a newline.
    (ini/sc_ini.c:144.) *)
Fixpoint fgets_take (n : nat) (l : list Z) : list Z * list Z :=
  match n, l with
  | S n, c :: r => if c =? 10 then ([c], r) else let '(a, b) := fgets_take n r in (c :: a, b)
  | _, _ => ([], l)
  end.
(** ini/sc_ini.c:142-145 [file_line]: size is 1023.  An error before the line is
    complete gives NULL; the buffer is then not looked at. *)
Definition file_line : source file := fun src buf =>
  let '(l, bad) := src in
  let '(a, r) := fgets_take 1022 l in
  let whole := (length a =? 1022)%nat || match rev a with c :: _ => c =? 10 | [] => false end in
  if negb whole && bad then Ok None
  else match a with
  | [] => Ok None
  | _ => let* buf := memcpy buf 0 (a ++ [0]) in Ok (Some ((r, bad), buf))
  end.
(** ini/sc_ini.c:171-189 [sc_ini_parse_file]; None = fopen fails.  The error
    indicator is set when reading failed, i.e. when parsing reached it. *)
Definition ini_parse_file (strict : bool) (cb : list item -> item -> Z) (junk : list Z) (f : option file) : res (list item * Z) :=
  match f with
  | None => Ok ([], -1)
  | Some f =>
      let* (calls, rc) := ini_loop strict file_line cb (S (length (fst f))) f (ini_start junk) 0 [] in
      if rc =? 0 then Ok (calls, if snd f then -1 else 0) else Ok (calls, rc)
  end.
