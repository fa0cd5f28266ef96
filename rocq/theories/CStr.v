(** The C library functions on strings that the modelled code calls, on memory
    given as lists of bytes.  They are defined after ISO C 7.24; each stands for
    a call cited where it is used.  Reading past the end of the memory is UB. *)
From Verif Require Import Base.

(** One allocator call: refused, or granted with arbitrary bytes in the new
    memory.
    (string/sc_str.c:83, :110, :223, :406.) *)
Definition alloc := option (list Z).
(** malloc(n) used in string/sc_str.c:82, :111, :405. *)
Definition malloc (n : Z) (a : alloc) : option (list Z) :=
  option_map (fun junk => firstn (Z.to_nat n) (junk ++ repeat 0 (Z.to_nat n))) a.
(** realloc(m, n) used in string/sc_str.c:223: keeps the common prefix. *)
Definition realloc (m : list Z) (n : Z) (a : alloc) : option (list Z) :=
  option_map (fun junk => firstn (Z.to_nat n) (m ++ junk ++ repeat 0 (Z.to_nat n))) a.

(** Memory from position [p] on.
    (Pointer arithmetic such as string/sc_str.c:270, :303.) *)
Definition from (m : list Z) (p : Z) : res (list Z) :=
  if (0 <=? p) && (p <=? zlen m) then Ok (skipn (Z.to_nat p) m) else UB.

(** memcpy(m + p, xs, zlen xs).
    (ISO C 7.24.2.1; string/sc_str.c:88, :227.) *)
Definition memcpy (m : list Z) (p : Z) (xs : list Z) : res (list Z) :=
  if (0 <=? p) && (p + zlen xs <=? zlen m)
  then Ok (firstn (Z.to_nat p) m ++ xs ++ skipn (Z.to_nat (p + zlen xs)) m) else UB.
(** The source operand: [n] bytes of [m] from [p].
    (As in string/sc_str.c:88, :227.) *)
Definition bytes_at (m : list Z) (p n : Z) : res (list Z) :=
  if (0 <=? p) && (0 <=? n) && (p + n <=? zlen m) then Ok (zslice m p n) else UB.

(** strlen.
    (ISO C 7.24.6.3; string/sc_str.c:68, :219.) *)
Fixpoint strlen (l : list Z) : res Z :=
  match l with
  | [] => UB
  | c :: r => if c =? 0 then Ok 0 else let* n := strlen r in Ok (n + 1)
  end.
(** Is [c] one of the characters of the C string with contents [set]?
    (For string/sc_str.c:270, :303, :308.) *)
Definition one_of (set : list Z) (c : Z) : bool := existsb (Z.eqb c) set.
(** strspn(l, set), strcspn(l, set).
    (ISO C 7.24.5.6, 7.24.5.3; string/sc_str.c:270, :303.) *)
Fixpoint strspn (l set : list Z) : res Z :=
  match l with
  | [] => UB
  | c :: r => if negb (c =? 0) && one_of set c then let* n := strspn r set in Ok (n + 1) else Ok 0
  end.
(** strcspn, ISO C 7.24.5.3; string/sc_str.c:270. *)
Fixpoint strcspn (l set : list Z) : res Z :=
  match l with
  | [] => UB
  | c :: r => if (c =? 0) || one_of set c then Ok 0 else let* n := strcspn r set in Ok (n + 1)
  end.
(** strchr(set, c) != NULL: the terminator counts.
    (ISO C 7.24.5.2; string/sc_str.c:308, option/sc_option.c:54.) *)
Definition strchr_in (set : list Z) (c : Z) : bool := (c =? 0) || one_of set c.
(** strchr(l, c) for c != 0: the position, or NULL.
    (ISO C 7.24.5.2; uri/sc_uri.c:73, :89, :111.) *)
Fixpoint strchr (l : list Z) (c : Z) : res (option Z) :=
  match l with
  | [] => UB
  | x :: r => if x =? c then Ok (Some 0) else if x =? 0 then Ok None
              else let* n := strchr r c in Ok (option_map (Z.add 1) n)
  end.
(** strncmp(l, pat, strlen(pat)) == 0.
    (For string/sc_str.c:381, :392.) *)
Fixpoint prefix (pat l : list Z) : res bool :=
  match pat with
  | [] => Ok true
  | p :: ps => match l with [] => UB | c :: r => if c =? p then prefix ps r else Ok false end
  end.
(** strstr(l, pat): the position, or NULL.
    (ISO C 7.24.5.7; string/sc_str.c:381, :392, :415.) *)
Fixpoint strstr (l pat : list Z) : res (option Z) :=
  let* b := prefix pat l in
  if b then Ok (Some 0)
  else match l with
       | [] => UB
       | c :: r => if c =? 0 then Ok None else let* n := strstr r pat in Ok (option_map (Z.add 1) n)
       end.
