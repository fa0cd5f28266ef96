(** Specification of the INI parser on texts (lists of characters). *)
From Verif Require Import Base CNum IniModel.

(** ** Characters *)
Fixpoint ltrim (l : list Z) : list Z := match l with c :: r => if isspace c then ltrim r else l | [] => [] end.
Definition rtrim (l : list Z) : list Z := rev (ltrim (rev l)).
Definition trim (l : list Z) : list Z := rtrim (ltrim l).
(** ';' and '#' *)
Definition mark (c : Z) : bool := (c =? 59) || (c =? 35).
(** Without what follows the first " ;" or " #". *)
Fixpoint cut_mark (l : list Z) : list Z :=
  match l with
  | [] => []
  | c :: r => c :: match r with d :: _ => if (c =? 32) && mark d then [] else cut_mark r | [] => [] end
  end.
Definition uncomment (l : list Z) : list Z :=
  match l with c :: _ => if mark c then [] else cut_mark l | [] => [] end.
(** What precedes and follows the first character satisfying [p]. *)
Fixpoint split_first (p : Z -> bool) (l : list Z) : option (list Z * list Z) :=
  match l with
  | [] => None
  | c :: r => if p c then Some ([], r) else match split_first p r with Some (a, b) => Some (c :: a, b) | None => None end
  end.
Definition starts_bom (l : list Z) : bool := match l with 239 :: 187 :: 191 :: _ => true | _ => false end.

(** ** Lines *)
Inductive event := Nothing | Section (name : list Z) | Item (key value : list Z) | More (value : list Z) | Error.
(** What line number [n] says; [inkey]: a key was given since the last section. *)
Definition meaning (n : Z) (raw : list Z) (inkey : bool) : event :=
  let t := uncomment (if (n =? 1) && starts_bom raw then skipn 3 raw else raw) in
  match trim t with
  | [] => Nothing
  | c :: r =>
      if match t with d :: _ => isspace d | [] => false end && inkey then More (c :: r)
      else if c =? 91 then
        match split_first (Z.eqb 93) r with Some (name, _) => Section name | None => Error end
      else match split_first (fun x => (x =? 61) || (x =? 58)) (c :: r) with
           | Some (k, v) => Item (rtrim k) (trim v)
           | None => Error
           end
  end.

(** The outcome of a line: nothing, an item to report, an error. *)
Inductive outcome := Quiet | Report (i : item) | Wrong.
(** The outcomes of the lines numbered from [n + 1] on, in section [sec] with last key
    [key]; names are kept to 255 characters. *)
Fixpoint outcomes (n : Z) (sec key : list Z) (lines : list (list Z)) : list outcome :=
  match lines with
  | [] => []
  | raw :: lines =>
      let n := n + 1 in
      match meaning n raw (match key with [] => false | _ => true end) with
      | Nothing => Quiet :: outcomes n sec key lines
      | Section s => Quiet :: outcomes n (firstn 255 s) [] lines
      | Item k v => Report (n, sec, k, v) :: outcomes n sec (firstn 255 k) lines
      | More v => Report (n, sec, key, v) :: outcomes n sec key lines
      | Error => Wrong :: outcomes n sec key lines
      end
  end.
Definition reports (l : list outcome) : list item :=
  flat_map (fun o => match o with Report i => [i] | _ => [] end) l.
(** Line number [n + 1] is accepted: no error, and the callback returned 0. *)
Definition accepted (cb : list item -> item -> Z) (l : list outcome) (n : nat) : Prop :=
  match nth_error l n with
  | Some Quiet => True
  | Some (Report i) => cb (reports (firstn n l)) i = 0
  | Some Wrong => False
  | None => False
  end.
(** Calls and result of parsing lines with these outcomes: everything is
    reported and the result is 0, or everything up to the first line not
    accepted is reported and the result is its number. *)
Definition parsed (cb : list item -> item -> Z) (l : list outcome) (calls : list item) (rc : Z) : Prop :=
  (rc = 0 /\ calls = reports l /\ forall n, (n < length l)%nat -> accepted cb l n) \/
  exists n, (n < length l)%nat /\ rc = Z.of_nat n + 1 /\ calls = reports (firstn (S n) l) /\
    (forall j, (j < n)%nat -> accepted cb l j) /\ ~ accepted cb l n.

(** ** Texts *)
(** The lines of a string, without the newlines. *)
Fixpoint split_lines (l : list Z) : list (list Z) :=
  match l with
  | [] => [[]]
  | c :: r => if c =? 10 then [] :: split_lines r
              else match split_lines r with a :: ls => (c :: a) :: ls | [] => [[c]] end
  end.
(** No line after a final newline; each line cut to what the buffer holds. *)
Definition string_lines (l : list Z) : list (list Z) :=
  map (firstn 1023) (match rev (split_lines l) with [] :: ls => rev ls | ls => rev ls end).
(** The pieces fgets delivers from a file whose remaining bytes are given: lines
    with their newline, 1022 bytes of longer lines; the incomplete last one is
    lost when reading fails behind it ([bad]). *)
Inductive file_lines (bad : bool) : list Z -> list (list Z) -> Prop :=
| FL_end : file_lines bad [] []
| FL_line a r ls : ~ In 10 a -> zlen a < 1022 -> file_lines bad r ls -> file_lines bad (a ++ 10 :: r) ((a ++ [10]) :: ls)
| FL_long a r ls : ~ In 10 a -> zlen a = 1022 -> file_lines bad r ls -> file_lines bad (a ++ r) (a :: ls)
| FL_last a : ~ In 10 a -> 0 < zlen a < 1022 -> file_lines bad a (if bad then [] else [a]).
(** A line as a C string. *)
Fixpoint c_text (l : list Z) : list Z := match l with [] => [] | c :: r => if c =? 0 then [] else c :: c_text r end.

(** ** Documents *)
Definition spaces (l : list Z) : Prop := Forall (fun c => isspace c = true) l.
(** No space at either end. *)
Definition clean (l : list Z) : Prop :=
  (forall c r, l = c :: r -> isspace c = false) /\ (forall r c, l = r ++ [c] -> isspace c = false).
(** No comment starts inside. *)
Definition no_comment (l : list Z) : Prop := forall a c b, l = a ++ 32 :: c :: b -> mark c = false.
(** No newline and no NUL. *)
Definition line_chars (l : list Z) : Prop := ~ In 10 l /\ ~ In 0 l.
(** A line of a document: blank, comment, section, `key sp d sp value sp`,
    continuation `sp value sp`. *)
Inductive dline :=
| DBlank (sp : list Z)
| DComment (text : list Z)
| DSection (name junk : list Z)
| DItem (key sp1 : list Z) (d : Z) (sp2 value sp3 : list Z)
| DMore (sp1 value sp2 : list Z).
(** The text of a line; [note] is a comment at the end of it, or nothing. *)
Definition body (l : dline) : list Z :=
  match l with
  | DBlank sp => sp
  | DComment text => text
  | DSection name junk => 91 :: name ++ 93 :: junk
  | DItem k s1 d s2 v s3 => k ++ s1 ++ d :: s2 ++ v ++ s3
  | DMore s1 v s2 => s1 ++ v ++ s2
  end.
Definition note_ok (note : list Z) : Prop := note = [] \/ exists c t, note = 32 :: c :: t /\ mark c = true.
(** The line is well-formed; [inkey]: an item precedes it in its section. *)
Definition dline_ok (l : dline) (note : list Z) (inkey : bool) : Prop :=
  line_chars (body l ++ note) /\ zlen (body l ++ note) <= 1023 /\ note_ok note /\
  match l with
  | DBlank sp => spaces sp
  | DComment text => match text with c :: _ => mark c = true | [] => False end
  | DSection name junk => ~ In 93 name /\ zlen name <= 255 /\ no_comment (body l)
  | DItem k s1 d s2 v s3 =>
      no_comment (body l) /\ clean k /\ k <> [] /\ zlen k <= 255 /\ hd 0 k <> 91 /\ mark (hd 0 k) = false /\
      (forall x, In x k -> x <> 61 /\ x <> 58) /\ (d = 61 \/ d = 58) /\ clean v /\ spaces s1 /\ spaces s2 /\ spaces s3
  | DMore s1 v s2 => no_comment (body l) /\ inkey = true /\ s1 <> [] /\ spaces s1 /\ clean v /\ v <> [] /\ spaces s2
  end.
(** The document: well-formed lines, each in its context. *)
Fixpoint doc_ok (inkey : bool) (doc : list (dline * list Z)) : Prop :=
  match doc with
  | [] => True
  | (l, note) :: doc => dline_ok l note inkey /\
      doc_ok (match l with DSection _ _ => false | DItem _ _ _ _ _ _ => true | _ => inkey end) doc
  end.
(** Every line is followed by a newline; a byte order mark may come first. *)
Definition doc_text (bom : bool) (doc : list (dline * list Z)) : list Z :=
  (if bom then [239; 187; 191] else []) ++ flat_map (fun x => body (fst x) ++ snd x ++ [10]) doc.
(** The items of the document. *)
Fixpoint doc_items (n : Z) (sec key : list Z) (doc : list (dline * list Z)) : list item :=
  match doc with
  | [] => []
  | (l, _) :: doc =>
      match l with
      | DSection name _ => doc_items (n + 1) name [] doc
      | DItem k _ _ _ v _ => (n, sec, k, v) :: doc_items (n + 1) sec k doc
      | DMore _ v _ => (n, sec, key, v) :: doc_items (n + 1) sec key doc
      | _ => doc_items (n + 1) sec key doc
      end
  end.
(** The first line does not itself start with a byte order mark and fits the
    buffer together with the one before it. *)
Definition first_ok (bom : bool) (doc : list (dline * list Z)) : Prop :=
  match doc with
  | [] => True
  | (l, note) :: _ => starts_bom (body l ++ note) = false /\ (bom = true -> zlen (body l ++ note) <= 1020)
  end.
