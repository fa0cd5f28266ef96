(** Theorems about the INI parser. *)
From Verif Require Import Base CStr CNum StrSpec StrProofs IniModel IniSpec IniProofs IniDocProofs.

(** C48, C49: for every text (of less than 2^31 lines) and every callback,
    sc_ini_parse_string accesses only its own blocks and does exactly what
    [parsed] and [outcomes] say: it reports the items of the lines up to the first
    one that is wrong or whose callback returns non-zero, and returns that line's
    number; 0 when there is none. *)
Theorem ini_parse_string_exact cb junk text tl : nonul text -> zlen junk = 1024 -> zlen (string_lines text) < 2^31 ->
  exists calls rc, ini_parse_string false cb junk (Some (text ++ 0 :: tl)) = Ok (calls, rc) /\
    parsed cb (outcomes 0 [] [] (string_lines text)) calls rc.
Proof.
  intros Hn Hj Hl. rewrite parse_string_ok by assumption. set (os := outcomes 0 [] [] (string_lines text)).
  exists (fst (run cb os 0 [])), (snd (run cb os 0 [])). split; [now destruct (run cb os 0 [])|].
  apply (run_parsed cb os []). intros n H. cbn in H. lia.
Qed.
Print Assumptions ini_parse_string_exact.
(** "[s]\nk = v ;c\n x\nbad": the third line continues k, the fourth is wrong. *)
Definition ini_demo : list Z := [91; 115; 93; 10; 107; 32; 61; 32; 118; 32; 59; 99; 10; 32; 120; 10; 98; 97; 100].
Example ini_string_example : nonul ini_demo /\ zlen (string_lines ini_demo) < 2^31 /\
  ini_parse_string false (fun _ _ => 0) (repeat 7 1024) (Some (ini_demo ++ [0])) =
    Ok ([(2, [115], [107], [118]); (3, [115], [107], [120])], 4) /\
  ini_parse_string false (fun calls _ => zlen calls) (repeat 7 1024) (Some (ini_demo ++ [0])) =
    Ok ([(2, [115], [107], [118]); (3, [115], [107], [120])], 3).
Proof. split; [unfold nonul; cbn; lia|]. split; [vm_compute; reflexivity|]. split; vm_compute; reflexivity. Qed.
(** The result is determined by the outcomes. *)
Theorem ini_parsed_unique cb l calls1 rc1 calls2 rc2 : parsed cb l calls1 rc1 -> parsed cb l calls2 rc2 -> calls1 = calls2 /\ rc1 = rc2.
Proof.
  intros [(-> & -> & H1)|(n1 & L1 & -> & -> & P1 & N1)] [(-> & -> & H2)|(n2 & L2 & -> & -> & P2 & N2)].
  - auto.
  - exfalso. auto.
  - exfalso. auto.
  - assert (n1 = n2) as ->; [|auto]. destruct (Nat.lt_trichotomy n1 n2) as [H|[H|H]]; [exfalso; auto|exact H|exfalso; auto].
Qed.
Print Assumptions ini_parsed_unique.
Example ini_parsed_example : parsed (fun _ _ => 0) [Quiet; Report (2, [115], [107], [118]); Wrong] [(2, [115], [107], [118])] 3.
Proof.
  right. exists 2%nat. split; [cbn; lia|]. split; [reflexivity|]. split; [reflexivity|]. split.
  - intros [|[|j]] H; [exact I|reflexivity|lia].
  - intro H. exact H.
Qed.

(** C48, C49 for files: also for files with NUL bytes, long lines and read
    errors.  -1 comes only from a failed open or read. *)
Theorem ini_parse_file_exact cb junk l bad ls : zlen junk = 1024 -> file_lines bad l ls -> zlen ls < 2^31 ->
  exists calls rc, parsed cb (outcomes 0 [] [] (map c_text ls)) calls rc /\
    ini_parse_file false cb junk (Some (l, bad)) = Ok (calls, if rc =? 0 then if bad then -1 else 0 else rc) /\
    ini_parse_file false cb junk None = Ok ([], -1).
Proof.
  intros Hj H Hl. rewrite (parse_file_ok cb junk l bad ls Hj H Hl). set (os := outcomes 0 [] [] (map c_text ls)).
  exists (fst (run cb os 0 [])), (snd (run cb os 0 [])). split; [|split; reflexivity].
  apply (run_parsed cb os []). intros n Hn. cbn in Hn. lia.
Qed.
Print Assumptions ini_parse_file_exact.
Theorem ini_file_lines_exist bad l : exists ls, file_lines bad l ls.
Proof. apply (file_lines_exist bad (length l)). lia. Qed.
Print Assumptions ini_file_lines_exist.
(** A final line without newline, read with and without an error behind it. *)
Example ini_file_example :
  file_lines true [107; 61; 118; 10; 120; 61] [[107; 61; 118; 10]] /\
  ini_parse_file false (fun _ _ => 0) (repeat 7 1024) (Some ([107; 61; 118; 10; 120; 61], true)) = Ok ([(1, [], [107], [118])], -1) /\
  ini_parse_file false (fun _ _ => 0) (repeat 7 1024) (Some ([107; 61; 118; 10; 120; 61], false)) = Ok ([(1, [], [107], [118]); (2, [], [120], [])], 0).
Proof.
  split; [|split; vm_compute; reflexivity]. change [107; 61; 118; 10; 120; 61] with ([107; 61; 118] ++ 10 :: [120; 61]).
  apply (FL_line true [107; 61; 118] [120; 61] []); [cbn; lia|vm_compute; reflexivity|]. apply (FL_last true [120; 61]); [cbn; lia|]. split; vm_compute; reflexivity.
Qed.

(** C48: for a document of well-formed sections, items, continuation lines,
    comments and blank lines, with any spacing and an optional byte order mark,
    exactly its items are reported, in order, with their section, key, value and
    line number. *)
Theorem ini_document bom doc cb junk tl : doc_ok false doc -> first_ok bom doc -> zlen doc < 2^31 - 1 ->
  zlen junk = 1024 -> (forall calls i, cb calls i = 0) ->
  ini_parse_string false cb junk (Some (doc_text bom doc ++ 0 :: tl)) = Ok (doc_items 1 [] [] doc, 0).
Proof.
  intros Hd Hf Hl Hj Hcb. destruct (document_ok bom doc Hd Hf) as (E & W & N & L).
  rewrite parse_string_ok by (try assumption; lia). rewrite doc_run by assumption. now rewrite E.
Qed.
Print Assumptions ini_document.
(** [s]      ;n
    k =  a b
       c
    ; x *)
Definition demo_doc : list (dline * list Z) :=
  [(DSection [115] [9], [32; 59; 110]); (DItem [107] [32] 61 [32; 32] [97; 32; 98] [], []); (DMore [32; 9] [99] [], []); (DComment [59; 32; 120], []); (DBlank [], [])].
Example ini_document_example : doc_ok false demo_doc /\ first_ok true demo_doc /\
  doc_items 1 [] [] demo_doc = [(2, [115], [107], [97; 32; 98]); (3, [115], [107], [99])].
Proof.
  assert (NC : forall l, forallb (fun n => match skipn n l with 32 :: c :: _ => negb (mark c) | _ => true end) (seq 0 (length l)) = true -> no_comment l).
  { intros l H a c b E. rewrite forallb_forall in H. specialize (H (length a)). rewrite E in H. rewrite skipn_app, skipn_all, Nat.sub_diag in H. cbn [app skipn] in H.
    destruct (mark c); [|reflexivity]. exfalso. assert (false = true); [|discriminate]. apply H. apply in_seq. rewrite app_length. cbn. lia. }
  assert (CL : forall l, forallb (fun c => negb (isspace c)) [hd 1 l; last l 1] = true -> clean l).
  { intros l H. cbn in H. apply andb_true_iff in H as [H1 H2]. apply andb_true_iff in H2 as [H2 _]. split.
    - intros c r ->. cbn in H1. now apply negb_true_iff in H1.
    - intros r c ->. rewrite last_last in H2. now apply negb_true_iff in H2. }
  split; [|split; [vm_compute; split; [reflexivity|discriminate]|reflexivity]].
  unfold demo_doc. cbn [doc_ok]. repeat split.
  all: try (unfold line_chars; cbn; lia). all: try (vm_compute; discriminate). all: try (cbn; lia).
  all: try (apply NC; reflexivity). all: try (intros; discriminate). all: try match goal with |- spaces _ => repeat constructor end.
  all: match goal with
       | |- note_ok [32; 59; 110] => right; exists 59, [110]; split; reflexivity
       | |- note_ok [] => now left
       | |- forall (c : Z) (r : list Z), ?l = _ -> _ => exact (proj1 (CL l eq_refl))
       | |- forall (r : list Z) (c : Z), ?l = _ -> _ => exact (proj2 (CL l eq_refl))
       | H : In _ [107] |- _ => destruct H as [<-|[]]; lia
       | |- _ => idtac
       end.
  all: try now left.
Qed.
(** C48: a file and a string with the same text (without NUL bytes, no line longer
    than 1021 bytes) are parsed alike. *)
Theorem ini_file_is_string cb junk junk' text tl : nonul text -> (forall l, In l (split_lines text) -> zlen l <= 1021) ->
  zlen (string_lines text) < 2^31 -> zlen junk = 1024 -> zlen junk' = 1024 ->
  ini_parse_file false cb junk (Some (text, false)) = ini_parse_string false cb junk' (Some (text ++ 0 :: tl)).
Proof.
  intros Hn Hl Hz Hj Hj'. destruct (file_string_lines (length text) text (Nat.le_refl _) Hn Hl) as (ls & F & L & O).
  rewrite (parse_file_ok cb junk text false ls Hj F) by (unfold zlen in *; lia). rewrite parse_string_ok by assumption. rewrite O.
  destruct (run cb _ 0 []) as [calls rc]. cbn [fst snd]. destruct (Z.eqb_spec rc 0) as [->|]; reflexivity.
Qed.
Print Assumptions ini_file_is_string.
Example ini_file_is_string_example : nonul ini_demo /\ split_lines ini_demo = [[91; 115; 93]; [107; 32; 61; 32; 118; 32; 59; 99]; [32; 120]; [98; 97; 100]] /\
  ini_parse_file false (fun _ _ => 0) (repeat 7 1024) (Some (ini_demo, false)) = Ok ([(2, [115], [107], [118]); (3, [115], [107], [120])], 4).
Proof. split; [unfold nonul; cbn; lia|]. split; vm_compute; reflexivity. Qed.

(** A NULL string has no lines. *)
Theorem ini_null cb junk : ini_parse_string false cb junk None = Ok ([], 0).
Proof. reflexivity. Qed.
Print Assumptions ini_null.
Example ini_null_example : ini_parse_string true (fun _ _ => 1) [] None = Ok ([], 0). Proof. reflexivity. Qed.

(** C48, the part that is false: with pointer arithmetic taken strictly, trimming
    a blank line forms the address before the buffer (undefined behaviour, though
    nothing is accessed there).  The input is a single newline. *)
Theorem ini_pointer_refuted : exists text, nonul text /\
  ini_parse_string true (fun _ _ => 0) (repeat 7 1024) (Some (text ++ [0])) = UB.
Proof. exists [10]. split; [intros [H|[]]; lia|]. vm_compute. reflexivity. Qed.
Print Assumptions ini_pointer_refuted.
Example ini_pointer_example : ini_parse_string true (fun _ _ => 0) (repeat 7 1024) (Some (ini_demo ++ [0])) =
  ini_parse_string false (fun _ _ => 0) (repeat 7 1024) (Some (ini_demo ++ [0])).
Proof. vm_compute. reflexivity. Qed.

(** C49, the part that is false: the header says the callback's own non-zero value
    is returned; it is the number of the line. *)
Theorem ini_callback_value_refuted : exists text v, nonul text /\ v <> 0 /\
  ini_parse_string false (fun _ _ => v) (repeat 7 1024) (Some (text ++ [0])) = Ok ([(1, [], [107], [118])], 1) /\ v <> 1.
Proof. exists [107; 61; 118], (-5). split; [unfold nonul; cbn; lia|]. split; [lia|]. split; [vm_compute; reflexivity|lia]. Qed.
Print Assumptions ini_callback_value_refuted.
(** Only a space introduces a comment inside a line: after a tab it is part of
    the value. *)
Theorem ini_tab_comment : exists text, nonul text /\
  ini_parse_string false (fun _ _ => 0) (repeat 7 1024) (Some (text ++ [0])) = Ok ([(1, [], [107], [118; 9; 59; 99])], 0).
Proof. exists [107; 61; 118; 9; 59; 99]. split; [unfold nonul; cbn; lia|]. vm_compute. reflexivity. Qed.
Print Assumptions ini_tab_comment.
(** A continuation line is reported under the first 255 bytes of the key, so a
    longer key gets two different names. *)
Theorem ini_long_key_refuted : exists key, nonul key /\
  ini_parse_string false (fun _ _ => 0) (repeat 7 1024) (Some ((key ++ [61; 118; 10; 32; 119]) ++ [0])) =
    Ok ([(1, [], key, [118]); (2, [], firstn 255 key, [119])], 0) /\ firstn 255 key <> key.
Proof.
  exists (repeat 107 300). split; [intro H; apply repeat_spec in H; lia|]. split; [vm_compute; reflexivity|]. vm_compute. discriminate.
Qed.
Print Assumptions ini_long_key_refuted.
(** The same bytes parsed from a file and from a string can differ: the string's
    long lines are cut, the file's go on as further lines, and the error is
    reported on a line number the file does not have. *)
Theorem ini_file_string_refuted : exists text, nonul text /\ zlen (string_lines text) = 1 /\
  ini_parse_string false (fun _ _ => 0) (repeat 7 1024) (Some (text ++ [0])) =
    Ok ([(1, [], [107], repeat 118 1021)], 0) /\
  ini_parse_file false (fun _ _ => 0) (repeat 7 1024) (Some (text, false)) = Ok ([(1, [], [107], repeat 118 1020)], 2).
Proof.
  exists (107 :: 61 :: repeat 118 1030). split.
  - intros [H|[H|H]]; [lia|lia|]. apply repeat_spec in H. lia.
  - split; [vm_compute; reflexivity|]. split; vm_compute; reflexivity.
Qed.
Print Assumptions ini_file_string_refuted.
(** An empty key is accepted. *)
Theorem ini_empty_key : ini_parse_string false (fun _ _ => 0) (repeat 7 1024) (Some [61; 118; 0]) = Ok ([(1, [], [], [118])], 0).
Proof. vm_compute. reflexivity. Qed.
Print Assumptions ini_empty_key.
