(** The logger's properties. *)
From Coq Require Import String Ascii.
From Verif Require Import Base CStr CNum SigSpec StrSpec IniModel StrProofs IniProofs LogModel LogSpec LogProofs.
Local Open Scope list_scope.

(** C61: whatever the sinks and the system answer, a history of calls runs without undefined
    behaviour; the callback gets exactly the messages at or above the level in force, in order, and
    when the console works stdout and stderr get exactly theirs.  (The file sink: [log_rotation].) *)
Theorem log_delivery f h : Forall op_ok h ->
  exists w rcs, run (start f) h = Ok (w, rcs) /\ length rcs = length h /\
    calls w = flat_map called (passed start_config h) /\
    (Forall console_fine h ->
       out w = flat_map (printed false) (passed start_config h) /\
       err w = flat_map (printed true) (passed start_config h)).
Proof.
  intro H. destruct (run_ok h _ _ (start_agrees f) H) as (w & rcs & E & L & C & P & _). exists w, rcs. auto.
Qed.
Print Assumptions log_delivery.

Definition ok_ans : answers := mk_answers (Some (text "2026-01-02 03:04:05")) Good Good.
Definition say (lv : Z) (msg : list Z) : op := Log 1 lv msg ok_ans ok_ans true true 0.
Definition demo : list op :=
  [Init 0; SetName 1 (text "main" ++ [0; 9]); SetCallback (Some 7); say 0 (text "low"); say 1 (text "hello");
   SetLevel (text "Error" ++ [0]); say 2 (text "warn"); say 3 (text "bad"); SetStdout false; say 3 (text "worse")].
Example log_delivery_ex : Forall op_ok demo /\ Forall console_fine demo /\
  exists w rcs, run (start (fun _ => None)) demo = Ok (w, rcs) /\
    out w = text "[2026-01-02 03:04:05][INFO ][main] hello" /\
    err w = text "[2026-01-02 03:04:05][ERROR][main] bad" /\
    calls w = [(7, 1, text "hello"); (7, 3, text "bad"); (7, 3, text "worse")].
Proof.
  split; [|split].
  - unfold demo. repeat apply Forall_cons; try apply Forall_nil; cbn; try exact I; try lia.
    + exists (text "main"). split; [unfold nonul; vm_compute; intuition discriminate|]. exists [9]. reflexivity.
    + exists (text "Error"). split; [split; [unfold nonul; vm_compute; intuition discriminate|exists []; reflexivity]|]. vm_compute. repeat constructor; discriminate.
  - unfold demo. repeat apply Forall_cons; try apply Forall_nil; cbn; try exact I;
      (split; [eexists; split; [reflexivity|vm_compute; discriminate]|]; split; [reflexivity|]; split; [reflexivity|vm_compute; discriminate]).
  - do 2 eexists. split; [vm_compute; reflexivity|]. repeat split.
Qed.

(** C62: from any state, once a file has been selected and while it works, the messages at or above
    the level are cut into files: each closed one became full with its last message, the current one
    is not full; the previous file holds the last closed one and the current file what followed. *)
Theorem log_rotation f0 h0 w rcs0 prev cur rp rc e h :
  Forall op_ok h0 -> run (start f0) h0 = Ok (w, rcs0) ->
  nonul prev -> nonul cur -> zlen prev < 255 -> zlen cur < 255 -> prev <> cur ->
  zlen (content (fs w) cur) < 2^63 - 1 -> Forall op_ok h -> Forall file_fine h ->
  let c := fold_left configure h0 start_config in
  let old := content (fs w) cur ++ text (String (ascii_of_nat 10) "") in
  exists w' rcs closed last,
    run w (SetFile (Some (prev ++ 0 :: rp)) (Some (cur ++ 0 :: rc)) true Good true e :: h) = Ok (w', 0 :: rcs) /\
    rotated (zlen old) (flat_map filed (passed c h)) closed last /\
    fs w' cur = Some ((match closed with [] => old | _ => [] end) ++ lines last) /\
    fs w' prev = match rev closed with
                 | [] => fs w prev
                 | p :: r => Some ((match r with [] => old | _ => [] end) ++ lines p)
                 end /\
    forall q, q <> prev -> q <> cur -> fs w' q = fs w q.
Proof.
  intros H0 E0 Hnp Hnc Lp Lc Hne Hsz Ho Hf c old.
  destruct (run_ok h0 _ _ (start_agrees f0) H0) as (w0 & rcs0' & E0' & _ & _ & _ & A). rewrite E0 in E0'. injection E0' as <- _. fold c in A.
  destruct (set_file_rot w c prev cur rp rc e A Hnp Hnc Lp Lc Hne Hsz) as (w1 & E & A1 & _ & _ & _ & R).
  destruct (run_ok h w1 c A1 Ho) as (w2 & rcs & E2 & _).
  assert (Lo : zlen (content (fs w) cur ++ [10]) < 2^63) by (rewrite zlen_app; change (zlen [10]) with 1; lia).
  pose proof (run_file h w1 c _ _ _ _ _ A1 Ho Hf Hne Lo R _ _ E2) as (closed & last & _ & _ & _ & _ & (F1 & F2 & F3) & Rr).
  exists w2, rcs, closed, last. cbn [run]. rewrite E. cbn [bind]. rewrite E2. cbn [bind]. cbn [app] in Rr.
  split; [reflexivity|]. split; [exact Rr|]. split; [exact F1|]. split; [exact F2|exact F3].
Qed.
Print Assumptions log_rotation.

(** The same in one line: once a rotation has happened, the previous file followed by the current
    one is the end of everything written; before that, the current file has it all.  Missing: a rename or
    reopening that fails, for which it is false (log_rename_refuted). *)
Corollary log_newest_partial f0 h0 w rcs0 prev cur rp rc e h :
  Forall op_ok h0 -> run (start f0) h0 = Ok (w, rcs0) ->
  nonul prev -> nonul cur -> zlen prev < 255 -> zlen cur < 255 -> prev <> cur ->
  zlen (content (fs w) cur) < 2^63 - 1 -> Forall op_ok h -> Forall file_fine h ->
  let c := fold_left configure h0 start_config in
  let all := content (fs w) cur ++ [10] ++ lines (flat_map filed (passed c h)) in
  exists w' rcs,
    run w (SetFile (Some (prev ++ 0 :: rp)) (Some (cur ++ 0 :: rc)) true Good true e :: h) = Ok (w', 0 :: rcs) /\
    ((fs w' cur = Some all /\ fs w' prev = fs w prev) \/
     exists front a b, fs w' prev = Some a /\ fs w' cur = Some b /\ all = front ++ a ++ b).
Proof.
  intros H0 E0 Hnp Hnc Lp Lc Hne Hsz Ho Hf c all.
  destruct (log_rotation f0 h0 w rcs0 prev cur rp rc e h H0 E0 Hnp Hnc Lp Lc Hne Hsz Ho Hf) as (w' & rcs & closed & last & E & (R & _) & F1 & F2 & _).
  exists w', rcs. split; [exact E|]. unfold all, c. rewrite <- R.
  change (text (String (ascii_of_nat 10) "")) with [10] in *.
  destruct closed as [|p r] using rev_ind; [left; cbn [concat app]; rewrite F1; split; [rewrite <- !app_assoc; reflexivity|exact F2]|right].
  clear IHr. rewrite rev_app_distr in F2. cbn [rev app] in F2. rewrite concat_app. cbn [concat]. rewrite app_nil_r.
  assert (F1' : fs w' cur = Some (lines last)) by (rewrite F1; destruct r; reflexivity).
  destruct r as [|q r].
  - exists [], (content (fs w) cur ++ [10] ++ lines p), (lines last). split; [rewrite F2; cbn [rev]; now rewrite <- app_assoc|]. split; [exact F1'|].
    cbn [concat app]. rewrite lines_app, <- app_assoc. reflexivity.
  - exists (content (fs w) cur ++ [10] ++ lines (concat (q :: r))), (lines p), (lines last). split; [|split; [exact F1'|rewrite !lines_app, <- !app_assoc; cbn [app]; rewrite <- ?app_assoc; reflexivity]].
    rewrite F2. cbn [rev]. destruct (rev r); reflexivity.
Qed.
Print Assumptions log_newest_partial.

Example log_rotation_ex : exists f0 h0 w rcs0 prev cur h, Forall op_ok h0 /\ run (start f0) h0 = Ok (w, rcs0) /\ nonul prev /\ nonul cur /\ prev <> cur /\
  zlen (content (fs w) cur) < 2^63 - 1 /\ Forall op_ok h /\ Forall file_fine h /\
  zlen (flat_map filed (passed (fold_left configure h0 start_config) h)) = 2.
Proof.
  exists (fun _ => Some [65]), [Init 0]. do 2 eexists. exists (text "a"), (text "b"), [say 1 (text "hi"); SetStdout true; say 0 (text "no"); say 4 (text "ho")].
  split; [repeat constructor|]. split; [reflexivity|].
  split; [unfold nonul; vm_compute; intuition discriminate|]. split; [unfold nonul; vm_compute; intuition discriminate|].
  split; [discriminate|]. split; [vm_compute; reflexivity|].
  split; [repeat apply Forall_cons; try apply Forall_nil; cbn; try exact I; lia|]. split; [|reflexivity].
  repeat apply Forall_cons; try apply Forall_nil; cbn; try exact I;
    (split; [split; [eexists; split; [reflexivity|vm_compute; discriminate]|]; split; [reflexivity|]; split; [reflexivity|vm_compute; discriminate]|auto]).
Qed.

(** A file one byte short of the limit when the program selected it. *)
Definition big : list Z := repeat 65 (Z.to_nat (FILE_SIZE - 1)).
Lemma zlen_big : zlen big = FILE_SIZE - 1.
Proof. unfold big. rewrite zlen_repeat, Z2Nat.id by (vm_compute; discriminate). reflexivity. Qed.

(** C62 fails when rename fails: its result is ignored and the reopening empties the file, so the
    messages are in neither file although every call reported success. *)
Theorem log_rename_refuted : exists f0 prev cur h,
  nonul prev /\ nonul cur /\ prev <> cur /\ Forall op_ok h /\ flat_map filed (passed start_config h) <> [] /\
  exists w rcs, run (start f0) (SetFile (Some (prev ++ [0])) (Some (cur ++ [0])) true Good true 0 :: h) = Ok (w, rcs) /\
    Forall (eq 0) rcs /\ fs w cur = Some [] /\ fs w prev = f0 prev.
Proof.
  set (f0 := fun p => if same p [98] then Some big else None).
  exists f0, [97], [98], [Log 1 1 [88] ok_ans ok_ans false true 0].
  split; [unfold nonul; cbn; intuition discriminate|]. split; [unfold nonul; cbn; intuition discriminate|]. split; [discriminate|].
  split; [constructor; [cbn; lia|constructor]|]. split; [discriminate|].
  assert (Hc : content (fs (start f0)) [98] = big) by reflexivity.
  destruct (set_file_rot (start f0) start_config [97] [98] [] [] 0) as (w1 & E & A1 & _ & _ & _ & (closed & last & R1 & R2 & R3 & R4 & (F1 & F2 & _) & X));
    [apply start_agrees|unfold nonul; cbn; intuition discriminate|unfold nonul; cbn; intuition discriminate|reflexivity|reflexivity|discriminate|rewrite Hc, zlen_big; reflexivity|].
  apply rotated_nil in X as [-> ->]. cbn [first_or bytes lines flat_map rev] in *. rewrite Hc, zlen_app, zlen_big in R4. change (zlen [10]) with 1 in R4.
  pose proof A1 as (_ & _ & Al & As & Ac & An).
  assert (Fi : fine ok_ans [88]) by (split; [eexists; split; [reflexivity|vm_compute; discriminate]|split; [reflexivity|split; [reflexivity|vm_compute; discriminate]]]).
  destruct (log_file_fine (lg w1) (fs w1) [98] [97] 1 (names w1 1) (text "Thread") [88] ok_ans (text "2026-01-02 03:04:05") false true) as (f' & K1 & K2 & K3);
    [lia|apply (An 1)|exact Fi|reflexivity|exact R1|exact R2|exact R3|rewrite R4; vm_compute; split; congruence|].
  do 2 eexists. split.
  - cbn [run]. rewrite E. cbn [bind step]. unfold log. rewrite Al, As. cbn [c_level c_stdout start_config Z.ltb Z.compare]. cbn [bind]. rewrite R1, K3, R4.
    replace (FILE_SIZE <? FILE_SIZE - 1 + 1 + zlen [88]) with true by reflexivity. cbn [bind]. rewrite Ac. cbn [c_cb start_config bind]. reflexivity.
  - split; [repeat constructor|]. cbn [fs]. split; [apply put_eq|]. rewrite put_neq by discriminate. rewrite K2 by discriminate. exact F2.
Qed.
Print Assumptions log_rename_refuted.

(** The size that triggers the rotation leaves the headers out, so the current file can outgrow
    the limit many times over: any number of one-byte messages up to the limit minus one. *)
Definition chatter (n : nat) : list op := repeat (Log 1 1 [88] ok_ans ok_ans true true 0) n.
Lemma chatter_passed n : flat_map filed (passed start_config (chatter n)) = repeat (line (text "Thread") (text "2026-01-02 03:04:05") 1 [88], [88]) n.
Proof. induction n as [|n IH]; [reflexivity|]. unfold chatter in *. cbn [repeat]. cbn [passed]. rewrite flat_map_app. cbn [configure]. rewrite IH. reflexivity. Qed.
Theorem log_limit_refuted : exists f0 prev cur h,
  nonul prev /\ nonul cur /\ prev <> cur /\ Forall op_ok h /\ Forall file_fine h /\
  exists w rcs b, run (start f0) (SetFile (Some (prev ++ [0])) (Some (cur ++ [0])) true Good true 0 :: h) = Ok (w, rcs) /\
    fs w cur = Some b /\ zlen b > 20 * max_file /\ fs w prev = f0 prev.
Proof.
  set (n := Z.to_nat (FILE_SIZE - 1)). assert (Hn : Z.of_nat n = FILE_SIZE - 1) by (unfold n; rewrite Z2Nat.id by (vm_compute; discriminate); reflexivity).
  assert (Fi : fine ok_ans [88]) by (split; [eexists; split; [reflexivity|vm_compute; discriminate]|split; [reflexivity|split; [reflexivity|vm_compute; discriminate]]]).
  assert (O1 : Forall op_ok (chatter n)) by (unfold chatter; apply Forall_forall; intros x Hx; apply repeat_spec in Hx; subst x; cbn; lia).
  assert (O2 : Forall file_fine (chatter n)) by (unfold chatter; apply Forall_forall; intros x Hx; apply repeat_spec in Hx; subst x; cbn; auto).
  exists (fun _ => None), [97], [98], (chatter n). clearbody n.
  split; [unfold nonul; cbn; intuition discriminate|]. split; [unfold nonul; cbn; intuition discriminate|]. split; [discriminate|]. split; [exact O1|]. split; [exact O2|].
  destruct (log_rotation (fun _ => None) [] (start (fun _ => None)) [] [97] [98] [] [] 0 (chatter n)) as (w & rcs & closed & last & E & R & F1 & F2 & _);
    [constructor|reflexivity|unfold nonul; cbn; intuition discriminate|unfold nonul; cbn; intuition discriminate|reflexivity|reflexivity|discriminate|reflexivity|exact O1|exact O2|].
  cbn [fold_left] in R. rewrite chatter_passed in R. change (zlen _) with 1 in R at 1.
  set (m := (line (text "Thread") (text "2026-01-02 03:04:05") 1 [88], [88])) in R.
  assert (B : forall k, bytes (repeat m k) = Z.of_nat k) by (induction k as [|k IH]; [reflexivity|]; cbn [repeat bytes]; unfold m at 1; rewrite IH; change (zlen [88]) with 1; lia).
  destruct closed as [|p r].
  - destruct R as (R & _). cbn [concat app] in R. subst last.
    exists w, (0 :: rcs). eexists. split; [exact E|]. split; [exact F1|]. split; [|exact F2]. rewrite zlen_app.
    assert (L : forall k, zlen (lines (repeat m k)) = 38 * Z.of_nat k).
    { induction k as [|k IH]; [reflexivity|]. cbn [repeat lines flat_map]. fold (lines (repeat m k)). rewrite zlen_app, IH. change (zlen (fst m)) with 38. lia. }
    rewrite L, Hn. unfold content. cbn [start fs app]. change (zlen (text (String (ascii_of_nat 10) ""))) with 1. unfold FILE_SIZE, max_file. lia.
  - exfalso. destruct R as (R & (F & _) & _). destruct F as (q & x & -> & Hover & _).
    assert (Hb : bytes (concat ((q ++ [x]) :: r) ++ last) = Z.of_nat n) by (rewrite R; apply B).
    cbn [concat] in Hb. rewrite !bytes_app in Hb. pose proof (bytes_nonneg (concat r)). pose proof (bytes_nonneg last). rewrite bytes_app in Hover. change FILE_SIZE with max_file in *. lia.
Qed.
Print Assumptions log_limit_refuted.

(** C78: a log call reports 0 exactly when the message is below the level or every enabled sink took
    it; a message below the level changes nothing. *)
Definition took (a : answers) (msg : list Z) : Prop := stamp a <> None /\ hio a = Good /\ mio a = Good /\ zlen msg <= 2147483647.
Theorem log_result f0 h0 w rcs0 t lv msg ao af mv ok crc :
  Forall op_ok h0 -> run (start f0) h0 = Ok (w, rcs0) -> 0 <= lv <= 4 ->
  (forall s, stamp ao = Some s -> zlen s <= 100) -> (forall s, stamp af = Some s -> zlen s <= 100) ->
  exists w' rc, step w (Log t lv msg ao af mv ok crc) = Ok (w', rc) /\
    (lv < level (lg w) -> w' = w /\ rc = 0) /\
    (level (lg w) <= lv ->
      (rc = 0 <->
       (to_stdout (lg w) = true -> took ao msg) /\
       (fp (lg w) <> None -> took af msg /\ (u64 (file_size (lg w) + zlen msg) > max_file -> ok = true)) /\
       (cb (lg w) <> None -> crc = 0))).
Proof.
  intros H0 E0 Hlv Ho Hf.
  destruct (run_ok h0 _ _ (start_agrees f0) H0) as (w0 & rcs0' & E0' & _ & _ & _ & A). rewrite E0 in E0'. injection E0' as <- _.
  set (c := fold_left configure h0 start_config) in A.
  destruct (step_ok w c (Log t lv msg ao af mv ok crc) A Hlv) as (w' & rc & E & _). exists w', rc. split; [exact E|].
  cbn [step] in E. unfold log in E. destruct (Z.ltb_spec lv (level (lg w))) as [Hl|Hl].
  { injection E as <- <-. split; [auto|lia]. }
  split; [lia|]. intros _. pose proof A as ((cur & prev & Hc & Hp & Hfp) & _ & _ & _ & _ & An).
  assert (HH : forall a, (forall s, stamp a = Some s -> zlen s <= 100) -> exists b r, print_header lv (names w t) (stamp a) (hio a) = Ok (b, r) /\
    ((r = 0 /\ stamp a <> None /\ hio a = Good) \/ (r = -1 /\ ~ (stamp a <> None /\ hio a = Good)))).
  { intros a Ha. destruct (stamp a) as [s|] eqn:Es.
    - destruct (hio a) as [|k] eqn:Eh; [rewrite (header_fine _ _ (c_name c t)) by (auto; apply An); do 2 eexists; split; [reflexivity|left; repeat split; discriminate]|].
      destruct (header_any lv (names w t) (c_name c t) (Some s) (Bad k) Hlv (An t)) as (b & r & E1). exists b, r. split; [exact E1|]. right. split; [|intros [_ ?]; discriminate].
      unfold print_header in E1. destruct zget; [|discriminate]. cbn [or_ub bind] in E1. destruct cstring; [|discriminate|discriminate]. injection E1 as _ <-. reflexivity.
    - do 2 eexists. split; [reflexivity|]. right. split; [reflexivity|]. intros [? _]. congruence. }
  pose proof (zlen_nonneg msg) as Hmsg.
  assert (FP : forall a b r, fprintf msg a = (b, r) -> (a = Good /\ zlen msg <= 2147483647 /\ b = msg /\ r = zlen msg) \/ (r = -1 /\ ~ (a = Good /\ zlen msg <= 2147483647))).
  { intros a b r. unfold fprintf. destruct a; [destruct (Z.leb_spec (zlen msg) 2147483647)|]; intro X; injection X as <- <-; [left; auto|right; split; [reflexivity|lia]|right; split; [reflexivity|intros [? _]; discriminate]]. }
  match type of E with (let* (a, b) := ?X in _) = _ => assert (E1 : exists w1 rc1, X = Ok (w1, rc1) /\ names w1 = names w /\ lg w1 = lg w /\
    ((rc1 = 0 /\ (to_stdout (lg w) = true -> took ao msg)) \/ (rc1 = -1 /\ ~ (to_stdout (lg w) = true -> took ao msg)))) end.
  { destruct (to_stdout (lg w)) eqn:Eo; [|do 2 eexists; split; [reflexivity|]; do 2 (split; [reflexivity|]); left; split; [reflexivity|discriminate]].
    unfold log_stdout. destruct (HH ao Ho) as (b & r & Eb & Hr). rewrite Eb. cbn [bind].
    destruct Hr as [(-> & X1 & X2)|(-> & X)]; cbn [Z.ltb Z.compare].
    - destruct (fprintf msg (mio ao)) as [b2 r2] eqn:Ef. destruct (FP _ _ _ Ef) as [(Y1 & Y2 & -> & ->)|(-> & Y)].
      + replace (zlen msg <? 0) with false by lia. cbn [bind]. destruct (lv =? LERROR); do 2 eexists; (split; [reflexivity|]); do 2 (split; [reflexivity|]); left; (split; [reflexivity|intros _; split; auto]).
      + cbn [Z.ltb Z.compare bind]. destruct (lv =? LERROR); do 2 eexists; (split; [reflexivity|]); do 2 (split; [reflexivity|]); right; (split; [reflexivity|]); intro K; destruct (K eq_refl) as (_ & _ & K1 & K2); auto.
    - cbn [bind]. destruct (lv =? LERROR); do 2 eexists; (split; [reflexivity|]); do 2 (split; [reflexivity|]); right; (split; [reflexivity|]); intro K; destruct (K eq_refl) as (K1 & K2 & _); auto. }
  destruct E1 as (w1 & rc1 & E1 & N1 & L1 & R1). rewrite E1 in E. cbn [bind] in E. clear E1.
  set (FOK := fp (lg w) <> None -> took af msg /\ (u64 (file_size (lg w) + zlen msg) > max_file -> ok = true)).
  match type of E with (let* (a, b) := ?X in _) = _ => assert (E2 : exists w2 rc2, X = Ok (w2, rc2) /\ ((rc2 = 0 /\ FOK) \/ (rc2 = -1 /\ ~ FOK))) end.
  { unfold FOK. destruct (fp (lg w)) as [path|] eqn:Efp; [|do 2 eexists; split; [reflexivity|]; left; split; [reflexivity|congruence]].
    rewrite N1. unfold log_file. destruct (HH af Hf) as (b & r & Eb & Hr). rewrite Eb. cbn [bind].
    destruct Hr as [(-> & X1 & X2)|(-> & X)]; cbn [Z.ltb Z.compare bind].
    - destruct (fprintf msg (mio af)) as [b2 r2] eqn:Ef. destruct (FP _ _ _ Ef) as [(Y1 & Y2 & -> & ->)|(-> & Y)].
      + replace (zlen msg <? 0) with false by lia. cbv zeta. cbn [current_file prev_file]. rewrite (holds_cstring _ _ _ Hc), (holds_cstring _ _ _ Hp). cbn [bind].
        destruct (Z.ltb_spec FILE_SIZE (u64 (file_size (lg w) + zlen msg))) as [G|G]; change FILE_SIZE with max_file in G.
        * destruct ok; cbn [bind]; do 2 eexists; (split; [reflexivity|]); [left; split; [reflexivity|intros _; split; [split; auto|auto]]|].
          right. split; [reflexivity|]. intro K. destruct (K ltac:(congruence)) as [_ K2]. discriminate K2; lia.
        * cbn [bind]. do 2 eexists. split; [reflexivity|]. left. split; [reflexivity|]. intros _. split; [split; auto|lia].
      + cbn [Z.ltb Z.compare bind]. do 2 eexists. split; [reflexivity|]. right. split; [reflexivity|]. intro K. destruct (K ltac:(congruence)) as [(_ & _ & K1 & K2) _]. auto.
    - do 2 eexists. split; [reflexivity|]. right. split; [reflexivity|]. intro K. destruct (K ltac:(congruence)) as [(K1 & K2 & _) _]. auto. }
  destruct E2 as (w2 & rc2 & E2 & R2). rewrite E2 in E. cbn [bind] in E. clear E2.
  assert (E3 : rc = Z.lor (Z.lor rc1 rc2) (match cb (lg w) with Some _ => crc | None => 0 end)).
  { destruct (cb (lg w)); injection E as _ <-; reflexivity. }
  rewrite E3. rewrite Z.lor_eq_0_iff, Z.lor_eq_0_iff. fold FOK.
  assert (R3 : match cb (lg w) with Some _ => crc | None => 0 end = 0 <-> (cb (lg w) <> None -> crc = 0)).
  { destruct (cb (lg w)); split; intro K; auto; try congruence. apply K. discriminate. }
  rewrite R3. destruct R1 as [[-> R1]|[-> R1]], R2 as [[-> R2]|[-> R2]]; split; try tauto; intros [[? ?] ?]; discriminate.
Qed.
Print Assumptions log_result.
Example log_result_ex : exists w' rc, step (start (fun _ => None)) (Log 1 1 [88] ok_ans ok_ans true true 0) = Ok (w', rc) /\ rc = 0 /\
  exists w1 rcs w2, run (start (fun _ => None)) [Init 0; SetFile (Some [97; 0]) (Some [98; 0]) true Good true 5] = Ok (w1, rcs) /\
    step w1 (Log 1 1 [88] ok_ans (mk_answers (Some []) Good (Bad 0)) true true 0) = Ok (w2, -1) /\ fp (lg w1) <> None.
Proof.
  do 2 eexists. split; [vm_compute; reflexivity|]. split; [reflexivity|]. do 3 eexists. split; [vm_compute; reflexivity|]. split; [vm_compute; reflexivity|]. discriminate.
Qed.

(** C79: sc_log_set_level accepts exactly the five names, in any mixture of cases.  Missing: strings
    with bytes above 127, for which it is false (log_set_level_refuted). *)
Theorem log_set_level_partial l m s : c_string m s -> LogSpec.ascii s ->
  exists l' rc, set_level l m = Ok (l', rc) /\
    fp l' = fp l /\ current_file l' = current_file l /\ prev_file l' = prev_file l /\ file_size l' = file_size l /\
    inited l' = inited l /\ to_stdout l' = to_stdout l /\ cb l' = cb l /\
    ((rc = 0 /\ names_level s (level l')) \/ (rc = -1 /\ level l' = level l /\ forall i, ~ names_level s i)).
Proof.
  intros (Hn & r & ->) Ha. rewrite set_level_ok by assumption. destruct (level_of s) as [i|] eqn:E.
  - do 2 eexists. split; [reflexivity|]. cbn. repeat (split; [reflexivity|]). left. split; [reflexivity|]. now apply level_of_names.
  - do 2 eexists. split; [reflexivity|]. repeat (split; [reflexivity|]). right. repeat (split; [reflexivity|]). intros i Hi. apply level_of_names in Hi. congruence.
Qed.
Print Assumptions log_set_level_partial.
Example log_set_level_ex : c_string (text "wArN" ++ [0]) (text "wArN") /\ LogSpec.ascii (text "wArN") /\ names_level (text "wArN") 2 /\
  (forall i, ~ names_level (text "WARNING") i).
Proof.
  split; [split; [unfold nonul; vm_compute; intuition discriminate|exists []; reflexivity]|]. split; [vm_compute; repeat constructor; discriminate|].
  split; [split; [lia|reflexivity]|]. intros i H. apply level_of_names in H. discriminate H.
Qed.
(** Outside the basic character set tolower gets a negative argument. *)
Theorem log_set_level_refuted : exists l m s, c_string m s /\ Forall (fun c => 0 <= c < 256) s /\ set_level l m = UB.
Proof.
  exists zero_logger, [195; 0], [195]. split; [split; [unfold nonul; cbn; intuition discriminate|exists []; reflexivity]|]. split; [repeat constructor; lia|reflexivity].
Qed.
Print Assumptions log_set_level_refuted.

(** C80: sc_log_set_file reports success exactly when file logging was asked to stop, or the names fit
    and the file could be opened, written and measured; file logging is on afterwards exactly in the
    latter case, and then to the file named.  Missing: errno after a failure, which is false for names
    that are too long (log_set_file_errno_refuted). *)
Theorem log_set_file_partial f0 h0 w rcs0 p c ok nl tell e :
  Forall op_ok h0 -> run (start f0) h0 = Ok (w, rcs0) -> op_ok (SetFile p c ok nl tell e) ->
  exists w' rc, step w (SetFile p c ok nl tell e) = Ok (w', rc) /\
    match p, c with
    | Some pm, Some cm =>
        let works := zlen (before_nul pm) < 255 /\ zlen (before_nul cm) < 255 /\ ok = true /\ nl = Good /\ tell = true in
        (works /\ rc = 0 /\ fp (lg w') = Some (before_nul cm) /\
         fs w' (before_nul cm) = Some (content (fs w) (before_nul cm) ++ [10])) \/
        (~ works /\ rc = -1 /\ fp (lg w') = None)
    | _, _ => rc = 0 /\ fp (lg w') = None /\ fs w' = fs w
    end /\
    level (lg w') = level (lg w) /\ to_stdout (lg w') = to_stdout (lg w) /\ cb (lg w') = cb (lg w) /\
    out w' = out w /\ err w' = err w /\ calls w' = calls w.
Proof.
  intros H0 E0 Op.
  destruct (run_ok h0 _ _ (start_agrees f0) H0) as (w0 & rcs0' & E0' & _ & _ & _ & A). rewrite E0 in E0'. injection E0' as <- _.
  pose proof A as ((cur & prev & Hc & Hp & _) & _). cbn [step]. unfold set_file, close_file.
  destruct (clear_holds _ _ _ Hp) as (p0 & Ep & Hp0); [lia|]. rewrite Ep. cbn [bind].
  destruct (clear_holds _ _ _ Hc) as (c0 & Ec & Hc0); [lia|]. rewrite Ec. cbn [bind file_size level inited to_stdout cb prev_file current_file].
  destruct p as [pm|]; [|do 2 eexists; split; [reflexivity|cbn; auto 10]]. destruct c as [cm|]; [|do 2 eexists; split; [reflexivity|cbn; auto 10]].
  destruct Op as [Op Oc]. destruct (Op pm eq_refl) as (ps & Kp). destruct (Oc cm eq_refl) as (cs & Kc).
  rewrite (c_string_before _ _ Kp), (c_string_before _ _ Kc). destruct Kp as (Hps & rp & ->). destruct Kc as (Hcs & rcm & ->).
  rewrite strlen_ok by exact Hps. cbn [bind]. rewrite (strlen_ok cs) by exact Hcs.
  destruct (Z.leb_spec (256 - 1) (zlen ps)) as [Lp|Lp]; cbn [bind orb]; [do 2 eexists; split; [reflexivity|split; [|auto 10]]; right; split; [intros (K & _); lia|auto]|].
  destruct (Z.leb_spec (256 - 1) (zlen cs)) as [Lc|Lc]; [do 2 eexists; split; [reflexivity|split; [|auto 10]]; right; split; [intros (_ & K & _); lia|auto]|].
  destruct (copy_holds _ _ _ ps rp Hp0 Hps) as (b1 & p1 & E1 & E2 & Hp1); [lia|]. rewrite E1. cbn [bind]. rewrite E2. cbn [bind].
  destruct (copy_holds _ _ _ cs rcm Hc0 Hcs) as (b2 & c1 & E3 & E4 & Hc1); [lia|]. rewrite E3. cbn [bind]. rewrite E4. cbn [bind].
  rewrite (holds_cstring _ _ _ Hc1). cbn [bind].
  destruct ok; cbn [negb]; [|do 2 eexists; split; [reflexivity|split; [|auto 10]]; right; split; [intros (_ & _ & K & _); discriminate|auto]].
  destruct nl as [|k]; cbn [fprintf].
  2: { cbn [Z.ltb Z.compare]. do 2 eexists. split; [reflexivity|split; [|auto 10]]. right. split; [intros (_ & _ & _ & K & _); discriminate|auto]. }
  change (zlen [10] <=? 2147483647) with true. cbv iota. change (zlen [10] <? 0) with false. cbv iota.
  destruct tell; cbn [negb]; do 2 eexists; (split; [reflexivity|split; [|auto 10]]); [left|right; split; [intros (_ & _ & _ & _ & K); discriminate|auto]].
  split; [repeat split; lia|]. split; [reflexivity|]. split; [reflexivity|]. cbn [fs]. apply put_eq.
Qed.
Print Assumptions log_set_file_partial.
Example log_set_file_ex : exists w rcs, run (start (fun _ => Some [65])) [Init 0; SetFile (Some [97; 0]) (Some [98; 0; 5]) true Good true 0; SetFile None None true Good true 0;
    SetFile (Some (repeat 97 255 ++ [0])) (Some [98; 0]) true Good true 0] = Ok (w, rcs) /\ rcs = [0; 0; 0; -1] /\ fs w [98] = Some [65; 10].
Proof. do 2 eexists. split; [vm_compute; reflexivity|]. split; reflexivity. Qed.
(** The header promises errno on failure; for a name that is too long the call leaves whatever was
    there, possibly 0. *)
Theorem log_set_file_errno_refuted : exists pm cm l' f' , exists s, c_string pm s /\ c_string cm [98] /\
  set_file zero_logger (fun _ => None) (Some pm) (Some cm) true Good true 0 = Ok (l', f', -1, 0).
Proof.
  exists (repeat 97 255 ++ [0]), [98; 0]. do 2 eexists. exists (repeat 97 255). split; [|split].
  - split; [intro H; apply repeat_spec in H; discriminate|exists []; reflexivity].
  - split; [unfold nonul; cbn; intuition discriminate|exists []; reflexivity].
  - vm_compute. reflexivity.
Qed.
Print Assumptions log_set_file_errno_refuted.
