(** INI documents: what the parser reports for them. *)
From Verif Require Import Base CStr CNum StrSpec StrProofs IniModel IniSpec IniProofs.
From Coq Require Import ZifyBool.

Lemma mark_not32 c : mark c = true -> c <> 32. Proof. unfold mark. lia. Qed.
Lemma cut_mark_id b : no_comment b -> cut_mark b = b.
Proof.
  induction b as [|c b IH]; intro H; [reflexivity|]. cbn [cut_mark]. f_equal. destruct b as [|d b]; [reflexivity|].
  destruct (Z.eqb_spec c 32) as [->|]; cbn [andb].
  - rewrite (H [] d b eq_refl). apply IH. intros x e y E. apply (H (32 :: x) e y). now rewrite E.
  - apply IH. intros x e y E. apply (H (c :: x) e y). now rewrite E.
Qed.
Lemma cut_mark_note b c t : no_comment b -> mark c = true -> cut_mark (b ++ 32 :: c :: t) = b ++ [32].
Proof.
  intros H Hc. induction b as [|x b IH]; [cbn; now rewrite Hc|]. cbn [app cut_mark]. f_equal.
  assert (Hb : no_comment b) by (intros y e z E; apply (H (x :: y) e z); now rewrite E). specialize (IH Hb).
  destruct b as [|d b].
  - cbn [app]. replace (mark 32) with false by reflexivity. rewrite andb_false_r. exact IH.
  - cbn [app] in *. destruct (Z.eqb_spec x 32) as [->|]; cbn [andb]; [|exact IH]. rewrite (H [] d b eq_refl). exact IH.
Qed.
(** The text without the note: at most a blank remains of the note. *)
Lemma uncomment_body b note : no_comment b -> note_ok note -> (forall c r, b = c :: r -> mark c = false) ->
  exists s, uncomment (b ++ note) = b ++ s /\ spaces s.
Proof.
  intros Hb Hn Hm. destruct Hn as [->|(c & t & -> & Hc)].
  - exists []. rewrite !app_nil_r. split; [|constructor]. destruct b as [|x b]; [reflexivity|]. cbn [uncomment]. rewrite (Hm x b eq_refl). now apply cut_mark_id.
  - exists [32]. split; [|repeat constructor]. destruct b as [|x b].
    + cbn. now rewrite Hc.
    + change (uncomment ((x :: b) ++ 32 :: c :: t)) with (if mark x then [] else cut_mark ((x :: b) ++ 32 :: c :: t)). rewrite (Hm x b eq_refl). now apply cut_mark_note.
Qed.
Lemma ltrim_spaces s l : spaces s -> ltrim (s ++ l) = ltrim l.
Proof. induction 1 as [|c s Hc H IH]; [reflexivity|]. cbn. now rewrite Hc. Qed.
Lemma spaces_rev s : spaces s -> spaces (rev s).
Proof. unfold spaces. rewrite !Forall_forall. intros H x Hx. apply H. now apply in_rev. Qed.
Lemma rtrim_spaces l s : spaces s -> rtrim (l ++ s) = rtrim l.
Proof. intro H. unfold rtrim. rewrite rev_app_distr, ltrim_spaces; [reflexivity|now apply spaces_rev]. Qed.
Lemma rtrim_ns x d y : isspace d = false -> rtrim (x ++ d :: y) = x ++ d :: rtrim y.
Proof.
  intro Hd. unfold rtrim. rewrite rev_app_distr. cbn [rev]. rewrite <- app_assoc. cbn [app].
  induction (rev y) as [|c r IH]; cbn [app ltrim].
  - rewrite Hd. cbn [rev]. now rewrite rev_involutive.
  - destruct (isspace c); [exact IH|]. cbn [rev]. rewrite rev_app_distr. cbn [rev]. rewrite rev_involutive, <- !app_assoc. reflexivity.
Qed.
Lemma rtrim_clean v : clean v -> rtrim v = v.
Proof.
  intros [_ H]. destruct v as [|c v] using rev_ind; [reflexivity|]. rewrite rtrim_ns by now apply (H v c). reflexivity.
Qed.
Lemma trim_clean v : clean v -> trim v = v.
Proof. intro H. unfold trim. rewrite ltrim_id by apply H. now apply rtrim_clean. Qed.
(** The value part. *)
Lemma trim_value s2 v s3 : spaces s2 -> clean v -> spaces s3 -> trim (rtrim (s2 ++ v ++ s3)) = v.
Proof.
  intros H2 Hv H3. rewrite app_assoc, rtrim_spaces by exact H3. destruct v as [|c v] using rev_ind.
  - rewrite app_nil_r. assert (rtrim s2 = []) as -> by (apply rtrim_nil_iff; exact H2). reflexivity.
  - rewrite app_assoc, rtrim_ns by (apply (proj2 Hv v c); reflexivity). change (rtrim []) with (@nil Z). rewrite <- app_assoc.
    unfold trim. rewrite ltrim_spaces by exact H2. now apply (trim_clean (v ++ [c])).
Qed.
Lemma split_first_at p a c b : (forall x, In x a -> p x = false) -> p c = true -> split_first p (a ++ c :: b) = Some (a, b).
Proof.
  intros Ha Hc. induction a as [|x a IH]; cbn; [now rewrite Hc|]. rewrite (Ha x) by now left. rewrite IH; [reflexivity|]. intros y Hy. apply Ha. now right.
Qed.
Lemma space_not_delim s : spaces s -> forall x, In x s -> (x =? 61) || (x =? 58) = false.
Proof. intros H x Hx. unfold spaces in H. rewrite Forall_forall in H. specialize (H x Hx). unfold isspace in H. lia. Qed.
Lemma spaces_trim s : spaces s -> trim s = [].
Proof.
  intro H. unfold trim. replace s with (s ++ []) by apply app_nil_r. rewrite ltrim_spaces by exact H. reflexivity.
Qed.
Lemma spaces_no_comment s : spaces s -> no_comment s.
Proof.
  intros H a c b ->. unfold spaces in H. rewrite Forall_forall in H. specialize (H c). rewrite in_app_iff in H.
  assert (isspace c = true) by (apply H; right; right; now left). unfold isspace in *. unfold mark. lia.
Qed.
Lemma spaces_app a b : spaces a -> spaces b -> spaces (a ++ b).
Proof. intros. apply Forall_app. auto. Qed.
(** What a well-formed line means. *)
Definition says (l : dline) : event :=
  match l with
  | DSection name _ => Section name
  | DItem k _ _ _ v _ => Item k v
  | DMore _ v _ => More v
  | _ => Nothing
  end.
Lemma meaning_text t inkey u : uncomment t = u ->
  forall n, (n <> 1 \/ starts_bom t = false) -> meaning n t inkey = meaning 0 t inkey.
Proof.
  intros _ n H. unfold meaning. assert ((n =? 1) && starts_bom t = false) as -> by (destruct H as [H|H]; [destruct (Z.eqb_spec n 1); [congruence|reflexivity]|now rewrite H, andb_false_r]).
  reflexivity.
Qed.
Lemma meaning_dline l note inkey : dline_ok l note inkey -> meaning 0 (body l ++ note) inkey = says l.
Proof.
  intros (Hch & _ & Hnote & H). unfold meaning. cbn [Z.eqb andb].
  destruct l as [sp|text|name junk|k s1 d s2 v s3|s1 v s2]; cbn [body says] in *.
  - destruct (uncomment_body sp note (spaces_no_comment _ H) Hnote) as (s & -> & Hs).
    { intros c r ->. inversion H. unfold isspace in *. unfold mark. lia. }
    rewrite spaces_trim by now apply spaces_app. reflexivity.
  - destruct text as [|c text]; [destruct H|]. cbn [app uncomment]. rewrite H. reflexivity.
  - destruct H as (H93 & _ & Hnc). destruct (uncomment_body _ note Hnc Hnote) as (s & -> & Hs); [intros c r [= <- _]; reflexivity|].
    assert (Et : trim ((91 :: name ++ 93 :: junk) ++ s) = 91 :: name ++ 93 :: rtrim (junk ++ s)).
    { unfold trim. rewrite ltrim_id by (intros c r [= <- _]; reflexivity). cbn [app].
      change (91 :: (name ++ 93 :: junk) ++ s) with ([91] ++ (name ++ 93 :: junk) ++ s). rewrite <- app_assoc. cbn [app].
      change (91 :: name ++ 93 :: junk ++ s) with ((91 :: name) ++ 93 :: junk ++ s). rewrite rtrim_ns by reflexivity. reflexivity. }
    rewrite Et. cbn [app isspace Z.eqb Z.leb andb orb Z.compare Pos.compare Pos.compare_cont Pos.eqb].
    rewrite split_first_at; [reflexivity| |reflexivity]. intros x Hx. destruct (Z.eqb_spec 93 x) as [<-|]; [contradiction|reflexivity].
  - destruct H as (Hnc & Hk & Hk0 & _ & H91 & Hmk & Hkd & Hd & Hv & S1 & S2 & S3). destruct k as [|c k]; [congruence|]. cbn [hd] in *.
    destruct (uncomment_body _ note Hnc Hnote) as (s & -> & Hs); [intros c' r [= <- _]; exact Hmk|].
    assert (Hc : isspace c = false) by (apply (proj1 Hk c k); reflexivity).
    assert (Hds : isspace d = false) by (unfold isspace; lia).
    assert (Et : trim (((c :: k) ++ s1 ++ d :: s2 ++ v ++ s3) ++ s) = ((c :: k) ++ s1) ++ d :: rtrim (s2 ++ v ++ s3 ++ s)).
    { unfold trim. rewrite ltrim_id by (intros c' r [= <- _]; exact Hc).
      replace (((c :: k) ++ s1 ++ d :: s2 ++ v ++ s3) ++ s) with (((c :: k) ++ s1) ++ d :: s2 ++ v ++ s3 ++ s) by (rewrite <- !app_assoc; cbn [app]; rewrite <- !app_assoc; reflexivity).
      now rewrite rtrim_ns. }
    rewrite Et. cbn [app]. rewrite Hc. cbn [andb]. destruct (Z.eqb_spec c 91); [congruence|].
    change (c :: (k ++ s1) ++ d :: rtrim (s2 ++ v ++ s3 ++ s)) with (((c :: k) ++ s1) ++ d :: rtrim (s2 ++ v ++ s3 ++ s)).
    rewrite split_first_at.
    + rewrite rtrim_spaces by exact S1. rewrite (rtrim_clean _ Hk). rewrite trim_value; [reflexivity|exact S2|exact Hv|now apply spaces_app].
    + intros x Hx. apply in_app_iff in Hx as [Hx|Hx]; [destruct (Hkd x Hx); lia|now apply (space_not_delim s1)].
    + lia.
  - destruct H as (Hnc & -> & Hs1 & S1 & Hv & Hv0 & S2). destruct s1 as [|c s1]; [congruence|]. assert (Hc : isspace c = true) by (inversion S1; assumption).
    destruct (uncomment_body _ note Hnc Hnote) as (s & -> & Hs); [intros c' r [= <- _]; unfold isspace in Hc; unfold mark; lia|].
    assert (Et : trim (((c :: s1) ++ v ++ s2) ++ s) = v).
    { unfold trim. rewrite <- app_assoc, ltrim_spaces by exact S1. rewrite <- app_assoc.
      rewrite ltrim_id by (intros c' r E; destruct v as [|x v]; [congruence|]; injection E as -> _; apply (proj1 Hv c' v); reflexivity).
      rewrite rtrim_spaces by now apply spaces_app. now apply rtrim_clean. }
    rewrite Et. destruct v as [|x v]; [congruence|]. cbn [app]. rewrite Hc. reflexivity.
Qed.
Lemma firstn_short {A} n (l : list A) : zlen l <= Z.of_nat n -> firstn n l = l.
Proof. intro H. apply firstn_all2. unfold zlen in H. lia. Qed.
(** The lines of the document. *)
Definition doc_lines (doc : list (dline * list Z)) : list (list Z) := map (fun x => body (fst x) ++ snd x) doc.
Lemma doc_outcomes doc : forall n sec key, 0 < n \/ match doc with (l, note) :: _ => starts_bom (body l ++ note) = false | [] => True end -> 0 <= n ->
  doc_ok (inkey key) doc ->
  reports (outcomes n sec key (doc_lines doc)) = doc_items (n + 1) sec key doc /\ ~ In Wrong (outcomes n sec key (doc_lines doc)).
Proof.
  induction doc as [|[l note] doc IH]; intros n sec key Hb Hn Hd; [split; [reflexivity|intros []]|]. cbn [doc_ok] in Hd. destruct Hd as [Hl Hd].
  cbn [doc_lines map outcomes fst snd]. fold (doc_lines doc). fold (inkey key).
  rewrite (meaning_text _ _ _ eq_refl) by (destruct Hb as [Hb|Hb]; [left; lia|now right]). rewrite (meaning_dline l note _ Hl).
  assert (Hb' : 0 < n + 1 \/ match doc with (l, note) :: _ => starts_bom (body l ++ note) = false | [] => True end) by (left; lia).
  destruct Hl as (_ & _ & _ & Hw). destruct l as [sp|text|name junk|k s1 d s2 v s3|s1 v s2]; cbn [says doc_items] in *.
  - destruct (IH (n + 1) sec key Hb' ltac:(lia) Hd) as [I1 I2]. split; [exact I1|]. intros [H|H]; [discriminate|auto].
  - destruct (IH (n + 1) sec key Hb' ltac:(lia) Hd) as [I1 I2]. split; [exact I1|]. intros [H|H]; [discriminate|auto].
  - rewrite firstn_short by (destruct Hw as (_ & ? & _); cbn; lia). destruct (IH (n + 1) name [] Hb' ltac:(lia) Hd) as [I1 I2]. split; [exact I1|]. intros [H|H]; [discriminate|auto].
  - destruct Hw as (_ & _ & Hk0 & Hk & _). rewrite firstn_short by (cbn; lia). destruct (IH (n + 1) sec k Hb' ltac:(lia)) as [I1 I2].
    { destruct k; [congruence|exact Hd]. } split; [cbn [reports flat_map app]; unfold reports in I1; now rewrite I1|]. intros [H|H]; [discriminate|auto].
  - destruct (IH (n + 1) sec key Hb' ltac:(lia) Hd) as [I1 I2]. split; [cbn [reports flat_map app]; unfold reports in I1; now rewrite I1|]. intros [H|H]; [discriminate|auto].
Qed.
Lemma text_lines doc : forall ik, doc_ok ik doc -> string_lines (flat_map (fun x => body (fst x) ++ snd x ++ [10]) doc) = doc_lines doc /\
  nonul (flat_map (fun x => body (fst x) ++ snd x ++ [10]) doc).
Proof.
  induction doc as [|[l note] doc IH]; intros ik H; [split; [reflexivity|intros []]|]. cbn [doc_ok] in H. destruct H as [Hl Hd].
  destruct (IH _ Hd) as [I1 I2]. destruct Hl as ([H10 H0] & Hlen & _). cbn [flat_map fst snd].
  replace ((body l ++ note ++ [10]) ++ flat_map (fun x => body (fst x) ++ snd x ++ [10]) doc) with ((body l ++ note) ++ 10 :: flat_map (fun x => body (fst x) ++ snd x ++ [10]) doc) by (rewrite <- !app_assoc; reflexivity).
  split.
  - rewrite string_lines_nl by exact H10. rewrite I1. rewrite firstn_short by (cbn; lia). reflexivity.
  - apply nonul_app. split; [exact H0|]. apply nonul_cons. split; [lia|exact I2].
Qed.
(** With a byte order mark the first line is the same but for the mark. *)
Lemma bom_outcomes raw lines : outcomes 0 [] [] (([239; 187; 191] ++ raw) :: lines) =
  outcomes 0 [] [] (raw :: lines) \/ starts_bom raw = true.
Proof.
  destruct (starts_bom raw) eqn:E; [now right|left]. cbn [outcomes]. unfold meaning. cbn [Z.add Z.eqb Pos.eqb andb starts_bom app skipn]. rewrite E. reflexivity.
Qed.
Lemma doc_run cb os : ~ In Wrong os -> (forall calls i, cb calls i = 0) -> forall line calls, run cb os line calls = (calls ++ reports os, 0).
Proof.
  intros Hw Hcb. induction os as [|o os IH]; intros line calls; [cbn; now rewrite app_nil_r|]. destruct o as [|i|]; cbn [run].
  - apply IH. intro H. apply Hw. now right.
  - rewrite Hcb. cbn [Z.eqb]. rewrite IH by (intro H; apply Hw; now right). rewrite <- app_assoc. reflexivity.
  - exfalso. apply Hw. now left.
Qed.
Lemma document_ok bom doc : doc_ok false doc -> first_ok bom doc -> 
  reports (outcomes 0 [] [] (string_lines (doc_text bom doc))) = doc_items 1 [] [] doc /\
  ~ In Wrong (outcomes 0 [] [] (string_lines (doc_text bom doc))) /\ nonul (doc_text bom doc) /\
  zlen (string_lines (doc_text bom doc)) <= zlen doc + 1.
Proof.
  intros Hd Hf. destruct (text_lines doc false Hd) as [E N].
  destruct (doc_outcomes doc 0 [] []) as [O1 O2]; [destruct doc as [|[l note] doc]; [now right|right; apply Hf]|lia|exact Hd|].
  destruct bom; cbn [doc_text app].
  - destruct doc as [|[l note] doc].
    + split; [reflexivity|]. split; [vm_compute; intros [H|[]]; discriminate|]. split; [unfold nonul; cbn; lia|]. vm_compute. discriminate.
    + destruct Hf as [Hb Hlen]. specialize (Hlen eq_refl). cbn [doc_ok] in Hd. destruct Hd as [Hl Hd].
      destruct (text_lines doc _ Hd) as [E2 N2]. destruct Hl as ([H10 H0] & Hlen' & _).
      set (rest := flat_map (fun x => body (fst x) ++ snd x ++ [10]) doc) in *.
      assert (Et : 239 :: 187 :: 191 :: flat_map (fun x => body (fst x) ++ snd x ++ [10]) ((l, note) :: doc) = ([239; 187; 191] ++ body l ++ note) ++ 10 :: rest).
      { cbn [flat_map fst snd app]. fold rest. rewrite <- !app_assoc. reflexivity. }
      unfold doc_text. cbn [app]. rewrite Et. rewrite string_lines_nl.
      2:{ rewrite in_app_iff. intros [H|H]; [cbn in H; lia|auto]. }
      rewrite firstn_short. 2:{ rewrite zlen_app. change (zlen [239; 187; 191]) with 3. change (Z.of_nat 1023) with 1023. lia. }
      rewrite E2. destruct (bom_outcomes (body l ++ note) (doc_lines doc)) as [Eo|Eo]; [|congruence]. rewrite Eo.
      split; [exact O1|]. split; [exact O2|]. split.
      * apply nonul_app. split; [apply nonul_app; split; [unfold nonul; cbn; lia|exact H0]|]. apply nonul_cons. split; [lia|exact N2].
      * unfold doc_lines. rewrite !zlen_cons, zlen_map. lia.
  - unfold doc_text. cbn [app]. rewrite E. split; [exact O1|]. split; [exact O2|]. split; [exact N|]. unfold doc_lines. rewrite zlen_map. lia.
Qed.
(** *** A trailing newline changes nothing *)
Lemma cut_mark_nl a : cut_mark (a ++ [10]) = cut_mark a \/ cut_mark (a ++ [10]) = cut_mark a ++ [10].
Proof.
  induction a as [|c a IH]; [right; reflexivity|]. destruct a as [|d a].
  - right. cbn. now rewrite andb_false_r.
  - change ((c :: d :: a) ++ [10]) with (c :: (d :: a) ++ [10]).
    change (cut_mark (c :: d :: a)) with (c :: if (c =? 32) && mark d then [] else cut_mark (d :: a)).
    change (cut_mark (c :: (d :: a) ++ [10])) with (c :: if (c =? 32) && mark d then [] else cut_mark ((d :: a) ++ [10])).
    destruct ((c =? 32) && mark d); [now left|]. destruct IH as [->| ->]; [now left|right; reflexivity].
Qed.
Lemma uncomment_nl a : uncomment (a ++ [10]) = uncomment a \/ uncomment (a ++ [10]) = uncomment a ++ [10].
Proof.
  destruct a as [|c a]; [right; reflexivity|]. unfold uncomment. cbn [app]. destruct (mark c); [now left|]. apply (cut_mark_nl (c :: a)).
Qed.
Lemma trim_nl t : trim (t ++ [10]) = trim t.
Proof.
  assert (S10 : spaces [10]) by (repeat constructor). unfold trim. induction t as [|c t IH]; [reflexivity|]. cbn [app ltrim].
  destruct (isspace c); [exact IH|]. change (c :: t ++ [10]) with ((c :: t) ++ [10]). now apply rtrim_spaces.
Qed.
Lemma bom_nl a : starts_bom (a ++ [10]) = starts_bom a.
Proof.
  destruct a as [|x [|y [|z a]]]; try reflexivity; unfold starts_bom; cbn [app];
    repeat match goal with |- context[match ?x with _ => _ end] => is_var x; destruct x; try reflexivity end.
Qed.
Lemma bom_len a : starts_bom a = true -> 3 <= zlen a.
Proof.
  destruct a as [|x [|y [|z a]]]; try discriminate.
  - unfold starts_bom. destruct x as [|p|p]; try discriminate. do 8 (destruct p as [p|p|]; try discriminate).
  - unfold starts_bom. destruct x as [|p|p]; try discriminate. do 8 (destruct p as [p|p|]; try discriminate).
    destruct y as [|p|p]; try discriminate. do 8 (destruct p as [p|p|]; try discriminate).
  - intros _. rewrite !zlen_cons. pose proof (zlen_nonneg a). lia.
Qed.
Lemma meaning_nl n a ik : meaning n (a ++ [10]) ik = meaning n a ik.
Proof.
  unfold meaning. rewrite bom_nl.
  set (b := if (n =? 1) && starts_bom a then skipn 3 a else a).
  assert (E : (if (n =? 1) && starts_bom a then skipn 3 (a ++ [10]) else a ++ [10]) = b ++ [10]).
  { unfold b. destruct (n =? 1); [|reflexivity]. cbn [andb]. destruct (starts_bom a) eqn:B; [|reflexivity]. apply bom_len in B.
    rewrite skipn_app. replace (3 - length a)%nat with 0%nat by (unfold zlen in B; lia). reflexivity. }
  rewrite E. destruct (uncomment_nl b) as [->| ->]; [reflexivity|]. cbv zeta. rewrite trim_nl. destruct (uncomment b); reflexivity.
Qed.
Lemma c_text_nonul l : nonul l -> c_text l = l.
Proof. intro H. induction l as [|c l IH]; [reflexivity|]. apply nonul_cons in H as [Hc H]. cbn. destruct (Z.eqb_spec c 0); [congruence|]. f_equal. now apply IH. Qed.
(** The lines of a file and of a string mean the same when none is too long. *)
Lemma file_string_lines N : forall text, (length text <= N)%nat -> nonul text -> (forall l, In l (split_lines text) -> zlen l <= 1021) ->
  exists ls, file_lines false text ls /\ length ls = length (string_lines text) /\
    forall n sec key, outcomes n sec key (map c_text ls) = outcomes n sec key (string_lines text).
Proof.
  induction N as [|N IH]; intros text HN Hn Hl.
  - destruct text; [|cbn in HN; lia]. exists []. split; [constructor|]. split; reflexivity.
  - destruct (in_dec Z.eq_dec 10 text) as [H10|H10].
    + destruct (find_newline text) as [H|(a & r & -> & Ha)]; [contradiction|].
      apply nonul_app in Hn as [Hna Hnr]. apply nonul_cons in Hnr as [_ Hnr]. rewrite split_lines_nl in Hl by exact Ha.
      destruct (IH r) as (ls & F & L & O); [rewrite app_length in HN; cbn in HN; lia|exact Hnr|intros l Hi; apply Hl; now right|].
      assert (La : zlen a <= 1021) by (apply Hl; now left).
      exists ((a ++ [10]) :: ls). split; [apply FL_line; [exact Ha|lia|exact F]|]. rewrite string_lines_nl by exact Ha. split; [cbn; now rewrite L|].
      intros n sec key. rewrite firstn_short by (change (Z.of_nat 1023) with 1023; lia). cbn [map outcomes].
      rewrite c_text_nonul by (apply nonul_app; split; [exact Hna|apply nonul_cons; split; [lia|intros []]]). rewrite meaning_nl.
      destruct (meaning _ _ _); f_equal; apply O.
    + destruct text as [|c t]; [exists []; split; [constructor|]; split; reflexivity|]. 
      assert (La : zlen (c :: t) <= 1021) by (apply Hl; rewrite split_lines_one by exact H10; now left).
      exists [c :: t]. split; [apply (FL_last false); [exact H10|rewrite zlen_cons in *; pose proof (zlen_nonneg t); lia]|].
      rewrite string_lines_one by (try exact H10; discriminate). rewrite firstn_short by (change (Z.of_nat 1023) with 1023; lia).
      split; [reflexivity|]. intros. cbn [map]. now rewrite c_text_nonul.
Qed.
