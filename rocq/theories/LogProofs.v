(** Proofs about the logger model. *)
From Coq Require Import String Ascii.
From Verif Require Import Base CStr CNum SigSpec StrSpec IniModel StrProofs IniProofs LogModel LogSpec.
Local Open Scope list_scope.

(** ** Names of levels *)
Ltac eqd := match goal with |- context [list_eq_dec ?d ?a ?b] => let E := fresh "E" in destruct (list_eq_dec d a b) as [E|E] end.
Lemma lower_upper x y : 0 <= x < 128 -> 65 <= y <= 90 -> (tolower x - tolower y =? 0) = (upper x =? y).
Proof. unfold tolower, upper. intros. repeat match goal with |- context [if ?b then _ else _] => destruct b eqn:? end; lia. Qed.
Lemma strcasecmp_ok n : Forall (fun y => 65 <= y <= 90) n -> forall s r, nonul s -> ascii s ->
  strcasecmp (s ++ 0 :: r) (n ++ [0]) = Ok (if list_eq_dec Z.eq_dec (map upper s) n then true else false).
Proof.
  unfold ascii. induction 1 as [|y n Hy Hn IH]; intros [|x s] r Hs Ha; cbn [app map strcasecmp].
  - reflexivity.
  - apply nonul_cons in Hs as [H0 _]. inversion Ha; subst. replace (x =? 0) with false by lia. cbn [andb].
    unfold to_lower. replace (x <? 128) with true by lia. cbn [bind Z.ltb Z.compare].
    replace (tolower x - tolower 0 =? 0) with false.
    + eqd; [discriminate|reflexivity].
    + unfold tolower. destruct ((65 <=? x) && (x <=? 90)) eqn:?; cbn; lia.
  - replace (y =? 0) with false by lia. cbn [andb Z.eqb]. unfold to_lower. replace (y <? 128) with true by lia. cbn [bind Z.ltb Z.compare].
    replace (tolower 0 - tolower y =? 0) with false.
    + eqd; [discriminate|reflexivity].
    + unfold tolower. destruct ((65 <=? y) && (y <=? 90)) eqn:?; cbn; lia.
  - apply nonul_cons in Hs as [H0 Hs]. inversion Ha; subst. replace (x =? 0) with false by lia. cbn [andb].
    unfold to_lower. replace (x <? 128) with true by lia. replace (y <? 128) with true by lia. cbn [bind].
    rewrite lower_upper by lia. destruct (Z.eqb_spec (upper x) y) as [->|E].
    + rewrite IH by assumption. destruct (list_eq_dec Z.eq_dec (map upper s) n), (list_eq_dec Z.eq_dec (y :: map upper s) (y :: n)); congruence.
    + eqd; [congruence|reflexivity].
Qed.
Lemma level_of_cases s : level_of s =
  (if list_eq_dec Z.eq_dec (map upper s) [68; 69; 66; 85; 71] then Some 0 else
   if list_eq_dec Z.eq_dec (map upper s) [73; 78; 70; 79] then Some 1 else
   if list_eq_dec Z.eq_dec (map upper s) [87; 65; 82; 78] then Some 2 else
   if list_eq_dec Z.eq_dec (map upper s) [69; 82; 82; 79; 82] then Some 3 else
   if list_eq_dec Z.eq_dec (map upper s) [79; 70; 70] then Some 4 else None).
Proof. reflexivity. Qed.
Lemma set_level_ok l s r : nonul s -> ascii s ->
  set_level l (s ++ 0 :: r) = match level_of s with
    | Some i => Ok (mk_logger (fp l) (current_file l) (prev_file l) (file_size l) i (inited l) (to_stdout l) (cb l), 0)
    | None => Ok (l, -1) end.
Proof.
  intros Hs Ha. unfold set_level, level_names, find_level.
  repeat match goal with |- context [strcasecmp (s ++ 0 :: r) (?k ++ [0])] =>
      rewrite (strcasecmp_ok k) by (assumption || (repeat constructor; lia))
  end.
  cbn [bind]. rewrite level_of_cases.
  eqd; [reflexivity|]. cbn [bind]. eqd; [reflexivity|]. cbn [bind]. eqd; [reflexivity|]. cbn [bind]. eqd; [reflexivity|]. cbn [bind]. eqd; reflexivity.
Qed.
Lemma level_of_range s i : level_of s = Some i -> 0 <= i <= 4.
Proof.
  rewrite level_of_cases. repeat (eqd; [intro H; injection H as <-; lia|]). discriminate.
Qed.
Lemma level_of_names s i : level_of s = Some i <-> names_level s i.
Proof.
  unfold names_level. split.
  - rewrite level_of_cases. repeat (eqd; [intro H; injection H as <-; split; [lia|match goal with K : map upper s = _ |- _ => rewrite K end; reflexivity]|]). discriminate.
  - intros [H0 H]. assert (Hi : i < 5).
    { apply zget_Some_range in H. change (zlen level_table) with 5 in H. lia. }
    rewrite level_of_cases.
    assert (i = 0 \/ i = 1 \/ i = 2 \/ i = 3 \/ i = 4) as C by lia.
    clear -H C. revert H. generalize (map upper s) as u. intros u H.
    destruct C as [->|[->|[->|[->| ->]]]]; vm_compute in H; injection H as <-; reflexivity.
Qed.

(** ** Invariants *)
(** An array of [n] bytes holding the string [t]; its last byte is NUL. *)
Definition holds (n : nat) (m t : list Z) : Prop :=
  length m = S n /\ zget m (Z.of_nat n) = Some 0 /\ nonul t /\ exists b, m = t ++ 0 :: b.
Lemma holds_cstring n m t : holds n m t -> cstring m = Ok t.
Proof. intros (_ & _ & Hn & b & ->). now apply cstring_ok. Qed.
Lemma holds_len n m t : holds n m t -> zlen t <= Z.of_nat n.
Proof. intros (Hl & _ & _ & b & ->). rewrite app_length in Hl. cbn in Hl. unfold zlen. lia. Qed.
Lemma last_zero n (m : list Z) : length m = S n -> zget m (Z.of_nat n) = Some 0 -> skipn n m = [0].
Proof.
  intros Hl H. assert (L : length (skipn n m) = 1%nat) by (rewrite skipn_length; lia).
  destruct (skipn n m) as [|z [|]] eqn:E; try discriminate L. f_equal.
  assert (zget (skipn n m) 0 = Some 0) as K by (rewrite zget_skipn by lia; rewrite <- H; f_equal; lia). rewrite E in K. now injection K.
Qed.
Lemma strncpy_holds n m t0 t r : holds n m t0 -> nonul t -> exists m', strncpy m (t ++ 0 :: r) (Z.of_nat n) = Ok m' /\ holds n m' (firstn n t).
Proof.
  intros (Hl & Hz & _ & _) Hn. unfold strncpy. rewrite Nat2Z.id, upto_nul_ok by exact Hn. cbn [bind].
  replace (Z.of_nat n <=? zlen m) with true by (unfold zlen; lia). eexists. split; [reflexivity|].
  rewrite (last_zero n m Hl Hz). set (s := firstn n t). assert (Ls : (length s <= n)%nat) by (unfold s; rewrite firstn_length; lia).
  split; [rewrite !app_length, repeat_length; cbn; lia|]. split.
  - rewrite app_assoc, zget_app2 by (rewrite zlen_app, zlen_repeat; unfold zlen; lia).
    replace (Z.of_nat n - _) with 0 by (rewrite zlen_app, zlen_repeat; unfold zlen; lia). reflexivity.
  - split; [now apply nonul_firstn|]. exists (repeat 0 (n - length s)). f_equal.
    clear. induction (n - length s)%nat as [|k IH]; [reflexivity|]. cbn. now rewrite IH.
Qed.
Lemma clear_holds n m t : holds n m t -> (0 < n)%nat -> exists m', zput m 0 0 = Ok m' /\ holds n m' [].
Proof.
  intros (Hl & Hz & _ & _) Hn. rewrite zput_ok by (unfold zlen; lia). eexists. split; [reflexivity|].
  destruct m as [|x m]; [discriminate Hl|]. split; [exact Hl|]. split; [rewrite zget_zset_neq by lia; exact Hz|].
  split; [intros []|]. exists m. reflexivity.
Qed.
Lemma copy_holds n m t0 t r : holds n m t0 -> nonul t -> zlen t < Z.of_nat n ->
  exists b m', bytes_at (t ++ 0 :: r) 0 (zlen t + 1) = Ok b /\ memcpy m 0 b = Ok m' /\ holds n m' t.
Proof.
  intros (Hl & Hz & _ & _) Hn Ht. exists (t ++ [0]).
  replace (t ++ 0 :: r) with ([] ++ (t ++ [0]) ++ r) by (cbn; now rewrite <- app_assoc).
  replace (zlen t + 1) with (zlen (t ++ [0])) by (rewrite zlen_app; reflexivity).
  assert (L : zlen m = Z.of_nat n + 1) by (unfold zlen; lia). pose proof (zlen_nonneg t).
  rewrite memcpy_ok by (rewrite ?zlen_app; change (zlen [0]) with 1; lia). eexists. split; [apply (bytes_mid [])|]. split; [reflexivity|].
  cbn [Z.to_nat firstn app]. split; [rewrite !app_length, skipn_length; unfold zlen in *; rewrite app_length; cbn [length]; lia|]. split.
  - rewrite zget_app2 by (rewrite zlen_app; change (zlen [0]) with 1; lia). rewrite zget_skipn by (rewrite zlen_app; change (zlen [0]) with 1; lia).
    rewrite <- Hz. f_equal. rewrite Z2Nat.id by (rewrite zlen_app; change (zlen [0]) with 1; lia). lia.
  - split; [exact Hn|]. eexists. rewrite <- app_assoc. reflexivity.
Qed.

(** The logger is in a state the calls can leave it in. *)
Definition good_lg (l : logger) : Prop :=
  exists cur prev, holds 255 (current_file l) cur /\ holds 255 (prev_file l) prev /\
    (forall p, fp l = Some p -> p = cur).
(** The configuration is in force. *)
Definition agrees (w : world) (c : config) : Prop :=
  good_lg (lg w) /\ inited (lg w) = c_init c /\ level (lg w) = c_level c /\ to_stdout (lg w) = c_stdout c /\ cb (lg w) = c_cb c /\
  forall t, holds 31 (names w t) (c_name c t).

Lemma zero_holds n : holds n (repeat 0 (S n)) [].
Proof.
  split; [apply repeat_length|]. split; [|split; [intros []|exists (repeat 0 n); reflexivity]].
  rewrite zget_repeat. replace ((0 <=? Z.of_nat n) && (Z.of_nat n <? Z.of_nat (S n))) with true by lia. reflexivity.
Qed.
Lemma good_fresh s lv i o c : good_lg (mk_logger None (repeat 0 256) (repeat 0 256) s lv i o c).
Proof. exists [], []. split; [apply zero_holds|]. split; [apply zero_holds|]. discriminate. Qed.
Lemma start_agrees f : agrees (start f) start_config.
Proof.
  split; [apply good_fresh|]. do 4 (split; [reflexivity|]). intro t. split; [reflexivity|]. split; [reflexivity|].
  split; [unfold nonul; vm_compute; intuition discriminate|]. exists (repeat 0 25). reflexivity.
Qed.

(** ** One sink *)
Definition fields (name s : list Z) (lv : Z) : list Z := line name s lv [].
Lemma line_split name s lv msg : line name s lv msg = fields name s lv ++ msg.
Proof. unfold fields, line. rewrite app_nil_r, <- !app_assoc. reflexivity. Qed.
Lemma header_text lv s str n : 0 <= lv <= 4 -> zget level_names lv = Some str ->
  [91] ++ s ++ [93; 91] ++ pad5 str ++ [93; 91] ++ n ++ [93; 32] = fields n s lv.
Proof.
  intros H E. unfold fields, line. rewrite app_nil_r.
  assert (lv = 0 \/ lv = 1 \/ lv = 2 \/ lv = 3 \/ lv = 4) as C by lia.
  destruct C as [->|[->|[->|[->| ->]]]]; vm_compute in E; injection E as <-; reflexivity.
Qed.
Lemma header_any lv name n st a : 0 <= lv <= 4 -> holds 31 name n -> exists b rc, print_header lv name st a = Ok (b, rc).
Proof.
  intros H Hn. unfold print_header. destruct st as [s|]; [|eauto].
  destruct (zget_in_range level_names lv) as [str E]; [change (zlen level_names) with 5; lia|]. rewrite E. cbn [or_ub bind].
  rewrite (holds_cstring _ _ _ Hn). cbn [bind]. destruct fprintf. eauto.
Qed.
Lemma header_fine lv name n s : 0 <= lv <= 4 -> holds 31 name n -> zlen s <= 100 ->
  print_header lv name (Some s) Good = Ok (fields n s lv, 0).
Proof.
  intros H Hn Hs. unfold print_header.
  destruct (zget_in_range level_names lv) as [str E]; [change (zlen level_names) with 5; lia|]. rewrite E. cbn [or_ub bind].
  rewrite (holds_cstring _ _ _ Hn). cbn [bind]. rewrite (header_text lv s str n H E). unfold fprintf.
  assert (zlen (fields n s lv) <= 2147483647) as L.
  { pose proof (holds_len _ _ _ Hn). unfold fields, line. rewrite app_nil_r, !zlen_app.
    change (zlen (text "[")) with 1. change (zlen (text "][")) with 2. change (zlen (text "] ")) with 2.
    assert (zlen (nth (Z.to_nat lv) [text "DEBUG"; text "INFO "; text "WARN "; text "ERROR"; text "OFF  "] []) <= 5).
    { assert (lv = 0 \/ lv = 1 \/ lv = 2 \/ lv = 3 \/ lv = 4) as C by lia. destruct C as [->|[->|[->|[->| ->]]]]; vm_compute; discriminate. }
    lia. }
  replace (zlen (fields n s lv) <=? 2147483647) with true by lia. replace (zlen (fields n s lv) <? 0) with false by (pose proof (zlen_nonneg (fields n s lv)); lia).
  reflexivity.
Qed.
Lemma stdout_any lv name n msg a : 0 <= lv <= 4 -> holds 31 name n -> exists b rc, log_stdout lv name msg a = Ok (b, rc) /\ (rc = 0 \/ rc = -1).
Proof.
  intros H Hn. unfold log_stdout. destruct (header_any lv name n (stamp a) (hio a) H Hn) as (b & rc & ->). cbn [bind].
  destruct (rc <? 0); [eauto|]. destruct fprintf as [b2 rc2]. destruct (rc2 <? 0); eauto 6.
Qed.
Lemma stdout_fine lv name n msg a s : 0 <= lv <= 4 -> holds 31 name n -> fine a msg -> stamp a = Some s ->
  log_stdout lv name msg a = Ok (line n s lv msg, 0).
Proof.
  intros H Hn ((s' & Es & Hs) & Hh & Hm & Hl) E. rewrite Es in E. injection E as ->. unfold log_stdout. rewrite Es, Hh, Hm, (header_fine _ _ n) by assumption.
  cbn [bind]. cbn [Z.ltb Z.compare]. unfold fprintf. replace (zlen msg <=? 2147483647) with true by lia.
  replace (zlen msg <? 0) with false by (pose proof (zlen_nonneg msg); lia). rewrite line_split. reflexivity.
Qed.
Lemma file_any l f lv name n msg a mv ok : 0 <= lv <= 4 -> holds 31 name n -> good_lg l -> forall path, fp l = Some path ->
  exists l' f' rc, log_file l f path lv name msg a mv ok = Ok (l', f', rc) /\ good_lg l' /\
    inited l' = inited l /\ level l' = level l /\ to_stdout l' = to_stdout l /\ cb l' = cb l /\ (rc = 0 \/ rc = -1).
Proof.
  intros H Hn (cur & prev & Hc & Hp & Hf) path Ep. unfold log_file. destruct (header_any lv name n (stamp a) (hio a) H Hn) as (b & rc & E).
  assert (Hrc : rc = 0 \/ rc = -1).
  { unfold print_header in E. destruct (stamp a); [|injection E as _ <-; auto]. destruct zget; [|discriminate]. cbn [or_ub bind] in E.
    destruct cstring; [|discriminate|discriminate]. cbn [bind] in E. destruct fprintf as [? r]. destruct (r <? 0); injection E as _ <-; auto. }
  rewrite E. cbn [bind]. assert (G : good_lg l) by (exists cur, prev; auto).
  destruct (rc <? 0); [do 3 eexists; split; [reflexivity|]; do 5 (split; [first [exact G|reflexivity]|]); auto|]. destruct fprintf as [b2 size].
  destruct (size <? 0); [do 3 eexists; split; [reflexivity|]; do 5 (split; [first [exact G|reflexivity]|]); auto|]. cbv zeta.
  cbn [current_file prev_file fp level inited to_stdout cb]. destruct (FILE_SIZE <? _).
  - rewrite (holds_cstring _ _ _ Hc), (holds_cstring _ _ _ Hp). cbn [bind].
    destruct ok; do 3 eexists; (split; [reflexivity|]); (split; [exists cur, prev; repeat (split; [assumption|]); cbn; congruence|]); repeat (split; [reflexivity|]); auto.
  - do 3 eexists. split; [reflexivity|]. split; [exists cur, prev; repeat (split; [assumption|]); exact Hf|]. repeat (split; [reflexivity|]). auto.
Qed.

(** ** One call *)
Definition here (c : config) (o : op) : list (config * op) :=
  match o with Log _ lv _ _ _ _ _ _ => if c_level c <=? lv then [(c, o)] else [] | _ => [] end.
Lemma passed_cons c o r : passed c (o :: r) = here c o ++ passed (configure c o) r.
Proof. reflexivity. Qed.
Definition quiet (w w' : world) : Prop := calls w' = calls w /\ out w' = out w /\ err w' = err w.
Definition delivered (c : config) (o : op) (w w' : world) : Prop :=
  calls w' = calls w ++ flat_map called (here c o) /\
  (console_fine o -> out w' = out w ++ flat_map (printed false) (here c o) /\ err w' = err w ++ flat_map (printed true) (here c o)).
Lemma quiet_delivered c o w w' : quiet w w' -> here c o = [] -> delivered c o w w'.
Proof. intros (H1 & H2 & H3) E. unfold delivered. rewrite E, H1, H2, H3. cbn. rewrite !app_nil_r. auto. Qed.
Lemma c_string_before m s : c_string m s -> before_nul m = s.
Proof. intros (Hn & r & ->). rewrite before_nul_app by exact Hn. cbn. apply app_nil_r. Qed.

Lemma set_file_any l f p c ok nl tell e : good_lg l -> op_ok (SetFile p c ok nl tell e) ->
  exists l' f' rc e', set_file l f p c ok nl tell e = Ok (l', f', rc, e') /\ good_lg l' /\
    inited l' = inited l /\ level l' = level l /\ to_stdout l' = to_stdout l /\ cb l' = cb l.
Proof.
  intros (cur & prev & Hc & Hp & _) [Op Oc]. unfold set_file, close_file.
  destruct (clear_holds _ _ _ Hp) as (p0 & Ep & Hp0); [lia|]. rewrite Ep. cbn [bind].
  destruct (clear_holds _ _ _ Hc) as (c0 & Ec & Hc0); [lia|]. rewrite Ec. cbn [bind file_size level inited to_stdout cb prev_file current_file].
  set (l0 := mk_logger None c0 p0 (file_size l) (level l) (inited l) (to_stdout l) (cb l)).
  assert (G0 : good_lg l0) by (exists [], []; split; [exact Hc0|]; split; [exact Hp0|discriminate]).
  destruct p as [pm|]; [|do 4 eexists; split; [reflexivity|auto 10]]. destruct c as [cm|]; [|do 4 eexists; split; [reflexivity|auto 10]].
  destruct (Op pm eq_refl) as (ps & Hps & rp & ->). destruct (Oc cm eq_refl) as (cs & Hcs & rc & ->).
  rewrite strlen_ok by exact Hps. cbn [bind]. rewrite (strlen_ok cs) by exact Hcs.
  destruct (Z.leb_spec (256 - 1) (zlen ps)) as [Lp|Lp]; cbn [bind orb]; [do 4 eexists; split; [reflexivity|auto 10]|].
  destruct (Z.leb_spec (256 - 1) (zlen cs)) as [Lc|Lc]; [do 4 eexists; split; [reflexivity|auto 10]|].
  destruct (copy_holds _ _ _ ps rp Hp0 Hps) as (b1 & p1 & E1 & E2 & Hp1); [lia|]. rewrite E1. cbn [bind]. rewrite E2. cbn [bind].
  destruct (copy_holds _ _ _ cs rc Hc0 Hcs) as (b2 & c1 & E3 & E4 & Hc1); [lia|]. rewrite E3. cbn [bind]. rewrite E4. cbn [bind].
  rewrite (holds_cstring _ _ _ Hc1). cbn [bind].
  assert (G1 : forall o s, (forall q, o = Some q -> q = cs) -> good_lg (mk_logger o c1 p1 s (level l) (inited l) (to_stdout l) (cb l))).
  { intros o s Ho. exists cs, ps. auto. }
  destruct ok; cbn [negb]; [|do 4 eexists; split; [reflexivity|]; split; [apply G1; discriminate|auto]].
  destruct fprintf as [b rc1]. destruct (rc1 <? 0); [do 4 eexists; split; [reflexivity|]; split; [apply G1; discriminate|auto]|].
  destruct tell; cbn [negb]; do 4 eexists; (split; [reflexivity|]); (split; [apply G1; congruence|auto]).
Qed.

Lemma step_ok w c o : agrees w c -> op_ok o -> exists w' rc, step w o = Ok (w', rc) /\ agrees w' (configure c o) /\ delivered c o w w'.
Proof.
  intros A Ho. pose proof A as ((cur & prev & Hc & Hp & Hf) & Ai & Al & As & Ac & An). destruct o as [rc|ok|t m|m|b|p cc ok nl tell e|k|t lv msg ao af mv ok crc]; cbn [step].
  - do 2 eexists. split; [reflexivity|]. split; [|now apply quiet_delivered]. split; [apply good_fresh|]. repeat (split; [reflexivity|]). exact An.
  - unfold term. rewrite Ai. cbn [configure]. destruct (c_init c) eqn:Ei; cbn [negb].
    + do 2 eexists. split; [reflexivity|]. split; [|now apply quiet_delivered]. split; [apply good_fresh|]. repeat (split; [reflexivity|]). exact An.
    + do 2 eexists. split; [reflexivity|]. split; [|now apply quiet_delivered]. split; [exists cur, prev; auto|]. cbn. rewrite Ei. auto.
  - destruct Ho as (s & Hs). pose proof (c_string_before _ _ Hs) as Eb. destruct Hs as (Hs & r & ->). unfold set_thread_name.
    destruct (strncpy_holds 31 (names w t) (c_name c t) s r (An t) Hs) as (m' & E & Hm'). change (32 - 1) with (Z.of_nat 31). rewrite E. cbn [bind].
    do 2 eexists. split; [reflexivity|]. split; [|now apply quiet_delivered]. split; [exists cur, prev; auto|]. cbn. repeat (split; [assumption|]). intro u. destruct (u =? t); [|apply An].
    fold (before_nul (s ++ 0 :: r)). rewrite Eb. exact Hm'.
  - destruct Ho as (s & Hs & Ha). pose proof (c_string_before _ _ Hs) as Eb. destruct Hs as (Hs & r & ->). rewrite set_level_ok by assumption. cbn [configure]. rewrite Eb.
    destruct (level_of s) as [i|]; cbn [bind]; do 2 eexists; (split; [reflexivity|]); (split; [|now apply quiet_delivered]); (split; [exists cur, prev; auto|]); cbn; auto 10.
  - do 2 eexists. split; [reflexivity|]. split; [|now apply quiet_delivered]. split; [exists cur, prev; auto|]. cbn. auto 10.
  - destruct (set_file_any (lg w) (fs w) p cc ok nl tell e (proj1 A) Ho) as (l' & f' & rc & e' & E & G & E1 & E2 & E3 & E4). rewrite E. cbn [bind].
    do 2 eexists. split; [reflexivity|]. split; [|now apply quiet_delivered]. split; [exact G|]. cbn. rewrite E1, E2, E3, E4. auto 10.
  - do 2 eexists. split; [reflexivity|]. split; [|now apply quiet_delivered]. split; [exists cur, prev; auto|]. cbn. auto 10.
  - cbn [op_ok] in Ho. unfold log. cbn [configure]. rewrite Al. destruct (Z.ltb_spec lv (c_level c)) as [Hlv|Hlv].
    { do 2 eexists. split; [reflexivity|]. split; [exact A|]. apply quiet_delivered; [repeat split|]. cbn [here]. replace (c_level c <=? lv) with false by lia. reflexivity. }
    assert (Hh : here c (Log t lv msg ao af mv ok crc) = [(c, Log t lv msg ao af mv ok crc)]) by (cbn [here]; replace (c_level c <=? lv) with true by lia; reflexivity).
    unfold delivered. rewrite Hh. cbn [flat_map]. rewrite !app_nil_r.
    (* console *)
    assert (S1 : exists w1 rc1, (if to_stdout (lg w) then
        let* (b, rc) := log_stdout lv (names w t) msg ao in
        Ok (if lv =? LERROR then mk_world (lg w) (out w) (err w ++ b) (calls w) (fs w) (names w)
            else mk_world (lg w) (out w ++ b) (err w) (calls w) (fs w) (names w), rc)
      else Ok (w, 0)) = Ok (w1, rc1) /\ lg w1 = lg w /\ names w1 = names w /\ calls w1 = calls w /\
      (fine ao msg -> out w1 = out w ++ printed false (c, Log t lv msg ao af mv ok crc) /\ err w1 = err w ++ printed true (c, Log t lv msg ao af mv ok crc))).
    { rewrite As. unfold printed. destruct (c_stdout c); cbn [andb]; [|do 2 eexists; split; [reflexivity|]; rewrite !app_nil_r; auto].
      destruct (stdout_any lv (names w t) (c_name c t) msg ao Ho (An t)) as (b & rc & E & _). rewrite E. cbn [bind]. do 2 eexists. split; [reflexivity|].
      unfold LERROR. destruct (Z.eqb_spec lv 3) as [->|H3]; cbn [lg names calls out err Bool.eqb].
      - repeat (split; [reflexivity|]). intro F. pose proof F as ((s & Es & _) & _). rewrite (stdout_fine _ _ _ _ _ _ Ho (An t) F Es) in E. injection E as <- _. rewrite Es, app_nil_r. auto.
      - repeat (split; [reflexivity|]). intro F. pose proof F as ((s & Es & _) & _). rewrite (stdout_fine _ _ _ _ _ _ Ho (An t) F Es) in E. injection E as <- _. rewrite Es, app_nil_r. auto. }
    destruct S1 as (w1 & rc1 & -> & L1 & N1 & C1 & D1). cbn [bind].
    assert (S2 : exists w2 rc2, match fp (lg w) with
      | Some path =>
          let* (l, f, rc) := log_file (lg w) (fs w1) path lv (names w1 t) msg af mv ok in
          Ok (mk_world l (out w1) (err w1) (calls w1) f (names w1), rc)
      | None => Ok (w1, 0)
      end = Ok (w2, rc2) /\ good_lg (lg w2) /\ inited (lg w2) = inited (lg w) /\ level (lg w2) = level (lg w) /\ to_stdout (lg w2) = to_stdout (lg w) /\ cb (lg w2) = cb (lg w) /\
      names w2 = names w /\ calls w2 = calls w /\ out w2 = out w1 /\ err w2 = err w1).
    { destruct (fp (lg w)) as [path|] eqn:Ef.
      - rewrite N1. destruct (file_any (lg w) (fs w1) lv (names w t) (c_name c t) msg af mv ok Ho (An t) (proj1 A) path Ef) as (l' & f' & rc & E & G & E1 & E2 & E3 & E4 & _).
        rewrite E. cbn [bind]. do 2 eexists. split; [reflexivity|]. cbn. auto 10.
      - do 2 eexists. split; [reflexivity|]. rewrite L1. split; [exact (proj1 A)|]. auto 10. }
    destruct S2 as (w2 & rc2 & -> & G2 & I2 & V2 & T2 & B2 & N2 & C2 & O2 & R2). cbn [bind].
    assert (A2 : agrees w2 c) by (split; [exact G2|]; rewrite I2, V2, T2, B2, N2; auto 10).
    rewrite Ac. cbn [called]. destruct (c_cb c) as [arg|] eqn:Ek; do 2 eexists; (split; [reflexivity|]).
    + split; [exact A2|]. cbn [calls out err]. rewrite C2, O2, R2. auto.
    + split; [exact A2|]. rewrite C2, O2, R2, app_nil_r. auto.
Qed.

Lemma run_ok h : forall w c, agrees w c -> Forall op_ok h -> exists w' rcs, run w h = Ok (w', rcs) /\ length rcs = length h /\
  calls w' = calls w ++ flat_map called (passed c h) /\
  (Forall console_fine h -> out w' = out w ++ flat_map (printed false) (passed c h) /\ err w' = err w ++ flat_map (printed true) (passed c h)) /\
  agrees w' (fold_left configure h c).
Proof.
  induction h as [|o h IH]; intros w c A Ho.
  - exists w, []. cbn. rewrite !app_nil_r. auto 10.
  - inversion Ho as [|? ? Ho1 Ho2]; subst. destruct (step_ok w c o A Ho1) as (w1 & rc & E & A1 & D1 & D2).
    destruct (IH w1 _ A1 Ho2) as (w2 & rcs & E2 & L & K1 & K2 & K3). exists w2, (rc :: rcs). cbn [run]. rewrite E. cbn [bind]. rewrite E2. cbn [bind].
    split; [reflexivity|]. split; [cbn; lia|]. rewrite passed_cons, !flat_map_app, !app_assoc. split; [rewrite K1, D1; reflexivity|]. split; [|exact K3].
    intro F. inversion F as [|? ? F1 F2]; subst. destruct (D2 F1) as [X1 Y1]. destruct (K2 F2) as [X Y]. rewrite X, Y, X1, Y1. auto.
Qed.

(** ** Rotation *)
Lemma same_iff a b : same a b = true <-> a = b.
Proof. unfold same. destruct list_eq_dec; split; congruence. Qed.
Lemma same_refl a : same a a = true.
Proof. now apply same_iff. Qed.
Lemma same_neq a b : a <> b -> same a b = false.
Proof. intro H. destruct (same a b) eqn:E; [apply same_iff in E; contradiction|reflexivity]. Qed.
Lemma put_eq f p c : put f p c p = c.
Proof. unfold put. now rewrite same_refl. Qed.
Lemma put_neq f p c q : q <> p -> put f p c q = f q.
Proof. intro H. unfold put. now rewrite same_neq. Qed.
Lemma bytes_app a b : bytes (a ++ b) = bytes a + bytes b.
Proof. induction a as [|[x y] a IH]; [reflexivity|]. cbn. rewrite IH. lia. Qed.
Lemma bytes_nonneg a : 0 <= bytes a.
Proof. induction a as [|[x y] a IH]; [reflexivity|]. cbn. pose proof (zlen_nonneg y). lia. Qed.
Lemma lines_app a b : lines (a ++ b) = lines a ++ lines b.
Proof. apply flat_map_app. Qed.
Definition first_or {A} (x y : A) (closed : list (list (list Z * list Z))) : A := match closed with [] => x | _ => y end.
Lemma rotated_more s ms closed last m : rotated s ms closed last -> first_or s 0 closed + bytes (last ++ [m]) <= FILE_SIZE ->
  rotated s (ms ++ [m]) closed (last ++ [m]).
Proof. intros (H1 & H2 & _) H. split; [rewrite app_assoc, H1; reflexivity|]. split; [exact H2|]. right. exact H. Qed.
Lemma rotated_cut s ms closed last m : rotated s ms closed last -> first_or s 0 closed + bytes (last ++ [m]) > FILE_SIZE ->
  rotated s (ms ++ [m]) (closed ++ [last ++ [m]]) [].
Proof.
  intros (H1 & H2 & H3) H. split; [rewrite concat_app; cbn [concat]; rewrite !app_nil_r, app_assoc, H1; reflexivity|]. split; [|now left].
  destruct closed as [|p r]; cbn [app first_or] in *.
  - split; [|constructor]. exists last, m. auto.
  - destruct H2 as [H2 H4]. split; [exact H2|]. apply Forall_app. split; [exact H4|]. constructor; [|constructor]. exists last, m. auto.
Qed.

Lemma rotated_nil s closed last : rotated s [] closed last -> closed = [] /\ last = [].
Proof.
  intros (H & H2 & _). apply app_eq_nil in H as [H ->]. split; [|reflexivity]. destruct closed as [|p r]; [reflexivity|].
  destruct H2 as [(q & m & -> & _) _]. cbn [concat] in H. destruct q; discriminate.
Qed.
(** The state of the files after the messages [ms]. *)
Definition filled (w : world) (f0 : files) (prev cur old : list Z) (closed : list (list (list Z * list Z))) (last : list (list Z * list Z)) : Prop :=
  fs w cur = Some (first_or old [] closed ++ lines last) /\
  fs w prev = match rev closed with [] => f0 prev | p :: r => Some (first_or old [] r ++ lines p) end /\
  (forall q, q <> prev -> q <> cur -> fs w q = f0 q).
Definition rot (w : world) (f0 : files) (prev cur old : list Z) (ms : list (list Z * list Z)) : Prop :=
  exists closed last, fp (lg w) = Some cur /\ holds 255 (current_file (lg w)) cur /\ holds 255 (prev_file (lg w)) prev /\
    file_size (lg w) = first_or (zlen old) 0 closed + bytes last /\ filled w f0 prev cur old closed last /\
    rotated (zlen old) ms closed last.

Lemma log_file_fine l f cur prev lv name n msg a s mv ok : 0 <= lv <= 4 -> holds 31 name n -> fine a msg -> stamp a = Some s ->
  fp l = Some cur -> holds 255 (current_file l) cur -> holds 255 (prev_file l) prev -> 0 <= file_size l < 2^63 ->
  exists f', f' cur = Some (content f cur ++ line n s lv msg) /\ (forall q, q <> cur -> f' q = f q) /\
  log_file l f cur lv name msg a mv ok = Ok
    (if FILE_SIZE <? file_size l + zlen msg then
       let f2 := if mv then rename f' cur prev else f' in
       if ok then (mk_logger (Some cur) (current_file l) (prev_file l) 0 (level l) (inited l) (to_stdout l) (cb l), put f2 cur (Some []), 0)
       else (mk_logger None (current_file l) (prev_file l) (file_size l + zlen msg) (level l) (inited l) (to_stdout l) (cb l), f2, -1)
     else (mk_logger (fp l) (current_file l) (prev_file l) (file_size l + zlen msg) (level l) (inited l) (to_stdout l) (cb l), f', 0)).
Proof.
  intros Hlv Hn ((s' & Es & Hs) & Hh & Hm & Hl) E Ef Hc Hp Hsz. rewrite Es in E. injection E as ->. unfold log_file. rewrite Es, Hh, Hm, (header_fine _ _ n) by assumption.
  cbn [bind]. cbn [Z.ltb Z.compare]. unfold fprintf. replace (zlen msg <=? 2147483647) with true by lia. pose proof (zlen_nonneg msg).
  replace (zlen msg <? 0) with false by lia. cbv zeta. rewrite u64_small by lia.
  set (f1 := put f cur (Some (content f cur ++ fields n s lv))).
  exists (put f1 cur (Some (content f1 cur ++ msg))).
  assert (E1 : content f1 cur = content f cur ++ fields n s lv) by (unfold content at 1, f1; rewrite put_eq; reflexivity).
  split; [rewrite put_eq, E1, line_split, app_assoc; reflexivity|]. split; [intros q Hq; rewrite put_neq by exact Hq; unfold f1; rewrite put_neq by exact Hq; reflexivity|].
  cbn [current_file prev_file fp level inited to_stdout cb]. rewrite (holds_cstring _ _ _ Hc), (holds_cstring _ _ _ Hp). cbn [bind].
  destruct (FILE_SIZE <? file_size l + zlen msg); [|reflexivity]. destruct ok; reflexivity.
Qed.

(** What [step] does to the logger and the files, when the file works. *)
Lemma step_file w c o f0 prev cur old ms : agrees w c -> op_ok o -> file_fine o -> prev <> cur -> zlen old < 2^63 -> rot w f0 prev cur old ms ->
  forall w' rc, step w o = Ok (w', rc) -> rot w' f0 prev cur old (ms ++ flat_map filed (here c o)).
Proof.
  intros A Ho Hff Hne Hold R w' rc E. pose proof A as (_ & _ & Al & _ & _ & An). pose proof R as (closed & last & Rf & Rc & Rp & Rs & (F1 & F2 & F3) & Rr).
  destruct o as [r|ok|t m|m|b|p cc ok nl tell e|k|t lv msg ao af mv ok crc]; try contradiction Hff; cbn [step here flat_map] in E |- *; rewrite ?app_nil_r.
  - unfold set_thread_name in E. destruct strncpy; [|discriminate|discriminate]. injection E as <- _. exists closed, last. unfold filled. auto 10.
  - unfold set_level in E. destruct find_level as [[i|]| |]; try discriminate; injection E as <- _; exists closed, last; unfold filled; auto 10.
  - injection E as <- _. exists closed, last. unfold filled. auto 10.
  - injection E as <- _. exists closed, last. unfold filled. auto 10.
  - cbn [op_ok file_fine] in Ho, Hff. destruct Hff as (Fi & -> & ->). unfold log in E. rewrite Al in E. destruct (Z.ltb_spec lv (c_level c)) as [Hlv|Hlv].
    { replace (c_level c <=? lv) with false by lia. injection E as <- _. cbn. rewrite app_nil_r. exact R. }
    replace (c_level c <=? lv) with true by lia. cbn [flat_map filed]. pose proof Fi as ((s & Es & Hs) & _ & _ & Hmsg). rewrite Es. cbn [app].
    match type of E with (let* (a, b) := ?X in _) = _ => assert (E1 : exists w1 rc1, X = Ok (w1, rc1) /\ lg w1 = lg w /\ fs w1 = fs w /\ names w1 = names w) end.
    { destruct (to_stdout (lg w)); [|eauto 10]. destruct (stdout_any lv (names w t) (c_name c t) msg ao Ho (An t)) as (b & rc0 & E0 & _). rewrite E0. cbn [bind].
      destruct (lv =? LERROR); do 2 eexists; (split; [reflexivity|]); auto. }
    destruct E1 as (w1 & rc1 & E1 & L1 & S1 & N1). rewrite E1 in E. cbn [bind] in E. clear E1. rewrite Rf, S1, N1 in E.
    assert (Hb : 0 <= file_size (lg w) < 2^63).
    { rewrite Rs. pose proof (bytes_nonneg last). pose proof (zlen_nonneg old). destruct Rr as (_ & _ & [->|Rr]); [cbn [bytes] in *; destruct closed; cbn [first_or]; lia|].
      unfold max_file in Rr. destruct closed; cbn [first_or] in *; lia. }
    destruct (log_file_fine (lg w) (fs w) cur prev lv (names w t) (c_name c t) msg af s true true Ho (An t) Fi Es Rf Rc Rp Hb) as (f' & Fc & Fo & EL).
    rewrite EL in E. clear EL. rewrite Rs in E.
    set (m := (line (c_name c t) s lv msg, msg)).
    assert (Eb : first_or (zlen old) 0 closed + bytes last + zlen msg = first_or (zlen old) 0 closed + bytes (last ++ [m])) by (rewrite bytes_app; cbn; lia).
    rewrite Eb in E. unfold content in Fc. rewrite F1 in Fc.
    assert (Fc' : f' cur = Some (first_or old [] closed ++ lines (last ++ [m]))) by (rewrite Fc, lines_app; cbn [lines flat_map fst m]; rewrite app_nil_r, app_assoc; reflexivity).
    destruct (Z.ltb_spec FILE_SIZE (first_or (zlen old) 0 closed + bytes (last ++ [m]))) as [Hgt|Hle]; cbn [bind] in E.
    + assert (Ew : lg w' = mk_logger (Some cur) (current_file (lg w)) (prev_file (lg w)) 0 (level (lg w)) (inited (lg w)) (to_stdout (lg w)) (cb (lg w)) /\
        fs w' = put (rename f' cur prev) cur (Some [])) by (destruct (cb (lg w)); injection E as <- _; split; reflexivity).
      destruct Ew as [E1 E2]. exists (closed ++ [last ++ [m]]), []. rewrite E1. cbn [fp current_file prev_file file_size]. repeat (split; [assumption || reflexivity|]).
      split; [destruct closed; reflexivity|]. unfold filled. rewrite E2. unfold rename. rewrite same_neq by congruence. split.
      { split; [rewrite put_eq; destruct closed; reflexivity|]. split.
        - rewrite !put_neq by congruence. rewrite put_eq. rewrite rev_app_distr. cbn [rev app]. rewrite Fc'. do 2 f_equal. destruct closed as [|p r]; [reflexivity|].
          cbn [first_or rev]. destruct (rev r); reflexivity.
        - intros q H1 H2. rewrite !put_neq by congruence. rewrite Fo by exact H2. auto. }
      apply rotated_cut; [exact Rr|lia].
    + assert (Ew : lg w' = mk_logger (fp (lg w)) (current_file (lg w)) (prev_file (lg w)) (first_or (zlen old) 0 closed + bytes (last ++ [m])) (level (lg w)) (inited (lg w)) (to_stdout (lg w)) (cb (lg w)) /\
        fs w' = f') by (destruct (cb (lg w)); injection E as <- _; split; reflexivity).
      destruct Ew as [E1 E2]. exists closed, (last ++ [m]). rewrite E1. cbn [fp current_file prev_file file_size]. repeat (split; [assumption || reflexivity|]).
      unfold filled. rewrite E2. split; [|apply rotated_more; [exact Rr|lia]].
      split; [exact Fc'|]. split; [rewrite Fo by exact Hne; exact F2|]. intros q H1 H2. rewrite Fo by exact H2. auto.
Qed.
Lemma run_file h : forall w c f0 prev cur old ms, agrees w c -> Forall op_ok h -> Forall file_fine h -> prev <> cur -> zlen old < 2^63 -> rot w f0 prev cur old ms ->
  forall w' rcs, run w h = Ok (w', rcs) -> rot w' f0 prev cur old (ms ++ flat_map filed (passed c h)).
Proof.
  induction h as [|o h IH]; intros w c f0 prev cur old ms A Ho Hf Hne Hold R w' rcs E.
  - injection E as <- _. cbn. now rewrite app_nil_r.
  - inversion Ho as [|? ? Ho1 Ho2]; subst. inversion Hf as [|? ? Hf1 Hf2]; subst. destruct (step_ok w c o A Ho1) as (w1 & rc & E1 & A1 & _).
    cbn [run] in E. rewrite E1 in E. cbn [bind] in E. destruct (run w1 h) as [[w2 rcs2]| |] eqn:E2; try discriminate. injection E as <- _.
    rewrite passed_cons, flat_map_app, app_assoc. eapply (IH w1); eauto. eapply step_file; eauto.
Qed.
Lemma set_file_rot w c prev cur rp rc e : agrees w c -> nonul prev -> nonul cur -> zlen prev < 255 -> zlen cur < 255 -> prev <> cur ->
  zlen (content (fs w) cur) < 2^63 - 1 ->
  exists w1, step w (SetFile (Some (prev ++ 0 :: rp)) (Some (cur ++ 0 :: rc)) true Good true e) = Ok (w1, 0) /\ agrees w1 c /\
    calls w1 = calls w /\ out w1 = out w /\ err w1 = err w /\ rot w1 (fs w) prev cur (content (fs w) cur ++ [10]) [].
Proof.
  intros A Hnp Hnc Lp Lc Hne Hsz. pose proof A as ((cur0 & prev0 & Hc & Hp & _) & Ai & Al & As & Ac & An). cbn [step]. unfold set_file, close_file.
  destruct (clear_holds _ _ _ Hp) as (p0 & Ep & Hp0); [lia|]. rewrite Ep. cbn [bind].
  destruct (clear_holds _ _ _ Hc) as (c0 & Ec & Hc0); [lia|]. rewrite Ec. cbn [bind file_size level inited to_stdout cb prev_file current_file].
  rewrite strlen_ok by exact Hnp. cbn [bind]. replace (256 - 1 <=? zlen prev) with false by lia. rewrite (strlen_ok cur) by exact Hnc. cbn [bind orb].
  replace (256 - 1 <=? zlen cur) with false by lia.
  destruct (copy_holds _ _ _ prev rp Hp0 Hnp) as (b1 & p1 & E1 & E2 & Hp1); [lia|]. rewrite E1. cbn [bind]. rewrite E2. cbn [bind].
  destruct (copy_holds _ _ _ cur rc Hc0 Hnc) as (b2 & c1 & E3 & E4 & Hc1); [lia|]. rewrite E3. cbn [bind]. rewrite E4. cbn [bind].
  rewrite (holds_cstring _ _ _ Hc1). cbn [bind negb fprintf]. change (zlen [10] <=? 2147483647) with true. cbv iota. change (zlen [10] <? 0) with false. cbv iota.
  eexists. split; [reflexivity|]. cbn [bind].
  set (f1 := put (fs w) cur (Some (content (fs w) cur ++ [10]))). assert (Ef : f1 cur = Some (content (fs w) cur ++ [10])) by (unfold f1; apply put_eq).
  split; [split; [exists cur, prev; cbn; split; [exact Hc1|]; split; [exact Hp1|congruence]|cbn; auto 10]|]. cbn [calls out err]. repeat (split; [reflexivity|]).
  exists [], []. cbn [lg fp current_file prev_file file_size first_or bytes]. repeat (split; [assumption || reflexivity|]).
  split; [unfold content at 1; rewrite Ef; lia|]. split; [|split; [reflexivity|split; [exact I|now left]]].
  unfold filled. cbn [fs first_or lines flat_map rev]. rewrite app_nil_r. split; [exact Ef|]. split; [unfold f1; rewrite put_neq by exact Hne; reflexivity|].
  intros q _ Hq. unfold f1. rewrite put_neq by exact Hq. reflexivity.
Qed.
