(** Property C147: programs that tokenise strings. *)
From Verif Require Import Base CStr StrModel StrSpec StrProofs TokModel.
From Coq Require Import ZifyBool.

(** The text before the first delimiter, and what follows that delimiter. *)
Fixpoint cut (delim l : list Z) : list Z * option (list Z) :=
  match l with
  | [] => ([], None)
  | c :: r => if existsb (Z.eqb c) delim then ([], Some r) else let (p, q) := cut delim r in (c :: p, q)
  end.
(** Where a tokenisation of a text is: not begun; a token given, with more to come; the last token given;
    stopped in the middle by sc_str_token_end. *)
Inductive where_ := Fresh | More (rest : list Z) | Last | Stopped.
(** The next state and what the call gives; None: not allowed (going on after sc_str_token_end, starting over
    without it). *)
Definition ideal_tok (t : list Z) (w : where_) (o : tok) : option (where_ * option (list Z)) :=
  let next l d := let (p, q) := cut d l in Some (match q with None => Last | Some r => More r end, Some p) in
  match o, w with
  | TBegin d, Fresh => next t d
  | TBegin d, More l => next l d
  | TBegin _, Last => Some (Last, None)
  | TBegin _, Stopped => None
  | TEnd, More _ => Some (Stopped, None)
  | TEnd, w => Some (w, None)
  | TRestart, More _ => None
  | TRestart, _ => Some (Fresh, None)
  end.
Fixpoint ideal_run (t : list Z) (w : where_) (l : list tok) : option (where_ * list (option (list Z))) :=
  match l with
  | [] => Some (w, [])
  | o :: l => match ideal_tok t w o with
              | None => None
              | Some (w, r) => match ideal_run t w l with None => None | Some (w, rs) => Some (w, r :: rs) end
              end
  end.
Definition delims_ok (l : list tok) : Prop := forall d, In (TBegin d) l -> nonul d.

(** [at_ t w s save]: the string and the save pointer at that place. *)
Definition at_ (t : list Z) (w : where_) (s : sstr) (save : option Z) : Prop :=
  match w with
  | Fresh => s = clean t /\ save = None
  | More rest => exists a x, t = a ++ x :: rest /\ x <> 0 /\ s = mk_sstr (zlen t) ((a ++ 0 :: rest) ++ [x]) /\ save = Some (zlen a)
  | Last => s = clean t /\ save = Some (zlen t)
  | Stopped => s = clean t
  end.

Lemma cut_ok delim : nonul delim -> forall l, nonul l -> let (p, q) := cut delim l in
  strcspn (l ++ [0]) delim = Ok (zlen p) /\ nonul p /\
  match q with None => l = p | Some r => exists x, l = p ++ x :: r /\ x <> 0 end.
Proof.
  intro Hd. induction l as [|c l IH]; intro Hl; [cbn; repeat split; intros []|]. apply nonul_cons in Hl as [Hc Hl]. cbn [cut].
  cbn [app strcspn]. replace (c =? 0) with false by lia. cbn [orb].
  assert (E : one_of delim c = existsb (Z.eqb c) delim).
  { destruct (existsb (Z.eqb c) delim) eqn:E.
    - apply existsb_exists in E as (y & Hi & Hy). apply Z.eqb_eq in Hy. subst y. now apply one_of_In.
    - apply not_true_is_false. intro H. apply one_of_In in H. assert (existsb (Z.eqb c) delim = true) by (apply existsb_exists; exists c; split; [exact H|apply Z.eqb_refl]). congruence. }
  rewrite E. destruct (existsb (Z.eqb c) delim).
  - split; [reflexivity|]. split; [intros []|]. exists c. auto.
  - specialize (IH Hl). destruct (cut delim l) as [p q]. destruct IH as (H1 & H2 & H3). rewrite H1. cbn [bind]. rewrite zlen_cons.
    split; [reflexivity|]. split; [now apply nonul_cons|]. destruct q as [r|]; [destruct H3 as (x & -> & Hx); exists x; auto|now subst].
Qed.

(** A call that goes on at [pre] of the restored string. *)
Lemma go_ok t pre l delim : nonul delim -> nonul t -> t = pre ++ l ->
  let (p, q) := cut delim l in exists s' save', go (clean t) (zlen pre) delim = Ok (s', save', Some (zlen pre)) /\
    read_token s' (zlen pre) = Ok p /\ at_ t (match q with None => Last | Some r => More r end) s' save'.
Proof.
  intros Hd Ht E. assert (Hl : nonul l) by (intro H; apply Ht; rewrite E; apply in_or_app; now right).
  pose proof (cut_ok delim Hd l Hl) as C. destruct (cut delim l) as [p q]. destruct C as (H1 & H2 & H3).
  unfold go. unfold clean at 1. cbn [sbuf]. rewrite E, <- app_assoc, from_app. cbn [bind]. rewrite H1. cbn [bind].
  rewrite <- zlen_app. destruct q as [r|].
  - destruct H3 as (x & Hx & Hx0). assert (E2 : pre ++ l = (pre ++ p) ++ x :: r) by (rewrite Hx, app_assoc; reflexivity).
    rewrite E2. unfold clean. rewrite swap_mid. cbn [bind]. do 2 eexists. split; [reflexivity|]. split.
    + rewrite <- !app_assoc. cbn [app]. apply read_ok. exact H2.
    + cbn [at_]. exists (pre ++ p), x. split; [reflexivity|]. split; [exact Hx0|]. split; [|reflexivity]. f_equal. rewrite !zlen_app, !zlen_cons. reflexivity.
  - subst l. rewrite swap_end. cbn [bind]. do 2 eexists. split; [reflexivity|]. split.
    + unfold clean. rewrite <- app_assoc. apply read_ok. exact H2.
    + split; reflexivity.
Qed.

Lemma tok_step t w o w' r s save : nonul t -> at_ t w s save -> (forall d, o = TBegin d -> nonul d) -> ideal_tok t w o = Some (w', r) ->
  exists s' save', tok_do s save o = Ok (s', save', r) /\ at_ t w' s' save'.
Proof.
  intros Ht Ha Hd Hi. destruct o as [d| |]; cbn [tok_do].
  - specialize (Hd d eq_refl). destruct w as [|rest| |]; cbn [ideal_tok at_] in *.
    + destruct Ha as [-> ->]. pose proof (go_ok t [] t d Hd Ht eq_refl) as G. destruct (cut d t) as [p q]. destruct G as (s' & sv & G1 & G2 & G3).
      injection Hi as <- <-. exists s', sv. unfold token_begin. change (zlen []) with 0 in *. unfold go in G1. rewrite G1. cbn [bind]. rewrite G2. cbn [bind]. auto.
    + destruct Ha as (a & x & E & Hx & -> & ->). unfold token_begin.
      assert (Z1 : zlen t = zlen (a ++ 0 :: rest)) by (rewrite E, !zlen_app, !zlen_cons; reflexivity). rewrite Z1, swap_mid. cbn [bind sbuf].
      rewrite <- app_assoc. cbn [app]. rewrite zget_mid. cbn [or_ub bind]. replace (x =? 0) with false by lia. rewrite app_comm_cons, app_assoc. rewrite <- E.
      pose proof (go_ok t (a ++ [x]) rest d Hd Ht) as G. rewrite <- app_assoc in G. specialize (G E). destruct (cut d rest) as [p q]. destruct G as (s' & sv & G1 & G2 & G3).
      injection Hi as <- <-. exists s', sv. rewrite zlen_app in G1, G2. change (zlen [x]) with 1 in *. unfold go, clean in G1. unfold clean. cbn [sbuf] in *. rewrite G1. cbn [bind]. rewrite G2. cbn [bind]. auto.
    + destruct Ha as [-> ->]. injection Hi as <- <-. exists (clean t), (Some (zlen t)). unfold token_begin. rewrite swap_end. cbn [bind].
      unfold clean at 1. cbn [sbuf]. rewrite zget_mid. cbn [or_ub bind]. change (0 =? 0) with true. cbn [bind]. split; [reflexivity|]. now split.
    + discriminate.
  - destruct w as [|rest| |]; cbn [ideal_tok at_] in *; injection Hi as <- <-.
    + destruct Ha as [-> ->]. rewrite token_end_clean. cbn [bind]. exists (clean t), None. now repeat split.
    + destruct Ha as (a & x & E & Hx & -> & ->). unfold token_end. cbn [slen sbuf].
      assert (Z1 : zlen t = zlen (a ++ 0 :: rest)) by (rewrite E, !zlen_app, !zlen_cons; reflexivity). rewrite Z1, zget_mid. cbn [or_ub bind]. replace (x =? 0) with false by lia.
      rewrite swap_mid. cbn [bind]. do 2 eexists. split; [reflexivity|]. cbn [at_]. now rewrite E.
    + destruct Ha as [-> ->]. rewrite token_end_clean. cbn [bind]. exists (clean t), (Some (zlen t)). now repeat split.
    + subst s. rewrite token_end_clean. cbn [bind]. exists (clean t), save. now repeat split.
  - destruct w as [|rest| |]; cbn [ideal_tok at_] in *; try discriminate; injection Hi as <- <-.
    + destruct Ha as [-> _]. exists (clean t), None. now repeat split.
    + destruct Ha as [-> _]. exists (clean t), None. now repeat split.
    + subst s. exists (clean t), None. now repeat split.
Qed.
Lemma tok_runs t : nonul t -> forall l w w' rs s save, at_ t w s save -> delims_ok l -> ideal_run t w l = Some (w', rs) ->
  exists s' save', tok_run s save l = Ok (s', save', rs) /\ at_ t w' s' save'.
Proof.
  intro Ht. induction l as [|o l IH]; intros w w' rs s save Ha Hd Hi; cbn [ideal_run tok_run] in *.
  - injection Hi as <- <-. eauto.
  - destruct (ideal_tok t w o) as [[w1 r]|] eqn:E; [|discriminate]. destruct (ideal_run t w1 l) as [[w2 rs2]|] eqn:E2; [|discriminate]. injection Hi as <- <-.
    destruct (tok_step t w o w1 r s save Ht Ha) as (s1 & sv1 & H1 & H2); [intros d ->; apply Hd; now left|exact E|]. rewrite H1. cbn [bind].
    destruct (IH w1 w2 rs2 s1 sv1 H2) as (s2 & sv2 & H3 & H4); [intros d Hi2; apply Hd; now right|exact E2|]. rewrite H3. cbn [bind]. eauto.
Qed.

(** C147: every allowed program sees the pieces of the text, and restoring gives the string back. *)
Theorem tok_programs_partial : forall t l w rs, nonul t -> delims_ok l -> ideal_run t Fresh l = Some (w, rs) ->
  let s := mk_sstr (zlen t) (t ++ [0]) in
  exists s' save', tok_run s None l = Ok (s', save', rs) /\ token_end s' save' = Ok s /\
    match w with
    | More rest => exists x, t <> rest /\ s' = mk_sstr (zlen t) (firstn (length t - length rest - 1) t ++ 0 :: rest ++ [x]) /\
                     nth_error t (length t - length rest - 1) = Some x
    | _ => s' = s
    end.
Proof.
  intros t l w rs Ht Hd Hi s. destruct (tok_runs t Ht l Fresh w rs s None (conj eq_refl eq_refl) Hd Hi) as (s' & save' & H1 & H2).
  exists s', save'. split; [exact H1|]. destruct w as [|rest| |]; cbn [at_] in H2.
  - destruct H2 as [-> ->]. split; [apply token_end_clean|reflexivity].
  - destruct (tok_step t (More rest) TEnd Stopped None s' save' Ht H2) as (s2 & sv2 & H3 & H4); [discriminate|reflexivity|].
    cbn [tok_do at_] in H3, H4. subst s2. destruct (token_end s' save') as [x| |]; cbn [bind] in H3; try discriminate. injection H3 as -> _.
    split; [reflexivity|]. destruct H2 as (a & x & E & Hx & -> & _).
    assert (L : (length t - length rest - 1)%nat = length a) by (rewrite E, app_length; cbn [length]; lia).
    exists x. rewrite L. split.
    { intro H. assert (H5 : length t = length rest) by now rewrite H. rewrite E, app_length in H5. cbn [length] in H5. lia. }
    split; [|rewrite E, nth_error_app2, Nat.sub_diag by lia; reflexivity].
    f_equal. rewrite E at 1. rewrite firstn_app, Nat.sub_diag, firstn_all. cbn [firstn]. rewrite app_nil_r, <- app_assoc. reflexivity.
  - destruct H2 as [-> _]. split; [apply token_end_clean|reflexivity].
  - subst s'. split; [apply token_end_clean|reflexivity].
Qed.
Print Assumptions tok_programs_partial.
(** "k=v;w": the key with "=", the value with ";", then over again with ";" alone, stopped after the first token. *)
Example tok_programs_ex :
  nonul [107; 61; 118; 59; 119] /\ delims_ok [TBegin [61]; TBegin [59]; TEnd; TRestart; TBegin [59]] /\
  ideal_run [107; 61; 118; 59; 119] Fresh [TBegin [61]; TBegin [59]; TEnd; TRestart; TBegin [59]]
    = Some (More [119], [Some [107]; Some [118]; None; None; Some [107; 61; 118]]) /\
  tok_run (mk_sstr 5 [107; 61; 118; 59; 119; 0]) None [TBegin [61]; TBegin [59]; TEnd; TRestart; TBegin [59]]
    = Ok (mk_sstr 5 [107; 61; 118; 0; 119; 59], Some 3, [Some [107]; Some [118]; None; None; Some [107; 61; 118]]).
Proof.
  split; [unfold nonul; cbn; intuition discriminate|]. split; [|split; reflexivity].
  intros d H. cbn [In] in H. destruct H as [H|[H|[H|[H|[H|[]]]]]]; try discriminate; injection H as <-; unfold nonul; cbn; intuition discriminate.
Qed.

(** A token is a C string only until the next call: then it reads on to the end of the next token. *)
Theorem tok_earlier : forall a p x q y rest d, nonul (a ++ p ++ x :: q ++ y :: rest) -> nonul d -> In y d -> (forall c, In c q -> ~ In c d) ->
  let t := a ++ p ++ x :: q ++ y :: rest in
  exists s', tok_do (mk_sstr (zlen t) (a ++ p ++ 0 :: q ++ y :: rest ++ [x])) (Some (zlen (a ++ p))) (TBegin d) = Ok (s', Some (zlen (a ++ p ++ x :: q)), Some q) /\
    read_token s' (zlen a) = Ok (p ++ x :: q).
Proof.
  intros a p x q y rest d Ht Hd Hy Hq t.
  assert (C : cut d (q ++ y :: rest) = (q, Some rest)).
  { clear Ht. induction q as [|c q IH]; cbn [app cut].
    - replace (existsb (Z.eqb y) d) with true; [reflexivity|]. symmetry. apply existsb_exists. exists y. split; [exact Hy|apply Z.eqb_refl].
    - destruct (existsb (Z.eqb c) d) eqn:E.
      + apply existsb_exists in E as (z & Hz & Ez). apply Z.eqb_eq in Ez. subst z. destruct (Hq c (or_introl eq_refl) Hz).
      + rewrite IH; [reflexivity|]. intros e He. apply Hq. now right. }
  assert (Hx : x <> 0) by (intro; subst x; apply Ht; apply in_or_app; right; apply in_or_app; right; now left).
  assert (A : at_ t (More (q ++ y :: rest)) (mk_sstr (zlen t) (a ++ p ++ 0 :: q ++ y :: rest ++ [x])) (Some (zlen (a ++ p)))).
  { exists (a ++ p), x. unfold t. rewrite <- !app_assoc. cbn [app]. rewrite <- !app_assoc. cbn [app]. auto. }
  destruct (tok_step t _ (TBegin d) (More rest) (Some q) _ _ Ht A) as (s' & sv & H1 & H2).
  { intros d' E. now injection E as <-. }
  { cbn [ideal_tok]. rewrite C. reflexivity. }
  cbn [at_] in H2. destruct H2 as (b & z & E & Hz & -> & ->).
  assert (Eb : b = a ++ p ++ x :: q /\ z = y).
  { assert (E2 : (a ++ p ++ x :: q) ++ y :: rest = b ++ z :: rest) by (rewrite <- E; unfold t; rewrite <- !app_assoc; reflexivity).
    change (y :: rest) with ([y] ++ rest) in E2. change (z :: rest) with ([z] ++ rest) in E2. rewrite !app_assoc in E2. apply app_inv_tail in E2. apply app_inj_tail in E2. rewrite <- app_assoc in E2. cbn [app] in E2.
    destruct E2 as [E2 ->]. rewrite <- E2. split; [|reflexivity]. now rewrite <- ?app_assoc. }
  destruct Eb as [-> ->]. eexists. split; [exact H1|].
  replace (((a ++ p ++ x :: q) ++ 0 :: rest) ++ [y]) with (a ++ (p ++ x :: q) ++ 0 :: rest ++ [y]) by (rewrite <- !app_assoc; cbn [app]; rewrite <- ?app_assoc; reflexivity).
  apply read_ok. intro H. apply Ht. apply in_or_app. right. apply in_app_or in H as [H|[H|H]]; apply in_or_app; [now left|right; now left|right; right; apply in_or_app; now left].
Qed.
Print Assumptions tok_earlier.
Example tok_earlier_ex : exists s', tok_do (mk_sstr 5 [97; 0; 98; 59; 99; 59]) (Some 1) (TBegin [59]) = Ok (s', Some 3, Some [98]) /\
  read_token s' 0 = Ok [97; 59; 98].
Proof. eexists. split; reflexivity. Qed.

(** "After sc_str_token_end the tokenisation can go on": the next call gives NULL and takes the delimiter out of the string. *)
Theorem tok_resume_refuted : forall a x rest d, let t := a ++ x :: rest in x <> 0 ->
  tok_do (mk_sstr (zlen t) (t ++ [0])) (Some (zlen a)) (TBegin d) = Ok (mk_sstr (zlen t) (a ++ 0 :: rest ++ [x]), Some (zlen a), None).
Proof.
  intros a x rest d t Hx. cbn [tok_do]. unfold token_begin, t. rewrite swap_mid. cbn [bind sbuf]. rewrite <- app_assoc. cbn [app]. rewrite zget_mid. cbn [or_ub bind].
  change (0 =? 0) with true. cbn [bind]. do 3 f_equal. rewrite !zlen_app, !zlen_cons. reflexivity.
Qed.
Print Assumptions tok_resume_refuted.
(** "A loop can be left and started over": without sc_str_token_end the string stays cut where the first loop stopped, for good. *)
Theorem tok_restart_refuted : forall a y b x rest d, let t := a ++ y :: b ++ x :: rest in
  nonul t -> nonul d -> In y d -> (forall c, In c a -> ~ In c d) ->
  tok_run (mk_sstr (zlen t) (a ++ y :: b ++ 0 :: rest ++ [x])) (Some (zlen (a ++ y :: b))) [TRestart; TBegin d; TEnd] =
    Ok (mk_sstr (zlen t) (a ++ y :: b ++ 0 :: rest ++ [x]), Some (zlen a), [None; Some (a ++ x :: b); None]).
Proof.
  intros a y b x rest d t Ht Hd Hy Ha. cbn [tok_run tok_do bind]. unfold token_begin.
  assert (Hna : nonul a) by (intro H; apply Ht; apply in_or_app; now left).
  assert (Hy0 : y <> 0) by (intro; subst y; apply Ht; apply in_or_app; right; now left).
  assert (S1 : forall r, strcspn (a ++ y :: r) d = Ok (zlen a)).
  { intro r. clear Ht t. induction a as [|c a IH]; cbn [app strcspn].
    - replace (one_of d y) with true by (symmetry; now apply one_of_In). now rewrite orb_true_r.
    - apply nonul_cons in Hna as [H1 H2]. replace (c =? 0) with false by lia. cbn [orb]. destruct (one_of d c) eqn:E.
      + apply one_of_In in E. destruct (Ha c (or_introl eq_refl) E).
      + rewrite IH; [cbn [bind]; now rewrite zlen_cons|intros e He; apply Ha; now right|exact H2]. }
  pose proof (from_app [] (a ++ y :: b ++ 0 :: rest ++ [x])) as F. cbn [app] in F. change (zlen []) with 0 in F. cbn [sbuf]. rewrite F. cbn [bind]. rewrite S1. cbn [bind]. rewrite Z.add_0_l.
  assert (Z1 : zlen t = zlen (a ++ y :: b ++ 0 :: rest)) by (unfold t; rewrite !zlen_app, !zlen_cons, !zlen_app, !zlen_cons; reflexivity).
  assert (B : a ++ y :: b ++ 0 :: rest ++ [x] = (a ++ y :: b ++ 0 :: rest) ++ [x]) by (rewrite <- app_assoc; cbn [app]; rewrite <- app_assoc; reflexivity).
  rewrite Z1, B, swap_mid. cbn [bind].
  assert (R : read_token (mk_sstr (zlen (a ++ x :: b ++ 0 :: rest)) ((a ++ x :: b ++ 0 :: rest) ++ [y])) 0 = Ok (a ++ x :: b)).
  { replace ((a ++ x :: b ++ 0 :: rest) ++ [y]) with ([] ++ (a ++ x :: b) ++ 0 :: rest ++ [y]) by (cbn [app]; rewrite <- !app_assoc; cbn [app]; rewrite <- ?app_assoc; reflexivity).
    change 0 with (zlen (@nil Z)) at 3. apply read_ok. intro H. apply Ht. unfold t.
    apply in_app_or in H as [H|[H|H]]; apply in_or_app; [now left| |]; right; right; apply in_or_app; [right; now left|now left]. }
  rewrite R. cbn [bind]. unfold token_end. cbn [slen sbuf]. rewrite zget_mid. cbn [or_ub bind]. replace (y =? 0) with false by lia.
  rewrite swap_mid. cbn [bind]. reflexivity.
Qed.
Print Assumptions tok_restart_refuted.
(** The same with no delimiter before the cut, or with a second save pointer while the first loop has its first token: the
    first token of the second loop is the whole text. *)
Theorem tok_two_refuted : forall a x rest d save, let t := a ++ x :: rest in
  nonul t -> (forall c, In c a -> ~ In c d) ->
  tok_run (mk_sstr (zlen t) (a ++ 0 :: rest ++ [x])) save [TRestart; TBegin d] =
    Ok (mk_sstr (zlen t) (t ++ [0]), Some (zlen a), [None; Some t]).
Proof.
  intros a x rest d save t Ht Ha. cbn [tok_run tok_do bind]. unfold token_begin.
  assert (Hna : nonul a) by (intro H; apply Ht; apply in_or_app; now left).
  assert (S1 : forall r, strcspn (a ++ 0 :: r) d = Ok (zlen a)).
  { intro r. clear Ht t. induction a as [|c a IH]; cbn [app strcspn]; [reflexivity|].
    apply nonul_cons in Hna as [H1 H2]. replace (c =? 0) with false by lia. cbn [orb]. destruct (one_of d c) eqn:E.
    + apply one_of_In in E. destruct (Ha c (or_introl eq_refl) E).
    + rewrite IH; [cbn [bind]; now rewrite zlen_cons|intros e He; apply Ha; now right|exact H2]. }
  pose proof (from_app [] (a ++ 0 :: rest ++ [x])) as F. cbn [app] in F. change (zlen []) with 0 in F. cbn [sbuf]. rewrite F. cbn [bind]. rewrite S1. cbn [bind]. rewrite Z.add_0_l.
  assert (Z1 : zlen t = zlen (a ++ 0 :: rest)) by (unfold t; rewrite !zlen_app, !zlen_cons; reflexivity).
  assert (B : a ++ 0 :: rest ++ [x] = (a ++ 0 :: rest) ++ [x]) by (rewrite <- app_assoc; reflexivity).
  rewrite Z1, B, swap_mid. cbn [bind]. fold t.
  assert (R : forall n, read_token (mk_sstr n (t ++ [0])) 0 = Ok t) by (intro n; apply (read_ok [] t [] n); exact Ht).
  rewrite R. cbn [bind]. rewrite <- Z1. reflexivity.
Qed.
Print Assumptions tok_two_refuted.
(** "The string can be changed in the middle of a loop": appending puts the text behind the rest and loses the delimiter. *)
Theorem tok_append_refuted : forall a x rest p junk, let t := a ++ x :: rest in nonul p -> zlen t + zlen p <= 2^32 - 6 ->
  str_append (Some (mk_sstr (zlen t) (a ++ 0 :: rest ++ [x]))) p (Some junk) = Ok (Some (mk_sstr (zlen t + zlen p) (a ++ 0 :: rest ++ p ++ [0])), true).
Proof.
  intros a x rest p junk t Hp Hz. pose proof (zlen_nonneg p). pose proof (zlen_nonneg t). unfold str_append. cbn [slen sbuf].
  rewrite strlen_ok by exact Hp. cbn [bind]. unfold STR_MAX in *. rewrite (u64_small (2^32 - 1 - 4 - 1 - zlen t)) by lia.
  replace (2^32 - 1 - 4 - 1 - zlen t <? zlen p) with false by lia.
  unfold str_bytes. rewrite (u64_small (zlen t + zlen p)), u64_small by lia. cbn [realloc option_map].
  assert (E : forall r, a ++ 0 :: rest ++ r = (a ++ 0 :: rest) ++ r) by (intro r; rewrite <- app_assoc; reflexivity). rewrite !E.
  assert (Et : zlen t = zlen (a ++ 0 :: rest)) by (unfold t; rewrite !zlen_app, !zlen_cons; reflexivity). rewrite Et in *. clearbody t. clear Et t. set (t := a ++ 0 :: rest) in *. clearbody t.
  set (b := firstn _ _).
  assert (Hb : exists r, b = t ++ r /\ zlen r = zlen p + 1).
  { unfold b. exists (firstn (Z.to_nat (zlen p + 1)) ([x] ++ junk ++ repeat 0 (Z.to_nat (zlen t + zlen p + 4 + 1 - 4)))). split.
    - rewrite <- app_assoc, firstn_app. rewrite firstn_all2 by (unfold zlen in *; lia). f_equal. f_equal. unfold zlen in *. lia.
    - rewrite zlen_firstn, !zlen_app, zlen_repeat. change (zlen [x]) with 1. pose proof (zlen_nonneg junk). lia. }
  destruct Hb as (r & -> & Hr).
  change (p ++ [0]) with ([] ++ p ++ [0]). change 0 with (@zlen Z []) at 2. rewrite bytes_mid. cbn [bind].
  assert (Hsplit : exists r1 z, r = r1 ++ [z] /\ zlen r1 = zlen p).
  { destruct (@exists_last _ r) as (r1 & z & ->); [intros ->; change (zlen (@nil Z)) with 0 in Hr; lia|].
    exists r1, z. split; [reflexivity|]. rewrite zlen_app in Hr. change (zlen [z]) with 1 in Hr. lia. }
  destruct Hsplit as (r1 & z & -> & Hr1). rewrite memcpy_mid by lia. cbn [bind].
  rewrite (u32_small (zlen p)), u32_small by lia. rewrite <- zlen_app, app_assoc.
  rewrite zput_mid. cbn [bind]. rewrite <- app_assoc. reflexivity.
Qed.
Print Assumptions tok_append_refuted.
Example tok_misuse_ex :
  tok_run (mk_sstr 5 [97; 59; 98; 45; 99; 0]) None [TBegin [59]; TRestart; TBegin [45; 59]] = Ok (mk_sstr 5 [97; 59; 98; 45; 99; 0], Some 1, [Some [97]; None; Some [97; 59; 98; 45; 99]]) /\
  tok_run (mk_sstr 5 [97; 59; 98; 59; 99; 0]) None [TBegin [59]; TEnd; TBegin [59]] = Ok (mk_sstr 5 [97; 0; 98; 59; 99; 59], Some 1, [Some [97]; None; None]) /\
  tok_run (mk_sstr 5 [97; 59; 98; 45; 99; 0]) None [TBegin [45]; TRestart; TBegin [59]; TEnd]
    = Ok (mk_sstr 5 [97; 59; 98; 0; 99; 45], Some 1, [Some [97; 59; 98]; None; Some [97; 45; 98]; None]) /\
  str_append (Some (mk_sstr 3 [97; 0; 98; 59])) [120] (Some []) = Ok (Some (mk_sstr 4 [97; 0; 98; 120; 0]), true).
Proof. repeat split; vm_compute; reflexivity. Qed.
