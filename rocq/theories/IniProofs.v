(** Proofs about the INI parser. *)
From Verif Require Import Base CStr CNum StrSpec StrProofs ScProofs IniModel IniSpec.
From Coq Require Import ZifyBool.

(** ** Lists *)
Lemma ltrim_split l : exists a, l = a ++ ltrim l /\ Forall (fun c => isspace c = true) a /\
  (forall c r, ltrim l = c :: r -> isspace c = false).
Proof.
  induction l as [|c l (a & E & F & N)]; [exists []; cbn; split; [reflexivity|]; split; [constructor|discriminate]|].
  cbn. destruct (isspace c) eqn:H.
  - exists (c :: a). split; [cbn; congruence|]. split; [now constructor|exact N].
  - exists []. split; [reflexivity|]. split; [constructor|]. intros d r [= <- _]. exact H.
Qed.
Lemma rtrim_split l : exists b, l = rtrim l ++ b /\ Forall (fun c => isspace c = true) b /\
  (forall r c, rtrim l = r ++ [c] -> isspace c = false).
Proof.
  unfold rtrim. destruct (ltrim_split (rev l)) as (a & E & F & N). exists (rev a). split; [|split].
  - rewrite <- rev_app_distr, <- E. now rewrite rev_involutive.
  - apply Forall_forall. intros x Hx. rewrite <- in_rev in Hx. rewrite Forall_forall in F. now apply F.
  - intros r c H. apply (N c (rev r)). rewrite <- (rev_involutive (ltrim (rev l))), H, rev_app_distr. reflexivity.
Qed.
Lemma rtrim_nil_iff l : rtrim l = [] <-> Forall (fun c => isspace c = true) l.
Proof.
  split; intro H.
  - destruct (rtrim_split l) as (b & E & F & _). rewrite H in E. cbn in E. congruence.
  - unfold rtrim. replace (ltrim (rev l)) with (@nil Z); [reflexivity|]. symmetry.
    assert (Hr : Forall (fun c => isspace c = true) (rev l)) by (apply Forall_forall; intros x Hx; rewrite <- in_rev in Hx; rewrite Forall_forall in H; auto).
    induction Hr as [|c r Hc Hr IH]; [reflexivity|]. cbn. now rewrite Hc.
Qed.
Lemma head_space_core l c r : l = c :: r -> isspace c = false -> rtrim l <> [].
Proof. intros -> Hc H. apply rtrim_nil_iff in H. inversion H. congruence. Qed.
Lemma rtrim_cons c r : isspace c = false -> exists r', rtrim (c :: r) = c :: r'.
Proof.
  intro Hc. destruct (rtrim_split (c :: r)) as (b & E & _). destruct (rtrim (c :: r)) as [|d t] eqn:T.
  - exfalso. eapply (head_space_core (c :: r)); eauto.
  - injection E as <- _. eauto.
Qed.

(** ** Trimming in memory *)
(** The end of the string moves back over spaces. *)
Lemma trim_end_ok a core : forall trail b, Forall (fun c => isspace c = true) trail ->
  (forall r c, core = r ++ [c] -> isspace c = false) -> core <> [] ->
  forall n, (length trail < n)%nat ->
  trim_end n (a ++ core ++ trail ++ b) (zlen a) (zlen a + zlen core + zlen trail - 1) = Ok (zlen a + zlen core - 1).
Proof.
  intro trail. induction trail as [|x t IH] using rev_ind; intros b F N Hne n Hn.
  - destruct n as [|n]; [lia|]. cbn [trim_end app]. rewrite zlen_nil.
    destruct (exists_last Hne) as (r & c & ->). rewrite zlen_app. change (zlen [c]) with 1. pose proof (zlen_nonneg r). pose proof (zlen_nonneg a).
    replace (zlen a + (zlen r + 1) + 0 - 1) with (zlen a + zlen r) by lia. destruct (Z.leb_spec (zlen a + zlen r) (zlen a)).
    + f_equal. lia.
    + replace (a ++ (r ++ [c]) ++ b) with ((a ++ r) ++ c :: b) by (rewrite <- !app_assoc; reflexivity).
      rewrite <- zlen_app, (zload_ok _ _ c) by apply zget_mid. cbn [bind]. rewrite (N r c eq_refl). rewrite zlen_app. f_equal. lia.
  - apply Forall_app in F as [F1 F2]. destruct n as [|n]; [lia|]. cbn [trim_end].
    rewrite app_length in Hn. cbn in Hn. rewrite zlen_app. change (zlen [x]) with 1.
    assert (0 < zlen core) by (destruct core; [congruence|rewrite zlen_cons; pose proof (zlen_nonneg core); lia]).
    pose proof (zlen_nonneg t). pose proof (zlen_nonneg a).
    destruct (Z.leb_spec (zlen a + zlen core + (zlen t + 1) - 1) (zlen a)); [lia|].
    replace (zlen a + zlen core + (zlen t + 1) - 1) with (zlen (a ++ core ++ t)) by (rewrite !zlen_app; lia).
    replace (a ++ core ++ (t ++ [x]) ++ b) with ((a ++ core ++ t) ++ x :: b) by (rewrite <- !app_assoc; reflexivity).
    rewrite (zload_ok _ _ x) by apply zget_mid. cbn [bind]. replace (isspace x) with true by (inversion F2; congruence).
    replace (zlen (a ++ core ++ t) - 1) with (zlen a + zlen core + zlen t - 1) by (rewrite !zlen_app; lia).
    replace ((a ++ core ++ t) ++ x :: b) with (a ++ core ++ t ++ x :: b) by (rewrite <- !app_assoc; reflexivity).
    apply IH; [exact F1|exact N|exact Hne|lia].
Qed.
Lemma nonul_sub a b c : nonul (a ++ b ++ c) -> nonul b.
Proof. rewrite !nonul_app. tauto. Qed.
Lemma from_app_len (a : list Z) b : from (a ++ b) (zlen a) = Ok b.
Proof.
  unfold from. pose proof (zlen_nonneg a). pose proof (zlen_nonneg b). rewrite zlen_app.
  replace ((0 <=? zlen a) && (zlen a <=? zlen a + zlen b)) with true by lia.
  unfold zlen. rewrite Nat2Z.id, skipn_app, skipn_all, Nat.sub_diag. reflexivity.
Qed.
(** trim_space on the string [t] at [zlen a]: one byte is written, at the end of
    the trimmed text. *)
Lemma trim_space_ok strict a t b : nonul t -> (strict = true -> a <> [] \/ t <> []) ->
  exists lead trail, t = lead ++ trim t ++ trail /\ Forall (fun c => isspace c = true) lead /\ Forall (fun c => isspace c = true) trail /\
    (trim t = [] -> trail = []) /\
    trim_space strict (a ++ t ++ 0 :: b) (zlen a) = Ok (a ++ lead ++ trim t ++ 0 :: tl (trail ++ [0]) ++ b, zlen a + zlen lead).
Proof.
  intros Hn Hs. destruct (ltrim_split t) as (lead & E1 & F1 & N1). destruct (rtrim_split (ltrim t)) as (trail & E2 & F2 & N2).
  fold (trim t) in E2, N2. exists lead, trail. split; [now rewrite <- E2|]. split; [exact F1|]. split; [exact F2|].
  assert (Hcore : trim t = [] -> ltrim t = []).
  { intro H. destruct (ltrim t) as [|c r] eqn:El; [reflexivity|]. exfalso. unfold trim in H. rewrite El in H.
    apply (head_space_core (c :: r) c r); auto. eapply N1. reflexivity. }
  assert (Htr : trim t = [] -> trail = []).
  { intro H. rewrite (Hcore H), H in E2. cbn in E2. congruence. }
  split; [exact Htr|].
  unfold trim_space. rewrite from_app_len. cbn [bind].
  assert (Hsp : span isspace (t ++ 0 :: b) = Ok (lead, ltrim t ++ 0 :: b)).
  { rewrite E1 at 1. rewrite <- app_assoc. destruct (next_head (ltrim t) b) as (c & r & E & Hc). rewrite E.
    apply span_ok; [exact F1|]. destruct Hc as [[r' Hc]|[_ ->]]; [now apply (N1 c r')|reflexivity]. }
  rewrite Hsp. cbn [bind]. assert (Hn2 : nonul (ltrim t)) by (rewrite E1 in Hn; apply nonul_app in Hn; tauto).
  rewrite strlen_ok by exact Hn2. cbn [bind]. rewrite E2 at 1. rewrite zlen_app.
  pose proof (zlen_nonneg a). pose proof (zlen_nonneg lead). pose proof (zlen_nonneg (trim t)). pose proof (zlen_nonneg trail). pose proof (zlen_nonneg b).
  set (m := a ++ t ++ 0 :: b).
  assert (Em : m = (a ++ lead) ++ trim t ++ trail ++ 0 :: b).
  { unfold m. rewrite E1 at 1. rewrite E2 at 1. rewrite <- !app_assoc. reflexivity. }
  assert (Hlm : zlen m = zlen a + zlen lead + zlen (trim t) + zlen trail + zlen b + 1) by (rewrite Em, !zlen_app, zlen_cons; lia).
  unfold ptr at 1. replace (strict && negb ((0 <=? zlen a + zlen lead + (zlen (trim t) + zlen trail) - 1) && (zlen a + zlen lead + (zlen (trim t) + zlen trail) - 1 <=? zlen m))) with false.
  2:{ destruct strict; [|reflexivity]. cbn [andb]. symmetry. apply negb_false_iff.
      assert (0 < zlen a + zlen lead + zlen (trim t) + zlen trail); [|lia].
      replace (zlen a + zlen lead + zlen (trim t) + zlen trail) with (zlen a + zlen t) by (rewrite E1 at 1; rewrite E2 at 1; rewrite !zlen_app; lia).
      destruct (Hs eq_refl) as [H'|H'].
      - destruct a; [congruence|]. rewrite zlen_cons. pose proof (zlen_nonneg a). pose proof (zlen_nonneg t). lia.
      - destruct t; [congruence|]. rewrite zlen_cons. pose proof (zlen_nonneg t). lia. }
  cbn [bind]. rewrite Em.
  assert (Hte : trim_end (S (Z.to_nat (zlen (ltrim t)))) ((a ++ lead) ++ trim t ++ trail ++ 0 :: b) (zlen a + zlen lead) (zlen a + zlen lead + (zlen (trim t) + zlen trail) - 1) = Ok (zlen a + zlen lead + zlen (trim t) - 1)).
  { destruct (list_eq_dec Z.eq_dec (trim t) []) as [Hz|Hz].
    - rewrite (Htr Hz), Hz. cbn [trim_end]. rewrite zlen_nil. destruct (Z.leb_spec (zlen a + zlen lead + (0 + 0) - 1) (zlen a + zlen lead)); [|lia]. (f_equal; lia).
    - rewrite <- (zlen_app a lead). replace (zlen (a ++ lead) + (zlen (trim t) + zlen trail) - 1) with (zlen (a ++ lead) + zlen (trim t) + zlen trail - 1) by lia.
      apply trim_end_ok; auto. rewrite E2, zlen_app. unfold zlen. lia. }
  replace (Z.to_nat (zlen (trim t) + zlen trail)) with (Z.to_nat (zlen (ltrim t))) by (rewrite E2 at 1; rewrite zlen_app; reflexivity).
  rewrite Hte. cbn [bind]. replace (zlen a + zlen lead + zlen (trim t) - 1 + 1) with (zlen (a ++ lead ++ trim t)) by (rewrite !zlen_app; lia).
  destruct trail as [|x trail]; cbn [app tl].
  - replace ((a ++ lead) ++ trim t ++ 0 :: b) with ((a ++ lead ++ trim t) ++ 0 :: b) by (rewrite <- !app_assoc; reflexivity).
    rewrite zput_mid. cbn [bind]. rewrite <- !app_assoc. reflexivity.
  - replace ((a ++ lead) ++ trim t ++ x :: trail ++ 0 :: b) with ((a ++ lead ++ trim t) ++ x :: trail ++ 0 :: b) by (rewrite <- !app_assoc; reflexivity).
    rewrite zput_mid. cbn [bind]. rewrite <- !app_assoc. reflexivity.
Qed.

(** ** Comments in memory *)
Lemma strchr_none c t b : c <> 0 -> nonul t -> ~ In c t -> strchr (t ++ 0 :: b) c = Ok None.
Proof.
  intros Hc. induction t as [|x t IH]; intros Hn Hi; cbn [app strchr].
  - destruct (Z.eqb_spec 0 c); [congruence|reflexivity].
  - apply nonul_cons in Hn as [H1 H2]. cbn in Hi. destruct (Z.eqb_spec x c); [tauto|]. destruct (Z.eqb_spec x 0); [tauto|].
    rewrite IH by tauto. reflexivity.
Qed.
Lemma strchr_some c a b : nonul a -> ~ In c a -> strchr (a ++ c :: b) c = Ok (Some (zlen a)).
Proof.
  induction a as [|x t IH]; intros Hn Hi; cbn [app strchr].
  - rewrite Z.eqb_refl. reflexivity.
  - apply nonul_cons in Hn as [H1 H2]. cbn in Hi. destruct (Z.eqb_spec x c); [tauto|]. destruct (Z.eqb_spec x 0); [tauto|].
    rewrite IH by tauto. cbn [bind option_map]. rewrite zlen_cons. do 2 f_equal. lia.
Qed.
Lemma split_first_none p l : split_first p l = None -> forall x, In x l -> p x = false.
Proof.
  induction l as [|c l IH]; intros H x [].
  - subst. cbn in H. destruct (p x); [discriminate|reflexivity].
  - cbn in H. destruct (p c); [discriminate|]. apply IH; [|assumption]. destruct (split_first p l) as [[]|]; [discriminate|reflexivity].
Qed.
Lemma split_first_some p l a b : split_first p l = Some (a, b) -> exists c, l = a ++ c :: b /\ p c = true /\ forall x, In x a -> p x = false.
Proof.
  revert a. induction l as [|c l IH]; intros a H; [discriminate|]. cbn in H. destruct (p c) eqn:E.
  - injection H as <- <-. exists c. split; [reflexivity|]. split; [exact E|intros x []].
  - destruct (split_first p l) as [[a' b']|]; [|discriminate]. injection H as <- <-. destruct (IH a' eq_refl) as (d & -> & H1 & H2).
    exists d. split; [reflexivity|]. split; [exact H1|]. intros x [<-|Hx]; auto.
Qed.
Lemma cut_mark_noblank t : ~ In 32 t -> cut_mark t = t.
Proof.
  induction t as [|c t IH]; intro H; [reflexivity|]. cbn in *. destruct (Z.eqb_spec c 32); [tauto|]. cbn [andb].
  rewrite IH by tauto. destruct t; reflexivity.
Qed.
Lemma cut_mark_blank a t : ~ In 32 a -> cut_mark (a ++ 32 :: t) =
  a ++ 32 :: match t with d :: _ => if mark d then [] else cut_mark t | [] => [] end.
Proof.
  induction a as [|c a IH]; intro H; [cbn; destruct t; reflexivity|]. cbn [app] in *. cbn [cut_mark].
  rewrite IH by (cbn in H; tauto). f_equal. cbn in H. destruct (Z.eqb_spec c 32); [tauto|]. cbn [andb].
  destruct a; reflexivity.
Qed.
Lemma cut_comment_ok n : forall a t b, nonul t -> (length t < n)%nat ->
  exists b', cut_comment n (a ++ t ++ 0 :: b) (zlen a) = Ok (a ++ cut_mark t ++ 0 :: b') /\
    zlen (a ++ t ++ 0 :: b) = zlen (a ++ cut_mark t ++ 0 :: b').
Proof.
  induction n as [|n IH]; intros a t b Hn Hl; [lia|]. cbn [cut_comment].
  destruct t as [|c t]; [exists b; cbn [app cut_mark]; rewrite (zload_ok _ _ 0) by apply zget_mid; cbn; split; reflexivity|].
  cbn [app]. rewrite (zload_ok _ _ c) by apply zget_mid. cbn [bind]. pose proof Hn as Hn'. apply nonul_cons in Hn' as [Hc _].
  destruct (Z.eqb_spec c 0); [congruence|]. rewrite from_app_len. cbn [bind].
  change (c :: t ++ 0 :: b) with ((c :: t) ++ 0 :: b). set (u := c :: t) in *.
  destruct (split_first (Z.eqb 32) u) as [[x y]|] eqn:E.
  - destruct (split_first_some _ _ _ _ E) as (d & Eu & Hd & Hx). assert (d = 32) by lia. subst d. rewrite Eu in *.
    assert (Hx' : ~ In 32 x) by (intro Hi; specialize (Hx 32 Hi); lia).
    apply nonul_app in Hn as [Hnx Hny]. apply nonul_cons in Hny as [_ Hny].
    replace ((x ++ 32 :: y) ++ 0 :: b) with (x ++ 32 :: y ++ 0 :: b) by (rewrite <- app_assoc; reflexivity).
    rewrite strchr_some by assumption. cbn [bind]. rewrite cut_mark_blank by exact Hx'.
    replace (zlen a + zlen x + 1) with (zlen (a ++ x ++ [32])) by (rewrite !zlen_app; change (zlen [32]) with 1; lia).
    replace (a ++ x ++ 32 :: y ++ 0 :: b) with ((a ++ x ++ [32]) ++ y ++ 0 :: b) by (rewrite <- !app_assoc; reflexivity).
    destruct y as [|d y].
    + cbn [app]. rewrite (zload_ok _ _ 0) by apply zget_mid. cbn [bind Z.eqb orb]. exists b.
      destruct n as [|n]; [rewrite app_length in Hl; cbn in Hl; lia|]. cbn [cut_comment].
      rewrite (zload_ok _ _ 0) by apply zget_mid. cbn [bind Z.eqb]. split; [rewrite <- !app_assoc; reflexivity|rewrite <- !app_assoc; reflexivity].
    + cbn [app]. rewrite (zload_ok _ _ d) by apply zget_mid. cbn [bind]. fold (mark d). destruct (mark d) eqn:Em.
      * rewrite zput_mid. exists (y ++ 0 :: b). split; [rewrite <- !app_assoc; reflexivity|]. rewrite !zlen_app, !zlen_cons, !zlen_app, !zlen_cons, zlen_nil. lia.
      * destruct (IH (a ++ x ++ [32]) (d :: y) b Hny) as (b' & E' & L'); [rewrite app_length in Hl; cbn in *; lia|].
        cbn [app] in E'. rewrite E'. exists b'. split; [rewrite <- !app_assoc; reflexivity|].
        cbn [app] in L'. rewrite L'. rewrite <- !app_assoc. reflexivity.
  - assert (Hi : ~ In 32 u) by (intro Hi; pose proof (split_first_none _ _ E 32 Hi); lia).
    rewrite strchr_none by (auto; lia). cbn [bind]. rewrite cut_mark_noblank by exact Hi. exists b. split; reflexivity.
Qed.
Lemma trim_comment_ok a t b : nonul t ->
  exists b', trim_comment (a ++ t ++ 0 :: b) (zlen a) = Ok (a ++ uncomment t ++ 0 :: b') /\
    zlen (a ++ t ++ 0 :: b) = zlen (a ++ uncomment t ++ 0 :: b').
Proof.
  intro Hn. unfold trim_comment. destruct t as [|c t].
  - cbn [app uncomment]. rewrite (zload_ok _ _ 0) by apply zget_mid. cbn [bind Z.eqb orb]. rewrite zput_mid. exists b. split; reflexivity.
  - cbn [app]. rewrite (zload_ok _ _ c) by apply zget_mid. cbn [bind]. pose proof Hn as Hn'. apply nonul_cons in Hn' as [Hc _].
    destruct (Z.eqb_spec c 0); [congruence|]. cbn [orb]. fold (mark c). cbn [uncomment]. destruct (mark c).
    + rewrite zput_mid. exists (t ++ 0 :: b). split; [reflexivity|]. cbn [app]. rewrite !zlen_app, !zlen_cons. reflexivity.
    + apply (cut_comment_ok _ a (c :: t) b Hn). rewrite app_length. cbn [length]. rewrite app_length. lia.
Qed.
Lemma cut_mark_In t x : In x (cut_mark t) -> In x t.
Proof.
  induction t as [|c t IH]; [intros []|]. cbn [cut_mark]. intros [<-|H]; [now left|]. right. destruct t as [|d t]; [destruct H|].
  destruct ((c =? 32) && mark d); [destruct H|]. now apply IH.
Qed.
Lemma uncomment_nonul t : nonul t -> nonul (uncomment t).
Proof.
  intros H Hi. apply H. destruct t as [|c t]; [destruct Hi|]. cbn [uncomment] in Hi. destruct (mark c); [destruct Hi|]. now apply cut_mark_In.
Qed.

(** ** Copies *)
Lemma cstring_ok t b : nonul t -> cstring (t ++ 0 :: b) = Ok t.
Proof.
  induction t as [|c t IH]; intro H; [reflexivity|]. apply nonul_cons in H as [H1 H2]. cbn.
  destruct (Z.eqb_spec c 0); [congruence|]. rewrite IH by exact H2. reflexivity.
Qed.
Lemma upto_nul_ok n : forall t b, nonul t -> upto_nul n (t ++ 0 :: b) = Ok (firstn n t).
Proof.
  induction n as [|n IH]; intros t b H; [reflexivity|]. destruct t as [|c t]; [reflexivity|]. apply nonul_cons in H as [H1 H2]. cbn.
  destruct (Z.eqb_spec c 0); [congruence|]. rewrite IH by exact H2. reflexivity.
Qed.
(** The arrays section and key: a string of at most 255 characters. *)
Definition arr (m t : list Z) : Prop := zlen m = 256 /\ zlen t <= 255 /\ nonul t /\ exists b, m = t ++ 0 :: b /\ zget m 255 = Some 0.
Lemma nonul_firstn n t : nonul t -> nonul (firstn n t).
Proof. intros H Hi. apply H. rewrite <- (firstn_skipn n t). apply in_app_iff. now left. Qed.
Lemma strncpy_ok dst t0 t b : arr dst t0 -> nonul t -> exists dst', strncpy dst (t ++ 0 :: b) 255 = Ok dst' /\ arr dst' (firstn 255 t).
Proof.
  intros (Hl & _ & _ & b0 & _ & H255) Hn. unfold strncpy. change (Z.to_nat 255) with 255%nat. rewrite upto_nul_ok by exact Hn. cbn [bind].
  replace (255 <=? zlen dst) with true by lia. eexists. split; [reflexivity|].
  assert (Es : skipn 255 dst = [0]).
  { assert (L : length (skipn 255 dst) = 1%nat) by (rewrite skipn_length; unfold zlen in Hl; lia).
    destruct (skipn 255 dst) as [|z [|]] eqn:E; try discriminate L. f_equal.
    assert (zget (skipn 255 dst) 0 = Some 0) as H by (rewrite zget_skipn by lia; exact H255). rewrite E in H. now injection H. }
  rewrite Es. set (s := firstn 255 t). assert (Ls : (length s <= 255)%nat) by (unfold s; rewrite firstn_length; lia).
  split; [rewrite !zlen_app, zlen_repeat; unfold zlen; cbn [length]; lia|]. split; [unfold zlen; lia|].
  split; [now apply nonul_firstn|].
  exists (repeat 0 (255 - length s)). split.
  - f_equal. clear. induction (255 - length s)%nat as [|k IH]; [reflexivity|]. cbn. now rewrite IH.
  - rewrite app_assoc. rewrite zget_app2 by (rewrite zlen_app, zlen_repeat; unfold zlen; lia).
    replace (255 - zlen (s ++ repeat 0 (255 - length s))) with 0 by (rewrite zlen_app, zlen_repeat; unfold zlen; lia). reflexivity.
Qed.
Lemma arr_start : arr (repeat 0 256) [].
Proof. split; [reflexivity|]. split; [vm_compute; discriminate|]. split; [intros []|]. exists (repeat 0 255). split; reflexivity. Qed.
Lemma arr_head m t : arr m t -> exists c, zget m 0 = Some c /\ (c =? 0) = match t with [] => true | _ => false end.
Proof.
  intros (_ & _ & Hn & b & -> & _). destruct t as [|c t]; [exists 0; split; reflexivity|]. exists c. split; [reflexivity|].
  apply nonul_cons in Hn as [Hc _]. lia.
Qed.
Lemma arr_clear m t : arr m t -> exists m', zput m 0 0 = Ok m' /\ arr m' [].
Proof.
  intros (Hl & Ht & Hn & b & E & H255). rewrite zput_ok by lia. eexists. split; [reflexivity|].
  split; [now rewrite zlen_zset|]. split; [vm_compute; discriminate|]. split; [intros []|]. destruct m as [|x m]; [discriminate Hl|].
  exists m. split; [reflexivity|]. rewrite zget_zset_neq by lia. exact H255.
Qed.
Lemma arr_cstring m t : arr m t -> cstring m = Ok t.
Proof. intros (_ & _ & Hn & b & -> & _). now apply cstring_ok. Qed.

(** ** One line *)
Definition st_ok (s : ini) (sec key : list Z) : Prop := zlen (ibuf s) = 1024 /\ arr (isec s) sec /\ arr (ikey s) key.
Definition inkey (key : list Z) : bool := match key with [] => false | _ => true end.
Definition line_result (a : after) (line : Z) (sec key : list Z) (e : event) : Prop :=
  match e with
  | Nothing => exists s, a = Go s /\ st_ok s sec key
  | Section n => exists s, a = Go s /\ st_ok s (firstn 255 n) []
  | Item k v => exists s, a = Call s (line, sec, k, v) /\ st_ok s sec (firstn 255 k)
  | More v => exists s, a = Call s (line, sec, key, v) /\ st_ok s sec key
  | Error => a = Bad
  end.
Lemma skip_bom raw b n : nonul raw -> exists a t, raw ++ 0 :: b = a ++ t ++ 0 :: b /\ nonul t /\
  (if n =? 1 then trim_bom (raw ++ 0 :: b) 0 else Ok 0) = Ok (zlen a) /\
  t = (if (n =? 1) && starts_bom raw then skipn 3 raw else raw) /\ (n <> 1 -> a = []).
Proof.
  intro Hn. destruct (n =? 1) eqn:E1; [|exists [], raw; split; [reflexivity|]; split; [exact Hn|]; repeat split].
  assert (Hnb : starts_bom raw = false -> exists a t, raw ++ 0 :: b = a ++ t ++ 0 :: b /\ nonul t /\
    Ok 0 = Ok (zlen a) /\ t = (if true && starts_bom raw then skipn 3 raw else raw) /\ (n <> 1 -> a = [])).
  { intro H. exists [], raw. rewrite H. split; [reflexivity|]. split; [exact Hn|]. repeat split. }
  unfold trim_bom. change (from (raw ++ 0 :: b) 0) with (from ([] ++ raw ++ 0 :: b) (zlen (@nil Z))). rewrite from_app_len. cbn [bind].
  rewrite strlen_ok by exact Hn. cbn [bind]. destruct (Z.leb_spec 3 (zlen raw)) as [H3|H3].
  - destruct raw as [|x [|y [|z r]]]; try discriminate H3; [vm_compute in H3; congruence..|]. cbn [app].
    rewrite (zload_ok _ _ x) by reflexivity. cbn [bind]. rewrite (zload_ok _ _ y) by reflexivity. cbn [bind]. rewrite (zload_ok _ _ z) by reflexivity. cbn [bind].
    destruct ((x =? 239) && (y =? 187) && (z =? 191)) eqn:E.
    + assert (x = 239 /\ y = 187 /\ z = 191) as (-> & -> & ->) by lia. exists [239; 187; 191], r. split; [reflexivity|].
      split; [do 3 (apply nonul_cons in Hn as [_ Hn]); exact Hn|]. split; [reflexivity|]. split; [reflexivity|]. intro H. lia.
    + apply Hnb. destruct (starts_bom (x :: y :: z :: r)) eqn:Eb; [|reflexivity]. exfalso. clear - E Eb.
      unfold starts_bom in Eb.
      destruct (Z.eqb_spec x 239) as [->|N]; [|destruct x as [|p|p]; try discriminate; do 8 (destruct p; try discriminate); congruence].
      destruct (Z.eqb_spec y 187) as [->|N]; [|destruct y as [|p|p]; try discriminate; do 8 (destruct p; try discriminate); congruence].
      destruct (Z.eqb_spec z 191) as [->|N]; [discriminate|destruct z as [|p|p]; try discriminate; do 8 (destruct p; try discriminate); congruence].
  - apply Hnb. destruct raw as [|x [|y [|z r]]]; cbn;
      try (repeat match goal with |- context [match ?v with _ => _ end] => destruct v end; reflexivity).
    rewrite !zlen_cons in H3. pose proof (zlen_nonneg r). lia.
Qed.
Lemma strcspn_none set t b : ~ In 0 set -> nonul t -> (forall x, In x t -> one_of set x = false) -> strcspn (t ++ 0 :: b) set = Ok (zlen t).
Proof.
  intros H0. induction t as [|c t IH]; intros Hn Hx; [reflexivity|]. apply nonul_cons in Hn as [H1 H2]. cbn [app strcspn].
  rewrite (Hx c) by now left. destruct (Z.eqb_spec c 0); [congruence|]. cbn [orb]. rewrite IH; [|exact H2|intros x Hi; apply Hx; now right].
  cbn [bind]. rewrite zlen_cons. f_equal; lia.
Qed.
Lemma strcspn_some set t c b : nonul t -> (forall x, In x t -> one_of set x = false) -> one_of set c = true -> strcspn (t ++ c :: b) set = Ok (zlen t).
Proof.
  intros Hn Hx Hc. induction t as [|d t IH]; cbn [app strcspn]; [rewrite Hc, orb_true_r; reflexivity|].
  apply nonul_cons in Hn as [H1 H2]. rewrite (Hx d) by now left. destruct (Z.eqb_spec d 0); [congruence|]. cbn [orb].
  rewrite IH; [|exact H2|intros x Hi; apply Hx; now right]. cbn [bind]. rewrite zlen_cons. f_equal; lia.
Qed.
Lemma delim_one_of x : one_of [61; 58] x = (x =? 61) || (x =? 58).
Proof. cbn. now rewrite orb_false_r. Qed.
Lemma strpbrk_none t b : nonul t -> split_first (fun x => (x =? 61) || (x =? 58)) t = None -> strpbrk (t ++ 0 :: b) = Ok None.
Proof.
  intros Hn H. unfold strpbrk. rewrite strcspn_none; [|cbn; lia|exact Hn|intros x Hx; rewrite delim_one_of; now apply (split_first_none _ _ H)].
  cbn [bind]. rewrite (zload_ok _ _ 0) by apply zget_mid. reflexivity.
Qed.
Lemma strpbrk_some k c b : nonul (k ++ [c]) -> (forall x, In x k -> (x =? 61) || (x =? 58) = false) -> (c =? 61) || (c =? 58) = true ->
  strpbrk (k ++ c :: b) = Ok (Some (zlen k)).
Proof.
  intros Hn Hk Hc. apply nonul_app in Hn as [Hn1 Hn2]. apply nonul_cons in Hn2 as [Hc0 _]. unfold strpbrk.
  rewrite strcspn_some; [|exact Hn1|intros x Hx; rewrite delim_one_of; now apply Hk|now rewrite delim_one_of].
  cbn [bind]. rewrite (zload_ok _ _ c) by apply zget_mid. cbn [bind]. destruct (Z.eqb_spec c 0); [congruence|reflexivity].
Qed.
Lemma ltrim_id l : (forall c r, l = c :: r -> isspace c = false) -> ltrim l = l.
Proof. destruct l as [|c l]; intro H; [reflexivity|]. cbn. now rewrite (H c l eq_refl). Qed.

Lemma ini_line_ok s line sec key raw b : ibuf s = raw ++ 0 :: b -> nonul raw -> st_ok s sec key -> (line = 1 -> key = []) ->
  exists a, ini_line false s line = Ok a /\ line_result a line sec key (meaning line raw (inkey key)).
Proof.
  intros Eb Hn (Hl & Hsec & Hkey) H1. unfold ini_line, meaning. rewrite Eb in *.
  destruct (skip_bom raw b line Hn) as (a & t0 & E0 & Hn0 & -> & Et & Ha). cbn [bind]. rewrite <- Et. rewrite E0 in *. clear Et.
  destruct (trim_comment_ok a t0 b Hn0) as (b1 & -> & L1). cbn [bind]. rewrite L1 in Hl. clear L1.
  assert (Hnu : nonul (uncomment t0)) by now apply uncomment_nonul. set (u := uncomment t0) in *.
  destruct (trim_space_ok false a u b1 Hnu ltac:(discriminate)) as (lead & trail & Eu & Fl & Ft & Htr & ->). cbn [bind].
  set (b2 := tl (trail ++ [0]) ++ b1).
  assert (Hl2 : zlen (a ++ lead ++ trim u ++ 0 :: b2) = 1024).
  { assert (Lu : zlen u = zlen lead + zlen (trim u) + zlen trail) by (rewrite Eu at 1; rewrite !zlen_app; lia).
    rewrite <- Hl. unfold b2. rewrite !zlen_app, !zlen_cons, !zlen_app.
    destruct trail as [|x trail]; cbn [app tl]; [rewrite !zlen_nil in *; lia|]. rewrite zlen_app. rewrite zlen_cons in Lu. change (zlen [0]) with 1. lia. }
  assert (Hnt : nonul (trim u)) by (rewrite Eu in Hnu; now apply nonul_sub in Hnu).
  set (p := zlen a + zlen lead). assert (Ep : p = zlen (a ++ lead)) by (unfold p; now rewrite zlen_app).
  set (m := a ++ lead ++ trim u ++ 0 :: b2) in *. assert (Em : m = (a ++ lead) ++ trim u ++ 0 :: b2) by (unfold m; now rewrite <- app_assoc).
  clearbody b2 p. clear b1 Hl.
  destruct (trim u) as [|c r] eqn:Etr.
  { rewrite (zload_ok _ _ 0). 2:{ rewrite Em, Ep. apply zget_mid. } cbn [bind Z.eqb]. eexists. split; [reflexivity|].
    cbn [line_result]. eexists. split; [reflexivity|]. split; [exact Hl2|]. split; assumption. }
  assert (Hc0 : c <> 0) by (now apply nonul_cons in Hnt as [? _]).
  rewrite (zload_ok _ _ c). 2:{ rewrite Em, Ep. apply zget_mid. } cbn [bind]. destruct (Z.eqb_spec c 0); [congruence|].
  destruct (arr_head _ _ Hkey) as (k0 & Hk0 & Ek0). rewrite (zload_ok _ _ _ Hk0). cbn [bind].
  rewrite (arr_cstring _ _ Hsec). cbn [bind].
  assert (Hc : isspace c = false).
  { assert (Hlt : exists q, ltrim u = c :: r ++ q).
    { destruct (rtrim_split (ltrim u)) as (q & Eq & _). fold (trim u) in Eq. rewrite Etr in Eq. exists q. exact Eq. }
    destruct Hlt as [q Hq]. destruct (ltrim_split u) as (_ & _ & _ & N). apply (N c (r ++ q) Hq). }
  assert (Econd : (0 <? p) && negb (k0 =? 0) = match u with d :: _ => isspace d | [] => false end && inkey key).
  { rewrite Ek0. destruct key as [|kc key]; cbn [inkey negb]; [now rewrite !andb_false_r|]. rewrite !andb_true_r.
    assert (a = []) as -> by (apply Ha; intro H; specialize (H1 H); discriminate). rewrite Ep. cbn [app].
    destruct lead as [|d lead].
    - cbn [app] in Eu. rewrite Eu. rewrite zlen_nil. cbn. symmetry. exact Hc.
    - rewrite Eu. cbn [app]. rewrite zlen_cons. pose proof (zlen_nonneg lead). inversion Fl; subst. lia. }
  rewrite Econd. destruct (match u with d :: _ => isspace d | [] => false end && inkey key).
  { rewrite Em, Ep, from_app_len. cbn [bind]. rewrite cstring_ok by exact Hnt. cbn [bind]. rewrite (arr_cstring _ _ Hkey). cbn [bind].
    eexists. split; [reflexivity|]. cbn [line_result]. eexists. split; [reflexivity|]. split; [cbn [ibuf]; now rewrite <- Em|]. split; assumption. }
  rewrite Em, Ep, from_app_len. cbn [bind]. destruct (Z.eqb_spec c 91) as [->|Hc91].
  - destruct (split_first (Z.eqb 93) r) as [[name rest]|] eqn:Es.
    + destruct (split_first_some _ _ _ _ Es) as (d & -> & Hd & Hx). assert (d = 93) by lia. subst d.
      replace ((91 :: name ++ 93 :: rest) ++ 0 :: b2) with ((91 :: name) ++ 93 :: rest ++ 0 :: b2) by (cbn; rewrite <- app_assoc; reflexivity).
      assert (Hnn : nonul (91 :: name)).
      { change (91 :: name ++ 93 :: rest) with ((91 :: name) ++ 93 :: rest) in Hnt. apply nonul_app in Hnt. tauto. }
      rewrite strchr_some; [|exact Hnn|]. 2:{ intros [H|H]; [discriminate|]. specialize (Hx 93 H). lia. }
      cbn [bind]. destruct (arr_clear _ _ Hkey) as (key' & -> & Hkey'). cbn [bind].
      rewrite <- zlen_app. rewrite app_assoc, zput_mid. cbn [bind].
      replace (((a ++ lead) ++ 91 :: name) ++ 0 :: rest ++ 0 :: b2) with (((a ++ lead) ++ [91]) ++ name ++ 0 :: rest ++ 0 :: b2) by (rewrite <- !app_assoc; reflexivity).
      replace (zlen (a ++ lead) + 1) with (zlen ((a ++ lead) ++ [91])) by (rewrite (zlen_app (a ++ lead)); reflexivity).
      rewrite from_app_len. cbn [bind]. apply nonul_cons in Hnn as [_ Hnn].
      destruct (strncpy_ok _ _ name (rest ++ 0 :: b2) Hsec Hnn) as (sec' & -> & Hsec'). cbn [bind].
      eexists. split; [reflexivity|]. cbn [line_result]. eexists. split; [reflexivity|]. split; [|split; assumption].
      cbn [ibuf]. rewrite <- Hl2, Em. rewrite !zlen_app, !zlen_cons, !zlen_app, !zlen_cons. rewrite zlen_nil. lia.
    + rewrite strchr_none; [|lia|exact Hnt|]. 2:{ intros [H|H]; [discriminate|]. pose proof (split_first_none _ _ Es 93 H). lia. }
      cbn [bind]. eexists. split; [reflexivity|]. reflexivity.
  - destruct (split_first (fun x => (x =? 61) || (x =? 58)) (c :: r)) as [[k v]|] eqn:Es.
    + destruct (split_first_some _ _ _ _ Es) as (d & Ekv & Hd & Hx). rewrite Ekv in Hnt |- *.
      replace ((k ++ d :: v) ++ 0 :: b2) with (k ++ d :: v ++ 0 :: b2) by (rewrite <- app_assoc; reflexivity).
      assert (Hnk : nonul k /\ d <> 0 /\ nonul v) by (rewrite nonul_app, nonul_cons in Hnt; tauto). destruct Hnk as (Hnk & Hd0 & Hnv).
      rewrite strpbrk_some; [|apply nonul_app; split; [exact Hnk|apply nonul_cons; split; [exact Hd0|intros []]]|exact Hx|exact Hd].
      cbn [bind]. rewrite <- zlen_app, app_assoc, zput_mid. cbn [bind]. rewrite <- app_assoc.
      assert (Hkl : forall c' r', k = c' :: r' -> isspace c' = false).
      { intros c' r' ->. cbn in Ekv. injection Ekv as <- _. exact Hc. }
      destruct (trim_space_ok false (a ++ lead) k (v ++ 0 :: b2) Hnk ltac:(discriminate)) as (lk & tk & Ek & Flk & Ftk & _ & ->). cbn [bind].
      assert (Elk : lk = [] \/ trim k = []).
      { destruct lk as [|x lk]; [now left|]. exfalso. cbn in Ek. specialize (Hkl _ _ Ek). inversion Flk. congruence. }
      assert (lk = []).
      { destruct lk as [|x lk]; [reflexivity|]. exfalso. cbn in Ek. specialize (Hkl _ _ Ek). inversion Flk. congruence. }
      subst lk. clear Elk. cbn [app] in *.
      assert (Ert : rtrim k = trim k) by (unfold trim; now rewrite ltrim_id).
      assert (Hntk : nonul (trim k)) by (rewrite Ek in Hnk; apply nonul_app in Hnk; tauto).
      rewrite from_app_len. cbn [bind].
      destruct (strncpy_ok _ _ (trim k) (tl (tk ++ [0]) ++ v ++ 0 :: b2) Hkey Hntk) as (key' & -> & Hkey'). cbn [bind].
      set (z := trim k ++ 0 :: tl (tk ++ [0])).
      assert (Lz : zlen z = zlen k + 1).
      { assert (Lk : zlen k = zlen (trim k) + zlen tk) by (rewrite Ek at 1; rewrite !zlen_app; lia).
        unfold z. rewrite !zlen_app, zlen_cons. destruct tk as [|x tk]; cbn [app tl]; [rewrite !zlen_nil in *; lia|]. rewrite zlen_app. rewrite zlen_cons in Lk. change (zlen [0]) with 1. lia. }
      replace ((a ++ lead) ++ trim k ++ 0 :: tl (tk ++ [0]) ++ v ++ 0 :: b2) with (((a ++ lead) ++ z) ++ v ++ 0 :: b2) by (unfold z; rewrite <- !app_assoc; reflexivity).
      replace (zlen ((a ++ lead) ++ k) + 1) with (zlen ((a ++ lead) ++ z)) by (rewrite (zlen_app (a ++ lead) z), (zlen_app (a ++ lead) k); lia).
      destruct (trim_space_ok false ((a ++ lead) ++ z) v b2 Hnv ltac:(discriminate)) as (lv & tv & Ev & Flv & Ftv & _ & ->). cbn [bind].
      assert (Hntv : nonul (trim v)) by (rewrite Ev in Hnv; now apply nonul_sub in Hnv).
      set (b3 := tl (tv ++ [0]) ++ b2).
      assert (L3 : zlen (lv ++ trim v ++ 0 :: b3) = zlen v + 1 + zlen b2).
      { assert (Lv : zlen v = zlen lv + zlen (trim v) + zlen tv) by (rewrite Ev at 1; rewrite !zlen_app; lia).
        unfold b3. rewrite !zlen_app, zlen_cons, !zlen_app. destruct tv as [|x tv]; cbn [app tl]; [rewrite !zlen_nil in *; lia|]. rewrite zlen_app. rewrite zlen_cons in Lv. change (zlen [0]) with 1. lia. }
      rewrite <- (app_assoc (a ++ lead) z), from_app_len. cbn [bind]. unfold z at 1. rewrite <- app_assoc. cbn [app].
      rewrite cstring_ok by exact Hntk. cbn [bind].
      replace ((a ++ lead) ++ z ++ lv ++ trim v ++ 0 :: b3) with ((((a ++ lead) ++ z) ++ lv) ++ trim v ++ 0 :: b3) by (rewrite <- !app_assoc; reflexivity).
      rewrite <- (zlen_app ((a ++ lead) ++ z)), from_app_len. cbn [bind]. rewrite cstring_ok by exact Hntv. cbn [bind].
      rewrite Ert. eexists. split; [reflexivity|]. cbn [line_result]. eexists. split; [reflexivity|]. split; [|split; assumption].
      assert (Lm : zlen (a ++ lead) + zlen k + 1 + zlen v + 1 + zlen b2 = 1024).
      { rewrite <- Hl2, Em. change (c :: r ++ 0 :: b2) with ((c :: r) ++ 0 :: b2). rewrite Ekv. rewrite (zlen_app (a ++ lead)), (zlen_app (k ++ d :: v)), (zlen_app k), !zlen_cons. lia. }
      cbn [ibuf]. replace ((((a ++ lead) ++ z) ++ lv) ++ trim v ++ 0 :: b3) with ((a ++ lead) ++ z ++ lv ++ trim v ++ 0 :: b3) by (rewrite <- !app_assoc; reflexivity).
      rewrite (zlen_app (a ++ lead)), (zlen_app z), L3, Lz. lia.
    + rewrite strpbrk_none by assumption. cbn [bind]. eexists. split; [reflexivity|]. reflexivity.
Qed.

(** ** The loop *)
Inductive feeds {S} (next : source S) : S -> list (list Z) -> Prop :=
| Feeds_nil src : (forall buf, zlen buf = 1024 -> next src buf = Ok None) -> feeds next src []
| Feeds_cons src src' raw lines :
    nonul raw ->
    (forall buf, zlen buf = 1024 -> exists b, next src buf = Ok (Some (src', raw ++ 0 :: b)) /\ zlen (raw ++ 0 :: b) = 1024) ->
    feeds next src' lines -> feeds next src (raw :: lines).
Fixpoint run (cb : list item -> item -> Z) (os : list outcome) (line : Z) (calls : list item) : list item * Z :=
  match os with
  | [] => (calls, 0)
  | Quiet :: os => run cb os (line + 1) calls
  | Wrong :: _ => (calls, line + 1)
  | Report i :: os => if cb calls i =? 0 then run cb os (line + 1) (calls ++ [i]) else (calls ++ [i], line + 1)
  end.
Lemma loop_ok {S} (next : source S) cb src lines : feeds next src lines -> forall fuel s sec key line calls,
  st_ok s sec key -> (line = 0 -> key = []) -> 0 <= line -> line + zlen lines < 2^31 -> (length lines < fuel)%nat ->
  ini_loop false next cb fuel src s line calls = Ok (run cb (outcomes line sec key lines) line calls).
Proof.
  induction 1 as [src H|src src' raw lines Hn Hnext Hf IH]; intros fuel s sec key line calls Hs H0 Hl Hmax Hfuel;
    (destruct fuel as [|fuel]; [cbn in Hfuel; lia|]); cbn [ini_loop].
  - rewrite H by apply Hs. reflexivity.
  - destruct Hs as (Hb & Hsec & Hkey). destruct (Hnext (ibuf s) Hb) as (b & -> & Lb). cbn [bind].
    rewrite zlen_cons in Hmax. pose proof (zlen_nonneg lines). cbn [length] in Hfuel. cbv zeta. destruct (Z.leb_spec (2^31) (line + 1)); [lia|].
    destruct (ini_line_ok (mk_ini (raw ++ 0 :: b) (isec s) (ikey s)) (line + 1) sec key raw b eq_refl Hn) as (a & -> & Ha);
      [split; [exact Lb|split; assumption]|intro; apply H0; lia|]. cbn [bind outcomes]. fold (inkey key) in *. destruct (meaning (line + 1) raw (inkey key)); cbn [line_result] in Ha.
    + destruct Ha as (s' & -> & Hs'). rewrite (IH fuel s' sec key) by (auto; lia). reflexivity.
    + destruct Ha as (s' & -> & Hs'). rewrite (IH fuel s' (firstn 255 name) []) by (auto; lia). reflexivity.
    + destruct Ha as (s' & -> & Hs'). cbn [run]. destruct (cb calls (line + 1, sec, key0, value) =? 0); [|reflexivity]. apply IH; auto; lia.
    + destruct Ha as (s' & -> & Hs'). cbn [run]. destruct (cb calls (line + 1, sec, key, value) =? 0); [|reflexivity]. apply IH; auto; lia.
    + subst a. reflexivity.
Qed.
Lemma reports_app a b : reports (a ++ b) = reports a ++ reports b.
Proof. apply flat_map_app. Qed.
Lemma run_parsed cb rest : forall pre, (forall n, (n < length pre)%nat -> accepted cb (pre ++ rest) n) ->
  parsed cb (pre ++ rest) (fst (run cb rest (zlen pre) (reports pre))) (snd (run cb rest (zlen pre) (reports pre))).
Proof.
  induction rest as [|o rest IH]; intros pre H.
  - left. cbn. rewrite app_nil_r in *. auto.
  - assert (Hnth : nth_error (pre ++ o :: rest) (length pre) = Some o) by (rewrite nth_error_app2, Nat.sub_diag by lia; reflexivity).
    assert (Hfn : firstn (length pre) (pre ++ o :: rest) = pre) by (rewrite firstn_app, Nat.sub_diag, firstn_all; cbn; apply app_nil_r).
    assert (HfS : firstn (S (length pre)) (pre ++ o :: rest) = pre ++ [o]).
    { rewrite firstn_app. replace (S (length pre) - length pre)%nat with 1%nat by lia. rewrite firstn_all2 by lia. reflexivity. }
    assert (Hgo : accepted cb (pre ++ o :: rest) (length pre) ->
      parsed cb (pre ++ o :: rest) (fst (run cb rest (zlen (pre ++ [o])) (reports (pre ++ [o])))) (snd (run cb rest (zlen (pre ++ [o])) (reports (pre ++ [o]))))).
    { intro Hacc. replace (pre ++ o :: rest) with ((pre ++ [o]) ++ rest) in * by (rewrite <- app_assoc; reflexivity).
      apply IH. intros n Hn. rewrite app_length in Hn. cbn in Hn. destruct (Nat.eq_dec n (length pre)) as [->|]; [exact Hacc|apply H; lia]. }
    assert (Hstop : ~ accepted cb (pre ++ o :: rest) (length pre) -> parsed cb (pre ++ o :: rest) (reports (pre ++ [o])) (zlen pre + 1)).
    { intro Hno. right. exists (length pre). split; [rewrite app_length; cbn; lia|]. split; [reflexivity|]. rewrite HfS. split; [reflexivity|]. split; [exact H|exact Hno]. }
    unfold accepted in Hgo at 1, Hstop at 1. rewrite Hnth, Hfn in Hgo, Hstop. rewrite reports_app in Hgo, Hstop. rewrite zlen_app in Hgo. change (zlen [o]) with 1 in Hgo.
    destruct o as [|i|]; cbn [run reports flat_map app] in *.
    + rewrite app_nil_r in Hgo. apply Hgo. exact I.
    + destruct (Z.eqb_spec (cb (reports pre) i) 0); [now apply Hgo|now apply Hstop].
    + rewrite app_nil_r in Hstop. cbn [fst snd]. apply Hstop. tauto.
Qed.

(** ** Sources *)
Lemma split_lines_nonnil l : split_lines l <> [].
Proof. destruct l as [|c l]; cbn; [discriminate|]. destruct (c =? 10); [discriminate|]. destruct (split_lines l); discriminate. Qed.
Lemma split_lines_nl a r : ~ In 10 a -> split_lines (a ++ 10 :: r) = a :: split_lines r.
Proof.
  induction a as [|c a IH]; intro H; [reflexivity|]. cbn in *. rewrite IH by tauto. destruct (Z.eqb_spec c 10); [tauto|reflexivity].
Qed.
Lemma split_lines_one a : ~ In 10 a -> split_lines a = [a].
Proof.
  induction a as [|c a IH]; intro H; [reflexivity|]. cbn in *. rewrite IH by tauto. destruct (Z.eqb_spec c 10); [tauto|reflexivity].
Qed.
Lemma string_lines_nl a r : ~ In 10 a -> string_lines (a ++ 10 :: r) = firstn 1023 a :: string_lines r.
Proof.
  intro H. unfold string_lines. rewrite split_lines_nl by exact H. cbn [rev].
  pose proof (split_lines_nonnil r). destruct (rev (split_lines r)) as [|x y] eqn:E.
  - exfalso. apply H0. rewrite <- (rev_involutive (split_lines r)), E. reflexivity.
  - cbn [app]. destruct x as [|c x].
    + rewrite rev_app_distr. reflexivity.
    + change (((c :: x) :: y ++ [a])) with (((c :: x) :: y) ++ [a]). rewrite rev_app_distr. reflexivity.
Qed.
Lemma string_lines_one a : ~ In 10 a -> a <> [] -> string_lines a = [firstn 1023 a].
Proof. intros H Ha. unfold string_lines. rewrite split_lines_one by exact H. cbn. destruct a; [congruence|reflexivity]. Qed.
Lemma zload_at (a : list Z) c b : zload (a ++ c :: b) (zlen a) = Ok c.
Proof. apply zload_ok, zget_mid. Qed.
Lemma fill_line (a : list Z) buf rest : nonul a -> zlen buf = 1024 -> let len := if zlen a <? 1023 then zlen a else 1023 in
  exists b, (let* xs := bytes_at (a ++ rest) 0 len in let* buf := memcpy buf 0 xs in zput buf len 0) = Ok (firstn 1023 a ++ 0 :: b) /\ zlen (firstn 1023 a ++ 0 :: b) = 1024.
Proof.
  intros Hn Hb len. pose proof (zlen_nonneg a). pose proof (zlen_nonneg rest).
  assert (Hlen : len = zlen (firstn 1023 a)) by (rewrite zlen_firstn; unfold len; destruct (Z.ltb_spec (zlen a) 1023); lia).
  assert (Ebytes : bytes_at (a ++ rest) 0 len = Ok (firstn 1023 a)).
  { rewrite Hlen. replace (a ++ rest) with ([] ++ firstn 1023 a ++ skipn 1023 a ++ rest) by (cbn [app]; rewrite app_assoc, firstn_skipn; reflexivity).
    change 0 with (zlen (@nil Z)) at 1. apply bytes_mid. }
  rewrite Ebytes. cbn [bind]. set (x := firstn 1023 a) in *. assert (zlen x <= 1023) by (unfold x; rewrite zlen_firstn; lia).
  pose proof (zlen_nonneg x).
  assert (E : exists y z, buf = y ++ z /\ zlen y = zlen x).
  { exists (firstn (length x) buf), (skipn (length x) buf). split; [now rewrite firstn_skipn|]. rewrite zlen_firstn. unfold zlen in *. lia. }
  destruct E as (y & z & -> & Ly). change (memcpy (y ++ z) 0 x) with (memcpy ([] ++ y ++ z) (zlen (@nil Z)) x). rewrite memcpy_mid by lia. cbn [bind app].
  rewrite zlen_app in Hb. destruct z as [|z0 z]; [rewrite zlen_nil in Hb; lia|]. rewrite Hlen, zput_mid. exists z. split; [reflexivity|].
  rewrite zlen_app, zlen_cons in *. lia.
Qed.
Lemma find_newline (t : list Z) : ~ In 10 t \/ exists a r, t = a ++ 10 :: r /\ ~ In 10 a.
Proof.
  destruct (split_first (Z.eqb 10) t) as [[a r]|] eqn:E.
  - right. destruct (split_first_some _ _ _ _ E) as (c & -> & Hc & Ha). assert (c = 10) by lia. subst c. exists a, r. split; [reflexivity|].
    intro Hi. specialize (Ha 10 Hi). lia.
  - left. intro Hi. pose proof (split_first_none _ _ E 10 Hi). lia.
Qed.
Lemma string_feeds tl : forall n text, (length text <= n)%nat -> nonul text ->
  feeds string_line (Some (text ++ 0 :: tl)) (string_lines text) /\ (length (string_lines text) <= length text)%nat.
Proof.
  assert (Hnone : feeds string_line None []) by (constructor; reflexivity).
  induction n as [|n IH]; intros text Hlen Hn.
  - destruct text; [|cbn in Hlen; lia]. split; [|cbn; lia]. constructor. intros buf Hb. reflexivity.
  - destruct text as [|c0 text0]; [split; [|cbn; lia]; constructor; intros buf Hb; reflexivity|].
    set (text := c0 :: text0) in *. assert (Hc0 : c0 <> 0) by (unfold text in Hn; now apply nonul_cons in Hn as [? _]).
    assert (Hload : forall x, zload (text ++ x) 0 = Ok c0) by reflexivity.
    assert (Hne : text <> []) by discriminate. clearbody text. destruct (find_newline text) as [Hi|(a & r & -> & Hi)].
    + rewrite string_lines_one by assumption. split; [|destruct text; [congruence|cbn; lia]]. apply Feeds_cons with (src' := None); [now apply nonul_firstn| |exact Hnone].
      intros buf Hb. unfold string_line. rewrite Hload. cbn [bind]. destruct (Z.eqb_spec c0 0); [congruence|].
      rewrite strchr_none by (auto; lia). cbn [bind]. rewrite strlen_ok by exact Hn. cbn [bind]. cbv zeta.
      destruct (fill_line text buf (0 :: tl) Hn Hb) as (b & E & L).
      destruct (bytes_at (text ++ 0 :: tl) 0 (if zlen text <? 1023 then zlen text else 1023)) as [xs| |]; cbn [bind] in E |- *; try discriminate.
      destruct (memcpy buf 0 xs) as [m1| |]; cbn [bind] in E |- *; try discriminate. rewrite E. cbn [bind]. rewrite zload_at. cbn [bind Z.eqb]. eauto.
    + apply nonul_app in Hn as [Hna Hnr]. apply nonul_cons in Hnr as [_ Hnr]. rewrite string_lines_nl by exact Hi.
      rewrite app_length in Hlen. cbn in Hlen. destruct (IH r ltac:(lia) Hnr) as [IH1 IH2]. split; [|cbn [length]; rewrite app_length; cbn; lia].
      apply Feeds_cons with (src' := Some (r ++ 0 :: tl)); [now apply nonul_firstn| |exact IH1].
      intros buf Hb. unfold string_line. rewrite Hload. cbn [bind]. destruct (Z.eqb_spec c0 0); [congruence|].
      rewrite <- app_assoc. cbn [app]. rewrite strchr_some by assumption. cbn [bind]. cbv zeta.
      destruct (fill_line a buf (10 :: r ++ 0 :: tl) Hna Hb) as (b & E & L).
      destruct (bytes_at (a ++ 10 :: r ++ 0 :: tl) 0 (if zlen a <? 1023 then zlen a else 1023)) as [xs| |]; cbn [bind] in E |- *; try discriminate.
      destruct (memcpy buf 0 xs) as [m1| |]; cbn [bind] in E |- *; try discriminate. rewrite E. cbn [bind]. rewrite zload_at. cbn [bind Z.eqb].
      replace (zlen a + 1) with (zlen (a ++ [10])) by (rewrite zlen_app; reflexivity).
      replace (a ++ 10 :: r ++ 0 :: tl) with ((a ++ [10]) ++ r ++ 0 :: tl) by (rewrite <- app_assoc; reflexivity). rewrite from_app_len. cbn [bind]. eauto.
Qed.
Lemma parse_string_ok cb junk text tl : nonul text -> zlen junk = 1024 -> zlen (string_lines text) < 2^31 ->
  ini_parse_string false cb junk (Some (text ++ 0 :: tl)) = Ok (run cb (outcomes 0 [] [] (string_lines text)) 0 []).
Proof.
  intros Hn Hj Hl. destruct (string_feeds tl (length text) text ltac:(lia) Hn) as [F L]. unfold ini_parse_string.
  apply loop_ok; [exact F|split; [exact Hj|split; exact arr_start]|reflexivity|lia|lia|]. rewrite app_length. lia.
Qed.

(** Files. *)
Lemma fgets_nl n a r : ~ In 10 a -> (length a < n)%nat -> fgets_take n (a ++ 10 :: r) = (a ++ [10], r).
Proof.
  revert a. induction n as [|n IH]; intros a H L; [lia|]. destruct a as [|c a]; [reflexivity|]. cbn in H |- *.
  destruct (Z.eqb_spec c 10); [tauto|]. rewrite IH by (cbn in *; tauto || lia). reflexivity.
Qed.
Lemma fgets_long a r : ~ In 10 a -> fgets_take (length a) (a ++ r) = (a, r).
Proof.
  induction a as [|c a IH]; intro H; [destruct r; reflexivity|]. cbn in H |- *. destruct (Z.eqb_spec c 10); [tauto|]. rewrite IH by tauto. reflexivity.
Qed.
Lemma fgets_last n a : ~ In 10 a -> (length a <= n)%nat -> fgets_take n a = (a, []).
Proof.
  revert a. induction n as [|n IH]; intros a H L; [destruct a; [reflexivity|cbn in L; lia]|]. destruct a as [|c a]; [reflexivity|]. cbn in H |- *.
  destruct (Z.eqb_spec c 10); [tauto|]. rewrite IH by (cbn in *; tauto || lia). reflexivity.
Qed.
Lemma c_text_split l : exists b, l ++ [0] = c_text l ++ 0 :: b /\ nonul (c_text l).
Proof.
  induction l as [|c l (b & E & N)]; [exists []; split; [reflexivity|intros []]|]. cbn. destruct (Z.eqb_spec c 0) as [->|Hc].
  - exists (l ++ [0]). split; [reflexivity|intros []].
  - exists b. rewrite E. split; [reflexivity|]. now apply nonul_cons.
Qed.
Lemma fill_file (a buf : list Z) : zlen a <= 1022 -> zlen buf = 1024 ->
  exists b, memcpy buf 0 (a ++ [0]) = Ok (c_text a ++ 0 :: b) /\ zlen (c_text a ++ 0 :: b) = 1024.
Proof.
  intros Ha Hb. destruct (c_text_split a) as (b & E & _). rewrite memcpy_ok by (rewrite ?zlen_app; change (zlen [0]) with 1; lia).
  change (firstn (Z.to_nat 0) buf) with (@nil Z). cbn [app]. rewrite E, <- app_assoc. cbn [app]. eexists. split; [reflexivity|].
  match goal with |- context [skipn ?k buf] => set (n := k) end.
  replace (c_text a ++ 0 :: b ++ skipn n buf) with ((a ++ [0]) ++ skipn n buf) by (rewrite E, <- app_assoc; reflexivity).
  rewrite zlen_app, zlen_skipn. unfold n. rewrite <- E, zlen_app. change (zlen [0]) with 1. pose proof (zlen_nonneg a). lia.
Qed.
Lemma last_cons_nonnil {A} (l : list A) x : l ++ [x] <> [].
Proof. destruct l; discriminate. Qed.
Lemma file_feeds bad l ls : file_lines bad l ls -> feeds file_line (l, bad) (map c_text ls) /\ (length ls <= length l)%nat.
Proof.
  assert (Hcons : forall a r l' ls', fgets_take 1022 l' = (a, r) -> a <> [] -> zlen a <= 1022 ->
    (length a =? 1022)%nat || match rev a with c :: _ => c =? 10 | [] => false end = true \/ bad = false ->
    feeds file_line (r, bad) ls' -> feeds file_line (l', bad) (c_text a :: ls')).
  { intros a r l' ls' E Ha La Hw F. apply Feeds_cons with (src' := (r, bad)); [destruct (c_text_split a) as (? & _ & N); exact N| |exact F].
    intros buf Hb. unfold file_line. rewrite E.
    replace (negb ((length a =? 1022)%nat || match rev a with c :: _ => c =? 10 | [] => false end) && bad) with false by (destruct Hw as [->| ->]; [reflexivity|now rewrite andb_false_r]).
    destruct (fill_file a buf La Hb) as (b & Eb & Lb). destruct a as [|c a]; [congruence|]. rewrite Eb. cbn [bind]. eauto. }
  induction 1 as [|a r ls Hi La H [IH1 IH2]|a r ls Hi La H [IH1 IH2]|a Hi La].
  - split; [|cbn; lia]. constructor. intros buf Hb. unfold file_line. change (fgets_take 1022 []) with (@nil Z, @nil Z). cbv iota beta.
    destruct (negb _ && bad); reflexivity.
  - split; [|rewrite app_length; cbn; lia]. cbn [map]. apply (Hcons (a ++ [10]) r).
    + apply fgets_nl; [exact Hi|unfold zlen in La; lia].
    + apply last_cons_nonnil.
    + rewrite zlen_app. change (zlen [10]) with 1. lia.
    + left. rewrite rev_app_distr. cbn [rev app]. apply orb_true_r.
    + exact IH1.
  - assert (La' : length a = 1022%nat) by (unfold zlen in La; lia). split; [|rewrite app_length; cbn [length]; lia]. cbn [map]. apply (Hcons a r).
    + rewrite <- La'. now apply fgets_long.
    + intros ->. discriminate La.
    + lia.
    + left. rewrite La'. reflexivity.
    + exact IH1.
  - assert (La' : (0 < length a < 1022)%nat) by (unfold zlen in La; lia). assert (E : fgets_take 1022 a = (a, [])) by (apply fgets_last; [exact Hi|lia]).
    destruct bad.
    + split; [|cbn; lia]. constructor. intros buf Hb. unfold file_line. rewrite E.
      replace ((length a =? 1022)%nat) with false by (symmetry; apply Nat.eqb_neq; lia). cbn [orb].
      destruct (rev a) as [|c t] eqn:Er; [reflexivity|]. assert (c <> 10).
      { intros ->. apply Hi. rewrite in_rev, Er. now left. } destruct (Z.eqb_spec c 10); [congruence|reflexivity].
    + split; [|cbn; lia]. cbn [map]. apply (Hcons a []); [exact E|intros ->; cbn in La'; lia|lia|now right|].
      constructor. intros buf Hb. unfold file_line. change (fgets_take 1022 []) with (@nil Z, @nil Z). cbv iota beta. now rewrite andb_false_r.
Qed.
Lemma file_lines_exist bad : forall n l, (length l <= n)%nat -> exists ls, file_lines bad l ls.
Proof.
  induction n as [|n IH]; intros l Hl.
  - destruct l; [exists []; constructor|cbn in Hl; lia].
  - destruct l as [|c0 l0]; [exists []; constructor|]. set (l := c0 :: l0) in *. assert (Hne : (0 < length l)%nat) by (cbn; lia). clearbody l.
    assert (Hlong : ~ In 10 (firstn 1022 l) -> (1022 <= length l)%nat -> exists ls, file_lines bad l ls).
    { intros Hi L. destruct (IH (skipn 1022 l)) as [ls H]; [rewrite skipn_length; lia|]. exists (firstn 1022 l :: ls).
      rewrite <- (firstn_skipn 1022 l) at 1. constructor; [exact Hi| |exact H]. rewrite zlen_firstn. unfold zlen. lia. }
    destruct (find_newline l) as [Hi|(a & r & -> & Hi)].
    + destruct (Nat.le_gt_cases 1022 (length l)) as [L|L].
      * apply Hlong; [|exact L]. intro Hx. apply Hi. rewrite <- (firstn_skipn 1022 l). apply in_app_iff. now left.
      * eexists. apply FL_last; [exact Hi|unfold zlen; lia].
    + destruct (Nat.le_gt_cases 1022 (length a)) as [L|L].
      * apply Hlong; [|rewrite app_length; lia]. rewrite firstn_app. replace (1022 - length a)%nat with 0%nat by lia. cbn [firstn]. rewrite app_nil_r.
        intro Hx. apply Hi. rewrite <- (firstn_skipn 1022 a). apply in_app_iff. now left.
      * rewrite app_length in Hl. cbn in Hl. destruct (IH r) as [ls H]; [lia|]. eexists. apply FL_line; [exact Hi|unfold zlen; lia|exact H].
Qed.
Lemma parse_file_ok cb junk l bad ls : zlen junk = 1024 -> file_lines bad l ls -> zlen ls < 2^31 ->
  let r := run cb (outcomes 0 [] [] (map c_text ls)) 0 [] in
  ini_parse_file false cb junk (Some (l, bad)) = Ok (fst r, if snd r =? 0 then if bad then -1 else 0 else snd r).
Proof.
  intros Hj H Hl r. destruct (file_feeds bad l ls H) as [F L]. unfold ini_parse_file.
  assert (E : ini_loop false file_line cb (S (length (fst (l, bad)))) (l, bad) (ini_start junk) 0 [] = Ok r).
  { apply loop_ok; [exact F|split; [exact Hj|split; exact arr_start]|reflexivity|lia|rewrite zlen_map; lia|]. rewrite map_length. cbn [fst]. lia. }
  rewrite E. cbn [bind]. destruct r as [calls rc]. cbn [fst snd]. destruct (rc =? 0); reflexivity.
Qed.
