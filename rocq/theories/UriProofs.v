(** Proofs for the URI parser. *)
From Verif Require Import Base CStr CNum StrSpec StrProofs IniModel IniProofs ScModel ScProofs UriModel UriSpec.
From Coq Require Import ZifyBool.

(** ** Cutting lists *)
Lemma until_ok p l : exists a b, until p l = (a, b) /\ l = a ++ b /\ (forall x, In x a -> p x = false) /\ (forall c r, b = c :: r -> p c = true).
Proof.
  induction l as [|c l (a & b & E & -> & Ha & Hb)]; [exists [], []; repeat split; [intros x []|discriminate]|].
  cbn [until]. destruct (p c) eqn:Pc.
  - exists [], (c :: a ++ b). repeat split; [intros x []|]. intros ? ? [= <- _]. exact Pc.
  - rewrite E. exists (c :: a), b. repeat split; [|exact Hb]. intros x [<-|Hx]; auto.
Qed.
Lemma until_eq p a b : (forall x, In x a -> p x = false) -> (forall c r, b = c :: r -> p c = true) -> until p (a ++ b) = (a, b).
Proof.
  intros Ha Hb. induction a as [|c a IH]; cbn [app until].
  - destruct b as [|c b]; [reflexivity|]. cbn. now rewrite (Hb c b eq_refl).
  - rewrite (Ha c) by now left. rewrite IH; [reflexivity|]. intros x Hx. apply Ha. now right.
Qed.
Lemma cut_at_some d a b : ~ In d a -> cut_at d (a ++ d :: b) = Some (a, b).
Proof.
  induction a as [|c a IH]; intro H; cbn [app cut_at]; [now rewrite Z.eqb_refl|].
  destruct (Z.eqb_spec c d); [exfalso; apply H; now left|]. rewrite IH; [reflexivity|]. intro; apply H; now right.
Qed.
Lemma cut_at_none d a : ~ In d a -> cut_at d a = None.
Proof.
  induction a as [|c a IH]; intro H; cbn [app cut_at]; [reflexivity|].
  destruct (Z.eqb_spec c d); [exfalso; apply H; now left|]. rewrite IH; [reflexivity|]. intro; apply H; now right.
Qed.
Lemma cut_at_ok d l : (exists a b, cut_at d l = Some (a, b) /\ l = a ++ d :: b /\ ~ In d a) \/ (cut_at d l = None /\ ~ In d l).
Proof.
  induction l as [|c l IH]; [right; split; [reflexivity|intros []]|]. destruct (Z.eq_dec c d) as [->|N].
  - left. exists [], l. cbn. rewrite Z.eqb_refl. repeat split. intros [].
  - destruct IH as [(a & b & E & -> & H)|[E H]]; [left; exists (c :: a), b|right].
    + cbn. rewrite E. destruct (Z.eqb_spec c d); [contradiction|]. repeat split. intros [|]; auto.
    + cbn. rewrite E. destruct (Z.eqb_spec c d); [contradiction|]. split; [reflexivity|]. intros [|]; auto.
Qed.
Lemma span_until p l tl : p 0 = false -> exists a b, until (fun c => negb (p c)) l = (a, b) /\ l = a ++ b /\ span p (l ++ 0 :: tl) = Ok (a, b ++ 0 :: tl).
Proof.
  intro H0. destruct (until_ok (fun c => negb (p c)) l) as (a & b & E & -> & Ha & Hb). exists a, b. split; [exact E|]. split; [reflexivity|].
  rewrite <- app_assoc. assert (Fa : Forall (fun x => p x = true) a) by (apply Forall_forall; intros x Hx; apply Ha in Hx; now apply negb_false_iff in Hx).
  destruct b as [|c b]; cbn [app]; [now apply span_ok|]. apply span_ok; [exact Fa|]. specialize (Hb c b eq_refl). now apply negb_true_iff in Hb.
Qed.
Lemma sign_eq l tl : exists sg r, sign l = (sg, r) /\ l = sg ++ r /\ sign (l ++ 0 :: tl) = (sg, r ++ 0 :: tl).
Proof.
  destruct l as [|c l]; [exists [], []; repeat split|]. cbn [sign app]. destruct ((c =? 43) || (c =? 45)); [exists [c], l|exists [], (c :: l)]; repeat split.
Qed.
Lemma strtoull_cut l tl : exists t r v, number_cut l = (t, r, v) /\ l = t ++ r /\
  strtoull (l ++ 0 :: tl) = Ok (match v with Some v => v | None => UINT64_MAX end, match v with Some _ => false | None => true end, zlen t).
Proof.
  unfold number_cut, strtoull, subject.
  destruct (span_until isspace l tl eq_refl) as (sp & r1 & E1 & L1 & S1). rewrite E1, S1. cbn [bind].
  destruct (sign_eq r1 tl) as (sg & r2 & E2 & L2 & S2). rewrite E2, S2.
  destruct (span_until isdigit r2 tl eq_refl) as (ds & r3 & E3 & L3 & S3). rewrite E3, S3. cbn [bind].
  destruct ds as [|d ds]; [exists [], l, (Some 0); repeat split|]. eexists _, r3, _. split; [reflexivity|]. split; [subst; now rewrite <- !app_assoc|].
  unfold UINT64_MAX. rewrite !zlen_app. destruct (2^64 - 1 <? dec (d :: ds)) eqn:G.
  - replace (dec (d :: ds) <? 2^64) with false by lia. now rewrite Z.add_assoc.
  - replace (dec (d :: ds) <? 2^64) with true by lia. now rewrite Z.add_assoc.
Qed.

(** ** Pieces *)
Definition is_piece (p : piece) (x : list Z) : Prop := exists y t, fst p = x ++ y ++ 0 :: t /\ nonul (x ++ y) /\ snd p = zlen x.
Lemma no_piece_ok : is_piece no_piece [].
Proof. exists [], []. repeat split. intros []. Qed.
Lemma print_any p x : is_piece p x -> exists s, print_s p = Ok s.
Proof.
  intros (y & t & E & N & _). destruct p as [l n]. cbn in *. subst l. rewrite app_assoc.
  destruct (i32 n <? 0); [rewrite cstring_ok by exact N|rewrite upto_nul_ok by exact N]; eauto.
Qed.
Lemma print_ok p x : is_piece p x -> zlen x < 2^31 -> print_s p = Ok x.
Proof.
  intros (y & t & E & N & L) H. destruct p as [l n]. cbn in *. subst l n. rewrite i32_small by (pose proof (zlen_nonneg x); lia).
  pose proof (zlen_nonneg x). replace (zlen x <? 0) with false by lia. rewrite app_assoc, upto_nul_ok by exact N. f_equal.
  unfold zlen. rewrite Nat2Z.id, firstn_app, firstn_all, Nat.sub_diag. cbn. now rewrite app_nil_r.
Qed.
Lemma piece_nonul p x : is_piece p x -> nonul x.
Proof. intros (y & t & _ & N & _). now apply nonul_app in N. Qed.
Lemma piece_len p x : is_piece p x -> snd p = zlen x.
Proof. intros (y & t & _ & _ & L). exact L. Qed.
Lemma undelim_ok p d o : is_piece p (followed d o) -> is_piece (fst p, undelimited (snd p)) (part o).
Proof.
  intros (y & t & E & N & L). destruct o as [x|]; cbn [followed part] in *.
  - exists (d :: y), t. cbn [fst snd]. split; [rewrite E, <- app_assoc; reflexivity|]. split; [now rewrite <- app_assoc in N|].
    rewrite L. unfold undelimited. rewrite zlen_app. change (zlen [d]) with 1. pose proof (zlen_nonneg x). destruct (Z.eqb_spec (zlen x + 1) 0); lia.
  - exists y, t. cbn [fst snd]. rewrite L. repeat split; assumption.
Qed.
Lemma behind_ok p d o : is_piece p (before d o) -> is_piece (behind p) (part o).
Proof.
  intros (y & t & E & N & L). destruct p as [l n]. cbn [fst snd] in *. unfold behind. destruct o as [x|]; cbn [before part] in *.
  - rewrite L, zlen_cons. pose proof (zlen_nonneg x). destruct (Z.eqb_spec (zlen x + 1) 0); [lia|]. exists y, t. cbn [fst snd]. subst l. cbn.
    split; [reflexivity|]. split; [cbn in N; now apply nonul_cons in N|lia].
  - rewrite L. cbn. exists y, t. cbn [fst snd]. repeat split; assumption.
Qed.
Lemma snprintf_any buf len t : 0 <= len <= zlen buf -> exists b ret, snprintf_int buf len t = Ok (b, ret) /\ ret <= 2^31 - 1.
Proof.
  intro H. unfold snprintf_int. destruct (snprintf_ok buf len t H) as (b & -> & _). cbn [bind]. eexists _, _. split; [reflexivity|]. destruct (zlen t <=? 2^31 - 1) eqn:E; lia.
Qed.
Lemma snprintf_fit buf t : zlen t < zlen buf -> zlen t < 2^31 -> snprintf_int buf (zlen t + 1) t = Ok (t ++ [0] ++ skipn (length t + 1) buf, zlen t).
Proof.
  intros H1 H2. unfold snprintf_int. pose proof (zlen_nonneg t). destruct (snprintf_ok buf (zlen t + 1) t ltac:(lia)) as (b & -> & _ & E & _). cbn [bind].
  rewrite E by lia. now replace (zlen t <=? 2^31 - 1) with true by lia.
Qed.
Lemma text_at_mid a t b : text_at (a ++ t ++ 0 :: b) (zlen a) t.
Proof. exists a, b. split; reflexivity. Qed.

(** ** Building the result *)
Lemma zlen_before d o : zlen (before d o) = zlen (part o) + (if zlen (before d o) =? 0 then 0 else 1).
Proof. destruct o as [x|]; cbn [before part]; [|reflexivity]. rewrite zlen_cons. pose proof (zlen_nonneg x). destruct (Z.eqb_spec (zlen x + 1) 0); lia. Qed.
Lemma zlen_followed d o : zlen (followed d o) = zlen (part o) + (if zlen (followed d o) =? 0 then 0 else 1).
Proof. destruct o as [x|]; cbn [followed part]; [|reflexivity]. rewrite zlen_app. change (zlen [d]) with 1. pose proof (zlen_nonneg x). destruct (Z.eqb_spec (zlen x + 1) 0); lia. Qed.
Lemma build_ok p sp up hp pp ap qp fp a : is_piece sp (followed 58 (Some (scheme p))) -> is_piece up (followed 64 (user p)) -> is_piece hp (host p) ->
  is_piece pp (before 58 (port p)) -> is_piece ap (path p) -> is_piece qp (before 63 (query p)) -> is_piece fp (before 35 (fragment p)) ->
  zlen (compose p) < 2^62 ->
  match a with
  | None => uri_build sp (if auth p then 2 else 0) up hp pp ap qp fp a = Ok None
  | Some _ => if fits p then exists u, uri_build sp (if auth p then 2 else 0) up hp pp ap qp fp a = Ok (Some u) /\ shows u p
              else uri_build sp (if auth p then 2 else 0) up hp pp ap qp fp a = Ok None
  end.
Proof.
  intros Hs Hu Hh Hp Ha Hq Hf Hl.
  set (alen := if auth p then 2 else 0). set (sl := if auth p then [47; 47] else []).
  assert (Hal : alen = zlen sl) by (unfold alen, sl; destruct (auth p); reflexivity).
  assert (Hsl : is_piece ([47; 47; 0], alen) sl).
  { unfold alen, sl. destruct (auth p); [exists [], []|exists [47; 47], []]; repeat split; unfold nonul; cbn; lia. }
  assert (Ec : compose p = followed 58 (Some (scheme p)) ++ sl ++ followed 64 (user p) ++ host p ++ before 58 (port p) ++ path p ++ before 63 (query p) ++ before 35 (fragment p)).
  { unfold compose, followed at 2, sl. rewrite <- app_assoc. reflexivity. }
  assert (Lc : zlen (compose p) = zlen (followed 58 (Some (scheme p))) + zlen sl + zlen (followed 64 (user p)) + zlen (host p) + zlen (before 58 (port p)) + zlen (path p) + zlen (before 63 (query p)) + zlen (before 35 (fragment p))).
  { rewrite Ec, !zlen_app. lia. }
  unfold uri_build.
  rewrite (piece_len _ _ Hs), (piece_len _ _ Hu), (piece_len _ _ Hh), (piece_len _ _ Hp), (piece_len _ _ Ha), (piece_len _ _ Hq), (piece_len _ _ Hf).
  pose proof (zlen_followed 58 (Some (scheme p))) as D1. pose proof (zlen_followed 64 (user p)) as D2. pose proof (zlen_before 58 (port p)) as D3.
  pose proof (zlen_before 63 (query p)) as D4. pose proof (zlen_before 35 (fragment p)) as D5.
  set (text2 := part (Some (scheme p)) ++ [0] ++ part (user p) ++ [0] ++ host p ++ [0] ++ part (port p) ++ [0] ++ path p ++ [0] ++ part (query p) ++ [0] ++ part (fragment p) ++ [0]).
  assert (L2 : zlen text2 = zlen (part (Some (scheme p))) + zlen (part (user p)) + zlen (host p) + zlen (part (port p)) + zlen (path p) + zlen (part (query p)) + zlen (part (fragment p)) + 7).
  { unfold text2. rewrite !zlen_app. change (zlen [0]) with 1. lia. }
  assert (Lf : zlen (concat (fields p)) + 7 = zlen text2).
  { rewrite L2. unfold fields. cbn [concat part]. rewrite !zlen_app. change (zlen (@nil Z)) with 0. lia. }
  set (x1 := followed 58 (Some (scheme p))) in *. set (x3 := followed 64 (user p)) in *. set (x5 := before 58 (port p)) in *.
  set (x7 := before 63 (query p)) in *. set (x8 := before 35 (fragment p)) in *.
  pose proof (zlen_nonneg x1) as P1. pose proof (zlen_nonneg sl) as P2. pose proof (zlen_nonneg x3) as P3. pose proof (zlen_nonneg (host p)) as P4.
  pose proof (zlen_nonneg x5) as P5. pose proof (zlen_nonneg (path p)) as P6. pose proof (zlen_nonneg x7) as P7. pose proof (zlen_nonneg x8) as P8.
  assert (Fu : u64 (zlen x1 + alen + zlen x3 + zlen (host p) + zlen x5 + zlen (path p) + zlen x7 + zlen x8 + 1) = zlen (compose p) + 1).
  { rewrite u64_small by lia. lia. }
  cbv zeta. rewrite Fu. clear Fu.
  assert (B2 : zlen text2 <= zlen (compose p) + 7).
  { clear - L2 Lc D1 D2 D3 D4 D5 P2. destruct (zlen x1 =? 0), (zlen x3 =? 0), (zlen x5 =? 0), (zlen x7 =? 0), (zlen x8 =? 0); lia. }
  assert (Fp : u64 (zlen (compose p) + 1 - alen + 7 - (if zlen x1 =? 0 then 0 else 1) - (if zlen x3 =? 0 then 0 else 1) - (if zlen x5 =? 0 then 0 else 1) -
                    (if zlen x7 =? 0 then 0 else 1) - (if zlen x8 =? 0 then 0 else 1)) = zlen text2 + 1).
  { pose proof (zlen_nonneg text2). rewrite u64_small; lia. }
  rewrite Fp. clear Fp.
  pose proof (zlen_nonneg (compose p)) as Pc. pose proof (zlen_nonneg text2) as Pt.
  rewrite u64_small by lia.
  pose proof (malloc_ok (zlen text2 + 1 + (zlen (compose p) + 1)) a ltac:(lia)) as M.
  destruct (malloc (zlen text2 + 1 + (zlen (compose p) + 1)) a) as [buf|]; [|rewrite M; reflexivity].
  destruct M as [Lb Ma]. destruct a as [junk|]; [clear Ma|congruence].
  destruct (zlen (compose p) <? 2^31) eqn:F1.
  2:{ unfold fits. rewrite F1. cbn [andb].
      destruct (print_any _ _ Hs) as [s1 ->]. destruct (print_any _ _ Hsl) as [s2 ->]. destruct (print_any _ _ Hu) as [s3 ->]. destruct (print_any _ _ Hh) as [s4 ->].
      destruct (print_any _ _ Hp) as [s5 ->]. destruct (print_any _ _ Ha) as [s6 ->]. destruct (print_any _ _ Hq) as [s7 ->]. destruct (print_any _ _ Hf) as [s8 ->]. cbn [bind].
      destruct (snprintf_any buf (zlen (compose p) + 1) (s1 ++ s2 ++ s3 ++ s4 ++ s5 ++ s6 ++ s7 ++ s8) ltac:(lia)) as (b & ret & -> & Hret). cbn [bind].
      replace ((ret <? 0) || negb (ret =? zlen (compose p) + 1 - 1)) with true by lia. reflexivity. }
  rewrite (print_ok _ _ Hs), (print_ok _ _ Hsl), (print_ok _ _ Hu), (print_ok _ _ Hh), (print_ok _ _ Hp), (print_ok _ _ Ha), (print_ok _ _ Hq), (print_ok _ _ Hf) by lia.
  cbn [bind]. rewrite <- Ec. rewrite snprintf_fit by lia. cbn [bind].
  replace ((zlen (compose p) <? 0) || negb (zlen (compose p) =? zlen (compose p) + 1 - 1)) with false by lia.
  assert (Nc : nonul (compose p)).
  { rewrite Ec. rewrite !nonul_app. repeat split; eapply piece_nonul; eassumption. }
  change (compose p ++ [0] ++ skipn (length (compose p) + 1) buf) with (compose p ++ 0 :: skipn (length (compose p) + 1) buf).
  rewrite strlen_ok by exact Nc. cbn [bind].
  assert (Hs' := undelim_ok _ _ _ Hs). assert (Hu' := undelim_ok _ _ _ Hu). assert (Hp' := behind_ok _ _ _ Hp). assert (Hq' := behind_ok _ _ _ Hq). assert (Hf' := behind_ok _ _ _ Hf).
  assert (Bs : zlen (part (Some (scheme p))) < 2^31 /\ zlen (part (user p)) < 2^31 /\ zlen (part (port p)) < 2^31 /\ zlen (part (query p)) < 2^31 /\ zlen (part (fragment p)) < 2^31).
  { clear - D1 D2 D3 D4 D5 Lc F1 P1 P2 P3 P4 P5 P6 P7 P8. destruct (zlen x1 =? 0), (zlen x3 =? 0), (zlen x5 =? 0), (zlen x7 =? 0), (zlen x8 =? 0); lia. }
  destruct Bs as (B1 & B3 & B5 & B7 & B8).
  fold (undelimited (zlen x1)). fold (undelimited (zlen x3)).
  rewrite (piece_len _ _ Hs) in Hs'. rewrite (piece_len _ _ Hu) in Hu'.
  rewrite (print_ok _ _ Hs'), (print_ok _ _ Hu'), (print_ok _ _ Hp'), (print_ok _ _ Hq'), (print_ok _ _ Hf') by lia.
  cbn [bind]. fold text2.
  set (rest := skipn (length (compose p) + 1) buf).
  assert (Lr : zlen rest = zlen text2 + 1) by (unfold rest, zlen in *; rewrite skipn_length; lia).
  replace (compose p ++ 0 :: rest) with ((compose p ++ [0]) ++ rest) by (rewrite <- app_assoc; reflexivity).
  replace (zlen (compose p) + 1) with (zlen (compose p ++ [0])) by (rewrite zlen_app; reflexivity).
  rewrite from_app_len. cbn [bind].
  unfold fits. rewrite F1, Lf. cbn [andb].
  destruct (zlen text2 <? 2^31) eqn:F2.
  2:{ destruct (snprintf_any rest (zlen text2 + 1) text2 ltac:(lia)) as (b & ret & -> & Hret). cbn [bind].
      replace ((ret <? 0) || negb (ret =? zlen text2 + 1 - 1)) with true by lia. reflexivity. }
  rewrite snprintf_fit by lia. cbn [bind]. replace ((zlen text2 <? 0) || negb (zlen text2 =? zlen text2 + 1 - 1)) with false by lia.
  eexists. split; [reflexivity|].
  replace (Z.to_nat (zlen (compose p ++ [0]))) with (length (compose p ++ [0])) by (unfold zlen; lia).
  rewrite firstn_app, firstn_all, Nat.sub_diag, firstn_O, app_nil_r.
  set (z := skipn (length text2 + 1) rest). unfold shows. cbn [ubuf ustr uscheme uuser uhost uport upath uquery ufragment].
  pose proof (piece_len _ _ Hs') as E1. pose proof (piece_len _ _ Hu') as E2. cbn [snd fst] in E1, E2.
  rewrite (piece_len _ _ Hp'), (piece_len _ _ Hq'), E1, E2. unfold text2. cbn [part snd].
  split; [exists [], (scheme p ++ [0] ++ part (user p) ++ [0] ++ host p ++ [0] ++ part (port p) ++ [0] ++ path p ++ [0] ++ part (query p) ++ [0] ++ part (fragment p) ++ [0] ++ [0] ++ z); split; [rewrite <- !app_assoc; reflexivity|reflexivity]|].
  split; [eexists (compose p ++ [0]), _; split; [rewrite <- !app_assoc; reflexivity|rewrite !zlen_app; change (zlen [0]) with 1; lia]|].
  split; [eexists (compose p ++ [0] ++ scheme p ++ [0]), _; split; [rewrite <- !app_assoc; reflexivity|rewrite !zlen_app; change (zlen [0]) with 1; lia]|].
  split; [eexists (compose p ++ [0] ++ scheme p ++ [0] ++ part (user p) ++ [0]), _; split; [rewrite <- !app_assoc; reflexivity|rewrite !zlen_app; change (zlen [0]) with 1; lia]|].
  split; [eexists (compose p ++ [0] ++ scheme p ++ [0] ++ part (user p) ++ [0] ++ host p ++ [0]), _; split; [rewrite <- !app_assoc; reflexivity|rewrite !zlen_app; change (zlen [0]) with 1; lia]|].
  split; [eexists (compose p ++ [0] ++ scheme p ++ [0] ++ part (user p) ++ [0] ++ host p ++ [0] ++ part (port p) ++ [0]), _; split; [rewrite <- !app_assoc; reflexivity|rewrite !zlen_app; change (zlen [0]) with 1; lia]|].
  split; [eexists (compose p ++ [0] ++ scheme p ++ [0] ++ part (user p) ++ [0] ++ host p ++ [0] ++ part (port p) ++ [0] ++ path p ++ [0]), _; split; [rewrite <- !app_assoc; reflexivity|rewrite !zlen_app; change (zlen [0]) with 1; lia]|].
  eexists (compose p ++ [0] ++ scheme p ++ [0] ++ part (user p) ++ [0] ++ host p ++ [0] ++ part (port p) ++ [0] ++ path p ++ [0] ++ part (query p) ++ [0]), _; split; [rewrite <- !app_assoc; reflexivity|rewrite !zlen_app; change (zlen [0]) with 1; lia].
Qed.

(** ** Finding the parts *)
Lemma zload_next a r tl : exists c, zload (a ++ r ++ 0 :: tl) (zlen a) = Ok c /\ match r with x :: _ => c = x | [] => c = 0 end.
Proof. destruct r as [|x r]; [exists 0|exists x]; (split; [apply zload_at|reflexivity]). Qed.
Lemma piece_mid (x y tl : list Z) : nonul (x ++ y) -> is_piece (x ++ y ++ 0 :: tl, zlen x) x.
Proof. intro H. exists y, tl. repeat split. exact H. Qed.
Lemma strcspn_until set l tl : nonul l -> ~ In 0 set -> strcspn (l ++ 0 :: tl) set = Ok (zlen (fst (until (one_of set) l))).
Proof.
  intros Hn H0. destruct (until_ok (one_of set) l) as (a & b & -> & -> & Ha & Hb). cbn [fst]. apply nonul_app in Hn as [Hn1 Hn2].
  rewrite <- app_assoc. destruct b as [|c b]; cbn [app]; [now apply strcspn_none|]. apply strcspn_some; [exact Hn1|exact Ha|now apply (Hb c b)].
Qed.
Lemma strchr_cut d l tl : nonul l -> d <> 0 -> strchr (l ++ 0 :: tl) d = Ok (match cut_at d l with Some (a, _) => Some (zlen a) | None => None end).
Proof.
  intros Hn Hd. destruct (cut_at_ok d l) as [(a & b & -> & -> & H)|[-> H]].
  - apply nonul_app in Hn as [Hn _]. rewrite <- app_assoc. cbn [app]. now apply strchr_some.
  - now apply strchr_none.
Qed.
Lemma until_ext p q l : (forall c, p c = q c) -> until p l = until q l.
Proof. intro H. induction l as [|c l IH]; [reflexivity|]. cbn. rewrite H, IH. reflexivity. Qed.
Lemma app3 (a b c : list Z) : a ++ b ++ c = (a ++ b) ++ c. Proof. apply app_assoc. Qed.
(** The tail. *)
Lemma tail_ok a r tl : nonul r -> exists pa s2 q f, tail_cut r = (pa, s2, q, f) /\ r = pa ++ s2 ++ before 63 q ++ before 35 f /\
  exists ap qp fp, uri_tail (a ++ r ++ 0 :: tl) (zlen a) = Ok (ap, qp, fp) /\ is_piece ap pa /\ is_piece qp (before 63 q) /\ is_piece fp (before 35 f).
Proof.
  intro Hn. unfold tail_cut, uri_tail. rewrite from_app_len. cbn [bind].
  rewrite strcspn_until by (try exact Hn; cbn; lia). rewrite (until_ext (one_of [63; 35]) (fun c => (c =? 63) || (c =? 35))) by (intro c; cbn; now rewrite orb_false_r).
  destruct (until_ok (fun c => (c =? 63) || (c =? 35)) r) as (pa & r1 & E1 & -> & Hpa & Hr1). rewrite E1. cbn [fst bind].
  rewrite <- app_assoc. assert (Hn' := Hn). apply nonul_app in Hn' as [Npa Nr1].
  replace (zlen a + zlen pa) with (zlen (a ++ pa)) by apply zlen_app. rewrite app3, from_app_len. cbn [bind].
  rewrite strchr_cut by (try exact Nr1; lia).
  destruct (cut_at_ok 63 r1) as [(s2 & r2 & E2 & -> & Hs2)|[E2 H2]]; rewrite E2; cbn [bind].
  - destruct (until_ok (Z.eqb 35) r2) as (q & r3 & E3 & -> & Hq & Hr3). rewrite E3.
    replace ((a ++ pa) ++ (s2 ++ 63 :: q ++ r3) ++ 0 :: tl) with ((a ++ pa ++ s2) ++ (63 :: q ++ r3) ++ 0 :: tl) by (rewrite <- !app_assoc; reflexivity).
    replace (zlen (a ++ pa) + zlen s2) with (zlen (a ++ pa ++ s2)) by (rewrite !zlen_app; lia). rewrite from_app_len. cbn [bind].
    assert (N2 : nonul (63 :: q ++ r3)) by (apply nonul_app in Nr1; apply Nr1).
    rewrite strcspn_until by (try exact N2; cbn; lia). rewrite (until_ext (one_of [35]) (Z.eqb 35)) by (intro c; cbn; rewrite orb_false_r; apply Z.eqb_sym).
    change (63 :: q ++ r3) with ((63 :: q) ++ r3). rewrite until_eq; [|intros x [<-|Hx]; [reflexivity|now apply Hq]|exact Hr3]. cbn [fst bind].
    replace ((a ++ pa ++ s2) ++ ((63 :: q) ++ r3) ++ 0 :: tl) with ((a ++ pa ++ s2 ++ 63 :: q) ++ r3 ++ 0 :: tl) by (rewrite <- !app_assoc; reflexivity).
    replace (zlen (a ++ pa ++ s2) + zlen (63 :: q)) with (zlen (a ++ pa ++ s2 ++ 63 :: q)) by (rewrite !zlen_app; lia).
    destruct (zload_next (a ++ pa ++ s2 ++ 63 :: q) r3 tl) as (c & -> & Hc). cbn [bind].
    exists pa, s2, (Some q), (match r3 with _ :: f => Some f | [] => None end). split; [reflexivity|].
    assert (Ef : r3 = before 35 (match r3 with _ :: f => Some f | [] => None end)).
    { destruct r3 as [|x f]; [reflexivity|]. cbn. f_equal. specialize (Hr3 x f eq_refl). lia. }
    split; [rewrite <- Ef; cbn [before]; reflexivity|].
    assert (Pa : is_piece (pa ++ (s2 ++ 63 :: q ++ r3) ++ 0 :: tl, zlen pa) pa) by now apply piece_mid.
    assert (Pq : is_piece (63 :: (q ++ r3) ++ 0 :: tl, zlen (63 :: q)) (63 :: q)).
    { change (63 :: (q ++ r3) ++ 0 :: tl) with ((63 :: q ++ r3) ++ 0 :: tl). change (63 :: q ++ r3) with ((63 :: q) ++ r3). rewrite <- app_assoc. now apply piece_mid. }
    destruct r3 as [|x f].
    + subst c. cbn [Z.eqb]. eexists _, _, _. split; [reflexivity|]. split; [exact Pa|]. split; [exact Pq|]. apply no_piece_ok.
    + subst c. specialize (Hr3 x f eq_refl). assert (x = 35) by lia. subst x. cbn [Z.eqb Pos.eqb]. rewrite from_app_len. cbn [bind].
      assert (Nf : nonul (35 :: f)) by (change (63 :: q ++ 35 :: f) with ((63 :: q) ++ 35 :: f) in N2; apply nonul_app in N2; apply N2).
      rewrite strlen_ok by exact Nf. cbn [bind]. eexists _, _, _. split; [reflexivity|]. split; [exact Pa|]. split; [exact Pq|].
      cbn [before]. exists [], tl. rewrite app_nil_r. repeat split. exact Nf.
  - destruct (zload_next (a ++ pa) r1 tl) as (c & -> & Hc). cbn [bind].
    exists pa, [], None, (match r1 with _ :: f => Some f | [] => None end). split; [reflexivity|].
    assert (Ef : r1 = before 35 (match r1 with _ :: f => Some f | [] => None end)).
    { destruct r1 as [|x f]; [reflexivity|]. cbn. f_equal. specialize (Hr1 x f eq_refl). assert (x <> 63) by (intros ->; apply H2; now left). lia. }
    split; [rewrite <- Ef; reflexivity|].
    assert (Pa : is_piece (pa ++ r1 ++ 0 :: tl, zlen pa) pa) by now apply piece_mid.
    destruct r1 as [|x f].
    + subst c. cbn [Z.eqb]. eexists _, _, _. split; [reflexivity|]. split; [exact Pa|]. split; apply no_piece_ok.
    + subst c. injection Ef as ->. cbn [Z.eqb Pos.eqb]. rewrite from_app_len. cbn [bind].
      rewrite strlen_ok by exact Nr1. cbn [bind]. eexists _, _, _. split; [reflexivity|]. split; [exact Pa|]. split; [apply no_piece_ok|].
      cbn [before]. exists [], tl. rewrite app_nil_r. repeat split. exact Nr1.
Qed.
(** Host. *)
Lemma host_split l : match host_cut l with
  | Some (h, r) => l = h ++ r
  | None => exists t, l = 91 :: t /\ ~ In 93 l
  end.
Proof.
  assert (G : forall l : list Z, let '(h, r) := until (fun c => (c =? 58) || (c =? 47) || (c =? 63) || (c =? 35)) l in l = h ++ r).
  { clear. intro l. destruct (until_ok (fun c => (c =? 58) || (c =? 47) || (c =? 63) || (c =? 35)) l) as (a & b & -> & E & _). exact E. }
  unfold host_cut. destruct l as [|c l]; [reflexivity|]. destruct (Z.eq_dec c 91) as [->|N].
  - destruct (cut_at_ok 93 (91 :: l)) as [(x & y & -> & E & _)|[-> H]]; [|eauto]. rewrite <- app_assoc. exact E.
  - assert (E : (match c with 91 => match cut_at 93 (c :: l) with Some (h, r) => Some (h ++ [93], r) | None => None end
           | _ => Some (until (fun c => (c =? 58) || (c =? 47) || (c =? 63) || (c =? 35)) (c :: l)) end) =
           Some (until (fun c => (c =? 58) || (c =? 47) || (c =? 63) || (c =? 35)) (c :: l))).
    { clear - N. repeat match goal with |- context[match ?x with _ => _ end] => is_var x; destruct x; try reflexivity end. congruence. }
    cbv beta iota in E |- *. rewrite E. specialize (G (c :: l)). destruct (until _ (c :: l)). exact G.
Qed.
Lemma host_plain c l : c <> 91 -> host_cut (c :: l) = Some (until (fun c => (c =? 58) || (c =? 47) || (c =? 63) || (c =? 35)) (c :: l)).
Proof.
  intro N. unfold host_cut. repeat match goal with |- context[match ?x with _ => _ end] => is_var x; destruct x; try reflexivity end. congruence.
Qed.
(** The host as the code finds it. *)
Lemma host_found r tl : nonul r -> exists c k, (exists t, r ++ 0 :: tl = c :: t) /\
  strcspn (r ++ 0 :: tl) (if c =? 91 then [93] else [58; 47; 63; 35]) = Ok k /\
  match host_cut r with
  | Some (h, r2) => k + (if c =? 91 then 1 else 0) = zlen h /\ (c =? 91 = true -> exists h', h = h' ++ [93])
  | None => c = 91 /\ k = zlen r
  end.
Proof.
  intro Hn. destruct r as [|c r].
  - exists 0, 0. split; [eexists; reflexivity|]. split; [reflexivity|]. cbn. split; [reflexivity|discriminate].
  - exists c. destruct (Z.eq_dec c 91) as [->|N].
    + cbn [Z.eqb Pos.eqb]. eexists. split; [eexists; reflexivity|]. split; [apply strcspn_until; [exact Hn|cbn; lia]|].
      rewrite (until_ext (one_of [93]) (Z.eqb 93)) by (intro c; cbn; rewrite orb_false_r; apply Z.eqb_sym). unfold host_cut.
      destruct (cut_at_ok 93 (91 :: r)) as [(x & y & E & E2 & Hx)|[E H]]; rewrite E.
      * rewrite E2, until_eq; [cbn [fst]; rewrite zlen_app; split; [reflexivity|eauto]|intros z Hz; destruct (Z.eqb_spec 93 z); [congruence|reflexivity]|intros ? ? [= <- _]; reflexivity].
      * split; [reflexivity|]. rewrite <- (app_nil_r (91 :: r)) at 1. rewrite until_eq; [reflexivity| |discriminate].
        intros z Hz. destruct (Z.eqb_spec 93 z); [congruence|reflexivity].
    + replace (c =? 91) with false by lia. eexists. split; [eexists; reflexivity|]. split; [apply strcspn_until; [exact Hn|cbn; lia]|].
      rewrite host_plain by exact N. rewrite (until_ext (one_of [58; 47; 63; 35]) (fun c => (c =? 58) || (c =? 47) || (c =? 63) || (c =? 35))).
      2:{ intro x. cbn. now rewrite orb_false_r, !orb_assoc. }
      destruct (until _ (c :: r)) as [h r2]. cbn [fst]. split; [lia|discriminate].
Qed.
Definition authority_cut (r : list Z) : option (option (list Z) * list Z * list Z * option (list Z) * list Z) :=
  let '(u, r) := match cut_at 64 r with Some (u, r) => (Some u, r) | None => (None, r) end in
  match host_cut r with
  | None => None
  | Some (h, r) => match port_cut r with None => None | Some (s1, po, r) => Some (u, h, s1, po, r) end
  end.
Lemma port_split r : match port_cut r with Some (s1, po, r') => r = s1 ++ before 58 po ++ r' | None => True end.
Proof.
  unfold port_cut. destruct (cut_at_ok 58 r) as [(a & b & -> & -> & _)|[-> _]]; [|reflexivity].
  destruct b as [|d b]; [exact I|]. destruct (strtoull_cut (d :: b) []) as (t & r' & v & -> & E & _).
  destruct v as [v|]; [|exact I]. destruct (v <=? 65536); [|exact I]. cbn [before app]. now rewrite E.
Qed.
Lemma authority_ok a r tl : nonul r ->
  match authority_cut r with
  | None => uri_authority (a ++ r ++ 0 :: tl) (zlen a) = Ok None
  | Some (u, h, s1, po, r') => exists pre up hp pp, r = pre ++ r' /\ pre = followed 64 u ++ h ++ s1 ++ before 58 po /\
      uri_authority (a ++ r ++ 0 :: tl) (zlen a) = Ok (Some (up, hp, pp, zlen (a ++ pre))) /\
      is_piece up (followed 64 u) /\ is_piece hp h /\ is_piece pp (before 58 po)
  end.
Proof.
  intro Hn. unfold authority_cut, uri_authority. rewrite from_app_len. cbn [bind]. rewrite strchr_cut by (try exact Hn; lia). cbn [bind].
  assert (exists u r1, (match cut_at 64 r with Some (u, r) => (Some u, r) | None => (None, r) end) = (u, r1) /\ r = followed 64 u ++ r1 /\
    exists up, is_piece up (followed 64 u) /\
      match match cut_at 64 r with Some (a0, _) => Some (zlen a0) | None => None end with Some k => ((r ++ 0 :: tl, k + 1), zlen a + k + 1) | None => (no_piece, zlen a) end
      = (up, zlen (a ++ followed 64 u))) as (u & r1 & -> & Er & up & Hup & ->).
  { destruct (cut_at_ok 64 r) as [(x & y & -> & -> & _)|[-> _]].
    - exists (Some x), y. split; [reflexivity|]. cbn [followed]. split; [now rewrite <- app_assoc|]. exists ((x ++ 64 :: y) ++ 0 :: tl, zlen x + 1). split; [|rewrite !zlen_app; change (zlen [64]) with 1; now rewrite <- Z.add_assoc].
      exists y, tl. cbn [fst snd]. split; [rewrite <- !app_assoc; reflexivity|]. split; [rewrite <- app_assoc; exact Hn|now rewrite zlen_app].
    - exists None, r. split; [reflexivity|]. split; [reflexivity|]. exists no_piece. split; [apply no_piece_ok|]. cbn [followed]. now rewrite app_nil_r. }
  subst r. apply nonul_app in Hn as [_ Hn]. rewrite <- app_assoc, app3. set (b := a ++ followed 64 u).
  destruct (host_found r1 tl Hn) as (c & k & (t & Et) & Hk & Hh).
  assert (Ec : zload (b ++ r1 ++ 0 :: tl) (zlen b) = Ok c) by (rewrite Et; apply zload_at).
  rewrite Ec. cbn [bind]. rewrite from_app_len. cbn [bind]. rewrite Hk. cbn [bind].
  pose proof (host_split r1) as Hsp. destruct (host_cut r1) as [[h r2]|].
  2:{ destruct Hh as [-> ->]. cbn [Z.eqb Pos.eqb]. replace (zlen b + (zlen r1 + 1) - 1) with (zlen (b ++ r1)) by (rewrite zlen_app; lia).
      rewrite app3, zload_at. reflexivity. }
  destruct Hh as [Hlen Hbr]. rewrite Hlen. subst r1.
  assert (Eo : (if c =? 91 then let* d := zload (b ++ (h ++ r2) ++ 0 :: tl) (zlen b + zlen h - 1) in Ok (negb (d =? 93)) else Ok false) = Ok false).
  { destruct (c =? 91); [|reflexivity]. destruct (Hbr eq_refl) as [h' ->]. rewrite zlen_app. change (zlen [93]) with 1.
    replace (b ++ ((h' ++ [93]) ++ r2) ++ 0 :: tl) with ((b ++ h') ++ 93 :: r2 ++ 0 :: tl) by (rewrite <- !app_assoc; reflexivity).
    replace (zlen b + (zlen h' + 1) - 1) with (zlen (b ++ h')) by (rewrite zlen_app; lia). rewrite zload_at. reflexivity. }
  rewrite Eo. cbn [bind].
  replace (b ++ (h ++ r2) ++ 0 :: tl) with ((b ++ h) ++ r2 ++ 0 :: tl) by (rewrite <- !app_assoc; reflexivity).
  replace (zlen b + zlen h) with (zlen (b ++ h)) by apply zlen_app. rewrite from_app_len. cbn [bind].
  assert (Hn2 := Hn). apply nonul_app in Hn2 as [_ Hn2]. rewrite strchr_cut by (try exact Hn2; lia). cbn [bind].
  assert (Hhp : is_piece ((h ++ r2) ++ 0 :: tl, zlen h) h) by (rewrite <- app_assoc; now apply piece_mid).
  unfold port_cut. destruct (cut_at_ok 58 r2) as [(s1 & r3 & -> & -> & Hs1)|[-> Hs1]].
  - replace ((b ++ h) ++ (s1 ++ 58 :: r3) ++ 0 :: tl) with ((b ++ h ++ s1 ++ [58]) ++ r3 ++ 0 :: tl) by (rewrite <- !app_assoc; reflexivity).
    replace (zlen (b ++ h) + zlen s1 + 1) with (zlen (b ++ h ++ s1 ++ [58])) by (rewrite !zlen_app; change (zlen [58]) with 1; lia).
    destruct r3 as [|d r3].
    + cbn [app]. rewrite zload_at. reflexivity.
    + cbn [app]. rewrite zload_at. cbn [bind]. apply nonul_app in Hn2 as [_ Hn2]. apply nonul_cons in Hn2 as [_ Hn2].
      assert (Hd := Hn2). apply nonul_cons in Hd as [Hd _]. destruct (Z.eqb_spec d 0); [congruence|].
      rewrite from_app_len. cbn [bind]. destruct (strtoull_cut (d :: r3) tl) as (tx & r4 & v & -> & E & S). cbn [app] in S. rewrite S. cbn [bind].
      destruct v as [v|]; [|reflexivity]. cbn [orb]. rewrite Z.ltb_antisym. destruct (v <=? 65536); cbn [negb]; [|reflexivity].
      replace ((b ++ h ++ s1 ++ [58]) ++ d :: r3 ++ 0 :: tl) with ((b ++ h ++ s1) ++ 58 :: d :: r3 ++ 0 :: tl) by (rewrite <- !app_assoc; reflexivity).
      replace (zlen (b ++ h) + zlen s1) with (zlen (b ++ h ++ s1)) by (rewrite !zlen_app; lia). rewrite from_app_len. cbn [bind].
      exists (followed 64 u ++ h ++ s1 ++ 58 :: tx). eexists _, _, _. split; [rewrite <- !app_assoc; cbn [app]; rewrite <- E; reflexivity|]. split; [reflexivity|].
      split; [|split; [exact Hup|split; [exact Hhp|]]].
      * match goal with |- Ok (Some (_, ?z)) = _ => replace z with (zlen (a ++ followed 64 u ++ h ++ s1 ++ 58 :: tx)) end; [reflexivity|].
        unfold b. rewrite !zlen_app, !zlen_cons. change (zlen (@nil Z)) with 0. lia.
      * cbn [before]. exists r4, tl. cbn [fst snd]. split; [cbn [app]; change (d :: r3 ++ 0 :: tl) with ((d :: r3) ++ 0 :: tl); rewrite E, <- app_assoc; reflexivity|].
        split; [cbn [app]; rewrite <- E; apply nonul_cons; split; [lia|exact Hn2]|rewrite zlen_cons; lia].
  - exists (followed 64 u ++ h). eexists _, _, _. split; [now rewrite <- app_assoc|]. split; [cbn; now rewrite app_nil_r|]. split; [unfold b; rewrite <- (app_assoc a); reflexivity|].
    split; [exact Hup|]. split; [exact Hhp|]. apply no_piece_ok.
Qed.
Lemma strstr_colon t tl : nonul t -> strstr (t ++ 0 :: tl) [58] = Ok (match cut_at 58 t with Some (a, _) => Some (zlen a) | None => None end).
Proof.
  intro Hn. induction t as [|c t IH]; [reflexivity|]. apply nonul_cons in Hn as [Hc Hn]. cbn [app strstr prefix bind cut_at].
  destruct (Z.eqb_spec c 58); [reflexivity|]. cbn [bind]. destruct (Z.eqb_spec c 0); [congruence|]. rewrite IH by exact Hn. cbn [bind].
  destruct (cut_at 58 t) as [[x y]|]; cbn [option_map]; [rewrite zlen_cons; do 2 f_equal; lia|reflexivity].
Qed.
Lemma parse_shape t : uri_parse t =
  match cut_at 58 t with
  | None => None
  | Some (s, r) =>
      if match r with c :: d :: _ => (c =? 47) && (d =? 47) | _ => false end then
        match authority_cut (skipn 2 r) with
        | None => None
        | Some (u, h, s1, po, r) => let '(pa, s2, q, f) := tail_cut r in Some (mk_parts s true u h s1 po pa s2 q f)
        end
      else let '(pa, s2, q, f) := tail_cut r in Some (mk_parts s false None [] [] None pa s2 q f)
  end.
Proof.
  unfold uri_parse. destruct (cut_at 58 t) as [[s r]|]; [|reflexivity].
  assert (G : forall r', match match r' with c :: d :: _ => (c =? 47) && (d =? 47) | _ => false end with true => exists x, r' = 47 :: 47 :: x | false => forall x, r' <> 47 :: 47 :: x end).
  { intros [|c [|d x]]; try discriminate. destruct (Z.eqb_spec c 47); cbn; [|congruence]. destruct (Z.eqb_spec d 47); [subst; eauto|congruence]. }
  specialize (G r). destruct (match r with c :: d :: _ => (c =? 47) && (d =? 47) | _ => false end).
  - destruct G as [x ->]. cbn [skipn]. unfold authority_cut. destruct (match cut_at 64 x with Some (u, r) => (Some u, r) | None => (None, x) end) as [u r1].
    destruct (host_cut r1) as [[h r2]|]; [|reflexivity]. destruct (port_cut r2) as [[[s1 po] r3]|]; reflexivity.
  - destruct r as [|c [|d x]]; try reflexivity.
    + repeat match goal with |- context[match ?x with _ => _ end] => is_var x; destruct x; try reflexivity end.
    + destruct (Z.eq_dec c 47) as [->|Nc].
      * destruct (Z.eq_dec d 47) as [->|Nd]; [exfalso; now apply (G x)|]. repeat match goal with |- context[match ?x with _ => _ end] => is_var x; destruct x; try reflexivity end. congruence.
      * repeat match goal with |- context[match ?x with _ => _ end] => is_var x; destruct x; try reflexivity end. congruence.
Qed.
Lemma parse_source t p : uri_parse t = Some p -> source p = t.
Proof.
  rewrite parse_shape. destruct (cut_at_ok 58 t) as [(s & r & -> & -> & _)|[-> _]]; [|discriminate].
  assert (T : forall r, let '(pa, s2, q, f) := tail_cut r in r = pa ++ s2 ++ before 63 q ++ before 35 f).
  { clear. intro r. unfold tail_cut. destruct (until_ok (fun c => (c =? 63) || (c =? 35)) r) as (pa & r1 & -> & -> & _ & H1).
    destruct (cut_at_ok 63 r1) as [(s2 & r2 & -> & -> & _)|[-> H2]].
    - destruct (until_ok (Z.eqb 35) r2) as (q & r3 & -> & -> & _ & H3). cbn [before]. f_equal. f_equal. cbn [app]. f_equal. f_equal.
      destruct r3 as [|x f]; [reflexivity|]. cbn. f_equal. specialize (H3 x f eq_refl). lia.
    - cbn [before app]. f_equal. destruct r1 as [|x f]; [reflexivity|]. cbn. f_equal. specialize (H1 x f eq_refl). assert (x <> 63) by (intros ->; apply H2; now left). lia. }
  destruct (match r with c :: d :: _ => (c =? 47) && (d =? 47) | _ => false end) eqn:B.
  - destruct r as [|c [|d r]]; try discriminate. assert (c = 47 /\ d = 47) as [-> ->] by lia. cbn [skipn]. unfold authority_cut.
    assert (exists u r1, (match cut_at 64 r with Some (u, r) => (Some u, r) | None => (None, r) end) = (u, r1) /\ r = followed 64 u ++ r1) as (u & r1 & -> & ->).
    { destruct (cut_at_ok 64 r) as [(x & y & -> & -> & _)|[-> _]]; [exists (Some x), y; cbn; now rewrite <- app_assoc|exists None, r; auto]. }
    pose proof (host_split r1) as Hh. destruct (host_cut r1) as [[h r2]|]; [|discriminate]. subst r1.
    pose proof (port_split r2) as Hp. destruct (port_cut r2) as [[[s1 po] r3]|]; [|discriminate]. subst r2.
    specialize (T r3). destruct (tail_cut r3) as [[[pa s2] q] f]. intros [= <-]. unfold source. cbn [scheme auth user host skip1 port path skip2 query fragment].
    cbn [app]. rewrite T. reflexivity.
  - specialize (T r). destruct (tail_cut r) as [[[pa s2] q] f]. intros [= <-]. unfold source. cbn [scheme auth user host skip1 port path skip2 query fragment followed before app].
    now rewrite T.
Qed.
Lemma compose_le p : zlen (compose p) <= zlen (source p).
Proof. unfold compose, source. rewrite !zlen_app, !zlen_cons, !zlen_app. pose proof (zlen_nonneg (skip1 p)). pose proof (zlen_nonneg (skip2 p)). lia. Qed.
Lemma create_ok t tl a : nonul t -> zlen t < 2^62 ->
  match uri_parse t, a with
  | Some p, Some _ => if fits p then exists u, uri_create (Some (t ++ 0 :: tl)) a = Ok (Some u) /\ shows u p
                      else uri_create (Some (t ++ 0 :: tl)) a = Ok None
  | _, _ => uri_create (Some (t ++ 0 :: tl)) a = Ok None
  end.
Proof.
  intros Hn Hl. pose proof (parse_source t) as PS. rewrite parse_shape in *. unfold uri_create. rewrite strstr_colon by exact Hn. cbn [bind].
  destruct (cut_at_ok 58 t) as [(s & r & E & Et & _)|[E _]]; rewrite E in *; [|reflexivity].
  assert (Hs : is_piece (t ++ 0 :: tl, zlen s + 1) (followed 58 (Some s))).
  { cbn [followed]. exists r, tl. cbn [fst snd]. split; [rewrite Et, <- !app_assoc; reflexivity|]. split; [rewrite <- app_assoc; cbn [app]; rewrite <- Et; exact Hn|]. rewrite zlen_app. reflexivity. }
  replace (zlen s + 1) with (zlen (s ++ [58])) in * by (rewrite zlen_app; reflexivity).
  assert (Em : t ++ 0 :: tl = (s ++ [58]) ++ r ++ 0 :: tl) by (rewrite Et, <- !app_assoc; reflexivity).
  assert (Hnr : nonul r) by (rewrite Et in Hn; apply nonul_app in Hn as [_ Hn]; apply nonul_cons in Hn; apply Hn).
  assert (Esl : (let* c := zload (t ++ 0 :: tl) (zlen (s ++ [58])) in
                 let* slashes := (if c =? 47 then let* d := zload (t ++ 0 :: tl) (zlen (s ++ [58]) + 1) in Ok (d =? 47) else Ok false) in Ok slashes)
                = Ok (match r with c :: d :: _ => (c =? 47) && (d =? 47) | _ => false end)).
  { rewrite Em. destruct r as [|c r]; cbn [app]; [rewrite zload_at; reflexivity|]. rewrite zload_at. cbn [bind].
    replace ((s ++ [58]) ++ c :: r ++ 0 :: tl) with ((s ++ [58; c]) ++ r ++ 0 :: tl) by (rewrite <- !app_assoc; reflexivity).
    replace (zlen (s ++ [58]) + 1) with (zlen (s ++ [58; c])) by (rewrite !zlen_app; change (zlen [58; c]) with 2; change (zlen [58]) with 1; lia).
    destruct r as [|d r]; cbn [app]; rewrite zload_at; cbn [bind]; destruct (Z.eqb_spec c 47); cbn [andb bind]; reflexivity. }
  set (sl := match r with c :: d :: _ => (c =? 47) && (d =? 47) | _ => false end) in *.
  assert (Esl2 : forall K : bool -> res (option uri), (let* c := zload (t ++ 0 :: tl) (zlen (s ++ [58])) in
                 let* slashes := (if c =? 47 then let* d := zload (t ++ 0 :: tl) (zlen (s ++ [58]) + 1) in Ok (d =? 47) else Ok false) in K slashes) = K sl).
  { intro K. destruct (zload (t ++ 0 :: tl) (zlen (s ++ [58]))) as [c| |]; try discriminate. cbn [bind] in *.
    destruct (if c =? 47 then _ else _) as [b| |]; try discriminate. cbn [bind] in *. now injection Esl as ->. }
  rewrite Esl2. clear Esl Esl2.
  assert (Hau : match (if sl then authority_cut (skipn 2 r) else Some (None, [], [], None, r)) with
    | None => (if sl then uri_authority (t ++ 0 :: tl) (zlen (s ++ [58]) + 2) else Ok (Some (no_piece, no_piece, no_piece, zlen (s ++ [58])))) = Ok None
    | Some (u, h, s1, po, r') => exists pre up hp pp, t = pre ++ r' /\ 
        (if sl then uri_authority (t ++ 0 :: tl) (zlen (s ++ [58]) + 2) else Ok (Some (no_piece, no_piece, no_piece, zlen (s ++ [58])))) = Ok (Some (up, hp, pp, zlen pre)) /\
        is_piece up (followed 64 u) /\ is_piece hp h /\ is_piece pp (before 58 po)
    end).
  { destruct sl eqn:Bs.
    - destruct r as [|c [|d r]]; try discriminate Bs. unfold sl in Bs. assert (c = 47 /\ d = 47) as [-> ->] by lia. cbn [skipn].
      apply nonul_cons in Hnr as [_ Hnr]. apply nonul_cons in Hnr as [_ Hnr].
      pose proof (authority_ok (s ++ [58; 47; 47]) r tl Hnr) as A.
      replace ((s ++ [58; 47; 47]) ++ r ++ 0 :: tl) with (t ++ 0 :: tl) in A by (rewrite Et, <- !app_assoc; reflexivity).
      replace (zlen (s ++ [58; 47; 47])) with (zlen (s ++ [58]) + 2) in A by (rewrite !zlen_app; change (zlen [58; 47; 47]) with 3; change (zlen [58]) with 1; lia).
      destruct (authority_cut r) as [[[[[u h] s1] po] r']|]; [|exact A].
      destruct A as (pre & up & hp & pp & Er & _ & A & P). exists ((s ++ [58; 47; 47]) ++ pre), up, hp, pp. split; [rewrite Et, Er, <- !app_assoc; reflexivity|]. split; [exact A|exact P].
    - exists (s ++ [58]), no_piece, no_piece, no_piece. split; [rewrite Et, <- app_assoc; reflexivity|]. split; [reflexivity|]. split; [apply no_piece_ok|]. split; apply no_piece_ok. }
  assert (PSx : match (if sl then authority_cut (skipn 2 r) else Some (None, [], [], None, r)) with
     | None => sl = true /\ authority_cut (skipn 2 r) = None
     | Some (u, h, s1, po, r') => (if sl then match authority_cut (skipn 2 r) with None => None | Some (u, h, s1, po, r) => let '(pa, s2, q, f) := tail_cut r in Some (mk_parts s true u h s1 po pa s2 q f) end
           else let '(pa, s2, q, f) := tail_cut r in Some (mk_parts s false None [] [] None pa s2 q f)) =
         let '(pa, s2, q, f) := tail_cut r' in Some (mk_parts s sl u h s1 po pa s2 q f) end).
  { destruct sl; [|reflexivity]. destruct (authority_cut (skipn 2 r)) as [[[[[u h] s1] po] r']|]; auto. }
  destruct (if sl then authority_cut (skipn 2 r) else Some (None, [], [], None, r)) as [[[[[u h] s1] po] r']|].
  2:{ destruct PSx as [-> ->]. rewrite Hau. destruct a; reflexivity. }
  destruct Hau as (pre & up & hp & pp & Et2 & -> & Hup & Hhp & Hpp). cbn [bind]. rewrite PSx in *. clear PSx.
  assert (Hnr' : nonul r') by (rewrite Et2 in Hn; apply nonul_app in Hn; apply Hn).
  destruct (tail_ok pre r' tl Hnr') as (pa & s2 & q & f & Etc & _ & ap & qp & fp & Etl & Hap & Hqp & Hfp). rewrite Etc in *. rewrite app_assoc, <- Et2 in Etl. rewrite Etl. cbn [bind].
  set (p := mk_parts s sl u h s1 po pa s2 q f). specialize (PS p eq_refl).
  pose proof (build_ok p (t ++ 0 :: tl, zlen (s ++ [58])) up hp pp ap qp fp a Hs Hup Hhp Hpp Hap Hqp Hfp) as B.
  specialize (B ltac:(pose proof (compose_le p); rewrite PS in *; lia)). change (auth p) with sl in B. destruct a; [|exact B]. exact B.
Qed.
(** ** Well-formed parts are found again *)
Lemma free_In ds l d x : free ds l -> In d ds -> In x l -> x <> d.
Proof. intros H Hd Hx ->. now apply (H d). Qed.
Lemma round_trip p : well_formed p -> uri_parse (compose p) = Some p.
Proof.
  destruct p as [s au u h s1 po pa s2 q f]. unfold well_formed, compose. cbn [scheme auth user host skip1 port path skip2 query fragment].
  intros (-> & -> & Hs & Hpa & Hqf & H). rewrite parse_shape.
  assert (T : tail_cut (pa ++ before 63 q ++ before 35 f) = (pa, [], q, f)).
  { unfold tail_cut. rewrite until_eq.
    2:{ intros x Hx. rewrite (proj2 (Z.eqb_neq x 63)), (proj2 (Z.eqb_neq x 35)); [reflexivity| |]; eapply free_In; try exact Hpa; try exact Hx; cbn; auto. }
    2:{ intros c r. destruct q as [q|]; cbn [before app]; [intros [= <- _]; reflexivity|]. destruct f; [intros [= <- _]; reflexivity|discriminate]. }
    destruct q as [q|]; cbn [before app cut_at Z.eqb Pos.eqb].
    - rewrite until_eq; [destruct f; reflexivity|intros x Hx; apply Z.eqb_neq; intros <-; contradiction|]. intros c r E. destruct f; [injection E as <- _; reflexivity|discriminate].
    - rewrite cut_at_none; [destruct f; reflexivity|]. destruct f as [f|]; cbn in *; [intros [|]; [discriminate|contradiction]|tauto]. }
  rewrite cut_at_some by exact Hs. destruct au.
  - destruct H as (Hp0 & Hh & Hpo & Hu). cbn [app Z.eqb Pos.eqb andb skipn]. unfold authority_cut.
    set (R := pa ++ before 63 q ++ before 35 f) in *.
    assert (E1 : (match cut_at 64 (followed 64 u ++ h ++ before 58 po ++ R) with Some (u0, r) => (Some u0, r) | None => (None, followed 64 u ++ h ++ before 58 po ++ R) end) = (u, h ++ before 58 po ++ R)).
    { destruct u as [u|]; cbn [followed app].
      - rewrite <- app_assoc. cbn [app]. rewrite cut_at_some by exact Hu. reflexivity.
      - rewrite cut_at_none; [reflexivity|]. unfold R. rewrite !in_app_iff in *. intro G. apply Hu. destruct G as [G|[G|[G|[G|G]]]]; auto.
        + destruct po as [d|]; [|destruct G]. destruct G as [G|G]; [discriminate|]. destruct Hpo as (_ & Hd & _). rewrite Forall_forall in Hd. specialize (Hd _ G). discriminate.
        + destruct q; [|destruct G]. destruct G as [G|G]; [discriminate|]. cbn. auto.
        + destruct f; [|destruct G]. destruct G as [G|G]; [discriminate|]. cbn. auto. }
    rewrite E1.
    assert (Hnext : forall c r, before 58 po ++ R = c :: r -> c = 58 \/ c = 47 \/ c = 63 \/ c = 35).
    { intros c r. destruct po; cbn [before app]; [intros [= <- _]; auto|]. unfold R. destruct Hp0 as [->|[y ->]]; cbn [app]; [|intros [= <- _]; auto].
      destruct q; cbn [before app]; [intros [= <- _]; auto|]. destruct f; [intros [= <- _]; auto|discriminate]. }
    assert (E2 : host_cut (h ++ before 58 po ++ R) = Some (h, before 58 po ++ R)).
    { destruct Hh as [(i & -> & Hi)|[Hf H91]].
      - unfold host_cut. cbn [app]. rewrite <- app_assoc. cbn [app]. change (91 :: i ++ 93 :: before 58 po ++ R) with ((91 :: i) ++ 93 :: before 58 po ++ R).
        rewrite cut_at_some; [reflexivity|]. intros [|]; [discriminate|contradiction].
      - assert (G : host_cut (h ++ before 58 po ++ R) = Some (until (fun c => (c =? 58) || (c =? 47) || (c =? 63) || (c =? 35)) (h ++ before 58 po ++ R))).
        { destruct h as [|c h]; cbn [app]; [|apply host_plain; intros ->; now apply (H91 h)].
          destruct (before 58 po ++ R) as [|c r] eqn:E; [reflexivity|]. apply host_plain. destruct (Hnext c r eq_refl) as [->|[->|[->| ->]]]; lia. }
        rewrite G, until_eq; [reflexivity| |].
        + intros x Hx. assert (x <> 58 /\ x <> 47 /\ x <> 63 /\ x <> 35) by (repeat split; eapply free_In; try exact Hf; try exact Hx; cbn; auto). lia.
        + intros c r E. destruct (Hnext c r E) as [->|[->|[->| ->]]]; reflexivity. }
    rewrite E2.
    assert (E3 : port_cut (before 58 po ++ R) = Some ([], po, R)).
    { unfold port_cut. destruct po as [d|]; cbn [before app].
      - cbn [cut_at Z.eqb Pos.eqb]. destruct Hpo as (Hd0 & Hd & Hv). destruct d as [|d0 d]; [congruence|]. cbn [app].
        assert (NC : number_cut ((d0 :: d) ++ R) = (d0 :: d, R, Some (dec (d0 :: d)))).
        { unfold number_cut. assert (I0 : isdigit d0 = true) by now inversion Hd.
          rewrite (until_eq _ [] ((d0 :: d) ++ R)); [|intros x []|intros c r [= <- _]; unfold isdigit, isspace in *; lia].
          cbn [app]. unfold sign. replace ((d0 =? 43) || (d0 =? 45)) with false by (unfold isdigit in I0; lia).
          change (d0 :: d ++ R) with ((d0 :: d) ++ R). rewrite until_eq.
          - replace (dec (d0 :: d) <? 2^64) with true by lia. reflexivity.
          - intros x Hx. rewrite Forall_forall in Hd. rewrite (Hd x Hx). reflexivity.
          - intros c r E. unfold R in E. destruct Hp0 as [->|[y ->]]; cbn [app] in E; [|injection E as <- _; reflexivity].
            destruct q; cbn [before app] in E; [injection E as <- _; reflexivity|]. destruct f; [injection E as <- _; reflexivity|discriminate]. }
        cbn [app] in NC. rewrite NC. replace (dec (d0 :: d) <=? 65536) with true by lia. reflexivity.
      - rewrite cut_at_none; [reflexivity|]. intro G. apply Hpo. unfold R in G. rewrite !in_app_iff in *. destruct G as [G|[G|G]]; auto.
        + destruct q; [|destruct G]. destruct G as [G|G]; [discriminate|]. cbn. auto.
        + destruct f; [|destruct G]. destruct G as [G|G]; [discriminate|]. cbn. auto. }
    rewrite E3, T. reflexivity.
  - destruct H as (-> & -> & -> & Hp). cbn [followed before app]. 
    assert (match pa ++ before 63 q ++ before 35 f with c :: d :: _ => (c =? 47) && (d =? 47) | _ => false end = false) as ->.
    { destruct pa as [|c [|d pa]]; cbn [app].
      - destruct q as [q|]; cbn [before app]; [destruct (q ++ before 35 f); reflexivity|]. destruct f as [[|? ?]|]; reflexivity.
      - destruct q as [q|]; cbn [before app]; [now rewrite andb_false_r|]. destruct f; cbn; [now rewrite andb_false_r|reflexivity].
      - destruct (Z.eqb_spec c 47) as [->|]; [|reflexivity]. destruct (Z.eqb_spec d 47) as [->|]; [|reflexivity]. exfalso. now apply (Hp pa). }
    rewrite T. reflexivity.
Qed.
