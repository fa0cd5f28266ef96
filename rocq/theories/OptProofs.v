(** Proofs for the option lookup. *)
From Verif Require Import Base CStr StrSpec StrProofs IniProofs OptModel OptSpec.
From Coq Require Import ZifyBool.

Lemma same_iff a : forall b, same a b = true <-> a = b.
Proof.
  induction a as [|x a IH]; intros [|y b]; cbn; try (split; [discriminate|discriminate]); [split; reflexivity|].
  rewrite andb_true_iff, IH. split; [intros [H ->]; f_equal; lia|intros [= -> ->]; split; [lia|reflexivity]].
Qed.
Lemma value_ok a r tl : opt_value (a ++ r ++ 0 :: tl) (zlen a) =
  Ok (zlen a + match r with c :: _ => if c =? 61 then 1 else 0 | [] => 0 end).
Proof.
  unfold opt_value. destruct r as [|c r]; cbn [app]; rewrite zload_at; cbn [bind]; [reflexivity|]. destruct (c =? 61); reflexivity.
Qed.
(** What follows the letter. *)
Definition after_letter (r : list Z) : option (list Z) :=
  match r with [] => Some [] | c :: v => if c =? 61 then Some v else if c =? 32 then Some (c :: v) else None end.
Lemma names_letter o c r v : c <> 45 -> names o (45 :: c :: r) v <-> fst o = c /\ after_letter r = Some v.
Proof.
  intro Hc. split.
  - intro H. inversion H; subst; cbn; try (split; reflexivity); congruence.
  - intros [E H]. subst. destruct r as [|d r]; cbn in H; [injection H as <-; constructor|].
    destruct (Z.eqb_spec d 61) as [->|]; [injection H as <-; constructor|]. destruct (Z.eqb_spec d 32) as [->|]; [injection H as <-; constructor|discriminate].
Qed.
(** Searching the table with a computable test. *)
Fixpoint search (test : opt -> option (list Z)) (opts : list opt) : option (Z * list Z) :=
  match opts with
  | [] => None
  | o :: opts => match test o with Some v => Some (fst o, v) | None => search test opts end
  end.
Lemma search_ok test opts arg : (forall o v, In o opts -> names o arg v <-> test o = Some v) ->
  match search test opts with
  | Some (letter, v) => first_named opts arg letter v
  | None => forall o w, In o opts -> ~ names o arg w
  end.
Proof.
  induction opts as [|o opts IH]; intro H; [intros o w []|]. cbn [search]. destruct (test o) as [v|] eqn:T.
  - exists [], o, opts. split; [reflexivity|]. split; [reflexivity|]. split; [apply H; [now left|exact T]|intros p w []].
  - assert (IH' := IH (fun p v Hp => H p v (or_intror Hp))). assert (No : forall w, ~ names o arg w) by (intros w Hw; apply H in Hw; [congruence|now left]).
    destruct (search test opts) as [[letter v]|].
    + destruct IH' as (pre & p & post & -> & E & N & F). exists (o :: pre), p, post. split; [reflexivity|]. split; [exact E|]. split; [exact N|].
      intros q w [<-|Hq]; [apply No|now apply F].
    + intros p w [<-|Hp]; [apply No|now apply IH'].
Qed.
(** The value pointer shows the value. *)
Definition shows (m : list Z) (tl : list Z) (found : option (Z * list Z)) (r : res (Z * option Z)) : Prop :=
  match found with
  | Some (letter, v) => exists off, r = Ok (letter, Some off) /\ from m off = Ok (v ++ 0 :: tl)
  | None => r = Ok (63, None)
  end.
Lemma short_ok c r tl items opts : c <> 45 -> nonul r -> Forall2 stored items opts -> (c <> 0 \/ (forall o, In o opts -> fst o <> c)) ->
  forall ipre, shows (45 :: c :: r ++ 0 :: tl) tl (search (fun o => if fst o =? c then after_letter r else None) opts)
    (opt_short (length items) (ipre ++ items) (zlen ipre) (45 :: c :: r ++ 0 :: tl) 1).
Proof.
  intros Hc Hr H. induction H as [|[letter nm] o items opts [Hl _] H IH]; intros H0 ipre; [reflexivity|].
  cbn [length opt_short search]. rewrite zload_ok with (v := (letter, nm)) by apply zget_mid. cbn [bind]. cbn [fst] in Hl. subst letter.
  change (zload (45 :: c :: r ++ 0 :: tl) 1) with (Ok c). cbn [bind]. rewrite (Z.eqb_sym c (fst o)).
  assert (IH' : shows (45 :: c :: r ++ 0 :: tl) tl (search (fun o => if fst o =? c then after_letter r else None) opts)
    (opt_short (length items) (ipre ++ (fst o, nm) :: items) (zlen ipre + 1) (45 :: c :: r ++ 0 :: tl) 1)).
  { assert (H0' : c <> 0 \/ (forall p, In p opts -> fst p <> c)) by (destruct H0 as [?|H0]; [now left|right; intros p Hp; apply H0; now right]).
    specialize (IH H0' (ipre ++ [(fst o, nm)])). rewrite <- app_assoc in IH. cbn [app] in IH. rewrite zlen_app in IH. exact IH. }
  clear IH. remember (search (fun o => if fst o =? c then after_letter r else None) opts) as sr eqn:Esr. clear Esr.
  destruct (Z.eqb_spec (fst o) c) as [Ec|]; [|exact IH'].
  destruct H0 as [H0|H0]; [|exfalso; apply (H0 o); [now left|exact Ec]].
  change (1 + 1) with (zlen [45; c]). change (45 :: c :: r ++ 0 :: tl) with ([45; c] ++ r ++ 0 :: tl) in *. rewrite !value_ok.
  destruct r as [|d r]; cbn [after_letter].
  - cbn [app]. rewrite (zload_at [45; c] 0 tl : zload (45 :: c :: 0 :: tl) _ = _). cbn [bind strchr_in Z.eqb orb]. exists (zlen [45; c] + 0). rewrite Ec. split; [reflexivity|].
    rewrite Z.add_0_r. apply (from_app [45; c] (0 :: tl)).
  - rewrite (zload_at [45; c] d (r ++ 0 :: tl) : zload ([45; c] ++ (d :: r) ++ 0 :: tl) _ = _). cbn [bind]. unfold strchr_in, one_of. cbn [existsb].
    apply nonul_cons in Hr as [Hd Hr]. destruct (Z.eqb_spec d 0); [congruence|]. cbn [orb]. rewrite orb_false_r.
    destruct (Z.eqb_spec d 61) as [->|N61]; cbn [orb].
    + exists (zlen [45; c] + 1). rewrite Ec. split; [reflexivity|]. replace (zlen [45; c] + 1) with (zlen [45; c; 61]) by reflexivity. apply (from_app [45; c; 61] (r ++ 0 :: tl)).
    + destruct (Z.eqb_spec d 32) as [->|N32]; [|exact IH']. exists (zlen [45; c] + 0). rewrite Ec. split; [reflexivity|]. rewrite Z.add_0_r. apply (from_app [45; c]).
Qed.
(** The name and the value behind "--". *)
Definition long_test (nm v : list Z) (o : opt) : option (list Z) :=
  match snd o with Some n => if same n nm then Some v else None | None => None end.
Lemma names_long o nm more v : opt_ok o -> ~ In 61 nm ->
  names o (45 :: 45 :: nm ++ match more with None => [] | Some w => 61 :: w end) v <->
  long_test nm (match more with None => [] | Some w => w end) o = Some v.
Proof.
  intros [Ho Hn] Hnm. unfold long_test. split.
  - intro H. inversion H as [|? E|? E|n E E2|n w E E2]; subst; try congruence.
    + rewrite E. rewrite E in Hn. destruct more as [w|].
      * exfalso. apply (proj1 Hn). rewrite in_app_iff. right. now left.
      * rewrite app_nil_r. replace (same nm nm) with true by (symmetry; now apply same_iff). reflexivity.
    + rewrite E. rewrite E in Hn. destruct Hn as [Hn _]. destruct more as [w'|].
      * assert (n = nm /\ v = w') as [-> ->].
        { clear - Hn Hnm E2. revert nm Hnm E2. induction n as [|x n IH]; intros [|y nm] Hnm [=]; subst; auto.
          - exfalso. apply Hnm. now left.
          - exfalso. apply Hn. now left.
          - destruct (IH (fun H => Hn (or_intror H)) nm (fun H => Hnm (or_intror H)) H0) as [-> ->]. auto. }
        replace (same nm nm) with true by (symmetry; now apply same_iff). reflexivity.
      * rewrite app_nil_r in E2. exfalso. apply Hnm. rewrite <- E2. apply in_app_iff. right. now left.
  - destruct (snd o) as [n|] eqn:E; [|discriminate]. destruct (same n nm) eqn:S; [|discriminate]. apply same_iff in S as ->. intros [= <-].
    destruct more as [w|]; [now apply N_name_value|]. rewrite app_nil_r. now apply N_name.
Qed.
Lemma long_ok nm r tl items opts : zlen (nm ++ r) < 2^63 -> (forall n, In n (map snd opts) -> match n with Some n => nonul n | None => True end) -> 
  Forall2 stored items opts -> (forall c v, r = c :: v -> c = 61) ->
  forall ipre, shows (45 :: 45 :: nm ++ r ++ 0 :: tl) tl (search (long_test nm (match r with _ :: v => v | [] => [] end)) opts)
    (opt_long (length items) (ipre ++ items) (zlen ipre) (45 :: 45 :: nm ++ r ++ 0 :: tl) (2 + zlen nm)).
Proof.
  intros Hlen Hn H Hr. induction H as [|[letter bl] o items opts [Hl Hs] H IH]; intros ipre; [reflexivity|].
  cbn [length opt_long search]. rewrite zload_ok with (v := (letter, bl)) by apply zget_mid. cbn [bind fst snd] in *. subst letter.
  assert (IH' : shows (45 :: 45 :: nm ++ r ++ 0 :: tl) tl (search (long_test nm (match r with _ :: v => v | [] => [] end)) opts)
    (opt_long (length items) (ipre ++ (fst o, bl) :: items) (zlen ipre + 1) (45 :: 45 :: nm ++ r ++ 0 :: tl) (2 + zlen nm))).
  { specialize (IH (fun n Hi => Hn n (or_intror Hi)) (ipre ++ [(fst o, bl)])). rewrite <- app_assoc in IH. cbn [app] in IH. rewrite zlen_app in IH. exact IH. }
  unfold long_test at 1. destruct (snd o) as [n|] eqn:E; [|subst bl; exact IH'].
  destruct Hs as [t ->]. assert (Nn : nonul n) by (apply (Hn (Some n)); left; exact E).
  rewrite strlen_ok by exact Nn. cbn [bind]. pose proof (zlen_nonneg nm). rewrite zlen_app in Hlen. pose proof (zlen_nonneg r).
  replace (2 + zlen nm - 2) with (zlen nm) by lia. rewrite u64_small by lia.
  destruct (Z.eqb_spec (zlen nm) (zlen n)) as [El|El].
  2:{ replace (same n nm) with false; [exact IH'|]. symmetry. destruct (same n nm) eqn:S; [|reflexivity]. apply same_iff in S. congruence. }
  rewrite El at 1. rewrite (bytes_mid [] n (0 :: t) : bytes_at (n ++ 0 :: t) 0 (zlen n) = _). cbn [bind].
  rewrite (bytes_mid [45; 45] nm (r ++ 0 :: tl) : bytes_at (45 :: 45 :: nm ++ r ++ 0 :: tl) 2 (zlen nm) = _). cbn [bind].
  destruct (same n nm) eqn:S; [|exact IH'].
  assert (V := value_ok (45 :: 45 :: nm) r tl). change ((45 :: 45 :: nm) ++ r ++ 0 :: tl) with (45 :: 45 :: nm ++ r ++ 0 :: tl) in V.
  replace (zlen (45 :: 45 :: nm)) with (2 + zlen nm) in V by (rewrite !zlen_cons; lia). rewrite V. cbn [bind].
  eexists. split; [reflexivity|]. destruct r as [|c r].
  - rewrite Z.add_0_r. replace (2 + zlen nm) with (zlen (45 :: 45 :: nm)) by (rewrite !zlen_cons; lia). apply (from_app (45 :: 45 :: nm)).
  - rewrite (Hr c r eq_refl). cbn [Z.eqb Pos.eqb app]. replace (45 :: 45 :: nm ++ 61 :: r ++ 0 :: tl) with ((45 :: 45 :: nm ++ [61]) ++ r ++ 0 :: tl) by (cbn; now rewrite <- app_assoc).
    replace (2 + zlen nm + 1) with (zlen (45 :: 45 :: nm ++ [61])) by (rewrite !zlen_cons, zlen_app; change (zlen [61]) with 1; lia). apply from_app.
Qed.
Lemma option_at_ok items opts argv index arg tl : Forall2 stored items opts -> Forall opt_ok opts -> zget argv index = Some (arg ++ 0 :: tl) ->
  nonul arg -> zlen arg < 2^63 -> (arg = [45] -> forall o, In o opts -> fst o <> 0) ->
  (exists letter v off, first_named opts arg letter v /\ option_at items (zlen items) argv index = Ok (letter, Some off) /\ from (arg ++ 0 :: tl) off = Ok (v ++ 0 :: tl)) \/
  (forall o w, In o opts -> ~ names o arg w) /\ option_at items (zlen items) argv index = Ok (63, None).
Proof.
  intros Hs Hok Ha Hn Hlen H45. unfold option_at. rewrite (zload_ok _ _ _ Ha). cbn [bind].
  assert (F : forall test r, (forall o v, In o opts -> names o arg v <-> test o = Some v) -> shows (arg ++ 0 :: tl) tl (search test opts) r ->
    (exists letter v off, first_named opts arg letter v /\ r = Ok (letter, Some off) /\ from (arg ++ 0 :: tl) off = Ok (v ++ 0 :: tl)) \/
    (forall o w, In o opts -> ~ names o arg w) /\ r = Ok (63, None)).
  { intros test r Ht Hr. pose proof (search_ok test opts arg Ht) as S. destruct (search test opts) as [[letter v]|]; [left|right; split; assumption].
    destruct Hr as (off & -> & Hf). exists letter, v, off. split; [exact S|]. split; [reflexivity|exact Hf]. }
  rewrite Forall_forall in Hok.
  destruct arg as [|a arg].
  { right. split; [intros o w _ N; inversion N|reflexivity]. }
  change (zload ((a :: arg) ++ 0 :: tl) 0) with (Ok a). cbn [bind]. destruct (Z.eqb_spec a 45) as [->|Na]; cbn [negb].
  2:{ right. split; [intros o w _ N; inversion N; congruence|reflexivity]. }
  apply nonul_cons in Hn as [_ Hn].
  assert (Hz : Z.to_nat (zlen items) = length items) by (unfold zlen; lia). rewrite Hz.
  destruct arg as [|c arg].
  - apply (F (fun o => if fst o =? 0 then after_letter [] else None)).
    + intros o v Ho. split; [intro N; inversion N|]. destruct (Z.eqb_spec (fst o) 0); [exfalso; now apply (H45 eq_refl o Ho)|discriminate].
    + assert (S := short_ok 0 [] (tl) items opts ltac:(lia) ltac:(intros []) Hs (or_intror (H45 eq_refl)) []). cbn [app] in *.
      replace (search (fun o => if fst o =? 0 then after_letter [] else None) opts) with (@None (Z * list Z)).
      2:{ clear - H45. specialize (H45 eq_refl). induction opts as [|o opts IH]; [reflexivity|]. cbn. destruct (Z.eqb_spec (fst o) 0) as [E|]; [exfalso; apply (H45 o); [now left|exact E]|].
          apply IH. intros p Hp. apply H45. now right. }
      change (zload (45 :: 0 :: tl) 1) with (Ok 0). cbn [bind Z.eqb negb].
      assert (G : forall items' opts', Forall2 stored items' opts' -> (forall o, In o opts' -> fst o <> 0) -> forall ipre,
                  opt_short (length items') (ipre ++ items') (zlen ipre) (45 :: 0 :: tl) 1 = Ok (63, None)).
      { clear. intros items opts H. induction H as [|[letter nm] o items opts [Hl _] H IH]; intros H0 ipre; [reflexivity|]. cbn [length opt_short].
        rewrite zload_ok with (v := (letter, nm)) by apply zget_mid. cbn [bind fst] in *. change (zload (45 :: 0 :: tl) 1) with (Ok 0). cbn [bind].
        destruct (Z.eqb_spec 0 letter) as [E|]; [exfalso; apply (H0 o); [now left|congruence]|].
        specialize (IH (fun p Hp => H0 p (or_intror Hp)) (ipre ++ [(letter, nm)])). rewrite <- app_assoc, zlen_app in IH. exact IH. }
      cbn [shows]. exact (G items opts Hs (H45 eq_refl) []).
  - change (zload ((45 :: c :: arg) ++ 0 :: tl) 1) with (Ok c). cbn [bind]. destruct (Z.eqb_spec c 45) as [->|Nc]; cbn [negb].
    2:{ apply nonul_cons in Hn as [Hc Hn]. apply (F (fun o => if fst o =? c then after_letter arg else None)).
        - intros o v _. rewrite names_letter by exact Nc. destruct (Z.eqb_spec (fst o) c); [tauto|]. split; [intros [? _]; contradiction|discriminate].
        - exact (short_ok c arg tl items opts Nc Hn Hs (or_introl Hc) []). }
    apply nonul_cons in Hn as [_ Hn]. rewrite (from_app_len [45] (45 :: arg ++ 0 :: tl) : from ((45 :: 45 :: arg) ++ 0 :: tl) 1 = _). cbn [bind].
    assert (exists nm more, arg = nm ++ match more with None => [] | Some w => 61 :: w end /\ ~ In 61 nm) as (nm & more & -> & Hnm).
    { clear. induction arg as [|x arg (nm & more & E & H)]; [exists [], None; split; [reflexivity|intros []]|].
      destruct (Z.eq_dec x 61) as [->|N]; [exists [], (Some arg); split; [reflexivity|intros []]|].
      exists (x :: nm), more. split; [cbn; now f_equal|]. intros [|]; auto. }
    assert (E : strcspn (45 :: (nm ++ match more with None => [] | Some w => 61 :: w end) ++ 0 :: tl) [61] = Ok (zlen (45 :: nm))).
    { destruct more as [w|].
      - replace (45 :: (nm ++ 61 :: w) ++ 0 :: tl) with ((45 :: nm) ++ 61 :: w ++ 0 :: tl) by (cbn; now rewrite <- app_assoc).
        apply strcspn_some; [|intros x [<-|Hx]; [reflexivity|]; apply one_of_not; intros [<-|[]]; contradiction|reflexivity].
        apply nonul_cons. split; [lia|]. apply nonul_app in Hn. exact (proj1 Hn).
      - rewrite app_nil_r in *. change (45 :: nm ++ 0 :: tl) with ((45 :: nm) ++ 0 :: tl). apply strcspn_none; [cbn; lia| |intros x [<-|Hx]; [reflexivity|]; apply one_of_not; intros [<-|[]]; contradiction].
        apply nonul_cons. split; [lia|exact Hn]. }
    rewrite E. cbn [bind]. set (r := match more with None => [] | Some w => 61 :: w end) in *.
    apply (F (long_test nm (match r with _ :: v => v | [] => [] end))).
    + intros o v Ho. unfold r. rewrite (names_long o nm more v (Hok o Ho) Hnm). destruct more; reflexivity.
    + rewrite zlen_cons. replace (1 + (zlen nm + 1)) with (2 + zlen nm) by lia. cbn [app]. rewrite <- app_assoc.
      apply (long_ok nm r tl items opts) with (ipre := []).
      * rewrite !zlen_cons in Hlen. lia.
      * intros n Hi. apply in_map_iff in Hi as (o & <- & Ho). destruct (Hok o Ho) as [_ Hm]. destruct (snd o); [apply Hm|exact I].
      * exact Hs.
      * intros x v Ex. unfold r in Ex. destruct more; [injection Ex as <- _; reflexivity|discriminate].
Qed.
