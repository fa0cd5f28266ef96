(** Proofs about the Windows poller when the user data differs from call to call: the invariant of [WinProofs] with the data in the
    cells ([dat]) and the data of the operations put off ([pen]) told apart. *)
From Coq Require Import Permutation.
From Verif Require Import Base SockModel PollModel WinModel WinSpec WinProofs WinRun WinDataSpec.
From Coq Require Import ZifyBool.

Record dinv (ids : list Z) (dat pen fd0 M : Z -> Z) (L : list wop) (base : Z) (s : wst) : Prop := mk_dinv {
  v_ids : NoDup ids /\ ~ In WAKE ids /\ zlen ids < 2 ^ 19 /\ 0 <= base;
  v_shape : shape (wp s);
  v_count : forall ev, w_events (wp s) = Live ev -> w_count (wp s) = cntu ev;
  v_fd : forall a, In a (WAKE :: ids) -> f_fd (wf s a) = fd0 a /\ fd0 a <> INVALID;
  v_id : forall a, In a (WAKE :: ids) -> mok (f_op (wf s a)) /\
           (f_op (wf s a) = 0 /\ f_pd (wf s a) = None \/ f_op (wf s a) <> 0 /\ holds_slot (wp s) (wf s a) (wd dat a));
  v_sep : forall a b q, In a (WAKE :: ids) -> In b (WAKE :: ids) -> a <> b -> f_pd (wf s a) = Some q -> f_pd (wf s b) = Some q -> False;
  v_full : forall j o, zget L j = Some o -> o_full o = true -> exists i, inr (wp s) i /\ o_pd o = Some (loc i) /\
             (exists e, slot (wp s) i = Some e /\ pf_fd e <> INVALID) /\ (exists c, cel (wp s) i = Some c /\ c_index c = i) /\
             forall a, In a (WAKE :: ids) -> f_pd (wf s a) <> Some (loc i);
  v_fsep : forall j j' o o', zget L j = Some o -> zget L j' = Some o' -> j <> j' -> o_full o = true -> o_full o' = true -> o_pd o <> o_pd o';
  v_op : forall j o, zget L j = Some o -> o_full o = false -> exists a, In a ids /\ o_fdt o = Some a /\ f_opi (wf s a) = base + j /\
           o_data o = pen a /\ Z.land (o_add o) (o_del o) = 0 /\ 0 <= o_add o < 8 /\ 0 <= o_del o < 8;
  v_opi : forall a, In a ids -> f_opi (wf s a) = -1 \/ exists o, zget L (f_opi (wf s a) - base) = Some o /\ o_full o = false /\ o_fdt o = Some a;
  v_own : forall i e, slot (wp s) i = Some e -> pf_fd e <> INVALID ->
            (exists a, In a (WAKE :: ids) /\ f_pd (wf s a) = Some (loc i)) \/ (exists j o, zget L j = Some o /\ o_full o = true /\ o_pd o = Some (loc i));
  v_mask : forall a, In a ids -> (f_opi (wf s a) = -1 -> M a = f_op (wf s a)) /\
             (forall o, zget L (f_opi (wf s a) - base) = Some o -> M a = Z.ldiff (Z.lor (f_op (wf s a)) (o_add o)) (o_del o) /\ Z.land (M a) 3 <> 0);
  v_wake : f_op (wf s WAKE) = 1 /\ f_pd (wf s WAKE) = Some (loc 0);
  v_num : w_count (wp s) <= cntb (fun a => has (wf s a)) ids + 1 + cntb o_full L /\ exists own, own_ok ids (wf s) L own
}.

Lemma dinv_same ids dat pen fd0 M L base s p' : dinv ids dat pen fd0 M L base s -> same (wp s) p' -> dinv ids dat pen fd0 M L base (mk_wst p' (wf s)).
Proof.
  intros V S. assert (S' := S). destruct S' as (Sh & Sc & Scap & Scnt & _). assert (R : forall i, inr p' i <-> inr (wp s) i) by (intros i; unfold inr; rewrite Scap; tauto).
  destruct V. constructor; cbn; auto.
  - intros ev' E'. rewrite Sc. destruct v_shape0 as (k & ev & _ & _ & _ & _ & Ev & _). rewrite (Scnt _ _ Ev E'). auto.
  - intros a Ha. destruct (v_id0 a Ha) as (Mo & [H|(H & i & I1 & I2 & (e & E1 & E2 & E3) & (c & C1 & C2 & C3 & C4))]); split; auto. right. split; [exact H|].
    exists i. split; [now apply R|]. split; [exact I2|]. destruct (same_slot _ _ _ _ S E1) as (e' & X1 & X2 & X3). destruct (same_cel _ _ _ _ S I1 C1) as (c' & Y1 & Y2 & Y3 & Y4).
    split; [exists e'; rewrite X2, X3; auto|exists c'; rewrite Y2, Y3, Y4; auto].
  - intros j o Hj Ho. destruct (v_full0 j o Hj Ho) as (i & I1 & I2 & (e & E1 & E2) & (c & C1 & C2) & A). exists i. split; [now apply R|]. split; [exact I2|].
    destruct (same_slot _ _ _ _ S E1) as (e' & X1 & X2 & X3). destruct (same_cel _ _ _ _ S I1 C1) as (c' & Y1 & Y2 & _).
    split; [exists e'; rewrite X2; auto|]. split; [exists c'; rewrite Y2; auto|exact A].
  - intros i e E1 E2. destruct (same_slot' _ _ _ _ S E1) as (e' & X1 & X2 & X3). apply (v_own0 i e' X1). congruence.
  - rewrite Sc. exact v_num0.
Qed.

(** A structure's slot is set (it had it before, or the slot was free). *)
Lemma dinv_set ids dat dat' pen fd0 M M' L base s p' a i mask opi :
  dinv ids dat pen fd0 M L base s -> In a ids -> unowned ids (wf s) L a -> f_opi (wf s a) = -1 -> opi = -1 -> mok mask -> mask <> 0 ->
  M' a = mask -> (forall b, In b ids -> b <> a -> M' b = M b) -> (forall b, In b ids -> b <> a -> dat' b = dat b) ->
  shape p' -> w_cap (wp s) <= w_cap p' -> inr p' i ->
  (f_pd (wf s a) = Some (loc i) /\ w_count p' = w_count (wp s) /\ inr (wp s) i \/
   f_pd (wf s a) = None /\ w_count p' = w_count (wp s) + 1 /\ (forall e, slot (wp s) i = Some e -> pf_fd e = INVALID)) ->
  (forall ev, w_events p' = Live ev -> w_count p' = cntu ev) ->
  (forall j, j <> i -> inr (wp s) j -> slot p' j = slot (wp s) j /\ cel p' j = cel (wp s) j) ->
  (forall j e, j <> i -> w_cap (wp s) <= j -> slot p' j = Some e -> pf_fd e = INVALID) ->
  (exists e, slot p' i = Some e /\ pf_fd e = f_fd (wf s a) /\ pf_ev e = win_events mask) ->
  (exists c, cel p' i = Some c /\ c_index c = i /\ c_data c = dat' a /\ Z.testbit (c_edge c) 2 = Z.testbit mask 2) ->
  dinv ids dat' pen fd0 M' L base (mk_wst p' (upf (wf s) a (mk_wfd (f_fd (wf s a)) mask (Some (loc i)) opi))).
Proof.
  intros V Ha Fsh Hopi -> Mo Mn MA MB DB Sh Cap Ri Old Cnt Keep New Se Ce. destruct V.
  assert (B0 : 0 <= base) by tauto. assert (Nw : a <> WAKE) by (intros ->; tauto). assert (Ia : In a (WAKE :: ids)) by (now right).
  assert (Mono : forall j, inr (wp s) j -> inr p' j) by (unfold inr; intros; lia).
  (* other owners use other slots *)
  assert (Oth : forall b j e, In b (WAKE :: ids) -> b <> a -> inr (wp s) j -> slot (wp s) j = Some e -> pf_fd e <> INVALID -> f_pd (wf s b) = Some (loc j) -> j <> i).
  { intros b j e Hb Hne Hj Se' Ne P ->. destruct Old as [(O1 & _ & _)|(_ & _ & O3)]; [eapply v_sep0; eauto|]. apply Ne. auto. }
  assert (Up : forall b, b <> a -> upf (wf s) a (mk_wfd (f_fd (wf s a)) mask (Some (loc i)) (-1)) b = wf s b).
  { intros b Hb. unfold upf. destruct (b =? a) eqn:E; [lia|reflexivity]. }
  assert (UpA : upf (wf s) a (mk_wfd (f_fd (wf s a)) mask (Some (loc i)) (-1)) a = mk_wfd (f_fd (wf s a)) mask (Some (loc i)) (-1)).
  { unfold upf. rewrite Z.eqb_refl. reflexivity. }
  assert (Dw : forall b, In b (WAKE :: ids) -> b <> a -> wd dat' b = wd dat b). { intros b [<-|Hb] Hne; [reflexivity|]. unfold wd. now rewrite DB. }
  constructor; cbn [wp wf]; auto.
  - intros b Hb. destruct (Z.eq_dec b a) as [->|Hne]; [rewrite UpA; cbn; auto|rewrite Up by exact Hne; auto].
  - intros b Hb. destruct (Z.eq_dec b a) as [->|Hne].
    + rewrite UpA. cbn. split; [exact Mo|]. right. split; [exact Mn|]. exists i. cbn. split; [exact Ri|]. split; [reflexivity|]. split; [exact Se|].
      unfold wd. destruct (a =? WAKE) eqn:E; [lia|exact Ce].
    + rewrite Up by exact Hne. rewrite Dw by assumption. destruct (v_id0 b Hb) as (Mb & [H|(H & j & I1 & I2 & (e & E1 & E2 & E3) & C)]); split; auto. right. split; [exact H|].
      assert (j <> i). { eapply Oth; eauto. rewrite E2. destruct (v_fd0 b Hb) as [-> X]; exact X. }
      destruct (Keep j ltac:(assumption) I1) as [K1 K2]. exists j. split; [now apply Mono|]. split; [exact I2|]. rewrite K1, K2. eauto.
  - intros b c q Hb Hc Hne. destruct (Z.eq_dec b a) as [->|Hb'].
    + rewrite UpA, Up by congruence. cbn. intros H Hq. injection H as <-. destruct (v_id0 c Hc) as (_ & [[_ H]|(_ & j & I1 & I2 & (e & E1 & E2 & _) & _)]); [congruence|].
      rewrite I2 in Hq. injection Hq as Hq. destruct Old as [(O1 & _ & O2)|(_ & _ & O3)].
      * apply (loc_inj (wp s)) in Hq; auto. subst j. eapply (v_sep0 a c (loc i)); eauto.
      * assert (j = i). { apply (loc_inj p'); auto. } subst j. apply (proj2 (v_fd0 c Hc)). rewrite <- (proj1 (v_fd0 c Hc)), <- E2. auto.
    + rewrite (Up b) by exact Hb'. destruct (Z.eq_dec c a) as [->|Hc'].
      * rewrite UpA. cbn. intros Hq H. injection H as <-. destruct (v_id0 b Hb) as (_ & [[_ H]|(_ & j & I1 & I2 & (e & E1 & E2 & _) & _)]); [congruence|].
        rewrite I2 in Hq. injection Hq as Hq. destruct Old as [(O1 & _ & O2)|(_ & _ & O3)].
        -- apply (loc_inj (wp s)) in Hq; auto. subst j. eapply (v_sep0 b a (loc i)); eauto.
        -- assert (j = i). { apply (loc_inj p'); auto. } subst j. apply (proj2 (v_fd0 b Hb)). rewrite <- (proj1 (v_fd0 b Hb)), <- E2. auto.
      * rewrite (Up c) by exact Hc'. eauto.
  - intros j o Hj Ho. destruct (v_full0 j o Hj Ho) as (n & I1 & I2 & (e & E1 & E2) & C & A). exists n.
    assert (n <> i). { intros ->. destruct Old as [(O1 & _ & _)|(_ & _ & O3)]; [eapply A; eauto|]. auto. }
    destruct (Keep n ltac:(assumption) I1) as [K1 K2]. split; [now apply Mono|]. split; [exact I2|]. rewrite K1, K2. split; [eauto|]. split; [exact C|].
    intros b Hb. destruct (Z.eq_dec b a) as [->|Hne]; [|rewrite Up by exact Hne; auto]. rewrite UpA. cbn. intros Hq. injection Hq as Hq. apply (loc_inj p') in Hq; auto.
  - intros j o Hj Ho. destruct (v_op0 j o Hj Ho) as (b & B1 & B2 & B3 & B4). exists b. split; [exact B1|]. split; [exact B2|]. split; [|exact B4].
    destruct (Z.eq_dec b a) as [->|Hne]; [|now rewrite Up]. apply zget_Some_range in Hj. lia.
  - intros b Hb. destruct (Z.eq_dec b a) as [->|Hne]; [rewrite UpA; now left|rewrite Up by exact Hne; auto].
  - intros j e E1 E2. destruct (Z.eq_dec j i) as [->|Hj]; [left; exists a; rewrite UpA; auto|].
    destruct (Z_lt_ge_dec j (w_cap (wp s))) as [Hlt|Hge]; [|exfalso; apply E2; eapply New; eauto; lia].
    assert (Rj : inr (wp s) j). { pose proof (slot_range _ _ _ Sh E1) as X. unfold inr in *. lia. } destruct (Keep j Hj Rj) as [K1 _]. rewrite K1 in E1.
    destruct (v_own0 j e E1 E2) as [(b & B1 & B2)|H]; [|now right]. left. exists b. split; [exact B1|]. destruct (Z.eq_dec b a) as [->|Hne]; [|now rewrite Up].
    exfalso. destruct Old as [(O1 & _ & O2)|(O1 & _)]; [|congruence]. rewrite O1 in B2. injection B2 as B2. apply (loc_inj (wp s)) in B2; auto.
  - intros b Hb. destruct (Z.eq_dec b a) as [->|Hne].
    + rewrite UpA. cbn [f_opi f_op]. split; [auto|]. intros o Ho. apply zget_Some_range in Ho. lia.
    + rewrite Up by exact Hne. rewrite MB by assumption. auto.
  - rewrite Up by congruence. auto.
  - split; [|now apply own_set]. rewrite cntb_upf by tauto. unfold has at 2 3. cbn. destruct Old as [(-> & -> & _)|(-> & -> & _)]; lia.
Qed.

(** A structure gives up its slot. *)
Lemma dinv_clear ids dat pen fd0 M M' L base s p' a i opi :
  dinv ids dat pen fd0 M L base s -> In a ids -> f_opi (wf s a) = -1 -> opi = -1 ->
  M' a = 0 -> (forall b, In b ids -> b <> a -> M' b = M b) ->
  f_pd (wf s a) = Some (loc i) -> inr (wp s) i ->
  shape p' -> w_cap p' = w_cap (wp s) -> w_count p' = w_count (wp s) - 1 -> (forall ev, w_events p' = Live ev -> w_count p' = cntu ev) ->
  (forall j, j <> i -> inr (wp s) j -> slot p' j = slot (wp s) j /\ cel p' j = cel (wp s) j) ->
  (exists e, slot p' i = Some e /\ pf_fd e = INVALID) ->
  dinv ids dat pen fd0 M' L base (mk_wst p' (upf (wf s) a (mk_wfd (f_fd (wf s a)) 0 None opi))).
Proof.
  intros V Ha Hopi -> MA MB Pa Ri Sh Cap Cn Cnt Keep (e0 & Se & Fe). destruct V.
  assert (B0 : 0 <= base) by tauto. assert (Nw : a <> WAKE) by (intros ->; tauto). assert (Ia : In a (WAKE :: ids)) by (now right).
  assert (Rr : forall j, inr p' j <-> inr (wp s) j) by (unfold inr; rewrite Cap; tauto).
  assert (Up : forall b, b <> a -> upf (wf s) a (mk_wfd (f_fd (wf s a)) 0 None (-1)) b = wf s b).
  { intros b Hb. unfold upf. destruct (b =? a) eqn:E; [lia|reflexivity]. }
  assert (UpA : upf (wf s) a (mk_wfd (f_fd (wf s a)) 0 None (-1)) a = mk_wfd (f_fd (wf s a)) 0 None (-1)).
  { unfold upf. rewrite Z.eqb_refl. reflexivity. }
  constructor; cbn [wp wf]; auto.
  - intros b Hb. destruct (Z.eq_dec b a) as [->|Hne]; [rewrite UpA; cbn; auto|rewrite Up by exact Hne; auto].
  - intros b Hb. destruct (Z.eq_dec b a) as [->|Hne].
    + rewrite UpA. cbn. split; [unfold mok; lia|]. now left.
    + rewrite Up by exact Hne. destruct (v_id0 b Hb) as (Mb & [H|(H & j & I1 & I2 & E & C)]); split; auto. right. split; [exact H|].
      assert (j <> i). { intros ->. eapply (v_sep0 b a); eauto. }
      destruct (Keep j ltac:(assumption) I1) as [K1 K2]. exists j. split; [now apply Rr|]. split; [exact I2|]. rewrite K1, K2. auto.
  - intros b c q Hb Hc Hne. destruct (Z.eq_dec b a) as [->|Hb']; [rewrite UpA; discriminate|]. rewrite (Up b) by exact Hb'.
    destruct (Z.eq_dec c a) as [->|Hc']; [rewrite UpA; discriminate|]. rewrite Up by exact Hc'. eauto.
  - intros j o Hj Ho. destruct (v_full0 j o Hj Ho) as (n & I1 & I2 & E & C & A). exists n.
    assert (n <> i). { intros ->. eapply A; eauto. }
    destruct (Keep n ltac:(assumption) I1) as [K1 K2]. split; [now apply Rr|]. split; [exact I2|]. rewrite K1, K2. split; [exact E|]. split; [exact C|].
    intros b Hb. destruct (Z.eq_dec b a) as [->|Hne]; [rewrite UpA; discriminate|]. rewrite Up by exact Hne; auto.
  - intros j o Hj Ho. destruct (v_op0 j o Hj Ho) as (b & B1 & B2 & B3 & B4). exists b. split; [exact B1|]. split; [exact B2|]. split; [|exact B4].
    destruct (Z.eq_dec b a) as [->|Hne]; [|now rewrite Up]. apply zget_Some_range in Hj. lia.
  - intros b Hb. destruct (Z.eq_dec b a) as [->|Hne]; [rewrite UpA; now left|rewrite Up by exact Hne; auto].
  - intros j e E1 E2. destruct (Z.eq_dec j i) as [->|Hj]; [exfalso; congruence|].
    assert (Rj : inr (wp s) j) by (apply Rr; eapply slot_range; eauto). destruct (Keep j Hj Rj) as [K1 _]. rewrite K1 in E1.
    destruct (v_own0 j e E1 E2) as [(b & B1 & B2)|H]; [|now right]. left. exists b. split; [exact B1|]. destruct (Z.eq_dec b a) as [->|Hne]; [|now rewrite Up].
    exfalso. rewrite Pa in B2. injection B2 as B2. apply (loc_inj (wp s)) in B2; auto.
  - intros b Hb. destruct (Z.eq_dec b a) as [->|Hne].
    + rewrite UpA. cbn [f_opi f_op]. split; [auto|]. intros o Ho. apply zget_Some_range in Ho. lia.
    + rewrite Up by exact Hne. rewrite MB by assumption. auto.
  - rewrite Up by congruence. auto.
  - split; [|apply own_none; [reflexivity|apply v_num0]]. rewrite cntb_upf by tauto. unfold has at 2 3. cbn. rewrite Pa. rewrite Cn. lia.
Qed.

(** A deletion that was put off is carried out. *)
Lemma dinv_drop ids dat pen fd0 M o L base s p' i :
  dinv ids dat pen fd0 M (o :: L) base s -> o_full o = true -> o_pd o = Some (loc i) -> inr (wp s) i ->
  shape p' -> w_cap p' = w_cap (wp s) -> w_count p' = w_count (wp s) - 1 -> (forall ev, w_events p' = Live ev -> w_count p' = cntu ev) ->
  (forall j, j <> i -> inr (wp s) j -> slot p' j = slot (wp s) j /\ cel p' j = cel (wp s) j) ->
  (exists e, slot p' i = Some e /\ pf_fd e = INVALID) ->
  dinv ids dat pen fd0 M L (base + 1) (mk_wst p' (wf s)).
Proof.
  intros V Fo Po Ri Sh Cap Cn Cnt Keep (e0 & Se & Fe). destruct V.
  assert (Rr : forall j, inr p' j <-> inr (wp s) j) by (unfold inr; rewrite Cap; tauto).
  assert (B0 : 0 <= base) by tauto. assert (Z0 : zget (o :: L) 0 = Some o) by apply zget_cons0.
  assert (ZS : forall j x, zget L j = Some x -> zget (o :: L) (j + 1) = Some x).
  { intros j x H. pose proof (zget_Some_range _ _ _ H). rewrite zget_consS by lia. replace (j + 1 - 1) with j by lia. exact H. }
  destruct (v_full0 0 o Z0 Fo) as (i' & I1 & I2 & _ & _ & A0). rewrite Po in I2. injection I2 as I2. apply (loc_inj (wp s)) in I2; auto. subst i'.
  assert (Zn : forall n x, zget (o :: L) n = Some x -> o_full x = false -> zget L (n - 1) = Some x).
  { intros n x H1 H2. pose proof (zget_Some_range _ _ _ H1). rewrite zget_cons in H1. destruct (n =? 0) eqn:E; [congruence|]. exact H1. }
  constructor; cbn [wp wf]; auto.
  - split; [tauto|]. split; [tauto|]. split; [tauto|lia].
  - intros b Hb. destruct (v_id0 b Hb) as (Mb & [H|(H & j & I3 & I4 & E & C)]); split; auto. right. split; [exact H|].
    assert (j <> i). { intros ->. eapply A0; eauto. }
    destruct (Keep j ltac:(assumption) I3) as [K1 K2]. exists j. split; [now apply Rr|]. split; [exact I4|]. rewrite K1, K2. auto.
  - intros j x Hj Hx. destruct (v_full0 (j + 1) x (ZS _ _ Hj) Hx) as (n & I3 & I4 & E & C & A). exists n.
    assert (n <> i). { intros ->. apply (v_fsep0 0 (j + 1) o x); auto; [|congruence]. apply zget_Some_range in Hj. lia. }
    destruct (Keep n ltac:(assumption) I3) as [K1 K2]. split; [now apply Rr|]. split; [exact I4|]. rewrite K1, K2. auto.
  - intros j j' x x' H1 H2 Hne. apply (v_fsep0 (j + 1) (j' + 1)); auto. lia.
  - intros j x Hj Hx. destruct (v_op0 (j + 1) x (ZS _ _ Hj) Hx) as (b & B1 & B2 & B3 & B4). exists b. split; [exact B1|]. split; [exact B2|]. split; [lia|exact B4].
  - intros b Hb. destruct (v_opi0 b Hb) as [H|(x & X1 & X2 & X3)]; [now left|]. right. exists x. split; [|auto]. replace (f_opi (wf s b) - (base + 1)) with (f_opi (wf s b) - base - 1) by lia. auto.
  - intros j e E1 E2. destruct (Z.eq_dec j i) as [->|Hj]; [exfalso; congruence|].
    assert (Rj : inr (wp s) j) by (apply Rr; eapply slot_range; eauto). destruct (Keep j Hj Rj) as [K1 _]. rewrite K1 in E1.
    destruct (v_own0 j e E1 E2) as [H|(n & x & X1 & X2 & X3)]; [now left|]. right. rewrite zget_cons in X1. destruct (n =? 0) eqn:E; [|eauto].
    injection X1 as <-. exfalso. rewrite Po in X3. injection X3 as X3. apply (loc_inj (wp s)) in X3; auto.
  - intros b Hb. destruct (v_mask0 b Hb) as [M1 M2]. split; [exact M1|]. intros x Hx. apply (M2 x). apply ZS in Hx. replace (f_opi (wf s b) - (base + 1) + 1) with (f_opi (wf s b) - base) in Hx by lia. exact Hx.
  - destruct v_num0 as [v_num0 v_own1]. split; [|exact (own_drop _ _ _ _ Fo v_own1)]. cbn [cntb] in v_num0. rewrite Fo in v_num0. lia.
Qed.

Lemma dinv_count ids dat pen fd0 M L base s a : dinv ids dat pen fd0 M L base s -> In a ids -> has (wf s a) = false -> unowned ids (wf s) L a -> w_count (wp s) < 2 ^ 19.
Proof.
  intros V Ha Hh Hf. destruct (v_num _ _ _ _ _ _ _ _ V) as [V1 _]. destruct (v_ids _ _ _ _ _ _ _ _ V) as (V2 & _ & V3 & _). pose proof (own_bound _ _ _ _ V2 Ha Hh Hf). lia.
Qed.
(** Only the data of registered structures matters. *)
Lemma dinv_dext ids dat dat' pen fd0 M L base s : dinv ids dat pen fd0 M L base s -> (forall a, In a ids -> f_op (wf s a) = 0 \/ dat' a = dat a) -> dinv ids dat' pen fd0 M L base s.
Proof.
  intros V E. destruct V. constructor; auto. intros a Ha. destruct (v_id0 a Ha) as [Mo [D|[D1 D2]]]; split; auto. right. split; [exact D1|].
  replace (wd dat' a) with (wd dat a); [exact D2|]. unfold wd. destruct Ha as [<-|Ha]; [reflexivity|]. destruct (E a Ha) as [H|H]; [contradiction|now rewrite H].
Qed.
(** sc_sock_poll_add when no thread polls. *)
Lemma d_add_ok ids dat pen fd0 M L base s a ev d0 o : dinv ids dat pen fd0 M L base s -> w_polling (wp s) = false -> In a ids -> unowned ids (wf s) L a -> f_opi (wf s a) = -1 ->
  0 <= ev < 8 -> m_chunk o = true ->
  exists s' rc, win_add s a ev d0 o = Ok (s', rc) /\ w_polling (wp s') = false /\ capr s s' /\ f_opi (wf s' a) = -1 /\
    ((rc = -1 /\ m_events o = false /\ dinv ids dat pen fd0 M L base s' /\ wf s' = wf s) \/
     (rc = 0 /\ dinv ids (if wsettle (Z.lor (f_op (wf s a)) ev) =? f_op (wf s a) then dat else upd dat a d0) pen fd0 (fun b => if b =? a then wsettle (Z.lor (M a) ev) else M b) L base s' /\ f_op (wf s' a) = wsettle (Z.lor (f_op (wf s a)) ev) /\ forall b, b <> a -> wf s' b = wf s b)).
Proof.
  intros V Np Ha Hf Ho Hev Mc. assert (V' := V). destruct V'.
  assert (Ia : In a (WAKE :: ids)) by (now right). destruct (v_id0 a Ia) as [Mo Hold]. destruct (v_mask0 a Ha) as [MA _]. specialize (MA Ho).
  unfold win_add. rewrite Np. set (t := wf s a) in *. set (mask := if Z.lor (f_op t) ev =? SEDGE then 0 else Z.lor (f_op t) ev).
  assert (Em : mask = wsettle (Z.lor (f_op t) ev)) by reflexivity.
  assert (Mm : mok mask /\ (f_op t <> 0 -> mask <> 0)).
  { rewrite Em. destruct Mo as [Mo1 Mo2]. assert (C : f_op t = 0 \/ f_op t = 1 \/ f_op t = 2 \/ f_op t = 3 \/ f_op t = 5 \/ f_op t = 6 \/ f_op t = 7) by lia.
    assert (C' : ev = 0 \/ ev = 1 \/ ev = 2 \/ ev = 3 \/ ev = 4 \/ ev = 5 \/ ev = 6 \/ ev = 7) by lia.
    unfold mok. decompose [or] C; decompose [or] C'; match goal with H : f_op t = _ |- _ => rewrite H end; subst ev; cbn; lia. }
  destruct Mm as [Mm Mn]. destruct (f_op t =? mask) eqn:Eq.
  { exists s, 0. split; [reflexivity|]. split; [exact Np|]. split; [split; [reflexivity|apply Z.le_refl]|]. split; [exact Ho|]. right. split; [reflexivity|]. split; [|split; [fold t; rewrite <- Em; lia|auto]].
    fold t; rewrite <- Em, (Z.eqb_sym mask), Eq. constructor; auto. intros b Hb. cbn beta. destruct (b =? a) eqn:E; [|auto]. apply Z.eqb_eq in E. subst b. fold t. rewrite MA. destruct (v_mask0 a Ha) as [W1 W2]. fold t in W1, W2. fold t in Ho.
    split; [intros _; rewrite <- Em; lia|]. intros x Hx. exfalso. apply zget_Some_range in Hx. rewrite Ho in Hx. destruct v_ids0 as (_ & _ & _ & B). lia. }
  assert (Mz : mask <> 0). { destruct Hold as [[H _]|[H _]]; [lia|auto]. }
  (* the common tail *)
  assert (Tail : forall p1 i, shape p1 -> w_cap (wp s) <= w_cap p1 -> inr p1 i -> rest p1 = rest (wp s) ->
    (f_pd t = Some (loc i) /\ w_count p1 = w_count (wp s) /\ inr (wp s) i \/ f_pd t = None /\ w_count p1 = w_count (wp s) + 1 /\ (forall e, slot (wp s) i = Some e -> pf_fd e = INVALID)) ->
    counted p1 ->
    (forall j, j <> i -> inr (wp s) j -> slot p1 j = slot (wp s) j /\ cel p1 j = cel (wp s) j) ->
    (forall j e, j <> i -> w_cap (wp s) <= j -> slot p1 j = Some e -> pf_fd e = INVALID) ->
    (exists e, slot p1 i = Some e /\ pf_fd e = f_fd t) ->
    (exists c, cel p1 i = Some c /\ c_index c = i /\ (Z.testbit (c_edge c) 2 = true -> Z.testbit mask 2 = true)) ->
    exists s' rc, (let* ev := ev_block p1 in
        let* e := zload ev i in
        let* ev := zput ev i (mk_pfd (pf_fd e) (win_events mask) 0) in
        let p := set_events p1 (Live ev) in
        let* c := cell_get p (loc i) in
        let edge := if Z.land mask SEDGE =? 0 then c_edge c else Z.lor (c_edge c) SEDGE in
        let* p := cell_put p (loc i) (mk_cell edge (c_index c) d0) in
        Ok (mk_wst p (upf (wf s) a (mk_wfd (f_fd t) mask (Some (loc i)) (f_opi t))), 0)) = Ok (s', rc) /\ w_polling (wp s') = false /\ capr s s' /\ f_opi (wf s' a) = -1 /\
     rc = 0 /\ dinv ids (if wsettle (Z.lor (f_op (wf s a)) ev) =? f_op (wf s a) then dat else upd dat a d0) pen fd0 (fun b => if b =? a then wsettle (Z.lor (M a) ev) else M b) L base s' /\ f_op (wf s' a) = wsettle (Z.lor (f_op (wf s a)) ev) /\ forall b, b <> a -> wf s' b = wf s b).
  { intros p1 i Sh1 Cap1 Ri R1 Old C1 Keep New (e & Se & Fe) (c & Ce & Ci & Cb).
    destruct (ev_block_ok p1 Sh1) as (ev1 & EB & El & Len & Sl). rewrite EB. cbn [bind]. assert (Ge : zget ev1 i = Some e) by (rewrite <- Sl; exact Se).
    rewrite (zload_ok _ _ _ Ge). cbn [bind]. set (e' := mk_pfd (pf_fd e) (win_events mask) 0). destruct (ev_put_ok p1 ev1 i e' Sh1 El Ri) as (P1 & P2 & P3 & P4 & P5).
    rewrite P1. cbn [bind]. set (p2 := set_events p1 (Live (zset ev1 i e'))) in *. assert (Ce2 : cel p2 i = Some c) by (rewrite P5; exact Ce). rewrite (cell_get_ok _ _ _ Ce2). cbn [bind].
    set (edge := if Z.land mask SEDGE =? 0 then c_edge c else Z.lor (c_edge c) SEDGE).
    destruct (cell_put_ok p2 i (mk_cell edge (c_index c) d0) P2 Ri) as (d & Q1 & Q2 & Q3 & Q4). cbv zeta. rewrite Q1. cbn [bind]. eexists _, 0. split; [reflexivity|].
    cbn [wp wf]. split; [change (w_polling (set_data p2 d)) with (w_polling p1); unfold rest in R1; congruence|]. split; [split; [exact R1|exact Cap1]|]. split; [unfold upf; rewrite Z.eqb_refl; exact Ho|]. split; [reflexivity|].
    split; [|split; [unfold upf; rewrite Z.eqb_refl; exact Em|intros b Hb; unfold upf; rewrite (proj2 (Z.eqb_neq b a) Hb); reflexivity]].
    fold t; rewrite <- Em, (Z.eqb_sym mask), Eq. apply (dinv_set ids dat (upd dat a d0) pen fd0 M _ L base s (set_data p2 d) a i mask (f_opi t)); auto.
    - rewrite Z.eqb_refl, MA. reflexivity.
    - intros b Hb Hne. destruct (b =? a) eqn:E; [lia|reflexivity].
    - intros b Hb Hne. unfold upd. destruct (b =? a) eqn:E; [lia|reflexivity].
    - intros evx Ex. cbn in Ex. injection Ex as <-. change (w_count (set_data p2 d)) with (w_count p1). rewrite (cntu_set _ _ e) by exact Ge. rewrite (C1 ev1 El). unfold inuse, e'. cbn. lia.
    - intros j Hj Rj. destruct (Keep j Hj Rj) as [K1 K2]. split; [change (slot (set_data p2 d) j) with (slot p2 j); now rewrite P4|]. rewrite Q4 by (auto; unfold inr in *; cbn; lia). now rewrite P5.
    - intros j x Hj Rj Hx. change (slot (set_data p2 d) j) with (slot p2 j) in Hx. rewrite P4 in Hx by auto. eauto.
    - exists e'. split; [exact P3|]. split; [exact Fe|reflexivity].
    - eexists. split; [exact Q3|]. cbn [c_edge c_index c_data]. split; [exact Ci|]. split; [unfold upd; now rewrite Z.eqb_refl|]. unfold edge. change SEDGE with (2 ^ 2). rewrite wland_bit by lia.
      destruct (Z.testbit mask 2) eqn:Tb; cbn [negb].
      + rewrite Z.lor_spec. change (Z.testbit (2 ^ 2) 2) with true. apply orb_true_r.
      + destruct (Z.testbit (c_edge c) 2); [|reflexivity]. symmetry. apply Cb. reflexivity. }
  unfold slot_for. fold t in Hold. destruct (f_op t =? 0) eqn:E0.
  - destruct Hold as [[_ Pd]|[H _]]; [|lia].
    destruct (expand_ok (wp s) o v_shape0 v_count0 (dinv_count _ _ _ _ _ _ _ _ a V Ha ltac:(unfold has; fold t; rewrite Pd; reflexivity) Hf) Mc) as [[X1 X2]|(p1 & X1 & Sh1 & Cap1 & Cn1 & Cl1 & C1 & R1 & Keep1 & New1)]; rewrite X1; cbn [bind].
    + exists s, (-1). replace (negb (-1 =? 0)) with true by reflexivity. split; [destruct s; reflexivity|]. split; [exact Np|]. split; [split; [reflexivity|apply Z.le_refl]|]. split; [exact Ho|]. left. auto.
    + replace (negb (0 =? 0)) with false by reflexivity. set (p2 := set_count p1 (w_count p1 + 1)). assert (Sh2 : shape p2) by exact Sh1.
      destruct (ev_block_ok p2 Sh2) as (ev2 & EB & El & Len & Sl). rewrite EB. cbn [bind].
      destruct (free_slot_found ev2 0) as (i & e & F1 & F2 & F3). { change (w_events p2) with (w_events p1) in El. rewrite <- (C1 _ El), Len. exact Cl1. }
      rewrite F1. cbn [or_ub bind]. rewrite Z.add_0_l. assert (Ri : inr p2 i) by (apply (slot_range p2 i e Sh2); rewrite Sl; exact F2).
      rewrite (loc_inner p2 i Sh2 Ri). cbn [bind]. destruct (cel_in p2 i Sh2 Ri) as [c Ce]. rewrite (cell_get_ok _ _ _ Ce). cbn [bind].
      destruct (cell_put_ok p2 i (mk_cell 0 i (c_data c)) Sh2 Ri) as (d & Q1 & Q2 & Q3 & Q4). rewrite Q1. cbn [bind]. rewrite (zload_ok _ _ _ F2). cbn [bind].
      destruct (ev_put_ok (set_data p2 d) ev2 i (mk_pfd (f_fd t) (pf_ev e) (pf_rev e)) Q2 El Ri) as (P1 & P2 & P3 & P4 & P5). rewrite P1. cbn [bind].
      destruct (Tail (set_events (set_data p2 d) (Live (zset ev2 i (mk_pfd (f_fd t) (pf_ev e) (pf_rev e))))) i) as (s' & rc & T1 & T2 & T3 & T4 & T5 & T6); auto.
      * right. split; [exact Pd|]. split; [cbn; lia|]. intros e1 H1. pose proof (slot_range _ _ _ v_shape0 H1) as R. destruct (Keep1 i R) as [K1 _].
        assert (slot p1 i = Some e) by (change (slot p1 i) with (slot p2 i); rewrite Sl; exact F2). congruence.
      * intros evx Ex. cbn in Ex. injection Ex as <-. cbn [w_count set_events set_data]. rewrite (cntu_set _ _ e) by exact F2. change (w_events p2) with (w_events p1) in El. unfold p2. cbn [w_count set_count].
        rewrite (C1 ev2 El). unfold inuse. cbn [pf_fd]. rewrite F3, Z.eqb_refl. destruct (v_fd0 a Ia) as [Fd1 Fd2]. fold t in Fd1. destruct (f_fd t =? INVALID) eqn:Ei; lia.
      * intros j Hj Rj. destruct (Keep1 j Rj) as [K1 K2]. rewrite P4 by auto. rewrite P5. change (slot (set_data p2 d) j) with (slot p1 j). split; [exact K1|]. rewrite Q4; auto. unfold inr in *. cbn. lia.
      * intros j e1 Hj Rj He. rewrite P4 in He by auto. change (slot (set_data p2 d) j) with (slot p1 j) in He. eauto.
      * eexists. split; [exact P3|]. reflexivity.
      * eexists. split; [rewrite P5; exact Q3|]. split; [reflexivity|]. cbn. discriminate.
      * exists s', rc. split; [exact T1|]. split; [exact T2|]. split; [exact T3|]. split; [exact T4|]. right. auto.
  - destruct Hold as [[H _]|(_ & i & Ri & Pd & (e & Se & Fe & _) & (c & Ce & Ci & _ & Cb))]; [lia|]. rewrite Pd. cbn [or_ub bind]. rewrite (cell_get_ok _ _ _ Ce). cbn [bind]. rewrite Ci.
    destruct (Tail (wp s) i) as (s' & rc & T1 & T2 & T3 & T4 & T5 & T6); auto.
    + lia.
    + intros j e1 Hj Rj He. apply (slot_range (wp s)) in He; [|exact v_shape0]. unfold inr in He. lia.
    + eauto.
    + exists c. split; [exact Ce|]. split; [exact Ci|]. rewrite Cb. intros Tb. rewrite Em in *. unfold wsettle in *. destruct (Z.lor (f_op t) ev =? 4); [congruence|]. rewrite Z.lor_spec, Tb. reflexivity.
    + exists s', rc. split; [exact T1|]. split; [exact T2|]. split; [exact T3|]. split; [exact T4|]. right. auto.
Qed.

(** sc_sock_poll_del when no thread polls. *)
Lemma d_del_ok ids dat pen fd0 M L base s a ev d0 o : dinv ids dat pen fd0 M L base s -> w_polling (wp s) = false -> In a ids -> f_opi (wf s a) = -1 -> 0 <= ev < 8 ->
  exists s', win_del s a ev d0 o = Ok (s', 0) /\ w_polling (wp s') = false /\ capr s s' /\ f_opi (wf s' a) = -1 /\
    dinv ids (if wsettle (Z.ldiff (f_op (wf s a)) ev) =? f_op (wf s a) then dat else upd dat a d0) pen fd0 (fun b => if b =? a then wsettle (Z.ldiff (M a) ev) else M b) L base s' /\ f_op (wf s' a) = wsettle (Z.ldiff (f_op (wf s a)) ev) /\ forall b, b <> a -> wf s' b = wf s b.
Proof.
  intros V Np Ha Ho Hev. assert (V' := V). destruct V'.
  assert (Ia : In a (WAKE :: ids)) by (now right). destruct (v_id0 a Ia) as [Mo Hold]. destruct (v_mask0 a Ha) as [MA _]. specialize (MA Ho).
  unfold win_del. rewrite Np. set (t := wf s a) in *. set (op := if Z.land (f_op t) (Z.lnot ev) =? SEDGE then 0 else Z.land (f_op t) (Z.lnot ev)).
  assert (Em : op = wsettle (Z.ldiff (f_op t) ev)). { unfold op, wsettle. rewrite Z.ldiff_land. reflexivity. }
  assert (Mm : mok op /\ (Z.land (f_op t) ev = 0 -> op = f_op t) /\ (Z.testbit op 2 = true -> Z.testbit (f_op t) 2 = true)).
  { rewrite Em. destruct Mo as [Mo1 Mo2]. assert (C := cases8' _ Mo1). assert (C' := cases8' _ Hev).
    unfold mok. decompose [or] C; decompose [or] C'; match goal with H : f_op t = _ |- _ => rewrite H in * end; subst ev; cbn; try lia; repeat split; try lia; intros; try discriminate; auto. }
  destruct Mm as (Mm & Mk & Mb). destruct (Z.land (f_op t) ev =? 0) eqn:El.
  { exists s. split; [reflexivity|]. split; [exact Np|]. split; [split; [reflexivity|apply Z.le_refl]|]. split; [exact Ho|]. apply Z.eqb_eq in El. split; [|split; [fold t; rewrite <- Em; rewrite Mk by exact El; reflexivity|auto]].
    fold t; rewrite <- Em, (Mk El), Z.eqb_refl. constructor; auto. intros b Hb. cbn beta. destruct (b =? a) eqn:E; [|auto]. apply Z.eqb_eq in E. subst b. fold t. rewrite MA. fold t in Ho.
    split; [intros _; rewrite <- Em; auto|]. intros x Hx. exfalso. apply zget_Some_range in Hx. rewrite Ho in Hx. destruct v_ids0 as (_ & _ & _ & B). lia. }
  assert (Eq : (wsettle (Z.ldiff (f_op t) ev) =? f_op t) = false).
  { clear - Mo Hev El. destruct Mo as [Mo1 Mo2]. assert (C := cases8' _ Mo1). assert (C' := cases8' _ Hev). decompose [or] C; decompose [or] C'; match goal with H : f_op t = _ |- _ => rewrite H in * end; subst ev; cbn in *; try discriminate; try reflexivity; congruence. }
  destruct Hold as [[H _]|(_ & i & Ri & Pd & (e & Se & Fe & _) & (c & Ce & Ci & _ & Cb))]. { rewrite H in El. cbn in El. discriminate. }
  destruct (v_fd0 a Ia) as [Fd1 Fd2]. fold t in Fd1, Pd, Fe, Ho, Cb. destruct (op =? 0) eqn:E0.
  - rewrite Pd. destruct (del_full_ok (wp s) i e c) as (p' & D1 & D2 & D3 & D4 & D5 & D6 & D7 & D8); auto. { congruence. } rewrite D1. cbn [bind]. eexists. split; [reflexivity|].
    cbn [wp wf]. split; [unfold rest in D6; congruence|]. split; [split; [exact D6|cbn [wp]; rewrite D3; apply Z.le_refl]|]. split; [unfold upf; rewrite Z.eqb_refl; exact Ho|]. split; [|split; [unfold upf; rewrite Z.eqb_refl; exact Em|intros b Hb; unfold upf; rewrite (proj2 (Z.eqb_neq b a) Hb); reflexivity]]. fold t; rewrite Eq.
    replace op with 0 by lia. apply (dinv_dext ids dat); [|intros b Hb; unfold upd; destruct (b =? a) eqn:E; [left; apply Z.eqb_eq in E; subst b; cbn; unfold upf; rewrite Z.eqb_refl; reflexivity|now right]]. apply (dinv_clear ids dat pen fd0 M _ L base s p' a i (f_opi t)); auto.
    + rewrite Z.eqb_refl, MA. rewrite <- Em. lia.
    + intros b Hb Hne. destruct (b =? a) eqn:E; [lia|reflexivity].
  - rewrite Pd. cbn [or_ub bind]. rewrite (cell_get_ok _ _ _ Ce). cbn [bind]. rewrite Ci. destruct (ev_block_ok (wp s) v_shape0) as (ev1 & EB & El1 & Len & Sl). rewrite EB. cbn [bind].
    assert (Ge : zget ev1 i = Some e) by (rewrite <- Sl; exact Se). rewrite (zload_ok _ _ _ Ge). cbn [bind].
    destruct (ev_put_ok (wp s) ev1 i (mk_pfd (pf_fd e) (win_events op) (pf_rev e)) v_shape0 El1 Ri) as (P1 & P2 & P3 & P4 & P5). rewrite P1. cbn [bind]. cbv zeta.
    set (p2 := set_events (wp s) (Live (zset ev1 i (mk_pfd (pf_fd e) (win_events op) (pf_rev e))))) in *.
    destruct (cell_put_ok p2 i (mk_cell (if Z.land op SEDGE =? 0 then 0 else c_edge c) i d0) P2 Ri) as (d & Q1 & Q2 & Q3 & Q4). rewrite Q1. cbn [bind]. eexists. split; [reflexivity|].
    cbn [wp wf]. split; [exact Np|]. split; [split; [reflexivity|apply Z.le_refl]|]. split; [unfold upf; rewrite Z.eqb_refl; exact Ho|]. split; [|split; [unfold upf; rewrite Z.eqb_refl; exact Em|intros b Hb; unfold upf; rewrite (proj2 (Z.eqb_neq b a) Hb); reflexivity]]. fold t; rewrite Eq.
    apply (dinv_set ids dat (upd dat a d0) pen fd0 M _ L base s (set_data p2 d) a i op (f_opi t)); auto.
    + apply unowned_has; [apply v_num0|]. unfold has. fold t. rewrite Pd. reflexivity.
    + lia.
    + rewrite Z.eqb_refl, MA. rewrite <- Em. reflexivity.
    + intros b Hb Hne. destruct (b =? a) eqn:E; [lia|reflexivity].
    + intros b Hb Hne. unfold upd. destruct (b =? a) eqn:E; [lia|reflexivity].
    + cbn. lia.
    + intros evx Ex. cbn in Ex. injection Ex as <-. change (w_count (set_data p2 d)) with (w_count (wp s)). rewrite (cntu_set _ _ e) by exact Ge. rewrite (v_count0 ev1 El1). unfold inuse. cbn [pf_fd]. lia.
    + intros j Hj Rj. split; [change (slot (set_data p2 d) j) with (slot p2 j); now rewrite P4|]. rewrite Q4 by auto. now rewrite P5.
    + intros j x Hj Rj Hx. change (slot (set_data p2 d) j) with (slot p2 j) in Hx. rewrite P4 in Hx by auto. apply (slot_range (wp s)) in Hx; [|exact v_shape0]. unfold inr in Hx. lia.
    + eexists. split; [exact P3|]. split; [exact Fe|reflexivity].
    + eexists. split; [exact Q3|]. cbn [c_edge c_index c_data]. split; [reflexivity|]. split; [unfold upd; now rewrite Z.eqb_refl|]. change SEDGE with (2 ^ 2). rewrite wland_bit by lia.
      destruct (Z.testbit op 2) eqn:Tb; cbn [negb]; [|reflexivity]. rewrite Cb. auto.
Qed.

(** The operation at place [j] now belongs to structure [a] (an operation of [a], or a new one at the end). *)
Lemma dinv_put ids dat pen pen' fd0 M M' L L' s a j o :
  dinv ids dat pen fd0 M L 0 s -> In a ids ->
  (f_opi (wf s a) = -1 /\ j = zlen L /\ L' = L ++ [o] \/ f_opi (wf s a) = j /\ 0 <= j < zlen L /\ L' = zset L j o) ->
  (forall b, In b ids -> b <> a -> M' b = M b) -> 0 <= o_add o < 8 -> 0 <= o_del o < 8 -> Z.land (o_add o) (o_del o) = 0 -> o_data o = pen' a -> (forall b, In b ids -> b <> a -> pen' b = pen b) ->
  o_full o = false -> o_fdt o = Some a -> M' a = Z.ldiff (Z.lor (f_op (wf s a)) (o_add o)) (o_del o) -> Z.land (M' a) 3 <> 0 ->
  dinv ids dat pen' fd0 M' L' 0 (mk_wst (wp s) (upf (wf s) a (mk_wfd (f_fd (wf s a)) (f_op (wf s a)) (f_pd (wf s a)) j))).
Proof.
  intros V Ha Hj MB Oa Od Oad Odt PB Of Ofd MA Mn. destruct V.
  assert (Nw : a <> WAKE) by (intros ->; tauto). assert (Ia : In a (WAKE :: ids)) by (now right).
  set (t := mk_wfd (f_fd (wf s a)) (f_op (wf s a)) (f_pd (wf s a)) j).
  assert (Up : forall b, b <> a -> upf (wf s) a t b = wf s b). { intros b Hb. unfold upf. destruct (b =? a) eqn:E; [lia|reflexivity]. }
  assert (UpA : upf (wf s) a t a = t). { unfold upf. rewrite Z.eqb_refl. reflexivity. }
  assert (Uf : forall b, f_fd (upf (wf s) a t b) = f_fd (wf s b) /\ f_op (upf (wf s) a t b) = f_op (wf s b) /\ f_pd (upf (wf s) a t b) = f_pd (wf s b)).
  { intros b. destruct (Z.eq_dec b a) as [->|Hne]; [rewrite UpA|rewrite Up by exact Hne]; auto. }
  assert (J0 : 0 <= j) by (pose proof (zlen_nonneg L); lia).
  assert (Gj : zget L' j = Some o).
  { destruct Hj as [(_ & -> & ->)|(_ & R & ->)]; [|now apply zget_zset_eq]. rewrite zget_app2 by lia. rewrite Z.sub_diag. reflexivity. }
  assert (Gk : forall k x, k <> j -> zget L' k = Some x -> zget L k = Some x).
  { intros k x Hk Hx. destruct Hj as [(_ & -> & ->)|(_ & R & ->)]; [|rewrite zget_zset_neq in Hx; auto]. apply zget_snoc in Hx. destruct Hx as [[_ Hx]|[Hx _]]; [exact Hx|lia]. }
  assert (Gk' : forall k x, k <> j -> zget L k = Some x -> zget L' k = Some x).
  { intros k x Hk Hx. destruct Hj as [(_ & -> & ->)|(_ & R & ->)]; [|rewrite zget_zset_neq; auto]. rewrite zget_app1; [exact Hx|]. apply zget_Some_range in Hx. lia. }
  assert (Nf : forall x, zget L j = Some x -> o_full x = false).
  { intros x Hx. destruct Hj as [(_ & -> & _)|(Hi & _ & _)]; [apply zget_Some_range in Hx; lia|]. destruct (v_opi0 a Ha) as [H|(y & Y1 & Y2 & _)]; [lia|]. rewrite Z.sub_0_r, Hi in Y1. congruence. }
  constructor; cbn [wp wf]; auto.
  - intros b Hb. destruct (Uf b) as (-> & _ & _). auto.
  - intros b Hb. destruct (Uf b) as (U1 & -> & U3). rewrite U3. destruct (v_id0 b Hb) as [Mb [H|(H & i & I)]]; split; auto. right. split; [exact H|]. exists i. destruct (Uf b) as (-> & -> & ->). exact I.
  - intros b c q Hb Hc Hne. destruct (Uf b) as (_ & _ & ->). destruct (Uf c) as (_ & _ & ->). eauto.
  - intros k x Hk Hx. destruct (Z.eq_dec k j) as [->|Hne]; [congruence|]. destruct (v_full0 k x (Gk _ _ Hne Hk) Hx) as (i & I1 & I2 & I3 & I4 & I5). exists i. split; [exact I1|]. split; [exact I2|]. split; [exact I3|]. split; [exact I4|].
    intros b Hb. destruct (Uf b) as (_ & _ & ->). auto.
  - intros k k' x x' H1 H2 Hne F1 F2. destruct (Z.eq_dec k j) as [->|Hk]; [congruence|]. destruct (Z.eq_dec k' j) as [->|Hk']; [congruence|]. eauto.
  - intros k x Hk Hx. destruct (Z.eq_dec k j) as [->|Hne].
    + replace x with o in * by congruence. exists a. rewrite UpA. cbn. auto 8.
    + destruct (v_op0 k x (Gk _ _ Hne Hk) Hx) as (b & B1 & B2 & B3 & B4). assert (Hb : b <> a). { intros ->. apply zget_Some_range in Hk. destruct Hj as [(H & _)|(H & _)]; lia. }
      exists b. split; [exact B1|]. split; [exact B2|]. rewrite Up, PB by assumption. split; [exact B3|exact B4].
  - intros b Hb. destruct (Z.eq_dec b a) as [->|Hne]; [right; exists o; rewrite UpA; cbn; rewrite Z.sub_0_r; auto|]. rewrite Up by exact Hne.
    destruct (v_opi0 b Hb) as [H|(y & Y1 & Y2 & Y3)]; [now left|]. right. exists y. split; [|auto]. apply Gk'; [|exact Y1]. intros E. rewrite E in Y1.
    destruct Hj as [(_ & -> & _)|(Hi & _ & _)]; [apply zget_Some_range in Y1; lia|]. destruct (v_opi0 a Ha) as [H|(z & Z1 & _ & Z3)]; [lia|]. rewrite Hi, Z.sub_0_r in Z1. congruence.
  - intros i e E1 E2. destruct (v_own0 i e E1 E2) as [(b & B1 & B2)|(k & x & X1 & X2 & X3)].
    + left. exists b. destruct (Uf b) as (_ & _ & ->). auto.
    + right. exists k, x. split; [|auto]. apply Gk'; [|exact X1]. intros ->. rewrite (Nf x X1) in X2. discriminate.
  - intros b Hb. destruct (Z.eq_dec b a) as [->|Hne].
    + rewrite UpA. cbn [f_opi f_op t]. rewrite Z.sub_0_r. split; [lia|]. intros x Hx. replace x with o by congruence. auto.
    + rewrite Up by exact Hne. rewrite MB by assumption. destruct (v_mask0 b Hb) as [M1 M2]. split; [exact M1|]. intros x Hx. apply (M2 x). apply Gk; [|exact Hx].
      intros E. rewrite E in Hx. destruct (v_opi0 b Hb) as [H|(y & Y1 & Y2 & Y3)]; [lia|]. rewrite E in Y1.
      destruct Hj as [(_ & -> & _)|(Hi & _ & _)]; [apply zget_Some_range in Y1; lia|]. destruct (v_opi0 a Ha) as [H|(z & Z1 & _ & Z3)]; [lia|]. rewrite Hi, Z.sub_0_r in Z1. congruence.
  - rewrite Up by congruence. auto.
  - rewrite (cntb_ext (fun b => has (upf (wf s) a t b)) (fun b => has (wf s b))). 2: { intros b Hb. unfold has. destruct (Uf b) as (_ & _ & ->). reflexivity. }
    destruct v_num0 as [v_num0 (own & v_own1)]. split.
    { destruct Hj as [(_ & -> & ->)|(_ & R & ->)].
      + rewrite cntb_snoc, Of. lia.
      + destruct (zget_in_range L j R) as [x Hx]. rewrite (cntb_zset _ _ _ _ _ Hx), Of, (Nf x Hx). lia. }
    exists own. apply (own_keep _ (wf s)). { intros b _. unfold has. destruct (Uf b) as (_ & _ & ->). auto. }
    destruct v_own1 as (O1 & O2 & O3). split; [exact O1|]. split; [exact O2|]. destruct Hj as [(_ & _ & ->)|(Hi & R & ->)]; [now apply owned_snoc|].
    destruct (v_opi0 a Ha) as [H|(z & Z1 & Z2 & Z3)]; [lia|]. rewrite Hi, Z.sub_0_r in Z1. apply (owned_zset o z); auto. congruence.
Qed.
(** The operation at place [j] now deletes the slot of structure [a], which gives it up. *)
Lemma dinv_put_full ids dat pen pen' fd0 M M' L L' s a j o :
  dinv ids dat pen fd0 M L 0 s -> In a ids ->
  (f_opi (wf s a) = -1 /\ j = zlen L /\ L' = L ++ [o] \/ f_opi (wf s a) = j /\ 0 <= j < zlen L /\ L' = zset L j o) ->
  (forall b, In b ids -> b <> a -> M' b = M b) -> M' a = 0 -> o_full o = true -> o_pd o = f_pd (wf s a) -> (forall b, In b ids -> b <> a -> pen' b = pen b) -> has (wf s a) = true ->
  cntb (fun b => has (wf s b)) ids + cntb o_full L <= zlen ids ->
  dinv ids dat pen' fd0 M' L' 0 (mk_wst (wp s) (upf (wf s) a (mk_wfd (f_fd (wf s a)) 0 None (-1)))) /\
  cntb (fun b => has (upf (wf s) a (mk_wfd (f_fd (wf s a)) 0 None (-1)) b)) ids + cntb o_full L' <= zlen ids.
Proof.
  intros V Ha Hj MB MA Of Op PB Hh Hn. destruct V.
  assert (Nw : a <> WAKE) by (intros ->; tauto). assert (Ia : In a (WAKE :: ids)) by (now right).
  set (t := mk_wfd (f_fd (wf s a)) 0 None (-1)).
  assert (Up : forall b, b <> a -> upf (wf s) a t b = wf s b). { intros b Hb. unfold upf. destruct (b =? a) eqn:E; [lia|reflexivity]. }
  assert (UpA : upf (wf s) a t a = t). { unfold upf. rewrite Z.eqb_refl. reflexivity. }
  assert (J0 : 0 <= j) by (pose proof (zlen_nonneg L); lia).
  assert (Gj : zget L' j = Some o).
  { destruct Hj as [(_ & -> & ->)|(_ & R & ->)]; [|now apply zget_zset_eq]. rewrite zget_app2 by lia. rewrite Z.sub_diag. reflexivity. }
  assert (Gk : forall k x, k <> j -> zget L' k = Some x -> zget L k = Some x).
  { intros k x Hk Hx. destruct Hj as [(_ & -> & ->)|(_ & R & ->)]; [|rewrite zget_zset_neq in Hx; auto]. apply zget_snoc in Hx. destruct Hx as [[_ Hx]|[Hx _]]; [exact Hx|lia]. }
  assert (Gk' : forall k x, k <> j -> zget L k = Some x -> zget L' k = Some x).
  { intros k x Hk Hx. destruct Hj as [(_ & -> & ->)|(_ & R & ->)]; [|rewrite zget_zset_neq; auto]. rewrite zget_app1; [exact Hx|]. apply zget_Some_range in Hx. lia. }
  assert (Nf : forall x, zget L j = Some x -> o_full x = false).
  { intros x Hx. destruct Hj as [(_ & -> & _)|(Hi & _ & _)]; [apply zget_Some_range in Hx; lia|]. destruct (v_opi0 a Ha) as [H|(y & Y1 & Y2 & _)]; [lia|]. rewrite Z.sub_0_r, Hi in Y1. congruence. }
  assert (Nb : forall b, In b ids -> b <> a -> f_opi (wf s b) <> -1 -> f_opi (wf s b) <> j).
  { intros b Hb Hne Hb' E. destruct (v_opi0 b Hb) as [H|(y & Y1 & Y2 & Y3)]; [lia|]. rewrite Z.sub_0_r, E in Y1.
    destruct Hj as [(_ & -> & _)|(Hi & _ & _)]; [apply zget_Some_range in Y1; lia|]. destruct (v_opi0 a Ha) as [H|(z & Z1 & _ & Z3)]; [lia|]. rewrite Hi, Z.sub_0_r in Z1. congruence. }
  destruct (v_id0 a Ia) as [_ [[_ H]|(_ & i & Ri & Pd & (e & Se & Fe & _) & (c & Ce & Ci & _))]]; [unfold has in Hh; rewrite H in Hh; discriminate|].
  destruct (v_fd0 a Ia) as [Fd1 Fd2].
  assert (Hc : cntb (fun b => has (upf (wf s) a t b)) ids = cntb (fun b => has (wf s b)) ids - 1). { rewrite cntb_upf by tauto. rewrite Hh. unfold has at 2. cbn. lia. }
  assert (Hl : cntb o_full L' = cntb o_full L + 1).
  { destruct Hj as [(_ & -> & ->)|(_ & R & ->)]; [rewrite cntb_snoc, Of; lia|]. destruct (zget_in_range L j R) as [x Hx]. rewrite (cntb_zset _ _ _ _ _ Hx), Of, (Nf x Hx). lia. }
  split; [|lia]. constructor; cbn [wp wf]; auto.
  - intros b Hb. destruct (Z.eq_dec b a) as [->|Hne]; [rewrite UpA; cbn; auto|rewrite Up by exact Hne; auto].
  - intros b Hb. destruct (Z.eq_dec b a) as [->|Hne]; [rewrite UpA; cbn; split; [unfold mok; lia|now left]|rewrite Up by exact Hne; auto].
  - intros b c' q Hb Hc' Hne. destruct (Z.eq_dec b a) as [->|Hb']; [rewrite UpA; discriminate|]. rewrite (Up b) by exact Hb'.
    destruct (Z.eq_dec c' a) as [->|Hc'']; [rewrite UpA; discriminate|]. rewrite Up by exact Hc''. eauto.
  - intros k x Hk Hx. destruct (Z.eq_dec k j) as [->|Hne].
    + replace x with o in * by congruence. exists i. split; [exact Ri|]. split; [congruence|]. split; [exists e; split; [exact Se|congruence]|]. split; [eauto|].
      intros b Hb. destruct (Z.eq_dec b a) as [->|Hne]; [rewrite UpA; discriminate|]. rewrite Up by exact Hne. intros Hq. eapply (v_sep0 b a); eauto.
    + destruct (v_full0 k x (Gk _ _ Hne Hk) Hx) as (i' & I1 & I2 & I3 & I4 & I5). exists i'. split; [exact I1|]. split; [exact I2|]. split; [exact I3|]. split; [exact I4|].
      intros b Hb. destruct (Z.eq_dec b a) as [->|Hne']; [rewrite UpA; discriminate|]. rewrite Up by exact Hne'. auto.
  - intros k k' x x' H1 H2 Hne F1 F2. destruct (Z.eq_dec k j) as [->|Hk].
    + replace x with o in * by congruence. assert (Hk' : k' <> j) by congruence. destruct (v_full0 k' x' (Gk _ _ Hk' H2) F2) as (i' & I1 & I2 & _ & _ & I5). rewrite Op, I2. auto.
    + destruct (Z.eq_dec k' j) as [->|Hk']; [|eauto]. replace x' with o in * by congruence. destruct (v_full0 k x (Gk _ _ Hk H1) F1) as (i' & I1 & I2 & _ & _ & I5). rewrite Op, I2. intros E. symmetry in E. exact (I5 a Ia E).
  - intros k x Hk Hx. destruct (Z.eq_dec k j) as [->|Hne]; [congruence|]. destruct (v_op0 k x (Gk _ _ Hne Hk) Hx) as (b & B1 & B2 & B3 & B4). assert (Hb : b <> a). { intros ->. apply zget_Some_range in Hk. destruct Hj as [(H & _)|(H & _)]; lia. }
    exists b. split; [exact B1|]. split; [exact B2|]. rewrite Up, PB by assumption. split; [exact B3|exact B4].
  - intros b Hb. destruct (Z.eq_dec b a) as [->|Hne]; [left; rewrite UpA; reflexivity|]. rewrite Up by exact Hne.
    destruct (v_opi0 b Hb) as [H|(y & Y1 & Y2 & Y3)]; [now left|]. right. exists y. split; [|auto]. apply Gk'; [|exact Y1]. rewrite Z.sub_0_r. apply Nb; auto.
    intros H. rewrite H in Y1. discriminate.
  - intros i' e' E1 E2. destruct (v_own0 i' e' E1 E2) as [(b & B1 & B2)|(k & x & X1 & X2 & X3)].
    + destruct (Z.eq_dec b a) as [->|Hne]; [right; exists j, o; split; [exact Gj|]; split; [exact Of|congruence]|]. left. exists b. rewrite Up by exact Hne. auto.
    + right. exists k, x. split; [|auto]. apply Gk'; [|exact X1]. intros ->. rewrite (Nf x X1) in X2. discriminate.
  - intros b Hb. destruct (Z.eq_dec b a) as [->|Hne].
    + rewrite UpA. cbn [f_opi f_op t]. split; [auto|]. intros x Hx. apply zget_Some_range in Hx. lia.
    + rewrite Up by exact Hne. rewrite MB by assumption. destruct (v_mask0 b Hb) as [M1 M2]. split; [exact M1|]. intros x Hx. apply (M2 x). apply Gk; [|exact Hx].
      rewrite Z.sub_0_r in *. apply Nb; auto. intros H. rewrite H in Hx. discriminate.
  - rewrite Up by congruence. auto.
  - destruct v_num0 as [v_num0 (own & O1 & O2 & O3)]. split; [lia|]. assert (Na : ~ In a own) by (intros I; destruct (O2 a I); congruence).
    exists (own_ins L (Z.to_nat j) own a). split; [now apply own_ins_nodup|]. split.
    + intros b Hb. apply own_ins_in in Hb. destruct (Z.eq_dec b a) as [->|Hne]; [rewrite UpA; auto|]. destruct Hb as [Hb|Hb]; [contradiction|]. rewrite Up by exact Hne. auto.
    + apply (owned_put_full L L' o a Of); [| |exact O3].
      * destruct Hj as [(_ & -> & ->)|(Hi & R & ->)]; [now left|]. right. split; [|reflexivity]. destruct (zget_in_range L j R) as [x Hx]. exists x. auto.
      * intros k x Hk Hx Fx E. destruct (v_op0 k x Hx Fx) as (b & B1 & B2 & B3 & _). rewrite E in B2. injection B2 as <-. pose proof (zget_Some_range _ _ _ Hx). destruct Hj as [(H1 & _)|(H1 & _)]; lia.
Qed.

Definition dgood (ids : list Z) (dat pen fd0 : Z -> Z) (A : abs) (s : wst) : Prop :=
  dinv ids dat pen fd0 (a_mask A) (w_ops (wp s)) 0 s /\ a_poll A = w_polling (wp s) /\ (a_poll A = false -> w_ops (wp s) = []) /\
  (forall a, In a ids -> mok (a_mask A a) /\ a_held A a = has (wf s a)) /\
  cntb (fun a => has (wf s a)) ids + cntb o_full (w_ops (wp s)) <= zlen ids /\ queue_ok A (wp s).

Lemma d_submit_ok ids dat pen fd0 A s a ev d0 o (add : bool) : dgood ids dat pen fd0 A s -> a_poll A = true -> In a ids -> 0 <= ev < 8 -> a_subs A < 2 ^ 28 -> m_wake o = true ->
  (target add (a_mask A a) ev = 0 -> a_held A a = true) ->
  exists s' rc, submit s a ev d0 add o = Ok (s', rc) /\ (rc = -1 /\ s' = s \/ rc = 0 /\ (dgood ids dat (upd pen a d0) fd0 (upd_mask A a (target add (a_mask A a) ev)) s' /\ (forall b, b <> a -> wf s' b = wf s b) /\ f_op (wf s' a) = if target add (a_mask A a) ev =? 0 then 0 else f_op (wf s a))).
Proof.
  intros (V & Pol & Emp & Ms & Num & Q) Hp Ha Hev Hs Hw Hz. pose proof (v_shape _ _ _ _ _ _ _ _ V) as v_shape0. pose proof (v_id _ _ _ _ _ _ _ _ V) as v_id0. pose proof (v_mask _ _ _ _ _ _ _ _ V) as v_mask0.
  pose proof (v_opi _ _ _ _ _ _ _ _ V) as v_opi0. pose proof (v_op _ _ _ _ _ _ _ _ V) as v_op0.
  assert (Ia : In a (WAKE :: ids)) by (now right). destruct (v_id0 a Ia) as [Mo Hold]. destruct (v_mask0 a Ha) as [MA MB]. destruct (Ms a Ha) as [Mok Held].
  unfold submit. set (t := wf s a) in *.
  (* once the operation at hand is known *)
  assert (Main : forall p1 L1 j op, w_ops p1 = L1 -> zget L1 j = Some op -> w_polling p1 = w_polling (wp s) -> w_count p1 = w_count (wp s) -> w_cap p1 = w_cap (wp s) -> w_events p1 = w_events (wp s) -> w_data p1 = w_data (wp s) ->
    w_opnull p1 = false -> 16 <= w_opcap p1 <= 2 ^ 29 -> zlen L1 <= w_opcap p1 -> zlen L1 <= a_subs A + 1 -> 0 < zlen L1 ->
    (forall op', f_opi t = -1 /\ j = zlen (w_ops (wp s)) /\ zset L1 j op' = w_ops (wp s) ++ [op'] \/ f_opi t = j /\ 0 <= j < zlen (w_ops (wp s)) /\ zset L1 j op' = zset (w_ops (wp s)) j op') ->
    Z.land (o_add op) (o_del op) = 0 -> 0 <= o_add op < 8 -> 0 <= o_del op < 8 -> a_mask A a = Z.ldiff (Z.lor (f_op t) (o_add op)) (o_del op) ->
    forall wakeup, exists s' rc,
    (let* op := zload (w_ops p1) j in
    let add_ev := if add then Z.lor (o_add op) ev else Z.land (o_add op) (Z.lnot ev) in
    let del_ev := if add then Z.land (o_del op) (Z.lnot ev) else Z.lor (o_del op) ev in
    let full := Z.land (Z.lor (f_op t) add_ev) (Z.lnot (Z.lor del_ev SEDGE)) =? 0 in
    let op := if full then mk_wop true add_ev del_ev (o_fdt op) (f_pd t) d0
              else mk_wop false add_ev del_ev (Some a) (o_pd op) d0 in
    let t := if full then mk_wfd (f_fd t) 0 None (-1) else mk_wfd (f_fd t) (f_op t) (f_pd t) j in
    let* ops := zput (w_ops p1) j op in
    Ok (mk_wst (set_ops p1 ops) (upf (wf s) a t), if wakeup && negb (m_wake o) then -1 else 0)) = Ok (s', rc) /\ (rc = -1 /\ s' = s \/ rc = 0 /\ (dgood ids dat (upd pen a d0) fd0 (upd_mask A a (target add (a_mask A a) ev)) s' /\ (forall b, b <> a -> wf s' b = wf s b) /\ f_op (wf s' a) = if target add (a_mask A a) ev =? 0 then 0 else f_op (wf s a)))).
  { intros p1 L1 j op EL Gj Pp Pc Pcap Pev Pd Pn Pb Pl Ps P0 Hj Oad Oa Od Om wakeup. rewrite EL. rewrite (zload_ok _ _ _ Gj). cbn [bind]. cbv zeta.
    set (x := if add then Z.lor (o_add op) ev else Z.land (o_add op) (Z.lnot ev)). set (y := if add then Z.land (o_del op) (Z.lnot ev) else Z.lor (o_del op) ev).
    assert (Hx : 0 <= x < 8) by (unfold x; destruct add; [now apply small_lor|now apply small_landn]).
    assert (Hy : 0 <= y < 8) by (unfold y; destruct add; [now apply small_landn|now apply small_lor]).
    assert (Hm : Z.ldiff (Z.lor (f_op t) x) y = (if add then Z.lor (a_mask A a) ev else Z.ldiff (a_mask A a) ev)).
    { rewrite Om. unfold x, y. destruct add; [apply mask_add|apply mask_del]. }
    assert (Hxy : Z.land x y = 0).
    { clear - Oad. apply Z.bits_inj'. intros n Hn. assert (X := f_equal (fun z => Z.testbit z n) Oad). cbn beta in X. rewrite Z.land_spec, Z.bits_0 in X. unfold x, y. destruct add; rewrite !Z.land_spec, Z.lor_spec, Z.lnot_spec, Z.bits_0 by exact Hn; destruct (Z.testbit (o_add op) n), (Z.testbit (o_del op) n), (Z.testbit ev n); cbn in *; congruence. }
    assert (Pu : forall b, In b ids -> b <> a -> upd pen a d0 b = pen b) by (intros b _ Hb; unfold upd; rewrite (proj2 (Z.eqb_neq b a) Hb); reflexivity).
    assert (Pa : upd pen a d0 a = d0) by (unfold upd; now rewrite Z.eqb_refl).
    assert (Ou : forall t', forall b, b <> a -> upf (wf s) a t' b = wf s b) by (intros t' b Hb; unfold upf; rewrite (proj2 (Z.eqb_neq b a) Hb); reflexivity).
    set (tg := Z.ldiff (Z.lor (f_op t) x) y) in *.
    assert (Htg : 0 <= tg < 8) by (apply small_ldiff; [apply small_lor; [apply Mo|exact Hx]|exact Hy]).
    assert (Hfull : Z.land (Z.lor (f_op t) x) (Z.lnot (Z.lor y SEDGE)) = Z.ldiff tg 4).
    { unfold tg. rewrite <- Z.ldiff_land. change SEDGE with 4. apply Z.bits_inj'. intros n Hn. rewrite !Z.ldiff_spec, !Z.lor_spec, negb_orb, andb_assoc. reflexivity. }
    rewrite Hfull. assert (Ht : target add (a_mask A a) ev = wsettle tg) by (unfold target; now rewrite Hm).
    assert (Gr : 0 <= j < zlen L1) by (eapply zget_Some_range; eauto).
    assert (Hrc : (if wakeup && negb (m_wake o) then -1 else 0) = 0) by (rewrite Hw; destruct wakeup; reflexivity). rewrite Hrc.
    assert (Oth : forall b, In b ids -> b <> a -> a_mask (upd_mask A a (target add (a_mask A a) ev)) b = a_mask A b).
    { intros b _ Hne. cbn. rewrite (proj2 (Z.eqb_neq b a) Hne); reflexivity. }
    assert (Slf : a_mask (upd_mask A a (target add (a_mask A a) ev)) a = wsettle tg) by (cbn; rewrite Z.eqb_refl; exact Ht).
    assert (Cf : (Z.ldiff tg 4 =? 0) = true /\ wsettle tg = 0 \/ (Z.ldiff tg 4 =? 0) = false /\ wsettle tg = tg /\ Z.land tg 3 <> 0 /\ mok tg).
    { clear - Htg. unfold mok. pose proof (cases8' _ Htg) as C. decompose [or] C; match goal with H : tg = _ |- _ => rewrite H end; cbn; zl. }
    assert (Qk : forall L2, zlen L2 = zlen L1 -> queue_ok (upd_mask A a (target add (a_mask A a) ev)) (set_ops p1 L2)).
    { intros L2 E2. unfold queue_ok. cbn. rewrite E2, Pn. split; [zl|]. split; [zl|]. split; [discriminate|]. split; [auto|]. intros; zl. }
    assert (Sm : forall L2, same (wp s) (set_ops p1 L2)) by (intros L2; apply same_fields; auto).
    destruct Cf as [[-> Tz]|(-> & Tz & T3 & Tm)].
    - set (op' := mk_wop true x y (o_fdt op) (f_pd t) d0). rewrite zput_ok by exact Gr. cbn [bind]. eexists _, 0. split; [reflexivity|]. right. split; [reflexivity|].
      destruct (dinv_put_full ids dat pen (upd pen a d0) fd0 (a_mask A) (a_mask (upd_mask A a (target add (a_mask A a) ev))) (w_ops (wp s)) (zset L1 j op') s a j op') as [I1 I2]; auto.
      { now rewrite Slf. }
      { fold t. rewrite <- Held. apply Hz. now rewrite Ht. }
      fold t in I1, I2. split; [|split; [apply Ou|cbn [wf]; unfold upf; rewrite Z.eqb_refl, Ht, Tz; reflexivity]]. split; [apply (dinv_same _ _ _ _ _ _ _ (mk_wst (wp s) (upf (wf s) a (mk_wfd (f_fd t) 0 None (-1)))) (set_ops p1 (zset L1 j op')) I1); apply Sm|]. cbn [wp wf w_polling w_ops set_ops].
      split; [cbn; congruence|]. split; [cbn; intros; congruence|]. split; [|split; [exact I2|apply Qk; apply zlen_zset]].
      intros b Hb. destruct (Z.eq_dec b a) as [->|Hne]; [rewrite Slf, Tz; split; [split; [split; [apply Z.le_refl|reflexivity]|discriminate]|]; cbn; rewrite Z.eqb_refl, Ht, Tz; cbn; unfold upf; rewrite Z.eqb_refl; reflexivity|].
      rewrite Oth by assumption. split; [apply Ms; exact Hb|]. cbn. unfold upf. rewrite (proj2 (Z.eqb_neq b a) Hne). apply Ms. exact Hb.
    - set (op' := mk_wop false x y (Some a) (o_pd op) d0). rewrite zput_ok by exact Gr. cbn [bind]. eexists _, 0. split; [reflexivity|]. right. split; [reflexivity|].
      assert (I1 : dinv ids dat (upd pen a d0) fd0 (a_mask (upd_mask A a (target add (a_mask A a) ev))) (zset L1 j op') 0 (mk_wst (wp s) (upf (wf s) a (mk_wfd (f_fd t) (f_op t) (f_pd t) j)))).
      { apply (dinv_put ids dat pen (upd pen a d0) fd0 (a_mask A) _ (w_ops (wp s)) (zset L1 j op') s a j op'); auto.
        - rewrite Slf, Tz. reflexivity.
        - rewrite Slf, Tz. exact T3. }
      split; [|split; [apply Ou|cbn [wf]; unfold upf; rewrite Z.eqb_refl, Ht, Tz; cbn [f_op]; destruct (tg =? 0) eqn:E; [apply Z.eqb_eq in E; rewrite E in T3; cbn in T3; congruence|reflexivity]]]. split; [apply (dinv_same _ _ _ _ _ _ _ (mk_wst (wp s) (upf (wf s) a (mk_wfd (f_fd t) (f_op t) (f_pd t) j))) (set_ops p1 (zset L1 j op')) I1); apply Sm|]. cbn [wp wf w_polling w_ops set_ops].
      assert (Hh : forall b, has (upf (wf s) a (mk_wfd (f_fd t) (f_op t) (f_pd t) j) b) = has (wf s b)). { intros b. unfold upf. destruct (b =? a) eqn:E; [|reflexivity]. apply Z.eqb_eq in E. subst b. reflexivity. }
      split; [cbn; congruence|]. split; [cbn; intros; congruence|]. split; [|split; [|apply Qk; apply zlen_zset]].
      + intros b Hb. rewrite Hh. destruct (Z.eq_dec b a) as [->|Hne]; [rewrite Slf, Tz; split; [exact Tm|]; cbn; rewrite Z.eqb_refl, Ht, Tz, Hp, Held; destruct (tg =? 0) eqn:E; [|reflexivity]; apply Z.eqb_eq in E; rewrite E in T3; cbn in T3; congruence|].
        rewrite Oth by assumption. split; [apply Ms; exact Hb|]. cbn. rewrite (proj2 (Z.eqb_neq b a) Hne). apply Ms. exact Hb.
      + rewrite (cntb_ext _ (fun b => has (wf s b))) by (intros; apply Hh). destruct (Hj op') as [(H1 & H2 & H3)|(H1 & H2 & H3)]; rewrite H3.
        * rewrite cntb_snoc. cbn. zl.
        * destruct (zget_in_range (w_ops (wp s)) j H2) as [z Hz']. rewrite (cntb_zset _ _ _ _ _ Hz'). cbn. destruct (o_full z); zl. }
  destruct Q as (Q1 & Q2 & Q3 & Q4 & Q5). destruct (f_opi t =? -1) eqn:Eo.
  - destruct (room_ok A (wp s) o) as [R|(p1 & R & R1 & R2 & R3 & R4 & R5 & R6 & R7 & R8 & R9)]; [unfold queue_ok; auto|exact Hs| |]; rewrite R; cbn [bind].
    + eexists _, _. split; [reflexivity|]. left. auto.
    + apply (Main (set_ops p1 (w_ops p1 ++ [mk_wop false 0 0 None None 0])) (w_ops (wp s) ++ [mk_wop false 0 0 None None 0]) (zlen (w_ops (wp s))) (mk_wop false 0 0 None None 0)); cbn [w_ops w_polling w_count w_cap w_events w_data w_opcap w_opnull set_ops o_add o_del]; auto; try zl.
      * now rewrite R1.
      * rewrite zget_app2 by zl. rewrite Z.sub_diag. reflexivity.
      * rewrite zlen_app, zlen_cons, zlen_nil. zl.
      * rewrite zlen_app, zlen_cons, zlen_nil. zl.
      * rewrite zlen_app, zlen_cons, zlen_nil. pose proof (zlen_nonneg (w_ops (wp s))). zl.
      * intros op'. left. split; [zl|]. split; [reflexivity|]. apply zset_snoc.
      * rewrite Z.lor_0_r, Z.ldiff_0_r. apply MA. zl.
  - cbn [bind]. destruct (v_opi0 a Ha) as [H|(op & O1 & O2 & O3)]; [fold t in H; zl|]. fold t in O1. rewrite Z.sub_0_r in O1. pose proof (zget_Some_range _ _ _ O1) as Ro.
    destruct (v_op0 _ _ O1 O2) as (b & _ & B2 & _ & _ & B4 & B5 & B6).
    destruct (w_opnull (wp s)) eqn:En; [specialize (Q3 eq_refl); zl|].
    apply (Main (wp s) (w_ops (wp s)) (f_opi t) op); auto; try zl.
    apply MB. fold t. rewrite Z.sub_0_r. exact O1.
Qed.
Lemma dinv_ext ids dat pen fd0 M M' L base s : dinv ids dat pen fd0 M L base s -> (forall a, In a ids -> M' a = M a) -> dinv ids dat pen fd0 M' L base s.
Proof. intros V E. destruct V as [v_ids0 v_shape0 v_count0 v_fd0 v_id0 v_sep0 v_full0 v_fsep0 v_op0 v_opi0 v_own0 v_mask0 v_wake0 v_num0]. constructor; auto. intros a Ha. rewrite E by exact Ha. auto. Qed.
(** The structure of the first operation no longer refers to it. *)
Lemma dinv_pop ids dat pen fd0 M o L base s a : dinv ids dat pen fd0 M (o :: L) base s -> o_full o = false -> o_fdt o = Some a ->
  dinv ids dat pen fd0 (fun b => if b =? a then f_op (wf s a) else M b) L (base + 1) (mk_wst (wp s) (upf (wf s) a (mk_wfd (f_fd (wf s a)) (f_op (wf s a)) (f_pd (wf s a)) (-1)))).
Proof.
  intros V Of Ofd. destruct V as [v_ids0 v_shape0 v_count0 v_fd0 v_id0 v_sep0 v_full0 v_fsep0 v_op0 v_opi0 v_own0 v_mask0 v_wake0 v_num0].
  assert (Z0 : zget (o :: L) 0 = Some o) by apply zget_cons0. destruct (v_op0 0 o Z0 Of) as (a' & Ha & E & Hi & _). rewrite Ofd in E. injection E as <-. rewrite Z.add_0_r in Hi.
  assert (ZS : forall j x, zget L j = Some x -> zget (o :: L) (j + 1) = Some x).
  { intros j x H. pose proof (zget_Some_range _ _ _ H). rewrite zget_consS by lia. replace (j + 1 - 1) with j by lia. exact H. }
  assert (Nw : a <> WAKE) by (intros ->; tauto). assert (B0 : 0 <= base) by tauto.
  set (t := mk_wfd (f_fd (wf s a)) (f_op (wf s a)) (f_pd (wf s a)) (-1)).
  assert (Up : forall b, b <> a -> upf (wf s) a t b = wf s b). { intros b Hb. unfold upf. destruct (b =? a) eqn:E; [lia|reflexivity]. }
  assert (UpA : upf (wf s) a t a = t). { unfold upf. rewrite Z.eqb_refl. reflexivity. }
  assert (Uf : forall b, f_fd (upf (wf s) a t b) = f_fd (wf s b) /\ f_op (upf (wf s) a t b) = f_op (wf s b) /\ f_pd (upf (wf s) a t b) = f_pd (wf s b)).
  { intros b. destruct (Z.eq_dec b a) as [->|Hne]; [rewrite UpA|rewrite Up by exact Hne]; auto. }
  constructor; cbn [wp wf]; auto.
  - split; [tauto|]. split; [tauto|]. split; [tauto|lia].
  - intros b Hb. destruct (Uf b) as (-> & _ & _). auto.
  - intros b Hb. destruct (Uf b) as (U1 & -> & U3). rewrite U3. destruct (v_id0 b Hb) as [Mb [H|(H & i & I)]]; split; auto. right. split; [exact H|]. exists i. destruct (Uf b) as (-> & -> & ->). exact I.
  - intros b c q Hb Hc Hne. destruct (Uf b) as (_ & _ & ->). destruct (Uf c) as (_ & _ & ->). eauto.
  - intros k x Hk Hx. destruct (v_full0 (k + 1) x (ZS _ _ Hk) Hx) as (i & I1 & I2 & I3 & I4 & I5). exists i. split; [exact I1|]. split; [exact I2|]. split; [exact I3|]. split; [exact I4|].
    intros b Hb. destruct (Uf b) as (_ & _ & ->). auto.
  - intros k k' x x' H1 H2 Hne. apply (v_fsep0 (k + 1) (k' + 1)); auto. lia.
  - intros k x Hk Hx. destruct (v_op0 (k + 1) x (ZS _ _ Hk) Hx) as (b & B1 & B2 & B3 & B4). exists b. split; [exact B1|]. split; [exact B2|]. split; [|exact B4].
    assert (b <> a). { intros ->. apply zget_Some_range in Hk. lia. } rewrite Up by assumption. lia.
  - intros b Hb. destruct (Z.eq_dec b a) as [->|Hne]; [left; rewrite UpA; reflexivity|]. rewrite Up by exact Hne.
    destruct (v_opi0 b Hb) as [H|(y & Y1 & Y2 & Y3)]; [now left|]. right. exists y. split; [|auto]. rewrite zget_cons in Y1. destruct (f_opi (wf s b) - base =? 0) eqn:E; [congruence|].
    replace (f_opi (wf s b) - (base + 1)) with (f_opi (wf s b) - base - 1) by lia. exact Y1.
  - intros i e E1 E2. destruct (v_own0 i e E1 E2) as [(b & B1 & B2)|(k & x & X1 & X2 & X3)].
    + left. exists b. destruct (Uf b) as (_ & _ & ->). auto.
    + right. rewrite zget_cons in X1. destruct (k =? 0) eqn:E; [congruence|eauto].
  - intros b Hb. destruct (Z.eq_dec b a) as [->|Hne].
    + rewrite Z.eqb_refl, UpA. cbn [f_opi f_op t]. split; [auto|]. intros x Hx. apply zget_Some_range in Hx. lia.
    + rewrite (proj2 (Z.eqb_neq b a) Hne). rewrite Up by exact Hne. destruct (v_mask0 b Hb) as [M1 M2]. split; [exact M1|]. intros x Hx. apply (M2 x). apply ZS in Hx.
      replace (f_opi (wf s b) - (base + 1) + 1) with (f_opi (wf s b) - base) in Hx by lia. exact Hx.
  - rewrite Up by congruence. auto.
  - rewrite (cntb_ext (fun b => has (upf (wf s) a t b)) (fun b => has (wf s b))). 2: { intros b Hb. unfold has. destruct (Uf b) as (_ & _ & ->). reflexivity. }
    destruct v_num0 as [v_num0 v_own1]. split; [cbn [cntb] in v_num0; rewrite Of in v_num0; lia|]. destruct (own_pop _ _ _ _ _ Of Ofd v_own1) as (own & O1 & _). exists own. revert O1. apply own_keep. intros b _. unfold has. destruct (Uf b) as (_ & _ & ->). auto.
Qed.
Lemma d_pop_unowned ids dat pen fd0 M o L base s a t : dinv ids dat pen fd0 M (o :: L) base s -> o_full o = false -> o_fdt o = Some a -> has t = has (wf s a) -> unowned ids (upf (wf s) a t) L a.
Proof.
  intros V Of Ofd Ht. destruct (v_num _ _ _ _ _ _ _ _ V) as [_ O]. destruct (own_pop _ _ _ _ _ Of Ofd O) as (own & O1 & O2). exists own. split; [|exact O2]. revert O1. apply own_keep.
  intros b Hb. unfold upf. destruct (b =? a) eqn:E; [|auto]. apply Z.eqb_eq in E. subst b. contradiction.
Qed.
Lemma mask_kept op x y : Z.land x y = 0 -> Z.ldiff (Z.lor op x) y = op -> Z.lor op x = op.
Proof.
  intros H1 H2. apply Z.bits_inj'. intros n Hn. assert (X := f_equal (fun z => Z.testbit z n) H1). assert (Y := f_equal (fun z => Z.testbit z n) H2). cbn beta in X, Y.
  rewrite Z.land_spec, Z.bits_0 in X. rewrite Z.ldiff_spec, Z.lor_spec in Y. rewrite Z.lor_spec. destruct (Z.testbit op n), (Z.testbit x n), (Z.testbit y n); cbn in *; congruence.
Qed.
Lemma d_process_ok ids pen fd0 L o : (forall i, m_events (o i) = true /\ m_chunk (o i) = true) ->
  forall dat M base s i rc, dinv ids dat pen fd0 M L base s -> w_polling (wp s) = false ->
  exists s', process s L o i rc = Ok (s', rc) /\ dinv ids (fun a => if M a =? f_op (wf s a) then dat a else pen a) pen fd0 M [] (base + zlen L) s' /\ rest (wp s') = rest (wp s).
Proof.
  intros Hm. induction L as [|op L IH]; intros dat M base s i rc V Np; cbn [process].
  - exists s. rewrite zlen_nil, Z.add_0_r. split; [reflexivity|]. split; [|reflexivity]. apply (dinv_dext ids dat); [exact V|]. intros a Ha. right.
    destruct (v_opi _ _ _ _ _ _ _ _ V a Ha) as [H|(x & H & _)]; [|apply zget_Some_range in H; rewrite zlen_nil in H; lia]. destruct (v_mask _ _ _ _ _ _ _ _ V a Ha) as [E _]. rewrite (E H), Z.eqb_refl. reflexivity.
  - rewrite zlen_cons. replace (base + (zlen L + 1)) with (base + 1 + zlen L) by lia. destruct (o_full op) eqn:Of.
    + destruct (v_full _ _ _ _ _ _ _ _ V 0 op (zget_cons0 _ _) Of) as (j & J1 & J2 & (e & E1 & E2) & (c & C1 & C2) & _). rewrite J2.
      destruct (del_full_ok (wp s) j e c) as (p' & D1 & D2 & D3 & D4 & D5 & D6 & D7 & D8); auto. { apply V. } { exact (v_count _ _ _ _ _ _ _ _ V). }
      rewrite D1. cbn [bind]. destruct (IH dat M (base + 1) (mk_wst p' (wf s)) (i + 1) rc) as (s' & S1 & S2 & S3).
      * apply (dinv_drop ids dat pen fd0 M op L base s p' j); auto.
      * cbn. rewrite (rest_polling _ _ D6). exact Np.
      * exists s'. split; [exact S1|]. split; [exact S2|]. cbn in S3. congruence.
    + destruct (v_op _ _ _ _ _ _ _ _ V 0 op (zget_cons0 _ _) Of) as (a & Ha & A2 & A3 & A4 & A7 & A5 & A6). rewrite A2. cbn [or_ub bind].
      pose proof (dinv_pop _ _ _ _ _ _ _ _ _ _ V Of A2) as V1. set (s1 := mk_wst (wp s) (upf (wf s) a (mk_wfd (f_fd (wf s a)) (f_op (wf s a)) (f_pd (wf s a)) (-1)))) in *.
      assert (F1 : f_opi (wf s1 a) = -1 /\ f_op (wf s1 a) = f_op (wf s a) /\ forall b, b <> a -> wf s1 b = wf s b).
      { cbn; unfold upf; rewrite Z.eqb_refl. split; [reflexivity|]. split; [reflexivity|]. intros b Hb. rewrite (proj2 (Z.eqb_neq b a) Hb); reflexivity. }
      destruct F1 as (F1 & F1' & F1o). rewrite A4. cbv zeta. fold s1.
      destruct (v_mask _ _ _ _ _ _ _ _ V a Ha) as [_ MB]. specialize (MB op). rewrite A3, Z.add_0_r, Z.sub_diag in MB. destruct (MB (zget_cons0 _ _)) as [M1 M2]. clear MB.
      assert (Mrw : Z.land (Z.lor (f_op (wf s a)) (o_add op)) 3 <> 0) by (apply (rw_ldiff _ (o_del op)); rewrite <- M1; exact M2).
      set (f0 := f_op (wf s a)) in *. set (m1 := Z.lor f0 (o_add op)) in *. set (dat1 := if m1 =? f0 then dat else upd dat a (pen a)).
      assert (Hadd : exists s2, (if negb (o_add op =? 0) then win_add s1 a (o_add op) (pen a) (o i) else Ok (s1, 0)) = Ok (s2, 0) /\ w_polling (wp s2) = false /\ rest (wp s2) = rest (wp s) /\ f_opi (wf s2 a) = -1 /\
        dinv ids dat1 pen fd0 (fun b => if b =? a then m1 else M b) L (base + 1) s2 /\ f_op (wf s2 a) = m1 /\ forall b, b <> a -> wf s2 b = wf s b).
      { destruct (o_add op =? 0) eqn:E0; cbn [negb].
        - assert (Em : m1 = f0) by (unfold m1; replace (o_add op) with 0 by lia; apply Z.lor_0_r). exists s1. split; [reflexivity|]. split; [exact Np|]. split; [reflexivity|]. split; [exact F1|]. split; [|split; [congruence|exact F1o]].
          unfold dat1. rewrite Em, Z.eqb_refl. exact V1.
        - destruct (Hm i) as [Hme Hmc]. destruct (d_add_ok _ _ _ _ _ _ _ _ a (o_add op) (pen a) (o i) V1 Np Ha (d_pop_unowned _ _ _ _ _ _ _ _ _ _ (mk_wfd (f_fd (wf s a)) (f_op (wf s a)) (f_pd (wf s a)) (-1)) V Of A2 eq_refl) F1 A5 Hmc) as (s2 & rc2 & B1 & B2 & [B3 _] & B4 & [(_ & X & _)|(-> & B5 & B6 & B7)]); [congruence|].
          rewrite F1' in B5, B6. fold m1 in B5, B6. rewrite settle_rw in B5, B6 by exact Mrw. exists s2. split; [exact B1|]. split; [exact B2|]. split; [exact B3|]. split; [exact B4|].
          split; [|split; [exact B6|intros b Hb; rewrite B7 by exact Hb; apply F1o; exact Hb]]. fold dat1 in B5. apply (dinv_ext _ _ _ _ _ _ _ _ _ B5). intros b Hb. cbn beta. rewrite Z.eqb_refl. fold f0 m1. destruct (b =? a); [|reflexivity].
          rewrite settle_rw; auto. }
      destruct Hadd as (s2 & B1 & B2 & B3 & B4 & B5 & B6 & B7). rewrite B1. cbn [bind]. replace (negb (0 =? 0)) with false by reflexivity.
      set (dat2 := if M a =? m1 then dat1 else upd dat1 a (pen a)).
      assert (Hdel : exists s3, (if negb (o_del op =? 0) then win_del s2 a (o_del op) (pen a) (o i) else Ok (s2, 0)) = Ok (s3, 0) /\ w_polling (wp s3) = false /\ rest (wp s3) = rest (wp s) /\
        dinv ids dat2 pen fd0 M L (base + 1) s3 /\ f_op (wf s3 a) = M a /\ forall b, b <> a -> wf s3 b = wf s b).
      { destruct (o_del op =? 0) eqn:E0; cbn [negb].
        - assert (Em : M a = m1) by (rewrite M1; replace (o_del op) with 0 by lia; apply Z.ldiff_0_r). exists s2. split; [reflexivity|]. split; [exact B2|]. split; [exact B3|]. split; [|split; [congruence|exact B7]].
          unfold dat2. rewrite Em, Z.eqb_refl. apply (dinv_ext _ _ _ _ _ _ _ _ _ B5). intros b Hb. destruct (b =? a) eqn:E; [|reflexivity]. apply Z.eqb_eq in E. subst b. exact Em.
        - destruct (d_del_ok _ _ _ _ _ _ _ _ a (o_del op) (pen a) (o i) B5 B2 Ha B4 A6) as (s3 & C1 & C2 & [C3 _] & C4 & C5 & C6 & C7).
          rewrite B6 in C5, C6. rewrite settle_rw, <- M1 in C5, C6 by (rewrite <- M1; exact M2). fold dat2 in C5.
          exists s3. split; [exact C1|]. split; [exact C2|]. split; [congruence|]. split; [|split; [exact C6|intros b Hb; rewrite C7 by exact Hb; apply B7; exact Hb]]. apply (dinv_ext _ _ _ _ _ _ _ _ _ C5). intros b Hb. cbn beta. rewrite Z.eqb_refl. destruct (b =? a) eqn:E; [|reflexivity].
          apply Z.eqb_eq in E. subst b. rewrite settle_rw; auto. rewrite <- M1. exact M2. }
      destruct Hdel as (s3 & C1 & C2 & C3 & C4 & C5 & C6). rewrite C1. cbn [bind]. replace (negb (0 =? 0)) with false by reflexivity.
      destruct (IH dat2 M (base + 1) s3 (i + 1) rc C4 C2) as (s' & S1 & S2 & S3). exists s'. split; [exact S1|]. split; [|congruence].
      apply (dinv_dext _ _ _ _ _ _ _ _ _ S2). intros b Hb. right. cbn beta. destruct (Z.eq_dec b a) as [->|Hne].
      * fold f0. rewrite C5, Z.eqb_refl. unfold dat2, dat1. destruct (M a =? f0) eqn:Ef.
        -- apply Z.eqb_eq in Ef. assert (Em : m1 = f0) by (apply (mask_kept f0 (o_add op) (o_del op) A7); fold m1; congruence). rewrite Em, Ef, Z.eqb_refl. reflexivity.
        -- destruct (M a =? m1) eqn:E1; [|unfold upd; rewrite Z.eqb_refl; reflexivity]. apply Z.eqb_eq in E1. rewrite <- E1, Ef. unfold upd. rewrite Z.eqb_refl. reflexivity.
      * rewrite (C6 b Hne). assert (Ed : dat2 b = dat b). { unfold dat2, dat1, upd. apply Z.eqb_neq in Hne. destruct (M a =? m1), (m1 =? f0); rewrite ?Hne; reflexivity. } rewrite Ed. reflexivity.
Qed.
Definition dokay (ids : list Z) (fd0 : Z -> Z) (B : dabs) (s : wst) : Prop :=
  dgood ids (d_data B) (d_last B) fd0 (d_abs B) s /\ (forall a, In a ids -> f_op (wf s a) = d_force B a) /\ 0 <= w_off (wp s) <= w_cap (wp s).
Lemma dinv_nil ids dat pen fd0 M base s : dinv ids dat pen fd0 M [] base s -> dinv ids dat pen fd0 M [] 0 s.
Proof.
  intros V. destruct V as [v_ids0 v_shape0 v_count0 v_fd0 v_id0 v_sep0 v_full0 v_fsep0 v_op0 v_opi0 v_own0 v_mask0 v_wake0 v_num0].
  assert (N : forall j (o : wop), zget [] j = Some o -> False) by (intros j o H; apply zget_Some_range in H; rewrite zlen_nil in H; lia).
  constructor; auto; try tauto.
  - intuition lia.
  - intros j o H. destruct (N _ _ H).
  - intros a Ha. destruct (v_opi0 a Ha) as [H|(o & H & _)]; [now left|destruct (N _ _ H)].
  - intros a Ha. split; [apply v_mask0; exact Ha|]. intros o H. destruct (N _ _ H).
Qed.
Lemma d_idle ids dat pen fd0 M s a : dinv ids dat pen fd0 M [] 0 s -> In a ids -> f_opi (wf s a) = -1 /\ f_op (wf s a) = M a /\ mok (M a) /\ has (wf s a) = negb (M a =? 0).
Proof.
  intros V Ha. destruct (v_opi _ _ _ _ _ _ _ _ V a Ha) as [H|(o & H & _)]; [|apply zget_Some_range in H; rewrite zlen_nil in H; lia].
  destruct (v_mask _ _ _ _ _ _ _ _ V a Ha) as [E _]. specialize (E H). destruct (v_id _ _ _ _ _ _ _ _ V a (or_intror Ha)) as [Mo D]. rewrite E. split; [exact H|]. split; [reflexivity|]. split; [exact Mo|].
  unfold has. destruct D as [[D1 D2]|[D1 (i & _ & D2 & _)]]; rewrite D2; [rewrite D1; reflexivity|]. destruct (f_op (wf s a) =? 0) eqn:Z0; [lia|reflexivity].
Qed.
Lemma d_idle_good ids dat pen fd0 A s : dinv ids dat pen fd0 (a_mask A) [] 0 s -> w_ops (wp s) = [] -> w_polling (wp s) = false -> a_poll A = false -> 0 <= a_subs A -> qcap (wp s) ->
  (forall a, In a ids -> a_held A a = negb (a_mask A a =? 0)) -> dgood ids dat pen fd0 A s.
Proof.
  intros V Eo Np Ap Sb (Q1 & Q2 & Q3) Hh. split; [rewrite Eo; exact V|]. split; [congruence|]. split; [auto|]. split; [|split].
  - intros a Ha. destruct (d_idle _ _ _ _ _ _ a V Ha) as (_ & _ & X & Y). split; [exact X|]. rewrite Y. auto.
  - rewrite Eo. cbn [cntb]. pose proof (cntb_range (fun a => has (wf s a)) ids). lia.
  - split; [rewrite Eo, zlen_nil; exact Sb|]. split; [exact Q1|]. split; [exact Q2|]. split; [exact Q3|]. congruence.
Qed.
Lemma d_good_held ids dat pen fd0 A s a : dgood ids dat pen fd0 A s -> a_poll A = false -> In a ids -> a_held A a = negb (a_mask A a =? 0).
Proof.
  intros (V & _ & Em & Ms & _) Ap Ha. rewrite (Em Ap) in V. destruct (d_idle _ _ _ _ _ _ a V Ha) as (_ & _ & _ & Y). destruct (Ms a Ha) as [_ H]. congruence.
Qed.
Lemma d_good_upd ids dat pen fd0 A s s' a m : dgood ids dat pen fd0 A s -> a_poll A = false -> rest (wp s') = rest (wp s) ->
  dinv ids dat pen fd0 (fun b => if b =? a then m else a_mask A b) [] 0 s' -> dgood ids dat pen fd0 (upd_mask A a m) s'.
Proof.
  intros G Ap R V. assert (G' := G). destruct G' as (_ & Pol & Em & _ & _ & (Q0 & Q1 & Q2 & Q3 & _)). unfold rest in R. injection R as R1 R2 R3 R4 R5 R6 R7. pose proof (zlen_nonneg (w_ops (wp s))). apply d_idle_good.
  - exact V.
  - rewrite R1. auto.
  - congruence.
  - exact Ap.
  - cbn. lia.
  - unfold qcap. rewrite R1, R2, R3. auto.
  - intros b Hb. cbn. rewrite Ap. destruct (b =? a); [destruct (m =? 0); reflexivity|]. apply (d_good_held _ _ _ _ _ _ _ G Ap Hb).
Qed.
Lemma d_queue_good ids dat pen fd0 A s p' : dgood ids dat pen fd0 A s -> same (wp s) p' -> queue p' = queue (wp s) -> dgood ids dat pen fd0 A (mk_wst p' (wf s)).
Proof.
  intros (V & Pol & Em & Ms & Num & Q) S E. unfold queue in E. injection E as E1 E2 E3 E4. unfold dgood, queue_ok. cbn [wp wf]. rewrite E1, E2, E3, E4. split; [apply dinv_same; assumption|]. auto.
Qed.
Lemma d_force_rest ids dat pen fd0 A s a : dgood ids dat pen fd0 A s -> a_poll A = false -> In a ids -> f_op (wf s a) = a_mask A a.
Proof. intros (V & _ & Em & _) Ap Ha. rewrite (Em Ap) in V. apply (d_idle _ _ _ _ _ _ a V Ha). Qed.
Lemma astep_add A a ev o : astep A (Add a ev o) (Ret 0) = upd_mask A a (target true (a_mask A a) ev).
Proof. reflexivity. Qed.
Lemma astep_del A a ev o : astep A (Del a ev o) (Ret 0) = upd_mask A a (target false (a_mask A a) ev).
Proof. reflexivity. Qed.
Lemma upd_mask_at A a m : a_mask (upd_mask A a m) a = m.
Proof. cbn. rewrite Z.eqb_refl. reflexivity. Qed.
(** A call that is put off. *)
Lemma d_put_step ids fd0 B s s' a d m rc : dokay ids fd0 B s -> a_poll (d_abs B) = true -> w_off (wp s') = w_off (wp s) /\ w_cap (wp s') = w_cap (wp s) ->
  (rc = 0 /\ dgood ids (d_data B) (upd (d_last B) a d) fd0 (upd_mask (d_abs B) a m) s' /\ (forall b, b <> a -> wf s' b = wf s b) /\ f_op (wf s' a) = (if m =? 0 then 0 else f_op (wf s a))) ->
  dokay ids fd0 (mk_dabs (upd_mask (d_abs B) a m) (if m =? 0 then upd (d_force B) a 0 else d_force B) (d_data B) (upd (d_last B) a d)) s'.
Proof.
  intros (G & Fo & Ho) Ap [K1 K2] (_ & D & E1 & E2). split; [exact D|]. split; [|rewrite K1, K2; exact Ho]. intros b Hb. cbn [d_force]. destruct (Z.eq_dec b a) as [->|Hne].
  - rewrite E2. destruct (m =? 0); [unfold upd; rewrite Z.eqb_refl; reflexivity|auto].
  - rewrite E1 by exact Hne. rewrite (Fo b Hb). destruct (m =? 0); [|reflexivity]. unfold upd. rewrite (proj2 (Z.eqb_neq b a) Hne). reflexivity.
Qed.
(** A call made while no thread polls. *)
Lemma d_now_step ids fd0 B s s' a d m : dokay ids fd0 B s -> a_poll (d_abs B) = false -> In a ids -> capr s s' ->
  dinv ids (if m =? f_op (wf s a) then d_data B else upd (d_data B) a d) (d_last B) fd0 (fun b => if b =? a then m else a_mask (d_abs B) b) [] 0 s' ->
  f_op (wf s' a) = m -> (forall b, b <> a -> wf s' b = wf s b) ->
  dokay ids fd0 (mk_dabs (upd_mask (d_abs B) a m) (upd (d_force B) a m) (if m =? a_mask (d_abs B) a then d_data B else upd (d_data B) a d) (d_last B)) s'.
Proof.
  intros (G & Fo & Ho) Ap Ha [R Cap] V' E1 E2. rewrite <- (d_force_rest _ _ _ _ _ _ _ G Ap Ha). split; [cbn [d_data d_last d_abs]|split].
  - assert (G' := G). destruct G' as (_ & Pol & Em & _ & _ & (Q0 & Q1 & Q2 & Q3 & _)). unfold rest in R. injection R as R1 R2 R3 R4 R5 R6 R7. pose proof (zlen_nonneg (w_ops (wp s))). apply d_idle_good.
    + exact V'.
    + rewrite R1. auto.
    + congruence.
    + exact Ap.
    + cbn. lia.
    + unfold qcap. rewrite R1, R2, R3. auto.
    + intros b Hb. cbn. rewrite Ap. destruct (b =? a); [destruct (m =? 0); reflexivity|]. apply (d_good_held _ _ _ _ _ _ _ G Ap Hb).
  - intros b Hb. cbn [d_force]. unfold upd. destruct (Z.eq_dec b a) as [->|Hne]; [rewrite Z.eqb_refl; exact E1|]. rewrite (proj2 (Z.eqb_neq b a) Hne), (E2 b Hne). auto.
  - rewrite (rest_off _ _ R). lia.
Qed.
Lemma d_add_step ids fd0 B s a ev d o : dokay ids fd0 B s -> allowed ids (d_abs B) (Add a ev o) ->
  exists s' rc, win_add s a ev d o = Ok (s', rc) /\ dokay ids fd0 (dastep B (DAdd a ev d o) (Ret rc)) s'.
Proof.
  intros K (Ha & Hev & Mc & Mw & Hp). assert (K' := K). destruct K' as (G & Fo & Ho). destruct (a_poll (d_abs B)) eqn:Ap.
  - destruct (Hp eq_refl) as [H1 H2]. assert (Pol : w_polling (wp s) = true) by (destruct G as (_ & P & _); congruence).
    unfold win_add. rewrite Pol. destruct (d_submit_ok _ _ _ _ _ _ a ev d o true G Ap Ha Hev H2 Mw) as (s' & rc & E & D). { intros X. unfold target in X. congruence. }
    exists s', rc. split; [exact E|]. pose proof (submit_keeps _ _ _ _ _ _ _ _ E) as KK. destruct D as [[-> ->]|[-> D]]; [destruct B; exact K|].
    unfold dastep. cbn [plain]. rewrite Ap, astep_add, upd_mask_at. apply (d_put_step _ _ _ s s' a d _ 0); auto.
  - assert (G' := G). destruct G' as (V & Pol & Em & _). rewrite (Em Ap) in V. destruct (d_idle _ _ _ _ _ _ a V Ha) as (Oi & Of & _).
    destruct (d_add_ok _ _ _ _ _ _ _ _ a ev d o V (eq_trans (eq_sym Pol) Ap) Ha (unowned_nil _ _ _) Oi Hev Mc) as (s' & rc & E & Np & [R Cap] & _ & D). exists s', rc. split; [exact E|].
    destruct D as [(-> & _ & V' & Wf)|(-> & V' & E1 & E2)].
    + assert (X : dastep B (DAdd a ev d o) (Ret (-1)) = B) by (destruct B; reflexivity). rewrite X. split; [|split; [rewrite Wf; exact Fo|rewrite (rest_off _ _ R); lia]].
      assert (G' := G). destruct G' as (_ & _ & _ & _ & _ & (Q0 & Q1 & Q2 & Q3 & _)). pose proof (zlen_nonneg (w_ops (wp s))). unfold rest in R. injection R as R1 R2 R3 R4 R5 R6 R7.
      apply d_idle_good; auto; [rewrite R1; auto|lia|unfold qcap; rewrite R1, R2, R3; auto|]. intros b Hb. apply (d_good_held _ _ _ _ _ _ _ G Ap Hb).
    + unfold dastep. cbn [plain]. rewrite Ap, astep_add, upd_mask_at. rewrite Of in V', E1. unfold target. apply (d_now_step _ _ _ s); auto; [split; assumption|]. rewrite Of. exact V'.
Qed.
Lemma d_del_step ids fd0 B s a ev d o : dokay ids fd0 B s -> allowed ids (d_abs B) (Del a ev o) ->
  exists s' rc, win_del s a ev d o = Ok (s', rc) /\ dokay ids fd0 (dastep B (DDel a ev d o) (Ret rc)) s'.
Proof.
  intros K (Ha & Hev & Mw & Hp). assert (K' := K). destruct K' as (G & Fo & Ho). destruct (a_poll (d_abs B)) eqn:Ap.
  - destruct (Hp eq_refl) as [H1 H2]. assert (Pol : w_polling (wp s) = true) by (destruct G as (_ & P & _); congruence).
    unfold win_del. rewrite Pol. destruct (d_submit_ok _ _ _ _ _ _ a ev d o false G Ap Ha Hev H2 Mw) as (s' & rc & E & D). { exact H1. }
    exists s', rc. split; [exact E|]. pose proof (submit_keeps _ _ _ _ _ _ _ _ E) as KK. destruct D as [[-> ->]|[-> D]]; [destruct B; exact K|].
    unfold dastep. cbn [plain]. rewrite Ap, astep_del, upd_mask_at. apply (d_put_step _ _ _ s s' a d _ 0); auto.
  - assert (G' := G). destruct G' as (V & Pol & Em & _). rewrite (Em Ap) in V. destruct (d_idle _ _ _ _ _ _ a V Ha) as (Oi & Of & _).
    destruct (d_del_ok _ _ _ _ _ _ _ _ a ev d o V (eq_trans (eq_sym Pol) Ap) Ha Oi Hev) as (s' & E & Np & [R Cap] & _ & V' & E1 & E2). exists s', 0. split; [exact E|].
    unfold dastep. cbn [plain]. rewrite Ap, astep_del, upd_mask_at. rewrite Of in V', E1. unfold target. apply (d_now_step _ _ _ s); auto; [split; assumption|]. rewrite Of. exact V'.
Qed.
Lemma d_begin_step ids fd0 B s t : dokay ids fd0 B s ->
  exists s' b, wait_begin s t = Ok (s', b) /\ dokay ids fd0 (dastep B (DWait t) (match b with Done rc => Ret rc | Polls _ => Began end)) s'.
Proof.
  intros K. assert (K' := K). destruct K' as (G & Fo & Ho). assert (Sh : shape (wp s)) by (destruct G as [V _]; apply V). unfold wait_begin. destruct (ev_block_ok _ Sh) as (ev & _ & El & _). rewrite El. destruct (w_polling (wp s)) eqn:Pl.
  { exists s, (Done (-1)). split; [reflexivity|]. destruct B; exact K. }
  destruct (w_rem (wp s) >? 0).
  - destruct (fill_results_same _ Sh Ho) as (p' & F1 & F2 & F3 & F4). rewrite F1. cbn [bind]. eexists _, _. split; [reflexivity|].
    assert (X : forall rc, dastep B (DWait t) (Ret rc) = B) by (intros rc; destruct B; reflexivity). cbv beta iota. rewrite X. split; [apply d_queue_good; auto|]. split; [exact Fo|exact F4].
  - eexists _, _. split; [reflexivity|]. split; [|split; [exact Fo|exact Ho]]. cbn [dastep plain astep d_abs d_data d_last]. assert (G' := G). destruct G' as (V & Pol & Em & Ms & Num & (Q0 & Q1 & Q2 & Q3 & _)). assert (Ap : a_poll (d_abs B) = false) by congruence.
    split; [cbn; apply dinv_same; [exact V|apply same_fields; auto]|]. split; [reflexivity|]. split; [discriminate|]. split; [exact Ms|]. split; [exact Num|].
    split; [cbn; rewrite (Em Ap), zlen_nil; lia|]. split; [exact Q1|]. split; [exact Q2|]. split; [exact Q3|]. cbn. lia.
Qed.
Lemma d_end_step ids fd0 B s an o : dokay ids fd0 B s -> allowed ids (d_abs B) (Answer an o) ->
  exists s' rc, wait_end s an o = Ok (s', rc) /\ dokay ids fd0 (dastep B (DAnswer an o) (Ret rc)) s'.
Proof.
  intros (G & Fo & Ho) (Ap & Hm & Hf). assert (Sh : shape (wp s)) by (destruct G as [V _]; apply V).
  assert (First : exists p1, match an with Events n revents => let* ev := ev_block (wp s) in let p := set_events (wp s) (Live (store ev revents)) in
              if n >? 0 then let* r := event_inner (set_rem p n) 0 in Ok (fst (r : wpoll * Z)) else Ok p | Failed _ => Ok (wp s) end = Ok p1 /\ same (wp s) p1 /\ queue p1 = queue (wp s)).
  { destruct an as [n rv|e]; [|exists (wp s); split; [reflexivity|]; split; [apply same_refl; exact Sh|reflexivity]].
    destruct (ev_block_ok _ Sh) as (ev & EB & El & _). rewrite EB. cbn [bind]. cbv zeta. pose proof (store_same _ _ rv Sh El) as S1. destruct (n >? 0); [|eexists; split; [reflexivity|split; [exact S1|reflexivity]]].
    set (p := set_events (wp s) (Live (store ev rv))) in *. assert (S2 : same (wp s) (set_rem p n)) by (apply (same_trans _ p); [exact S1|apply same_fields; auto; apply S1]).
    destruct (event_inner_same (set_rem p n) 0 (proj1 S2)) as (p2 & v & E1 & E2 & E3 & _). { destruct (proj1 S2) as (k & _ & K & C & _). unfold inr. rewrite C. pose proof (Z.pow_pos_nonneg 2 k ltac:(lia) ltac:(lia)). lia. }
    rewrite E1. cbn [bind fst]. exists p2. split; [reflexivity|]. split; [apply (same_trans _ (set_rem p n)); assumption|exact E3]. }
  destruct First as (p1 & E1 & S1 & Q1). pose proof (d_queue_good _ _ _ _ _ _ _ G S1 Q1) as G1.
  unfold wait_end. cbv zeta in *. rewrite E1. cbn [bind]. cbv zeta. change (w_ops (set_polling p1 false)) with (w_ops p1).
  destruct G1 as (V & Pol & Em & Ms & Num & (R0 & R1 & R2 & R3 & R4)). cbn [wp wf] in *.
  assert (Nf : match an with Events _ _ => false | Failed e => negb ((e =? WSAENOTSOCK) && (zlen (w_ops p1) >? 0)) end = false).
  { destruct an as [n rv|e]; [reflexivity|]. destruct (Hf e eq_refl) as [-> Hs]. specialize (R4 Ap Hs). destruct (zlen (w_ops p1) >? 0) eqn:Z0; [reflexivity|lia]. }
  rewrite Nf. assert (V0 : dinv ids (d_data B) (d_last B) fd0 (a_mask (d_abs B)) (w_ops p1) 0 (mk_wst (set_polling p1 false) (wf s))).
  { apply (dinv_same _ _ _ _ _ _ _ (mk_wst p1 (wf s))); [exact V|]. apply same_fields; auto. apply V. }
  destruct (d_process_ok _ _ _ _ o Hm _ _ _ _ 0 0 V0 eq_refl) as (s2 & P1 & P2 & P3). rewrite P1. cbn [bind]. replace (0 =? 0) with true by reflexivity. apply dinv_nil in P2.
  set (p2 := set_off (set_ops (wp s2) []) 1). assert (Sh2 : shape (wp s2)) by apply P2. assert (S2 : same (wp s2) p2) by (apply same_fields; auto).
  assert (C2 : 16 <= w_cap p2). { destruct (proj1 S2) as (k & _ & K & C & _). rewrite C. pose proof (Z.pow_pos_nonneg 2 k ltac:(lia) ltac:(lia)). lia. }
  destruct (fill_results_same p2 (proj1 S2) ltac:(cbn in *; lia)) as (p3 & F1 & F2 & F3 & F4). rewrite F1. cbn [bind]. eexists _, _. split; [reflexivity|].
  assert (Fs : forall a, In a ids -> f_op (wf s2 a) = a_mask (d_abs B) a) by (intros a Ha; apply (d_idle _ _ _ _ _ _ a P2 Ha)).
  split; [|split; [exact Fs|exact F4]]. cbn [dastep plain astep d_abs d_data d_last].
  unfold queue in F3. injection F3 as F31 F32 F33 F34. unfold rest in P3. injection P3 as P31 P32 P33 P34 P35 P36 P37. cbn in P31, P32, P33, P34, F31, F32, F33, F34. apply d_idle_good; cbn [wp a_poll a_subs a_mask a_held].
  - apply (dinv_same _ _ _ _ _ _ _ s2); [|apply (same_trans _ p2); assumption]. apply (dinv_dext _ _ _ _ _ _ _ _ _ P2). intros a Ha. right. cbn [wf]. rewrite (Fo a Ha). reflexivity.
  - exact F31.
  - congruence.
  - reflexivity.
  - lia.
  - unfold qcap. cbn in F31, F32, F33. rewrite F31, F32, F33, P32, P33, zlen_nil. repeat split; auto; pose proof (zlen_nonneg (w_ops p1)); [lia|apply R3; assumption|apply R3; assumption].
  - auto.
Qed.
Lemma d_block_step ids fd0 B s a ev : dokay ids fd0 B s -> allowed ids (d_abs B) (Blocked a ev) -> exists s', would_block s a ev = Ok s' /\ dokay ids fd0 B s'.
Proof.
  intros K (Ha & Hev). assert (K' := K). destruct K' as (G & Fo & Ho). unfold would_block. assert (V := proj1 G).
  destruct (v_id _ _ _ _ _ _ _ _ V a (or_intror Ha)) as [Mo [[D1 D2]|[D1 (i & I1 & I2 & _ & (c & C1 & C2 & C3 & C4))]]].
  - rewrite D2. exists s. split; [reflexivity|exact K].
  - rewrite I2. rewrite (cell_get_ok _ _ _ C1). cbn [bind]. destruct (Z.land (c_edge c) ev =? 0); [exists s; split; [reflexivity|exact K]|]. assert (Sh : shape (wp s)) by apply V.
    destruct (cell_put_ok (wp s) i (mk_cell (Z.land (c_edge c) (Z.lnot ev)) (c_index c) (c_data c)) Sh I1) as (d & Q1 & Q2 & Q3 & Q4). rewrite Q1. cbn [bind]. eexists. split; [reflexivity|]. split; [|split; [exact Fo|exact Ho]].
    apply d_queue_good; [exact G| |reflexivity]. split; [exact Q2|]. split; [reflexivity|]. split; [reflexivity|]. split; [intros; cbn in *; congruence|]. split; [reflexivity|].
    intros j Hj. destruct (Z.eq_dec j i) as [->|Hne]; [|rewrite Q4; auto]. rewrite Q3, C1. cbn [option_map]. unfold look_cell. cbn [c_edge c_index c_data]. f_equal. f_equal. rewrite Z.land_spec, Z.lnot_spec by lia.
    replace (Z.testbit ev 2) with false by (destruct Hev; subst ev; reflexivity). apply Bool.andb_true_r.
Qed.
Lemma dastep_abs B c r : d_abs (dastep B c r) = astep (d_abs B) (plain c) r.
Proof. destruct c as [a ev d o|a ev d o|t|an o|a ev]; cbn [dastep plain]; destruct r as [[|p|p]|]; try reflexivity; destruct (a_poll (d_abs B)); reflexivity. Qed.
Lemma d_step_ok ids fd0 B s c : dokay ids fd0 B s -> allowed ids (d_abs B) (plain c) -> exists s' r, dstep s c = Ok (s', r) /\ dokay ids fd0 (dastep B c r) s'.
Proof.
  intros K H. destruct c as [a ev d o|a ev d o|t|an o|a ev]; cbn [dstep].
  - destruct (d_add_step _ _ _ _ _ _ d _ K H) as (s' & rc & E & K'). rewrite E. cbn [bind]. eauto.
  - destruct (d_del_step _ _ _ _ _ _ d _ K H) as (s' & rc & E & K'). rewrite E. cbn [bind]. eauto.
  - destruct (d_begin_step _ _ _ _ t K) as (s' & b & E & K'). rewrite E. cbn [bind]. eauto.
  - destruct (d_end_step _ _ _ _ _ _ K H) as (s' & rc & E & K'). rewrite E. cbn [bind]. eauto.
  - destruct (d_block_step _ _ _ _ _ _ K H) as (s' & E & K'). rewrite E. cbn [bind]. eexists _, _. split; [reflexivity|]. destruct B; exact K'.
Qed.
Lemma d_run_ok ids fd0 l : forall B s, dokay ids fd0 B s -> dlegal ids (d_abs B) s l -> exists s' r, drun s l = Ok (s', r) /\ dokay ids fd0 (daruns B l r) s'.
Proof.
  induction l as [|c l IH]; intros B s K H; cbn [drun].
  - exists s, []. auto.
  - destruct H as [H1 H2]. destruct (d_step_ok _ _ _ _ _ K H1) as (s1 & r1 & E1 & K1). rewrite E1. cbn [bind fst snd]. specialize (H2 _ _ E1). rewrite <- dastep_abs in H2. destruct (IH _ _ K1 H2) as (s2 & r2 & E2 & K2). rewrite E2. cbn [bind fst snd]. eauto.
Qed.
(** Between the invariants, when nothing is put off. *)
Lemma dinv_inv ids dat pen fd0 M s : dinv ids dat pen fd0 M [] 0 s -> inv ids dat fd0 M [] 0 s.
Proof. intros V. destruct V. constructor; auto. intros j o H. apply zget_Some_range in H. rewrite zlen_nil in H. lia. Qed.
Lemma inv_dinv ids dat pen fd0 M s : inv ids dat fd0 M [] 0 s -> dinv ids dat pen fd0 M [] 0 s.
Proof. intros V. destruct V. constructor; auto. intros j o H. apply zget_Some_range in H. rewrite zlen_nil in H. lia. Qed.
Lemma init_dokay ids f fd j : fresh ids f -> fd <> INVALID -> dokay ids (fun a => if a =? WAKE then fd else f_fd (f a)) dabs0 (started f fd j).
Proof.
  intros Fr Hfd. destruct (init_okay ids (fun _ => 0) f fd j Fr Hfd) as [(V & Pol & Em & Ms & Num & Q) Ho]. split; [|split; [|exact Ho]].
  - split; [apply inv_dinv; exact V|]. split; [exact Pol|]. split; [exact Em|]. split; [exact Ms|]. split; [exact Num|exact Q].
  - intros a Ha. apply (idle _ _ _ _ _ a V Ha).
Qed.
