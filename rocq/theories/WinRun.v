(** Proofs about the Windows poller: whole histories. *)
From Coq Require Import Permutation FinFun.
From Verif Require Import Base SockModel PollModel WinModel WinSpec WinProofs.
From Coq Require Import ZifyBool.

Lemma inv_ext ids dat fd0 M M' L base s : inv ids dat fd0 M L base s -> (forall a, In a ids -> M' a = M a) -> inv ids dat fd0 M' L base s.
Proof. intros V E. destruct V as [v_ids0 v_shape0 v_count0 v_fd0 v_id0 v_sep0 v_full0 v_fsep0 v_op0 v_opi0 v_own0 v_mask0 v_wake0 v_num0]. constructor; auto. intros a Ha. rewrite E by exact Ha. auto. Qed.
(** The structure of the first operation no longer refers to it. *)
Lemma inv_pop ids dat fd0 M o L base s a : inv ids dat fd0 M (o :: L) base s -> o_full o = false -> o_fdt o = Some a ->
  inv ids dat fd0 (fun b => if b =? a then f_op (wf s a) else M b) L (base + 1) (mk_wst (wp s) (upf (wf s) a (mk_wfd (f_fd (wf s a)) (f_op (wf s a)) (f_pd (wf s a)) (-1)))).
Proof.
  intros V Of Ofd. destruct V as [v_ids0 v_shape0 v_count0 v_fd0 v_id0 v_sep0 v_full0 v_fsep0 v_op0 v_opi0 v_own0 v_mask0 v_wake0 v_num0].
  assert (Z0 : zget (o :: L) 0 = Some o) by apply zget_cons0. destruct (v_op0 0 o Z0 Of) as (a' & Ha & E & Hi & _). rewrite Ofd in E. injection E as <-. rewrite Z.add_0_r in Hi.
  assert (ZS : forall j x, zget L j = Some x -> zget (o :: L) (j + 1) = Some x).
  { intros j x H. pose proof (zget_Some_range _ _ _ H). rewrite zget_consS by lia. replace (j + 1 - 1) with j by lia. exact H. }
  assert (Nw : a <> WAKE) by (intros ->; tauto). assert (B0 : 0 <= base) by tauto.
  set (t := mk_wfd (f_fd (wf s a)) (f_op (wf s a)) (f_pd (wf s a)) (-1)).
  assert (Up : forall b, b <> a -> upf (wf s) a t b = wf s b). { intros b Hb. unfold upf. destruct (b =? a) eqn:E; [lia|reflexivity]. }
  assert (UpA : upf (wf s) a t a = t). { unfold upf. rewrite Z.eqb_refl. reflexivity. }
  assert (Uf : forall b, f_fd (upf (wf s) a t b) = f_fd (wf s b) /\ f_op (upf (wf s) a t b) = f_op (wf s b) /\ f_pd (upf (wf s) a t b) = f_pd (wf s b)).
  { intros b. destruct (Z.eq_dec b a) as [->|Hne]; [rewrite UpA|rewrite Up by exact Hne]; auto. }
  constructor; cbn [wp wf]; auto.
  - split; [tauto|]. split; [tauto|]. split; [tauto|lia].
  - intros b Hb. destruct (Uf b) as (-> & _ & _). auto.
  - intros b Hb. destruct (Uf b) as (U1 & -> & U3). rewrite U3. destruct (v_id0 b Hb) as [Mb [H|(H & i & I)]]; split; auto. right. split; [exact H|]. exists i. destruct (Uf b) as (-> & -> & ->). exact I.
  - intros b c q Hb Hc Hne. destruct (Uf b) as (_ & _ & ->). destruct (Uf c) as (_ & _ & ->). eauto.
  - intros k x Hk Hx. destruct (v_full0 (k + 1) x (ZS _ _ Hk) Hx) as (i & I1 & I2 & I3 & I4 & I5). exists i. split; [exact I1|]. split; [exact I2|]. split; [exact I3|]. split; [exact I4|].
    intros b Hb. destruct (Uf b) as (_ & _ & ->). auto.
  - intros k k' x x' H1 H2 Hne. apply (v_fsep0 (k + 1) (k' + 1)); auto. lia.
  - intros k x Hk Hx. destruct (v_op0 (k + 1) x (ZS _ _ Hk) Hx) as (b & B1 & B2 & B3 & B4). exists b. split; [exact B1|]. split; [exact B2|]. split; [|exact B4].
    assert (b <> a). { intros ->. apply zget_Some_range in Hk. lia. } rewrite Up by assumption. lia.
  - intros b Hb. destruct (Z.eq_dec b a) as [->|Hne]; [left; rewrite UpA; reflexivity|]. rewrite Up by exact Hne.
    destruct (v_opi0 b Hb) as [H|(y & Y1 & Y2 & Y3)]; [now left|]. right. exists y. split; [|auto]. rewrite zget_cons in Y1. destruct (f_opi (wf s b) - base =? 0) eqn:E; [congruence|].
    replace (f_opi (wf s b) - (base + 1)) with (f_opi (wf s b) - base - 1) by lia. exact Y1.
  - intros i e E1 E2. destruct (v_own0 i e E1 E2) as [(b & B1 & B2)|(k & x & X1 & X2 & X3)].
    + left. exists b. destruct (Uf b) as (_ & _ & ->). auto.
    + right. rewrite zget_cons in X1. destruct (k =? 0) eqn:E; [congruence|eauto].
  - intros b Hb. destruct (Z.eq_dec b a) as [->|Hne].
    + rewrite Z.eqb_refl, UpA. cbn [f_opi f_op t]. split; [auto|]. intros x Hx. apply zget_Some_range in Hx. lia.
    + rewrite (proj2 (Z.eqb_neq b a) Hne). rewrite Up by exact Hne. destruct (v_mask0 b Hb) as [M1 M2]. split; [exact M1|]. intros x Hx. apply (M2 x). apply ZS in Hx.
      replace (f_opi (wf s b) - (base + 1) + 1) with (f_opi (wf s b) - base) in Hx by lia. exact Hx.
  - rewrite Up by congruence. auto.
  - rewrite (cntb_ext (fun b => has (upf (wf s) a t b)) (fun b => has (wf s b))). 2: { intros b Hb. unfold has. destruct (Uf b) as (_ & _ & ->). reflexivity. }
    destruct v_num0 as [v_num0 v_own1]. split; [cbn [cntb] in v_num0; rewrite Of in v_num0; lia|]. destruct (own_pop _ _ _ _ _ Of Ofd v_own1) as (own & O1 & _). exists own. revert O1. apply own_keep. intros b _. unfold has. destruct (Uf b) as (_ & _ & ->). auto.
Qed.
Lemma pop_unowned ids dat fd0 M o L base s a t : inv ids dat fd0 M (o :: L) base s -> o_full o = false -> o_fdt o = Some a -> has t = has (wf s a) -> unowned ids (upf (wf s) a t) L a.
Proof.
  intros V Of Ofd Ht. destruct (v_num _ _ _ _ _ _ _ V) as [_ O]. destruct (own_pop _ _ _ _ _ Of Ofd O) as (own & O1 & O2). exists own. split; [|exact O2]. revert O1. apply own_keep.
  intros b Hb. unfold upf. destruct (b =? a) eqn:E; [|auto]. apply Z.eqb_eq in E. subst b. contradiction.
Qed.
Lemma rest_polling p p' : rest p' = rest p -> w_polling p' = w_polling p.
Proof. unfold rest. congruence. Qed.
Lemma settle_rw m : Z.land m 3 <> 0 -> wsettle m = m.
Proof. intros H. unfold wsettle. destruct (m =? 4) eqn:E; [|reflexivity]. apply Z.eqb_eq in E. subst m. cbn in H. congruence. Qed.
Lemma rw_ldiff m d : Z.land (Z.ldiff m d) 3 <> 0 -> Z.land m 3 <> 0.
Proof. intros H E. apply H. apply Z.bits_inj'. intros n Hn. rewrite Z.land_spec, Z.ldiff_spec, Z.bits_0. assert (X := f_equal (fun z => Z.testbit z n) E). cbn beta in X. rewrite Z.land_spec, Z.bits_0 in X. destruct (Z.testbit m n), (Z.testbit 3 n), (Z.testbit d n); cbn in *; congruence. Qed.
Lemma process_ok ids dat fd0 L o : (forall i, m_events (o i) = true /\ m_chunk (o i) = true) ->
  forall M base s i rc, inv ids dat fd0 M L base s -> w_polling (wp s) = false ->
  exists s', process s L o i rc = Ok (s', rc) /\ inv ids dat fd0 M [] (base + zlen L) s' /\ rest (wp s') = rest (wp s).
Proof.
  intros Hm. induction L as [|op L IH]; intros M base s i rc V Np; cbn [process].
  - exists s. rewrite zlen_nil, Z.add_0_r. auto.
  - rewrite zlen_cons. replace (base + (zlen L + 1)) with (base + 1 + zlen L) by lia. destruct (o_full op) eqn:Of.
    + destruct (v_full _ _ _ _ _ _ _ V 0 op (zget_cons0 _ _) Of) as (j & J1 & J2 & (e & E1 & E2) & (c & C1 & C2) & _). rewrite J2.
      destruct (del_full_ok (wp s) j e c) as (p' & D1 & D2 & D3 & D4 & D5 & D6 & D7 & D8); auto. { apply V. } { exact (v_count _ _ _ _ _ _ _ V). }
      rewrite D1. cbn [bind]. destruct (IH M (base + 1) (mk_wst p' (wf s)) (i + 1) rc) as (s' & S1 & S2 & S3).
      * apply (inv_drop ids dat fd0 M op L base s p' j); auto.
      * cbn. rewrite (rest_polling _ _ D6). exact Np.
      * exists s'. split; [exact S1|]. split; [exact S2|]. cbn in S3. congruence.
    + destruct (v_op _ _ _ _ _ _ _ V 0 op (zget_cons0 _ _) Of) as (a & Ha & A2 & A3 & A4 & A5 & A6). rewrite A2. cbn [or_ub bind].
      pose proof (inv_pop _ _ _ _ _ _ _ _ _ V Of A2) as V1. set (s1 := mk_wst (wp s) (upf (wf s) a (mk_wfd (f_fd (wf s a)) (f_op (wf s a)) (f_pd (wf s a)) (-1)))) in *.
      assert (F1 : f_opi (wf s1 a) = -1 /\ f_op (wf s1 a) = f_op (wf s a)) by (cbn; unfold upf; rewrite Z.eqb_refl; auto). destruct F1 as [F1 F1'].
      rewrite A4. cbv zeta. fold s1.
      destruct (v_mask _ _ _ _ _ _ _ V a Ha) as [_ MB]. specialize (MB op). rewrite A3, Z.add_0_r, Z.sub_diag in MB. destruct (MB (zget_cons0 _ _)) as [M1 M2]. clear MB.
      assert (Mrw : Z.land (Z.lor (f_op (wf s a)) (o_add op)) 3 <> 0) by (apply (rw_ldiff _ (o_del op)); rewrite <- M1; exact M2).
      assert (Hadd : exists s2, (if negb (o_add op =? 0) then win_add s1 a (o_add op) (dat a) (o i) else Ok (s1, 0)) = Ok (s2, 0) /\ w_polling (wp s2) = false /\ rest (wp s2) = rest (wp s) /\ f_opi (wf s2 a) = -1 /\
        inv ids dat fd0 (fun b => if b =? a then Z.lor (f_op (wf s a)) (o_add op) else M b) L (base + 1) s2).
      { destruct (o_add op =? 0) eqn:E0; cbn [negb].
        - exists s1. split; [reflexivity|]. split; [exact Np|]. split; [reflexivity|]. split; [exact F1|]. apply (inv_ext _ _ _ _ _ _ _ _ V1). intros b Hb. destruct (b =? a); [|reflexivity].
          replace (o_add op) with 0 by lia. apply Z.lor_0_r.
        - destruct (Hm i) as [Hme Hmc]. destruct (add_ok _ _ _ _ _ _ _ a (o_add op) (o i) V1 Np Ha (pop_unowned _ _ _ _ _ _ _ _ _ (mk_wfd (f_fd (wf s a)) (f_op (wf s a)) (f_pd (wf s a)) (-1)) V Of A2 eq_refl) F1 A5 Hmc) as (s2 & rc2 & B1 & B2 & [B3 _] & B4 & [(_ & X & _)|(-> & B5 & _)]); [congruence|].
          exists s2. split; [exact B1|]. split; [exact B2|]. split; [exact B3|]. split; [exact B4|]. apply (inv_ext _ _ _ _ _ _ _ _ B5). intros b Hb. cbn beta. rewrite Z.eqb_refl. destruct (b =? a); [|reflexivity].
          rewrite settle_rw; auto. }
      destruct Hadd as (s2 & B1 & B2 & B3 & B4 & B5). rewrite B1. cbn [bind]. replace (negb (0 =? 0)) with false by reflexivity.
      assert (Hdel : exists s3, (if negb (o_del op =? 0) then win_del s2 a (o_del op) (dat a) (o i) else Ok (s2, 0)) = Ok (s3, 0) /\ w_polling (wp s3) = false /\ rest (wp s3) = rest (wp s) /\
        inv ids dat fd0 M L (base + 1) s3).
      { destruct (o_del op =? 0) eqn:E0; cbn [negb].
        - exists s2. split; [reflexivity|]. split; [exact B2|]. split; [exact B3|]. apply (inv_ext _ _ _ _ _ _ _ _ B5). intros b Hb. destruct (b =? a) eqn:E; [|reflexivity].
          apply Z.eqb_eq in E. subst b. rewrite M1. replace (o_del op) with 0 by lia. apply Z.ldiff_0_r.
        - destruct (del_ok _ _ _ _ _ _ _ a (o_del op) (o i) B5 B2 Ha B4 A6) as (s3 & C1 & C2 & [C3 _] & C4 & C5 & _).
          exists s3. split; [exact C1|]. split; [exact C2|]. split; [congruence|]. apply (inv_ext _ _ _ _ _ _ _ _ C5). intros b Hb. cbn beta. rewrite Z.eqb_refl. destruct (b =? a) eqn:E; [|reflexivity].
          apply Z.eqb_eq in E. subst b. rewrite settle_rw; auto. rewrite <- M1. exact M2. }
      destruct Hdel as (s3 & C1 & C2 & C3 & C4). rewrite C1. cbn [bind]. replace (negb (0 =? 0)) with false by reflexivity.
      destruct (IH M (base + 1) s3 (i + 1) rc C4 C2) as (s' & S1 & S2 & S3). exists s'. split; [exact S1|]. split; [exact S2|congruence].
Qed.

(** ** Results *)

Definition queue (p : wpoll) := (w_ops p, w_opcap p, w_opnull p, w_polling p).

Definition masked (r edge : Z) : Z := if Z.testbit edge 2 then Z.lor edge (rbits r) else edge.
Definition ready (e : pfd) : bool := negb (pf_fd e =? INVALID) && negb (pf_rev e =? 0).
Lemma event_inner_ok p i e c : shape p -> inr p i -> slot p i = Some e -> cel p i = Some c ->
  exists p', event_inner p i = Ok (p', if ready e then reported (pf_rev e) (c_edge c) else 0) /\ shape p' /\ w_events p' = w_events p /\ w_cap p' = w_cap p /\ w_count p' = w_count p /\ queue p' = queue p /\
    w_rem p' = w_rem p - (if ready e then 1 else 0) /\ w_off p' = w_off p /\ w_res p' = w_res p /\
    cel p' i = Some (mk_cell (if ready e then masked (pf_rev e) (c_edge c) else c_edge c) (c_index c) (c_data c)) /\ (forall j, inr p j -> j <> i -> cel p' j = cel p j).
Proof.
  intros Sh Ri Se Ce. unfold event_inner. destruct (ev_block_ok p Sh) as (ev & EB & El & Len & Sl). rewrite EB. cbn [bind]. rewrite Sl in Se. rewrite (zload_ok _ _ _ Se). cbn [bind].
  assert (Id : cel p i = Some (mk_cell (c_edge c) (c_index c) (c_data c)) /\ w_rem p = w_rem p - 0) by (rewrite Ce; destruct c; cbn; split; [reflexivity|lia]).
  unfold ready. destruct (pf_fd e =? INVALID); cbn [negb andb].
  { exists p. repeat (split; auto); apply Id. }
  destruct (pf_rev e =? 0); cbn [negb].
  { exists p. repeat (split; auto); apply Id. }
  rewrite (loc_inner p i Sh Ri). cbn [bind]. cbv zeta. assert (Ce2 : cel (set_rem p (w_rem p - 1)) i = Some c) by exact Ce. rewrite (cell_get_ok _ _ _ Ce2). cbn [bind].
  set (evs := if Z.land (pf_rev e) WPOLLOUT =? 0 then _ else _). assert (Hevs : evs = rbits (pf_rev e)).
  { unfold evs, rbits. destruct (Z.land (pf_rev e) WPOLLIN =? 0), (Z.land (pf_rev e) WPOLLOUT =? 0); reflexivity. }
  rewrite Hevs. clear evs Hevs. change (Z.land (c_edge c) SEDGE) with (Z.land (c_edge c) (2 ^ 2)). rewrite wland_bit by lia. unfold reported, masked. destruct (Z.testbit (c_edge c) 2) eqn:Tb; cbn [negb].
  - destruct (cell_put_ok (set_rem p (w_rem p - 1)) i (mk_cell (Z.lor (c_edge c) (rbits (pf_rev e))) (c_index c) (c_data c)) Sh Ri) as (d & Q1 & Q2 & Q3 & Q4). rewrite Q1. cbn [bind].
    eexists. split; [f_equal; f_equal; rewrite Z.ldiff_land; destruct (Z.land (pf_rev e) (Z.lor WPOLLHUP WPOLLERR) =? 0); reflexivity|]. split; [exact Q2|]. repeat (split; [reflexivity|]). split; [exact Q3|]. exact Q4.
  - cbn [bind]. eexists. split; [f_equal; f_equal; destruct (Z.land (pf_rev e) (Z.lor WPOLLHUP WPOLLERR) =? 0); reflexivity|]. split; [exact Sh|]. repeat (split; [reflexivity|]). split; [change (cel p i = Some (mk_cell (c_edge c) (c_index c) (c_data c))); rewrite Ce; destruct c; reflexivity|]. auto.
Qed.
Lemma masked_bit r edge : Z.testbit (masked r edge) 2 = Z.testbit edge 2.
Proof.
  unfold masked. destruct (Z.testbit edge 2) eqn:E; [|exact E]. rewrite Z.lor_spec, E. reflexivity.
Qed.
Lemma same_refl p : shape p -> same p p.
Proof. intros. apply same_fields; auto. Qed.
Lemma same_trans p q r : same p q -> same q r -> same p r.
Proof.
  intros (A1 & A2 & A3 & A4 & A5 & A6) (B1 & B2 & B3 & B4 & B5 & B6). split; [exact B1|]. split; [congruence|]. split; [congruence|]. split.
  - intros ev ev' H H'. destruct A1 as (k & ev1 & _ & _ & _ & _ & E1 & _). rewrite (B4 _ _ E1 H'). eauto.
  - split; [intros i; rewrite B5; apply A5|]. intros i Hi. rewrite B6; [apply A6; exact Hi|]. unfold inr in *. rewrite A3. exact Hi.
Qed.
Lemma event_inner_same p i : shape p -> inr p i -> exists p' v, event_inner p i = Ok (p', v) /\ same p p' /\ queue p' = queue p /\ w_off p' = w_off p.
Proof.
  intros Sh Ri. destruct (slot_in p i Sh Ri) as [e Se]. destruct (cel_in p i Sh Ri) as [c Ce].
  destruct (event_inner_ok p i e c Sh Ri Se Ce) as (p' & E1 & E2 & E3 & E4 & E5 & E6 & _ & E9 & _ & E7 & E8). exists p'. eexists. split; [exact E1|]. split; [|split; [exact E6|exact E9]].
  split; [exact E2|]. split; [exact E5|]. split; [exact E4|]. split; [intros; congruence|]. split; [unfold slot; rewrite E3; reflexivity|].
  intros j Hj. destruct (Z.eq_dec j i) as [->|Hne]; [|rewrite E8; auto]. rewrite E7, Ce. cbn [option_map]. unfold look_cell. cbn [c_edge c_index c_data]. destruct (ready e); [rewrite masked_bit|]; reflexivity.
Qed.
Lemma fill_loop_same p i n : shape p -> 0 <= i -> i + Z.of_nat n <= w_cap p -> 0 <= w_off p <= w_cap p ->
  exists p', fill_loop p i n = Ok p' /\ same p p' /\ queue p' = queue p /\ 0 <= w_off p' <= w_cap p.
Proof.
  revert p i. induction n as [|n IH]; intros p i Sh I0 In Ho; cbn [fill_loop].
  - exists (set_rem p 0). split; [reflexivity|]. split; [apply same_fields; auto|]. split; [reflexivity|exact Ho].
  - destruct (w_rem p >? 0); [|exists (set_rem p 0); split; [reflexivity|]; split; [apply same_fields; auto|]; split; [reflexivity|exact Ho]].
    assert (Ri : inr p i) by (unfold inr; lia). destruct (event_inner_same p i Sh Ri) as (p1 & v & E1 & E2 & E3 & E4). rewrite E1. cbn [bind].
    assert (Sh1 := proj1 E2). assert (Cap : w_cap p1 = w_cap p) by apply E2.
    destruct (negb (v =? 0)).
    + assert (Ri1 : inr p1 i) by (unfold inr; lia). rewrite (loc_inner p1 i Sh1 Ri1). cbn [bind]. destruct (cel_in p1 i Sh1 Ri1) as [c Ce]. rewrite (cell_get_ok _ _ _ Ce). cbn [bind]. cbv zeta.
      set (p2 := set_res p1 _). assert (S2 : same p p2) by (apply (same_trans _ p1); [exact E2|apply same_fields; auto]). destruct (zlen (w_res p2) =? MAX_EVENTS).
      * eexists. split; [reflexivity|]. split; [apply (same_trans _ p2); [exact S2|apply same_fields; auto]|split; [exact E3|cbn; lia]].
      * destruct (IH p2 (i + 1)) as (p' & F1 & F2 & F3 & F4); [apply S2|lia|change (w_cap p2) with (w_cap p1); lia|change (w_off p2) with (w_off p1); change (w_cap p2) with (w_cap p1); lia|].
        exists p'. split; [exact F1|]. split; [apply (same_trans _ p2); assumption|]. rewrite F3. split; [exact E3|]. change (w_cap p2) with (w_cap p1) in F4. lia.
    + destruct (IH p1 (i + 1)) as (p' & F1 & F2 & F3 & F4); [exact Sh1|lia|lia|lia|]. exists p'. split; [exact F1|]. split; [apply (same_trans _ p1); assumption|]. split; [congruence|lia].
Qed.
Lemma fill_results_same p : shape p -> 0 <= w_off p <= w_cap p -> exists p', fill_results p = Ok p' /\ same p p' /\ queue p' = queue p /\ 0 <= w_off p' <= w_cap p'.
Proof.
  intros Sh Ho. unfold fill_results. destruct (fill_loop_same (set_res p []) (w_off p) (Z.to_nat (w_cap p - w_off p))) as (p' & F1 & F2 & F3 & F4); [exact Sh|lia|cbn [w_cap set_res]; lia|exact Ho|].
  exists p'. split; [exact F1|]. assert (S : same p p') by (apply (same_trans _ (set_res p [])); [apply same_fields; auto|exact F2]). split; [exact S|]. split; [exact F3|].
  replace (w_cap p') with (w_cap p) by (symmetry; apply S). exact F4.
Qed.
Lemma store_len ev r : zlen (store ev r) = zlen ev.
Proof. revert r. induction ev as [|e ev IH]; intros [|x r]; cbn [store]; auto. rewrite !zlen_cons, IH. reflexivity. Qed.
Lemma store_cntu ev r : cntu (store ev r) = cntu ev.
Proof. revert r. induction ev as [|e ev IH]; intros [|x r]; cbn [store cntu]; auto. rewrite IH. reflexivity. Qed.
Lemma store_get ev r i : option_map look_slot (zget (store ev r) i) = option_map look_slot (zget ev i).
Proof. revert r i. induction ev as [|e ev IH]; intros [|x r] i; cbn [store]; auto. rewrite !zget_cons. destruct (i =? 0); [reflexivity|apply IH]. Qed.
Lemma store_same p ev r : shape p -> w_events p = Live ev -> same p (set_events p (Live (store ev r))).
Proof.
  intros (k & ev1 & K & C & D & S & E & L) Ev. rewrite Ev in E. injection E as <-. split.
  - exists k, (store ev r). cbn. rewrite store_len. split; [exact K|]. split; [exact C|]. split; [exact D|]. split; [exact S|]. split; [reflexivity|exact L].
  - split; [reflexivity|]. split; [reflexivity|]. split; [intros e1 e2 H1 H2; cbn in H2; assert (e1 = ev) by congruence; assert (e2 = store ev r) by congruence; subst; apply store_cntu|].
    split; [intros i; unfold slot; cbn; rewrite Ev; apply store_get|reflexivity].
Qed.

(** ** One step *)
Definition okay (ids : list Z) (dat fd0 : Z -> Z) (A : abs) (s : wst) : Prop := good ids dat fd0 A s /\ 0 <= w_off (wp s) <= w_cap (wp s).
Lemma inv_nil ids dat fd0 M base s : inv ids dat fd0 M [] base s -> inv ids dat fd0 M [] 0 s.
Proof.
  intros V. destruct V as [v_ids0 v_shape0 v_count0 v_fd0 v_id0 v_sep0 v_full0 v_fsep0 v_op0 v_opi0 v_own0 v_mask0 v_wake0 v_num0].
  assert (N : forall j (o : wop), zget [] j = Some o -> False) by (intros j o H; apply zget_Some_range in H; rewrite zlen_nil in H; lia).
  constructor; auto; try tauto.
  - intuition lia.
  - intros j o H. destruct (N _ _ H).
  - intros a Ha. destruct (v_opi0 a Ha) as [H|(o & H & _)]; [now left|destruct (N _ _ H)].
  - intros a Ha. split; [apply v_mask0; exact Ha|]. intros o H. destruct (N _ _ H).
Qed.
Lemma idle ids dat fd0 M s a : inv ids dat fd0 M [] 0 s -> In a ids -> f_opi (wf s a) = -1 /\ f_op (wf s a) = M a /\ mok (M a) /\ has (wf s a) = negb (M a =? 0).
Proof.
  intros V Ha. destruct (v_opi _ _ _ _ _ _ _ V a Ha) as [H|(o & H & _)]; [|apply zget_Some_range in H; rewrite zlen_nil in H; lia].
  destruct (v_mask _ _ _ _ _ _ _ V a Ha) as [E _]. specialize (E H). destruct (v_id _ _ _ _ _ _ _ V a (or_intror Ha)) as [Mo D]. rewrite E. split; [exact H|]. split; [reflexivity|]. split; [exact Mo|].
  unfold has. destruct D as [[D1 D2]|[D1 (i & _ & D2 & _)]]; rewrite D2; [rewrite D1; reflexivity|]. destruct (f_op (wf s a) =? 0) eqn:Z0; [lia|reflexivity].
Qed.
Definition qcap (p : wpoll) : Prop := zlen (w_ops p) <= w_opcap p /\ (w_opnull p = true -> w_opcap p = 0) /\ (w_opnull p = false -> 16 <= w_opcap p <= 2 ^ 29).
Lemma idle_good ids dat fd0 A s : inv ids dat fd0 (a_mask A) [] 0 s -> w_ops (wp s) = [] -> w_polling (wp s) = false -> a_poll A = false -> 0 <= a_subs A -> qcap (wp s) ->
  (forall a, In a ids -> a_held A a = negb (a_mask A a =? 0)) -> good ids dat fd0 A s.
Proof.
  intros V Eo Np Ap Sb (Q1 & Q2 & Q3) Hh. split; [rewrite Eo; exact V|]. split; [congruence|]. split; [auto|]. split; [|split].
  - intros a Ha. destruct (idle _ _ _ _ _ a V Ha) as (_ & _ & X & Y). split; [exact X|]. rewrite Y. auto.
  - rewrite Eo. cbn [cntb]. pose proof (cntb_range (fun a => has (wf s a)) ids). lia.
  - split; [rewrite Eo, zlen_nil; exact Sb|]. split; [exact Q1|]. split; [exact Q2|]. split; [exact Q3|]. congruence.
Qed.
Lemma good_held ids dat fd0 A s a : good ids dat fd0 A s -> a_poll A = false -> In a ids -> a_held A a = negb (a_mask A a =? 0).
Proof.
  intros (V & _ & Em & Ms & _) Ap Ha. rewrite (Em Ap) in V. destruct (idle _ _ _ _ _ a V Ha) as (_ & _ & _ & Y). destruct (Ms a Ha) as [_ H]. congruence.
Qed.
Lemma good_upd ids dat fd0 A s s' a m : good ids dat fd0 A s -> a_poll A = false -> rest (wp s') = rest (wp s) ->
  inv ids dat fd0 (fun b => if b =? a then m else a_mask A b) [] 0 s' -> good ids dat fd0 (upd_mask A a m) s'.
Proof.
  intros G Ap R V. assert (G' := G). destruct G' as (_ & Pol & Em & _ & _ & (Q0 & Q1 & Q2 & Q3 & _)). unfold rest in R. injection R as R1 R2 R3 R4 R5 R6 R7. pose proof (zlen_nonneg (w_ops (wp s))). apply idle_good.
  - exact V.
  - rewrite R1. auto.
  - congruence.
  - exact Ap.
  - cbn. lia.
  - unfold qcap. rewrite R1, R2, R3. auto.
  - intros b Hb. cbn. rewrite Ap. destruct (b =? a); [destruct (m =? 0); reflexivity|]. apply (good_held _ _ _ _ _ _ G Ap Hb).
Qed.
Lemma submit_keeps s a ev d add o s' rc : submit s a ev d add o = Ok (s', rc) -> w_off (wp s') = w_off (wp s) /\ w_cap (wp s') = w_cap (wp s).
Proof.
  unfold submit. assert (Tail : forall p j (wk : bool), w_off p = w_off (wp s) -> w_cap p = w_cap (wp s) ->
    (let* op := zload (w_ops p) j in
    let add_ev := if add then Z.lor (o_add op) ev else Z.land (o_add op) (Z.lnot ev) in
    let del_ev := if add then Z.land (o_del op) (Z.lnot ev) else Z.lor (o_del op) ev in
    let full := Z.land (Z.lor (f_op (wf s a)) add_ev) (Z.lnot (Z.lor del_ev SEDGE)) =? 0 in
    let op := if full then mk_wop true add_ev del_ev (o_fdt op) (f_pd (wf s a)) d
              else mk_wop false add_ev del_ev (Some a) (o_pd op) d in
    let t := if full then mk_wfd (f_fd (wf s a)) 0 None (-1) else mk_wfd (f_fd (wf s a)) (f_op (wf s a)) (f_pd (wf s a)) j in
    let* ops := zput (w_ops p) j op in
    Ok (mk_wst (set_ops p ops) (upf (wf s) a t), if wk && negb (m_wake o) then -1 else 0)) = Ok (s', rc) -> w_off (wp s') = w_off (wp s) /\ w_cap (wp s') = w_cap (wp s)).
  { intros p j wk H1 H2 H. destruct (zload (w_ops p) j) as [op| |]; cbn [bind] in H; [|discriminate|discriminate]. cbv zeta in H.
    destruct (zput (w_ops p) j _) as [ops| |]; cbn [bind] in H; [|discriminate|discriminate]. injection H as <- _. cbn. auto. }
  destruct (f_opi (wf s a) =? -1).
  - assert (Rm : forall q, room (wp s) o = Ok (Some q) -> w_off q = w_off (wp s) /\ w_cap q = w_cap (wp s)).
    { intros q. unfold room. intros H. repeat match type of H with context [if ?b then _ else _] => destruct b end; try discriminate; injection H as <-; cbn; auto. }
    destruct (room (wp s) o) as [[q|]| |] eqn:E; cbn [bind]; try discriminate.
    + destruct (Rm q eq_refl) as [R1 R2]. intros H. apply (Tail (set_ops q (w_ops q ++ [mk_wop false 0 0 None None 0])) (zlen (w_ops (wp s))) (zlen (w_ops (wp s)) =? 0) R1 R2 H).
    + intros H. injection H as <- _. auto.
  - cbn [bind]. intros H. apply (Tail (wp s) (f_opi (wf s a)) false eq_refl eq_refl H).
Qed.
Lemma rest_off p p' : rest p' = rest p -> w_off p' = w_off p.
Proof. unfold rest. intros H. injection H. auto. Qed.
Lemma queue_good ids dat fd0 A s p' : good ids dat fd0 A s -> same (wp s) p' -> queue p' = queue (wp s) -> good ids dat fd0 A (mk_wst p' (wf s)).
Proof.
  intros (V & Pol & Em & Ms & Num & Q) S E. unfold queue in E. injection E as E1 E2 E3 E4. unfold good, queue_ok. cbn [wp wf]. rewrite E1, E2, E3, E4. split; [apply inv_same; assumption|]. auto.
Qed.
Lemma add_step ids dat fd0 A s a ev o : okay ids dat fd0 A s -> allowed ids A (Add a ev o) ->
  exists s' rc, win_add s a ev (dat a) o = Ok (s', rc) /\ okay ids dat fd0 (astep A (Add a ev o) (Ret rc)) s'.
Proof.
  intros [G Ho] (Ha & Hev & Mc & Mw & Hp). destruct (a_poll A) eqn:Ap.
  - destruct (Hp eq_refl) as [H1 H2]. assert (Pol : w_polling (wp s) = true) by (destruct G as (_ & P & _); congruence).
    unfold win_add. rewrite Pol. destruct (submit_ok _ _ _ _ _ a ev o true G Ap Ha Hev H2 Mw) as (s' & rc & E & D). { intros X. unfold target in X. congruence. }
    exists s', rc. split; [exact E|]. destruct (submit_keeps _ _ _ _ _ _ _ _ E) as [K1 K2]. split; [|rewrite K1, K2; exact Ho]. destruct D as [[-> ->]|[-> D]]; [exact G|exact D].
  - assert (G' := G). destruct G' as (V & Pol & Em & _). rewrite (Em Ap) in V. destruct (idle _ _ _ _ _ a V Ha) as (Oi & Of & _).
    destruct (add_ok _ _ _ _ _ _ _ a ev o V (eq_trans (eq_sym Pol) Ap) Ha (unowned_nil _ _ _) Oi Hev Mc) as (s' & rc & E & Np & [R Cap] & _ & D). exists s', rc. split; [exact E|].
    split; [|rewrite (rest_off _ _ R); lia]. destruct D as [(-> & _ & V' & Wf)|(-> & V' & _)].
    + cbn [astep]. assert (G' := G). destruct G' as (_ & _ & _ & _ & _ & (Q0 & Q1 & Q2 & Q3 & _)). pose proof (zlen_nonneg (w_ops (wp s))). unfold rest in R. injection R as R1 R2 R3 R4 R5 R6 R7.
      apply idle_good; auto; [rewrite R1; auto|lia|unfold qcap; rewrite R1, R2, R3; auto|]. intros b Hb. apply (good_held _ _ _ _ _ _ G Ap Hb).
    + cbn [astep]. apply (good_upd _ _ _ _ s); auto.
Qed.
Lemma del_step ids dat fd0 A s a ev o : okay ids dat fd0 A s -> allowed ids A (Del a ev o) ->
  exists s' rc, win_del s a ev (dat a) o = Ok (s', rc) /\ okay ids dat fd0 (astep A (Del a ev o) (Ret rc)) s'.
Proof.
  intros [G Ho] (Ha & Hev & Mw & Hp). destruct (a_poll A) eqn:Ap.
  - destruct (Hp eq_refl) as [H1 H2]. assert (Pol : w_polling (wp s) = true) by (destruct G as (_ & P & _); congruence).
    unfold win_del. rewrite Pol. destruct (submit_ok _ _ _ _ _ a ev o false G Ap Ha Hev H2 Mw) as (s' & rc & E & D). { exact H1. }
    exists s', rc. split; [exact E|]. destruct (submit_keeps _ _ _ _ _ _ _ _ E) as [K1 K2]. split; [|rewrite K1, K2; exact Ho]. destruct D as [[-> ->]|[-> D]]; [exact G|exact D].
  - assert (G' := G). destruct G' as (V & Pol & Em & _). rewrite (Em Ap) in V. destruct (idle _ _ _ _ _ a V Ha) as (Oi & Of & _).
    destruct (del_ok _ _ _ _ _ _ _ a ev o V (eq_trans (eq_sym Pol) Ap) Ha Oi Hev) as (s' & E & Np & [R Cap] & _ & V' & _). exists s', 0. split; [exact E|].
    split; [|rewrite (rest_off _ _ R); lia]. cbn [astep]. apply (good_upd _ _ _ _ s); auto.
Qed.
Lemma begin_step ids dat fd0 A s t : okay ids dat fd0 A s ->
  exists s' b, wait_begin s t = Ok (s', b) /\ okay ids dat fd0 (astep A (Wait t) (match b with Done rc => Ret rc | Polls _ => Began end)) s'.
Proof.
  intros [G Ho]. assert (Sh : shape (wp s)) by (destruct G as [V _]; apply V). unfold wait_begin. destruct (ev_block_ok _ Sh) as (ev & _ & El & _). rewrite El. destruct (w_polling (wp s)) eqn:Pl.
  { exists s, (Done (-1)). split; [reflexivity|]. split; assumption. }
  destruct (w_rem (wp s) >? 0).
  - destruct (fill_results_same _ Sh Ho) as (p' & F1 & F2 & F3 & F4). rewrite F1. cbn [bind]. eexists _, _. split; [reflexivity|]. split; [|exact F4]. cbn [astep]. apply queue_good; auto.
  - eexists _, _. split; [reflexivity|]. split; [|exact Ho]. cbn [astep]. assert (G' := G). destruct G' as (V & Pol & Em & Ms & Num & (Q0 & Q1 & Q2 & Q3 & _)). assert (Ap : a_poll A = false) by congruence.
    split; [cbn; apply inv_same; [exact V|apply same_fields; auto]|]. split; [reflexivity|]. split; [discriminate|]. split; [exact Ms|]. split; [exact Num|].
    split; [cbn; rewrite (Em Ap), zlen_nil; lia|]. split; [exact Q1|]. split; [exact Q2|]. split; [exact Q3|]. cbn. lia.
Qed.
Lemma end_step ids dat fd0 A s an o : okay ids dat fd0 A s -> allowed ids A (Answer an o) ->
  exists s' rc, wait_end s an o = Ok (s', rc) /\ okay ids dat fd0 (astep A (Answer an o) (Ret rc)) s'.
Proof.
  intros [G Ho] (Ap & Hm & Hf). assert (Sh : shape (wp s)) by (destruct G as [V _]; apply V).
  assert (First : exists p1, match an with Events n revents => let* ev := ev_block (wp s) in let p := set_events (wp s) (Live (store ev revents)) in
              if n >? 0 then let* r := event_inner (set_rem p n) 0 in Ok (fst (r : wpoll * Z)) else Ok p | Failed _ => Ok (wp s) end = Ok p1 /\ same (wp s) p1 /\ queue p1 = queue (wp s)).
  { destruct an as [n rv|e]; [|exists (wp s); split; [reflexivity|]; split; [apply same_refl; exact Sh|reflexivity]].
    destruct (ev_block_ok _ Sh) as (ev & EB & El & _). rewrite EB. cbn [bind]. cbv zeta. pose proof (store_same _ _ rv Sh El) as S1. destruct (n >? 0); [|eexists; split; [reflexivity|split; [exact S1|reflexivity]]].
    set (p := set_events (wp s) (Live (store ev rv))) in *. assert (S2 : same (wp s) (set_rem p n)) by (apply (same_trans _ p); [exact S1|apply same_fields; auto; apply S1]).
    destruct (event_inner_same (set_rem p n) 0 (proj1 S2)) as (p2 & v & E1 & E2 & E3 & _). { destruct (proj1 S2) as (k & _ & K & C & _). unfold inr. rewrite C. pose proof (Z.pow_pos_nonneg 2 k ltac:(lia) ltac:(lia)). lia. }
    rewrite E1. cbn [bind fst]. exists p2. split; [reflexivity|]. split; [apply (same_trans _ (set_rem p n)); assumption|exact E3]. }
  destruct First as (p1 & E1 & S1 & Q1). pose proof (queue_good _ _ _ _ _ _ G S1 Q1) as G1.
  unfold wait_end. cbv zeta in *. rewrite E1. cbn [bind]. cbv zeta. change (w_ops (set_polling p1 false)) with (w_ops p1).
  destruct G1 as (V & Pol & Em & Ms & Num & (R0 & R1 & R2 & R3 & R4)). cbn [wp wf] in *.
  assert (Nf : match an with Events _ _ => false | Failed e => negb ((e =? WSAENOTSOCK) && (zlen (w_ops p1) >? 0)) end = false).
  { destruct an as [n rv|e]; [reflexivity|]. destruct (Hf e eq_refl) as [-> Hs]. specialize (R4 Ap Hs). destruct (zlen (w_ops p1) >? 0) eqn:Z0; [reflexivity|lia]. }
  rewrite Nf. assert (V0 : inv ids dat fd0 (a_mask A) (w_ops p1) 0 (mk_wst (set_polling p1 false) (wf s))).
  { apply (inv_same _ _ _ _ _ _ (mk_wst p1 (wf s))); [exact V|]. apply same_fields; auto. apply V. }
  destruct (process_ok _ _ _ _ o Hm _ _ _ 0 0 V0 eq_refl) as (s2 & P1 & P2 & P3). rewrite P1. cbn [bind]. replace (0 =? 0) with true by reflexivity. apply inv_nil in P2.
  set (p2 := set_off (set_ops (wp s2) []) 1). assert (Sh2 : shape (wp s2)) by apply P2. assert (S2 : same (wp s2) p2) by (apply same_fields; auto).
  assert (C2 : 16 <= w_cap p2). { destruct (proj1 S2) as (k & _ & K & C & _). rewrite C. pose proof (Z.pow_pos_nonneg 2 k ltac:(lia) ltac:(lia)). lia. }
  destruct (fill_results_same p2 (proj1 S2) ltac:(cbn in *; lia)) as (p3 & F1 & F2 & F3 & F4). rewrite F1. cbn [bind]. eexists _, _. split; [reflexivity|]. split; [|exact F4]. cbn [astep].
  unfold queue in F3. injection F3 as F31 F32 F33 F34. unfold rest in P3. injection P3 as P31 P32 P33 P34 P35 P36 P37. cbn in P31, P32, P33, P34, F31, F32, F33, F34. apply idle_good; cbn [wp a_poll a_subs a_mask a_held].
  - apply inv_same; [exact P2|]. apply (same_trans _ p2); assumption.
  - exact F31.
  - congruence.
  - reflexivity.
  - lia.
  - unfold qcap. cbn in F31, F32, F33. rewrite F31, F32, F33, P32, P33, zlen_nil. repeat split; auto; pose proof (zlen_nonneg (w_ops p1)); [lia|apply R3; assumption|apply R3; assumption].
  - auto.
Qed.
Lemma block_step ids dat fd0 A s a ev : okay ids dat fd0 A s -> allowed ids A (Blocked a ev) -> exists s', would_block s a ev = Ok s' /\ okay ids dat fd0 A s'.
Proof.
  intros [G Ho] (Ha & Hev). unfold would_block. destruct G as (V & Rs). assert (G : good ids dat fd0 A s) by (split; assumption).
  destruct (v_id _ _ _ _ _ _ _ V a (or_intror Ha)) as [Mo [[D1 D2]|[D1 (i & I1 & I2 & _ & (c & C1 & C2 & C3 & C4))]]].
  - rewrite D2. exists s. split; [reflexivity|]. split; assumption.
  - rewrite I2. rewrite (cell_get_ok _ _ _ C1). cbn [bind]. destruct (Z.land (c_edge c) ev =? 0); [exists s; split; [reflexivity|]; split; assumption|]. assert (Sh : shape (wp s)) by apply V.
    destruct (cell_put_ok (wp s) i (mk_cell (Z.land (c_edge c) (Z.lnot ev)) (c_index c) (c_data c)) Sh I1) as (d & Q1 & Q2 & Q3 & Q4). rewrite Q1. cbn [bind]. eexists. split; [reflexivity|]. split; [|exact Ho].
    apply queue_good; [exact G| |reflexivity]. split; [exact Q2|]. split; [reflexivity|]. split; [reflexivity|]. split; [intros; cbn in *; congruence|]. split; [reflexivity|].
    intros j Hj. destruct (Z.eq_dec j i) as [->|Hne]; [|rewrite Q4; auto]. rewrite Q3, C1. cbn [option_map]. unfold look_cell. cbn [c_edge c_index c_data]. f_equal. f_equal. rewrite Z.land_spec, Z.lnot_spec by lia.
    replace (Z.testbit ev 2) with false by (destruct Hev; subst ev; reflexivity). apply Bool.andb_true_r.
Qed.
Lemma wstep_ok ids dat fd0 A s c : okay ids dat fd0 A s -> allowed ids A c -> exists s' r, wstep dat s c = Ok (s', r) /\ okay ids dat fd0 (astep A c r) s'.
Proof.
  intros K H. destruct c; cbn [wstep].
  - destruct (add_step _ _ _ _ _ _ _ _ K H) as (s' & rc & E & K'). rewrite E. cbn [bind]. eauto.
  - destruct (del_step _ _ _ _ _ _ _ _ K H) as (s' & rc & E & K'). rewrite E. cbn [bind]. eauto.
  - destruct (begin_step _ _ _ _ _ timeout K) as (s' & b & E & K'). rewrite E. cbn [bind]. eauto.
  - destruct (end_step _ _ _ _ _ _ _ K H) as (s' & rc & E & K'). rewrite E. cbn [bind]. eauto.
  - destruct (block_step _ _ _ _ _ _ _ K H) as (s' & E & K'). rewrite E. cbn [bind]. eauto.
Qed.
Lemma wrun_ok ids dat fd0 l : forall A s, okay ids dat fd0 A s -> legal dat ids A s l -> exists s' r, wrun dat s l = Ok (s', r) /\ okay ids dat fd0 (aruns A l r) s'.
Proof.
  induction l as [|c l IH]; intros A s K H; cbn [wrun].
  - exists s, []. auto.
  - destruct H as [H1 H2]. destruct (wstep_ok _ _ _ _ _ _ K H1) as (s1 & r1 & E1 & K1). rewrite E1. cbn [bind fst snd]. destruct (IH _ _ K1 (H2 _ _ E1)) as (s2 & r2 & E2 & K2). rewrite E2. cbn [bind fst snd]. eauto.
Qed.

(** ** The table *)
Definition sidx (t : wfd) : Z := match f_pd t with Some q => cbase (fst q) + snd q | None => 0 end.
Lemma sidx_loc p i t : shape p -> inr p i -> f_pd t = Some (loc i) -> sidx t = i.
Proof. intros (k & ev & K & C & _) Hi E. unfold sidx. rewrite E. unfold inr in Hi. rewrite C in Hi. destruct (loc_spec i k K Hi) as (_ & _ & _ & X). lia. Qed.
Lemma places_in from n i : In i (places from n) <-> from <= i < from + n.
Proof.
  unfold places. rewrite in_map_iff. split.
  - intros (k & E & H). apply in_seq in H. lia.
  - intros H. exists (Z.to_nat (i - from)). split; [lia|]. apply in_seq. lia.
Qed.
Lemma places_nodup from n : NoDup (places from n).
Proof. unfold places. apply FinFun.Injective_map_NoDup; [intros x y H; lia|apply seq_NoDup]. Qed.
Definition used (p : wpoll) (i : Z) : bool := match slot p i with Some e => negb (pf_fd e =? INVALID) | None => false end.
Lemma row_val p i e c : shape p -> inr p i -> slot p i = Some e -> cel p i = Some c -> row p i = if pf_fd e =? INVALID then [] else [(pf_fd e, pf_ev e, c_data c, Z.testbit (c_edge c) 2)].
Proof.
  intros Sh Ri Se Ce. unfold row. destruct (ev_block_ok p Sh) as (ev & EB & _ & _ & Sl). rewrite EB, (loc_inner p i Sh Ri). rewrite Sl in Se. rewrite Se, (cell_get_ok _ _ _ Ce). reflexivity.
Qed.
Lemma flat_filter {A B} (g : A -> list B) (f : A -> bool) l : (forall x, In x l -> f x = false -> g x = []) -> flat_map g l = flat_map g (filter f l).
Proof.
  induction l as [|x l IH]; intros H; [reflexivity|]. cbn. rewrite IH by (intros; apply H; [now right|assumption]). destruct (f x) eqn:E; [reflexivity|]. rewrite (H x (or_introl eq_refl) E). reflexivity.
Qed.
Lemma flat_pair {A B C} (g : B -> list C) (h : A -> B) (k : A -> list C) l : (forall x, In x l -> g (h x) = k x) -> flat_map g (map h l) = flat_map k l.
Proof. induction l as [|x l IH]; intros H; [reflexivity|]. cbn. rewrite (H x (or_introl eq_refl)), IH by (intros; apply H; now right). reflexivity. Qed.
Lemma flat_one {A C} (k : A -> C) l : flat_map (fun x => [k x]) l = map k l.
Proof. induction l as [|x l IH]; [reflexivity|]. cbn. congruence. Qed.
Lemma map_nodup {A B} (h : A -> B) l : NoDup l -> (forall x y, In x l -> In y l -> h x = h y -> x = y) -> NoDup (map h l).
Proof.
  induction 1 as [|x l N1 N2 IH]; intros H; [constructor|]. cbn. constructor.
  - intros X. apply in_map_iff in X. destruct X as (y & E & Y). apply H in E; [subst; contradiction|now right|now left].
  - apply IH. intros; apply H; auto; now right.
Qed.
(** Something about every slot but the first is the same about every registered structure. *)
Lemma slots_perm {X} ids dat fd0 M s (g h : Z -> list X) : inv ids dat fd0 M [] 0 s ->
  (forall i, inr (wp s) i -> 1 <= i -> used (wp s) i = false -> g i = []) ->
  (forall a i e c, In a ids -> M a <> 0 -> 1 <= i -> inr (wp s) i -> f_pd (wf s a) = Some (loc i) -> slot (wp s) i = Some e -> cel (wp s) i = Some c -> pf_fd e = fd0 a -> pf_fd e <> INVALID ->
     pf_ev e = win_events (M a) -> mok (M a) -> c_data c = dat a -> Z.testbit (c_edge c) 2 = Z.testbit (M a) 2 -> g i = h a) ->
  Permutation (flat_map g (places 1 (w_cap (wp s) - 1))) (flat_map h (filter (fun a => negb (M a =? 0)) ids)).
Proof.
  intros V Hn Hu. assert (Sh : shape (wp s)) by apply V. destruct (v_ids _ _ _ _ _ _ _ V) as (Nd & Nw & _).
  assert (Hold : forall a, In a ids -> M a <> 0 -> exists i, inr (wp s) i /\ 1 <= i /\ f_pd (wf s a) = Some (loc i) /\ sidx (wf s a) = i /\ g i = h a /\ used (wp s) i = true).
  { intros a Ha Hm. destruct (idle _ _ _ _ _ a V Ha) as (_ & E & Mo & _). destruct (v_id _ _ _ _ _ _ _ V a (or_intror Ha)) as [_ [[D _]|[_ (i & I1 & I2 & (e & S1 & S2 & S3) & (c & C1 & C2 & C3 & C4))]]]; [congruence|].
    exists i. split; [exact I1|]. destruct (v_wake _ _ _ _ _ _ _ V) as [_ W]. assert (i <> 0). { intros ->. apply (v_sep _ _ _ _ _ _ _ V a WAKE (loc 0)); auto; [now right|now left|intros ->; contradiction]. }
    assert (I0 : 1 <= i) by (unfold inr in I1; lia). split; [exact I0|]. split; [exact I2|]. split; [apply (sidx_loc (wp s)); auto|]. destruct (v_fd _ _ _ _ _ _ _ V a (or_intror Ha)) as [F1 F2].
    assert (En : (pf_fd e =? INVALID) = false) by (apply Z.eqb_neq; congruence). split; [|unfold used; rewrite S1, En; reflexivity].
    unfold wd in C3. destruct (a =? WAKE) eqn:Ew; [apply Z.eqb_eq in Ew; subst; contradiction|]. apply (Hu a i e c); auto; congruence. }
  rewrite (flat_filter g (used (wp s))).
  - assert (P : Permutation (filter (used (wp s)) (places 1 (w_cap (wp s) - 1))) (map (fun a => sidx (wf s a)) (filter (fun a => negb (M a =? 0)) ids))).
    { apply NoDup_Permutation.
      - apply NoDup_filter, places_nodup.
      - apply map_nodup; [apply NoDup_filter; exact Nd|]. intros a b Ia Ib E. apply filter_In in Ia, Ib. destruct Ia as [Ia Ma], Ib as [Ib Mb].
        destruct (Hold a Ia ltac:(lia)) as (i & I1 & _ & I2 & I3 & _). destruct (Hold b Ib ltac:(lia)) as (j & J1 & _ & J2 & J3 & _). assert (Eij : j = i) by congruence. rewrite Eij in J2. clear J3.
        destruct (Z.eq_dec a b) as [|Hne]; [assumption|]. exfalso; exact (v_sep _ _ _ _ _ _ _ V a b (loc i) (or_intror Ia) (or_intror Ib) Hne I2 J2).
      - intros i. rewrite filter_In, places_in, in_map_iff. split.
        + intros [R U]. unfold used in U. destruct (slot (wp s) i) as [e|] eqn:S1; [|discriminate]. assert (Ef : pf_fd e <> INVALID) by lia. assert (I1 : inr (wp s) i) by (unfold inr; lia).
          destruct (v_own _ _ _ _ _ _ _ V i e S1 Ef) as [(a & Ia & E)|(j & o & H & _)]; [|apply zget_Some_range in H; rewrite zlen_nil in H; lia].
          destruct Ia as [<-|Ia].
          { destruct (v_wake _ _ _ _ _ _ _ V) as [_ W]. rewrite W in E. injection E as E. apply (loc_inj (wp s)) in E; auto; [lia|]. unfold inr in *; lia. }
          exists a. split; [apply (sidx_loc (wp s)); auto|]. apply filter_In. split; [exact Ia|]. destruct (idle _ _ _ _ _ a V Ia) as (_ & _ & _ & Y). rewrite <- Y. unfold has. rewrite E. reflexivity.
        + intros (a & <- & Ia). apply filter_In in Ia. destruct Ia as [Ia Ma]. destruct (Hold a Ia ltac:(lia)) as (j & J1 & J0 & J2 & J3 & _ & J4). rewrite J3. unfold inr in J1. split; [lia|exact J4]. }
    rewrite (Permutation_flat_map g P). rewrite (flat_pair g (fun a => sidx (wf s a)) h); [apply Permutation_refl|].
    intros a Ia. apply filter_In in Ia. destruct Ia as [Ia Ma]. destruct (Hold a Ia ltac:(lia)) as (j & J1 & J0 & J2 & J3 & J4 & _). rewrite J3. exact J4.
  - intros i Hi U. apply places_in in Hi. apply Hn; [unfold inr; lia|lia|exact U].
Qed.
Lemma table_ok ids dat fd0 M s f : inv ids dat fd0 M [] 0 s -> (forall a, In a ids -> f_fd (f a) = fd0 a) ->
  Permutation (table s) (map (want_row f dat M) (filter (fun a => negb (M a =? 0)) ids)).
Proof.
  intros V Hf. assert (Sh : shape (wp s)) by apply V. rewrite <- flat_one. unfold table. apply (slots_perm ids dat fd0 M s); [exact V| |].
  - intros i I1 _ U. destruct (slot_in _ _ Sh I1) as [e Se]. destruct (cel_in _ _ Sh I1) as [c Ce]. rewrite (row_val _ _ _ _ Sh I1 Se Ce).
    unfold used in U. rewrite Se in U. destruct (pf_fd e =? INVALID); [reflexivity|discriminate].
  - intros a i e c Ha Hm _ I1 Hp S1 C1 F1 F2 F3 Mo C3 C4. rewrite (row_val _ _ _ _ Sh I1 S1 C1). assert (En : (pf_fd e =? INVALID) = false) by (apply Z.eqb_neq; congruence). rewrite En.
    unfold want_row. rewrite (Hf a Ha), <- (wev_mask _ Mo), C3, C4, F3, F1. reflexivity.
Qed.

(** ** The beginning *)
Definition started (f : Z -> wfd) (fd j : Z) : wst :=
  mk_wst (mk_wpoll 1 16 (Live (mk_pfd fd WPOLLIN 0 :: repeat (mk_pfd INVALID j j) 15)) [mk_cell 0 0 0 :: repeat (mk_cell j j j) 15] [] 0 true false 0 0 [] [Got BResults; Got BEvents; Got (BChunk 0)])
    (upf (upf f WAKE (mk_wfd fd 0 None 0)) WAKE (mk_wfd fd 1 (Some (0, 0)) 0)).
Lemma init_state f o s0 : win_init f o = Ok (s0, 0) -> exists fd, i_results o = true /\ i_events o = true /\ i_data o = true /\ i_pipe o = Some fd /\ s0 = started f fd (i_junk o).
Proof.
  unfold win_init. destruct (i_results o); [|discriminate]. destruct (i_events o); [|discriminate]. destruct (i_data o); [|discriminate]. destruct (i_pipe o) as [fd|]; [|discriminate].
  cbn [negb]. unfold win_add. cbn [wp w_polling wf]. unfold upf at 1 2 3. change (WAKE =? WAKE) with true. cbn. intros H. injection H as <-. exists fd. repeat split; auto.
Qed.
Lemma init_okay ids dat f fd j : fresh ids f -> fd <> INVALID -> okay ids dat (fun a => if a =? WAKE then fd else f_fd (f a)) abs0 (started f fd j).
Proof.
  intros (Nd & Nw & Len & Fr) Hfd. split; [|cbn; lia].
  assert (Wne : forall a, In a ids -> (a =? WAKE) = false) by (intros a Ha; apply Z.eqb_neq; intros ->; contradiction).
  assert (Fa : forall a, In a ids -> wf (started f fd j) a = f a) by (intros a Ha; cbn; unfold upf; rewrite (Wne a Ha); reflexivity).
  assert (Fw : wf (started f fd j) WAKE = mk_wfd fd 1 (Some (0, 0)) 0) by reflexivity.
  assert (Sl : forall i e, slot (wp (started f fd j)) i = Some e -> pf_fd e <> INVALID -> i = 0).
  { intros i e H Hn. cbn [slot wp w_events started] in H. rewrite zget_cons in H. destruct (i =? 0) eqn:E; [lia|]. apply zget_In in H. apply repeat_spec in H. subst e. cbn in Hn. congruence. }
  apply idle_good; auto; [|cbn; lia|split; [cbn; lia|split; [reflexivity|discriminate]]].
  constructor; auto.
  - split; [exact Nd|]. split; [exact Nw|]. split; [exact Len|lia].
  - eexists 0, _. split; [lia|]. split; [reflexivity|]. split; [reflexivity|]. split; [|split; reflexivity]. intros k ch H. cbn [started wp w_data] in H. assert (R := zget_Some_range _ _ _ H). change (zlen [mk_cell 0 0 0 :: repeat (mk_cell j j j) 15]) with 1 in R.
    replace k with 0 in * by lia. cbn in H. injection H as <-. reflexivity.
  - intros ev H. cbn in H. injection H as <-. cbn. unfold inuse. cbn. apply Z.eqb_neq in Hfd. rewrite Hfd. reflexivity.
  - intros a [<-|Ha]; [cbn; auto|]. rewrite (Fa a Ha), (Wne a Ha). split; [reflexivity|]. apply (Fr a Ha).
  - intros a [<-|Ha].
    + rewrite Fw. split; [split; cbn; lia|]. right. split; [cbn; lia|]. exists 0. split; [unfold inr; cbn; lia|]. split; [reflexivity|]. split; eexists; (split; [reflexivity|]); cbn; auto.
    + rewrite (Fa a Ha). destruct (Fr a Ha) as (_ & F2 & F3 & _). rewrite F2. split; [split; lia|]. now left.
  - intros a b q [<-|Ha] [<-|Hb] Hne H1 H2; try congruence.
    + rewrite (Fa b Hb) in H2. destruct (Fr b Hb) as (_ & _ & F3 & _). congruence.
    + rewrite (Fa a Ha) in H1. destruct (Fr a Ha) as (_ & _ & F3 & _). congruence.
    + rewrite (Fa b Hb) in H2. destruct (Fr b Hb) as (_ & _ & F3 & _). congruence.
  - intros k o H. apply zget_Some_range in H. rewrite zlen_nil in H. lia.
  - intros k k' o o' H. apply zget_Some_range in H. rewrite zlen_nil in H. lia.
  - intros k o H. apply zget_Some_range in H. rewrite zlen_nil in H. lia.
  - intros a Ha. left. rewrite (Fa a Ha). apply (Fr a Ha).
  - intros i e H Hn. left. exists WAKE. split; [now left|]. rewrite (Sl i e H Hn). reflexivity.
  - intros a Ha. split; [|intros o H; apply zget_Some_range in H; rewrite zlen_nil in H; lia]. intros _. rewrite (Fa a Ha). destruct (Fr a Ha) as (_ & F2 & _). rewrite F2. reflexivity.
  - cbn [cntb]. split; [|exists []; split; [constructor|split; [intros b []|reflexivity]]]. pose proof (cntb_range (fun a => has (wf (started f fd j) a)) ids). cbn [started wp w_count]. lia.
Qed.

(** ** What is reported *)
Lemma at_val p i e c : shape p -> inr p i -> slot p i = Some e -> cel p i = Some c -> at_ p i = Some (e, c).
Proof.
  intros Sh Ri Se Ce. unfold at_. destruct (ev_block_ok p Sh) as (ev & EB & _ & _ & Sl). rewrite EB, (loc_inner p i Sh Ri). rewrite Sl in Se. rewrite Se, (cell_get_ok _ _ _ Ce). reflexivity.
Qed.
Lemma at_inv p i e c : shape p -> at_ p i = Some (e, c) -> inr p i /\ slot p i = Some e /\ cel p i = Some c.
Proof.
  intros Sh H. assert (Ri : inr p i). { unfold at_ in H. destruct (ev_block_ok p Sh) as (ev & EB & El & Len & Sl). rewrite EB in H. destruct (data_inner i); try discriminate. destruct (zget ev i) eqn:E; [|discriminate]. apply zget_Some_range in E. unfold inr. lia. }
  destruct (slot_in p i Sh Ri) as [e' Se]. destruct (cel_in p i Sh Ri) as [c' Ce]. rewrite (at_val _ _ _ _ Sh Ri Se Ce) in H. injection H as <- <-. auto.
Qed.
Fixpoint nready (p : wpoll) (i : Z) (n : nat) : Z := match n with O => 0 | S n => (match slot p i with Some e => if ready e then 1 else 0 | None => 0 end) + nready p (i + 1) n end.
Fixpoint dues (p : wpoll) (i : Z) (n : nat) : list (Z * Z) := match n with O => [] | S n => due_at p i ++ dues p (i + 1) n end.
Lemma dues_places p i n : dues p i n = flat_map (due_at p) (places i (Z.of_nat n)).
Proof.
  revert i. induction n as [|n IH]; intros i; [reflexivity|]. cbn [dues]. rewrite IH. unfold places. rewrite !Nat2Z.id. cbn [seq map flat_map]. rewrite Z.add_0_r. f_equal. rewrite <- seq_shift, map_map. f_equal. apply map_ext. intros k. lia.
Qed.
Lemma nready_range p i n : 0 <= nready p i n.
Proof. revert i. induction n as [|n IH]; intros i; cbn [nready]; [lia|]. specialize (IH (i + 1)). destruct (slot p i) as [e|]; [destruct (ready e)|]; lia. Qed.
Lemma nready_none p i n : shape p -> 0 <= i -> i + Z.of_nat n <= w_cap p -> nready p i n = 0 -> dues p i n = [].
Proof.
  intros Sh. revert i. induction n as [|n IH]; intros i H0 H1 H; cbn [nready dues] in *; [reflexivity|]. pose proof (nready_range p (i + 1) n). assert (Ri : inr p i) by (unfold inr; lia).
  destruct (slot_in p i Sh Ri) as [e Se]. destruct (cel_in p i Sh Ri) as [c Ce]. rewrite Se in H. destruct (ready e) eqn:Re; [lia|]. rewrite IH by lia. rewrite app_nil_r. unfold due_at. rewrite (at_val _ _ _ _ Sh Ri Se Ce).
  unfold ready in Re. destruct (pf_fd e =? INVALID); [reflexivity|]. cbn in Re. unfold report. destruct (pf_rev e =? 0); [reflexivity|discriminate].
Qed.
Lemma due_ready p i e c : at_ p i = Some (e, c) -> due_at p i = if ready e then (if reported (pf_rev e) (c_edge c) =? 0 then [] else [(reported (pf_rev e) (c_edge c), c_data c)]) else [].
Proof. intros H. unfold due_at, ready, report. rewrite H. destruct (pf_fd e =? INVALID); [reflexivity|]. destruct (pf_rev e =? 0); reflexivity. Qed.
Lemma dues_ext p p' i n : shape p -> shape p' -> w_cap p' = w_cap p -> w_events p' = w_events p -> (forall j, inr p j -> i <= j -> cel p' j = cel p j) -> 0 <= i -> i + Z.of_nat n <= w_cap p ->
  dues p' i n = dues p i n /\ nready p' i n = nready p i n.
Proof.
  intros Sh Sh' Cap Ev. revert i. induction n as [|n IH]; intros i Ce H0 H1; cbn [dues nready]; [auto|]. destruct (IH (i + 1)) as [E1 E2]; try lia. { intros j Hj Hi. apply Ce; [exact Hj|lia]. }
  rewrite E1, E2. assert (Es : slot p' i = slot p i) by (unfold slot; rewrite Ev; reflexivity). rewrite Es. split; [|reflexivity]. f_equal. assert (Ri : inr p i) by (unfold inr; lia). assert (Ri' : inr p' i) by (unfold inr in *; lia).
  destruct (slot_in p i Sh Ri) as [e Se]. destruct (cel_in p i Sh Ri) as [c Cc]. unfold due_at. rewrite (at_val p i e c), (at_val p' i e c); auto; [congruence|]. rewrite Ce; auto. lia.
Qed.
Lemma fill_loop_due n : forall p i, shape p -> 0 <= i -> i + Z.of_nat n = w_cap p -> nready p i n <= w_rem p -> zlen (w_res p) < MAX_EVENTS ->
  let k := Z.to_nat (MAX_EVENTS - zlen (w_res p)) in
  exists p', fill_loop p i n = Ok p' /\ w_cap p' = w_cap p /\ shape p' /\ w_res p' = w_res p ++ firstn k (dues p i n) /\
    (if w_rem p' >? 0 then dues p' (w_off p') (Z.to_nat (w_cap p' - w_off p')) else []) = skipn k (dues p i n) /\
    (w_rem p' > 0 -> 0 <= w_off p' <= w_cap p' /\ nready p' (w_off p') (Z.to_nat (w_cap p' - w_off p')) <= w_rem p').
Proof.
  induction n as [|n IH]; intros p i Sh I0 In Hr Hz k; cbn [fill_loop].
  - exists (set_rem p 0). cbn [dues]. rewrite firstn_nil, skipn_nil, app_nil_r. repeat (split; [solve [auto]|]). change (w_rem (set_rem p 0)) with 0. lia.
  - pose proof (nready_range p (i + 1) n) as Nn. destruct (w_rem p >? 0) eqn:Er.
    2:{ exists (set_rem p 0). pose proof (nready_range p i (S n)). rewrite (nready_none p i (S n)) by (auto; lia). rewrite firstn_nil, skipn_nil, app_nil_r. repeat (split; [solve [auto]|]). change (w_rem (set_rem p 0)) with 0. lia. }
    assert (Ri : inr p i) by (unfold inr; lia). destruct (slot_in p i Sh Ri) as [e Se]. destruct (cel_in p i Sh Ri) as [c Ce].
    destruct (event_inner_ok p i e c Sh Ri Se Ce) as (p1 & E1 & Sh1 & Ev1 & Cap1 & Cnt1 & Q1 & R1 & O1 & Rs1 & C1 & C1'). rewrite E1. cbn [bind].
    assert (Ri1 : inr p1 i) by (unfold inr in *; lia). pose proof (due_ready _ _ _ _ (at_val _ _ _ _ Sh Ri Se Ce)) as Du.
    destruct (dues_ext p p1 (i + 1) n Sh Sh1 Cap1 Ev1) as [X1 X2]; try lia. { intros j Hj Hi. apply C1'; [exact Hj|lia]. }
    cbn [dues nready] in *. rewrite Se in Hr. rewrite Du. clear Du. set (v := if ready e then reported (pf_rev e) (c_edge c) else 0).
    set (D := if ready e then if reported (pf_rev e) (c_edge c) =? 0 then [] else [(reported (pf_rev e) (c_edge c), c_data c)] else []).
    assert (Dv : D = if v =? 0 then [] else [(v, c_data c)]) by (unfold D, v; destruct (ready e); reflexivity). rewrite Dv. clear D Dv. destruct (v =? 0) eqn:Ev0; cbn [negb app].
    + destruct (IH p1 (i + 1)) as (p' & F1 & F2 & F3 & F4 & F5 & F6); auto; try lia. { rewrite Rs1. exact Hz. }
      exists p'. rewrite Rs1, X1 in F4. rewrite Rs1, X1 in F5. split; [exact F1|]. split; [congruence|]. split; [exact F3|]. split; [exact F4|]. split; [exact F5|exact F6].
    + rewrite (loc_inner p1 i Sh1 Ri1). cbn [bind]. rewrite (cell_get_ok _ _ _ C1). cbn [bind c_data]. cbv zeta. set (p2 := set_res p1 (w_res p1 ++ [(v, c_data c)])).
      assert (Z2 : zlen (w_res p2) = zlen (w_res p) + 1). { unfold p2. cbn [w_res set_res]. rewrite zlen_app, zlen_cons, zlen_nil, Rs1. lia. }
      assert (K : k = S (Z.to_nat (MAX_EVENTS - zlen (w_res p2)))) by (unfold k; lia). rewrite K. cbn [firstn skipn].
      destruct (zlen (w_res p2) =? MAX_EVENTS) eqn:Em.
      * replace (Z.to_nat (MAX_EVENTS - zlen (w_res p2))) with O by lia. cbn [firstn skipn]. exists (set_off p2 (i + 1)). split; [reflexivity|]. split; [exact Cap1|]. split; [exact Sh1|]. split; [cbn; rewrite Rs1; reflexivity|].
        cbn [w_rem w_off w_cap set_off p2 set_res]. replace (Z.to_nat (w_cap p1 - (i + 1))) with n by lia.
        change (dues (set_off p2 (i + 1)) (i + 1) n) with (dues (set_off p2 (i + 1)) (i + 1) n).
        destruct (dues_ext p1 (set_off p2 (i + 1)) (i + 1) n Sh1 Sh1 eq_refl eq_refl) as [Y1 Y2]; [reflexivity|lia|lia|]. rewrite Y1, Y2, X1, X2. split.
        -- destruct (w_rem p1 >? 0) eqn:Er1; [reflexivity|]. symmetry. apply nready_none; auto; lia.
        -- intros _. split; [lia|]. destruct (ready e); lia.
      * destruct (dues_ext p1 p2 (i + 1) n Sh1 Sh1 eq_refl eq_refl) as [Y1 Y2]; [reflexivity|lia|lia|].
        destruct (IH p2 (i + 1)) as (p' & F1 & F2 & F3 & F4 & F5 & F6); auto; try lia. { change (w_cap p2) with (w_cap p1). lia. } { rewrite Y2, X2. change (w_rem p2) with (w_rem p1). destruct (ready e); lia. }
        exists p'. rewrite Y1, X1 in F4, F5. split; [exact F1|]. split; [rewrite F2; exact Cap1|]. split; [exact F3|]. split; [rewrite F4; unfold p2; cbn [w_res set_res]; rewrite Rs1, <- app_assoc; reflexivity|]. split; [exact F5|exact F6].
Qed.
Definition left_ok (p : wpoll) : Prop := w_rem p > 0 -> 0 <= w_off p <= w_cap p /\ nready p (w_off p) (Z.to_nat (w_cap p - w_off p)) <= w_rem p.
Definition left (p : wpoll) : list (Z * Z) := if w_rem p >? 0 then dues p (w_off p) (Z.to_nat (w_cap p - w_off p)) else [].
Lemma max_nat : Z.to_nat (MAX_EVENTS - 0) = 1024%nat.
Proof. reflexivity. Qed.
Lemma fill_results_due p : shape p -> 0 <= w_off p <= w_cap p -> nready p (w_off p) (Z.to_nat (w_cap p - w_off p)) <= Z.max 0 (w_rem p) ->
  exists p', fill_results p = Ok p' /\ shape p' /\ w_res p' = firstn 1024 (dues p (w_off p) (Z.to_nat (w_cap p - w_off p))) /\
    left p' = skipn 1024 (dues p (w_off p) (Z.to_nat (w_cap p - w_off p))) /\ left_ok p' /\ queue p' = queue p.
Proof.
  intros Sh Ho Hn. set (n := Z.to_nat (w_cap p - w_off p)) in *. set (D := dues p (w_off p) n). destruct (fill_results_same p Sh Ho) as (p' & F1 & F2 & F3 & _). exists p'. split; [exact F1|]. split; [apply F2|].
  unfold fill_results in F1. fold n in F1. destruct (dues_ext p (set_res p []) (w_off p) n Sh Sh eq_refl eq_refl) as [Y1 Y2]; [reflexivity|lia|lia|].
  destruct (Z_le_gt_dec (w_rem p) 0) as [Hr|Hr].
  - assert (E : D = []) by (apply nready_none; auto; [lia|lia|]; pose proof (nready_range p (w_off p) n); lia). rewrite E, firstn_nil, skipn_nil.
    assert (E1 : p' = set_rem (set_res p []) 0). { destruct n as [|n']; cbn [fill_loop] in F1; [congruence|]. change (w_rem (set_res p [])) with (w_rem p) in F1. destruct (w_rem p >? 0) eqn:X; [lia|congruence]. }
    subst p'. split; [reflexivity|]. split; [reflexivity|]. split; [|reflexivity]. intros X. change (w_rem (set_rem (set_res p []) 0)) with 0 in X. lia.
  - destruct (fill_loop_due n (set_res p []) (w_off p)) as (q & G1 & G2 & G3 & G4 & G5 & G6); [exact Sh|lia|change (w_cap (set_res p [])) with (w_cap p); lia|rewrite Y2; change (w_rem (set_res p [])) with (w_rem p); lia|reflexivity|].
    assert (q = p') by congruence. subst q. cbn [w_res set_res] in G4, G5. rewrite zlen_nil, max_nat, Y1 in G4, G5. split; [exact G4|]. split; [exact G5|]. split; [exact G6|exact F3].
Qed.
Lemma delivers_ok k : forall s, shape (wp s) -> w_polling (wp s) = false -> left_ok (wp s) -> delivers k s (left (wp s)).
Proof.
  induction k as [|k IH]; intros s Sh Np Lo; (split; [intros H; unfold left; destruct (w_rem (wp s) >? 0) eqn:X; [lia|reflexivity]|]); [exact I|].
  intros Hr t. destruct (Lo Hr) as [Ho Hn]. destruct (fill_results_due (wp s) Sh Ho ltac:(lia)) as (p' & F1 & F2 & F3 & F4 & F5 & F6). exists (mk_wst p' (wf s)). cbn [wp].
  unfold left. assert (X : (w_rem (wp s) >? 0) = true) by lia. rewrite X. split; [|split; [exact F3|]].
  - unfold wait_begin. destruct (ev_block_ok _ Sh) as (ev & _ & El & _). rewrite El, Np, X, F1. reflexivity.
  - rewrite <- F4. apply (IH (mk_wst p' (wf s))); auto. cbn. unfold queue in F6. injection F6 as _ _ _ F6. congruence.
Qed.
Lemma nready_count p n : forall i, nready p i n = zlen (filter (fun j => match slot p j with Some e => ready e | None => false end) (places i (Z.of_nat n))).
Proof.
  induction n as [|n IH]; intros i; [reflexivity|]. cbn [nready]. rewrite IH. unfold places. rewrite !Nat2Z.id. cbn [seq map filter]. rewrite Z.add_0_r.
  replace (map (fun k => i + Z.of_nat k) (seq 1 n)) with (map (fun k => i + 1 + Z.of_nat k) (seq 0 n)) by (rewrite <- seq_shift, map_map; apply map_ext; intros k; lia).
  destruct (slot p i) as [e|]; [destruct (ready e)|]; rewrite ?zlen_cons; lia.
Qed.
Lemma store_zget ev r i : zlen r = zlen ev -> zget (store ev r) i = match zget ev i, zget r i with Some e, Some x => Some (mk_pfd (pf_fd e) (pf_ev e) x) | _, _ => None end.
Proof.
  revert r i. induction ev as [|e ev IH]; intros [|x r] i L; cbn [store]; rewrite ?zlen_cons, ?zlen_nil in L; try (pose proof (zlen_nonneg r)); try (pose proof (zlen_nonneg ev)); try lia.
  - assert (X : zget (@nil pfd) i = None). { destruct (zget (@nil pfd) i) eqn:E; [apply zget_Some_range in E; rewrite zlen_nil in E; lia|reflexivity]. } rewrite X. reflexivity.
  - rewrite !zget_cons. destruct (i =? 0); [reflexivity|]. apply IH. lia.
Qed.
Lemma end_due ids dat fd0 A s rev rv o : okay ids dat fd0 A s -> w_ops (wp s) = [] -> answers_with s rev rv ->
  exists s1 due, wait_end s (Events (answers s rev) rv) o = Ok (s1, zlen (w_res (wp s1))) /\ w_res (wp s1) = firstn 1024 due /\ (forall k, delivers k s1 (skipn 1024 due)) /\
    Permutation due (flat_map (fun a => report (rev (fd0 a)) (edge_of s a) (dat a)) (filter (fun a => negb (a_mask A a =? 0)) ids)).
Proof.
  intros [(V & _) Ho] Em (Len & Rv). rewrite Em in V. assert (Sh : shape (wp s)) by apply V. destruct (ev_block_ok _ Sh) as (ev & EB & El & Lev & Sl).
  set (p0 := set_events (wp s) (Live (store ev rv))). assert (S0 : same (wp s) p0) by (apply store_same; assumption). assert (Sh0 : shape p0) by apply S0.
  assert (C16 : 16 <= w_cap (wp s)). { destruct Sh as (k & _ & K & C & _). rewrite C. pose proof (Z.pow_pos_nonneg 2 k ltac:(lia) ltac:(lia)). lia. }
  assert (Sl0 : forall i e, slot (wp s) i = Some e -> exists x, zget rv i = Some x /\ slot p0 i = Some (mk_pfd (pf_fd e) (pf_ev e) x)).
  { intros i e H. assert (R := slot_range _ _ _ Sh H). destruct (zget_in_range rv i) as [x Hx]; [unfold inr in R; lia|]. exists x. split; [exact Hx|]. unfold slot, p0. cbn. rewrite store_zget by lia. rewrite <- Sl, H, Hx. reflexivity. }
  assert (Rd : forall i, inr (wp s) i -> match slot p0 i with Some e => ready e | None => false end = match at_ (wp s) i with Some (e, _) => negb (pf_fd e =? INVALID) && negb (rev (pf_fd e) =? 0) | None => false end).
  { intros i Hi. destruct (slot_in _ _ Sh Hi) as [e Se]. destruct (cel_in _ _ Sh Hi) as [c Ce]. rewrite (at_val _ _ _ _ Sh Hi Se Ce). destruct (Sl0 i e Se) as (x & X1 & X2). rewrite X2. unfold ready. cbn [pf_fd pf_rev].
    destruct (pf_fd e =? INVALID) eqn:En; [reflexivity|]. cbn [negb andb]. rewrite (Rv i e c x (at_val _ _ _ _ Sh Hi Se Ce)); auto. lia. }
  set (N := Z.to_nat (w_cap (wp s) - 1)). assert (Cnt : answers s rev = nready p0 0 (S N)).
  { rewrite nready_count. unfold answers. replace (Z.of_nat (S N)) with (w_cap (wp s)) by lia. f_equal. apply filter_ext_in. intros i Hi. apply places_in in Hi. symmetry. apply Rd. unfold inr. lia. }
  assert (I0 : inr p0 0) by (unfold inr; change (w_cap p0) with (w_cap (wp s)); lia). destruct (slot_in p0 0 Sh0 I0) as [e0 Se0]. destruct (cel_in p0 0 Sh0 I0) as [c0 Ce0].
  cbn [nready] in Cnt. rewrite Se0 in Cnt. pose proof (nready_range p0 1 N) as Nn. change (0 + 1) with 1 in Cnt.
  assert (First : exists p1, (if answers s rev >? 0 then let* r := event_inner (set_rem p0 (answers s rev)) 0 in Ok (fst (r : wpoll * Z)) else Ok p0) = Ok p1 /\ shape p1 /\ w_events p1 = w_events p0 /\ w_cap p1 = w_cap p0 /\
    (forall j, inr p0 j -> 1 <= j -> cel p1 j = cel p0 j) /\ nready p0 1 N <= Z.max 0 (w_rem p1) /\ queue p1 = queue (wp s)).
  { destruct (answers s rev >? 0) eqn:Ag; [|exists p0; split; [reflexivity|]; split; [exact Sh0|]; split; [reflexivity|]; split; [reflexivity|]; split; [reflexivity|]; split; [destruct (ready e0); lia|reflexivity]].
    destruct (event_inner_ok (set_rem p0 (answers s rev)) 0 e0 c0 Sh0 I0 Se0 Ce0) as (p1 & E1 & Sh1 & Ev1 & Cap1 & Cnt1 & Q1 & R1 & O1 & Rs1 & C1 & C1'). rewrite E1. cbn [bind fst]. exists p1.
    split; [reflexivity|]. split; [exact Sh1|]. split; [exact Ev1|]. split; [exact Cap1|]. split; [intros j Hj Hi; apply C1'; [exact Hj|lia]|]. split; [|exact Q1]. rewrite R1. cbn [w_rem set_rem]. destruct (ready e0); lia. }
  destruct First as (p1 & E1 & Sh1 & Ev1 & Cap1 & C1 & N1 & Q1).
  assert (Op1 : w_ops p1 = []) by (unfold queue in Q1; injection Q1 as Q1 _ _ _; congruence).
  unfold wait_end. cbv zeta. rewrite EB. cbn [bind]. fold p0. rewrite E1. cbn [bind]. change (w_ops (set_polling p1 false)) with (w_ops p1). rewrite Op1. cbn [process bind wp wf]. replace (0 =? 0) with true by reflexivity.
  set (p2 := set_off (set_ops (set_polling p1 false) []) 1). assert (Sh2 : shape p2) by exact Sh1. assert (Cap2 : w_cap p2 = w_cap (wp s)) by exact Cap1.
  destruct (dues_ext p0 p2 1 N Sh0 Sh2 Cap1 Ev1) as [X1 X2]; [exact C1|lia|change (w_cap p0) with (w_cap (wp s)); lia|].
  assert (N2 : Z.to_nat (w_cap p2 - w_off p2) = N) by (rewrite Cap2; reflexivity).
  destruct (fill_results_due p2 Sh2) as (p' & F1 & F2 & F3 & F4 & F5 & F6). { rewrite Cap2. change (w_off p2) with 1. lia. } { rewrite N2. change (w_off p2) with 1. rewrite X2. exact N1. }
  rewrite F1. cbn [bind]. rewrite N2 in F3, F4. change (w_off p2) with 1 in F3, F4. rewrite X1 in F3, F4. exists (mk_wst p' (wf s)), (dues p0 1 N). split; [reflexivity|]. cbn [wp]. split; [exact F3|]. split.
  - intros k. rewrite <- F4. apply (delivers_ok k (mk_wst p' (wf s))); auto. cbn. unfold queue in F6. injection F6 as _ _ _ F6. exact F6.
  - rewrite dues_places. replace (Z.of_nat N) with (w_cap (wp s) - 1) by lia. apply (slots_perm ids dat fd0 (a_mask A) s); [exact V| |].
    + intros i I1 _ U. destruct (slot_in _ _ Sh I1) as [e Se]. destruct (cel_in _ _ Sh I1) as [c Ce]. destruct (Sl0 i e Se) as (x & _ & Y). unfold due_at. rewrite (at_val p0 i _ c Sh0 I1 Y Ce). cbn [pf_fd].
      unfold used in U. rewrite Se in U. destruct (pf_fd e =? INVALID); [reflexivity|discriminate].
    + intros a i e c Ha Hm _ I1 Hp S1 Cc Fe F2' F3' Mo C3 C4. destruct (Sl0 i e S1) as (x & X & Y). unfold due_at. rewrite (at_val p0 i _ c Sh0 I1 Y Cc). cbn [pf_fd pf_rev].
      assert (En : (pf_fd e =? INVALID) = false) by (apply Z.eqb_neq; congruence). rewrite En. rewrite (Rv i e c x (at_val _ _ _ _ Sh I1 S1 Cc) F2' X), Fe, C3. unfold edge_of. rewrite Hp, (cell_get_ok _ _ _ Cc). reflexivity.
Qed.

(** ** Edge-triggered mode *)
Lemma block_edge ids dat fd0 A s a ev : okay ids dat fd0 A s -> In a ids -> exists s', would_block s a ev = Ok s' /\ edge_of s' a = Z.ldiff (edge_of s a) ev /\ wf s' = wf s /\ (forall b, In b ids -> b <> a -> edge_of s' b = edge_of s b).
Proof.
  intros [(V & _) Ho] Ha. assert (Sh : shape (wp s)) by apply V. unfold would_block. destruct (v_id _ _ _ _ _ _ _ V a (or_intror Ha)) as [Mo [[D1 D2]|[D1 (i & I1 & I2 & _ & (c & C1 & C2 & C3 & C4))]]].
  - rewrite D2. exists s. split; [reflexivity|]. unfold edge_of. rewrite D2. auto.
  - rewrite I2. rewrite (cell_get_ok _ _ _ C1). cbn [bind]. assert (Ea : edge_of s a = c_edge c) by (unfold edge_of; rewrite I2, (cell_get_ok _ _ _ C1); reflexivity). destruct (Z.land (c_edge c) ev =? 0) eqn:Z0.
    + exists s. split; [reflexivity|]. split; [|auto]. rewrite Ea. apply Z.eqb_eq in Z0. apply Z.bits_inj'. intros n Hn. rewrite Z.ldiff_spec. assert (X := f_equal (fun z => Z.testbit z n) Z0). cbn beta in X. rewrite Z.land_spec, Z.bits_0 in X.
      destruct (Z.testbit (c_edge c) n), (Z.testbit ev n); cbn in *; congruence.
    + destruct (cell_put_ok (wp s) i (mk_cell (Z.land (c_edge c) (Z.lnot ev)) (c_index c) (c_data c)) Sh I1) as (d & Q1 & Q2 & Q3 & Q4). rewrite Q1. cbn [bind]. eexists. split; [reflexivity|]. split; [|split; [reflexivity|]].
      * unfold edge_of at 1. cbn [wf wp]. rewrite I2, (cell_get_ok _ _ _ Q3). cbn. rewrite Ea, Z.ldiff_land. reflexivity.
      * intros b Hb Hne. unfold edge_of. cbn [wf wp]. destruct (v_id _ _ _ _ _ _ _ V b (or_intror Hb)) as [_ [[B1 B2]|[B1 (j & J1 & J2 & _ & (cj & K1 & _))]]]; [rewrite B2; reflexivity|].
        rewrite J2. assert (j <> i). { intros ->. apply (v_sep _ _ _ _ _ _ _ V a b (loc i)); auto; now right. } rewrite (cell_get_ok _ _ _ K1). rewrite <- Q4 in K1; auto. rewrite (cell_get_ok _ _ _ K1). reflexivity.
Qed.
