(** The events remembered for an edge-triggered structure stay remembered. *)
From Verif Require Import Base SockModel PollModel WinModel WinSpec WinProofs WinRun.
From Coq Require Import ZifyBool.

Ltac binv H := match type of H with
  | bind ?m _ = Ok _ => let E := fresh "E" in destruct m eqn:E; cbn [bind] in H; [|discriminate H|discriminate H] end.

(** What a cell remembers is not forgotten. *)
Definition keep (q : ptr) (p p' : wpoll) : Prop := forall c, cell_get p q = Ok c -> exists c', cell_get p' q = Ok c' /\ Z.ldiff (c_edge c) (c_edge c') = 0.
Lemma keep_refl q p : keep q p p.
Proof. intros c H. exists c. split; [exact H|apply Z.ldiff_diag]. Qed.
Lemma ldiff_trans x y z : Z.ldiff x y = 0 -> Z.ldiff y z = 0 -> Z.ldiff x z = 0.
Proof.
  intros H1 H2. apply Z.bits_inj'. intros n Hn. assert (A := f_equal (fun v => Z.testbit v n) H1). assert (B := f_equal (fun v => Z.testbit v n) H2). cbn beta in A, B.
  rewrite Z.ldiff_spec, Z.bits_0 in *. destruct (Z.testbit x n), (Z.testbit y n), (Z.testbit z n); cbn in *; congruence.
Qed.
Lemma ldiff_lor x y : Z.ldiff x (Z.lor x y) = 0.
Proof. apply Z.bits_inj'. intros n Hn. rewrite Z.ldiff_spec, Z.lor_spec, Z.bits_0. destruct (Z.testbit x n), (Z.testbit y n); reflexivity. Qed.
Lemma keep_trans q p1 p2 p3 : keep q p1 p2 -> keep q p2 p3 -> keep q p1 p3.
Proof. intros H1 H2 c H. destruct (H1 c H) as (c1 & E1 & L1). destruct (H2 c1 E1) as (c2 & E2 & L2). exists c2. split; [exact E2|]. eapply ldiff_trans; eauto. Qed.
Lemma keep_data q p p' : w_data p' = w_data p -> keep q p p'.
Proof. intros E c H. exists c. split; [unfold cell_get in *; rewrite E; exact H|apply Z.ldiff_diag]. Qed.
Lemma put_get p q c p' : cell_put p q c = Ok p' -> cell_get p' q = Ok c /\ (forall q', q' <> q -> cell_get p' q' = cell_get p q').
Proof.
  unfold cell_put. intros H. binv H. binv H. binv H. injection H as <-. unfold cell_get. cbn [w_data set_data].
  apply zput_inv in E0. apply zput_inv in E1. destruct E0 as [R0 ->]. destruct E1 as [R1 ->]. split.
  - rewrite (zload_ok _ _ (zset a (snd q) c)) by (apply zget_zset_eq; lia). cbn [bind]. apply zload_ok. apply zget_zset_eq. lia.
  - intros q' N. destruct (Z.eq_dec (fst q') (fst q)) as [F|F].
    + rewrite F, E. rewrite (zload_ok _ _ (zset a (snd q) c)) by (apply zget_zset_eq; lia). cbn [bind]. unfold zload. rewrite zget_zset_neq; [reflexivity|]. intros S. apply N. destruct q, q'. cbn in *. congruence.
    + unfold zload at 1 3. rewrite zget_zset_neq by auto. reflexivity.
Qed.
Lemma put_keep p q c p' q' : cell_put p q c = Ok p' -> (q' = q -> forall c0, cell_get p q = Ok c0 -> Z.ldiff (c_edge c0) (c_edge c) = 0) -> keep q' p p'.
Proof.
  intros H L. destruct (put_get _ _ _ _ H) as [G1 G2]. intros c0 H0. assert (D : q' = q \/ q' <> q) by (destruct q, q'; destruct (Z.eq_dec z1 z), (Z.eq_dec z2 z0); [left|right|right|right]; congruence). destruct D as [->|N].
  - exists c. split; [exact G1|]. apply L; auto.
  - exists c0. rewrite G2 by exact N. split; [exact H0|apply Z.ldiff_diag].
Qed.
Lemma event_keep p i p' v q : event_inner p i = Ok (p', v) -> keep q p p'.
Proof.
  unfold event_inner. intros H. binv H. binv H. destruct (pf_fd a0 =? INVALID); [injection H as <- _; apply keep_refl|]. destruct (pf_rev a0 =? 0); [injection H as <- _; apply keep_refl|].
  cbv zeta in H. binv H. binv H. binv H. destruct a3 as [p1 v1]. injection H as <- _. destruct (Z.land (c_edge a2) SEDGE =? 0).
  - injection E3 as <- _. apply keep_data. reflexivity.
  - binv E3. injection E3 as <- _. apply (keep_trans q p (set_rem p (w_rem p - 1))); [apply keep_data; reflexivity|]. eapply put_keep; [exact E4|]. intros -> c0 H0. rewrite E2 in H0. injection H0 as <-. cbn [c_edge]. apply ldiff_lor.
Qed.
Lemma fill_keep n : forall p i p' q, fill_loop p i n = Ok p' -> keep q p p'.
Proof.
  induction n as [|n IH]; intros p i p' q H; cbn [fill_loop] in H; [injection H as <-; apply keep_data; reflexivity|].
  destruct (w_rem p >? 0); [|injection H as <-; apply keep_data; reflexivity]. binv H. destruct a as [p1 v]. pose proof (event_keep _ _ _ _ q E) as K1. destruct (negb (v =? 0)).
  - binv H. binv H. cbv zeta in H. set (p2 := set_res p1 _) in *. assert (K2 : keep q p p2) by (apply (keep_trans _ _ p1); [exact K1|apply keep_data; reflexivity]).
    destruct (zlen (w_res p2) =? MAX_EVENTS); [injection H as <-; apply (keep_trans _ _ p2); [exact K2|apply keep_data; reflexivity]|]. apply (keep_trans _ _ p2); [exact K2|]. eapply IH; exact H.
  - apply (keep_trans _ _ p1); [exact K1|]. eapply IH; exact H.
Qed.
Lemma results_keep p p' q : fill_results p = Ok p' -> keep q p p'.
Proof. unfold fill_results. intros H. apply (keep_trans _ _ (set_res p [])); [apply keep_data; reflexivity|]. eapply fill_keep; exact H. Qed.

(** The structure keeps its cell. *)
Definition keeps (a : Z) (s s' : wst) : Prop := forall q, f_pd (wf s a) = Some q -> f_pd (wf s' a) = Some q /\ keep q (wp s) (wp s').
Lemma keeps_refl a s : keeps a s s.
Proof. intros q H. split; [exact H|apply keep_refl]. Qed.
Lemma keeps_trans a s1 s2 s3 : keeps a s1 s2 -> keeps a s2 s3 -> keeps a s1 s3.
Proof. intros H1 H2 q H. destruct (H1 q H) as [E1 K1]. destruct (H2 q E1) as [E2 K2]. split; [exact E2|]. eapply keep_trans; eauto. Qed.
Lemma keeps_edge ids dat fd0 M L base a s s' : inv ids dat fd0 M L base s -> In a ids -> keeps a s s' -> Z.ldiff (edge_of s a) (edge_of s' a) = 0.
Proof.
  intros V Ha K. unfold edge_of at 1. destruct (f_pd (wf s a)) as [q|] eqn:P; [|apply Z.ldiff_0_l]. destruct (K q P) as [P' K']. unfold edge_of. rewrite P'. destruct (cell_get (wp s) q) as [c| |] eqn:G; [|apply Z.ldiff_0_l|apply Z.ldiff_0_l].
  destruct (K' c G) as (c' & -> & L0). exact L0.
Qed.
(** The cell of a structure. *)
Lemma at_cell ids dat fd0 M L base s a q : inv ids dat fd0 M L base s -> In a ids -> f_pd (wf s a) = Some q ->
  f_op (wf s a) <> 0 /\ exists i e, q = loc i /\ inr (wp s) i /\ slot (wp s) i = Some e /\ pf_fd e <> INVALID.
Proof.
  intros V Ha P. destruct (v_id _ _ _ _ _ _ _ V a (or_intror Ha)) as [_ [[_ D]|[D (i & I1 & I2 & (e & S1 & S2 & _) & _)]]]; [congruence|]. split; [exact D|]. exists i, e. split; [congruence|]. split; [exact I1|]. split; [exact S1|].
  destruct (v_fd _ _ _ _ _ _ _ V a (or_intror Ha)). congruence.
Qed.
Lemma free_slot_free ev : forall i0 i, free_slot ev i0 = Some i -> i0 <= i /\ exists e, zget ev (i - i0) = Some e /\ pf_fd e = INVALID.
Proof.
  induction ev as [|e ev IH]; intros i0 i H; [discriminate|]. cbn [free_slot] in H. destruct (pf_fd e =? INVALID) eqn:E.
  - injection H as <-. split; [lia|]. exists e. rewrite Z.sub_diag. split; [apply zget_cons0|lia].
  - destruct (IH _ _ H) as (L & x & X1 & X2). split; [lia|]. exists x. rewrite zget_consS by lia. replace (i - i0 - 1) with (i - (i0 + 1)) by lia. auto.
Qed.
Lemma idle_none ids dat fd0 M L base s b : inv ids dat fd0 M L base s -> In b ids -> (f_op (wf s b) =? 0) = true -> has (wf s b) = false.
Proof. intros V Hb E. destruct (v_id _ _ _ _ _ _ _ V b (or_intror Hb)) as [_ [[_ D]|[D _]]]; [unfold has; rewrite D; reflexivity|lia]. Qed.
Lemma add_keeps ids dat fd0 M L base s a b ev o s' rc : inv ids dat fd0 M L base s -> w_polling (wp s) = false -> In a ids -> In b ids -> unowned ids (wf s) L b -> m_chunk o = true ->
  win_add s b ev (dat b) o = Ok (s', rc) -> keeps a s s'.
Proof.
  intros V Np Ha Hb Hf Mc H q P. destruct (at_cell _ _ _ _ _ _ _ _ _ V Ha P) as (Na & i & e & -> & Ri & Se & Fe).
  assert (Sep : b <> a -> f_pd (wf s b) <> Some (loc i)) by (intros N X; apply (v_sep _ _ _ _ _ _ _ V a b (loc i)); auto; now right).
  unfold win_add in H. rewrite Np in H. set (t := wf s b) in *. cbv zeta in H. set (mask := if Z.lor (f_op t) ev =? SEDGE then 0 else Z.lor (f_op t) ev) in *.
  destruct (f_op t =? mask); [injection H as <- _; split; [exact P|apply keep_refl]|]. binv H. destruct a0 as [p1 [[q index]|]].
  2:{ injection H as <- _. split; [exact P|]. cbn [wp]. unfold slot_for in E. destruct (f_op t =? 0) eqn:E0.
      - destruct (expand_ok (wp s) o (v_shape _ _ _ _ _ _ _ V) (v_count _ _ _ _ _ _ _ V) (inv_count _ _ _ _ _ _ _ b V Hb (idle_none _ _ _ _ _ _ _ _ V Hb E0) Hf) Mc) as [[X _]|(p2 & X & _)]; rewrite X in E; cbn [bind] in E.
        + replace (negb (-1 =? 0)) with true in E by reflexivity. injection E as <-. apply keep_refl.
        + replace (negb (0 =? 0)) with false in E by reflexivity. cbv zeta in E. repeat binv E. discriminate.
      - repeat binv E. discriminate. }
  assert (K1 : keep (loc i) (wp s) p1 /\ (b = a -> q = loc i) /\ (b <> a -> q <> loc i)).
  { unfold slot_for in E. destruct (f_op t =? 0) eqn:E0.
    - assert (Nb : b <> a) by (intros ->; fold t in Na; lia).
      destruct (expand_ok (wp s) o (v_shape _ _ _ _ _ _ _ V) (v_count _ _ _ _ _ _ _ V) (inv_count _ _ _ _ _ _ _ b V Hb (idle_none _ _ _ _ _ _ _ _ V Hb E0) Hf) Mc) as [[X _]|(p2 & X & Sh2 & Cap2 & _ & _ & _ & _ & Keep2 & _)]; rewrite X in E; cbn [bind] in E.
      { replace (negb (-1 =? 0)) with true in E by reflexivity. discriminate. }
      replace (negb (0 =? 0)) with false in E by reflexivity. cbv zeta in E. set (p3 := set_count p2 (w_count p2 + 1)) in *. binv E. binv E. binv E. binv E. binv E. binv E. binv E. injection E as <- <- <-.
      unfold or_ub in E2. destruct (free_slot a0 0) as [i1|] eqn:Fs; [|discriminate]. injection E2 as <-. destruct (free_slot_free _ _ _ Fs) as (L0 & x & X1 & X2). rewrite Z.sub_0_r in X1.
      assert (Ri2 : inr p2 i) by (unfold inr in *; lia). destruct (Keep2 i Ri) as [Ks Kc]. assert (S0 : slot p2 i1 = Some x). { unfold slot. change (w_events p2) with (w_events p3). unfold ev_block in E1. destruct (w_events p3); try discriminate. injection E1 as ->. exact X1. }
      assert (Ni : i1 <> i) by (intros ->; congruence). assert (R1 : inr p2 i1) by (apply (slot_range _ _ _ Sh2 S0)). rewrite (loc_inner p2 i1 Sh2 R1) in E3. injection E3 as <-.
      assert (Nl : loc i1 <> loc i) by (intros X0; apply Ni; apply (loc_inj p2); auto). split; [|split; [intros; contradiction|intros _; exact Nl]].
      apply (keep_trans _ _ p2). { intros c0 H0. destruct (cel_in _ _ (v_shape _ _ _ _ _ _ _ V) Ri) as [c1 C1]. rewrite (cell_get_ok _ _ _ C1) in H0. injection H0 as <-. exists c1. split; [apply cell_get_ok; congruence|apply Z.ldiff_diag]. }
      apply (keep_trans _ _ p3); [apply keep_data; reflexivity|]. apply (keep_trans _ _ a4); [eapply put_keep; [exact E5|]; intros X0; congruence|apply keep_data; reflexivity].
    - binv E. binv E. injection E as <- <- <-. unfold or_ub in E1. destruct (f_pd t) as [q'|] eqn:Pt; [|discriminate]. injection E1 as <-. split; [apply keep_refl|]. split; [intros ->; unfold t in Pt; congruence|].
      intros Nb X. apply (Sep Nb). fold t. congruence. }
  destruct K1 as (K1 & Q1 & Q2). binv H. binv H. binv H. binv H. binv H. injection H as <- _. cbn [wp wf].
  assert (K2 : keep (loc i) (wp s) a4). { apply (keep_trans _ _ p1); [exact K1|]. apply (keep_trans _ _ (set_events p1 (Live a2))); [apply keep_data; reflexivity|]. eapply put_keep; [exact E4|]. intros Eq c0 H0. rewrite E3 in H0. injection H0 as <-. cbn [c_edge].
    destruct (Z.land mask SEDGE =? 0); [apply Z.ldiff_diag|apply ldiff_lor]. }
  split; [|exact K2]. unfold upf. destruct (a =? b) eqn:Eab; [|exact P]. cbn [f_pd]. f_equal. apply Q1. lia.
Qed.
Lemma full_keep p q p' q' : del_full p (Some q) = Ok p' -> q' <> q -> keep q' p p'.
Proof. unfold del_full. intros H N. cbn [or_ub bind] in H. binv H. binv H. binv H. binv H. cbv zeta in H. apply (keep_trans _ _ (set_count (set_events p (Live a2)) (w_count p - 1))); [apply keep_data; reflexivity|]. eapply put_keep; [exact H|]. congruence. Qed.
Lemma del_keeps ids dat fd0 M L base s a b ev o s' rc : inv ids dat fd0 M L base s -> w_polling (wp s) = false -> In a ids -> In b ids ->
  win_del s b ev (dat b) o = Ok (s', rc) -> Z.testbit (f_op (wf s' a)) 2 = true -> keeps a s s'.
Proof.
  intros V Np Ha Hb H Tb q P. assert (Sep : b <> a -> f_pd (wf s b) <> Some q) by (intros N X; apply (v_sep _ _ _ _ _ _ _ V a b q); auto; now right).
  unfold win_del in H. rewrite Np in H. destruct (Z.land (f_op (wf s b)) ev =? 0); [injection H as <- _; split; [exact P|apply keep_refl]|]. cbv zeta in H. set (op := if Z.land (f_op (wf s b)) (Z.lnot ev) =? SEDGE then 0 else Z.land (f_op (wf s b)) (Z.lnot ev)) in *.
  destruct (op =? 0) eqn:E0.
  - binv H. injection H as <- _. cbn [wp wf] in *. unfold upf in *. destruct (a =? b) eqn:Eab; [cbn [f_op] in Tb; replace op with 0 in Tb by lia; discriminate|]. split; [exact P|].
    destruct (f_pd (wf s b)) as [q'|] eqn:Pb; [|discriminate]. eapply full_keep; [exact E|]. intros ->. apply Sep; [lia|reflexivity].
  - binv H. binv H. binv H. binv H. binv H. binv H. injection H as <- _. cbn [wp wf] in *. unfold or_ub in E. destruct (f_pd (wf s b)) as [q'|] eqn:Pb; [|discriminate]. injection E as ->. split.
    + unfold upf. destruct (a =? b) eqn:Eab; [|exact P]. assert (a = b) by lia. subst b. cbn [f_pd]. congruence.
    + apply (keep_trans _ _ (set_events (wp s) (Live a4))); [apply keep_data; reflexivity|]. eapply put_keep; [exact E5|]. intros -> c0 H0. change (cell_get (set_events (wp s) (Live a4)) a0) with (cell_get (wp s) a0) in H0. rewrite E1 in H0. injection H0 as <-. cbn [c_edge].
      unfold upf in Tb. destruct (a =? b) eqn:Eab; [|exfalso; apply Sep; [lia|reflexivity]]. cbn [f_op] in Tb. change SEDGE with (2 ^ 2). rewrite wland_bit by lia. rewrite Tb. cbn [negb]. apply Z.ldiff_diag.
Qed.
Lemma process_keeps ids dat fd0 L o a : (forall i, m_events (o i) = true /\ m_chunk (o i) = true) -> In a ids ->
  forall M base s i rc s' rc', inv ids dat fd0 M L base s -> w_polling (wp s) = false -> Z.testbit (M a) 2 = true -> process s L o i rc = Ok (s', rc') -> keeps a s s'.
Proof.
  intros Hm Ha. induction L as [|op L IH]; intros M base s i rc s' rc' V Np Tb H; cbn [process] in H.
  - injection H as <- _. apply keeps_refl.
  - destruct (o_full op) eqn:Of.
    + destruct (v_full _ _ _ _ _ _ _ V 0 op (zget_cons0 _ _) Of) as (j & J1 & J2 & (e & E1 & E2) & (c & C1 & C2) & J5). rewrite J2 in H.
      destruct (del_full_ok (wp s) j e c) as (p' & D1 & D2 & D3 & D4 & D5 & D6 & D7 & D8); auto. { apply V. } { exact (v_count _ _ _ _ _ _ _ V). }
      rewrite D1 in H. cbn [bind] in H. apply (keeps_trans a s (mk_wst p' (wf s))).
      * intros q P. split; [exact P|]. cbn [wp]. eapply full_keep; [exact D1|]. intros ->. apply (J5 a (or_intror Ha)). exact P.
      * apply (IH M (base + 1) _ _ _ _ _ (inv_drop ids dat fd0 M op L base s p' j V Of J2 J1 D2 D3 D4 D5 D7 D8) ltac:(cbn; rewrite (rest_polling _ _ D6); exact Np) Tb H).
    + destruct (v_op _ _ _ _ _ _ _ V 0 op (zget_cons0 _ _) Of) as (b & Hb & A2 & A3 & A4 & A5 & A6). rewrite A2 in H. cbn [or_ub bind] in H.
      pose proof (inv_pop _ _ _ _ _ _ _ _ _ V Of A2) as V1. set (s1 := mk_wst (wp s) (upf (wf s) b (mk_wfd (f_fd (wf s b)) (f_op (wf s b)) (f_pd (wf s b)) (-1)))) in *.
      assert (K1 : keeps a s s1). { intros q P. split; [|apply keep_refl]. cbn. unfold upf. destruct (a =? b) eqn:E; [assert (a = b) by lia; subst; exact P|exact P]. }
      assert (F1 : f_opi (wf s1 b) = -1 /\ f_op (wf s1 b) = f_op (wf s b)) by (cbn; unfold upf; rewrite Z.eqb_refl; auto). destruct F1 as [F1 F1'].
      rewrite A4 in H. cbv zeta in H. fold s1 in H.
      destruct (v_mask _ _ _ _ _ _ _ V b Hb) as [_ MB]. specialize (MB op). rewrite A3, Z.add_0_r, Z.sub_diag in MB. destruct (MB (zget_cons0 _ _)) as [M1 M2]. clear MB.
      assert (Mrw : Z.land (Z.lor (f_op (wf s b)) (o_add op)) 3 <> 0) by (apply (rw_ldiff _ (o_del op)); rewrite <- M1; exact M2).
      assert (Hadd : exists s2, (if negb (o_add op =? 0) then win_add s1 b (o_add op) (dat b) (o i) else Ok (s1, 0)) = Ok (s2, 0) /\ w_polling (wp s2) = false /\ f_opi (wf s2 b) = -1 /\ keeps a s1 s2 /\
        inv ids dat fd0 (fun x => if x =? b then Z.lor (f_op (wf s b)) (o_add op) else M x) L (base + 1) s2).
      { destruct (o_add op =? 0) eqn:E0; cbn [negb].
        - exists s1. split; [reflexivity|]. split; [exact Np|]. split; [exact F1|]. split; [apply keeps_refl|]. apply (inv_ext _ _ _ _ _ _ _ _ V1). intros x Hx. destruct (x =? b); [|reflexivity].
          replace (o_add op) with 0 by lia. apply Z.lor_0_r.
        - assert (Hu := pop_unowned _ _ _ _ _ _ _ _ _ (mk_wfd (f_fd (wf s b)) (f_op (wf s b)) (f_pd (wf s b)) (-1)) V Of A2 eq_refl : unowned ids (wf s1) L b).
          destruct (Hm i) as [Hme Hmc]. destruct (add_ok _ _ _ _ _ _ _ b (o_add op) (o i) V1 Np Hb Hu F1 A5 Hmc) as (s2 & rc2 & B1 & B2 & _ & B4 & [(_ & X & _)|(-> & B5 & _)]); [congruence|].
          exists s2. split; [exact B1|]. split; [exact B2|]. split; [exact B4|]. split; [exact (add_keeps _ _ _ _ _ _ _ a b _ _ _ _ V1 Np Ha Hb Hu Hmc B1)|]. apply (inv_ext _ _ _ _ _ _ _ _ B5). intros x Hx. cbn beta. rewrite Z.eqb_refl. destruct (x =? b); [|reflexivity].
          rewrite settle_rw; auto. }
      destruct Hadd as (s2 & B1 & B2 & B4 & K2 & B5). rewrite B1 in H. cbn [bind] in H. replace (negb (0 =? 0)) with false in H by reflexivity.
      assert (Hdel : exists s3, (if negb (o_del op =? 0) then win_del s2 b (o_del op) (dat b) (o i) else Ok (s2, 0)) = Ok (s3, 0) /\ w_polling (wp s3) = false /\ keeps a s2 s3 /\ inv ids dat fd0 M L (base + 1) s3).
      { destruct (o_del op =? 0) eqn:E0; cbn [negb].
        - exists s2. split; [reflexivity|]. split; [exact B2|]. split; [apply keeps_refl|]. apply (inv_ext _ _ _ _ _ _ _ _ B5). intros x Hx. destruct (x =? b) eqn:E; [|reflexivity].
          apply Z.eqb_eq in E. subst x. rewrite M1. replace (o_del op) with 0 by lia. apply Z.ldiff_0_r.
        - destruct (del_ok _ _ _ _ _ _ _ b (o_del op) (o i) B5 B2 Hb B4 A6) as (s3 & C1 & C2 & _ & C4 & C5 & C6).
          assert (C7 : inv ids dat fd0 M L (base + 1) s3). { apply (inv_ext _ _ _ _ _ _ _ _ C5). intros x Hx. cbn beta. rewrite Z.eqb_refl. destruct (x =? b) eqn:E; [|reflexivity].
            apply Z.eqb_eq in E. subst x. rewrite settle_rw; auto. rewrite <- M1. exact M2. }
          exists s3. split; [exact C1|]. split; [exact C2|]. split; [|exact C7].
          destruct (Z.eq_dec a b) as [->|N].
          + apply (del_keeps _ _ _ _ _ _ _ b b _ _ _ _ B5 B2 Hb Hb C1). destruct (v_mask _ _ _ _ _ _ _ C7 b Hb) as [X _]. rewrite <- (X C4). exact Tb.
          + intros q P. assert (Sep : f_pd (wf s2 b) <> Some q) by (intros X; apply (v_sep _ _ _ _ _ _ _ B5 a b q); auto; now right).
            unfold win_del in C1. rewrite B2 in C1. destruct (Z.land (f_op (wf s2 b)) (o_del op) =? 0); [injection C1 as <-; split; [exact P|apply keep_refl]|]. cbv zeta in C1.
            match type of C1 with (if ?x =? 0 then _ else _) = _ => destruct (x =? 0) end.
            * binv C1. injection C1 as <-. cbn [wp wf]. unfold upf. destruct (a =? b) eqn:Eab; [lia|]. split; [exact P|]. destruct (f_pd (wf s2 b)) as [q'|] eqn:Pb; [|discriminate]. eapply full_keep; [exact E|]. congruence.
            * binv C1. binv C1. binv C1. binv C1. binv C1. binv C1. injection C1 as <-. cbn [wp wf]. unfold upf. destruct (a =? b) eqn:Eab; [lia|]. split; [exact P|].
              unfold or_ub in E. destruct (f_pd (wf s2 b)) as [q'|] eqn:Pb; [|discriminate]. injection E as ->. eapply keep_trans; [|eapply put_keep; [exact E5|]; intros ->; congruence]. apply keep_data. reflexivity. }
      destruct Hdel as (s3 & C1 & C2 & K3 & C4). rewrite C1 in H. cbn [bind] in H. replace (negb (0 =? 0)) with false in H by reflexivity.
      eapply keeps_trans; [exact K1|]. eapply keeps_trans; [exact K2|]. eapply keeps_trans; [exact K3|]. apply (IH M (base + 1) s3 _ _ _ _ C4 C2 Tb H).
Qed.
Lemma room_data p o q : room p o = Ok (Some q) -> w_data q = w_data p.
Proof. unfold room. intros H. repeat match type of H with context [if ?b then _ else _] => destruct b end; try discriminate; injection H as <-; reflexivity. Qed.
(** A call that is put off touches no cell; the structure loses its cell only when it is to lose its slot. *)
Lemma submit_cells s b ev d add o s' rc : submit s b ev d add o = Ok (s', rc) -> w_data (wp s') = w_data (wp s) /\
  forall a, f_pd (wf s' a) = f_pd (wf s a) \/ a = b /\ f_op (wf s' a) = 0 /\ f_opi (wf s' a) = -1.
Proof.
  unfold submit. intros H. binv H. assert (D : forall p j k, a = Some (p, j, k) -> w_data p = w_data (wp s)).
  { intros p j k ->. destruct (f_opi (wf s b) =? -1); [|injection E as <- _ _; reflexivity]. cbv zeta in E. binv E. destruct a as [q|]; [|discriminate]. injection E as <- _ _. cbn. exact (room_data _ _ _ E0). }
  destruct a as [[[p j] k]|]; [|injection H as <- _; auto]. specialize (D _ _ _ eq_refl). binv H. cbv zeta in H. binv H. injection H as <- _. cbn [wp wf]. split; [exact D|].
  intros x. unfold upf. destruct (x =? b) eqn:Ex; [|now left]. assert (x = b) by lia. subst x. match goal with |- context [if ?c then mk_wfd _ 0 None _ else _] => destruct c end; cbn; auto.
Qed.
Lemma wstep_keeps ids dat fd0 A s c a s' r : okay ids dat fd0 A s -> allowed ids A c -> In a ids -> (forall ev, c <> Blocked a ev) -> wstep dat s c = Ok (s', r) ->
  Z.testbit (a_mask A a) 2 = true -> Z.testbit (a_mask (astep A c r) a) 2 = true -> keeps a s s'.
Proof.
  intros K Al Ha Nb W T0 T1. destruct (wstep_ok _ _ _ _ _ _ K Al) as (s1 & r1 & W' & K'). rewrite W in W'. injection W' as <- <-.
  assert (Sub : forall b ev d add o s1 rc, submit s b ev d add o = Ok (s1, rc) -> s1 = s' -> keeps a s s').
  { intros b ev d add o s1 rc H ->. destruct (submit_cells _ _ _ _ _ _ _ _ H) as [D1 D2]. intros q P. destruct (D2 a) as [X|(X1 & X2 & X3)].
    - split; [congruence|]. apply keep_data. exact D1.
    - exfalso. destruct K' as [(V & _) _]. destruct (v_mask _ _ _ _ _ _ _ V a Ha) as [Y _]. specialize (Y X3). rewrite Y, X2 in T1. discriminate. }
  assert (K0 := K). destruct K0 as [G Ho]. assert (V := proj1 G). assert (Pol : a_poll A = w_polling (wp s)) by apply G. destruct c as [b ev o|b ev o|t|an o|b ev]; cbn [wstep] in W; binv W.
  - destruct a0 as [s1 rc]. cbn [fst snd] in W. injection W as <- <-. destruct (w_polling (wp s)) eqn:Np.
    + apply (Sub b ev (dat b) true o s1 rc); [|reflexivity]. unfold win_add in E. rewrite Np in E. exact E.
    + destruct Al as (Hb & Hev & Mc & _). refine (add_keeps _ _ _ _ _ _ _ a b _ _ _ _ V Np Ha Hb _ Mc E). destruct G as (_ & _ & Em & _). rewrite (Em Pol). apply unowned_nil.
  - destruct a0 as [s1 rc]. cbn [fst snd] in W. injection W as <- <-. destruct (w_polling (wp s)) eqn:Np.
    + apply (Sub b ev (dat b) false o s1 rc); [|reflexivity]. unfold win_del in E. rewrite Np in E. exact E.
    + destruct Al as (Hb & Hev & _). apply (del_keeps _ _ _ _ _ _ _ a b _ _ _ _ V Np Ha Hb E).
      destruct K' as [(V' & Pol' & Em' & _) _]. assert (Np' : a_poll (astep A (Del b ev o) (Ret rc)) = false). { cbn [astep]. destruct rc; cbn; congruence. }
      rewrite (Em' Np') in V'. destruct (idle _ _ _ _ _ a V' Ha) as (_ & -> & _). exact T1.
  - destruct a0 as [s1 b]. cbn [fst snd] in W. injection W as <- _. unfold wait_begin in E. cbv zeta in E. assert (R : Ok (s, Done (-1)) = Ok (s1, b) -> keeps a s s1) by (intros X; injection X as <- _; apply keeps_refl).
    destruct (w_events (wp s)); [exact (R E)| |]; (destruct (w_polling (wp s)); [exact (R E)|]; destruct (w_rem (wp s) >? 0); [binv E; injection E as <- _; intros q P; split; [exact P|]; exact (results_keep _ _ q E0)|injection E as <- _; intros q P; split; [exact P|]; apply keep_data; reflexivity]).
  - destruct a0 as [s1 rc]. cbn [fst snd] in W. injection W as <- <-. destruct Al as (Ap & Hm & _). unfold wait_end in E. cbv zeta in E. binv E. rename a0 into p1.
    assert (S1 : (forall q, keep q (wp s) p1) /\ same (wp s) p1 /\ queue p1 = queue (wp s)).
    { assert (Sh : shape (wp s)) by apply V. destruct an as [n rv|e]; [|injection E0 as <-; split; [intros q; apply keep_refl|]; split; [apply same_refl; exact Sh|reflexivity]].
      destruct (ev_block_ok _ Sh) as (evb & EB & El & _). rewrite EB in E0. cbn [bind] in E0. pose proof (store_same _ _ rv Sh El) as S1. destruct (n >? 0); [|injection E0 as <-; split; [intros q; apply keep_data; reflexivity|split; [exact S1|reflexivity]]].
      set (p := set_events (wp s) (Live (store evb rv))) in *. assert (S2 : same (wp s) (set_rem p n)) by (apply (same_trans _ p); [exact S1|apply same_fields; auto; apply S1]).
      destruct (event_inner_same (set_rem p n) 0 (proj1 S2)) as (p2 & v & X1 & X2 & X3 & _). { destruct (proj1 S2) as (k & _ & Kk & C & _). unfold inr. rewrite C. pose proof (Z.pow_pos_nonneg 2 k ltac:(lia) ltac:(lia)). lia. }
      rewrite X1 in E0. cbn [bind fst] in E0. injection E0 as <-. split; [|split; [apply (same_trans _ (set_rem p n)); assumption|exact X3]]. intros q. apply (keep_trans _ _ (set_rem p n)); [apply keep_data; reflexivity|exact (event_keep _ _ _ _ q X1)]. }
    destruct S1 as (K1 & S1 & Q1). pose proof (queue_good _ _ _ _ _ _ G S1 Q1) as (V1 & _). cbn [wp wf] in V1.
    assert (K2 : keeps a s (mk_wst (set_polling p1 false) (wf s))) by (intros q P; split; [exact P|]; apply (keep_trans _ _ p1); [apply K1|apply keep_data; reflexivity]).
    match type of E with (if ?x then _ else _) = _ => destruct x end; [injection E as <- _; exact K2|]. eapply keeps_trans; [exact K2|]. change (w_ops (set_polling p1 false)) with (w_ops p1) in E.
    assert (V0 : inv ids dat fd0 (a_mask A) (w_ops p1) 0 (mk_wst (set_polling p1 false) (wf s))).
    { apply (inv_same _ _ _ _ _ _ (mk_wst p1 (wf s))); [exact V1|]. apply same_fields; auto. apply V1. }
    binv E. destruct a0 as [s2 rc2]. pose proof (process_keeps _ _ _ _ o a Hm Ha _ _ _ _ _ _ _ V0 eq_refl T0 E1) as K3. eapply keeps_trans; [exact K3|]. destruct (rc2 =? 0).
    + binv E. injection E as <- _. intros q P. split; [exact P|]. eapply keep_trans; [|exact (results_keep _ _ q E2)]. apply keep_data. reflexivity.
    + injection E as <- _. intros q P. split; [exact P|]. apply keep_data. reflexivity.
  - injection W as <- _. unfold would_block in E. destruct (f_pd (wf s b)) as [q|] eqn:Pb; [|injection E as <-; apply keeps_refl]. binv E. destruct (Z.land (c_edge a1) ev =? 0); [injection E as <-; apply keeps_refl|]. binv E. injection E as <-.
    intros q' P. split; [exact P|]. cbn [wp]. eapply put_keep; [exact E1|]. intros -> c0 _. exfalso. destruct Al as [Hb _]. apply (v_sep _ _ _ _ _ _ _ V a b q); auto; [now right|now right|]. intros ->. apply (Nb ev). reflexivity.
Qed.
Lemma wrun_keeps ids dat fd0 a l : In a ids -> forall A s s' r, okay ids dat fd0 A s -> legal dat ids A s l -> quiet dat a A s l -> wrun dat s l = Ok (s', r) -> keeps a s s'.
Proof.
  intros Ha. induction l as [|c l IH]; intros A s s' r K Lg Q W; cbn [wrun] in W.
  - injection W as <- _. apply keeps_refl.
  - destruct Lg as [Al Lg]. destruct Q as (T0 & Nb & Q). binv W. destruct a0 as [s1 r1]. cbn [fst snd] in W. binv W. destruct a0 as [s2 r2]. cbn [fst snd] in W. injection W as <- <-.
    destruct (wstep_ok _ _ _ _ _ _ K Al) as (s1' & r1' & W' & K'). rewrite E in W'. injection W' as <- <-. specialize (Q _ _ eq_refl). eapply keeps_trans; [|exact (IH _ _ _ _ K' (Lg _ _ eq_refl) Q E0)].
    apply (wstep_keeps ids dat fd0 A s c a s1 r1 K Al Ha Nb E T0). destruct l; apply Q.
Qed.

(** ** What a report tells *)

(** Every result comes from a slot, whose cell then remembers what was reported. *)
Definition from_slot (p p' : wpoll) (v d : Z) : Prop := exists j e c c', inr p j /\ slot p j = Some e /\ cel p j = Some c /\ ready e = true /\ v = reported (pf_rev e) (c_edge c) /\ d = c_data c /\
  cel p' j = Some c' /\ c_edge c' = masked (pf_rev e) (c_edge c).
Lemma fill_from n : forall p i p', shape p -> 0 <= i -> i + Z.of_nat n <= w_cap p -> fill_loop p i n = Ok p' ->
  w_events p' = w_events p /\ (forall j, inr p j -> j < i -> cel p' j = cel p j) /\ (forall v d, In (v, d) (w_res p') -> In (v, d) (w_res p) \/ exists j, i <= j /\ exists e c c', inr p j /\ slot p j = Some e /\ cel p j = Some c /\ ready e = true /\ v = reported (pf_rev e) (c_edge c) /\ d = c_data c /\
  cel p' j = Some c' /\ c_edge c' = masked (pf_rev e) (c_edge c)).
Proof.
  induction n as [|n IH]; intros p i p' Sh I0 In_ F; cbn [fill_loop] in F.
  - injection F as <-. split; [reflexivity|]. split; [reflexivity|]. intros v d H. left. exact H.
  - destruct (w_rem p >? 0); [|injection F as <-; split; [reflexivity|]; split; [reflexivity|]; intros v d H; left; exact H].
    assert (Ri : inr p i) by (unfold inr; lia). destruct (slot_in p i Sh Ri) as [e Se]. destruct (cel_in p i Sh Ri) as [c Ce].
    destruct (event_inner_ok p i e c Sh Ri Se Ce) as (p1 & E1 & Sh1 & Ev1 & Cap1 & Cnt1 & Q1 & R1 & O1 & Rs1 & C1 & C1'). rewrite E1 in F. cbn [bind] in F.
    assert (Sl : forall j, slot p1 j = slot p j) by (intros j; unfold slot; rewrite Ev1; reflexivity).
    assert (Go : forall q, shape q -> w_cap q = w_cap p -> w_events q = w_events p1 -> (forall j, cel q j = cel p1 j) -> fill_loop q (i + 1) n = Ok p' ->
      (forall v d, In (v, d) (w_res q) -> In (v, d) (w_res p) \/ v = reported (pf_rev e) (c_edge c) /\ d = c_data c /\ ready e = true) ->
      w_events p' = w_events p /\ (forall j, inr p j -> j < i -> cel p' j = cel p j) /\ (forall v d, In (v, d) (w_res p') -> In (v, d) (w_res p) \/ exists j, i <= j /\ exists e c c', inr p j /\ slot p j = Some e /\ cel p j = Some c /\ ready e = true /\ v = reported (pf_rev e) (c_edge c) /\ d = c_data c /\
        cel p' j = Some c' /\ c_edge c' = masked (pf_rev e) (c_edge c))).
    { intros q Shq Capq Evq Cq Fq Hq. destruct (IH q (i + 1) p' Shq ltac:(lia) ltac:(lia) Fq) as (I1 & I2 & I3). split; [congruence|]. split.
      - intros j Hj Lt. rewrite I2, Cq, C1' by (auto; unfold inr in *; lia). reflexivity.
      - intros v d H. destruct (I3 v d H) as [H1|(j & Lj & e1 & c1 & c2 & J1 & J2 & J3 & J4 & J5 & J6 & J7 & J8)].
        + destruct (Hq v d H1) as [H2|(-> & -> & Re)]; [left; exact H2|]. right. exists i. split; [lia|]. eexists e, c, _. split; [exact Ri|]. split; [exact Se|]. split; [exact Ce|]. split; [exact Re|]. split; [reflexivity|]. split; [reflexivity|].
          split; [rewrite I2 by (unfold inr in *; lia); rewrite Cq; exact C1|]. cbn [c_edge]. rewrite Re. reflexivity.
        + right. exists j. split; [lia|]. exists e1, c1, c2. unfold inr in J1. rewrite Capq in J1. split; [exact J1|]. split; [rewrite <- Sl; unfold slot in *; rewrite <- Evq; exact J2|]. split; [rewrite <- (C1' j J1) by lia; rewrite <- Cq; exact J3|]. auto. }
    destruct (ready e) eqn:Re.
    + destruct (negb (reported (pf_rev e) (c_edge c) =? 0)) eqn:Nz.
      * assert (Ri1 : inr p1 i) by (unfold inr in *; lia). rewrite (loc_inner p1 i Sh1 Ri1) in F. cbn [bind] in F. rewrite (cell_get_ok _ _ _ C1) in F. cbn [bind c_data] in F. cbv zeta in F.
        set (q := set_res p1 (w_res p1 ++ [(reported (pf_rev e) (c_edge c), c_data c)])) in *.
        assert (Hq : forall v d, In (v, d) (w_res q) -> In (v, d) (w_res p) \/ v = reported (pf_rev e) (c_edge c) /\ d = c_data c /\ true = true).
        { intros v d H. cbn [q w_res set_res] in H. rewrite Rs1 in H. apply in_app_or in H. destruct H as [H|[H|[]]]; [left; exact H|]. injection H as <- <-. auto. }
        destruct (zlen (w_res q) =? MAX_EVENTS).
        -- injection F as <-. split; [exact Ev1|]. split; [intros j Hj Lt; apply C1'; [exact Hj|lia]|]. intros v d H. destruct (Hq v d H) as [H1|(-> & -> & _)]; [left; exact H1|]. right. exists i. split; [lia|]. eexists e, c, _.
           split; [exact Ri|]. split; [exact Se|]. split; [exact Ce|]. split; [exact Re|]. split; [reflexivity|]. split; [reflexivity|]. split; [exact C1|reflexivity].
        -- apply (Go q); auto.
      * apply (Go p1); auto. intros v d H. left. rewrite Rs1 in H. exact H.
    + replace (negb (0 =? 0)) with false in F by reflexivity. apply (Go p1); auto. intros v d H. left. rewrite Rs1 in H. exact H.
Qed.
Lemma results_from p p' : shape p -> 0 <= w_off p <= w_cap p -> fill_results p = Ok p' -> w_events p' = w_events p /\ forall v d, In (v, d) (w_res p') -> from_slot p p' v d.
Proof.
  intros Sh Ho F. unfold fill_results in F. destruct (fill_from (Z.to_nat (w_cap p - w_off p)) (set_res p []) (w_off p) p' Sh) as (A & _ & B); [lia|change (w_cap (set_res p [])) with (w_cap p); lia|exact F|]. split; [exact A|].
  intros v d H. destruct (B v d H) as [[]|(j & _ & e & c & c' & J)]. exists j, e, c, c'. exact J.
Qed.
(** Before a report the structure's edge-triggered state [edge]; what is reported; the state afterwards. *)
Definition tells (dat : Z -> Z) (a : Z) (q : ptr) (p : wpoll) (s' : wst) (v : Z) : Prop := exists i e c c', q = loc i /\ slot (wp s') i = Some e /\ pf_fd e = f_fd (wf s' a) /\ inr (wp s') i /\ cell_get p q = Ok c /\
  v = reported (pf_rev e) (c_edge c) /\ cell_get (wp s') q = Ok c' /\ c_edge c' = masked (pf_rev e) (c_edge c).
Lemma report_tells ids dat fd0 M p f p' a v : inv ids dat fd0 M [] 0 (mk_wst p f) -> 0 <= w_off p <= w_cap p -> fill_results p = Ok p' -> w_cap p' = w_cap p -> In a ids -> (forall b, In b ids -> dat b = dat a -> b = a) -> dat a <> 0 ->
  In (v, dat a) (w_res p') -> exists q, f_pd (f a) = Some q /\ tells dat a q p (mk_wst p' f) v.
Proof.
  intros V Ho F Cp Ha Inj Nz H. assert (Sh : shape p) by apply V. destruct (results_from p p' Sh Ho F) as [Ev B]. destruct (B _ _ H) as (j & e & c & c' & J1 & J2 & J3 & J4 & J5 & J6 & J7 & J8).
  assert (Fe : pf_fd e <> INVALID) by (unfold ready in J4; lia). destruct (v_own _ _ _ _ _ _ _ V j e J2 Fe) as [(b & Hb & Pb)|(k & o & K & _)]; [|apply zget_Some_range in K; rewrite zlen_nil in K; lia]. cbn [wp wf] in *.
  destruct (v_id _ _ _ _ _ _ _ V b Hb) as [_ [[_ D]|[_ (i & I1 & I2 & (e2 & S1 & S2 & _) & (c2 & C1 & C2 & C3 & _))]]]; cbn [wp wf] in *; [congruence|]. assert (i = j) by (apply (loc_inj p); auto; congruence). subst i. assert (c2 = c) by congruence. subst c2. assert (e2 = e) by congruence. subst e2.
  assert (Eb : b = a). { destruct (v_ids _ _ _ _ _ _ _ V) as (_ & Nw & _). unfold wd in C3. destruct (b =? WAKE) eqn:Ew; [congruence|]. destruct Hb as [Hb|Hb]; [lia|]. apply Inj; [exact Hb|congruence]. } subst b.
  exists (loc j). split; [exact Pb|]. exists j, e, c, c'. cbn [wp wf]. split; [reflexivity|]. split; [unfold slot in *; rewrite Ev; exact J2|]. split; [exact S2|]. split; [unfold inr in *; lia|]. split; [apply cell_get_ok; exact J3|]. split; [exact J5|]. split; [apply cell_get_ok; exact J7|exact J8].
Qed.
(** What a step of the poller has reported for [a], and that nothing was forgotten before. *)
Lemma step_tells ids dat fd0 A s c s' a v : okay ids dat fd0 A s -> allowed ids A c -> In a ids -> (forall b, In b ids -> dat b = dat a -> b = a) -> dat a <> 0 ->
  wstep dat s c = Ok (s', Ret (zlen (w_res (wp s')))) -> In (v, dat a) (w_res (wp s')) -> Z.testbit (a_mask A a) 2 = true ->
  exists q p, f_pd (wf s' a) = Some q /\ tells dat a q p s' v /\ (forall q0, f_pd (wf s a) = Some q0 -> q0 = q /\ keep q (wp s) p) /\ a_poll (astep A c (Ret (zlen (w_res (wp s'))))) = false.
Proof.
  intros K Al Ha Inj Nz W H Tb. assert (Pos : 0 < zlen (w_res (wp s'))). { destruct (w_res (wp s')) as [|x l]; [destruct H|]. rewrite zlen_cons. pose proof (zlen_nonneg l). lia. }
  destruct (wstep_ok _ _ _ _ _ _ K Al) as (s1 & r1 & W' & K'). rewrite W in W'. injection W' as <- <-.
  assert (K0 := K). destruct K0 as [G Ho]. assert (V := proj1 G). assert (Pol : a_poll A = w_polling (wp s)) by apply G. assert (Em : a_poll A = false -> w_ops (wp s) = []) by apply G.
  destruct c as [b ev o|b ev o|t|an o|b ev]; cbn [wstep] in W; binv W.
  - exfalso. destruct a0 as [s1 rc]. cbn [fst snd] in W. injection W as <- Rc. unfold win_add in E. destruct (w_polling (wp s)).
    + unfold submit in E. binv E. destruct a0 as [[[? ?] ?]|]; [|injection E as _ <-; lia]. binv E. cbv zeta in E. binv E. injection E as _ <-. destruct (_ && _) in Rc; lia.
    + cbv zeta in E. destruct (f_op (wf s b) =? _); [injection E as _ <-; lia|]. binv E. destruct a0 as [? [[? ?]|]]; [|injection E as _ <-; lia]. repeat binv E. injection E as _ <-. lia.
  - exfalso. destruct a0 as [s1 rc]. cbn [fst snd] in W. injection W as <- Rc. unfold win_del in E. destruct (w_polling (wp s)).
    + unfold submit in E. binv E. destruct a0 as [[[? ?] ?]|]; [|injection E as _ <-; lia]. binv E. cbv zeta in E. binv E. injection E as _ <-. destruct (_ && _) in Rc; lia.
    + cbv zeta in E. destruct (Z.land (f_op (wf s b)) ev =? 0); [injection E as _ <-; lia|]. match type of E with (if ?x then _ else _) = _ => destruct x end; repeat binv E; injection E as _ <-; lia.
  - destruct a0 as [s1 b]. cbn [fst snd] in W. injection W as <- Wb. unfold wait_begin in E. cbv zeta in E. destruct (ev_block_ok _ (v_shape _ _ _ _ _ _ _ V)) as (ev & _ & El & _). rewrite El in E.
    destruct (w_polling (wp s)) eqn:Np; [injection E as <- <-; injection Wb as Wb; lia|]. destruct (w_rem (wp s) >? 0); [|injection E as <- <-; discriminate]. binv E. injection E as <- _. cbn [wp wf] in *.
    rewrite (Em Pol) in V. destruct s as [p f]. cbn [wp wf] in *. destruct (fill_results_same p (v_shape _ _ _ _ _ _ _ V) Ho) as (p' & F1 & F2 & _). rewrite E0 in F1. injection F1 as <-.
    destruct (report_tells _ _ _ _ _ _ _ a v V Ho E0 ltac:(apply F2) Ha Inj Nz H) as (q & Q1 & Q2). exists q, p. split; [exact Q1|]. split; [exact Q2|]. split; [|exact Pol]. intros q0 Q0. split; [congruence|apply keep_refl].
  - destruct a0 as [s1 rc]. cbn [fst snd] in W. injection W as <- Rc. destruct Al as (Ap & Hm & _). unfold wait_end in E. cbv zeta in E. binv E. rename a0 into p1.
    assert (S1 : (forall q, keep q (wp s) p1) /\ same (wp s) p1 /\ queue p1 = queue (wp s)).
    { assert (Sh : shape (wp s)) by apply V. destruct an as [n rv|e]; [|injection E0 as <-; split; [intros q; apply keep_refl|]; split; [apply same_refl; exact Sh|reflexivity]].
      destruct (ev_block_ok _ Sh) as (evb & EB & El & _). rewrite EB in E0. cbn [bind] in E0. pose proof (store_same _ _ rv Sh El) as S1. destruct (n >? 0); [|injection E0 as <-; split; [intros q; apply keep_data; reflexivity|split; [exact S1|reflexivity]]].
      set (p := set_events (wp s) (Live (store evb rv))) in *. assert (S2 : same (wp s) (set_rem p n)) by (apply (same_trans _ p); [exact S1|apply same_fields; auto; apply S1]).
      destruct (event_inner_same (set_rem p n) 0 (proj1 S2)) as (p2 & v2 & X1 & X2 & X3 & _). { destruct (proj1 S2) as (k & _ & Kk & C & _). unfold inr. rewrite C. pose proof (Z.pow_pos_nonneg 2 k ltac:(lia) ltac:(lia)). lia. }
      rewrite X1 in E0. cbn [bind fst] in E0. injection E0 as <-. split; [|split; [apply (same_trans _ (set_rem p n)); assumption|exact X3]]. intros q. apply (keep_trans _ _ (set_rem p n)); [apply keep_data; reflexivity|exact (event_keep _ _ _ _ q X1)]. }
    destruct S1 as (K1 & S1 & Q1). pose proof (queue_good _ _ _ _ _ _ G S1 Q1) as (V1 & _). cbn [wp wf] in V1.
    assert (K2 : keeps a s (mk_wst (set_polling p1 false) (wf s))) by (intros q P; split; [exact P|]; apply (keep_trans _ _ p1); [apply K1|apply keep_data; reflexivity]).
    match type of E with (if ?x then _ else _) = _ => destruct x end; [injection E as _ <-; lia|]. change (w_ops (set_polling p1 false)) with (w_ops p1) in E.
    assert (V0 : inv ids dat fd0 (a_mask A) (w_ops p1) 0 (mk_wst (set_polling p1 false) (wf s))).
    { apply (inv_same _ _ _ _ _ _ (mk_wst p1 (wf s))); [exact V1|]. apply same_fields; auto. apply V1. }
    destruct (process_ok _ _ _ _ o Hm _ _ _ 0 0 V0 eq_refl) as (s2 & P1 & P2 & P3). rewrite P1 in E. cbn [bind] in E. replace (0 =? 0) with true in E by reflexivity. apply inv_nil in P2.
    pose proof (process_keeps _ _ _ _ o a Hm Ha _ _ _ _ _ _ _ V0 eq_refl Tb P1) as K3. binv E. injection E as <- _. cbn [wp wf] in *.
    set (p2 := set_off (set_ops (wp s2) []) 1) in *. assert (Sh2 : shape (wp s2)) by apply P2. assert (S2 : same (wp s2) p2) by (apply same_fields; auto).
    assert (C2 : 16 <= w_cap p2). { destruct (proj1 S2) as (k & _ & Kk & C & _). rewrite C. pose proof (Z.pow_pos_nonneg 2 k ltac:(lia) ltac:(lia)). lia. }
    assert (Ho2 : 0 <= w_off p2 <= w_cap p2) by (change (w_off p2) with 1; lia). destruct (fill_results_same p2 (proj1 S2) Ho2) as (p' & F1 & F2 & _). rewrite E1 in F1. injection F1 as <-.
    destruct (report_tells _ _ _ _ p2 (wf s2) a0 a v (inv_same _ _ _ _ _ _ _ p2 P2 S2) Ho2 E1 ltac:(apply F2) Ha Inj Nz H) as (q & T1 & T2). exists q, p2. split; [exact T1|]. split; [exact T2|].
    split; [|reflexivity]. intros q0 Q0. destruct (keeps_trans _ _ _ _ K2 K3 q0 Q0) as [X Y]. split; [congruence|]. assert (q0 = q) by congruence. subst q0. eapply keep_trans; [exact Y|]. apply keep_data. reflexivity.
  - exfalso. injection W as <- Rc. lia.
Qed.

(** The mode of a structure is in its cell. *)
Lemma mode_of ids dat fd0 A s a q c : okay ids dat fd0 A s -> a_poll A = false -> In a ids -> f_pd (wf s a) = Some q -> cell_get (wp s) q = Ok c -> Z.testbit (c_edge c) 2 = Z.testbit (a_mask A a) 2.
Proof.
  intros [(V & _ & Em & _) _] Ap Ha P G. rewrite (Em Ap) in V. destruct (idle _ _ _ _ _ a V Ha) as (_ & Eo & _). destruct (v_id _ _ _ _ _ _ _ V a (or_intror Ha)) as [_ [[_ D]|[_ (i & I1 & I2 & _ & (cc & Cc & _ & _ & C4))]]]; [congruence|].
  assert (q = loc i) by congruence. subst q. rewrite (cell_get_ok _ _ _ Cc) in G. injection G as <-. congruence.
Qed.
Lemma legal_app dat ids l1 : forall A s l2 s' r, legal dat ids A s (l1 ++ l2) -> wrun dat s l1 = Ok (s', r) -> legal dat ids A s l1 /\ legal dat ids (aruns A l1 r) s' l2.
Proof.
  induction l1 as [|c l1 IH]; intros A s l2 s' r Lg W; cbn [app legal wrun aruns] in *.
  - injection W as <- <-. auto.
  - destruct Lg as [Al Lg]. binv W. destruct a as [s1 r1]. cbn [fst snd] in W. binv W. destruct a as [s2 r2]. cbn [fst snd] in W. injection W as <- <-. destruct (IH _ _ _ _ _ (Lg _ _ eq_refl) E0) as [L1 L2]. split; [|exact L2]. split; [exact Al|].
    intros s'' r'' X. injection X as <- <-. exact L1.
Qed.
Lemma quiet_app dat a l1 : forall A s l2 s' r, quiet dat a A s (l1 ++ l2) -> wrun dat s l1 = Ok (s', r) -> quiet dat a A s l1 /\ quiet dat a (aruns A l1 r) s' l2.
Proof.
  induction l1 as [|c l1 IH]; intros A s l2 s' r Q W; cbn [app wrun aruns] in *.
  - injection W as <- <-. split; [|exact Q]. split; [destruct l2; apply Q|exact I].
  - destruct Q as (T & Nb & Q). binv W. destruct a0 as [s1 r1]. cbn [fst snd] in W. binv W. destruct a0 as [s2 r2]. cbn [fst snd] in W. injection W as <- <-. destruct (IH _ _ _ _ _ (Q _ _ eq_refl) E0) as [L1 L2]. split; [|exact L2]. split; [exact T|]. split; [exact Nb|].
    intros s'' r'' X. rewrite E in X. injection X as <- <-. exact L1.
Qed.
Lemma told_once ids dat fd0 A s c1 t1 l2 s2 r2 c2 t2 a v1 v2 : okay ids dat fd0 A s -> legal dat ids A s (c1 :: l2 ++ [c2]) -> In a ids -> (forall b, In b ids -> dat b = dat a -> b = a) -> dat a <> 0 ->
  wstep dat s c1 = Ok (t1, Ret (zlen (w_res (wp t1)))) -> In (v1, dat a) (w_res (wp t1)) -> unbroken (fd0 a) t1 ->
  wrun dat t1 l2 = Ok (s2, r2) -> wstep dat s2 c2 = Ok (t2, Ret (zlen (w_res (wp t2)))) -> In (v2, dat a) (w_res (wp t2)) -> unbroken (fd0 a) t2 ->
  quiet dat a (astep A c1 (Ret (zlen (w_res (wp t1))))) t1 (l2 ++ [c2]) -> Z.testbit (a_mask A a) 2 = true -> Z.land v1 v2 = 0.
Proof.
  intros K [Al Lg] Ha Inj Nz W1 H1 U1 W2 W3 H2 U2 Q T0. specialize (Lg _ _ W1). destruct (wstep_ok _ _ _ _ _ _ K Al) as (t1' & x1 & W1' & K1). rewrite W1 in W1'. injection W1' as <- <-.
  destruct (legal_app _ _ _ _ _ _ _ _ Lg W2) as [Lg2 [Al2 _]]. destruct (quiet_app _ _ _ _ _ _ _ _ Q W2) as [Q2 Q3]. destruct (wrun_ok _ _ _ _ _ _ K1 Lg2) as (s2' & r2' & W2' & K2). rewrite W2 in W2'. injection W2' as <- <-.
  destruct (wstep_ok _ _ _ _ _ _ K2 Al2) as (t2' & x2 & W3' & K3). rewrite W3 in W3'. injection W3' as <- <-.
  destruct Q3 as (T2 & _ & Q3). specialize (Q3 _ _ W3). destruct Q3 as [T3 _].
  destruct (step_tells _ _ _ _ _ _ _ a v1 K Al Ha Inj Nz W1 H1 T0) as (q & p & P1 & (i & e & c & c' & -> & S1 & F1 & I1 & G1 & E1 & G1' & M1) & _ & Ap1).
  destruct (step_tells _ _ _ _ _ _ _ a v2 K2 Al2 Ha Inj Nz W3 H2 T2) as (q2 & p2 & P2 & (i2 & e2 & d & d' & -> & S2 & F2 & I2 & G2 & E2 & G2' & M2) & Kp & Ap2).
  assert (T1 : Z.testbit (a_mask (astep A c1 (Ret (zlen (w_res (wp t1))))) a) 2 = true) by (destruct l2; apply Q).
  pose proof (mode_of _ _ _ _ _ a _ _ K1 Ap1 Ha P1 G1') as Mo1. pose proof (mode_of _ _ _ _ _ a _ _ K3 Ap2 Ha P2 G2') as Mo2. rewrite T1, M1, masked_bit in Mo1. rewrite T3, M2, masked_bit in Mo2.
  destruct (wrun_keeps _ _ _ _ _ Ha _ _ _ _ K1 Lg2 Q2 W2 _ P1) as [P3 Kp1]. destruct (Kp _ P3) as [Eq Kp2]. destruct (Kp1 _ G1') as (x & X1 & X2). rewrite Eq in X1. destruct (Kp2 _ X1) as (y & Y1 & Y2). rewrite G2 in Y1. injection Y1 as <-.
  assert (Unb : forall t j f, okay ids dat fd0 (astep A c1 (Ret (zlen (w_res (wp t1))))) t \/ okay ids dat fd0 (astep (aruns (astep A c1 (Ret (zlen (w_res (wp t1))))) l2 r2) c2 (Ret (zlen (w_res (wp t2))))) t -> unbroken (fd0 a) t -> inr (wp t) j -> slot (wp t) j = Some f -> pf_fd f = f_fd (wf t a) -> Z.land (pf_rev f) (Z.lor WPOLLHUP WPOLLERR) = 0).
  { intros t j f Kt U Rj Sj Fj. assert (V : exists M L, inv ids dat fd0 M L 0 t) by (destruct Kt as [[[V _] _]|[[V _] _]]; eauto). destruct V as (M & L & V). assert (Sh : shape (wp t)) by apply V. destruct (cel_in _ _ Sh Rj) as [cc Cj].
    apply (U j f cc); [apply at_val; auto|]. rewrite Fj. apply (v_fd _ _ _ _ _ _ _ V a (or_intror Ha)). }
  pose proof (Unb t1 i e (or_introl K1) U1 I1 S1 F1) as B1. pose proof (Unb t2 i2 e2 (or_intror K3) U2 I2 S2 F2) as B2.
  unfold reported in E1, E2. rewrite B1, Mo1 in E1. rewrite B2, Mo2 in E2. cbn [Z.eqb negb] in E1, E2. unfold masked in M1. rewrite Mo1 in M1. rewrite E1, E2. rewrite M1 in X2.
  apply Z.bits_inj'. intros n Hn. rewrite Z.land_spec, !Z.ldiff_spec, Z.bits_0. assert (X := f_equal (fun z => Z.testbit z n) X2). assert (Y := f_equal (fun z => Z.testbit z n) Y2). cbn beta in X, Y. rewrite Z.ldiff_spec, Z.bits_0 in Y. rewrite Z.ldiff_spec, Z.lor_spec, Z.bits_0 in X.
  destruct (Z.testbit (rbits (pf_rev e)) n), (Z.testbit (c_edge c) n), (Z.testbit (c_edge x) n), (Z.testbit (c_edge d) n), (Z.testbit (rbits (pf_rev e2)) n); cbn in *; congruence.
Qed.
