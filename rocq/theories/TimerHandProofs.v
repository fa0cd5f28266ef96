(** Proofs about the hand of the wheel. *)
From Verif Require Import Base Num TimerModel TimerSpec TimerProofs TimerHandSpec.
From Coq Require Import ZifyBool.

(** Events of calls made while the head is [h]; timers fire in the wheels [S]. *)
Definition ev (h : Z) (S : Z -> Prop) (e : event) : Prop :=
  match e with
  | EAdd to _ _ id => id = INVALID \/ idp id = (to / 16 + h) mod 16
  | ECancel _ => True
  | EFire id _ _ _ => S (idp id)
  | _ => False
  end.
Lemma ev_mono h (S S' : Z -> Prop) tr : (forall q, S q -> S' q) -> Forall (ev h S) tr -> Forall (ev h S') tr.
Proof. intro H. apply Forall_impl. intros []; cbn; auto. Qed.

Lemma op_ev S oom w p o w' tr : winv oom w p -> op_ok oom o -> do_op w o = Ok (w', tr) -> Forall (ev (head (wt w)) S) tr.
Proof.
  intros [I Hi Hs] Ho E. destruct o as [timeout ty d ok|k]; cbn [do_op op_ok] in *.
  - destruct Ho as [Ho Hok]. destruct (add_ok (wt w) p timeout ty d ok I Ho) as [[A Hwhy]|(t' & s & A & V & _)]; rewrite A in E; cbn [bind] in E;
      injection E as <- <-; (apply Forall_cons; [cbn [ev]|apply Forall_nil]); [auto|]. right. apply idp_of. apply Z.mod_pos_bound. lia.
  - destruct (nth_error (ids w) k) as [id|] eqn:En; [|injection E as <- <-; constructor].
    destruct (timer_cancel (wt w) id) as [[t' ?]| |]; cbn [bind] in E; [|discriminate..]. injection E as <- <-. constructor; constructor.
Qed.
Lemma ops_ev S oom os : forall w p w' tr, winv oom w p -> Forall (op_ok oom) os -> do_ops w os = Ok (w', tr) -> Forall (ev (head (wt w)) S) tr.
Proof.
  induction os as [|o os IH]; intros w p w' tr W Ho E; cbn [do_ops] in E; [injection E as <- <-; constructor|].
  inversion Ho as [|? ? Ho1 Ho2]; subst.
  destruct (do_op_ok oom w p o W Ho1) as (w1 & p1 & (tr1 & E1 & W1 & T1 & H1 & _) & _).
  pose proof (op_ev S _ _ _ _ _ _ W Ho1 E1) as F1. rewrite E1 in E. cbn [bind] in E.
  destruct (do_ops w1 os) as [[w2 tr2]| |] eqn:E2; cbn [bind] in E; [|discriminate..]. injection E as <- <-.
  apply Forall_app. split; [exact F1|]. rewrite <- H1. eapply IH; eauto.
Qed.
Lemma callback_ev S oom w p w' tr : winv oom w p -> callback w = Ok (w', tr) -> Forall (ev (head (wt w)) S) tr.
Proof.
  intros W E. unfold callback in E. pose proof W as [I Hi Hs]. destruct (script w) as [|os rest]; [injection E as <- <-; constructor|].
  inversion Hs; subst. change (head (wt w)) with (head (wt (mk_world (wt w) (ids w) rest))). eapply (ops_ev S oom os _ p); [constructor; auto|assumption|exact E].
Qed.

Lemma quiet_app id a b : quiet id (a ++ b) -> quiet id a /\ quiet id b.
Proof. intro H. split; intros e He; apply (H e), in_or_app; auto. Qed.

Lemma scan_ev oom : forall n w p hd i w' tr,
  winv oom w p -> 0 <= hd < 16 -> 0 <= i -> i + Z.of_nat n <= wheel (wt w) ->
  scan n w hd (wheel (wt w) * hd) i = Ok (w', tr) ->
  Forall (ev (head (wt w)) (eq hd)) tr /\
  (forall id dl ty d, In (id, (dl, ty, d)) p -> quiet id tr -> idp id = hd -> i <= ids_ id < i + Z.of_nat n -> ts (wt w) < u64 dl).
Proof.
  induction n as [|n IH]; intros w p hd i w' tr W Hhd Hi Hn E; cbn [scan] in E.
  - injection E as <- <-. split; [constructor|]. intros. lia.
  - pose proof W as [I Hids Hs]. pose proof (i_shape _ _ I) as S. pose proof S as [Hts Hhh Hw Hl].
    assert (V : valid_id (wt w) (id_of hd i)) by (split; [rewrite idp_of|rewrite ids_of]; lia).
    pose proof (idx_range _ _ S V) as Hr. rewrite idp_of, ids_of in Hr by lia.
    destruct (at_id_some _ _ S V) as ([[to ty] d] & Ha). unfold at_id in Ha. rewrite idp_of, ids_of in Ha by lia.
    rewrite (Z.mul_comm (wheel (wt w)) hd) in E. rewrite u32_small in E by lia.
    rewrite (zload_ok _ _ _ Ha) in E. cbn [bind] in E.
    assert (Hlook : look (wt w) (id_of hd i) = if to =? INVALID then None else Some (to, ty, d)).
    { rewrite look_at by exact V. unfold at_id. now rewrite idp_of, ids_of, Ha by lia. }
    assert (Hhere : forall id dl ty' d', In (id, (dl, ty', d')) p -> idp id = hd -> ids_ id = i -> id = id_of hd i /\ to = u64 dl).
    { intros id dl ty' d' Hin H1 H2. assert (Hid : id = id_of hd i) by (rewrite <- (of_id id), H1, H2; reflexivity).
      split; [exact Hid|]. apply (i_in _ _ I) in Hin as (Hx & _). rewrite Hid, Hlook in Hx.
      destruct (to =? INVALID); [discriminate|]. congruence. }
    destruct (Z.leb_spec to (ts (wt w))) as [Hle|Hgt].
    + rewrite zput_ok in E by lia. cbn [bind] in E.
      set (w1 := mk_world (mk_timer (ts (wt w)) (head (wt w)) (wheel (wt w))
                   (zset (slots (wt w)) (hd * wheel (wt w) + i) (INVALID, ty, d))) (ids w) (script w)) in E.
      assert (W1 : winv oom w1 (remove_id (id_of hd i) p)).
      { constructor; cbn [w1 wt ids script]; auto.
        pose proof (inv_remove (wt w) p (id_of hd i) INVALID ty d I V eq_refl) as I1.
        unfold upd in I1. now rewrite idp_of, ids_of in I1 by lia. }
      destruct (callback_ok oom w1 _ W1) as (w2 & p2 & (tr1 & E1 & W2 & T2 & H2 & L2 & R2 & F2)).
      pose proof (callback_ev (eq hd) oom w1 _ _ _ W1 E1) as C1.
      rewrite E1 in E. cbn [bind] in E. cbv zeta in E. rewrite id_lor in E by lia. cbn [w1 wt ts head wheel] in T2, H2, L2, R2, C1.
      pose proof (i_shape _ _ (wi _ _ _ W2)) as [Hts2 Hhh2 Hw2 Hl2].
      rewrite (u32_small (wheel (wt w2) * hd)) in E by nia.
      destruct (scan n w2 hd (wheel (wt w2) * hd) (i + 1)) as [[w3 tr2]| |] eqn:E3; cbn [bind] in E; [|discriminate..].
      injection E as <- <-.
      destruct (IH w2 p2 hd (i + 1) w3 tr2 W2 Hhd) as [C3 D3]; [lia|lia|exact E3|].
      rewrite H2 in C3. rewrite T2 in D3. split.
      * constructor; [unfold ev; symmetry; apply idp_of; lia|]. apply Forall_app. auto.
      * intros id dl ty' d' Hin Hq Hp Hr'. apply quiet_cons in Hq as [Hq1 Hq2]. apply quiet_app in Hq2 as [Hq2 Hq3].
        assert (Hd : ids_ id <> i) by (intro He; destruct (Hhere _ _ _ _ Hin Hp He); congruence).
        apply (D3 id dl ty' d'); auto; [|lia].
        assert (Hin1 : In (id, (dl, ty', d')) (remove_id (id_of hd i) p)) by (apply in_remove; split; [exact Hin|congruence]).
        exact (quiet_keeps _ _ _ _ _ _ _ (R2 slack_any 0) Hq2 Hin1).
    + rewrite (Z.mul_comm hd (wheel (wt w))) in E.
      destruct (IH w p hd (i + 1) w' tr W Hhd) as [C3 D3]; [lia|lia|exact E|]. split; [exact C3|].
      intros id dl ty' d' Hin Hq Hp Hr'. destruct (Z.eq_dec (ids_ id) i) as [He|He].
      * destruct (Hhere _ _ _ _ Hin Hp He) as [_ <-]. exact Hgt.
      * apply (D3 id dl ty' d'); auto. lia.
Qed.

(** The scan of a wheel in terms of worlds, without a condition on what is pending. *)
Lemma scan_any oom w p hd : winv oom w p -> 0 <= hd < 16 ->
  exists w' p' tr, scan (Z.to_nat (wheel (wt w))) w hd (wheel (wt w) * hd) 0 = Ok (w', tr) /\ winv oom w' p' /\
    ts (wt w') = ts (wt w) /\ head (wt w') = head (wt w) /\
    (forall slack g, rules slack oom (mk_view (ts (wt w)) g p) tr (mk_view (ts (wt w)) g p')).
Proof.
  intros W Hhd. pose proof (i_shape _ _ (wi _ _ _ W)) as [Hts Hhh Hw Hl].
  destruct (scan_ok oom (ts (wt w)) (head (wt w)) (fun _ _ => True) (fun _ _ => True)) with
    (n := Z.to_nat (wheel (wt w))) (w := w) (p := p) (hd := hd) (i := 0) (rest := fun _ : Z => True)
    as (w' & p' & tr & E & W' & T' & H' & _ & R' & _); auto; try lia.
  { intros id dl ty d _. auto. }
  exists w', p', tr. auto.
Qed.

Lemma turn_ev oom : forall n w p hd w' tr,
  winv oom w p -> 0 <= hd < 16 -> turn n w hd = Ok (w', tr) ->
  Forall (ev (head (wt w)) (fun q => exists j, 0 <= j < Z.of_nat n /\ q = (hd + j) mod 16)) tr /\
  (forall id dl ty d, In (id, (dl, ty, d)) p -> quiet id tr -> (exists j, 0 <= j < Z.of_nat n /\ idp id = (hd + j) mod 16) -> ts (wt w) < u64 dl).
Proof.
  induction n as [|n IH]; intros w p hd w' tr W Hhd E; cbn [turn] in E.
  - injection E as <- <-. split; [constructor|]. intros id dl ty d _ _ (j & Hj & _). lia.
  - pose proof (i_shape _ _ (wi _ _ _ W)) as [Hts Hhh Hw Hl].
    rewrite (u32_small (wheel (wt w) * hd)) in E by nia.
    destruct (scan_any oom w p hd W Hhd) as (w1 & p1 & tr1 & E1 & W1 & T1 & H1 & R1).
    destruct (scan_ev oom (Z.to_nat (wheel (wt w))) w p hd 0 w1 tr1 W Hhd) as [C1 D1]; [lia|lia|exact E1|].
    rewrite E1 in E. cbn [bind] in E. unfold WHEELS in E. change (16 - 1) with 15 in E. rewrite land15 in E by lia.
    destruct (turn n w1 ((hd + 1) mod 16)) as [[w2 tr2]| |] eqn:E2; cbn [bind] in E; [|discriminate..]. injection E as <- <-.
    destruct (IH w1 p1 ((hd + 1) mod 16) w2 tr2 W1) as [C2 D2]; [apply Z.mod_pos_bound; lia|exact E2|].
    rewrite H1 in C2. rewrite T1 in D2. split.
    + apply Forall_app. split; [eapply ev_mono; [|exact C1]|eapply ev_mono; [|exact C2]].
      * intros q <-. exists 0. rewrite Z.add_0_r, Z.mod_small by lia. lia.
      * intros q (j & Hj & ->). exists (j + 1). split; [lia|]. rewrite Zplus_mod_idemp_l. f_equal. lia.
    + intros id dl ty d Hin Hq (j & Hj & HE). apply quiet_app in Hq as [Hq1 Hq2].
      destruct (Z.eq_dec j 0) as [->|Hj0].
      * apply (D1 id dl ty d); auto; [rewrite HE, Z.add_0_r; apply Z.mod_small; lia|].
        apply (i_in _ _ (wi _ _ _ W)) in Hin as [Hin _]. apply look_valid in Hin as [_ Hv]. lia.
      * apply (D2 id dl ty d); auto.
        { exact (quiet_keeps _ _ _ _ _ _ _ (R1 slack_any 0) Hq1 Hin). }
        exists (j - 1). split; [lia|]. rewrite HE, Zplus_mod_idemp_l. f_equal. lia.
Qed.

(** A poll. *)
Lemma poll_ev oom w p now : winv oom w p -> ts (wt w) <= now < INVALID ->
  exists w' p' mid ret, timer_timeout w now = Ok (w', EPoll now :: mid ++ [EDone now ret]) /\ winv oom w' p' /\
    (ts (wt w'), head (wt w')) = hand_step (ts (wt w), head (wt w)) (EPoll now) /\
    Forall (ev (head (wt w')) (fun q => (q - head (wt w)) mod 16 < passed (now - ts (wt w)))) mid /\
    (forall id dl ty d, In (id, (dl, ty, d)) p -> quiet id mid -> (idp id - head (wt w)) mod 16 < passed (now - ts (wt w)) -> now < u64 dl).
Proof.
  intros W Hn. pose proof (i_shape _ _ (wi _ _ _ W)) as [Hts Hhh Hw Hl].
  destruct (Z.lt_ge_cases (now - ts (wt w)) 16) as [Hs|Hg].
  - destruct (poll_short oom w p now W) as (tr & E & _); [lia|lia|].
    assert (Hz : (now - ts (wt w)) / 16 = 0) by (apply Z.div_small; lia).
    exists w, p, []. pose proof E as E'. unfold timer_timeout in E'. cbv zeta in E'.
    rewrite (u64_small (now - ts (wt w))) in E' by (unfold INVALID in *; lia).
    unfold TICK at 1 2 in E'. rewrite Hz in E'. change (u32 (if 0 <? WHEELS then 0 else WHEELS) =? 0) with true in E'.
    cbv iota in E'. injection E' as <-. eexists. split; [exact E|]. split; [exact W|].
    cbn [hand_step fst snd]. unfold passed. rewrite Hz. change (Z.min 0 16) with 0. split; [|split; [constructor|]].
    + replace (now - ts (wt w) <? 16) with true by lia. f_equal. rewrite Z.add_0_r. symmetry. now apply Z.mod_small.
    + intros id dl ty d _ _ H. pose proof (Z.mod_pos_bound (idp id - head (wt w)) 16). lia.
  - set (n := passed (now - ts (wt w))). pose proof W as W0.
    destruct (poll_long oom w p now (fun _ _ => True) (fun _ _ => True) W) as (w' & p' & tr & E & W' & T' & H' & _); auto.
    change (Z.min ((now - ts (wt w)) / 16) 16) with n in H'.
    assert (Hd : 1 <= (now - ts (wt w)) / 16) by (apply Z.div_le_lower_bound; lia).
    assert (Hnr : 1 <= n <= 16) by (unfold n, passed; lia).
    pose proof E as E'. unfold timer_timeout in E'. cbv zeta in E'. rewrite (u64_small (now - ts (wt w))) in E' by (unfold INVALID in *; lia).
    assert (Hwh : u32 (if (now - ts (wt w)) / TICK <? WHEELS then (now - ts (wt w)) / TICK else WHEELS) = n).
    { unfold n, passed, TICK, WHEELS. destruct (Z.ltb_spec ((now - ts (wt w)) / 16) 16); rewrite u32_small; lia. }
    rewrite Hwh in E'. replace (n =? 0) with false in E' by lia.
    rewrite (u32_small (head (wt w) + n)) in E' by lia. unfold WHEELS in E'. change (16 - 1) with 15 in E'. rewrite land15 in E' by lia.
    set (w1 := mk_world (mk_timer now ((head (wt w) + n) mod 16) (wheel (wt w)) (slots (wt w))) (ids w) (script w)) in E'.
    assert (W1 : winv oom w1 p).
    { destruct W as [[S N A L] Hi Hs]. constructor; cbn [w1 wt ids script]; auto.
      constructor; auto. constructor; cbn [ts head wheel slots]; auto; [lia|]. apply Z.mod_pos_bound. lia. }
    destruct (turn (Z.to_nat n) w1 (head (wt w))) as [[w2 mid]| |] eqn:Et; cbn [bind] in E'; [|discriminate..].
    injection E' as -> <-. destruct (turn_ev oom (Z.to_nat n) w1 p (head (wt w)) w' mid W1 Hhh Et) as [C D]. cbn [w1 wt ts head] in C, D.
    exists w', p', mid. eexists. split; [exact E|]. split; [exact W'|]. cbn [hand_step fst snd].
    replace (now - ts (wt w) <? 16) with false by lia. fold n. rewrite T', H'. split; [reflexivity|]. split.
    + eapply ev_mono; [|exact C]. intros q (j & Hj & ->). rewrite Zminus_mod_idemp_l.
      replace (head (wt w) + j - head (wt w)) with j by lia. rewrite Z.mod_small; lia.
    + intros id dl ty d Hin Hq Hlt. apply (D id dl ty d); auto.
      pose proof (Z.mod_pos_bound (idp id - head (wt w)) 16).
      exists ((idp id - head (wt w)) mod 16). split; [lia|]. rewrite Zplus_mod_idemp_r.
      replace (head (wt w) + (idp id - head (wt w))) with (idp id) by lia.
      apply (i_in _ _ (wi _ _ _ W0)) in Hin as [Hin _]. apply look_valid in Hin as [Hv _]. symmetry. now apply Z.mod_small.
Qed.

(** ** Whole programs *)
Fixpoint checks (s : Z * Z) (tr : list event) : Prop :=
  match tr with
  | [] => True
  | e :: r => match e with EAdd to _ _ id => id = INVALID \/ idp id = (to / 16 + snd s) mod 16 | _ => True end /\ checks (hand_step s e) r
  end.
Lemma checks_app a b : forall s, checks s (a ++ b) <-> checks s a /\ checks (fold_left hand_step a s) b.
Proof. induction a as [|e a IH]; intros s; cbn [app checks fold_left]; [tauto|]. rewrite IH. tauto. Qed.
Lemma ev_checks s S tr : Forall (ev (snd s) S) tr -> checks s tr /\ fold_left hand_step tr s = s.
Proof. induction 1 as [|e tr He _ IH]; [split; [exact I|reflexivity]|]. destruct e; cbn in He |- *; try contradiction; tauto. Qed.
Lemma ev_noPoll h S tr now : Forall (ev h S) tr -> ~ In (EPoll now) tr.
Proof. rewrite Forall_forall. intros H Hi. exact (H _ Hi). Qed.

Lemma tops_hand oom : forall os w p last, winv oom w p -> ts (wt w) <= last -> tops_ok oom last os ->
  exists w' p' tr, do_tops w os = Ok (w', tr) /\ winv oom w' p' /\ ts (wt w') <= clock last tr /\
    checks (ts (wt w), head (wt w)) tr /\
    fold_left hand_step tr (ts (wt w), head (wt w)) = (ts (wt w'), head (wt w')).
Proof.
  induction os as [|o os IH]; intros w p last W Hl Ho; cbn [do_tops].
  - exists w, p, []. cbn. auto 6.
  - destruct o as [o|now|]; cbn [tops_ok do_top] in *.
    + destruct Ho as [Ho1 Ho2].
      destruct (do_op_ok oom w p o W Ho1) as (w1 & p1 & (tr1 & E1 & W1 & T1 & H1 & _) & _).
      pose proof (op_ev (fun _ => False) _ _ _ _ _ _ W Ho1 E1) as F1.
      destruct (IH w1 p1 last W1) as (w2 & p2 & tr2 & E2 & W2 & L2 & C2 & D2); [lia|exact Ho2|].
      rewrite E1. cbn [bind]. rewrite E2. cbn [bind]. exists w2, p2, (tr1 ++ tr2). split; [reflexivity|]. split; [exact W2|].
      destruct (ev_checks (ts (wt w), head (wt w)) _ tr1 F1) as [C1 D1].
      rewrite checks_app, fold_left_app, D1. unfold clock. rewrite fold_left_app. fold (clock last tr1).
      rewrite (clock_noPoll last tr1) by (intros x; eapply ev_noPoll; eauto). rewrite T1, H1 in *. auto.
    + destruct Ho as [Ho1 Ho2].
      destruct (poll_ev oom w p now W) as (w1 & p1 & mid & ret & E1 & W1 & H1 & F1 & _); [lia|].
      pose proof H1 as H1'. cbn [hand_step fst snd] in H1'. injection H1' as T1 _.
      destruct (IH w1 p1 now W1) as (w2 & p2 & tr2 & E2 & W2 & L2 & C2 & D2); [rewrite T1; destruct (_ <? _); lia|exact Ho2|].
      rewrite E1. cbn [bind]. rewrite E2. cbn [bind]. exists w2, p2. eexists. split; [reflexivity|]. split; [exact W2|].
      change (EPoll now :: mid ++ [EDone now ret]) with ([EPoll now] ++ mid ++ [EDone now ret]). rewrite <- !app_assoc.
      cbn [app checks fold_left]. unfold clock. cbn [fold_left]. rewrite <- H1.
      destruct (ev_checks (ts (wt w1), head (wt w1)) _ mid F1) as [C1 D1].
      rewrite checks_app, !fold_left_app, D1. cbn [checks fold_left hand_step].
      change (fold_left (fun c e => match e with EPoll now => now | _ => c end) mid now) with (clock now mid).
      rewrite (clock_noPoll now mid) by (intros x; eapply ev_noPoll; eauto). auto 10.
    + destruct (IH (mk_world (timer_clear (wt w)) (ids w) (script w)) [] last) as (w2 & p2 & tr2 & E2 & W2 & L2 & C2 & D2); auto.
      { destruct W as [I Hi Hs]. constructor; cbn [wt ids script]; auto. eapply clear_ok; eauto. }
      cbn [bind]. rewrite E2. cbn [bind]. exists w2, p2. eexists. split; [reflexivity|]. split; [exact W2|].
      cbn [app checks fold_left hand_step fst snd]. cbn [wt] in C2, D2. auto.
Qed.

(** The trace of a program is cut before a poll where the program is. *)
Lemma app_cut {A} (P : A -> Prop) (x : A) (t1 t2 pre post : list A) : P x -> Forall (fun e => ~ P e) t1 ->
  t1 ++ t2 = pre ++ x :: post -> exists pre', pre = t1 ++ pre' /\ t2 = pre' ++ x :: post.
Proof.
  intros Hx. revert pre. induction t1 as [|e t1 IH]; intros pre Hf E; [exists pre; auto|].
  inversion Hf; subst. destruct pre as [|e' pre]; cbn in E; injection E as -> E; [contradiction|].
  destruct (IH pre) as (pre' & -> & ->); auto. exists pre'. auto.
Qed.
Definition is_poll (e : event) : Prop := match e with EPoll _ => True | _ => False end.
Lemma ev_notpoll h S tr : Forall (ev h S) tr -> Forall (fun e => ~ is_poll e) tr.
Proof. apply Forall_impl. intros []; cbn; auto. Qed.

Lemma tops_cut oom : forall os w p last w' pre now post, winv oom w p -> ts (wt w) <= last -> tops_ok oom last os ->
  do_tops w os = Ok (w', pre ++ EPoll now :: post) ->
  exists os1 os2 w1 w2 mid rest, os = os1 ++ TPoll now :: os2 /\ do_tops w os1 = Ok (w1, pre) /\
    timer_timeout w1 now = Ok (w2, EPoll now :: mid) /\ do_tops w2 os2 = Ok (w', rest) /\ post = mid ++ rest /\
    ts (wt w1) <= now < INVALID.
Proof.
  induction os as [|o os IH]; intros w p last w' pre now post W Hl Ho E; cbn [do_tops] in E.
  - injection E as _ E. destruct pre; discriminate.
  - destruct o as [o|now'|]; cbn [tops_ok do_top] in *.
    + destruct Ho as [Ho1 Ho2].
      destruct (do_op_ok oom w p o W Ho1) as (w1 & p1 & (tr1 & E1 & W1 & T1 & H1 & _) & _).
      pose proof (op_ev (fun _ => False) _ _ _ _ _ _ W Ho1 E1) as F1. rewrite E1 in E. cbn [bind] in E.
      destruct (do_tops w1 os) as [[w2 tr2]| |] eqn:E2; cbn [bind] in E; [|discriminate..]. injection E as -> E.
      apply (app_cut is_poll) in E as (pre' & -> & ->); [|exact I|eapply ev_notpoll; eauto].
      destruct (IH w1 p1 last w' pre' now post W1) as (os1 & os2 & w3 & w4 & mid & rest & -> & A & B & C & -> & Q); auto; [lia|].
      exists (TOp o :: os1), os2, w3, w4, mid, rest. split; [reflexivity|]. cbn [do_tops do_top]. rewrite E1. cbn [bind]. rewrite A. auto 6.
    + destruct Ho as [Ho1 Ho2].
      destruct (poll_ev oom w p now' W) as (w1 & p1 & mid & ret & E1 & W1 & H1 & F1 & _); [lia|].
      pose proof H1 as H1'. cbn [hand_step fst snd] in H1'. injection H1' as T1 _.
      rewrite E1 in E. cbn [bind] in E.
      destruct (do_tops w1 os) as [[w2 tr2]| |] eqn:E2; cbn [bind] in E; [|discriminate..]. injection E as -> E.
      destruct pre as [|e pre].
      * cbn [app] in E. injection E as -> <-. exists [], os, w, w1, (mid ++ [EDone now ret]), tr2. cbn [do_tops app]. repeat (split; [first [reflexivity|assumption]|]). lia.
      * cbn [app] in E. injection E as <- E.
        apply (app_cut is_poll) in E as (pre' & -> & ->); [|exact I|apply Forall_app; split; [eapply ev_notpoll; eauto|constructor; [intros []|constructor]]].
        destruct (IH w1 p1 now' w' pre' now post W1) as (os1 & os2 & w3 & w4 & mid' & rest & -> & A & B & C & -> & Q); auto;
          [rewrite T1; destruct (_ <? _); lia|].
        exists (TPoll now' :: os1), os2, w3, w4, mid', rest. split; [reflexivity|]. cbn [do_tops do_top]. rewrite E1. cbn [bind]. rewrite A. auto 6.
    + cbn [bind] in E.
      destruct (do_tops (mk_world (timer_clear (wt w)) (ids w) (script w)) os) as [[w2 tr2]| |] eqn:E2; cbn [bind] in E; [|discriminate..].
      injection E as -> E. destruct pre as [|e pre]; cbn [app] in E; [discriminate|]. injection E as <- E. rewrite E in E2.
      destruct (IH (mk_world (timer_clear (wt w)) (ids w) (script w)) [] last w' pre now post) as (os1 & os2 & w3 & w4 & mid' & rest & -> & A & B & C & -> & Q); [|exact Hl|exact Ho|exact E2|].
      { destruct W as [I Hi Hs]. constructor; cbn [wt ids script]; auto. eapply clear_ok; eauto. }
      exists (TClear :: os1), os2, w3, w4, mid', rest. split; [reflexivity|]. cbn [do_tops do_top bind]. rewrite A. auto 6.
Qed.
Lemma tops_ok_app oom os1 : forall last os2, tops_ok oom last (os1 ++ os2) -> tops_ok oom last os1.
Proof. induction os1 as [|[o|now|] os1 IH]; intros last os2 H; cbn in *; [exact I|destruct H; eauto..|eauto]. Qed.
