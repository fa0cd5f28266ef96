(** Property C150: timer callbacks that call the timer. *)
From Verif Require Import Base TimerModel TimerSpec TimerProofs TimerProps TimerNestModel.
From Coq Require Import ZifyBool.

(** The trace without the returns of sc_timer_timeout. *)
Definition calls (tr : list event) : list event := filter (fun e => match e with EDone _ _ => false | _ => true end) tr.
(** Programs and callbacks that do not terminate the timer; the time that passes in them. *)
Definition nop_ok (oom : bool) (o : nop) : Prop := match o with NOp o => op_ok oom o | NPoll dt => 0 <= dt | NClear => True | NTerm => False end.
Definition takes (os : list nop) : Z := fold_right (fun o n => match o with NPoll dt => dt + n | _ => n end) 0 os.
Definition all_takes (scr : list (list nop)) : Z := fold_right (fun os n => takes os + n) 0 scr.

Lemma takes_nonneg oom os : Forall (nop_ok oom) os -> 0 <= takes os.
Proof. induction 1 as [|o os H _ IH]; cbn; [lia|]. destruct o; cbn in H; fold (takes os); lia. Qed.
Lemma all_takes_nonneg oom scr : Forall (Forall (nop_ok oom)) scr -> 0 <= all_takes scr.
Proof. induction 1 as [|os scr H _ IH]; cbn; [lia|]. fold (all_takes scr). apply takes_nonneg in H. lia. Qed.
Lemma calls_app a b : calls (a ++ b) = calls a ++ calls b.
Proof. apply filter_app. Qed.

Record ninv (oom : bool) (w : nworld) (p : pending) : Prop := mk_ninv {
  n_inv : inv (nt w) p; n_ids : Forall (fun id => id = INVALID \/ valid_id (nt w) id) (nids w);
  n_script : Forall (Forall (nop_ok oom)) (nscript w); n_clk : ts (nt w) <= nclk w < ts (nt w) + 16 }.
(** All pending timers are at most so late, but those of [E]. *)
Definition cov (E : Z -> Prop) (t : timer) (p : pending) : Prop :=
  forall id dl ty d, In (id, (dl, ty, d)) p -> late (ts t) (head t) id dl \/ E id.
Definition rl (oom : bool) (t : timer) (p : pending) (tr : list event) (t' : timer) (p' : pending) : Prop :=
  forall g, exists g', rules slack_any oom (mk_view (ts t) g p) (calls tr) (mk_view (ts t') g' p').
Definition ends_at (w : nworld) : Z := nclk w + all_takes (nscript w).
Definition out (oom : bool) (E : Z -> Prop) (c : Z) (w : nworld) (p : pending) (r : res (nworld * list event)) : Prop :=
  exists w' p' tr, r = Ok (w', tr) /\ ninv oom w' p' /\ wheel (nt w) <= wheel (nt w') /\ ends_at w' <= ends_at w + c /\
    (length (nscript w') <= length (nscript w))%nat /\ rl oom (nt w) p tr (nt w') p' /\ cov E (nt w') p'.

Lemma rl_trans oom t p a t1 p1 b t2 p2 : rl oom t p a t1 p1 -> rl oom t1 p1 b t2 p2 -> rl oom t p (a ++ b) t2 p2.
Proof. intros H1 H2 g. destruct (H1 g) as (g1 & R1). destruct (H2 g1) as (g2 & R2). exists g2. rewrite calls_app. eapply rules_app; eauto. Qed.
Lemma rl_nil oom t p : rl oom t p [] t p.
Proof. intro g. exists g. constructor. Qed.
Lemma late_fresh T h x : fresh T h x -> late T h (fst x) (fst (fst (snd x))).
Proof. intros (timeout & ty & d & s & -> & Ht). cbn [fst snd]. unfold late. pose proof (Z.mod_pos_bound (idp (id_of ((timeout / 16 + h) mod 16) s) - h) 16). lia. Qed.

Section Step.
Variables (oom : bool) (cb : nworld -> res (nworld * list event)) (N : nat).
Hypothesis cb_ok : forall E w p, ninv oom w p -> cov E (nt w) p -> ends_at w < INVALID -> (length (nscript w) <= N)%nat -> out oom E 0 w p (cb w).

Lemma nscan_ok : forall n w p hd i (E : Z -> Prop), ninv oom w p -> 0 <= hd < 16 -> 0 <= i -> i + Z.of_nat n <= wheel (nt w) ->
  ends_at w < INVALID -> (length (nscript w) <= N)%nat ->
  cov (fun id => (idp id = hd /\ i <= ids_ id < i + Z.of_nat n) \/ E id) (nt w) p ->
  out oom E 0 w p (nscan cb n w hd (wheel (nt w) * hd) i).
Proof.
  induction n as [|n IH]; intros w p hd i E W Hhd Hi Hn He Hlen C; cbn [nscan].
  - exists w, p, []. split; [reflexivity|]. split; [exact W|]. split; [lia|]. split; [lia|]. split; [lia|]. split; [apply rl_nil|].
    intros id dl ty d Hin. destruct (C id dl ty d Hin) as [HL|[HE|HE]]; auto. lia.
  - pose proof W as [I Hids Hs Hclk]. pose proof (i_shape _ _ I) as S. pose proof S as [Hts Hhh Hw Hl].
    assert (V : valid_id (nt w) (id_of hd i)) by (split; [rewrite idp_of|rewrite ids_of]; lia).
    pose proof (idx_range _ _ S V) as Hr. rewrite idp_of, ids_of in Hr by lia.
    destruct (at_id_some _ _ S V) as ([[to ty] d] & Ha). unfold at_id in Ha. rewrite idp_of, ids_of in Ha by lia.
    rewrite (Z.mul_comm (wheel (nt w)) hd). rewrite u32_small by lia.
    rewrite (zload_ok _ _ _ Ha). cbn [bind].
    assert (Hlook : look (nt w) (id_of hd i) = if to =? INVALID then None else Some (to, ty, d)).
    { rewrite look_at by exact V. unfold at_id. now rewrite idp_of, ids_of, Ha by lia. }
    destruct (Z.leb_spec to (ts (nt w))) as [Hle|Hgt].
    + assert (Hne : to <> INVALID) by lia.
      replace (to =? INVALID) with false in Hlook by lia.
      assert (Hin : exists dl, In (id_of hd i, (dl, ty, d)) p /\ to = u64 dl /\ dl <> INVALID).
      { assert (H : In (id_of hd i) (map fst p)) by (apply (i_look _ _ I); congruence).
        apply in_fst in H as (dl & ty' & d' & H). pose proof (i_in _ _ I _ _ _ _ H) as (H1 & H2 & H3).
        rewrite Hlook in H1. injection H1 as -> -> ->. eauto. }
      destruct Hin as (dl0 & Hin & Hto & Hdl).
      rewrite zput_ok by lia. cbn [bind].
      set (w1 := mk_nw (mk_timer (ts (nt w)) (head (nt w)) (wheel (nt w))
                   (zset (slots (nt w)) (hd * wheel (nt w) + i) (INVALID, ty, d))) (nids w) (nclk w) (nscript w)).
      assert (W1 : ninv oom w1 (remove_id (id_of hd i) p)).
      { constructor; cbn [w1 nt nids nclk nscript]; auto.
        pose proof (inv_remove (nt w) p (id_of hd i) INVALID ty d I V eq_refl) as I1.
        unfold upd in I1. now rewrite idp_of, ids_of in I1 by lia. }
      destruct (cb_ok (fun id => (idp id = hd /\ i + 1 <= ids_ id < i + 1 + Z.of_nat n) \/ E id) w1 _ W1) as (w2 & p2 & tr1 & -> & W2 & L2 & X2 & K2 & R2 & C2); auto.
      { intros id dl ty' d' Hx. apply in_remove in Hx as [Hx Hd]. cbn [w1 nt ts head].
        destruct (C id dl ty' d' Hx) as [HL|[[HE1 HE2]|HE]]; auto. right. left. split; [exact HE1|].
        assert (ids_ id <> i) by (intro Hq; apply Hd; rewrite <- (of_id id), HE1, Hq; reflexivity). lia. }
      cbn [bind]. change (ends_at w1) with (ends_at w) in X2. cbn [w1 nt ts wheel nscript] in L2, K2.
      destruct (IH w2 p2 hd (i + 1) E W2) as (w3 & p3 & tr2 & E3 & W3 & L3 & X3 & K3 & R3 & C3); auto; try lia.
      rewrite (u32_small (wheel (nt w2) * hd)) by (pose proof (i_shape _ _ (n_inv _ _ _ W2)) as []; nia).
      rewrite E3. cbn [bind]. exists w3, p3. eexists. split; [reflexivity|]. split; [exact W3|].
      split; [lia|]. split; [lia|]. split; [lia|]. split; [|exact C3].
      intro g. destruct (rl_trans _ _ _ _ _ _ _ _ _ R2 R3 g) as (g' & R). exists g'. cbn [calls filter]. econstructor; [|exact R].
      cbn [w1 nt ts]. rewrite id_lor by lia. rewrite Hto. constructor; [exact Hin|exact Hdl|lia].
    + rewrite (Z.mul_comm hd (wheel (nt w))). apply IH; auto; try lia.
      intros id dl ty' d' Hx. destruct (C id dl ty' d' Hx) as [HL|[[HE1 HE2]|HE]]; auto.
      destruct (Z.eq_dec (ids_ id) i) as [Hq|Hq].
      * left. assert (Hid : id = id_of hd i) by (rewrite <- (of_id id), HE1, Hq; reflexivity).
        apply (i_in _ _ I) in Hx as (Hx & Hx0 & _). rewrite Hid, Hlook in Hx. destruct (to =? INVALID); [discriminate|].
        injection Hx as Hx _ _. assert (u64 dl <= dl) by (apply Z.mod_le; lia). unfold late.
        pose proof (Z.mod_pos_bound (idp id - head (nt w)) 16). lia.
      * right. left. split; [exact HE1|lia].
Qed.

Lemma nturn_ok : forall n w p hd (E : Z -> Prop), ninv oom w p -> 0 <= hd < 16 -> ends_at w < INVALID -> (length (nscript w) <= N)%nat ->
  cov (fun id => (exists j, 0 <= j < Z.of_nat n /\ idp id = (hd + j) mod 16) \/ E id) (nt w) p ->
  out oom E 0 w p (nturn cb n w hd).
Proof.
  induction n as [|n IH]; intros w p hd E W Hhd He Hlen C; cbn [nturn].
  - exists w, p, []. split; [reflexivity|]. split; [exact W|]. split; [lia|]. split; [lia|]. split; [lia|]. split; [apply rl_nil|].
    intros id dl ty d Hin. destruct (C id dl ty d Hin) as [HL|[(j & Hj & _)|HE]]; auto. lia.
  - pose proof (i_shape _ _ (n_inv _ _ _ W)) as [Hts Hhh Hw Hl].
    rewrite (u32_small (wheel (nt w) * hd)) by nia.
    destruct (nscan_ok (Z.to_nat (wheel (nt w))) w p hd 0
      (fun id => (exists j, 0 <= j < Z.of_nat n /\ idp id = (hd + 1 + j) mod 16) \/ E id)) as (w1 & p1 & tr1 & -> & W1 & L1 & X1 & K1 & R1 & C1); auto; try lia.
    { intros id dl ty d Hin. destruct (C id dl ty d Hin) as [HL|[(j & Hj & HE)|HE]]; auto. right.
      destruct (Z.eq_dec j 0) as [->|Hj0].
      - left. split; [rewrite HE, Z.add_0_r; apply Z.mod_small; lia|].
        apply (i_in _ _ (n_inv _ _ _ W)) in Hin as [Hin _]. apply look_valid in Hin as [_ Hv]. lia.
      - right. left. exists (j - 1). split; [lia|]. rewrite HE. f_equal. lia. }
    cbn [bind]. rewrite land15 by lia.
    destruct (IH w1 p1 ((hd + 1) mod 16) E W1) as (w2 & p2 & tr2 & E2 & W2 & L2 & X2 & K2 & R2 & C2); try lia.
    { apply Z.mod_pos_bound. lia. }
    { intros id dl ty d Hin. destruct (C1 id dl ty d Hin) as [HL|[(j & Hj & HE)|HE]]; auto. right. left.
      exists j. split; [exact Hj|]. now rewrite Zplus_mod_idemp_l. }
    unfold WHEELS. change (16 - 1) with 15. rewrite E2. cbn [bind].
    exists w2, p2. eexists. split; [reflexivity|]. split; [exact W2|]. split; [lia|]. split; [lia|]. split; [lia|].
    split; [|exact C2]. eapply rl_trans; eauto.
Qed.

Lemma ntimeout_ok w p now E : inv (nt w) p -> Forall (fun id => id = INVALID \/ valid_id (nt w) id) (nids w) -> Forall (Forall (nop_ok oom)) (nscript w) ->
  ts (nt w) <= now -> nclk w = now -> ends_at w < INVALID -> (length (nscript w) <= N)%nat -> cov E (nt w) p -> out oom E 0 w p (ntimeout cb w now).
Proof.
  intros I Hids Hs Hn Hclk He Hlen C. pose proof (i_shape _ _ I) as [Hts Hhh Hw Hl]. pose proof (all_takes_nonneg _ _ Hs) as Hnn.
  assert (Hmax : now < INVALID) by (unfold ends_at in He; lia).
  unfold ntimeout. cbv zeta. rewrite (u64_small (now - ts (nt w))) by (unfold INVALID in *; lia).
  destruct (Z.ltb_spec (now - ts (nt w)) 16) as [Hlt|Hge].
  - assert (Hz : (now - ts (nt w)) / TICK = 0) by (apply Z.div_small; unfold TICK; lia). rewrite Hz.
    change (u32 (if 0 <? WHEELS then 0 else WHEELS) =? 0) with true. cbv iota.
    exists w, p. eexists. split; [reflexivity|]. split; [constructor; auto; lia|]. split; [lia|]. split; [lia|]. split; [lia|]. split; [|exact C].
    intro g. exists (now - ts (nt w)). cbn [calls filter]. apply rules_one.
    replace (ts (nt w)) with (if now - ts (nt w) <? 16 then ts (nt w) else now) at 2 by (destruct (Z.ltb_spec (now - ts (nt w)) 16); lia). constructor. lia.
  - set (n := Z.min ((now - ts (nt w)) / 16) 16). set (h := (head (nt w) + n) mod 16).
    pose proof (Z.div_mod (now - ts (nt w)) 16) as Hdm. pose proof (Z.mod_pos_bound (now - ts (nt w)) 16) as Hmb.
    assert (Hn1 : 1 <= n <= 16) by (unfold n; assert (1 <= (now - ts (nt w)) / 16) by (apply Z.div_le_lower_bound; lia); lia).
    assert (Hwh : u32 (if (now - ts (nt w)) / TICK <? WHEELS then (now - ts (nt w)) / TICK else WHEELS) = n).
    { unfold n, TICK, WHEELS. destruct (Z.ltb_spec ((now - ts (nt w)) / 16) 16); rewrite u32_small; lia. }
    rewrite Hwh. replace (n =? 0) with false by lia.
    rewrite (u32_small (head (nt w) + n)) by lia. unfold WHEELS. change (16 - 1) with 15. rewrite land15 by lia. fold h.
    set (w1 := mk_nw (mk_timer now h (wheel (nt w)) (slots (nt w))) (nids w) (nclk w) (nscript w)).
    destruct (nturn_ok (Z.to_nat n) w1 p (head (nt w)) E) as (w2 & p2 & tr & E2 & W2 & L2 & X2 & K2 & R2 & C2); auto.
    { constructor; cbn [w1 nt nids nclk nscript ts]; auto; [|lia]. destruct I as [S Nd A L]. constructor; auto.
      constructor; cbn [ts head wheel slots]; auto; [lia|]. apply Z.mod_pos_bound. lia. }
    { intros id dl ty d Hin. cbn [w1 nt ts head].
      destruct (C id dl ty d Hin) as [HL|HE]; [|auto]. pose proof (Z.mod_pos_bound (idp id - head (nt w)) 16) as Hm.
      destruct (Z.lt_ge_cases ((idp id - head (nt w)) mod 16) n) as [Hq|Hq].
      - right. left. exists ((idp id - head (nt w)) mod 16). split; [lia|].
        rewrite Zplus_mod_idemp_r. replace (head (nt w) + (idp id - head (nt w))) with (idp id) by lia.
        apply (i_in _ _ I) in Hin as [Hin _]. apply look_valid in Hin as [Hv _]. symmetry. now apply Z.mod_small.
      - left. assert (Hn15 : n = (now - ts (nt w)) / 16) by (unfold n in *; lia).
        unfold late in *. unfold h. rewrite mod_shift by lia. lia. }
    rewrite E2. cbn [bind]. exists w2, p2. eexists. split; [reflexivity|]. split; [exact W2|]. split; [exact L2|]. split; [exact X2|]. split; [exact K2|].
    split; [|exact C2]. intro g. destruct (R2 (now - ts (nt w))) as (g' & R). exists g'. cbn [calls filter]. fold (calls (tr ++ [EDone now (if u64 (TICK - (now - ts (nt w))) <? TICK then u64 (TICK - (now - ts (nt w))) else TICK)])).
    rewrite calls_app. cbn [calls filter]. rewrite app_nil_r. econstructor; [constructor; lia|].
    replace (now - ts (nt w) <? 16) with false by lia. exact R.
Qed.

Lemma ndo_op_ok w p o E : ninv oom w p -> nop_ok oom o -> ends_at w + takes [o] < INVALID -> (length (nscript w) <= N)%nat -> cov E (nt w) p ->
  out oom E (takes [o]) w p (ndo_op cb w o).
Proof.
  intros [I Hids Hs Hclk] Ho He Hlen C. destruct o as [o|dt| |]; cbn [ndo_op nop_ok takes fold_right] in *.
  - destruct (do_op_ok oom (mk_world (nt w) (nids w) []) p o) as (v & p1 & (tr & Ev & [I1 Hi1 _] & T1 & H1 & L1 & R1 & F1) & _); [constructor; cbn [wt ids script]; auto; constructor|exact Ho|].
    rewrite Ev. cbn [bind]. cbn [wt] in T1, H1, L1, R1, F1. eexists _, p1, tr. split; [reflexivity|].
    split; [constructor; cbn [nt nids nclk nscript]; auto; lia|]. cbn [nt nscript]. split; [exact L1|]. split; [unfold ends_at; cbn [nclk nscript]; lia|]. split; [lia|]. split.
    + intro g. exists g. cbn [nt]. rewrite T1.
      assert (Q : calls tr = tr).
      { clear -Ev. destruct o as [to ty d ok|k]; cbn [do_op] in Ev.
        - match type of Ev with bind ?x _ = _ => destruct x as [[t id]| |] end; [|discriminate|discriminate]. injection Ev as _ <-. reflexivity.
        - destruct (nth_error _ _); [|injection Ev as _ <-; reflexivity].
          match type of Ev with bind ?x _ = _ => destruct x as [[t id]| |] end; [|discriminate|discriminate]. injection Ev as _ <-. reflexivity. }
      rewrite Q. apply R1.
    + intros id dl ty d Hin. cbn [nt]. rewrite T1, H1. destruct (F1 _ Hin) as [Hx|Hx]; [now apply (C id dl ty d)|]. left. now apply late_fresh in Hx.
  - rewrite Z.add_0_r in *. destruct (ntimeout_ok (mk_nw (nt w) (nids w) (nclk w + dt) (nscript w)) p (nclk w + dt) E) as (w' & p' & tr & E' & W' & L' & X' & K' & R' & C'); cbn [nt nids nclk nscript]; auto.
    { lia. } { unfold ends_at in *. cbn [nclk nscript]. lia. }
    rewrite E'. exists w', p', tr. split; [reflexivity|]. split; [exact W'|]. split; [exact L'|]. split; [unfold ends_at in *; cbn [nclk nscript] in X'; lia|]. split; [exact K'|]. split; [exact R'|exact C'].
  - eexists _, [], [EClear]. split; [reflexivity|]. split; [constructor; cbn [nt nids nclk nscript]; auto; now apply clear_ok with (p := p)|]. cbn [nt nscript].
    split; [cbn [timer_clear wheel]; lia|]. split; [unfold ends_at; cbn [nclk nscript]; lia|]. split; [lia|]. split; [|intros ? ? ? ? []].
    intro g. exists g. cbn [calls filter]. apply rules_one. cbn [timer_clear ts]. constructor.
  - contradiction.
Qed.
Lemma ndo_ops_ok : forall os w p E, ninv oom w p -> Forall (nop_ok oom) os -> ends_at w + takes os < INVALID -> (length (nscript w) <= N)%nat -> cov E (nt w) p ->
  out oom E (takes os) w p (ndo_ops cb w os).
Proof.
  induction os as [|o os IH]; intros w p E W Ho He Hlen C; cbn [ndo_ops].
  - exists w, p, []. split; [reflexivity|]. split; [exact W|]. split; [lia|]. split; [cbn; lia|]. split; [lia|]. split; [apply rl_nil|exact C].
  - inversion Ho as [|? ? Ho1 Ho2]; subst.
    assert (Tk : takes (o :: os) = takes [o] + takes os) by (unfold takes; destruct o; cbn [fold_right]; lia).
    pose proof (takes_nonneg _ _ Ho2) as Hnn. assert (Hn1 : 0 <= takes [o]) by (apply (takes_nonneg oom); auto).
    destruct (ndo_op_ok w p o E W Ho1) as (w1 & p1 & tr1 & -> & W1 & L1 & X1 & K1 & R1 & C1); [clear -He Tk Hnn; lia|exact Hlen|exact C|]. cbn [bind].
    destruct (IH w1 p1 E W1 Ho2) as (w2 & p2 & tr2 & -> & W2 & L2 & X2 & K2 & R2 & C2); auto; try lia. cbn [bind].
    exists w2, p2. eexists. split; [reflexivity|]. split; [exact W2|]. split; [lia|]. split; [lia|]. split; [lia|]. split; [|exact C2]. eapply rl_trans; eauto.
Qed.
End Step.

Lemma ncallback_ok oom : forall d E w p, ninv oom w p -> cov E (nt w) p -> ends_at w < INVALID -> (length (nscript w) <= d)%nat -> out oom E 0 w p (ncallback d w).
Proof.
  induction d as [|d IH]; intros E w p W C He Hl; cbn [ncallback]; destruct (nscript w) as [|os rest] eqn:Es; cbn [length] in Hl; try lia.
  1,2: exists w, p, []; split; [reflexivity|]; split; [exact W|]; split; [lia|]; split; [lia|]; split; [lia|]; split; [apply rl_nil|exact C].
  destruct W as [I Hids Hs Hclk]. rewrite Es in Hs. inversion Hs as [|? ? Hs1 Hs2]; subst.
  assert (Q : ends_at w = nclk w + all_takes rest + takes os) by (unfold ends_at; rewrite Es; cbn [all_takes fold_right]; fold (all_takes rest); lia).
  destruct (ndo_ops_ok oom (ncallback d) d IH os (mk_nw (nt w) (nids w) (nclk w) rest) p E) as (w' & p' & tr & E' & W' & L' & X' & K' & R' & C'); cbn [nt nids nclk nscript]; auto.
  { constructor; cbn [nt nids nclk nscript]; auto. }
  { unfold ends_at. cbn [nclk nscript]. lia. }
  { lia. }
  rewrite E'. exists w', p', tr. split; [reflexivity|]. split; [exact W'|]. split; [exact L'|].
  split; [unfold ends_at in X' at 2; cbn [nclk nscript] in X'; lia|]. split; [rewrite Es; cbn [nscript length] in *; lia|]. split; [exact R'|exact C'].
Qed.

Lemma nprogram_ok oom start scr os : 0 <= start -> Forall (Forall (nop_ok oom)) scr -> Forall (nop_ok oom) os -> start + all_takes scr + takes os < INVALID ->
  exists w' p' tr g', nprogram start scr os = Ok (w', tr) /\ ninv oom w' p' /\ rules slack_any oom (mk_view start 0 []) (calls tr) (mk_view (ts (nt w')) g' p') /\
    cov (fun _ => False) (nt w') p'.
Proof.
  intros H0 Hs Ho He. pose proof (all_takes_nonneg _ _ Hs). pose proof (takes_nonneg _ _ Ho). unfold nprogram.
  destruct (ndo_ops_ok oom (ncallback (length scr)) (length scr) (ncallback_ok oom (length scr)) os (mk_nw (timer_init start) [] start scr) [] (fun _ => False))
    as (w' & p' & tr & E' & W' & _ & _ & _ & R' & C'); auto.
  - constructor; cbn [nt nids nclk nscript timer_init ts]; auto; [apply init_inv; lia|lia].
  - intros ? ? ? ? [].
  - destruct (R' 0) as (g' & R). exists w', p', tr, g'. auto.
Qed.

(** C150: callbacks may add, cancel, poll and clear, to any depth.  The program runs; every callback is of a timer that was added and
    not ended since, with its type and data, not before its time; no two pending timers have the same id; and when the program
    itself goes on, no timer is 481 ms late. *)
Theorem timer_nest_partial : forall oom start scr os, 0 <= start -> Forall (Forall (nop_ok oom)) scr -> Forall (nop_ok oom) os ->
  start + all_takes scr + takes os < INVALID ->
  exists w tr, nprogram start scr os = Ok (w, tr) /\
  (forall a id dl ty d c, calls tr = a ++ EFire id dl ty d :: c ->
     exists a1 a2 timeout, a = a1 ++ EAdd timeout ty d id :: a2 /\ quiet id a2 /\ dl = u64 (epoch start a1 + timeout) /\ dl <= clock start a /\
       epoch start a1 <= clock start a1 < epoch start a1 + 16) /\
  (forall a timeout ty d id b timeout' ty' d' id' c, calls tr = a ++ EAdd timeout ty d id :: b ++ EAdd timeout' ty' d' id' :: c ->
     id <> INVALID -> epoch start a + timeout <> INVALID -> quiet id b -> id' <> id) /\
  (forall a timeout ty d id b, calls tr = a ++ EAdd timeout ty d id :: b -> id <> INVALID -> quiet id b ->
     clock start (calls tr) < epoch start a + timeout + 481).
Proof.
  intros oom start scr os H0 Hs Ho He. pose proof (all_takes_nonneg _ _ Hs). pose proof (takes_nonneg _ _ Ho).
  destruct (nprogram_ok oom start scr os H0 Hs Ho He) as (w & p & tr & g & E & W & R & C).
  exists w, tr. split; [exact E|]. split; [|split].
  - intros a id dl ty d c Ec. rewrite Ec in R. apply rules_split in R as (m & R1 & R2). inversion R2 as [|? ? m' ? ? Rf _]; subst. inversion Rf; subst.
    destruct (rules_pos _ _ _ _ _ R1) as [_ Hpos]; cbn [base pend]; [lia|intros ? ? ? ? []|].
    match goal with H : In _ _ |- _ => pose proof (provenance _ _ _ _ _ _ _ R1 (good_start start) H) as P; apply Hpos in H end.
    destruct P as [[[] _]|(a1 & a2 & to & ty' & d' & -> & Hq & [= -> <- <-])].
    exists a1, a2, to. split; [reflexivity|]. split; [exact Hq|]. split; [reflexivity|].
    pose proof (rules_clock _ _ _ _ _ start R1) as K. cbn [base] in K. split; [lia|].
    apply rules_split in R1 as (m1 & R1 & _). pose proof (rules_clock _ _ _ _ _ start R1) as K1.
    pose proof (rules_base _ _ _ _ _ R1) as B1. cbn [base] in *. rewrite B1 in K1. lia.
  - intros a timeout ty d id b timeout' ty' d' id' c Ec Hi Hl Hq. rewrite Ec in R.
    replace (a ++ EAdd timeout ty d id :: b ++ EAdd timeout' ty' d' id' :: c)
      with ((a ++ EAdd timeout ty d id :: b) ++ EAdd timeout' ty' d' id' :: c) in R by (rewrite <- app_assoc; reflexivity).
    apply rules_split in R as (m & R1 & R2). inversion R2 as [|? ? m' ? ? Rd _]; subst.
    destruct (pending_facts _ _ _ _ _ _ _ _ _ _ _ R1 eq_refl Hi Hl Hq) as (G & Hin & Hb).
    inversion Rd; subst; cbn [pend] in *; [auto| |]; intros ->;
      match goal with H : ~ In _ _ |- _ => apply H end; apply in_map_iff; (eexists; split; [|exact Hin]; reflexivity).
  - intros a timeout ty d id b Ec Hi Hq.
    pose proof (rules_clock _ _ _ _ _ start R) as K. cbn [base] in K. specialize (K ltac:(lia)).
    destruct (Z.eq_dec (epoch start a + timeout) INVALID) as [Hl|Hl].
    { pose proof (rules_max _ _ _ _ _ start R) as M. specialize (M ltac:(lia)). lia. }
    rewrite Ec in R. destruct (pending_facts _ _ _ _ _ _ _ _ _ _ _ R eq_refl Hi Hl Hq) as (G & Hin & Hb). cbn [pend] in Hin.
    destruct (C _ _ _ _ Hin) as [L|[]]. unfold late in L. pose proof (Z.mod_pos_bound (idp id - head (nt w)) 16). lia.
Qed.
Print Assumptions timer_nest_partial.

(** A poll in a callback less than a tick after the timestamp of the timer calls nobody, so callbacks that poll do not call each other
    for ever at one moment. *)
Theorem timer_nest_same : forall cb w now, ts (nt w) <= now < ts (nt w) + 16 -> now < 2^64 -> 0 <= ts (nt w) ->
  ntimeout cb w now = Ok (w, [EPoll now; EDone now (16 - (now - ts (nt w)))]).
Proof.
  intros cb w now H1 H2 H3. unfold ntimeout. cbv zeta. rewrite (u64_small (now - ts (nt w))) by lia.
  assert (Hz : (now - ts (nt w)) / TICK = 0) by (apply Z.div_small; unfold TICK; lia). rewrite Hz.
  change (u32 (if 0 <? WHEELS then 0 else WHEELS) =? 0) with true. cbv iota. rewrite ret_range by lia. replace (now - ts (nt w) <=? 16) with true by lia. reflexivity.
Qed.
Print Assumptions timer_nest_same.

(** "A callback may terminate the timer": the loop goes on with the next slot of a table that has been freed, whatever the timer and
    the callbacks to come. *)
Theorem timer_nest_term_refuted : forall d n w hd bs i to ty dt rest, nscript w = [NTerm] :: rest ->
  zload (slots (nt w)) (u32 (bs + i)) = Ok (to, ty, dt) -> to <= ts (nt w) ->
  nscan (ncallback (S d)) (S (S n)) w hd bs i = UB.
Proof.
  intros d n w hd bs i to ty dt rest Hs Hl Ht. cbn [nscan]. rewrite Hl. cbn [bind]. replace (to <=? ts (nt w)) with true by lia.
  unfold zload in Hl. unfold zput. destruct (zget (slots (nt w)) (u32 (bs + i))) as [x|] eqn:G; [|discriminate].
  apply zget_Some_range in G. replace ((0 <=? u32 (bs + i)) && (u32 (bs + i) <? zlen (slots (nt w)))) with true by lia. cbn [bind].
  cbn [ncallback nscript]. rewrite Hs. cbn [ndo_ops ndo_op bind nt slots timer_term app].
  assert (Z0 : forall k, zload (@nil slot) k = UB) by (intro k; unfold zload, zget; destruct (k <? 0); [reflexivity|]; destruct (Z.to_nat k); reflexivity).
  rewrite Z0. reflexivity.
Qed.
Print Assumptions timer_nest_term_refuted.
(** The first callback polls 40 ms later, where the second timer of another wheel is due; its callback clears the timer and adds one. *)
Definition nest_scr : list (list nop) := [[NPoll 40; NOp (Add 5 7 70 true)]; [NClear; NOp (Add 30 8 80 true)]].
Definition nest_prog : list nop := [NOp (Add 20 1 10 true); NOp (Add 60 2 20 true); NOp (Add 20 3 30 true); NPoll 32; NPoll 300].
Example timer_nest_ex :
  Forall (Forall (nop_ok false)) nest_scr /\ Forall (nop_ok false) nest_prog /\ 0 + all_takes nest_scr + takes nest_prog < INVALID /\
  exists w, nprogram 0 nest_scr nest_prog = Ok (w,
    [EAdd 20 1 10 1; EAdd 60 2 20 3; EAdd 20 3 30 (2^32 + 1); EPoll 32; EFire 1 20 1 10;
     EPoll 72; EFire 3 60 2 20; EClear; EAdd 30 8 80 1; EDone 72 16; EAdd 5 7 70 0; EDone 32 16;
     EPoll 372; EFire 0 77 7 70; EFire 1 102 8 80; EDone 372 16]) /\
  nprogram 0 [[NTerm]] nest_prog = UB /\
  (exists w tr, nprogram 0 [[NPoll 3]] nest_prog = Ok (w, tr) /\ firstn 9 tr =
    [EAdd 20 1 10 1; EAdd 60 2 20 3; EAdd 20 3 30 (2^32 + 1); EPoll 32; EFire 1 20 1 10; EPoll 35; EDone 35 13; EFire (2^32 + 1) 20 3 30; EDone 32 16]).
Proof.
  split; [repeat (constructor; cbn; auto; try lia)|]. split; [repeat (constructor; cbn; auto; try lia)|]. split; [reflexivity|].
  eexists. split; [vm_compute; reflexivity|]. split; [vm_compute; reflexivity|]. do 2 eexists. split; vm_compute; reflexivity.
Qed.
