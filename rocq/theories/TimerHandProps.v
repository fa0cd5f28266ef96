(** C159: exactly which timers a poll fires. *)
From Verif Require Import Base Num TimerModel TimerSpec TimerProofs TimerProps TimerHandSpec TimerHandProofs.
From Coq Require Import ZifyBool.

Definition is_done (e : event) : Prop := match e with EDone _ _ => True | _ => False end.
Lemma ev_notdone h S tr : Forall (ev h S) tr -> Forall (fun e => ~ is_done e) tr.
Proof. apply Forall_impl. intros []; cbn; auto. Qed.

Lemma hand_epoch tr : forall s, fst (fold_left hand_step tr s) = epoch (fst s) tr.
Proof.
  unfold epoch. induction tr as [|e tr IH]; intros s; [reflexivity|]. cbn [fold_left]. rewrite IH.
  destruct e; reflexivity.
Qed.

(** What is known of a poll in the trace of a program. *)
Lemma poll_facts oom start scr os a timeout ty d id b now c now' ret e :
  0 <= start < INVALID -> script_ok oom scr -> tops_ok oom start os ->
  run start scr os (a ++ EAdd timeout ty d id :: b ++ EPoll now :: c ++ EDone now' ret :: e) ->
  id <> INVALID -> epoch start a + timeout <> INVALID -> quiet id b -> (forall x r, ~ In (EDone x r) c) ->
  let before := a ++ EAdd timeout ty d id :: b in
  let dl := epoch start a + timeout in
  let n := passed (now - epoch start before) in
  (idp id - hand start before) mod 16 = (hand start a + timeout / 16 - hand start before) mod 16 /\
  (quiet id c -> reached (hand start a) timeout (hand start before) n -> now < dl mod 2^64) /\
  (forall x dl' ty' d', In (EFire x dl' ty' d') c -> (idp x - hand start before) mod 16 < n) /\
  (forall x, ~ In (EPoll x) c) /\ ~ In EClear c.
Proof.
  intros Hs Hc Ho [wf Hr] Hi Hl Hqb Hnd before dl n.
  replace (a ++ EAdd timeout ty d id :: b ++ EPoll now :: c ++ EDone now' ret :: e)
    with (before ++ EPoll now :: c ++ EDone now' ret :: e) in Hr by (unfold before; rewrite <- app_assoc; reflexivity).
  assert (W0 : winv oom (mk_world (timer_init start) [] scr) []).
  { constructor; cbn [wt ids script]; auto. now apply init_inv. }
  destruct (tops_cut oom os _ [] start wf before now (c ++ EDone now' ret :: e) W0) as (os1 & os2 & w1 & w2 & mid0 & rest & -> & E1 & E2 & _ & E4 & Hnow);
    [cbn; lia|exact Ho|exact Hr|].
  pose proof (tops_ok_app _ _ _ _ Ho) as Ho1.
  destruct (any_program oom start scr os1 Hs Hc Ho1) as (w1' & tr1 & v & E1' & R1 & W1). rewrite E1 in E1'. injection E1' as <- <-.
  destruct (tops_hand oom os1 _ [] start W0) as (w1' & p1' & tr1 & E1' & _ & L1 & C1 & D1); [cbn; lia|exact Ho1|].
  rewrite E1 in E1'. injection E1' as <- <-. cbn [wt timer_init ts head] in C1, D1.
  assert (Hts : ts (wt w1) = epoch start before) by (pose proof (hand_epoch before (start, 0)) as H; rewrite D1 in H; exact H).
  assert (Hhd : head (wt w1) = hand start before) by (unfold hand; rewrite D1; reflexivity).
  destruct (pending_facts _ _ _ _ _ _ _ _ _ _ _ R1 eq_refl Hi Hl Hqb) as (_ & Hin & _). fold dl in Hin.
  destruct (poll_ev oom w1 (pend v) now W1 Hnow) as (w2' & p2 & mid & ret' & E2' & _ & _ & F & D).
  rewrite E2 in E2'. injection E2' as <- ->. rewrite Hts, Hhd in F, D. fold n in F, D.
  rewrite <- app_assoc in E4. symmetry in E4. apply (app_cut is_done) in E4 as (c' & -> & E4); [|exact I|eapply ev_notdone; eauto].
  assert (c' = []) as ->.
  { destruct c' as [|e' c']; [reflexivity|]. cbn in E4. injection E4 as <- _. exfalso. apply (Hnd now ret'). apply in_or_app. right. left. reflexivity. }
  rewrite app_nil_r in *.
  assert (Hpos : (idp id - hand start before) mod 16 = (hand start a + timeout / 16 - hand start before) mod 16).
  { unfold before in C1. apply checks_app in C1 as [_ [C1 _]]. destruct C1 as [C1|C1]; [contradiction|]. fold (hand start a) in C1.
    rewrite C1, Zminus_mod_idemp_l. f_equal. lia. }
  split; [exact Hpos|]. rewrite Forall_forall in F. split; [|split; [|split]].
  - intros Hq Hre. apply (D id dl ty d Hin Hq). rewrite Hpos. exact Hre.
  - intros x dl' ty' d' Hx. exact (F _ Hx).
  - intros x Hx. exact (F _ Hx).
  - intros Hx. exact (F _ Hx).
Qed.

Lemma pend_same (p : pending) x r r' : NoDup (map fst p) -> In (x, r) p -> In (x, r') p -> r = r'.
Proof.
  intros N H1 H2. induction p as [|[y q] p IH]; [destruct H1|]. cbn in N. inversion N as [|? ? N1 N2]; subst.
  destruct H1 as [H1|H1], H2 as [H2|H2].
  - congruence.
  - exfalso. apply N1. injection H1 as -> _. change x with (fst (x, r')). now apply in_map.
  - exfalso. apply N1. injection H2 as -> _. change x with (fst (x, r)). now apply in_map.
  - auto.
Qed.

(** A pending timer stays pending until it fires or is cancelled. *)
Lemma first_fire slack oom c : forall v v' id dl ty d, rules slack oom v c v' -> good v -> In (id, (dl, ty, d)) (pend v) ->
  ~ In (ECancel id) c -> ~ In EClear c ->
  quiet id c \/ exists x y, c = x ++ EFire id (u64 dl) ty d :: y /\ quiet id x.
Proof.
  induction c as [|e c IH]; intros v v' id dl ty d R G Hin Hc Hl; [left; intros ? []|].
  inversion R as [|? ? m ? ? R1 R2]; subst. pose proof (good_step _ _ _ _ _ R1 G) as Gm.
  assert (Hc' : ~ In (ECancel id) c) by (intro H; apply Hc; right; exact H).
  assert (Hl' : ~ In EClear c) by (intro H; apply Hl; right; exact H).
  assert (Hne : forall x r, In (x, r) (pend v) -> x = id -> r = (dl, ty, d)).
  { intros x r Hx ->. destruct G as [N _]. exact (pend_same _ _ _ _ N Hx Hin). }
  assert (Hgo : In (id, (dl, ty, d)) (pend m) ->
    match e with EAdd _ _ _ id' | ECancel id' | EFire id' _ _ _ => id' <> id | EClear => False | _ => True end ->
    quiet id (e :: c) \/ exists x y, e :: c = x ++ EFire id (u64 dl) ty d :: y /\ quiet id x).
  { intros Hm He. destruct (IH m v' id dl ty d R2 Gm Hm Hc' Hl') as [Hq|(x & y & -> & Hq)].
    - left. apply quiet_cons. auto.
    - right. exists (e :: x), y. split; [reflexivity|]. apply quiet_cons. auto. }
  inversion R1; subst; cbn [pend] in *.
  - apply Hgo; [exact Hin|]. destruct G as [_ G]. specialize (G _ Hin). cbn [fst] in G. congruence.
  - apply Hgo; [right; exact Hin|]. intros ->. match goal with H : ~ In id _ |- _ => apply H end.
    change id with (fst (id, (dl, ty, d))). now apply in_map.
  - apply Hgo; [exact Hin|]. intros ->. match goal with H : ~ In id _ |- _ => apply H end.
    change id with (fst (id, (dl, ty, d))). now apply in_map.
  - assert (id0 <> id) by (intros ->; apply Hc; left; reflexivity). apply Hgo; [apply in_remove; auto|assumption].
  - apply Hgo; [exact Hin|exact I].
  - destruct (Z.eq_dec id0 id) as [->|Hd].
    + match goal with H : In (id, (dl0, ty0, d0)) _ |- _ => pose proof (Hne _ _ H eq_refl) as He end.
      injection He as -> -> ->. right. exists [], c. split; [reflexivity|]. intros ? [].
    + apply Hgo; [apply in_remove; auto|assumption].
  - apply Hgo; [exact Hin|exact I].
  - exfalso. apply Hl. left. reflexivity.
Qed.

(** ** C159 *)
(** A poll, and a timer set before it that is still pending when it begins.
    If the poll neither fires nor cancels it, the hand did not pass its wheel
    or it is not due; if the poll fires it, the hand passed its wheel and it is
    due. *)
Theorem timer_poll_exact :
  forall oom start scr os a timeout ty d id b now c now' ret e,
    0 <= start < INVALID -> script_ok oom scr -> tops_ok oom start os ->
    run start scr os (a ++ EAdd timeout ty d id :: b ++ EPoll now :: c ++ EDone now' ret :: e) ->
    id <> INVALID -> epoch start a + timeout <> INVALID -> quiet id b -> (forall x r, ~ In (EDone x r) c) ->
    let before := a ++ EAdd timeout ty d id :: b in
    let passes := reached (hand start a) timeout (hand start before) (passed (now - epoch start before)) in
    let due := (epoch start a + timeout) mod 2^64 <= now in
    (quiet id c -> ~ (passes /\ due)) /\
    (forall x dl ty' d' y, c = x ++ EFire id dl ty' d' :: y -> quiet id x ->
       passes /\ due /\ dl = (epoch start a + timeout) mod 2^64 /\ ty' = ty /\ d' = d).
Proof.
  intros oom start scr os a timeout ty d id b now c now' ret e Hs Hc Ho Hr Hi Hl Hqb Hnd before passes due.
  destruct (poll_facts _ _ _ _ _ _ _ _ _ _ _ _ _ _ _ Hs Hc Ho Hr Hi Hl Hqb Hnd) as (Hpos & Hno & Hfire & Hnp & _).
  fold before in Hpos, Hno, Hfire. split.
  - intros Hq [Hp Hd]. specialize (Hno Hq Hp). unfold due in Hd. lia.
  - intros x dl ty' d' y -> Hq.
    destruct (run_rules _ _ _ _ _ Hs Hc Ho Hr) as [v R].
    replace (a ++ EAdd timeout ty d id :: b ++ EPoll now :: (x ++ EFire id dl ty' d' :: y) ++ EDone now' ret :: e)
      with (before ++ (EPoll now :: x) ++ EFire id dl ty' d' :: y ++ EDone now' ret :: e) in R
      by (unfold before; rewrite <- !app_assoc; cbn; rewrite <- ?app_assoc; reflexivity).
    apply rules_split in R as (m & R1 & R2). apply rules_split in R2 as (m2 & R2 & R3).
    destruct (pending_facts _ _ _ _ _ _ _ _ _ _ _ R1 eq_refl Hi Hl Hqb) as (G & Hin & Hb).
    pose proof (good_rules _ _ _ _ _ R2 G) as [N2 _].
    assert (Hin2 : In (id, (epoch start a + timeout, ty, d)) (pend m2)).
    { apply (quiet_keeps _ _ _ _ _ _ _ R2); [|exact Hin]. apply quiet_cons. auto. }
    pose proof (rules_base _ _ _ _ _ R2) as Hb2. inversion R2 as [|? ? m1 ? ? Rp R2']; subst.
    assert (Hbx : forall q, epoch q x = q).
    { assert (Hx : forall z, ~ In (EPoll z) x) by (intros z Hz; apply (Hnp z), in_or_app; left; exact Hz). clear - Hx.
      induction x as [|e x IH]; intros q; [reflexivity|]. unfold epoch in *. cbn [fold_left].
      rewrite IH by (intros z Hz; apply (Hx z); right; exact Hz). destruct e; try reflexivity. exfalso. apply (Hx now). left. reflexivity. }
    pose proof (rules_base _ _ _ _ _ R2') as Hb3. rewrite Hbx in Hb3.
    assert (Hle : base m1 <= now) by (inversion Rp; subst; cbn [base]; destruct (_ <? _); lia).
    inversion R3 as [|? ? m3 ? ? Rf _]; subst.
    assert (Hf : In (id, (epoch start a + timeout, ty, d)) (pend m2) -> NoDup (map fst (pend m2)) ->
      dl = u64 (epoch start a + timeout) /\ ty' = ty /\ d' = d /\ dl <= base m2).
    { inversion Rf; subst. cbn [pend base] in *. intros H1 N.
      match goal with H : In (id, (dl0, ty', d')) _ |- _ => rename H into H2 end.
      assert (He : (dl0, ty', d') = (epoch start a + timeout, ty, d)).
      { exact (pend_same _ _ _ _ N H2 H1). }
      injection He as -> -> ->. auto. }
    destruct (Hf Hin2 N2) as (-> & -> & -> & Hdue). unfold u64 in *. split; [|split; [unfold due; lia|auto]].
    unfold passes, reached. rewrite <- Hpos. apply (Hfire id (u64 (epoch start a + timeout)) ty d). apply in_or_app. right. left. reflexivity.
Qed.
Print Assumptions timer_poll_exact.

(** So, unless it is cancelled from a callback of the poll, the poll fires it
    exactly if the hand passes its wheel and it is due. *)
Theorem timer_fires_exactly :
  forall oom start scr os a timeout ty d id b now c now' ret e,
    0 <= start < INVALID -> script_ok oom scr -> tops_ok oom start os ->
    run start scr os (a ++ EAdd timeout ty d id :: b ++ EPoll now :: c ++ EDone now' ret :: e) ->
    id <> INVALID -> epoch start a + timeout <> INVALID -> quiet id b -> (forall x r, ~ In (EDone x r) c) -> ~ In (ECancel id) c ->
    let before := a ++ EAdd timeout ty d id :: b in
    let deadline := (epoch start a + timeout) mod 2^64 in
    In (EFire id deadline ty d) c <->
    reached (hand start a) timeout (hand start before) (passed (now - epoch start before)) /\ deadline <= now.
Proof.
  intros oom start scr os a timeout ty d id b now c now' ret e Hs Hc Ho Hr Hi Hl Hqb Hnd Hcan before deadline.
  destruct (poll_facts _ _ _ _ _ _ _ _ _ _ _ _ _ _ _ Hs Hc Ho Hr Hi Hl Hqb Hnd) as (_ & _ & _ & _ & Hcl).
  destruct (timer_poll_exact _ _ _ _ _ _ _ _ _ _ _ _ _ _ _ Hs Hc Ho Hr Hi Hl Hqb Hnd) as [A B].
  fold before deadline in A, B.
  assert (Hff : quiet id c \/ exists x y, c = x ++ EFire id deadline ty d :: y /\ quiet id x).
  { destruct (run_rules _ _ _ _ _ Hs Hc Ho Hr) as [v R].
    replace (a ++ EAdd timeout ty d id :: b ++ EPoll now :: c ++ EDone now' ret :: e)
      with (before ++ [EPoll now] ++ c ++ EDone now' ret :: e) in R
      by (unfold before; rewrite <- !app_assoc; cbn; rewrite <- ?app_assoc; reflexivity).
    apply rules_split in R as (m & R1 & R2). apply rules_split in R2 as (m1 & R2 & R3). apply rules_split in R3 as (m2 & R3 & _).
    destruct (pending_facts _ _ _ _ _ _ _ _ _ _ _ R1 eq_refl Hi Hl Hqb) as (G & Hin & _).
    apply (first_fire _ _ _ _ _ _ _ _ _ R3); auto; [exact (good_rules _ _ _ _ _ R2 G)|].
    apply (quiet_keeps _ _ _ _ _ _ _ R2); [intros ? [<-|[]]; exact I|exact Hin]. }
  split.
  - intros Hf. destruct Hff as [Hq|(x & y & -> & Hq)].
    + exfalso. exact (Hq _ Hf eq_refl).
    + destruct (B _ _ _ _ _ eq_refl Hq) as (H1 & H2 & _). auto.
  - intros H. destruct Hff as [Hq|(x & y & -> & Hq)]; [exfalso; exact (A Hq H)|]. apply in_or_app. right. left. reflexivity.
Qed.
Print Assumptions timer_fires_exactly.
(** The polls of [timer_due_fires_refuted]: four polls of 31 ms move the hand
    by four wheels only, so at 124 the timer set for 100 is due on wheel 6 but
    not reached; the next poll reaches it. *)
Definition late_poll_prog : list top :=
  [TOp (Add 100 1 1 true); TPoll 31; TPoll 62; TPoll 93; TPoll 124; TPoll 180].
Definition late_poll_start : list event :=
  [EPoll 31; EDone 31 16; EPoll 62; EDone 62 16; EPoll 93; EDone 93 16].
Example timer_hand_example :
  tops_ok false 0 late_poll_prog /\ quiet 6 late_poll_start /\
  run 0 [] late_poll_prog ([] ++ EAdd 100 1 1 6 :: late_poll_start ++ EPoll 124 :: [] ++ EDone 124 16 ::
    [EPoll 180; EFire 6 100 1 1; EDone 180 16]) /\
  hand 0 (EAdd 100 1 1 6 :: late_poll_start) = 3 /\ passed (124 - 93) = 1 /\
  ~ reached 0 100 3 1 /\ reached 0 100 4 (passed (180 - 124)).
Proof.
  split; [cbn; lia|]. split; [intros e H; repeat destruct H as [<-|H]; try exact I; destruct H|].
  split; [eexists; vm_compute; reflexivity|]. repeat split; unfold reached; vm_compute; congruence.
Qed.
