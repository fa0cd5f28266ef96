(** Properties of the timer. *)
From Verif Require Import Base TimerModel TimerSpec TimerProofs.

(** Every program is free of memory errors and failed assertions. *)
Theorem timer_program_runs :
  forall oom start scr os,
    0 <= start < INVALID -> script_ok oom scr -> tops_ok oom start os -> exists tr, run start scr os tr.
Proof.
  intros oom start scr os Hs Hc Ho. destruct (any_program oom start scr os Hs Hc Ho) as (w & tr & v & E & _).
  exists tr, w. exact E.
Qed.
Print Assumptions timer_program_runs.
(** A callback that adds two timers and cancels one, during a poll. *)
Definition demo_script : list (list op) := [[Add 5 7 70 true; Add 300 8 80 true; Cancel 1]].
Definition demo : list top :=
  [TOp (Add 20 1 10 true); TOp (Add 20 2 20 true); TOp (Add 40 3 30 true); TPoll 30; TPoll 64; TPoll 400].
Definition demo_trace : list event :=
  [EAdd 20 1 10 1; EAdd 20 2 20 (2^32 + 1); EAdd 40 3 30 2; EPoll 30; EDone 30 16;
   EPoll 64; EFire 1 20 1 10; EAdd 5 7 70 3; EAdd 300 8 80 5; ECancel (2^32 + 1); EFire 2 40 3 30; EDone 64 16;
   EPoll 400; EFire 3 69 7 70; EFire 5 364 8 80; EDone 400 16].
Example timer_program_example :
  script_ok false demo_script /\ tops_ok false 0 demo /\
  run 0 demo_script demo demo_trace.
Proof. unfold script_ok, tops_ok, op_ok, demo_script, demo. repeat split; auto; try lia; repeat (constructor; auto; try lia). eexists. vm_compute. reflexivity. Qed.

Lemma run_rules oom start scr os tr : 0 <= start < INVALID -> script_ok oom scr -> tops_ok oom start os -> run start scr os tr ->
  exists v', rules slack_any oom (mk_view start 0 []) tr v'.
Proof.
  intros Hs Hc Ho [w E]. destruct (any_program oom start scr os Hs Hc Ho) as (w' & tr' & v & E' & R & _).
  rewrite E in E'. injection E' as _ <-. eauto.
Qed.
Lemma good_start start : good (mk_view start 0 []).
Proof. split; [constructor|intros ? []]. Qed.
Lemma clock_app start a b : clock start (a ++ b) = clock (clock start a) b.
Proof. apply fold_left_app. Qed.
Lemma epoch_app start a b : epoch start (a ++ b) = epoch (epoch start a) b.
Proof. apply fold_left_app. Qed.

(** The fired timer was added with this type and data, nothing ended it in
    between, and its deadline -- the timer's timestamp at the add plus the
    timeout, modulo 2^64 -- has passed.  Counted from the last timestamp given to the timer
    (which is what the header promises) it is at most 15 ms early. *)
Lemma fire_facts oom start scr os a id dl ty d c :
  0 <= start < INVALID -> script_ok oom scr -> tops_ok oom start os -> run start scr os (a ++ EFire id dl ty d :: c) ->
  exists a1 a2 timeout, a = a1 ++ EAdd timeout ty d id :: a2 /\ quiet id a2 /\
    dl = u64 (epoch start a1 + timeout) /\ epoch start a1 + timeout <> INVALID /\ dl <= clock start a /\
    epoch start a1 <= clock start a1 < epoch start a1 + 16 /\ 0 <= epoch start a1 + timeout.
Proof.
  intros Hs Hc Ho Hr. destruct (run_rules _ _ _ _ _ Hs Hc Ho Hr) as [v R].
  apply rules_split in R as (m & R1 & R2). inversion R2 as [|? ? m' ? ? Rf _]; subst. inversion Rf; subst.
  destruct (rules_pos _ _ _ _ _ R1) as [_ Hpos]; cbn [base pend]; [lia|intros ? ? ? ? []|].
  match goal with H : In _ _ |- _ => pose proof (provenance _ _ _ _ _ _ _ R1 (good_start start) H) as P; apply Hpos in H end.
  destruct P as [[[] _]|(a1 & a2 & to & ty' & d' & -> & Hq & [= -> <- <-])].
  exists a1, a2, to. split; [reflexivity|]. split; [exact Hq|]. split; [reflexivity|]. split; [assumption|].
  pose proof (rules_clock _ _ _ _ _ start R1) as K. cbn [base] in K. split; [lia|]. split; [|assumption].
  apply rules_split in R1 as (m1 & R1 & _). pose proof (rules_clock _ _ _ _ _ start R1) as K1.
  pose proof (rules_base _ _ _ _ _ R1) as B1. cbn [base] in *. rewrite B1 in K1. lia.
Qed.

Theorem timer_never_early_partial :
  forall oom start scr os a id dl ty d c,
    0 <= start < INVALID -> script_ok oom scr -> tops_ok oom start os -> run start scr os (a ++ EFire id dl ty d :: c) ->
    exists a1 a2 timeout, a = a1 ++ EAdd timeout ty d id :: a2 /\ quiet id a2 /\
      (epoch start a1 + timeout < 2^64 ->
       epoch start a1 + timeout <= clock start a /\
       clock start a1 + timeout - 15 <= clock start a /\
       (clock start a1 = epoch start a1 -> clock start a1 + timeout <= clock start a)).
Proof.
  intros oom start scr os a id dl ty d c Hs Hc Ho Hr.
  destruct (fire_facts _ _ _ _ _ _ _ _ _ _ Hs Hc Ho Hr) as (a1 & a2 & to & H1 & H2 & H3 & H4 & H5 & H6 & H7).
  exists a1, a2, to. split; [exact H1|]. split; [exact H2|]. intro Hlt. rewrite u64_small in H3 by lia. lia.
Qed.
Print Assumptions timer_never_early_partial.
Example timer_never_early_example :
  demo_trace = [EAdd 20 1 10 1; EAdd 20 2 20 (2^32 + 1); EAdd 40 3 30 2; EPoll 30; EDone 30 16; EPoll 64; EFire 1 20 1 10;
      EAdd 5 7 70 3; EAdd 300 8 80 5; ECancel (2^32 + 1); EFire 2 40 3 30; EDone 64 16; EPoll 400; EFire 3 69 7 70]
    ++ EFire 5 364 8 80 :: [EDone 400 16] /\
  clock 0 (firstn 8 demo_trace) = 64 /\ epoch 0 (firstn 8 demo_trace) = 64.
Proof. vm_example. Qed.
(** A poll within a tick of the last effective one is forgotten: the timeout of
    a timer added at time 15 counts from time 0 and it fires 9 ms early. *)
Theorem timer_never_early_refuted :
  exists start scr os tr, script_ok false scr /\ tops_ok false start os /\ 0 <= start < INVALID /\ run start scr os tr /\
    exists id a b c, tr = a ++ EAdd 10 1 1 id :: b ++ EFire id 10 1 1 :: c /\ quiet id b /\
      clock start a + 10 = 25 /\ clock start (a ++ EAdd 10 1 1 id :: b) = 16.
Proof.
  exists 0, [], [TPoll 15; TOp (Add 10 1 1 true); TPoll 16],
    [EPoll 15; EDone 15 1; EAdd 10 1 1 0; EPoll 16; EFire 0 10 1 1; EDone 16 0].
  split; [constructor|]. split; [cbn; unfold INVALID; lia|]. split; [unfold INVALID; lia|]. split; [eexists; vm_compute; reflexivity|].
  exists 0, [EPoll 15; EDone 15 1], [EPoll 16], [EDone 16 0]. split; [reflexivity|]. split; [|split; reflexivity].
  intros e [<-|[]]. exact I.
Qed.
Print Assumptions timer_never_early_refuted.
(** Timeouts near 2^64 wrap around and fire at once. *)
Theorem timer_huge_timeout_refuted :
  exists start timeout tr, timeout < 2^64 /\ run start [] [TOp (Add timeout 1 1 true); TPoll (start + 300)] tr /\
    exists id, tr = [EAdd timeout 1 1 id; EPoll (start + 300); EFire id 0 1 1; EDone (start + 300) 16].
Proof.
  exists 16, (2^64 - 16). eexists. split; [reflexivity|]. split; [eexists; vm_compute; reflexivity|]. eexists. reflexivity.
Qed.
Print Assumptions timer_huge_timeout_refuted.


(** ** C32 *)
(** Each firing is of a timer added before with just that type, data and
    deadline (modulo 2^64), and between that add and the firing nothing ended
    it: no earlier firing, no cancel of its id, no clear.  (What is missing:
    polls at the timestamp UINT64_MAX, see timer_last_moment_refuted.) *)
Definition ends (id : Z) (e : event) : Prop :=
  match e with ECancel id' | EFire id' _ _ _ => id' = id | EClear => True | _ => False end.
Theorem timer_fires_once_partial :
  forall oom start scr os a id dl ty d c,
    0 <= start < INVALID -> script_ok oom scr -> tops_ok oom start os -> run start scr os (a ++ EFire id dl ty d :: c) ->
    (exists a1 a2 timeout, a = a1 ++ EAdd timeout ty d id :: a2 /\ quiet id a2 /\ dl = u64 (epoch start a1 + timeout)) /\
    (forall b e b', a = b ++ e :: b' -> ends id e -> exists timeout, In (EAdd timeout ty d id) b').
Proof.
  intros oom start scr os a id dl ty d c Hs Hc Ho Hr.
  destruct (fire_facts _ _ _ _ _ _ _ _ _ _ Hs Hc Ho Hr) as (a1 & a2 & to & -> & H2 & H3 & _).
  split; [eauto 10|]. intros b e b' He Hn. exists to.
  assert (K : forall (a1 b a2 b' : list event) x e, a1 ++ x :: a2 = b ++ e :: b' -> x <> e -> ~ In e a2 -> In x b').
  { clear. induction a1 as [|y a1 IH]; intros [|z b] a2 b' x e H Hx Hn; cbn in H; injection H as H1 H2; subst.
    - contradiction.
    - exfalso. apply Hn. apply in_or_app. right. left. reflexivity.
    - apply in_or_app. right. left. reflexivity.
    - eauto. }
  apply (K a1 b a2 b' (EAdd to ty d id) e He).
  - intros <-. exact Hn.
  - intro Hi. specialize (H2 e Hi). destruct e; cbn in Hn; try contradiction; congruence.
Qed.
Print Assumptions timer_fires_once_partial.
Example timer_fires_once_example :
  demo_trace = firstn 13 demo_trace ++ EFire 3 69 7 70 :: skipn 14 demo_trace /\
  (exists e b b', firstn 13 demo_trace = b ++ e :: b' /\ e = ECancel (2^32 + 1) /\ ends (2^32 + 1) e /\
     forall dl ty d, ~ In (EFire (2^32 + 1) dl ty d) (skipn 9 demo_trace)).
Proof.
  split; [reflexivity|]. exists (ECancel (2^32 + 1)), (firstn 9 demo_trace), (firstn 3 (skipn 10 demo_trace)).
  split; [reflexivity|]. split; [reflexivity|]. split; [reflexivity|]. intros dl ty d H. vm_compute in H.
  repeat destruct H as [H|H]; try discriminate. exact H.
Qed.

(** A poll at UINT64_MAX takes every free slot for a timer that is due: with a
    single timer added there are 64 callbacks. *)
Definition is_fire (e : event) : bool := match e with EFire _ _ _ _ => true | _ => false end.
Theorem timer_last_moment_refuted :
  exists tr, run 0 [] [TOp (Add 10 1 1 true); TPoll (2^64 - 1)] (EAdd 10 1 1 0 :: EPoll (2^64 - 1) :: tr) /\
    In (EFire 0 10 1 1) tr /\ In (EFire 1 (2^64 - 1) 0 0) tr /\ length (filter is_fire tr) = 64%nat.
Proof.
  eexists. split; [eexists; vm_compute; reflexivity|]. split; [cbn; tauto|]. split; [cbn; tauto|]. reflexivity.
Qed.
Print Assumptions timer_last_moment_refuted.

(** ** C34 *)
Lemma pending_facts oom slack start a timeout ty d id b v v' :
  rules slack oom (mk_view start 0 []) (a ++ EAdd timeout ty d id :: b) v' -> v = v' -> id <> INVALID -> epoch start a + timeout <> INVALID -> quiet id b ->
  good v /\ In (id, (epoch start a + timeout, ty, d)) (pend v) /\ base v = epoch start (a ++ EAdd timeout ty d id :: b).
Proof.
  intros R -> Hi Hl Hq. pose proof (rules_base _ _ _ _ _ R) as Hb. pose proof (good_rules _ _ _ _ _ R (good_start start)) as G.
  split; [exact G|]. split; [|exact Hb].
  apply rules_split in R as (m & R1 & R2). inversion R2 as [|? ? m' ? ? Ra Rb]; subst.
  pose proof (rules_base _ _ _ _ _ R1) as B1. cbn [base] in B1.
  apply (quiet_keeps _ _ _ _ _ _ _ Rb Hq). inversion Ra; subst; cbn [base] in *; [contradiction|left; congruence|congruence].
Qed.

(** A timer still pending at the end of a poll is less than 481 ms late (the
    bound the property asks for is 16 wheels * 2 * 16 ms = 512 ms). *)
Theorem timer_lateness_bounded :
  forall oom start scr os a timeout ty d id b now ret c,
    0 <= start < INVALID -> script_ok oom scr -> tops_ok oom start os ->
    run start scr os (a ++ EAdd timeout ty d id :: b ++ EDone now ret :: c) -> id <> INVALID -> quiet id b ->
    now = clock start (a ++ EAdd timeout ty d id :: b) /\ now < epoch start a + timeout + 481.
Proof.
  intros oom start scr os a timeout ty d id b now ret c Hs Hc Ho Hr Hi Hq.
  destruct (run_rules _ _ _ _ _ Hs Hc Ho Hr) as [v R].
  replace (a ++ EAdd timeout ty d id :: b ++ EDone now ret :: c) with ((a ++ EAdd timeout ty d id :: b) ++ EDone now ret :: c) in R
    by (rewrite <- app_assoc; reflexivity).
  apply rules_split in R as (m & R1 & R2). inversion R2 as [|? ? m' ? ? Rd _]; subst.
  assert (Hclock : now = clock start (a ++ EAdd timeout ty d id :: b)).
  { inversion Rd; subst. rewrite (rules_last _ _ _ _ _ start R1); [reflexivity|]. unfold last_of. cbn. lia. }
  split; [exact Hclock|].
  destruct (Z.eq_dec (epoch start a + timeout) INVALID) as [Hl|Hl].
  { pose proof (rules_max _ _ _ _ _ start R1). lia. }
  destruct (pending_facts _ _ _ _ _ _ _ _ _ _ _ R1 eq_refl Hi Hl Hq) as (G & Hin & Hb).
  inversion Rd as [| | | | | |? g ? ? ? Hnow Hret Hlate|]; subst. cbn [pend base] in *.
  specialize (Hlate _ _ _ _ Hin). unfold slack_any in Hlate. destruct (256 <=? g); lia.
Qed.
Print Assumptions timer_lateness_bounded.
(** A timer 91 ms late: polls every 31 ms, of which only 16 count. *)
Example timer_lateness_example :
  tops_ok false 0 [TOp (Add 64 1 1 true); TPoll 31; TPoll 62; TPoll 93; TPoll 124; TPoll 155] /\
  run 0 [] [TOp (Add 64 1 1 true); TPoll 31; TPoll 62; TPoll 93; TPoll 124; TPoll 155]
    (([] ++ EAdd 64 1 1 4 :: [EPoll 31; EDone 31 16; EPoll 62; EDone 62 16; EPoll 93; EDone 93 16; EPoll 124]) ++
      EDone 124 16 :: [EPoll 155; EFire 4 64 1 1; EDone 155 16]) /\
  quiet 4 [EPoll 31; EDone 31 16; EPoll 62; EDone 62 16; EPoll 93; EDone 93 16; EPoll 124].
Proof.
  split; [cbn; lia|]. split; [eexists; vm_compute; reflexivity|].
  intros e H. repeat destruct H as [<-|H]; try exact I. destruct H.
Qed.

(** ** C33 *)
(** (What is missing: a timer with the deadline UINT64_MAX, see below.) *)
Theorem timer_ids_unique_partial :
  forall oom start scr os a timeout ty d id b timeout' ty' d' id' c,
    0 <= start < INVALID -> script_ok oom scr -> tops_ok oom start os ->
    run start scr os (a ++ EAdd timeout ty d id :: b ++ EAdd timeout' ty' d' id' :: c) -> id <> INVALID ->
    epoch start a + timeout <> INVALID -> quiet id b ->
    id' <> id.
Proof.
  intros oom start scr os a timeout ty d id b timeout' ty' d' id' c Hs Hc Ho Hr Hi Hl Hq.
  destruct (run_rules _ _ _ _ _ Hs Hc Ho Hr) as [v R].
  replace (a ++ EAdd timeout ty d id :: b ++ EAdd timeout' ty' d' id' :: c)
    with ((a ++ EAdd timeout ty d id :: b) ++ EAdd timeout' ty' d' id' :: c) in R
    by (rewrite <- app_assoc; reflexivity).
  apply rules_split in R as (m & R1 & R2). inversion R2 as [|? ? m' ? ? Rd _]; subst.
  destruct (pending_facts _ _ _ _ _ _ _ _ _ _ _ R1 eq_refl Hi Hl Hq) as (G & Hin & Hb).
  inversion Rd; subst; cbn [pend] in *; [auto| |]; intros ->;
    match goal with H : ~ In _ _ |- _ => apply H end; apply in_map_iff; (eexists; split; [|exact Hin]; reflexivity).
Qed.
Print Assumptions timer_ids_unique_partial.
(** A timer with the deadline UINT64_MAX is lost: it never fires, and its id
    goes to the next timer of its wheel. *)
Theorem timer_ids_refuted :
  run 0 [] [TOp (Add (2^64 - 1) 1 1 true); TOp (Add 240 2 2 true); TPoll 300]
    [EAdd (2^64 - 1) 1 1 15; EAdd 240 2 2 15; EPoll 300; EFire 15 240 2 2; EDone 300 16].
Proof. eexists. vm_compute. reflexivity. Qed.
Print Assumptions timer_ids_refuted.
(** Adding fails (returns SC_TIMER_INVALID) only if an allocation fails or
    5592405 timers, listed by their ids, are pending. *)
Theorem timer_add_fails_only_when_full :
  forall start scr os a timeout ty d c,
    0 <= start < INVALID -> script_ok false scr -> tops_ok false start os ->
    run start scr os (a ++ EAdd timeout ty d INVALID :: c) ->
    exists live, NoDup live /\ 5592405 <= zlen live /\
      forall id, In id live -> exists a1 a2 timeout ty d, a = a1 ++ EAdd timeout ty d id :: a2 /\ quiet id a2.
Proof.
  intros start scr os a timeout ty d c Hs Hc Ho Hr. destruct (run_rules _ _ _ _ _ Hs Hc Ho Hr) as [v R].
  apply rules_split in R as (m & R1 & R2). inversion R2 as [|? ? m' ? ? Ra _]; subst.
  pose proof (good_rules _ _ _ _ _ R1 (good_start start)) as G.
  inversion Ra as [? ? ? ? ? ? Hwhy|? ? ? ? ? ? ? ? Hne|? ? ? ? ? ? ? ? Hne| | | | |]; subst; [|contradiction|contradiction].
  destruct Hwhy as [|Hz]; [discriminate|]. exists (map fst p). split; [apply G|].
  split; [now rewrite zlen_map|]. intros id Hid. apply in_map_iff in Hid as ([id' r] & He & Hin). cbn in He. subst id'.
  destruct (provenance _ _ _ _ _ _ _ R1 (good_start start) Hin) as [[[] _]|(a1 & a2 & to & ty' & d' & -> & Hq & _)].
  exists a1, a2, to, ty', d'. auto.
Qed.
Print Assumptions timer_add_fails_only_when_full.
(** Ten timers in one wheel: the table grows from 4 to 16 slots per wheel and
    the ids given before keep denoting their timers. *)
Definition grow_prog : list top :=
  map (fun k => TOp (Add 20 (Z.of_nat k) 0 true)) (seq 0 10) ++ [TOp (Cancel 2); TPoll 400].
Example timer_ids_example :
  tops_ok false 0 grow_prog /\
  run 0 [] grow_prog
    (map (fun k => EAdd 20 (Z.of_nat k) 0 (2^32 * Z.of_nat k + 1)) (seq 0 10) ++
     [ECancel (2^32 * 2 + 1); EPoll 400] ++
     map (fun k => EFire (2^32 * Z.of_nat k + 1) 20 (Z.of_nat k) 0) [0; 1; 3; 4; 5; 6; 7; 8; 9]%nat ++ [EDone 400 16]).
Proof. split; [cbn; intuition lia|]. eexists. vm_compute. reflexivity. Qed.

(** ** C35 *)
(** A poll at least a full turn (256 ms) after the timer's timestamp fires all
    that is due; and so does every poll of a program that polls at whole ticks
    and at least once per turn. *)
Theorem timer_due_fires_partial :
  forall oom start scr os a timeout ty d id b now c1 now' ret c2,
    0 <= start < INVALID -> script_ok oom scr -> tops_ok oom start os ->
    run start scr os (a ++ EAdd timeout ty d id :: b ++ EPoll now :: c1 ++ EDone now' ret :: c2) ->
    id <> INVALID -> quiet id b -> quiet id c1 -> (forall x, ~ In (EPoll x) c1) ->
    (256 <= now - epoch start (a ++ EAdd timeout ty d id :: b) \/ tops_aligned start os) ->
    now' = now /\ now < epoch start a + timeout + 1.
Proof.
  intros oom start scr os a timeout ty d id b now c1 now' ret c2 Hs Hc Ho Hr Hi Hqb Hqc Hnp Hor.
  assert (HR : exists slack v', rules slack oom (mk_view start 0 []) (a ++ EAdd timeout ty d id :: b ++ EPoll now :: c1 ++ EDone now' ret :: c2) v' /\
     slack (now - epoch start (a ++ EAdd timeout ty d id :: b)) = 1).
  { destruct Hor as [H256|Hal].
    - destruct (run_rules _ _ _ _ _ Hs Hc Ho Hr) as [v R]. exists slack_any, v. split; [exact R|].
      unfold slack_any. destruct (Z.leb_spec 256 (now - epoch start (a ++ EAdd timeout ty d id :: b))); lia.
    - destruct (aligned_program oom start scr os Hs Hc Ho Hal) as (w & tr & v & E & R & _). destruct Hr as [w' E'].
      rewrite E in E'. injection E' as _ ->. exists slack_one, v. split; [exact R|reflexivity]. }
  destruct HR as (slack & v & R & Hsl).
  replace (a ++ EAdd timeout ty d id :: b ++ EPoll now :: c1 ++ EDone now' ret :: c2)
    with ((a ++ EAdd timeout ty d id :: b) ++ EPoll now :: c1 ++ EDone now' ret :: c2) in R
    by (rewrite <- app_assoc; reflexivity).
  apply rules_split in R as (m & R1 & R2). inversion R2 as [|? ? m' ? ? Rp Rc]; subst.
  pose proof (rules_base _ _ _ _ _ R1) as Hb. cbn [base] in Hb.
  apply rules_split in Rc as (m2 & R3 & R4). inversion R4 as [|? ? m3 ? ? Rd _]; subst.
  assert (Hlt : now < INVALID) by (inversion Rp; subst; lia).
  assert (Hnow : now' = now).
  { inversion Rp; subst. cbn [base] in *. pose proof (rules_gap _ _ _ _ _ R3 Hnp) as Hg. cbn [gap] in Hg.
    pose proof (rules_last _ _ _ _ _ now R3) as L. inversion Rd; subst. cbn [gap] in Hg. rewrite Hg in L |- *.
    unfold last_of in L. cbn [gap base] in L. rewrite <- L; [now apply clock_noPoll|].
    match goal with |- context [?x <? 16] => destruct (x <? 16) end; lia. }
  split; [exact Hnow|].
  destruct (Z.eq_dec (epoch start a + timeout) INVALID) as [Hl|Hl]; [lia|].
  destruct (pending_facts _ _ _ _ _ _ _ _ _ _ _ R1 eq_refl Hi Hl Hqb) as (G & Hin & _).
  assert (Hlate : forall i dl ty d, In (i, (dl, ty, d)) (pend m2) -> now' < dl + slack (gap m2)) by (inversion Rd; subst; assumption).
  assert (Hp : pend m' = pend m /\ gap m' = now - base m) by (inversion Rp; subst; split; reflexivity).
  destruct Hp as [Hp Hgap]. rewrite <- Hp in Hin.
  apply (quiet_keeps _ _ _ _ _ _ _ R3 Hqc) in Hin. specialize (Hlate _ _ _ _ Hin).
  rewrite (rules_gap _ _ _ _ _ R3 Hnp), Hgap, Hb, Hsl in Hlate. lia.
Qed.
Print Assumptions timer_due_fires_partial.
Example timer_due_example :
  tops_aligned 0 [TOp (Add 100 1 1 true); TPoll 32; TPoll 96; TPoll 112] /\
  tops_ok false 0 [TOp (Add 100 1 1 true); TPoll 32; TPoll 96; TPoll 112] /\
  run 0 [] [TOp (Add 100 1 1 true); TPoll 32; TPoll 96; TPoll 112]
    ([] ++ EAdd 100 1 1 6 :: [EPoll 32; EDone 32 16] ++ EPoll 96 :: [] ++ EDone 96 16 ::
     [EPoll 112; EFire 6 100 1 1; EDone 112 0]).
Proof. split; [cbn; lia|]. split; [cbn; lia|]. eexists. vm_compute. reflexivity. Qed.
(** With other polling patterns a due timer is missed: 24 ms past the deadline
    (more than a tick) the poll at 124 does not fire it. *)
Theorem timer_due_fires_refuted :
  exists scr os a id b now ret c,
    script_ok false scr /\ tops_ok false 0 os /\
    run 0 scr os (a ++ EAdd 100 1 1 id :: b ++ EPoll now :: EDone now ret :: c) /\ quiet id b /\
    epoch 0 a + 100 + 16 <= now.
Proof.
  exists [], [TOp (Add 100 1 1 true); TPoll 31; TPoll 62; TPoll 93; TPoll 124], [], 6,
    [EPoll 31; EDone 31 16; EPoll 62; EDone 62 16; EPoll 93; EDone 93 16], 124, 16, [].
  split; [constructor|]. split; [cbn; lia|]. split; [eexists; vm_compute; reflexivity|].
  split; [|cbn; lia]. intros e H. repeat destruct H as [<-|H]; try exact I. destruct H.
Qed.
Print Assumptions timer_due_fires_refuted.

(** ** C36 *)
(** The returned value: what is left of the tick, never more than a tick.
    Without any assumption on the state or the timestamp. *)
Theorem timer_poll_interval :
  forall w now w' tr, timer_timeout w now = Ok (w', tr) ->
    exists tr' ret, tr = EPoll now :: tr' ++ [EDone now ret] /\ 0 <= ret <= 16 /\
      (0 <= ts (wt w) <= now -> now < 2^64 ->
       ret = if now - ts (wt w) <=? 16 then 16 - (now - ts (wt w)) else 16).
Proof.
  intros w now w' tr H. unfold timer_timeout in H. cbv zeta in H.
  set (time := u64 (now - ts (wt w))) in H.
  assert (Hret : forall ret, ret = (if u64 (TICK - time) <? TICK then u64 (TICK - time) else TICK) ->
     0 <= ret <= 16 /\ (0 <= ts (wt w) <= now -> now < 2^64 ->
       ret = if now - ts (wt w) <=? 16 then 16 - (now - ts (wt w)) else 16)).
  { intros ret ->. split.
    - unfold TICK. pose proof (u64_range (16 - time)). destruct (Z.ltb_spec (u64 (16 - time)) 16); lia.
    - intros H1 H2. unfold time. rewrite (u64_small (now - ts (wt w))) by lia. apply ret_range. lia. }
  destruct (_ =? 0).
  - injection H as <- <-. exists []. eexists. split; [reflexivity|]. now apply Hret.
  - destruct (turn _ _ _) as [[w1 e]| |]; cbn [bind] in H; [|discriminate|discriminate]. injection H as <- <-.
    exists e. eexists. split; [reflexivity|]. now apply Hret.
Qed.
Print Assumptions timer_poll_interval.
Example timer_poll_interval_example :
  exists w', timer_timeout (mk_world (timer_init 100) [] []) 109 = Ok (w', [EPoll 109; EDone 109 7]).
Proof. vm_example. Qed.

(** ** C64 *)
(** Cancelling an id whose timer has ended, while no later timer was given
    the same id, does nothing at all: the timer, and with it whatever happens
    later, is the same as without the call.  (What is missing: the id may have
    been given to a later timer, see below.) *)
Theorem timer_stale_cancel_partial :
  forall oom start scr os w tr k id,
    0 <= start < INVALID -> script_ok oom scr -> tops_ok oom start os ->
    do_tops (mk_world (timer_init start) [] scr) os = Ok (w, tr) ->
    nth_error (ids w) k = Some id ->
    (forall a timeout ty d b, tr = a ++ EAdd timeout ty d id :: b -> ~ quiet id b) ->
    do_op w (Cancel k) = Ok (w, [ECancel id]).
Proof.
  intros oom start scr os w tr k id Hs Hc Ho E Hk Hq.
  destruct (any_program oom start scr os Hs Hc Ho) as (w' & tr' & v & E' & R & W).
  rewrite E in E'. injection E' as <- <-. cbn [do_op]. rewrite Hk.
  rewrite (cancel_unused _ (pend v) id (wi _ _ _ W)); cbn [bind]; [now destruct w| |].
  - pose proof (w_ids _ _ _ W) as F. rewrite Forall_forall in F. apply F. now apply nth_error_In in Hk.
  - intros r Hr. destruct (provenance _ _ _ _ _ _ _ R (good_start start) Hr) as [[[] _]|(a1 & a2 & to & ty & d & -> & Hq2 & _)].
    exact (Hq a1 to ty d a2 eq_refl Hq2).
Qed.
Print Assumptions timer_stale_cancel_partial.
(** The first timer has fired while a second one, in another slot, is
    pending. *)
Example timer_stale_cancel_example :
  exists w, do_tops (mk_world (timer_init 0) [] []) [TOp (Add 20 1 1 true); TOp (Add 900 2 2 true); TPoll 400] =
      Ok (w, [EAdd 20 1 1 1; EAdd 900 2 2 8; EPoll 400; EFire 1 20 1 1; EDone 400 16]) /\
    nth_error (ids w) 0 = Some 1 /\
    (forall a timeout ty d b, [EAdd 20 1 1 1; EAdd 900 2 2 8; EPoll 400; EFire 1 20 1 1; EDone 400 16]
       = a ++ EAdd timeout ty d 1 :: b -> ~ quiet 1 b) /\
    do_op w (Cancel 0) = Ok (w, [ECancel 1]).
Proof.
  eexists. split; [vm_compute; reflexivity|]. split; [reflexivity|]. split; [|vm_compute; reflexivity].
  intros a to ty d b H Q. destruct a as [|? [|? [|? [|? [|? [|]]]]]]; cbn in H; try discriminate.
  injection H as <- <- <- <-. apply (Q (EFire 1 20 1 1)); [cbn; tauto|reflexivity].
Qed.
(** An id kept after its timer fired may have been given to another timer:
    cancelling it then silently ends the other timer. *)
Theorem timer_stale_cancel_refuted :
  exists id, run 0 [] [TOp (Add 20 1 1 true); TPoll 400; TOp (Add 20 2 2 true); TOp (Cancel 0); TPoll 1000]
    [EAdd 20 1 1 id; EPoll 400; EFire id 20 1 1; EDone 400 16; EAdd 20 2 2 id; ECancel id; EPoll 1000; EDone 1000 16].
Proof. eexists. eexists. vm_compute. reflexivity. Qed.
Print Assumptions timer_stale_cancel_refuted.
