(** C95-C97: perf/sc_perf.c. *)
From Coq Require Import QArith.
From Verif Require Import Base PerfModel.
Local Open Scope Z_scope.
Local Open Scope list_scope.

(** ** Histories and what they leave behind *)
(** A call with the answers it gets from the system. *)
Inductive op :=
| Start (fds : list Z) (enable : bool) (clock : option (Z * Z))
| Pause (disable : bool) (clock : option (Z * Z))
| End_ (disable : bool) (clock : option (Z * Z)) (rs : list reading).
Definition step (o : op) (p : perf) : res (list pact * option perf) :=
  match o with
  | Start fds en ck => perf_start fds en ck p
  | Pause dis ck => perf_pause dis ck p
  | End_ dis ck rs => perf_end dis ck rs p
  end.
(** A history; nothing happens after an abort. *)
Fixpoint run (l : list op) (p : perf) : res (list pact * option perf) :=
  match l with
  | [] => Ok ([], Some p)
  | o :: l =>
      let* (a, q) := step o p in
      match q with
      | None => Ok (a, None)
      | Some q => let* (b, r) := run l q in Ok (a ++ b, r)
      end
  end.
(** The counters open after the actions; None if one is read or closed that is not open. *)
Fixpoint drop (fd : Z) (now : list (Z * event)) : option (list (Z * event)) :=
  match now with
  | [] => None
  | x :: r => if fst x =? fd then Some r else match drop fd r with Some r => Some (x :: r) | None => None end
  end.
Fixpoint held (l : list pact) (now : list (Z * event)) : option (list (Z * event)) :=
  match l with
  | [] => Some now
  | POpen fd e :: l => held l (now ++ [(fd, e)])
  | PClose fd :: l => match drop fd now with Some now => held l now | None => None end
  | PRead fd :: l => if existsb (fun x => fst x =? fd) now then held l now else None
  | _ :: l => held l now
  end.
(** Whether the counters are enabled after the actions. *)
Fixpoint counting (l : list pact) (now : bool) : bool :=
  match l with
  | [] => now
  | PEnable :: l => counting l true
  | PDisable :: l => counting l false
  | _ :: l => counting l now
  end.
(** The events to be counted, in the order of the table: clocks, page faults, context
    switches, migrations and minor faults (kind 1); cycles, instructions and cache misses
    (kind 0); read misses of the first level caches for data and instructions
    (kind 3, bit 16 set). *)
Definition expected : list event :=
  [(1, 0); (1, 1); (1, 2); (1, 3); (1, 4); (1, 5); (0, 0); (0, 1); (0, 3); (3, 65536); (3, 65537)].

Lemma hw_expected : perf_hw = expected.
Proof. reflexivity. Qed.
Definition fds_of (p : perf) : list (Z * event) := map (fun i => (ifd i, ev i)) (items p).
Definition good (p : perf) (now : list (Z * event)) : Prop :=
  if inited p then now = fds_of p /\ map ev (items p) = perf_hw else now = [] /\ running p = false.
Lemma held_app a b now mid : held a now = Some mid -> held (a ++ b) now = held b mid.
Proof.
  revert now. induction a as [|x a IH]; intros now H; cbn in *; [now injection H as ->|].
  destruct x; auto.
  - destruct (drop fd now); [auto|discriminate].
  - destruct (existsb _ now); [auto|discriminate].
Qed.
Lemma counting_app a b now : counting (a ++ b) now = counting b (counting a now).
Proof. revert now. induction a as [|x a IH]; intros now; cbn; [reflexivity|]. destruct x; auto. Qed.
Lemma set_ok its : forall fds a r now, perf_set its fds = (a, r) ->
  (forall now' b, counting (a ++ b) now' = counting b now') /\
  match r with
  | Some r => held a now = Some (now ++ map (fun i => (ifd i, ev i)) r) /\ map ev r = map ev its
  | None => held a now <> None
  end.
Proof.
  induction its as [|i its IH]; intros fds a r now E; cbn in E.
  - injection E as <- <-. cbn. rewrite app_nil_r. auto.
  - destruct fds as [|fd fds]; [injection E as <- <-; cbn; split; [auto|discriminate]|].
    destruct (fd =? -1); [injection E as <- <-; cbn; split; [auto|discriminate]|].
    destruct (perf_set its fds) as [a' r'] eqn:E'. injection E as <- <-.
    destruct (IH _ _ _ (now ++ [(fd, ev i)]) E') as [H1 H2]. split; [intros; cbn; apply H1|].
    destruct r' as [r'|]; cbn [held map ifd ev].
    + destruct H2 as [H2 H3]. rewrite H2, <- app_assoc, H3. auto.
    + exact H2.
Qed.
Lemma read_ok its : forall rs a r now, perf_read its rs = (a, r) -> (forall i, In i its -> In (ifd i) (map fst now)) ->
  held a now = Some now /\ (forall c, counting a c = c) /\
  match r with Some r => map (fun i => (ifd i, ev i)) r = map (fun i => (ifd i, ev i)) its | None => True end.
Proof.
  assert (X : forall fd now, In fd (map fst now) -> existsb (fun x : Z * event => fst x =? fd) now = true).
  { intros fd now H. apply in_map_iff in H as (x & <- & Hx). apply existsb_exists. exists x. split; [assumption|apply Z.eqb_refl]. }
  induction its as [|i its IH]; intros rs a r now E Hin; cbn in E.
  - injection E as <- <-. auto.
  - destruct rs as [|[[[v en] ru]|] rs].
    + injection E as <- <-. cbn. rewrite X by (apply Hin; now left). auto.
    + destruct (perf_read its rs) as [a' r'] eqn:E'. injection E as <- <-.
      destruct (IH _ _ _ now E' ltac:(intros; apply Hin; now right)) as (H1 & H2 & H3).
      cbn [held ifd counting]. rewrite X by (apply Hin; now left). split; [assumption|]. split; [assumption|].
      destruct r' as [r'|]; [|exact I]. cbn [map ifd ev]. congruence.
    + injection E as <- <-. cbn. rewrite X by (apply Hin; now left). auto.
Qed.
Lemma close_ok (its : list item) : held (map (fun i => PClose (ifd i)) its) (map (fun i => (ifd i, ev i)) its) = Some [].
Proof. induction its as [|i its IH]; cbn; [reflexivity|]. rewrite Z.eqb_refl. exact IH. Qed.
Lemma close_counting (its : list item) c : counting (map (fun i => PClose (ifd i)) its) c = c.
Proof. induction its; cbn; auto. Qed.
Lemma pause_good dis ck p a q now : perf_pause dis ck p = Ok (a, q) -> good p now ->
  held a now = Some now /\
  match q with
  | Some q => good q now /\ inited q = true /\ running q = false /\ items q = items p /\ counting a (running p) = false
  | None => True
  end.
Proof.
  unfold perf_pause, good. intros E G. destruct (inited p) eqn:I; cbn [negb] in E; [|injection E as <- <-; auto].
  destruct (running p) eqn:R; cbn [negb] in E.
  - destruct dis; cbn [negb] in E; [|injection E as <- <-; auto].
    destruct ck as [ts|]; [|injection E as <- <-; auto].
    destruct (time_nano ts); try discriminate E. injection E as <- <-. cbn. rewrite ?I, ?R. auto 10.
  - injection E as <- <-. rewrite I, R. auto 10.
Qed.
Lemma step_good o p a q now : step o p = Ok (a, q) -> good p now ->
  match q with
  | Some q => exists now', held a now = Some now' /\ good q now' /\ counting a (running p) = running q
  | None => held a now <> None
  end.
Proof.
  intros E G. destruct o as [fds en ck|dis ck|dis ck rs]; cbn in E.
  - unfold perf_start in E. destruct (inited p) eqn:I; cbn [negb] in E.
    + destruct en; cbn [negb] in E; [|injection E as <- <-; discriminate].
      destruct ck as [ts|]; [|injection E as <- <-; discriminate].
      destruct (time_nano ts); try discriminate E. injection E as <- <-. exists now. cbn. unfold good in *. rewrite I in G. cbn. rewrite I. auto.
    + destruct (perf_set (items (perf_clear p)) fds) as [a' its] eqn:E'.
      destruct (set_ok _ _ _ _ now E') as [H1 H2].
      unfold good in G. rewrite I in G. destruct G as [-> Hr].
      destruct its as [its|]; [|injection E as <- <-; exact H2]. destruct H2 as [H2 H3].
      destruct en; cbn [negb] in E; [|injection E as <- <-; rewrite H2; discriminate].
      destruct ck as [ts|]; [|injection E as <- <-; rewrite (held_app _ _ _ _ H2); discriminate].
      destruct (time_nano ts); try discriminate E. injection E as <- <-. rewrite (held_app _ _ _ _ H2). cbn [held].
      eexists. split; [reflexivity|]. unfold good. cbn [inited running items]. split; [|rewrite H1; reflexivity].
      split; [reflexivity|]. rewrite H3. reflexivity.
  - destruct (pause_good _ _ _ _ _ _ E G) as (H1 & H2). destruct q as [q|]; [|rewrite H1; discriminate].
    destruct H2 as (H2 & H3 & H4 & H5 & H6). exists now. rewrite H4. auto.
  - unfold perf_end in E. destruct (inited p) eqn:I; cbn [negb] in E; [|injection E as <- <-; discriminate].
    destruct (perf_pause dis ck p) as [[a1 q1]| |] eqn:E1; try discriminate E. cbn [bind] in E.
    destruct (pause_good _ _ _ _ _ _ E1 G) as (H1 & H2). destruct q1 as [q1|]; [|injection E as <- <-; rewrite H1; discriminate].
    destruct H2 as (H2 & H3 & H4 & H5 & H6). unfold good in H2. rewrite H3 in H2. destruct H2 as [Hnow Hev].
    destruct (perf_read (items q1) rs) as [b its] eqn:E2.
    assert (Hin : forall i, In i (items q1) -> In (ifd i) (map fst now)).
    { intros i Hi. rewrite Hnow. unfold fds_of. rewrite map_map. cbn. apply in_map_iff. eauto. }
    destruct (read_ok _ _ _ _ now E2 Hin) as (R1 & R2 & R3).
    destruct its as [its|].
    + injection E as <- <-. rewrite (held_app _ _ _ _ H1), (held_app _ _ _ _ R1).
      rewrite Hnow. unfold fds_of. rewrite <- R3. rewrite (held_app _ _ _ _ (close_ok its)). cbn [held].
      exists []. split; [reflexivity|]. split; [split; reflexivity|]. rewrite !counting_app, H6, R2, close_counting. reflexivity.
    + injection E as <- <-. rewrite (held_app _ _ _ _ H1), R1. discriminate.
Qed.
Lemma run_good l : forall p a q now, run l p = Ok (a, q) -> good p now ->
  match q with
  | Some q => exists now', held a now = Some now' /\ good q now' /\ counting a (running p) = running q
  | None => held a now <> None
  end.
Proof.
  induction l as [|o l IH]; intros p a q now E G; cbn in E.
  - injection E as <- <-. exists now. auto.
  - destruct (step o p) as [[a1 q1]| |] eqn:E1; try discriminate E. cbn [bind] in E.
    pose proof (step_good _ _ _ _ _ E1 G) as H. destruct q1 as [q1|]; [|injection E as <- <-; exact H].
    destruct H as (now1 & H1 & H2 & H3).
    destruct (run l q1) as [[b r]| |] eqn:E2; try discriminate E. cbn [bind] in E. injection E as <- <-.
    pose proof (IH _ _ _ _ E2 H2) as H. destruct r as [r|].
    + destruct H as (now' & K1 & K2 & K3). exists now'. rewrite (held_app _ _ _ _ H1), counting_app, H3. auto.
    + rewrite (held_app _ _ _ _ H1). exact H.
Qed.

(** C95.  For every history of start, pause and end with any answers: no counter is
    read or closed that is not open.  As long as the process lives, between start and
    end exactly the counters of the table are open, in its order, one each; else
    none; and they are enabled exactly between start and the pause or end. *)
Theorem perf_descriptors l a q :
  run l perf0 = Ok (a, q) ->
  match q with
  | Some p => (held a [] = Some [] /\ inited p = false \/
               exists now, held a [] = Some now /\ map snd now = expected /\ inited p = true) /\
              counting a false = running p /\ (running p = true -> inited p = true)
  | None => held a [] <> None
  end.
Proof.
  intros E. pose proof (run_good l perf0 a q [] E ltac:(split; reflexivity)) as H. destruct q as [p|]; [|exact H].
  destruct H as (now & H1 & H2 & H3). cbn in H3. unfold good in H2. destruct (inited p) eqn:I.
  - destruct H2 as [-> H2]. split; [|split; [exact H3|reflexivity]]. right. exists (fds_of p). split; [exact H1|]. split; [|reflexivity].
    unfold fds_of. rewrite map_map. cbn. rewrite <- hw_expected. exact H2.
  - destruct H2 as [-> H2]. split; [left; auto|]. split; [exact H3|]. congruence.
Qed.
Print Assumptions perf_descriptors.
Definition eleven : list Z := [3; 4; 5; 6; 7; 8; 9; 10; 11; 12; 13].
Example perf_descriptors_ex : exists a p, run [Start eleven true (Some (5, 10)); Pause true (Some (7, 0))] perf0 = Ok (a, Some p) /\
  held a [] = Some (combine eleven expected) /\ counting a false = false /\ total p = 1999999990.
Proof. do 2 eexists. split; [vm_compute; reflexivity|]. split; [vm_compute; reflexivity|]. split; vm_compute; reflexivity. Qed.

(** C95.  Pausing or ending before starting ends the process and touches nothing. *)
Theorem perf_order p dis ck rs : inited p = false ->
  perf_pause dis ck p = Ok ([], None) /\ perf_end dis ck rs p = Ok ([], None).
Proof. intros H. unfold perf_pause, perf_end. rewrite H. auto. Qed.
Print Assumptions perf_order.
Example perf_order_ex : inited perf0 = false.
Proof. reflexivity. Qed.

(** ** The time *)
(** A reading of the clock in nanoseconds. *)
Definition ns (ts : Z * Z) : Z := fst ts * 1000000000 + snd ts.
(** The time the counters were enabled during the calls, [since] when (if they are). *)
Fixpoint enabled_for (l : list op) (since : option Z) : Z :=
  match l with
  | [] => 0
  | Start _ _ (Some ts) :: l => enabled_for l (match since with Some s => Some s | None => Some (ns ts) end)
  | Pause _ (Some ts) :: l => match since with Some s => ns ts - s + enabled_for l None | None => enabled_for l None end
  | End_ _ (Some ts) _ :: l => match since with Some s => ns ts - s + enabled_for l None | None => enabled_for l None end
  | _ :: l => enabled_for l since
  end.
(** The readings of the clock do not go back ([t] the last one) and fit 63 bits. *)
Fixpoint forward (t : Z) (l : list op) : Prop :=
  match l with
  | [] => True
  | Start _ _ (Some ts) :: l | Pause _ (Some ts) :: l | End_ _ (Some ts) _ :: l => t <= ns ts < 2 ^ 63 /\ forward (ns ts) l
  | _ :: l => forward t l
  end.
(** Only starts and pauses, no start while counting. *)
Fixpoint alternates (l : list op) (on : bool) : Prop :=
  match l with
  | [] => True
  | Start _ _ _ :: l => on = false /\ alternates l true
  | Pause _ _ :: l => alternates l false
  | End_ _ _ _ :: l => False
  end.

Lemma nano_ok ts : 0 <= ns ts < 2 ^ 63 -> time_nano ts = Ok (ns ts).
Proof.
  intros H. unfold time_nano. unfold ns in *. cbv zeta.
  replace (snd ts + fst ts * 1000 * 1000 * 1000) with (fst ts * 1000000000 + snd ts) by lia.
  rewrite (proj2 (Z.leb_le _ _)) by lia. rewrite (proj2 (Z.ltb_lt _ _)) by lia. cbn [andb]. rewrite u64_small by lia. reflexivity.
Qed.
Lemma session_time l : forall dis ck rs p a q t,
  forward t (l ++ [End_ dis ck rs]) -> alternates l (running p) -> 0 <= t -> 0 <= total p ->
  (if running p then total p + (t - start p) <= t /\ 0 <= start p <= t else total p <= t) -> (inited p = false -> running p = false /\ total p = 0) ->
  run (l ++ [End_ dis ck rs]) p = Ok (a, Some q) ->
  exists b rows, a = b ++ [PPrint (total p + enabled_for (l ++ [End_ dis ck rs]) (if running p then Some (start p) else None)) rows] /\
    q = perf_clear p.
Proof.
  induction l as [|o l IH]; intros dis ck rs p a q t F A Ht Hp Hr Hi E; cbn [app run] in E.
  - destruct (step (End_ dis ck rs) p) as [[a1 q1]| |] eqn:E1; try discriminate E. cbn [bind] in E.
    destruct q1 as [q1|]; [|discriminate E]. injection E as <- <-. cbn in E1. unfold perf_end in E1.
    destruct (inited p) eqn:I; cbn [negb] in E1; [|discriminate E1].
    destruct (perf_pause dis ck p) as [[a2 q2]| |] eqn:E2; try discriminate E1. cbn [bind] in E1.
    destruct q2 as [q2|]; [|discriminate E1].
    destruct (perf_read (items q2) rs) as [b its]. destruct its as [its|]; [|discriminate E1]. injection E1 as <- <-.
    exists (a2 ++ b ++ map (fun i => PClose (ifd i)) its). eexists. rewrite app_nil_r, <- !app_assoc. split; [|reflexivity].
    do 3 f_equal. f_equal. f_equal. unfold perf_pause in E2. rewrite I in E2. cbn [negb] in E2.
    destruct (running p) eqn:R; cbn [negb] in E2.
    + destruct dis; cbn [negb] in E2; [|discriminate E2]. destruct ck as [ts|]; [|discriminate E2].
      cbn in F. rewrite nano_ok in E2 by lia. cbn [bind] in E2. injection E2 as <- <-. cbn [total app enabled_for].
      rewrite (u64_small (ns ts - start p)) by lia. rewrite u64_small by lia. lia.
    + injection E2 as <- <-. cbn [app enabled_for]. destruct ck; lia.
  - destruct (step o p) as [[a1 q1]| |] eqn:E1; try discriminate E. cbn [bind] in E.
    destruct q1 as [q1|]; [|discriminate E].
    destruct (run (l ++ [End_ dis ck rs]) q1) as [[b r]| |] eqn:E2; try discriminate E. cbn [bind] in E. injection E as <- ->.
    destruct o as [fds en ck'|dis' ck'|]; cbn [alternates] in A; [| |contradiction].
    + destruct A as [R A]. cbn in E1. unfold perf_start in E1. rewrite R in *.
      destruct ck' as [ts|].
      2: { exfalso. destruct (negb (inited p)); [destruct (perf_set _ _) as [? [?|]]|]; try (destruct en); discriminate E1. }
      cbn [app forward] in F. destruct F as [F1 F2]. rewrite nano_ok in E1 by lia. cbn [bind] in E1.
      assert (Q : running q1 = true /\ total q1 = total p /\ start q1 = ns ts /\ inited q1 = true).
      { destruct (inited p) eqn:I; cbn [negb] in E1.
        - destruct en; [|discriminate E1]. injection E1 as <- <-. cbn. auto.
        - destruct (perf_set _ _) as [? [?|]]; [|discriminate E1]. destruct en; [|discriminate E1]. injection E1 as <- <-. cbn.
          destruct (Hi eq_refl) as [_ ->]. auto. }
      destruct Q as (Q1 & Q2 & Q3 & Q4).
      destruct (IH dis ck rs q1 b q (ns ts) F2 ltac:(rewrite Q1; exact A) ltac:(lia) ltac:(lia) ltac:(rewrite Q1; lia) ltac:(congruence) E2)
        as (b' & rows & -> & ->).
      exists (a1 ++ b'), rows. split; [|reflexivity]. rewrite <- app_assoc. rewrite Q1, Q2, Q3. reflexivity.
    + cbn in E1. unfold perf_pause in E1. destruct (inited p) eqn:I; cbn [negb] in E1; [|discriminate E1].
      destruct (running p) eqn:R; cbn [negb] in E1.
      * destruct dis'; cbn [negb] in E1; [|discriminate E1]. destruct ck' as [ts|]; [|discriminate E1].
        cbn [app forward] in F. destruct F as [F1 F2]. rewrite nano_ok in E1 by lia. cbn [bind] in E1. injection E1 as <- <-.
        rewrite (u64_small (ns ts - start p)) in E2 by lia. rewrite u64_small in E2 by lia.
        match type of E2 with run _ ?q1 = _ => destruct (IH dis ck rs q1 b q (ns ts) F2 ltac:(exact A) ltac:(lia) ltac:(cbn; lia) ltac:(cbn; lia) ltac:(discriminate) E2) as (b' & rows & -> & ->) end.
        exists ([PDisable] ++ b'), rows. cbn [total running app enabled_for]. split; [|reflexivity]. do 4 f_equal. lia.
      * injection E1 as <- <-.
        assert (exists t', forward t' (l ++ [End_ dis ck rs]) /\ t <= t') as (t' & F' & Ht').
        { cbn [app forward] in F. destruct ck' as [ts|]; [exists (ns ts)|exists t]; intuition lia. }
        destruct (IH dis ck rs p b q t' F' ltac:(rewrite R; exact A) ltac:(lia) ltac:(lia) ltac:(rewrite R; lia) ltac:(congruence) E2)
          as (b' & rows & -> & ->).
        exists b', rows. rewrite R. cbn [app enabled_for]. destruct ck'; auto.
Qed.
(** C96.  A session of starts and pauses, ended by end, without starting twice in a row:
    the time printed is the time the counters were enabled, and afterwards everything
    is as before the first start.  Missing: start while counting, see perf_time_refuted. *)
Theorem perf_time_partial l dis ck rs p a q :
  inited p = false -> running p = false -> total p = 0 ->
  forward 0 (l ++ [End_ dis ck rs]) -> alternates l false ->
  run (l ++ [End_ dis ck rs]) p = Ok (a, Some q) ->
  exists b rows, a = b ++ [PPrint (enabled_for (l ++ [End_ dis ck rs]) None) rows] /\
    inited q = false /\ running q = false /\ total q = 0.
Proof.
  intros H1 H2 H3 F A E.
  destruct (session_time l dis ck rs p a q 0 F ltac:(rewrite H2; exact A) ltac:(lia) ltac:(lia) ltac:(rewrite H2; lia) ltac:(auto) E) as (b & rows & Ea & ->).
  rewrite H2, H3 in Ea. exists b, rows. auto.
Qed.
Print Assumptions perf_time_partial.
Definition readings : list reading := repeat (Some (100, 20, 10)) 11.
Example perf_time_ex :
  let l := [Start eleven true (Some (5, 10)); Pause true (Some (7, 0)); Start [] true (Some (9, 1))] in
  let e := End_ true (Some (9, 5)) readings in
  forward 0 (l ++ [e]) /\ alternates l false /\ enabled_for (l ++ [e]) None = 1999999994 /\
  exists a q rows, run (l ++ [e]) perf0 = Ok (a, Some q) /\ last a PEnable = PPrint 1999999994 rows.
Proof.
  cbv zeta. split; [cbn; repeat split; discriminate|]. split; [cbn; auto|]. split; [reflexivity|].
  do 3 eexists. split; vm_compute; reflexivity.
Qed.
(** C96, refuted: started at 1 s and, while counting, again at 9 s, ended at 10 s.  The
    counters were enabled for 9 s, printed is 1 s. *)
Theorem perf_time_refuted : exists l a q rows, forward 0 l /\ enabled_for l None = 9000000000 /\
  run l perf0 = Ok (a, Some q) /\ last a PEnable = PPrint 1000000000 rows.
Proof.
  exists [Start eleven true (Some (1, 0)); Start eleven true (Some (9, 0)); End_ true (Some (10, 0)) readings].
  do 3 eexists. split; [cbn; repeat split; discriminate|]. split; [reflexivity|]. split; vm_compute; reflexivity.
Qed.
Print Assumptions perf_time_refuted.

(** ** The values *)
(** The number of events estimated from a count [v] taken while the counter ran for [run]
    out of the [enabled] nanoseconds (perf_event_open(2)). *)
Definition estimate (v enabled run : Z) : Q := (inject_Z v * inject_Z enabled / inject_Z run)%Q.
(** The readings: count, time enabled, time running. *)
Definition of_readings (rs : list (Z * Z * Z)) : list reading := map Some rs.
Lemma read_rows its : forall rs, length rs = length its -> Forall (fun r => let '(_, en, ru) := r in 0 < ru) rs -> Forall (fun r => let '(_, en, ru) := r in 0 < en) rs ->
  Forall (fun i => value i = 0%Q) its ->
  exists a r, perf_read its (of_readings rs) = (a, Some r) /\ map ev r = map ev its /\
    Forall2 (fun i x => let '(v, en, ru) := x in (value i == inject_Z v * (inject_Z ru / inject_Z en) /\ active i == inject_Z ru / inject_Z en)%Q) r rs.
Proof.
  induction its as [|i its IH]; intros [|[[v en] ru] rs] L F1 F2 F3; try discriminate L.
  - exists [], []. cbn. auto.
  - pose proof (Forall_inv F3) as V0. cbn beta in V0. inversion F1; subst. inversion F2; subst. inversion F3; subst. cbn in L. injection L as L.
    destruct (IH rs L ltac:(assumption) ltac:(assumption) ltac:(assumption)) as (a & r & E & Hev & HF).
    cbn [of_readings map perf_read]. fold (of_readings rs). rewrite E.
    rewrite (proj2 (Z.gtb_lt _ _)) by lia. rewrite (proj2 (Z.gtb_lt _ _)) by lia. cbn [andb].
    do 2 eexists. split; [reflexivity|]. cbn [map ev value active]. split; [congruence|]. constructor; [|assumption].
    cbn [value active]. split; [|reflexivity]. rewrite V0. ring.
Qed.
(** C97.  At the end of a first measurement each event of the table is printed once, in
    order; for counters that ran all the time the value is the count and the active
    share 100.  Missing: counters that did not run all the time, see perf_value_refuted. *)
Theorem perf_value_partial fds ck ck2 rs a q :
  Forall (fun r => let '(_, en, ru) := r in 0 < en /\ ru = en) rs -> length rs = length expected ->
  run [Start fds true (Some ck); End_ true (Some ck2) (of_readings rs)] perf0 = Ok (a, Some q) ->
  exists b t rows, a = b ++ [PPrint t rows] /\ map (fun r => fst (fst r)) rows = expected /\
    Forall2 (fun row r => let '(v, en, ru) := r in (snd (fst row) == estimate v en ru /\ snd (fst row) == inject_Z v /\ snd row == 100)%Q) rows rs.
Proof.
  intros F L E. cbn [run step] in E. unfold perf_start in E. change (negb (inited perf0)) with true in E. cbn iota in E.
  destruct (perf_set (items (perf_clear perf0)) fds) as [a1 [its|]] eqn:E1; [|discriminate E].
  destruct (set_ok _ _ _ _ [] E1) as [_ [_ Hev]].
  cbn [negb] in E. destruct (time_nano ck) as [t1| |]; try discriminate E. cbn [bind] in E.
  unfold perf_end, perf_pause in E. cbn [inited running negb bind] in E.
  destruct (time_nano ck2) as [t2| |]; try discriminate E. cbn [bind items] in E.
  assert (Hv : Forall (fun i => value i = 0%Q) its).
  { assert (V : forall l fds a r, perf_set l fds = (a, Some r) -> Forall (fun i => value i = 0%Q) l -> Forall (fun i => value i = 0%Q) r).
    { clear. induction l as [|i l IH]; intros fds a r E H; cbn in E; [injection E as _ <-; constructor|].
      destruct fds as [|fd fds]; [discriminate E|]. destruct (fd =? -1); [discriminate E|].
      destruct (perf_set l fds) as [a' [r'|]] eqn:E'; [|discriminate E]. injection E as _ <-. inversion H; subst. constructor; [assumption|]. eapply IH; eauto. }
    eapply V; [exact E1|]. repeat (constructor; [reflexivity|]). constructor. }
  destruct (read_rows its rs) as (b & r & Er & Hr & HF); auto.
  { rewrite L, <- (map_length ev its), Hev. reflexivity. }
  { eapply Forall_impl; [|exact F]. intros [[v en] ru] [? ->]. assumption. }
  { eapply Forall_impl; [|exact F]. intros [[v en] ru] [? ->]. assumption. }
  rewrite Er in E. cbn [bind] in E. injection E as <- <-.
  exists ((a1 ++ [PEnable]) ++ [PDisable] ++ b ++ map (fun i => PClose (ifd i)) r). do 2 eexists.
  split; [rewrite app_nil_r; rewrite <- (app_assoc (a1 ++ [PEnable])); f_equal; cbn [app]; f_equal; rewrite <- (app_assoc b); reflexivity|].
  split; [rewrite map_map; change (map ev r = expected); rewrite Hr, Hev; reflexivity|].
  clear - HF F. revert F. induction HF as [|i [[v en] ru] r rs H HF IH]; intros F; [constructor|]. destruct (Forall_inv F) as [Hen ->]. apply Forall_inv_tail in F.
  cbn [map]. constructor; [|auto]. cbn [fst snd]. destruct H as [H1 H2].
  assert (Hne : ~ inject_Z en == 0) by (unfold Qeq; cbn; lia).
  assert (One : (inject_Z en / inject_Z en == 1)%Q) by (field; exact Hne).
  rewrite H1, H2, One. unfold estimate. repeat split; field; exact Hne.
Qed.
Print Assumptions perf_value_partial.
Example perf_value_ex : exists a q, run [Start eleven true (Some (1, 0)); End_ true (Some (2, 0)) (of_readings (repeat (7, 20, 20) 11))] perf0 = Ok (a, Some q).
Proof. do 2 eexists. vm_compute. reflexivity. Qed.
(** C97, refuted: 100 events counted while the counter ran for half of the time stand for
    about 200; printed is 50. *)
Theorem perf_value_refuted : exists a q b t rows,
  run [Start eleven true (Some (1, 0)); End_ true (Some (2, 0)) (of_readings (repeat (100, 20, 10) 11))] perf0 = Ok (a, Some q) /\
  a = b ++ [PPrint t rows] /\ (estimate 100 20 10 == 200)%Q /\ Forall (fun row => (snd (fst row) == 50)%Q) rows /\ rows <> [].
Proof.
  do 5 eexists. split; [vm_compute; reflexivity|]. split; [|split; [reflexivity|split]].
  - match goal with |- ?l = _ ++ [PPrint _ _] => change l with (removelast l ++ [last l PEnable]) end. reflexivity.
  - repeat (constructor; [reflexivity|]). constructor.
  - discriminate.
Qed.
Print Assumptions perf_value_refuted.
