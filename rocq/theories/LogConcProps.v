(** The logger called by several threads: properties. *)
From Coq Require Import String Ascii.
From Verif Require Import Base CStr CNum SigSpec StrSpec StrProofs IniModel LogModel LogSpec LogProofs
  LogConcModel LogConcSpec LogConcProofs LogConcInv.
Local Open Scope list_scope.

Lemma run_good f h w rcs : Forall op_ok h -> run (start f) h = Ok (w, rcs) -> good w.
Proof.
  intros H E. destruct (run_ok h _ _ (start_agrees f) H) as (w' & rcs' & E' & _ & _ & _ & A).
  rewrite E in E'. injection E' as <- _. eapply agrees_good, A.
Qed.

Lemma conf_of at_ w m l : inv at_ w m l -> forall t, exists p, conf at_ Idle (mine t l) p.
Proof.
  intros (lev0 & r0 & _ & _ & _ & _ & T) t. specialize (T t). unfold thread in T.
  destruct (m_prog m t) as [p|]; [|exists Idle; apply T].
  destruct T as [[_ [(rc & _ & C)|[(o & _ & _ & _ & C)|(_ & lv & msg & ao & af & mv & ok & crc & _ & _ & C)]]]
                |[_ (o & lev' & r' & rc & _ & _ & [(C & _)|(_ & C & _)])]]; eauto.
Qed.

Lemma inv_serial at_ w m l : inv at_ w m l -> exists w', serial w l w' /\ (m_own m = None -> world_of m = w').
Proof.
  intros (lev0 & r0 & S & _ & _ & Lo & _). exists (W lev0 r0 (m_name m)). split; [exact S|].
  intro O. destruct (Lo O) as [-> ->]. reflexivity.
Qed.

(** Of a run of the machine. *)
Definition gives (x : res (machine * list event)) (P : machine -> list event -> Prop) : Prop :=
  match x with Ok (m, tr) => P m tr | _ => False end.
Lemma given x P : gives x P -> exists m tr, x = Ok (m, tr) /\ P m tr.
Proof. destruct x as [[m tr]| |]; cbn; try contradiction. eauto. Qed.

(** C110 (build without C11 atomics): the logger may be called by any number of threads.  Whatever
    the interleaving of their steps, nothing undefined happens, and there is one order of the calls,
    each taking effect as a whole at one point between its call and its return, that a single thread
    could have executed with the same results and the same output. *)
Theorem log_threads f h0 w0 rcs0 cs :
  Forall op_ok h0 -> run (start f) h0 = Ok (w0, rcs0) -> Forall call_ok cs ->
  exists m tr l w, mrun false (quiet_machine w0) cs = Ok (m, tr) /\
    seen l = tr /\ (forall t, exists p, at_once Idle (mine t l) p) /\
    serial w0 l w /\ (m_own m = None -> world_of m = w).
Proof.
  intros H0 E0 Hc.
  destruct (mrun_inv false w0 cs _ [] (inv_start false w0 (run_good _ _ _ _ H0 E0)) Hc) as (m & es & d & E & Ed & Hi).
  cbn [app] in Hi. destruct (inv_serial _ _ _ _ Hi) as (w & S & Q).
  exists m, es, d, w. split; [exact E|]. split; [exact Ed|]. split; [|split; [exact S|exact Q]].
  exact (conf_of _ _ _ _ Hi).
Qed.
Print Assumptions log_threads.

Definition fine_ans : answers := mk_answers (Some (text "2026-01-02 03:04:05")) Good Good.
Definition tell (t : Z) (msg : list Z) : op := Log t 1 msg fine_ans fine_ans true true 0.
(** Two threads log at the same time; the second waits for the first. *)
Definition both : list choice :=
  [Call 1 (tell 1 (text "one")); Call 2 (tell 2 (text "two")); Go 2; Go 2; Go 1; Go 2; Go 1; Go 2; Go 2; Go 2; Go 2; Go 2;
   Go 1; Go 1; Go 1; Go 1; Go 1; Go 1; Go 1; Go 1].
Example log_threads_ex : Forall call_ok both /\
  exists w0 rcs0 m tr, run (start (fun _ => None)) [Init 0; SetStdout true] = Ok (w0, rcs0) /\
    mrun false (quiet_machine w0) both = Ok (m, tr) /\ m_own m = None /\
    tr = [Inv 1 (tell 1 (text "one")); Inv 2 (tell 2 (text "two")); Ret 2 0; Ret 1 0] /\
    out (world_of m) = text "[2026-01-02 03:04:05][INFO ][Thread] two[2026-01-02 03:04:05][INFO ][Thread] one".
Proof.
  split; [unfold both; repeat apply Forall_cons; try apply Forall_nil; cbn; try exact I; split; lia|].
  set (w0 := with_lg (start (fun _ => None)) (set_stdout (fst (init 0)) true)). exists w0, [0; 0].
  destruct (given (mrun false (quiet_machine w0) both) (fun m tr => m_own m = None /\
    tr = [Inv 1 (tell 1 (text "one")); Inv 2 (tell 2 (text "two")); Ret 2 0; Ret 1 0] /\
    out (world_of m) = text "[2026-01-02 03:04:05][INFO ][Thread] two[2026-01-02 03:04:05][INFO ][Thread] one"))
    as (m & tr & E & H); [vm_compute; auto|].
  exists m, tr. split; [reflexivity|]. split; [exact E|exact H].
Qed.

(** C111 (build with C11 atomics, the default): the same with messages taking effect at two points,
    the comparison with the level and later the output as a whole.  Missing: one point for a message, for
    which it is false (log_threads_atomic_refuted). *)
Theorem log_threads_atomic_partial f h0 w0 rcs0 cs :
  Forall op_ok h0 -> run (start f) h0 = Ok (w0, rcs0) -> Forall call_ok cs ->
  exists m tr l w, mrun true (quiet_machine w0) cs = Ok (m, tr) /\
    seen l = tr /\ (forall t, exists p, in_two Idle (mine t l) p) /\
    serial w0 l w /\ (m_own m = None -> world_of m = w).
Proof.
  intros H0 E0 Hc.
  destruct (mrun_inv true w0 cs _ [] (inv_start true w0 (run_good _ _ _ _ H0 E0)) Hc) as (m & es & d & E & Ed & Hi).
  cbn [app] in Hi. destruct (inv_serial _ _ _ _ Hi) as (w & S & Q).
  exists m, es, d, w. split; [exact E|]. split; [exact Ed|]. split; [|split; [exact S|exact Q]].
  exact (conf_of _ _ _ _ Hi).
Qed.
Print Assumptions log_threads_atomic_partial.

Definition off : op := SetLevel (text "OFF" ++ [0]).
(** Thread 1 has read the level; thread 2 turns the level off and then the console on. *)
Definition late : list choice :=
  [Call 1 (tell 1 (text "hi")); Go 1; Call 2 off; Go 2; Go 2; Call 2 (SetStdout true); Go 2; Go 2; Go 2; Go 2;
   Go 1; Go 1; Go 1; Go 1; Go 1; Go 1; Go 1].
Definition late_world : world := with_lg (start (fun _ => None)) (set_stdout (fst (init 0)) false).
Definition off_world : world := with_lg late_world (relevel (lg late_world) 4).
Definition loud_world : world := with_lg off_world (set_stdout (lg off_world) true).

Lemma late_ok : Forall call_ok late.
Proof.
  unfold late. repeat apply Forall_cons; try apply Forall_nil; cbn; try exact I; [split; lia|].
  exists (text "OFF"). split; [split; [unfold nonul; vm_compute; intuition discriminate|exists []; reflexivity]|].
  vm_compute. repeat constructor; discriminate.
Qed.

Lemma filter_split {A} (f : A -> bool) l : forall a x b, filter f l = a ++ x :: b ->
  exists l1 l2, l = l1 ++ x :: l2 /\ filter f l1 = a /\ filter f l2 = b.
Proof.
  induction l as [|y l IH]; intros a x b E; cbn in E; [destruct a; discriminate|].
  destruct (f y) eqn:Fy.
  - destruct a as [|z a]; cbn in E; injection E as -> E.
    + exists [], l. auto.
    + destruct (IH _ _ _ E) as (l1 & l2 & -> & E1 & E2). exists (z :: l1), l2. cbn. rewrite Fy, E1. auto.
  - destruct (IH _ _ _ E) as (l1 & l2 & -> & E1 & E2). exists (y :: l1), l2. cbn. rewrite Fy. auto.
Qed.

Lemma serial_app_inv l : forall w l' w', serial w (l ++ l') w' -> exists w1, serial w l w1 /\ serial w1 l' w'.
Proof.
  induction l as [|p l IH]; intros w l' w' S; [exists w; split; [constructor|exact S]|].
  cbn [app] in S. remember (p :: l ++ l') as q eqn:Eq. destruct S; try discriminate; injection Eq as <- ->;
    match goal with H : serial _ _ _ |- _ => destruct (IH _ _ _ H) as (w9 & S1 & S2) end;
    exists w9; (split; [|exact S2]); econstructor; eauto.
Qed.

(** What [serial] meets in worlds where the given calls change nothing. *)
Lemma serial_stays (P : world -> Prop) (Q : op -> Prop) :
  (forall w o w' rc, P w -> Q o -> step w o = Ok (w', rc) -> P w') ->
  forall l w w', P w -> serial w l w' ->
    Forall (fun p => match p with Seen _ => True | Whole _ o _ => Q o | _ => False end) l -> P w'.
Proof.
  intros H l. induction l as [|p l IH]; intros w w' Hp S F; inversion S; subst; inversion F; subst; try contradiction; eauto.
Qed.

Lemma seen_mine t l : seen (mine t l) = filter (fun e => match e with Inv u _ | Ret u _ => u =? t end) (seen l).
Proof.
  unfold mine. induction l as [|[[u o|u rc]|u o rc|u lv b|u o rc] l IH]; cbn; try reflexivity;
    destruct (u =? t); cbn; rewrite ?IH; reflexivity.
Qed.

(** A thread that completed its calls [os] one after the other. *)
Fixpoint done_calls (t : Z) (os : list (op * Z)) : list event :=
  match os with [] => [] | (o, rc) :: r => Inv t o :: Ret t rc :: done_calls t r end.
Fixpoint done_points (t : Z) (os : list (op * Z)) : list point :=
  match os with [] => [] | (o, rc) :: r => Seen (Inv t o) :: Whole t o rc :: Seen (Ret t rc) :: done_points t r end.
Lemma once_done t os : forall l p, at_once Idle l p -> Forall (fun x => of x = t) l -> seen l = done_calls t os ->
  l = done_points t os.
Proof.
  induction os as [|[o rc] os IH]; intros l p A F E; cbn [done_calls done_points] in *.
  - inversion A; subst; [reflexivity|discriminate].
  - inversion A as [|u o1 l1 ? A1| |]; subst; [discriminate|]. cbn in E. injection E as -> -> E.
    inversion A1 as [| |u1 o2 rc1 l2 ? A2|]; subst; [discriminate|]. cbn in E.
    inversion A2 as [| | |u2 rc2 l3 ? A3]; subst; [discriminate|]. cbn in E. injection E as -> -> E.
    pose proof (Forall_inv (Forall_inv_tail F)) as E1. cbn in E1. subst u1.
    now rewrite (IH _ _ A3 (Forall_inv_tail (Forall_inv_tail (Forall_inv_tail F))) E).
Qed.

Lemma mine_of t l : Forall (fun x => of x = t) (mine t l).
Proof. apply Forall_forall. intros x Hx. apply filter_In in Hx as [_ E]. lia. Qed.

(** C111 fails for a message as one step: the message that was started before the level was turned
    off is printed on the console that was turned on afterwards; no order of the whole calls prints it. *)
Theorem log_threads_atomic_refuted : exists f h0 w0 rcs0 cs m tr,
  Forall op_ok h0 /\ run (start f) h0 = Ok (w0, rcs0) /\ Forall call_ok cs /\
  mrun true (quiet_machine w0) cs = Ok (m, tr) /\ m_own m = None /\
  ~ exists l w, seen l = tr /\ (forall t, exists p, at_once Idle (mine t l) p) /\ serial w0 l w /\ world_of m = w.
Proof.
  exists (fun _ => None), [Init 0; SetStdout false], late_world, [0; 0], late.
  destruct (given (mrun true (quiet_machine late_world) late) (fun m tr => m_own m = None /\
    tr = [Inv 1 (tell 1 (text "hi")); Inv 2 off; Ret 2 0; Inv 2 (SetStdout true); Ret 2 0; Ret 1 0] /\
    out (world_of m) = text "[2026-01-02 03:04:05][INFO ][Thread] hi")) as (m & tr & Er & Eo & -> & Eout);
    [vm_compute; auto|].
  do 2 eexists. split; [repeat constructor|]. split; [reflexivity|]. split; [exact late_ok|].
  split; [exact Er|]. split; [exact Eo|]. clear Er Eo.
  intros (l & w & Es & A & S & Ew).
  assert (M2 : mine 2 l = done_points 2 [(off, 0); (SetStdout true, 0)]).
  { destruct (A 2) as (p & A2). eapply once_done; [exact A2|apply mine_of|]. rewrite seen_mine, Es. reflexivity. }
  assert (M1 : mine 1 l = done_points 1 [(tell 1 (text "hi"), 0)]).
  { destruct (A 1) as (p & A1). eapply once_done; [exact A1|apply mine_of|]. rewrite seen_mine, Es. reflexivity. }
  assert (M0 : forall t, t <> 1 -> t <> 2 -> mine t l = []).
  { intros t N1 N2. destruct (A t) as (p & At). apply (once_done t [] _ _ At (mine_of t l)). rewrite seen_mine, Es. cbn.
    repeat match goal with |- context [if ?b then _ else _] =>
      first [replace b with false by (destruct t as [|[[]|[]|]|]; try reflexivity; lia)] end. reflexivity. }
  destruct (filter_split _ l [Seen (Inv 2 off)] (Whole 2 off 0)
    [Seen (Ret 2 0); Seen (Inv 2 (SetStdout true)); Whole 2 (SetStdout true) 0; Seen (Ret 2 0)] M2)
    as (a & b & El & Ea & Eb).
  assert (In1 : forall x, In x l -> In x (done_points 1 [(tell 1 (text "hi"), 0)]) \/
                                    In x (mine 2 l)).
  { intros x Hx. destruct (Z.eq_dec (of x) 1) as [E1|N1].
    - left. rewrite <- M1. apply filter_In. split; [exact Hx|lia].
    - right. apply filter_In. split; [exact Hx|]. destruct (Z.eq_dec (of x) 2) as [E2|N2]; [lia|].
      exfalso. assert (Hm : In x (mine (of x) l)) by (apply filter_In; split; [exact Hx|lia]).
      rewrite (M0 _ N1 N2) in Hm. exact Hm. }
  rewrite El in S. destruct (serial_app_inv _ _ _ _ S) as (w1 & S1 & S2).
  inversion S2 as [| |? ? ? ? w2 ? ? Eo S3| |]; subst. clear S S2.
  assert (H1 : w1 = late_world).
  { refine (serial_stays (fun w => w = late_world) (fun o => o = tell 1 (text "hi")) _ a _ _ eq_refl S1 _).
    - intros ? ? w' rc -> -> E. vm_compute in E. injection E as <- <-. reflexivity.
    - apply Forall_forall. intros x Hx. destruct (In1 x) as [I1|I2]; [apply in_app_iff; auto| |].
      + cbn in I1. destruct I1 as [<-|[<-|[<-|[]]]]; cbn; auto.
      + assert (Hm : In x (mine 2 a)).
        { apply filter_In. split; [exact Hx|]. unfold mine in I2. apply filter_In in I2. tauto. }
        unfold mine in Hm. rewrite Ea in Hm. destruct Hm as [<-|[]]. exact I. }
  subst w1. assert (H2 : w2 = off_world) by (vm_compute in Eo; injection Eo as <-; reflexivity). subst w2.
  assert (H3 : world_of m = off_world \/ world_of m = loud_world).
  { refine (serial_stays (fun w => w = off_world \/ w = loud_world)
              (fun o => o = tell 1 (text "hi") \/ o = SetStdout true) _ b _ _ (or_introl eq_refl) S3 _).
    - intros ? ? w' rc [-> | ->] [-> | ->] E; vm_compute in E; injection E as <- <-; [left|right|right|right]; reflexivity.
    - apply Forall_forall. intros x Hx. destruct (In1 x) as [I1|I2]; [apply in_app_iff; cbn; auto| |].
      + cbn in I1. destruct I1 as [<-|[<-|[<-|[]]]]; cbn; auto.
      + assert (Hm : In x (mine 2 b)).
        { apply filter_In. split; [exact Hx|]. unfold mine in I2. apply filter_In in I2. tauto. }
        unfold mine in Hm. rewrite Eb in Hm. destruct Hm as [<-|[<-|[<-|[<-|[]]]]]; cbn; auto. }
  destruct H3 as [H3|H3]; rewrite H3 in Eout; vm_compute in Eout; discriminate.
Qed.
Print Assumptions log_threads_atomic_refuted.

Example log_threads_atomic_ex : Forall call_ok late /\
  exists w0 rcs0 m tr, run (start (fun _ => None)) [Init 0; SetStdout false] = Ok (w0, rcs0) /\
    mrun true (quiet_machine w0) late = Ok (m, tr) /\ m_own m = None /\
    level (lg (world_of m)) = 4 /\ out (world_of m) = text "[2026-01-02 03:04:05][INFO ][Thread] hi".
Proof.
  split; [exact late_ok|]. exists late_world, [0; 0].
  destruct (given (mrun true (quiet_machine late_world) late) (fun m tr => m_own m = None /\
    level (lg (world_of m)) = 4 /\ out (world_of m) = text "[2026-01-02 03:04:05][INFO ][Thread] hi"))
    as (m & tr & E & H); [vm_compute; auto|].
  exists m, tr. split; [reflexivity|]. split; [exact E|exact H].
Qed.

(** C112: no data race.  Whatever the threads have done, the threads about to access shared data are
    at most one, and it holds the mutex. *)
Theorem log_no_race atomic f h0 w0 rcs0 cs m tr t p :
  Forall op_ok h0 -> run (start f) h0 = Ok (w0, rcs0) -> Forall call_ok cs ->
  mrun atomic (quiet_machine w0) cs = Ok (m, tr) ->
  m_prog m t = Some p -> touches atomic p ->
  m_own m = Some t /\ forall u q, u <> t -> m_prog m u = Some q -> ~ touches atomic q.
Proof.
  intros H0 E0 Hc E Ep Ht.
  destruct (mrun_inv atomic w0 cs _ [] (inv_start atomic w0 (run_good _ _ _ _ H0 E0)) Hc) as (m' & es & d & E' & _ & Hi).
  rewrite E in E'. injection E' as <- <-. pose proof (inv_touch _ _ _ _ _ _ Hi Ep Ht) as O. split; [exact O|].
  intros u q N Eq Hq. pose proof (inv_touch _ _ _ _ _ _ Hi Eq Hq) as O'. congruence.
Qed.
Print Assumptions log_no_race.

Example log_no_race_ex : exists m tr p,
  mrun false (quiet_machine late_world) (firstn 6 both) = Ok (m, tr) /\
  m_prog m 2 = Some p /\ touches false p /\ m_own m = Some 2 /\ exists q, m_prog m 1 = Some q.
Proof.
  destruct (given (mrun false (quiet_machine late_world) (firstn 6 both)) (fun m tr =>
    match m_prog m 2, m_prog m 1 with Some p, Some _ => touches false p /\ m_own m = Some 2 | _, _ => False end))
    as (m & tr & E & H); [vm_compute; auto|].
  destruct (m_prog m 2) as [p|] eqn:E2; [|contradiction]. destruct (m_prog m 1) as [q|] eqn:E1; [|contradiction].
  exists m, tr, p. destruct H. repeat split; eauto.
Qed.

(** C113: no deadlock.  Whatever the threads have done, each call can return: there is a way to go on
    in which no further call is made and after which the thread is out of the logger. *)
Theorem log_no_deadlock atomic f h0 w0 rcs0 cs m tr t :
  Forall op_ok h0 -> run (start f) h0 = Ok (w0, rcs0) -> Forall call_ok cs ->
  mrun atomic (quiet_machine w0) cs = Ok (m, tr) ->
  exists more m' es, Forall (fun c => exists u, c = Go u) more /\ mrun atomic m more = Ok (m', es) /\ m_prog m' t = None.
Proof.
  intros H0 E0 Hc E.
  destruct (mrun_inv atomic w0 cs _ [] (inv_start atomic w0 (run_good _ _ _ _ H0 E0)) Hc) as (m' & es & d & E' & _ & Hi).
  rewrite E in E'. injection E' as <- <-. exact (inv_can _ _ _ _ t Hi).
Qed.
Print Assumptions log_no_deadlock.

Example log_no_deadlock_ex : exists m tr p,
  mrun false (quiet_machine late_world) (firstn 6 both) = Ok (m, tr) /\ m_prog m 1 = Some (Lock p) /\ m_own m = Some 2.
Proof.
  destruct (given (mrun false (quiet_machine late_world) (firstn 6 both)) (fun m tr =>
    match m_prog m 1 with Some (Lock _) => m_own m = Some 2 | _ => False end))
    as (m & tr & E & H); [vm_compute; auto|].
  destruct (m_prog m 1) as [[| k | | | | |]|] eqn:E1; try contradiction. exists m, tr, k. auto.
Qed.
