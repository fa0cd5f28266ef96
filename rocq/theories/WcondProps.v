(** C135: condition/sc_cond.c on Windows. *)
From Verif Require Import Base CondModel CondSpec CondProofs CondProps WcondModel.

(** States that can come up on Windows, with the calls and returns so far. *)
Definition wreachable (s : wcond) (h : list event) : Prop := exists n l, wexec (wcond_start n) l = Ok (Some (s, h)).

(** The state of the POSIX code in the same place. *)
Definition same (s : wcond) (p : cond) : Prop :=
  threads p = wthreads s /\ wowner s = match owner p with Some t => Some (t, 1%nat) | None => None end /\
  cdone p = wdone s /\ cdata p = wdata s /\ forall u, pcs p u = wpcs s u.
(** The holder is where the mutex is held. *)
Definition held (p : cond) : Prop := forall t, holding (pcs p t) = true <-> owner p = Some t.
Lemma sim_held s m : sim s m -> held s.
Proof. intros [So _ _ _ _] t. apply So. Qed.
Lemma wake_same s p w q : same s p -> wwake s w = Some q -> exists q', wake p w = Some q' /\ forall u, q' u = q u.
Proof.
  intros (Ht & _ & _ & _ & Hp) H.
  assert (Ex : existsb (fun u => blocked (pcs p u)) (seq 0 (threads p)) = existsb (fun u => blocked (wpcs s u)) (seq 0 (wthreads s))).
  { rewrite Ht. induction (seq 0 (wthreads s)) as [|x l IH]; cbn; [reflexivity|]. now rewrite Hp, IH. }
  unfold wake. destruct w as [|u [|]]; cbn [wwake] in H; [| |discriminate].
  - rewrite Ex. destruct (existsb _ _); [discriminate|]. injection H as <-. cbn. eexists; split; [reflexivity|]. intro u. apply Hp.
  - cbn [forallb length Nat.eqb negb]. rewrite Ht, Hp. destruct (Nat.ltb u (wthreads s) && blocked (wpcs s u)); [|discriminate]. injection H as <-.
    cbn [andb]. rewrite orb_true_r. eexists; split; [reflexivity|]. intro x. cbn [existsb]. unfold goto. rewrite orb_false_r. destruct (Nat.eqb x u); [reflexivity|apply Hp].
Qed.
Lemma goto_ext p q t x : (forall u, p u = q u) -> forall u, goto p t x u = goto q t x u.
Proof. intros H u. unfold goto. now rewrite H. Qed.
Lemma step_same s p t c : same s p -> held p -> wstep s t c <> UB /\ wstep s t c <> Fuel /\
  forall s' e, wstep s t c = Ok (Some (s', e)) -> exists p', step p t c = Some (p', e) /\ same s' p'.
Proof.
  intros Hs Hh. pose proof Hs as (Ht & Ho & Hd & Hv & Hp). pose proof (Hh t) as Hht. rewrite Hp in Hht.
  unfold wstep, step. cbv zeta. rewrite Ht, Hp. destruct (negb (Nat.ltb t (wthreads s))); [repeat split; discriminate|].
  assert (OUT : holding (wpcs s t) = false -> forall o, owner p = Some o -> Nat.eqb o t = false).
  { intros H o Eo. apply Nat.eqb_neq. intros ->. apply Hht in Eo. congruence. }
  assert (LOCK : holding (wpcs s t) = false -> forall q, let r := Ok (match enter (wowner s) t with
         | Some o => Some (mk_wcond (wthreads s) (Some o) (wdone s) (wdata s) (goto (wpcs s) t q), @nil event) | None => None end) in
     r <> UB /\ r <> Fuel /\ forall s' e, r = Ok (Some (s', e)) -> exists p', match owner p with None => Some (mk_cond (wthreads s) (Some t) (cdone p) (cdata p) (goto (pcs p) t q), []) | Some _ => None end = Some (p', e) /\ same s' p').
  { intros H q r. split; [discriminate|]. split; [discriminate|]. intros s' e. unfold r. rewrite Ho. destruct (owner p) as [o|] eqn:Eo; cbn [enter].
    - rewrite (OUT H o eq_refl). discriminate.
    - intro E. injection E as <- <-. eexists; split; [reflexivity|]. repeat split; cbn; auto using goto_ext. }
  assert (UNL : holding (wpcs s t) = true -> forall q ev, let r := (let* o := leave (wowner s) t in Ok (Some (mk_wcond (wthreads s) o (wdone s) (wdata s) (goto (wpcs s) t q), ev : list event))) in
     r <> UB /\ r <> Fuel /\ forall s' e, r = Ok (Some (s', e)) -> exists p', Some (mk_cond (wthreads s) None (cdone p) (cdata p) (goto (pcs p) t q), ev) = Some (p', e) /\ same s' p').
  { intros H q ev r. apply Hht in H. unfold r. rewrite Ho, H. cbn [leave]. rewrite Nat.eqb_refl. cbn [bind].
    split; [discriminate|]. split; [discriminate|]. intros s' e E. injection E as <- <-. eexists; split; [reflexivity|]. repeat split; cbn; auto using goto_ext. }
  destruct (wpcs s t) eqn:Ep, c; try (repeat split; discriminate);
    try (now apply LOCK); try (now apply UNL);
    try (split; [discriminate|]; split; [discriminate|]; intros s' e E; injection E as <- <-; eexists; split; [reflexivity|]; repeat split; cbn; auto using goto_ext; congruence).
  - split; [discriminate|]. split; [discriminate|]. intros s' e E. destruct (wwake s w) as [q|] eqn:Ew; [|discriminate]. injection E as <- <-.
    destruct (wake_same s p w q Hs Ew) as (q' & -> & Hq). eexists; split; [reflexivity|]. repeat split; cbn; auto using goto_ext.
  - rewrite Hd. destruct (wdone s); (split; [discriminate|]; split; [discriminate|]; intros s' e E; injection E as <- <-; eexists; split; [reflexivity|]; repeat split; cbn; auto using goto_ext; congruence).
  - split; [discriminate|]. split; [discriminate|]. intros s' e E. injection E as <- <-. rewrite Hv. eexists; split; [reflexivity|]. repeat split; cbn; auto using goto_ext; congruence.
Qed.
Lemma exec_same l : forall s p m, same s p -> sim p m -> wexec s l <> UB /\ wexec s l <> Fuel /\
  forall s' h, wexec s l = Ok (Some (s', h)) -> exists p', exec p l = Some (p', h) /\ same s' p'.
Proof.
  induction l as [|[t c] l IH]; intros s p m Hs Hm; cbn [wexec exec].
  - split; [discriminate|]. split; [discriminate|]. intros s' h H. injection H as <- <-. eauto.
  - destruct (step_same s p t c Hs (sim_held _ _ Hm)) as (H1 & H2 & H3). destruct (wstep s t c) as [[[s1 e]|]| |]; cbn [bind]; try contradiction; [|repeat split; discriminate].
    destruct (H3 s1 e eq_refl) as (p1 & E1 & S1). rewrite E1. destruct (sim_step p m t c p1 e Hm E1) as (r & m1 & _ & _ & M1).
    destruct (IH s1 p1 m1 S1 M1) as (I1 & I2 & I3). destruct (wexec s1 l) as [[[s2 h]|]| |]; cbn [bind]; try contradiction; [|repeat split; discriminate].
    split; [discriminate|]. split; [discriminate|]. intros s' h' H. injection H as <- <-. destruct (I3 s2 h eq_refl) as (p2 & E2 & S2). rewrite E2. eauto.
Qed.
Lemma start_same n : same (wcond_start n) (cond_start n).
Proof. repeat split. Qed.
Lemma wreach s h : wreachable s h -> exists p, reachable p h /\ same s p.
Proof.
  intros (n & l & E). destruct (exec_same l _ _ _ (start_same n) (sim_start n)) as (_ & _ & H). destruct (H s h E) as (p & Ep & Sp).
  exists p. split; [exists n, l; assumption|assumption].
Qed.
Lemma wake_back s p w q : same s p -> own_step (Wake w) = true -> wake p w = Some q -> exists q', wwake s w = Some q' /\ forall u, q' u = q u.
Proof.
  intros (Ht & _ & _ & _ & Hp) Hw H.
  assert (Ex : existsb (fun u => blocked (pcs p u)) (seq 0 (threads p)) = existsb (fun u => blocked (wpcs s u)) (seq 0 (wthreads s))).
  { rewrite Ht. induction (seq 0 (wthreads s)) as [|x l IH]; cbn; [reflexivity|]. now rewrite Hp, IH. }
  unfold wake in H. rewrite Ex in H. destruct w as [|u [|]]; [| |discriminate]; cbn [wwake].
  - cbn in H. destruct (existsb (fun u => blocked (wpcs s u)) (seq 0 (wthreads s))); cbn in H; [discriminate|]. injection H as <-. eexists; split; [reflexivity|]. intro u. now rewrite Hp.
  - cbn [forallb length Nat.eqb negb] in H. rewrite Ht, Hp in H. destruct (Nat.ltb u (wthreads s) && blocked (wpcs s u)); [|discriminate]. cbn [andb] in H. rewrite orb_true_r in H.
    injection H as <-. eexists; split; [reflexivity|]. intro x. unfold goto. cbn [existsb]. rewrite orb_false_r. destruct (Nat.eqb x u); [reflexivity|now rewrite Hp].
Qed.
Lemma step_back s p t c p' e : same s p -> held p -> own_step c = true -> step p t c = Some (p', e) -> exists s', wstep s t c = Ok (Some (s', e)) /\ same s' p'.
Proof.
  intros Hs Hh Hc Hstep. pose proof Hs as (Ht & Ho & Hd & Hv & Hp). pose proof (Hh t) as Hht. rewrite Hp in Hht.
  assert (G : exists s', wstep s t c = Ok (Some (s', e))).
  2:{ destruct G as [s' E]. exists s'. split; [exact E|]. destruct (step_same s p t c Hs Hh) as (_ & _ & H). destruct (H s' e E) as (p2 & E2 & S2). congruence. }
  unfold wstep, step in *. cbv zeta in *. rewrite Ht, Hp in Hstep. destruct (negb (Nat.ltb t (wthreads s))); [discriminate|].
  assert (LOCK : forall q, match owner p with None => Some (mk_cond (wthreads s) (Some t) (cdone p) (cdata p) (goto (pcs p) t q), []) | Some _ => None end = Some (p', e) ->
    exists s', Ok (match enter (wowner s) t with
         | Some o => Some (mk_wcond (wthreads s) (Some o) (wdone s) (wdata s) (goto (wpcs s) t q), @nil event) | None => None end) = Ok (Some (s', e))).
  { intros q E. rewrite Ho. destruct (owner p); [discriminate|]. injection E as <- <-. cbn [enter]. eauto. }
  assert (UNL : holding (wpcs s t) = true -> forall q ev, Some (mk_cond (wthreads s) None (cdone p) (cdata p) (goto (pcs p) t q), ev) = Some (p', e) ->
    exists s', (let* o := leave (wowner s) t in Ok (Some (mk_wcond (wthreads s) o (wdone s) (wdata s) (goto (wpcs s) t q), ev : list event))) = Ok (Some (s', e))).
  { intros H q ev E. apply Hht in H. rewrite Ho, H. cbn [leave]. rewrite Nat.eqb_refl. cbn [bind]. injection E as <- <-. eauto. }
  destruct (wpcs s t) eqn:Ep, c; try discriminate; try (eapply LOCK; exact Hstep); try (eapply UNL; [reflexivity|exact Hstep]);
    try (injection Hstep as <- <-; eauto).
  - destruct (wake p w) as [q|] eqn:Ew; [|discriminate]. destruct (wake_back s p w q Hs Hc Ew) as (q' & -> & _). injection Hstep as <- <-. eauto.
  - rewrite Hd in Hstep. destruct (wdone s); injection Hstep as <- <-; eauto.
Qed.
Lemma exec_back l : forall s p m p' h, same s p -> sim p m -> forallb (fun x => own_step (snd x)) l = true -> exec p l = Some (p', h) ->
  exists s', wexec s l = Ok (Some (s', h)).
Proof.
  induction l as [|[t c] l IH]; intros s p m p' h Hs Hm Hl; cbn [wexec exec].
  - intro H. injection H as <- <-. eauto.
  - cbn [forallb snd] in Hl. apply andb_true_iff in Hl as [Hc Hl]. destruct (step p t c) as [[p1 e]|] eqn:E1; [|discriminate].
    destruct (exec p1 l) as [[p2 h2]|] eqn:E2; [|discriminate]. intro H. injection H as <- <-.
    destruct (step_back s p t c p1 e Hs (sim_held _ _ Hm) Hc E1) as (s1 & -> & S1). cbn [bind]. destruct (sim_step p m t c p1 e Hm E1) as (r & m1 & _ & _ & M1).
    destruct (IH s1 p1 m1 p2 h2 S1 M1 Hl E2) as (s2 & ->). cbn [bind]. eauto.
Qed.

(** C135.  Whatever the schedule and the number of threads: nothing undefined happens, the calls and returns are those of a one-slot mailbox,
    no value is delivered more often than it was sent, and the critical section is entered once and only by the thread inside. *)
Theorem wcond_mailbox n l : wexec (wcond_start n) l <> UB /\ wexec (wcond_start n) l <> Fuel /\
  forall s h, wexec (wcond_start n) l = Ok (Some (s, h)) ->
    linearizable h /\ (forall v, (receipts v h <= sends v h)%nat) /\ forall t, holding (wpcs s t) = true <-> wowner s = Some (t, 1%nat).
Proof.
  destruct (exec_same l _ _ _ (start_same n) (sim_start n)) as (H1 & H2 & H3). split; [exact H1|]. split; [exact H2|]. intros s h E.
  destruct (H3 s h E) as (p & Ep & (Ht & Ho & Hd & Hv & Hp)). assert (R : reachable p h) by (exists n, l; exact Ep).
  split; [exact (cond_mailbox p h R)|]. split; [intro v; exact (cond_no_duplicate p h v R)|].
  destruct (reach_sim p h R) as (r & m & _ & _ & M). intro t. rewrite <- Hp. rewrite (sim_held _ _ M t). rewrite Ho.
  destruct (owner p) as [o|]; split; intro H; try discriminate; injection H as ->; reflexivity.
Qed.
Print Assumptions wcond_mailbox.
Definition wcond_demo : list (nat * choice) :=
  [(0, Start_wait); (0, Run); (0, Run); (0, Run); (0, Spurious); (0, Run); (0, Run); (0, Run);
   (1, Start_signal 7); (1, Run); (1, Run); (1, Run); (1, Wake [0]); (1, Run);
   (0, Run); (0, Run); (0, Run); (0, Run); (0, Run); (0, Run)]%nat.
Example wcond_mailbox_ex : match wexec (wcond_start 2) wcond_demo with
  Ok (Some (s, h)) => h = [Call_wait 0; Call_signal 1 7; Ret_signal 1; Ret_wait 0 7] | _ => False end.
Proof. vm_compute. reflexivity. Qed.
(** C135.  While a signal is pending and a thread is inside sc_cond_wait before taking it, the code can go on by itself until a wait returns. *)
Theorem wcond_no_lost_wakeup s h t : wreachable s h -> wdone s = true ->
  (wpcs s t = W_lock \/ wpcs s t = W_wait \/ wpcs s t = W_relock \/ wpcs s t = W_test) ->
  exists l s' h' u v, wexec s l = Ok (Some (s', h')) /\ forallb (fun x => own_step (snd x)) l = true /\ In (Ret_wait u v) h'.
Proof.
  intros H Hd Hw. destruct (wreach s h H) as (p & R & S). pose proof S as (_ & _ & Ed & _ & Hp). rewrite <- Ed in Hd. rewrite <- Hp in Hw.
  destruct (cond_no_lost_wakeup p h t R Hd Hw) as (l & p' & h' & u & v & E & Hl & Hi). destruct (reach_sim p h R) as (r & m & _ & _ & M).
  destruct (exec_back l s p m p' h' S M Hl E) as (s' & E'). exists l, s', h', u, v. auto.
Qed.
Print Assumptions wcond_no_lost_wakeup.
Example wcond_no_lost_wakeup_ex : exists s h, wreachable s h /\ wdone s = true /\ wpcs s 0%nat = W_wait.
Proof. eexists _, _. split; [exists 2%nat, (firstn 12 wcond_demo); vm_compute; reflexivity|]. split; reflexivity. Qed.

(** C135.  One critical section exists after init, none after term; only a second init without term leaves one behind. *)
Fixpoint sections (l : list wact) : Z := match l with [] => 0 | CsInit :: l => sections l + 1 | CsDelete :: l => sections l - 1 end.
(** init and term by turns, terms possibly repeated. *)
Fixpoint turns (on : bool) (l : list bool) : bool := match l with [] => true | true :: l => negb on && turns true l | false :: l => turns false l end.
Lemma last_cons {A} (l : list A) : forall b x, last (b :: l) x = last l b.
Proof. induction l as [|y l IH]; intros b x; [reflexivity|]. change (last (b :: y :: l) x) with (last (y :: l) x). now rewrite !IH. Qed.
Theorem wcond_lifetime l : turns false l = true -> let '(a, rcs, on) := wcond_life false l in
  Forall (fun rc => rc = 0) rcs /\ sections a = (if on then 1 else 0) /\ on = last l false /\
  forall a1 a2, a = a1 ++ a2 -> 0 <= sections a1 <= 1.
Proof.
  intro H. assert (A : forall l on, turns on l = true -> let '(a, rcs, on') := wcond_life on l in
    Forall (fun rc => rc = 0) rcs /\ sections a + (if on then 1 else 0) = (if on' then 1 else 0) /\ on' = last l on /\
    forall a1 a2, a = a1 ++ a2 -> 0 <= sections a1 + (if on then 1 else 0) <= 1).
  { clear. induction l as [|b l IH]; intros on Ht; cbn [wcond_life turns] in *.
    - split; [constructor|]. split; [reflexivity|]. split; [reflexivity|]. intros [|? ?] a2 E; [cbn; destruct on; lia|discriminate].
    - assert (D : forall x, last (b :: l) x = last l b) by (intro x; apply last_cons).
      rewrite D. destruct b; [destruct on; [discriminate|]; cbn [negb andb] in Ht; cbn [wcond_init]|unfold wcond_term; destruct on; cbn [negb]].
      + specialize (IH true Ht). unfold wcond_init. destruct (wcond_life true l) as [[a rcs] on']. destruct IH as (I1 & I2 & I3 & I4).
        split; [constructor; auto|]. cbn [app sections]. split; [lia|]. split; [exact I3|]. intros [|x a1] a2 E; [cbn; lia|].
        cbn [app] in E. injection E as <- E. specialize (I4 a1 a2 E). cbn [sections]. lia.
      + specialize (IH false Ht). destruct (wcond_life false l) as [[a rcs] on']. destruct IH as (I1 & I2 & I3 & I4).
        split; [constructor; auto|]. cbn [app sections]. split; [lia|]. split; [exact I3|]. intros [|x a1] a2 E; [cbn; lia|].
        cbn [app] in E. injection E as <- E. specialize (I4 a1 a2 E). cbn [sections]. lia.
      + specialize (IH false Ht). destruct (wcond_life false l) as [[a rcs] on']. destruct IH as (I1 & I2 & I3 & I4).
        split; [constructor; auto|]. cbn [app]. split; [exact I2|]. split; [exact I3|]. exact I4. }
  specialize (A l false H). destruct (wcond_life false l) as [[a rcs] on]. destruct A as (A1 & A2 & A3 & A4).
  split; [exact A1|]. split; [lia|]. split; [exact A3|]. intros a1 a2 E. specialize (A4 a1 a2 E). lia.
Qed.
Print Assumptions wcond_lifetime.
Example wcond_lifetime_ex : turns false [true; false; false; true] = true /\ wcond_life false [true; false; false; true] = ([CsInit; CsDelete; CsInit], [0; 0; 0; 0], true).
Proof. split; reflexivity. Qed.
