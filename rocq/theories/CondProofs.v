From Verif Require Import Base CondModel CondSpec.

(** The mailbox status that belongs to a place. *)
Definition status_of (p : pc) : status :=
  match p with
  | Idle => Ready
  | S_lock d | S_data d | S_done d => To_signal d
  | S_wake _ | S_unlock _ => Signalled
  | W_unlock v => Received v
  | _ => To_wait
  end.
(** What the fields hold while the owner is at [p]. *)
Definition agrees (s : cond) (p : pc) (sl : option Z) : Prop :=
  match p with
  | S_done d => cdata s = d
  | W_load => cdone s = true /\ sl = Some (cdata s)
  | W_null v | W_clear v => cdone s = true /\ sl = Some v
  | W_call => cdone s = false /\ sl = None
  | _ => sl = if cdone s then Some (cdata s) else None
  end.
Definition at_owner (s : cond) : pc := match owner s with None => Idle | Some t => pcs s t end.
Record sim (s : cond) (m : mail) : Prop := mk_sim {
  sim_owner : forall t, holding (pcs s t) = true <-> owner s = Some t;
  sim_slot : agrees s (at_owner s) (slot m);
  sim_stat : forall t, stat m t = status_of (pcs s t);
  sim_wake : cdone s = true -> (exists t, blocked (pcs s t) = true) ->
    exists t, (t < threads s)%nat /\ match pcs s t with W_relock | W_test | W_load | W_null _ | W_clear _ | S_wake _ => True | _ => False end;
  sim_in : forall t, pcs s t <> Idle -> (t < threads s)%nat }.

Lemma sim_start n : sim (cond_start n) mail_start.
Proof. split; cbn; intros; try easy; reflexivity. Qed.
Lemma goto_same p t q : goto p t q t = q.
Proof. unfold goto. now rewrite Nat.eqb_refl. Qed.
Lemma goto_other p t q u : u <> t -> goto p t q u = p u.
Proof. intro H. unfold goto. now rewrite (proj2 (Nat.eqb_neq u t) H). Qed.
Lemma set_same f t x : set_stat f t x t = x.
Proof. unfold set_stat. now rewrite Nat.eqb_refl. Qed.
Lemma set_other f t x u : u <> t -> set_stat f t x u = f u.
Proof. intro H. unfold set_stat. now rewrite (proj2 (Nat.eqb_neq u t) H). Qed.
Lemma wake_spec s w p : wake s w = Some p ->
  (forall u, In u w -> (u < threads s)%nat /\ pcs s u = W_wait) /\
  (forall u, p u = W_relock /\ In u w \/ p u = pcs s u /\ ~ In u w) /\
  ((exists u, (u < threads s)%nat /\ blocked (pcs s u) = true) -> w <> []).
Proof.
  unfold wake. destruct (forallb _ w && _) eqn:E; [|discriminate]. injection 1 as <-.
  apply andb_true_iff in E as [E1 E2]. rewrite forallb_forall in E1. split; [|split].
  - intros u Hu. specialize (E1 u Hu). apply andb_true_iff in E1 as [A B]. apply Nat.ltb_lt in A.
    split; [exact A|]. destruct (pcs s u); easy.
  - intro u. destruct (existsb (Nat.eqb u) w) eqn:Ex.
    + left. apply existsb_exists in Ex as (x & Hx & Hq). apply Nat.eqb_eq in Hq. subst. auto.
    + right. split; [reflexivity|]. intro Hu. assert (existsb (Nat.eqb u) w = true) by (apply existsb_exists; exists u; now rewrite Nat.eqb_refl).
      congruence.
  - intros (u & Hu & Hb) ->. cbn in E2. rewrite orb_false_r in E2. apply negb_true_iff in E2.
    assert (existsb (fun u => blocked (pcs s u)) (seq 0 (threads s)) = true) by (apply existsb_exists; exists u; split; [apply in_seq; lia|exact Hb]).
    congruence.
Qed.

Ltac mk1 H := first [exact H | cbn; split; easy | cbn; tauto].
Ltac mk2 := first [tauto | intros; split; congruence].
Ltac mk5 H := first [reflexivity | now apply H].
(** Every step of the code is a step of the mailbox or none. *)
Lemma sim_step s m t c s' e : sim s m -> step s t c = Some (s', e) ->
  exists l m', mrun m l m' /\ visible l = e /\ sim s' m'.
Proof.
  intros [So Ss St Sw Si] E. unfold step in E.
  destruct (Nat.ltb_spec t (threads s)) as [Ht|Ht]; cbn [negb] in E; [|discriminate E].
  assert (St' := St t). assert (So' := So t). unfold at_owner in Ss.
  (* rebuild the relation after thread t moved to q *)
  assert (Mk : forall o d x q sl, (holding q = true <-> o = Some t) -> (forall u, u <> t -> (owner s = Some u <-> o = Some u)) ->
     agrees (mk_cond (threads s) o d x (goto (pcs s) t q)) (match o with None => Idle | Some u => goto (pcs s) t q u end) sl ->
     (d = true -> (exists u, blocked (goto (pcs s) t q u) = true) -> exists u, (u < threads s)%nat /\
        match goto (pcs s) t q u with W_relock | W_test | W_load | W_null _ | W_clear _ | S_wake _ => True | _ => False end) ->
     forall f, (forall u, f u = if Nat.eqb u t then status_of q else stat m u) ->
     sim (mk_cond (threads s) o d x (goto (pcs s) t q)) (mk_mail sl f)).
  { intros o d x q sl H1 H2 H3 H4 f H5. split; cbn [owner cdone cdata pcs threads slot stat].
    - intro u. destruct (Nat.eq_dec u t) as [->|Hu]; [now rewrite goto_same|]. rewrite goto_other by exact Hu.
      rewrite So. now apply H2.
    - exact H3.
    - intro u. rewrite H5. destruct (Nat.eqb_spec u t) as [->|Hu]; [now rewrite goto_same|]. rewrite goto_other by exact Hu. apply St.
    - exact H4.
    - intros u Hu. destruct (Nat.eq_dec u t) as [->|Hn]; [exact Ht|]. rewrite goto_other in Hu by exact Hn. now apply Si. }
  assert (Own : holding (pcs s t) = true -> owner s = Some t) by (intro; now apply So).
  assert (NOwn : holding (pcs s t) = false -> owner s <> Some t) by (intros H H'; apply So in H'; congruence).
  (* the waiter that keeps the wakeup alive *)
  assert (Keep : forall q d, (d = true -> cdone s = true \/ match q with S_wake _ => True | _ => False end) ->
     (blocked q = true -> blocked (pcs s t) = true \/ d = false) ->
     (match pcs s t with W_relock | W_test | W_load | W_null _ | W_clear _ | S_wake _ => True | _ => False end ->
      d = true -> match q with W_relock | W_test | W_load | W_null _ | W_clear _ | S_wake _ => True | _ => False end) ->
     d = true -> (exists u, blocked (goto (pcs s) t q u) = true) -> exists u, (u < threads s)%nat /\
        match goto (pcs s) t q u with W_relock | W_test | W_load | W_null _ | W_clear _ | S_wake _ => True | _ => False end).
  { intros q d H1 H2 H3 Hd (u & Hu).
    destruct (H1 Hd) as [Hc|Hq].
    - destruct Sw as (v & Hv & Hp); [exact Hc| |].
      + destruct (Nat.eq_dec u t) as [->|Hn]; [|exists u; now rewrite goto_other in Hu by exact Hn].
        rewrite goto_same in Hu. destruct (H2 Hu) as [H|H]; [now exists t|congruence].
      + destruct (Nat.eq_dec v t) as [->|Hn]; [exists t; rewrite goto_same; split; [exact Ht|exact (H3 Hp Hd)]|exists v; now rewrite goto_other by exact Hn].
    - exists t. rewrite goto_same. split; [exact Ht|]. destruct q; easy. }
  assert (Stay : forall q, status_of q = stat m t -> forall u, stat m u = if Nat.eqb u t then status_of q else stat m u).
  { intros q Hq u. destruct (Nat.eqb_spec u t) as [->|]; auto. }
  destruct (pcs s t) eqn:Ep; destruct c; try discriminate E; cbn [holding] in *.
  - (* call signal *)
    injection E as <- <-. exists [Ev (Call_signal t d)], (mk_mail (slot m) (set_stat (stat m) t (To_signal d))).
    split; [econstructor; [constructor; now rewrite St'|constructor]|]. split; [reflexivity|].
    apply Mk; [mk1 So'|mk2| | |mk5 Stay].
    + destruct (owner s) as [o|] eqn:Eo; [|exact Ss]. rewrite goto_other by (intros ->; now apply NOwn). 
      destruct (pcs s o); exact Ss.
    + apply Keep; cbn; auto; easy.
  - injection E as <- <-. exists [Ev (Call_wait t)], (mk_mail (slot m) (set_stat (stat m) t To_wait)).
    split; [econstructor; [constructor; now rewrite St'|constructor]|]. split; [reflexivity|].
    apply Mk; [mk1 So'|mk2| | |mk5 Stay].
    + destruct (owner s) as [o|] eqn:Eo; [|exact Ss]. rewrite goto_other by (intros ->; now apply NOwn). 
      destruct (pcs s o); exact Ss.
    + apply Keep; cbn; auto; easy.
  - (* lock in signal *)
    destruct (owner s) as [o|] eqn:Eo; [discriminate E|]. injection E as <- <-. exists [], m.
    split; [constructor|]. split; [reflexivity|]. destruct m as [sl st]. cbn [slot stat] in *.
    apply Mk; [mk1 So'|mk2| | |mk5 Stay].
    + rewrite goto_same. exact Ss.
    + apply Keep; cbn; auto; easy.
  - (* c->data = data *)
    injection E as <- <-. exists [], m. rewrite (Own eq_refl) in *.
    split; [constructor|]. split; [reflexivity|]. destruct m as [sl st]. cbn [slot stat] in *.
    apply Mk; [mk1 So'|mk2| | |mk5 Stay].
    + rewrite goto_same. reflexivity.
    + apply Keep; cbn; auto; easy.
  - (* c->done = true *)
    injection E as <- <-. exists [Act t], (mk_mail (Some d) (set_stat (stat m) t Signalled)). rewrite (Own eq_refl) in *.
    split; [econstructor; [apply m_signal; now rewrite St'|constructor]|]. split; [reflexivity|].
    rewrite Ep in Ss. apply Mk; [mk1 So'|mk2| | |mk5 Stay].
    + rewrite goto_same. cbn in Ss |- *. now rewrite Ss.
    + apply Keep; cbn; auto; easy.
  - (* wake *)
    destruct (wake s w) as [p|] eqn:Ew; [|discriminate E]. injection E as <- <-. exists [], m. rewrite (Own eq_refl) in *.
    split; [constructor|]. split; [reflexivity|]. destruct m as [sl st]. cbn [slot stat] in *.
    destruct (wake_spec s w p Ew) as (W1 & W2 & W3).
    assert (Hp : forall u, p u = pcs s u \/ p u = W_relock /\ pcs s u = W_wait).
    { intro u. destruct (W2 u) as [[A B]|[A B]]; auto. right. split; [exact A|]. now apply W1. }
    rewrite Ep in Ss. split; cbn [owner cdone cdata pcs threads slot stat at_owner].
    + intro u. destruct (Nat.eq_dec u t) as [->|Hu]; [rewrite goto_same; cbn; tauto|]. rewrite goto_other by exact Hu.
      destruct (Hp u) as [->|[-> Hq]]; [rewrite So; tauto|]. split; [easy|]. intro H. congruence.
    + rewrite goto_same. exact Ss.
    + intro u. destruct (Nat.eq_dec u t) as [->|Hu]; [rewrite goto_same; exact St'|]. rewrite goto_other by exact Hu.
      rewrite St. destruct (Hp u) as [->|[-> ->]]; reflexivity.
    + intros Hd (u & Hu). destruct (Nat.eq_dec u t) as [->|Hn]; [now rewrite goto_same in Hu|]. rewrite goto_other in Hu by exact Hn.
      assert (Hb : exists u, (u < threads s)%nat /\ blocked (pcs s u) = true).
      { exists u. destruct (Hp u) as [E|[E _]]; rewrite E in Hu; [|discriminate Hu]. split; [|exact Hu].
        apply Si. intro H. now rewrite H in Hu. }
      specialize (W3 Hb). destruct w as [|v w]; [easy|]. exists v.
      destruct (W1 v (or_introl eq_refl)) as [V1 V2]. split; [exact V1|].
      rewrite goto_other by congruence. destruct (W2 v) as [[-> _]|[_ H]]; [exact I|]. exfalso. apply H. now left.
    + intros u Hu. destruct (Nat.eq_dec u t) as [->|Hn]; [exact Ht|]. rewrite goto_other in Hu by exact Hn.
      apply Si. destruct (Hp u) as [E|[E E']]; [now rewrite <- E|now rewrite E'].
  - (* unlock in signal *)
    injection E as <- <-. exists [Ev (Ret_signal t)], (mk_mail (slot m) (set_stat (stat m) t Ready)). rewrite (Own eq_refl) in *.
    split; [econstructor; [apply m_ret_signal; now rewrite St'|constructor]|]. split; [reflexivity|].
    rewrite Ep in Ss. apply Mk; [mk1 So'|mk2| | |mk5 Stay].
    + exact Ss.
    + apply Keep; cbn; auto; easy.
  - (* lock in wait *)
    destruct (owner s) as [o|] eqn:Eo; [discriminate E|]. injection E as <- <-. exists [], m.
    split; [constructor|]. split; [reflexivity|]. destruct m as [sl st]. cbn [slot stat] in *.
    apply Mk; [mk1 So'|mk2| | |mk5 Stay].
    + rewrite goto_same. exact Ss.
    + apply Keep; cbn; auto; easy.
  - (* test *)
    rewrite (Own eq_refl) in *. rewrite Ep in Ss. cbn [agrees] in Ss.
    destruct (cdone s) eqn:Ed; injection E as <- <-; exists [], m;
    (split; [constructor|]; split; [reflexivity|]; destruct m as [sl st]; cbn [slot stat] in *).
    + apply Mk; [mk1 So'|mk2| | |mk5 Stay].
      * rewrite goto_same. cbn. auto.
      * apply Keep; cbn; auto; easy.
    + apply Mk; [mk1 So'|mk2| | |mk5 Stay].
      * rewrite goto_same. cbn. auto.
      * apply Keep; cbn; auto; easy.
  - (* block *)
    injection E as <- <-. exists [], m. rewrite (Own eq_refl) in *. rewrite Ep in Ss. destruct Ss as [Sd Ss].
    split; [constructor|]. split; [reflexivity|]. destruct m as [sl st]. cbn [slot stat] in *.
    apply Mk; [mk1 So'|mk2| | |mk5 Stay].
    + cbn. now rewrite Sd.
    + apply Keep; cbn; auto; try easy.
  - (* spurious wakeup *)
    injection E as <- <-. exists [], m.
    split; [constructor|]. split; [reflexivity|]. destruct m as [sl st]. cbn [slot stat] in *.
    apply Mk; [mk1 So'|mk2| | |mk5 Stay].
    + destruct (owner s) as [o|] eqn:Eo; [|exact Ss]. rewrite goto_other by (intros ->; now apply NOwn). 
      destruct (pcs s o); exact Ss.
    + intros _ _. exists t. rewrite goto_same. auto.
  - (* relock *)
    destruct (owner s) as [o|] eqn:Eo; [discriminate E|]. injection E as <- <-. exists [], m.
    split; [constructor|]. split; [reflexivity|]. destruct m as [sl st]. cbn [slot stat] in *.
    apply Mk; [mk1 So'|mk2| | |mk5 Stay].
    + rewrite goto_same. exact Ss.
    + apply Keep; cbn; auto; easy.
  - (* data = c->data *)
    injection E as <- <-. exists [], m. rewrite (Own eq_refl) in *. rewrite Ep in Ss. cbn in Ss.
    split; [constructor|]. split; [reflexivity|]. destruct m as [sl st]. cbn [slot stat] in *.
    apply Mk; [mk1 So'|mk2| | |mk5 Stay].
    + rewrite goto_same. exact Ss.
    + apply Keep; cbn; auto; easy.
  - (* c->data = NULL *)
    injection E as <- <-. exists [], m. rewrite (Own eq_refl) in *. rewrite Ep in Ss. cbn in Ss.
    split; [constructor|]. split; [reflexivity|]. destruct m as [sl st]. cbn [slot stat] in *.
    apply Mk; [mk1 So'|mk2| | |mk5 Stay].
    + rewrite goto_same. exact Ss.
    + apply Keep; cbn; auto; easy.
  - (* c->done = false *)
    injection E as <- <-. exists [Act t], (mk_mail None (set_stat (stat m) t (Received v))). rewrite (Own eq_refl) in *.
    rewrite Ep in Ss. destruct Ss as [Sd Ss].
    split; [econstructor; [apply m_wait; [now rewrite St'|exact Ss]|constructor]|]. split; [reflexivity|].
    apply Mk; [mk1 So'|mk2| | |mk5 Stay].
    + rewrite goto_same. reflexivity.
    + discriminate.
  - (* unlock in wait *)
    injection E as <- <-. exists [Ev (Ret_wait t v)], (mk_mail (slot m) (set_stat (stat m) t Ready)). rewrite (Own eq_refl) in *.
    split; [econstructor; [apply m_ret_wait; now rewrite St'|constructor]|]. split; [reflexivity|].
    rewrite Ep in Ss. apply Mk; [mk1 So'|mk2| | |mk5 Stay].
    + exact Ss.
    + apply Keep; cbn; auto; easy.
Qed.
Lemma mrun_app s l s1 l2 s2 : mrun s l s1 -> mrun s1 l2 s2 -> mrun s (l ++ l2) s2.
Proof. induction 1; cbn; intros; [assumption|]. econstructor; eauto. Qed.
Lemma visible_app a b : visible (a ++ b) = visible a ++ visible b.
Proof. induction a as [|[e|t] a IH]; cbn; rewrite ?IH; reflexivity. Qed.
Lemma sim_exec l : forall s m s' h, sim s m -> exec s l = Some (s', h) -> exists r m', mrun m r m' /\ visible r = h /\ sim s' m'.
Proof.
  induction l as [|[t c] l IH]; intros s m s' h Hs E; cbn in E.
  - injection E as <- <-. exists [], m. split; [constructor|]. auto.
  - destruct (step s t c) as [[s1 e]|] eqn:E1; [|discriminate]. destruct (exec s1 l) as [[s2 e']|] eqn:E2; [|discriminate].
    injection E as <- <-. destruct (sim_step s m t c s1 e Hs E1) as (r1 & m1 & R1 & V1 & S1).
    destruct (IH s1 m1 s2 e' S1 E2) as (r2 & m2 & R2 & V2 & S2). exists (r1 ++ r2), m2.
    split; [eapply mrun_app; eauto|]. split; [now rewrite visible_app, V1, V2|exact S2].
Qed.
Lemma reach_sim s h : reachable s h -> exists r m, mrun mail_start r m /\ visible r = h /\ sim s m.
Proof. intros (n & l & E). exact (sim_exec l _ _ s h (sim_start n) E). Qed.
Lemma exec_app a : forall s s1 h1 b s2 h2, exec s a = Some (s1, h1) -> exec s1 b = Some (s2, h2) -> exec s (a ++ b) = Some (s2, h1 ++ h2).
Proof.
  induction a as [|[t c] a IH]; intros s s1 h1 b s2 h2 E1 E2; cbn in *.
  - injection E1 as <- <-. exact E2.
  - destruct (step s t c) as [[s0 e]|]; [|discriminate]. destruct (exec s0 a) as [[s3 e3]|] eqn:E3; [|discriminate].
    injection E1 as <- <-. now rewrite (IH _ _ _ _ _ _ E3 E2), app_assoc.
Qed.
Lemma reach_more s h l s' h' : reachable s h -> exec s l = Some (s', h') -> reachable s' (h ++ h').
Proof. intros (n & a & E) E'. exists n, (a ++ l). eapply exec_app; eauto. Qed.

(** Delivery. *)
Definition delivers (s : cond) : Prop := exists l s' h t v, exec s l = Some (s', h) /\
  forallb (fun x => own_step (snd x)) l = true /\ In (Ret_wait t v) h.
Lemma delivers_step s t c s1 e : step s t c = Some (s1, e) -> own_step c = true -> delivers s1 -> delivers s.
Proof.
  intros E Hc (l & s' & h & u & v & El & Hl & Hi). exists ((t, c) :: l), s', (e ++ h), u, v. cbn.
  rewrite E, El, Hc. split; [reflexivity|]. split; [exact Hl|]. apply in_or_app. auto.
Qed.
Lemma ltb_true t s : (t < threads s)%nat -> negb (Nat.ltb t (threads s)) = false.
Proof. intro H. now rewrite (proj2 (Nat.ltb_lt _ _) H). Qed.
Ltac take t Ht Hp := eapply (delivers_step _ t Run); [unfold step; rewrite (ltb_true _ _ Ht), Hp; reflexivity|reflexivity|].
Lemma d_unlock s t v : (t < threads s)%nat -> pcs s t = W_unlock v -> delivers s.
Proof.
  intros Ht Hp. exists [(t, Run)]. cbn [exec]. unfold step. rewrite (ltb_true _ _ Ht), Hp.
  do 2 eexists. exists t, v. split; [reflexivity|]. split; [reflexivity|]. now left.
Qed.
Lemma d_clear s t v : (t < threads s)%nat -> pcs s t = W_clear v -> delivers s.
Proof. intros Ht Hp. take t Ht Hp. apply (d_unlock _ t v); [exact Ht|]. apply goto_same. Qed.
Lemma d_null s t v : (t < threads s)%nat -> pcs s t = W_null v -> delivers s.
Proof. intros Ht Hp. take t Ht Hp. apply (d_clear _ t v); [exact Ht|]. apply goto_same. Qed.
Lemma d_load s t : (t < threads s)%nat -> pcs s t = W_load -> delivers s.
Proof. intros Ht Hp. take t Ht Hp. apply (d_null _ t (cdata s)); [exact Ht|]. apply goto_same. Qed.
Lemma d_test s t : (t < threads s)%nat -> cdone s = true -> pcs s t = W_test -> delivers s.
Proof.
  intros Ht Hd Hp. eapply (delivers_step _ t Run); [unfold step; rewrite (ltb_true _ _ Ht), Hp, Hd; reflexivity|reflexivity|].
  apply (d_load _ t); [exact Ht|]. apply goto_same.
Qed.
Lemma d_lock s t : (t < threads s)%nat -> cdone s = true -> owner s = None -> pcs s t = W_lock \/ pcs s t = W_relock -> delivers s.
Proof.
  intros Ht Hd Ho [Hp|Hp]; (eapply (delivers_step _ t Run); [unfold step; rewrite (ltb_true _ _ Ht), Hp, Ho; reflexivity|reflexivity|]);
    apply (d_test _ t); [exact Ht|exact Hd|apply goto_same|exact Ht|exact Hd|apply goto_same].
Qed.
Definition rank (p : pc) : nat := match p with S_data _ => 4 | S_done _ => 3 | S_wake _ => 2 | S_unlock _ => 1 | _ => 0 end%nat.
Lemma wake_one s : exists w p, wake s w = Some p /\ own_step (Wake w) = true.
Proof.
  set (w := filter (fun u => blocked (pcs s u)) (seq 0 (threads s))). exists (firstn 1 w). unfold wake.
  match goal with |- exists p, (if ?b then _ else _) = _ /\ _ => assert (E : b = true) end.
  { apply andb_true_iff. split.
    - apply forallb_forall. intros u Hu. assert (Hw : In u w) by (rewrite <- (firstn_skipn 1 w); apply in_or_app; now left).
      apply filter_In in Hw as [H1 H2]. apply in_seq in H1. rewrite H2, andb_true_r. apply Nat.ltb_lt. lia.
    - destruct (existsb _ _) eqn:Ex; [|reflexivity]. cbn. apply existsb_exists in Ex as (u & H1 & H2).
      assert (In u w) by (apply filter_In; auto). destruct w; easy. }
  rewrite E. eexists. split; [reflexivity|]. cbn [own_step]. destruct w; reflexivity.
Qed.
Lemma delivery n : forall s m t, sim s m -> cdone s = true -> status_of (pcs s t) = To_wait -> (rank (at_owner s) <= n)%nat -> delivers s.
Proof.
  induction n as [|n IH]; intros s m t Hs Hd Ht Hn; pose proof Hs as [So Ss St Sw Si];
    (assert (Hin : (t < threads s)%nat) by (apply Si; intro H; rewrite H in Ht; discriminate Ht)).
  all: unfold at_owner in *; destruct (owner s) as [o|] eqn:Eo.
  all: try (assert (Ho : holding (pcs s o) = true) by (now apply So)).
  all: try (assert (Hio : (o < threads s)%nat) by (apply Si; intro H; rewrite H in Ho; discriminate Ho)).
  (* nobody holds the mutex *)
  all: try (assert (A : forall u, holding (pcs s u) = false) by (intro u; destruct (holding (pcs s u)) eqn:H; [apply So in H; congruence|reflexivity]);
    assert (W : forall u, (u < threads s)%nat -> match pcs s u with W_relock | W_test | W_load | W_null _ | W_clear _ | S_wake _ => True | _ => False end -> delivers s)
      by (intros u Hu Hp; specialize (A u); destruct (pcs s u) eqn:Hpu; try easy; apply (d_lock s u); auto);
    specialize (A t); destruct (pcs s t) eqn:Ept; try easy;
    [apply (d_lock s t); auto | destruct Sw as (u & Hu & Hp); [exact Hd|exists t; now rewrite Ept|exact (W u Hu Hp)] | apply (d_lock s t); auto]).
  all: destruct (pcs s o) eqn:Epo; try discriminate Ho; cbn [rank] in Hn; try lia.
  all: try (now apply (d_test s o)); try (now apply (d_load s o)); try (now apply (d_null s o v)); try (now apply (d_clear s o v)); try (now apply (d_unlock s o v)).
  all: try (destruct Ss; congruence).
  all: assert (Hto : t <> o) by (intros ->; rewrite Epo in Ht; discriminate Ht).
  - (* S_data *)
    destruct (step s o Run) as [[s1 e]|] eqn:E; [|unfold step in E; rewrite (ltb_true _ _ Hio), Epo in E; discriminate E].
    apply (delivers_step s o Run s1 e E eq_refl). destruct (sim_step s m o Run s1 e Hs E) as (r & m1 & _ & _ & S1).
    unfold step in E; rewrite (ltb_true _ _ Hio), Epo in E. injection E as <- <-.
    apply (IH _ m1 t S1); [exact Hd|cbn; now rewrite goto_other|]. unfold at_owner. cbn [owner pcs]. rewrite Eo, goto_same. cbn. lia.
  - destruct (step s o Run) as [[s1 e]|] eqn:E; [|unfold step in E; rewrite (ltb_true _ _ Hio), Epo in E; discriminate E].
    apply (delivers_step s o Run s1 e E eq_refl). destruct (sim_step s m o Run s1 e Hs E) as (r & m1 & _ & _ & S1).
    unfold step in E; rewrite (ltb_true _ _ Hio), Epo in E. injection E as <- <-.
    apply (IH _ m1 t S1); [reflexivity|cbn; now rewrite goto_other|]. unfold at_owner. cbn [owner pcs]. rewrite Eo, goto_same. cbn. lia.
  - destruct (wake_one s) as (w & p & Ew & Eo1). pose proof (wake_spec s w p Ew) as (W1 & W2 & _).
    destruct (step s o (Wake w)) as [[s1 e]|] eqn:E; [|unfold step in E; rewrite (ltb_true _ _ Hio), Epo, Ew in E; discriminate E].
    apply (delivers_step s o (Wake w) s1 e E Eo1). destruct (sim_step s m o (Wake w) s1 e Hs E) as (r & m1 & _ & _ & S1).
    unfold step in E; rewrite (ltb_true _ _ Hio), Epo, Ew in E. injection E as <- <-.
    apply (IH _ m1 t S1); [exact Hd| |].
    + cbn. rewrite goto_other by exact Hto. destruct (W2 t) as [[-> _]|[-> _]]; [reflexivity|exact Ht].
    + unfold at_owner. cbn [owner pcs]. rewrite Eo, goto_same. cbn. lia.
  - destruct (step s o Run) as [[s1 e]|] eqn:E; [|unfold step in E; rewrite (ltb_true _ _ Hio), Epo in E; discriminate E].
    apply (delivers_step s o Run s1 e E eq_refl). destruct (sim_step s m o Run s1 e Hs E) as (r & m1 & _ & _ & S1).
    unfold step in E; rewrite (ltb_true _ _ Hio), Epo in E. injection E as <- <-.
    apply (IH _ m1 t S1); [exact Hd|cbn; now rewrite goto_other|]. unfold at_owner. cbn. lia.
Qed.

(** Counting. *)
Definition fins (v : Z) (m : mail) (F : list nat) : Prop := NoDup F /\ forall t, In t F <-> stat m t = Received v.
Definition pends (v : Z) (m : mail) (P : list nat) : Prop := NoDup P /\ forall t, In t P <-> stat m t = To_signal v.
Lemma remove_len (t : nat) : forall l, NoDup l -> In t l -> exists l', NoDup l' /\ length l = S (length l') /\ forall u, In u l' <-> In u l /\ u <> t.
Proof.
  intros l Hl Hi. destruct (in_split t l Hi) as (a & b & ->). exists (a ++ b). apply NoDup_remove in Hl as [H1 H2].
  split; [exact H1|]. split; [rewrite !app_length; cbn; lia|]. intro u. rewrite !in_app_iff. cbn [In].
  split; [|intros [[H|[H|H]] Hn]; auto; congruence]. intros H. split; [tauto|]. intros ->. apply H2, in_or_app. exact H.
Qed.
Lemma add_list v0 f f' t (l : list nat) : (forall u, u <> t -> f' u = f u) -> NoDup l -> (forall u : nat, In u l <-> f u = v0) ->
  f t <> v0 -> f' t = v0 -> NoDup (t :: l) /\ forall u : nat, In u (t :: l) <-> f' u = (v0 : status).
Proof.
  intros Ho Hn Hi H1 H2. split; [constructor; [now rewrite Hi|exact Hn]|]. intro u. cbn [In].
  destruct (Nat.eq_dec t u) as [<-|Hu]; [tauto|]. rewrite Ho by auto. rewrite Hi. tauto.
Qed.
Lemma keep_list (v0 : status) f f' t (l : list nat) : (forall u, u <> t -> f' u = f u) -> (forall u : nat, In u l <-> f u = v0) ->
  f t <> v0 -> f' t <> v0 -> forall u : nat, In u l <-> f' u = v0.
Proof.
  intros Ho Hi H1 H2 u. destruct (Nat.eq_dec u t) as [->|Hu]; [rewrite Hi; tauto|]. rewrite Ho by auto. apply Hi.
Qed.
Lemma drop_list (v0 : status) f f' t (l : list nat) : (forall u, u <> t -> f' u = f u) -> NoDup l -> (forall u : nat, In u l <-> f u = v0) ->
  f t = v0 -> f' t <> v0 -> exists l', NoDup l' /\ length l = S (length l') /\ forall u : nat, In u l' <-> f' u = v0.
Proof.
  intros Ho Hn Hi H1 H2. destruct (remove_len t l Hn) as (l' & N & L & I); [now apply Hi|]. exists l'. split; [exact N|]. split; [exact L|].
  intro u. rewrite I, Hi. destruct (Nat.eq_dec u t) as [->|Hu]; [tauto|]. rewrite Ho by auto. tauto.
Qed.
Definition full (v : Z) (m : mail) : nat := match slot m with Some d => if d =? v then 1 else 0 | None => 0 end.
Lemma count_run v m l m' : mrun m l m' -> forall F P, fins v m F -> pends v m P ->
  exists F' P', fins v m' F' /\ pends v m' P' /\
  (receipts v (visible l) + length F' + full v m' + length P' <= length F + full v m + length P + sends v (visible l))%nat.
Proof.
  induction 1 as [m|m e m1 l m2 Hs Hr IH]; intros F P [F1 F2] [P1 P2].
  - exists F, P. cbn. split; [now split|]. split; [now split|]. lia.
  - assert (Step : exists F1 P1, fins v m1 F1 /\ pends v m1 P1 /\
      (receipts v (visible [e]) + length F1 + full v m1 + length P1 <= length F + full v m + length P + sends v (visible [e]))%nat).
    2: { destruct Step as (F3 & P3 & HF & HP & Hle). destruct (IH F3 P3 HF HP) as (F4 & P4 & HF4 & HP4 & Hle4).
         exists F4, P4. split; [exact HF4|]. split; [exact HP4|].
         assert (R : forall v, receipts v (visible (e :: l)) = (receipts v (visible [e]) + receipts v (visible l))%nat)
           by (intro; unfold receipts; destruct e; cbn; [destruct (match e with Ret_wait _ d => d =? v0 | _ => false end)|]; reflexivity).
         assert (S : forall v, sends v (visible (e :: l)) = (sends v (visible [e]) + sends v (visible l))%nat)
           by (intro; unfold sends; destruct e; cbn; [destruct (match e with Call_signal _ d => d =? v0 | _ => false end)|]; reflexivity).
         rewrite R, S. lia. }
    assert (Ho : forall t x u, u <> t -> set_stat (stat m) t x u = stat m u) by (intros; now apply set_other).
    inversion Hs; subst; unfold fins, pends, full; cbn [slot stat].
    + (* call signal *)
      destruct (Z.eq_dec d v) as [->|Hd].
      * destruct (add_list (To_signal v) _ _ t P (Ho t (To_signal v)) P1 P2) as [A B]; [rewrite H; discriminate|apply set_same|].
        exists F, (t :: P). split; [split; [exact F1|]|]. { eapply keep_list; [apply Ho|exact F2|rewrite H; discriminate|rewrite set_same; discriminate]. }
        split; [now split|]. unfold receipts, sends. cbn. rewrite Z.eqb_refl. cbn. lia.
      * exists F, P. split; [split; [exact F1|]|]. { eapply keep_list; [apply Ho|exact F2|rewrite H; discriminate|rewrite set_same; discriminate]. }
        split; [split; [exact P1|]|]. { eapply keep_list; [apply Ho|exact P2|rewrite H; discriminate|rewrite set_same; congruence]. }
        unfold receipts, sends. cbn. rewrite (proj2 (Z.eqb_neq d v) Hd). cbn. lia.
    + exists F, P. split; [split; [exact F1|]|]. { eapply keep_list; [apply Ho|exact F2|rewrite H; discriminate|rewrite set_same; discriminate]. }
      split; [split; [exact P1|]|]. { eapply keep_list; [apply Ho|exact P2|rewrite H; discriminate|rewrite set_same; discriminate]. }
      unfold receipts, sends. cbn. lia.
    + (* signal acts *)
      destruct (Z.eq_dec d v) as [->|Hd].
      * destruct (drop_list (To_signal v) _ _ t P (Ho t Signalled) P1 P2 H) as (P' & A & B & C); [rewrite set_same; discriminate|].
        exists F, P'. split; [split; [exact F1|]|]. { eapply keep_list; [apply Ho|exact F2|rewrite H; discriminate|rewrite set_same; discriminate]. }
        split; [now split|]. unfold receipts, sends. cbn. rewrite Z.eqb_refl. destruct (slot m) as [x|]; [destruct (x =? v)|]; lia.
      * exists F, P. split; [split; [exact F1|]|]. { eapply keep_list; [apply Ho|exact F2|rewrite H; discriminate|rewrite set_same; discriminate]. }
        split; [split; [exact P1|]|]. { eapply keep_list; [apply Ho|exact P2|rewrite H; congruence|rewrite set_same; discriminate]. }
        unfold receipts, sends. cbn. rewrite (proj2 (Z.eqb_neq d v) Hd). lia.
    + (* wait acts *)
      rewrite H0. destruct (Z.eq_dec v0 v) as [->|Hd].
      * destruct (add_list (Received v) _ _ t F (Ho t (Received v)) F1 F2) as [A B]; [rewrite H; discriminate|apply set_same|].
        exists (t :: F), P. split; [now split|]. split; [split; [exact P1|]|]. { eapply keep_list; [apply Ho|exact P2|rewrite H; discriminate|rewrite set_same; discriminate]. }
        unfold receipts, sends. cbn. rewrite Z.eqb_refl. lia.
      * exists F, P. split; [split; [exact F1|]|]. { eapply keep_list; [apply Ho|exact F2|rewrite H; discriminate|rewrite set_same; congruence]. }
        split; [split; [exact P1|]|]. { eapply keep_list; [apply Ho|exact P2|rewrite H; discriminate|rewrite set_same; discriminate]. }
        unfold receipts, sends. cbn. lia.
    + exists F, P. split; [split; [exact F1|]|]. { eapply keep_list; [apply Ho|exact F2|rewrite H; discriminate|rewrite set_same; discriminate]. }
      split; [split; [exact P1|]|]. { eapply keep_list; [apply Ho|exact P2|rewrite H; discriminate|rewrite set_same; discriminate]. }
      unfold receipts, sends. cbn. lia.
    + (* wait returns *)
      destruct (Z.eq_dec v0 v) as [->|Hd].
      * destruct (drop_list (Received v) _ _ t F (Ho t Ready) F1 F2 H) as (F' & A & B & C); [rewrite set_same; discriminate|].
        exists F', P. split; [now split|]. split; [split; [exact P1|]|]. { eapply keep_list; [apply Ho|exact P2|rewrite H; discriminate|rewrite set_same; discriminate]. }
        unfold receipts, sends. cbn. rewrite Z.eqb_refl. cbn. lia.
      * exists F, P. split; [split; [exact F1|]|]. { eapply keep_list; [apply Ho|exact F2|rewrite H; congruence|rewrite set_same; discriminate]. }
        split; [split; [exact P1|]|]. { eapply keep_list; [apply Ho|exact P2|rewrite H; discriminate|rewrite set_same; discriminate]. }
        unfold receipts, sends. cbn. rewrite (proj2 (Z.eqb_neq v0 v) Hd). cbn. lia.
Qed.
Lemma linearizable_counts h v : linearizable h -> (receipts v h <= sends v h)%nat.
Proof.
  intros (l & m & Hr & <-).
  destruct (count_run v mail_start l m Hr [] []) as (F & P & _ & _ & H); [split; [constructor|easy]|split; [constructor|easy]|].
  cbn in H. lia.
Qed.

(** To show that a state comes up, run the schedule. *)
Lemma reach_by n l (f : cond -> list event -> bool) :
  match exec (cond_start n) l with Some (s, h) => f s h | None => false end = true -> exists s h, reachable s h /\ f s h = true.
Proof.
  destruct (exec (cond_start n) l) as [[s h]|] eqn:E; [|discriminate]. intro H. exists s, h. split; [now exists n, l|exact H].
Qed.
