(** C124: mutex/sc_mutex.c. *)
From Verif Require Import Base MutexModel.

(** ** Specification: read off the history alone *)
Definition ev_locked (t : nat) (e : mev) : bool := match e with Locked u => Nat.eqb u t | _ => false end.
Definition ev_lock (t : nat) (e : mev) : bool := match e with Lock u => Nat.eqb u t | _ => false end.
Definition ev_unlock (t : nat) (e : mev) : bool := match e with Unlock u => Nat.eqb u t | _ => false end.
Definition times (f : mev -> bool) (es : list mev) : Z := zlen (filter f es).
(** How often [t] holds the mutex, and how many of its lock calls have not returned. *)
Definition holds (es : list mev) (t : nat) : Z := times (ev_locked t) es - times (ev_unlock t) es.
Definition waits (es : list mev) (t : nat) : Z := times (ev_lock t) es - times (ev_locked t) es.

(** ** Proofs *)
Lemma times_app f a b : times f (a ++ b) = times f a + times f b.
Proof. unfold times. now rewrite filter_app, zlen_app. Qed.
Lemma times_one f e : times f [e] = if f e then 1 else 0.
Proof. unfold times. cbn [filter]. now destruct (f e). Qed.
Lemma times_pos f a : 0 <= times f a.
Proof. apply zlen_nonneg. Qed.
Lemma m_run_app win es1 : forall s es2, m_run win s (es1 ++ es2) = match m_run win s es1 with Some (Ok s') => m_run win s' es2 | o => o end.
Proof.
  induction es1 as [|e r IH]; intros s es2; cbn [app m_run]; [reflexivity|].
  destruct (m_step win s e) as [[s'| |]|]; [apply IH|reflexivity|reflexivity|reflexivity].
Qed.
Lemma m_in_out t u l : m_in u (m_out t l) = m_in u l && negb (Nat.eqb u t).
Proof.
  unfold m_in, m_out. induction l as [|x l IH]; [reflexivity|]. cbn [filter existsb].
  destruct (Nat.eqb_spec x t) as [->|Hx]; cbn [negb existsb]; rewrite IH; [destruct (Nat.eqb_spec u t); cbn; destruct (existsb _ l); reflexivity|].
  destruct (Nat.eqb_spec u x) as [->|]; cbn; [|reflexivity]. now destruct (Nat.eqb_spec x t).
Qed.

Record inv (win : bool) (es : list mev) (s : mtx) : Prop := {
  i_wait : forall t, waits es t = if m_in t (m_wait s) then 1 else 0;
  i_hold : forall t, holds es t = match m_who s with Some u => if Nat.eqb u t then m_deep s else 0 | None => 0 end;
  i_deep : match m_who s with Some _ => 1 <= m_deep s /\ (win = false -> m_deep s = 1) | None => m_deep s = 0 end }.

Lemma inv_new win : inv win [] mtx_new.
Proof. now split. Qed.
Lemma holds_snoc es e t : holds (es ++ [e]) t = holds es t + (if ev_locked t e then 1 else 0) - (if ev_unlock t e then 1 else 0).
Proof. unfold holds. rewrite !times_app, !times_one. lia. Qed.
Lemma waits_snoc es e t : waits (es ++ [e]) t = waits es t + (if ev_lock t e then 1 else 0) - (if ev_locked t e then 1 else 0).
Proof. unfold waits. rewrite !times_app, !times_one. lia. Qed.

Lemma inv_step win es s e s' : inv win es s -> m_step win s e = Some (Ok s') -> inv win (es ++ [e]) s'.
Proof.
  intros [Hw Hh Hd] E. destruct e as [t|t|t]; cbn [m_step] in E; destruct (m_in t (m_wait s)) eqn:Et; try discriminate.
  - injection E as <-. split; cbn [m_who m_deep m_wait]; [| |exact Hd].
    + intro u. rewrite waits_snoc, Hw. cbn [ev_lock ev_locked]. unfold m_in at 2. cbn [existsb]. fold (m_in u (m_wait s)).
      rewrite (Nat.eqb_sym u t). destruct (Nat.eqb_spec t u) as [->|]; [rewrite Et; reflexivity|cbn; lia].
    + intro u. rewrite holds_snoc, Hh. cbn [ev_locked ev_unlock]. lia.
  - unfold m_locked in E. destruct (m_who s) as [w|] eqn:Ew.
    + destruct win; cbn [andb] in E; [|discriminate]. destruct (Nat.eqb_spec w t) as [->|]; [|discriminate]. injection E as <-.
      split; cbn [m_who m_deep m_wait].
      * intro u. rewrite waits_snoc, Hw, m_in_out. cbn [ev_lock ev_locked]. rewrite (Nat.eqb_sym u t).
        destruct (Nat.eqb_spec t u) as [->|]; [rewrite Et; reflexivity|cbn [negb]; rewrite Bool.andb_true_r; lia].
      * intro u. rewrite holds_snoc, Hh. cbn [ev_locked ev_unlock]. destruct (Nat.eqb t u); lia.
      * split; [lia|discriminate].
    + injection E as <-. split; cbn [m_who m_deep m_wait].
      * intro u. rewrite waits_snoc, Hw, m_in_out. cbn [ev_lock ev_locked]. rewrite (Nat.eqb_sym u t).
        destruct (Nat.eqb_spec t u) as [->|]; [rewrite Et; reflexivity|cbn [negb]; rewrite Bool.andb_true_r; lia].
      * intro u. rewrite holds_snoc, Hh. cbn [ev_locked ev_unlock]. destruct (Nat.eqb t u); lia.
      * split; [lia|reflexivity].
  - unfold m_unlock in E. destruct (m_who s) as [w|] eqn:Ew; [|discriminate].
    destruct (Nat.eqb_spec w t) as [->|]; [|discriminate]. injection E as <-.
    destruct (Z.eqb_spec (m_deep s) 1) as [E1|E1].
    + split; cbn [m_who m_deep m_wait]; [| |reflexivity].
      * intro u. rewrite waits_snoc, Hw. cbn [ev_lock ev_locked]. lia.
      * intro u. rewrite holds_snoc, Hh. cbn [ev_locked ev_unlock]. destruct (Nat.eqb t u); lia.
    + split; cbn [m_who m_deep m_wait].
      * intro u. rewrite waits_snoc, Hw. cbn [ev_lock ev_locked]. lia.
      * intro u. rewrite holds_snoc, Hh. cbn [ev_locked ev_unlock]. destruct (Nat.eqb t u); lia.
      * split; [lia|]. intro F. destruct Hd as [_ Hd]. specialize (Hd F). lia.
Qed.
Lemma inv_run win es2 : forall es1 s s', inv win es1 s -> m_run win s es2 = Some (Ok s') -> inv win (es1 ++ es2) s'.
Proof.
  induction es2 as [|e r IH]; intros es1 s s' H E; cbn [m_run] in E.
  - injection E as <-. now rewrite app_nil_r.
  - destruct (m_step win s e) as [[s1| |]|] eqn:E1; try discriminate. replace (es1 ++ e :: r) with ((es1 ++ [e]) ++ r) by (now rewrite <- app_assoc).
    exact (IH _ _ _ (inv_step _ _ _ _ _ H E1) E).
Qed.
Lemma inv_of win es s : m_run win mtx_new es = Some (Ok s) -> inv win es s.
Proof. exact (inv_run win es [] mtx_new s (inv_new win)). Qed.

(** C124: in every history at most one thread holds the mutex; on POSIX at most once. *)
Theorem mutex_exclusion win es s : m_run win mtx_new es = Some (Ok s) ->
  (forall t u, 0 < holds es t -> 0 < holds es u -> t = u) /\
  (forall t, 0 <= holds es t /\ 0 <= waits es t <= 1 /\ (win = false -> holds es t <= 1)).
Proof.
  intro E. destruct (inv_of win es s E) as [Hw Hh Hd]. split.
  - intros t u. rewrite !Hh. destruct (m_who s) as [w|]; [|lia]. destruct (Nat.eqb_spec w t); [|lia]. destruct (Nat.eqb_spec w u); [|lia]. congruence.
  - intro t. rewrite Hh, Hw. destruct (m_who s) as [w|]; destruct (m_in t (m_wait s)); try destruct (Nat.eqb w t); repeat split; try lia; intro F;
      destruct Hd as [_ Hd]; rewrite (Hd F); lia.
Qed.
Print Assumptions mutex_exclusion.
Example mutex_exclusion_ex : exists s, let es := [Lock 1; Lock 2; Locked 2; Lock 3; Unlock 2; Locked 1]%nat in
  m_run false mtx_new es = Some (Ok s) /\ holds es 1 = 1 /\ holds es 2 = 0 /\ waits es 3 = 1.
Proof. eexists; repeat split; reflexivity. Qed.

(** C124: unlocking what the thread holds is always defined; a waiting thread's call can return
    as soon as no thread holds the mutex, on Windows also while the thread itself holds it. *)
Theorem mutex_progress win es s t : m_run win mtx_new es = Some (Ok s) ->
  (waits es t = 0 -> 0 < holds es t -> exists s', m_run win mtx_new (es ++ [Unlock t]) = Some (Ok s')) /\
  (waits es t = 1 -> ((forall u, holds es u = 0) \/ (win = true /\ 0 < holds es t)) ->
    exists s', m_run win mtx_new (es ++ [Locked t]) = Some (Ok s')) /\
  (waits es t = 0 -> holds es t = 0 -> m_run win mtx_new (es ++ [Unlock t]) = Some UB).
Proof.
  intro E. destruct (inv_of win es s E) as [Hw Hh Hd]. rewrite !m_run_app, E. cbn [m_run m_step].
  specialize (Hw t). split; [|split].
  - intros H0 H1. rewrite Hw in H0. destruct (m_in t (m_wait s)); [discriminate|]. rewrite Hh in H1. unfold m_unlock.
    destruct (m_who s) as [w|]; [|lia]. destruct (Nat.eqb w t); [|lia]. now eexists.
  - intros H0 H1. rewrite Hw in H0. destruct (m_in t (m_wait s)); [|discriminate]. unfold m_locked.
    destruct (m_who s) as [w|]; [|now eexists]. destruct H1 as [H1|[-> H1]].
    + specialize (H1 w). rewrite Hh, Nat.eqb_refl in H1. lia.
    + rewrite Hh in H1. destruct (Nat.eqb w t); [now eexists|lia].
  - intros H0 H1. rewrite Hw in H0. destruct (m_in t (m_wait s)); [discriminate|]. rewrite Hh in H1. unfold m_unlock.
    destruct (m_who s) as [w|]; [|reflexivity]. destruct (Nat.eqb w t); [lia|reflexivity].
Qed.
Print Assumptions mutex_progress.
Example mutex_progress_ex : let es := [Lock 1; Locked 1; Lock 2; Unlock 1]%nat in
  (exists s, m_run false mtx_new es = Some (Ok s)) /\ waits es 2 = 1 /\ holds es 1 = 0.
Proof. split; [eexists|split]; reflexivity. Qed.

(** C124: on POSIX a thread that locks what it holds waits for ever, and so does every thread that locks after it:
    no lock call returns any more. *)
Theorem mutex_relock es s t more s' : m_run false mtx_new es = Some (Ok s) -> 0 < holds es t -> waits es t = 1 ->
  m_run false mtx_new (es ++ more) = Some (Ok s') ->
  waits (es ++ more) t = 1 /\ forall u, times (ev_locked u) more = 0.
Proof.
  intros E H0 H1. revert s'. induction more as [|e more IH] using rev_ind; intros s' E'.
  - rewrite app_nil_r. now split.
  - rewrite app_assoc in *. rewrite m_run_app in E'. destruct (m_run false mtx_new (es ++ more)) as [[s1| |]|] eqn:E1; try discriminate.
    destruct (IH _ eq_refl) as [Hw Hn]. destruct (inv_of false _ _ E1) as [Iw Ih _]. cbn [m_run] in E'.
    destruct (m_step false s1 e) as [[s2| |]|] eqn:E2; try discriminate. pose proof (Ih t) as It.
    assert (Ht : m_in t (m_wait s1) = true) by (rewrite Iw in Hw; destruct (m_in t (m_wait s1)); [reflexivity|discriminate]).
    assert (Hu : times (ev_unlock t) more = 0).
    { clear -E Ht E1 H0 H1 Hn. destruct (inv_of false _ _ E) as [Iw Ih _]. revert s1 E1 Ht. clear Iw Ih.
      induction more as [|e more IH] using rev_ind; intros s1 E1 Ht; [reflexivity|].
      assert (Hn' : forall u, times (ev_locked u) more = 0).
      { intro u. specialize (Hn u). rewrite times_app in Hn. pose proof (times_pos (ev_locked u) more). pose proof (times_pos (ev_locked u) [e]). lia. }
      rewrite app_assoc, m_run_app in E1. destruct (m_run false mtx_new (es ++ more)) as [[s0| |]|] eqn:E0; try discriminate.
      destruct (inv_of false _ _ E0) as [Iw _ _].
      assert (Ht0 : m_in t (m_wait s0) = true).
      { specialize (Iw t). unfold waits in Iw, H1. rewrite !times_app, Hn' in Iw. pose proof (times_pos (ev_lock t) more). destruct (m_in t (m_wait s0)); [reflexivity|lia]. }
      rewrite times_app, (IH Hn' _ eq_refl Ht0), times_one. destruct e as [x|x|x]; cbn [ev_unlock]; try reflexivity.
      destruct (Nat.eqb_spec x t) as [->|]; [|reflexivity]. cbn [m_run m_step] in E1. rewrite Ht0 in E1. discriminate. }
    assert (Hh : 0 < holds (es ++ more) t) by (unfold holds in *; rewrite !times_app, Hn, Hu; lia).
    rewrite It in Hh. destruct (m_who s1) as [w|] eqn:Ew; [|lia]. destruct e as [x|x|x].
    + split; [|intro u; rewrite times_app, Hn, times_one; reflexivity]. rewrite waits_snoc, Hw. cbn [ev_lock ev_locked].
      destruct (Nat.eqb_spec x t) as [->|]; [|reflexivity]. cbn [m_step] in E2. rewrite Ht in E2. discriminate.
    + cbn [m_step] in E2. unfold m_locked in E2. rewrite Ew in E2. cbn [andb] in E2. destruct (m_in x (m_wait s1)); discriminate.
    + split; [|intro u; rewrite times_app, Hn, times_one; reflexivity]. rewrite waits_snoc, Hw. reflexivity.
Qed.
Print Assumptions mutex_relock.
Example mutex_relock_ex : let es := [Lock 1; Locked 1; Lock 1]%nat in
  (exists s, m_run false mtx_new es = Some (Ok s)) /\ holds es 1 = 1 /\ waits es 1 = 1 /\
  (exists s, m_run false mtx_new (es ++ [Lock 2]%nat) = Some (Ok s)) /\ exists s, m_run true mtx_new (es ++ [Locked 1; Unlock 1; Unlock 1; Lock 2; Locked 2]%nat) = Some (Ok s).
Proof. repeat split; eexists; reflexivity. Qed.
