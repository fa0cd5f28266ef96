(** Shutdown requests handled by several threads at once. *)
From Verif Require Import Base FatalModel SigConcModel.

(** No request has arrived yet. *)
Definition calm (n : crowd) : Prop := busy n = [] /\ flag n = false /\ got n = 0 /\ ended n = None.

(** ** Invariant *)

(** Handlers whose byte is not out. *)
Definition pending (x : Z * frame) : bool :=
  match fpc (snd x) with Sent true | Restoring => false | _ => true end.
Definition todo (l : list (Z * frame)) : Z := zlen (filter pending l).
(** Past the assignment of the flag. *)
Definition past (p : pc) : bool := match p with Entered | Tested => false | _ => true end.

(** The errno thread [t] will have when its handlers are done. *)
Fixpoint final (v : Z) (l : list (Z * frame)) (t : Z) : Z :=
  match l with
  | [] => v
  | (u, f) :: r => final (if u =? t then fsaved f else v) r t
  end.

Record inv (n : crowd) (k : Z) (m : crowd) : Prop := mk_inv {
  i_count : ended m = None -> got m + todo (busy m) = k;
  i_got : 0 <= got m <= k;
  i_fd : cfd m = cfd n;
  i_none : cfd n = -1 -> got m = 0 /\
    forall t f, In (t, f) (busy m) -> match fpc f with Entered | Tested | Marked => True | _ => False end;
  i_flag : flag m = false -> got m = 0 /\ forall t f, In (t, f) (busy m) -> past (fpc f) = false;
  i_err : ended m = None -> forall t, final (errs m t) (busy m) t = errs n t;
  i_code : forall c, ended m = Some c -> c = 1 \/ (c = 0 /\ cfd n = -1) }.

Lemma todo_app l r : todo (l ++ r) = todo l + todo r.
Proof. unfold todo. now rewrite filter_app, zlen_app. Qed.
Lemma todo_cons x r : todo (x :: r) = (if pending x then 1 else 0) + todo r.
Proof. unfold todo. cbn [filter]. destruct (pending x); [rewrite zlen_cons; lia|lia]. Qed.
Lemma todo_pos l : 0 <= todo l.
Proof. apply zlen_nonneg. Qed.

Lemma final_app v l r t : final v (l ++ r) t = final (final v l t) r t.
Proof. revert v. induction l as [|[u f] l IH]; intro v; cbn [app final]; [reflexivity|apply IH]. Qed.
Lemma final_skip v l t : ~ In t (map fst l) -> final v l t = v.
Proof.
  induction l as [|[u f] l IH]; cbn; intro H; [reflexivity|]. replace (u =? t) with false by lia. apply IH. tauto.
Qed.

(** The thread's frame is replaced, or its errno changes, or both. *)
Lemma final_move errs e l t f g r u : ~ In t (map fst l) -> fsaved g = fsaved f ->
  final (set_errno errs t e u) (l ++ (t, g) :: r) u = final (errs u) (l ++ (t, f) :: r) u.
Proof.
  intros N E. unfold set_errno. rewrite !final_app. cbn [final]. rewrite E. destruct (Z.eqb_spec t u) as [->|Nu]; [reflexivity|].
  replace (u =? t) with false by lia. reflexivity.
Qed.
Lemma final_same errs l t f g r u : fsaved g = fsaved f ->
  final (errs u) (l ++ (t, g) :: r) u = final (errs u) (l ++ (t, f) :: r) u.
Proof. intros E. rewrite !final_app. cbn [final]. now rewrite E. Qed.
Lemma final_back errs l t f r u : ~ In t (map fst l) ->
  final (set_errno errs t (fsaved f) u) (l ++ r) u = final (errs u) (l ++ (t, f) :: r) u.
Proof.
  intros N. unfold set_errno. rewrite !final_app. cbn [final]. destruct (Z.eqb_spec t u) as [->|Nu].
  - rewrite Z.eqb_refl, (final_skip (fsaved f) l u N). reflexivity.
  - replace (u =? t) with false by lia. reflexivity.
Qed.

Lemma inv_step kinds n k m new m' : inv n k m -> cstep kinds m new m' -> inv n (k + (if new then 1 else 0)) m'.
Proof.
  intros [Ic Ig If In_ Il Ie Ix] S. pose proof (todo_pos (busy m)) as Tp.
  destruct S as [m t sig e En Hk Hn|m l t f r e En Eb Nl Ep|m l t f r En Eb Nl Ep|m l t f r e En Eb Nl Ep
                |m l t f r e took En Eb Nl Ep|m l t f r e took En Eb Nl Ep|m l t f r En Eb Nl Ep];
    specialize (Ic En); specialize (Ie En); rewrite ?Z.add_0_r.
  - constructor; cbn [busy cfd flag errs got ended]; auto.
    + intros _. rewrite todo_cons. unfold pending at 1. cbn [snd fpc]. lia.
    + lia.
    + intro H. destruct (In_ H) as [H1 H2]. split; [exact H1|]. intros u g [Eg|Hg]; [injection Eg as <- <-; exact I|eapply H2, Hg].
    + intro H. destruct (Il H) as [H1 H2]. split; [exact H1|]. intros u g [Eg|Hg]; [injection Eg as <- <-; reflexivity|eapply H2, Hg].
    + intros _ u. rewrite <- (Ie u). unfold set_errno. cbn [final].
      destruct (Z.eqb_spec t u) as [->|Nu]; [reflexivity|]. replace (u =? t) with false by lia. reflexivity.
    + discriminate.
  - destruct (flag m) eqn:Ef; constructor; cbn [busy cfd flag errs got ended]; rewrite ?Ef; auto; try discriminate.
    + intros c [= <-]. auto.
    + intros _. rewrite Eb in Ic. rewrite todo_app, todo_cons in *. unfold pending in *. cbn [snd fpc at_pc] in *. rewrite Ep in Ic. lia.
    + intro H. destruct (In_ H) as [H1 H2]. rewrite Eb in H2. split; [exact H1|]. intros u g Hg.
      apply in_app_iff in Hg as [Hg|[Eg|Hg]]; [|injection Eg as <- <-; exact I|]; eapply H2, in_app_iff; cbn; eauto.
    + intro H. destruct (Il eq_refl) as [H1 H2]. rewrite Eb in H2. split; [exact H1|]. intros u g Hg.
      apply in_app_iff in Hg as [Hg|[Eg|Hg]]; [|injection Eg as <- <-; reflexivity|]; eapply H2, in_app_iff; cbn; eauto.
    + intros _ u. rewrite <- (Ie u), Eb. now apply final_same.
  - constructor; cbn [busy cfd flag errs got ended]; auto; try discriminate.
    + intros _. rewrite Eb in Ic. rewrite todo_app, todo_cons in *. unfold pending in *. cbn [snd fpc at_pc] in *. rewrite Ep in Ic. lia.
    + intro H. destruct (In_ H) as [H1 H2]. rewrite Eb in H2. split; [exact H1|]. intros u g Hg.
      apply in_app_iff in Hg as [Hg|[Eg|Hg]]; [|injection Eg as <- <-; exact I|]; eapply H2, in_app_iff; cbn; eauto.
    + intros _ u. rewrite <- (Ie u), Eb. now apply final_same.
  - assert (Fl : flag m = true).
    { destruct (flag m) eqn:Ef; [reflexivity|]. destruct (Il eq_refl) as [_ H2]. specialize (H2 t f).
      rewrite Eb, Ep in H2. discriminate H2. apply in_app_iff. cbn. auto. }
    destruct (Z.eqb_spec (cfd m) (-1)) as [Hd|Hd]; constructor; cbn [busy cfd flag errs got ended]; rewrite ?Fl; auto; try discriminate.
    + intros c [= <-]. right. split; [reflexivity|congruence].
    + intros _. rewrite Eb in Ic. rewrite todo_app, todo_cons in *. unfold pending in *. cbn [snd fpc at_pc] in *. rewrite Ep in Ic. lia.
    + intro H. congruence.
    + intros _ u. rewrite <- (Ie u), Eb. now apply final_move.
  - assert (Fl : flag m = true).
    { destruct (flag m) eqn:Ef; [reflexivity|]. destruct (Il eq_refl) as [_ H2]. specialize (H2 t f).
      rewrite Eb, Ep in H2. discriminate H2. apply in_app_iff. cbn. auto. }
    rewrite Eb in Ic. rewrite todo_app, todo_cons in Ic. unfold pending at 1 in Ic. cbn [snd fpc] in Ic. rewrite Ep in Ic.
    pose proof (todo_pos l) as Tl. pose proof (todo_pos r) as Tr.
    constructor; cbn [busy cfd flag errs got ended]; rewrite ?Fl; auto; try discriminate.
    + intros _. rewrite todo_app, todo_cons. unfold pending at 1. cbn [snd fpc at_pc]. destruct took; lia.
    + destruct took; lia.
    + intro H. destruct (In_ H) as [_ H2]. exfalso. specialize (H2 t f). rewrite Eb, Ep in H2. apply H2, in_app_iff. cbn. auto.
    + intros _ u. rewrite <- (Ie u), Eb. now apply final_move.
  - assert (Fl : flag m = true).
    { destruct (flag m) eqn:Ef; [reflexivity|]. destruct (Il eq_refl) as [_ H2]. specialize (H2 t f).
      rewrite Eb, Ep in H2. discriminate H2. apply in_app_iff. cbn. auto. }
    destruct took; constructor; cbn [busy cfd flag errs got ended]; rewrite ?Fl; auto; try discriminate.
    + intros _. rewrite Eb in Ic. rewrite todo_app, todo_cons in *. unfold pending in *. cbn [snd fpc at_pc] in *. rewrite Ep in Ic. lia.
    + intro H. destruct (In_ H) as [_ H2]. exfalso. specialize (H2 t f). rewrite Eb, Ep in H2. apply H2, in_app_iff. cbn. auto.
    + intros _ u. rewrite <- (Ie u), Eb. now apply final_same.
    + intros c [= <-]. auto.
  - assert (Fl : flag m = true).
    { destruct (flag m) eqn:Ef; [reflexivity|]. destruct (Il eq_refl) as [_ H2]. specialize (H2 t f).
      rewrite Eb, Ep in H2. discriminate H2. apply in_app_iff. cbn. auto. }
    constructor; cbn [busy cfd flag errs got ended]; rewrite ?Fl; auto; try discriminate.
    + intros _. rewrite Eb in Ic. rewrite todo_app, todo_cons in *. unfold pending at 1 in Ic. cbn [snd fpc] in Ic. rewrite Ep in Ic. lia.
    + intro H. destruct (In_ H) as [_ H2]. exfalso. specialize (H2 t f). rewrite Eb, Ep in H2. apply H2, in_app_iff. cbn. auto.
    + intros _ u. rewrite <- (Ie u), Eb. now apply final_back.
Qed.

Lemma inv_runs kinds n k m : calm n -> cruns kinds n k m -> inv n k m.
Proof.
  intros (H1 & H2 & H3 & H4) R. induction R as [n|n k m new m' R IH S].
  - constructor; rewrite ?H1, ?H3; cbn; auto; try lia.
    + intros _. split; [reflexivity|]. intros t f [].
    + intros _. split; [reflexivity|]. intros t f [].
    + rewrite H4. discriminate.
  - eapply inv_step; eauto.
Qed.

(** C114: whatever threads shutdown requests arrive on and however their handlers interleave, no
    request is lost: when all handlers have returned and the process has not ended, each one sent
    its byte, and each thread's errno is as before.  The process ends with 0 only if there is no
    descriptor, and otherwise with 1.  Missing: at most one byte, see signal_many_refuted. *)
Theorem signal_many_partial kinds n k m : calm n -> cruns kinds n k m ->
  0 <= got m <= k /\
  (busy m = [] -> ended m = None -> got m = k /\ forall t, errs m t = errs n t) /\
  (cfd n = -1 -> got m = 0) /\
  (0 < got m -> flag m = true) /\
  (forall c, ended m = Some c -> c = 1 \/ (c = 0 /\ cfd n = -1)).
Proof.
  intros C R. destruct (inv_runs _ _ _ _ C R) as [Ic Ig If In_ Il Ie Ix].
  split; [exact Ig|]. split; [|split; [|split; [|exact Ix]]].
  - intros Hb He. specialize (Ic He). specialize (Ie He). rewrite Hb in Ic, Ie. cbn in Ic, Ie. split; [lia|exact Ie].
  - intro H. apply In_, H.
  - intro H. destruct (flag m); [reflexivity|]. destruct (Il eq_refl). lia.
Qed.
Print Assumptions signal_many_partial.

(** Requests that arrive when a handler has returned. *)
Record late (m : crowd) (j : Z) (m' : crowd) : Prop := mk_late {
  l_got : got m' = got m;
  l_flag : flag m' = true;
  l_busy : ended m' = None -> zlen (busy m') = j;
  l_pc : forall t f, In (t, f) (busy m') -> fpc f = Entered;
  l_code : forall c, ended m' = Some c -> c = 1;
  l_pos : 0 <= j }.

Lemma late_step kinds m j m1 new m2 : late m j m1 -> cstep kinds m1 new m2 -> late m (j + (if new then 1 else 0)) m2.
Proof.
  intros [L1 L2 L3 L4 L5 L6] S.
  destruct S as [m1 t sig e En Hk Hn|m1 l t f r e En Eb Nl Ep|m1 l t f r En Eb Nl Ep|m1 l t f r e En Eb Nl Ep
                |m1 l t f r e took En Eb Nl Ep|m1 l t f r e took En Eb Nl Ep|m1 l t f r En Eb Nl Ep];
    specialize (L3 En); rewrite ?Z.add_0_r;
    try (exfalso; specialize (L4 t f); rewrite Eb in L4; rewrite L4 in Ep; [discriminate|apply in_app_iff; cbn; auto]).
  - constructor; cbn [busy cfd flag errs got ended]; auto; try discriminate; try lia.
    + intros _. rewrite zlen_cons. lia.
    + intros u g [Eg|Hg]; [injection Eg as <- <-; reflexivity|eapply L4, Hg].
  - rewrite L2. constructor; cbn [busy cfd flag errs got ended]; auto; try discriminate. intros c [= <-]. reflexivity.
Qed.

(** C114: a request that arrives after all handlers have returned ends the process with 1 and sends
    nothing. *)
Theorem signal_many_again kinds n k m j m' :
  calm n -> cruns kinds n k m -> 0 < k -> busy m = [] -> ended m = None ->
  cruns kinds m j m' -> 0 < j ->
  got m' = got m /\ (busy m' = [] -> ended m' = Some 1) /\ (forall c, ended m' = Some c -> c = 1).
Proof.
  intros C R Hk Hb He R' Hj. destruct (signal_many_partial _ _ _ _ C R) as (_ & H & _ & F & _).
  destruct (H Hb He) as [Hg _].
  assert (L : late m j m').
  { clear Hj. induction R' as [m|m j m1 new m2 R' IH S].
    - constructor.
      + reflexivity.
      + apply F. lia.
      + intros _. now rewrite Hb.
      + rewrite Hb. intros t f [].
      + rewrite He. discriminate.
      + lia.
    - eapply late_step; [|exact S]. now apply IH. }
  destruct L as [L1 L2 L3 L4 L5 L6]. split; [exact L1|]. split; [|exact L5].
  intro E. destruct (ended m') as [c|]; [now rewrite (L5 c eq_refl)|].
  specialize (L3 eq_refl). rewrite E in L3. cbn in L3. lia.
Qed.
Print Assumptions signal_many_again.

(** ** Any number of bytes *)
Lemma cruns_trans kinds n k m j m' : cruns kinds n k m -> cruns kinds m j m' -> cruns kinds n (k + j) m'.
Proof.
  intros R R'. induction R' as [m|m j m1 new m2 R' IH S]; [now rewrite Z.add_0_r|].
  rewrite Z.add_assoc. econstructor; eauto.
Qed.
Lemma cruns_one kinds n m : cstep kinds n false m -> cruns kinds n 0 m.
Proof. intro S. exact (cr_step kinds n 0 n false m (cr_refl kinds n) S). Qed.

Definition open_ (m : crowd) (b : bool) (g : Z) : Prop := cfd m = 7 /\ flag m = b /\ got m = g /\ ended m = None.

Lemma all_enter kinds sig n (k : nat) : In sig kinds -> calm n -> cfd n = 7 ->
  exists m, cruns kinds n (Z.of_nat k) m /\ open_ m false 0 /\ length (busy m) = k /\
    NoDup (map fst (busy m)) /\ Forall (fun x => fpc (snd x) = Entered /\ 0 <= fst x < Z.of_nat k) (busy m).
Proof.
  intros Hs (H1 & H2 & H3 & H4) Hf. induction k as [|k (m & R & (O1 & O2 & O3 & O4) & L & N & F)].
  - exists n. split; [constructor|]. unfold open_. rewrite H1. repeat split; auto; constructor.
  - exists (mk_crowd ((Z.of_nat k, mk_frame sig Entered (errs m (Z.of_nat k))) :: busy m) (cfd m) (flag m)
              (set_errno (errs m) (Z.of_nat k) 0) (got m) None).
    assert (Nk : forall x, In x (busy m) -> fst x <> Z.of_nat k).
    { intros x Hx. rewrite Forall_forall in F. specialize (F x Hx). lia. }
    split.
    { replace (Z.of_nat (S k)) with (Z.of_nat k + 1) by lia. apply (cr_step _ _ _ _ true _ R).
      apply c_signal; [exact O4|exact Hs|]. intro H. apply in_map_iff in H as (x & Ex & Hx). injection Ex as E1 _.
      exact (Nk x Hx E1). }
    unfold open_. cbn. rewrite L. repeat split; auto.
    + constructor; [|exact N]. intro H. apply in_map_iff in H as (x & Ex & Hx). exact (Nk x Hx Ex).
    + constructor; [cbn; split; [reflexivity|lia]|]. eapply Forall_impl; [|exact F]. cbn. intros x [E1 E2]. split; [exact E1|lia].
Qed.

Lemma all_test kinds l : forall m d, open_ m false 0 -> busy m = d ++ l -> NoDup (map fst (d ++ l)) ->
  Forall (fun x => fpc (snd x) = Tested) d -> Forall (fun x => fpc (snd x) = Entered) l ->
  exists m', cruns kinds m 0 m' /\ open_ m' false 0 /\ length (busy m') = length (d ++ l) /\
    Forall (fun x => fpc (snd x) = Tested) (busy m').
Proof.
  induction l as [|[t f] l IH]; intros m d (O1 & O2 & O3 & O4) Eb N Fd Fl.
  - exists m. split; [constructor|]. split; [repeat split; auto|]. rewrite Eb. split; [reflexivity|]. now rewrite app_nil_r.
  - inversion Fl as [|? ? Ef Fl']; subst.
    assert (Nt : ~ In t (map fst d)).
    { rewrite map_app in N. cbn in N. apply NoDup_remove_2 in N. intro H. apply N, in_app_iff. auto. }
    set (m1 := mk_crowd (d ++ (t, at_pc f Tested) :: l) (cfd m) (flag m) (errs m) (got m) None).
    assert (S : cstep kinds m false m1).
    { pose proof (c_test kinds m d t f l 0 O4 Eb Nt Ef) as S. rewrite O2 in S. unfold m1. rewrite O2. exact S. }
    destruct (IH m1 (d ++ [(t, at_pc f Tested)])) as (m' & R & O' & L & F).
    + repeat split; auto.
    + unfold m1. cbn [busy]. now rewrite <- app_assoc.
    + rewrite <- app_assoc. cbn [app]. rewrite map_app in *. exact N.
    + apply Forall_app. split; [exact Fd|]. repeat constructor.
    + exact Fl'.
    + exists m'. split; [|split; [exact O'|split; [|exact F]]].
      * change 0 with (0 + 0). eapply cruns_trans; [apply cruns_one, S|exact R].
      * rewrite L, !app_length. cbn. lia.
Qed.

Lemma all_send kinds l : forall m b g, open_ m b g -> busy m = l -> Forall (fun x => fpc (snd x) = Tested) l ->
  exists m', cruns kinds m 0 m' /\ busy m' = [] /\ ended m' = None /\ got m' = g + zlen l.
Proof.
  induction l as [|[t f] l IH]; intros m b g (O1 & O2 & O3 & O4) Eb F.
  - exists m. split; [constructor|]. rewrite Eb, O3. repeat split; auto. cbn. lia.
  - inversion F as [|? ? Ef Fl]; subst. cbn in Ef.
    pose proof (c_mark kinds m [] t f l O4 Eb (fun H => H) Ef) as S1. cbn [app] in S1. rewrite O1 in S1.
    match type of S1 with cstep _ _ _ ?x => set (m1 := x) in S1 end.
    pose proof (c_fd kinds m1 [] t (at_pc f Marked) l 0 eq_refl eq_refl (fun H => H) eq_refl) as S2.
    cbn [m1 cfd app Z.eqb] in S2.
    match type of S2 with cstep _ _ _ ?x => set (m2 := x) in S2 end.
    pose proof (c_write kinds m2 [] t (at_pc (at_pc f Marked) Sending) l 0 true eq_refl eq_refl (fun H => H) eq_refl) as S3.
    match type of S3 with cstep _ _ _ ?x => set (m3 := x) in S3 end.
    pose proof (c_sent kinds m3 [] t (at_pc (at_pc (at_pc f Marked) Sending) (Sent true)) l 0 true eq_refl eq_refl (fun H => H) eq_refl) as S4.
    match type of S4 with cstep _ _ _ (if _ then ?x else _) => set (m4 := x) in S4 end. cbv iota in S4.
    pose proof (c_return kinds m4 [] t (at_pc (at_pc (at_pc (at_pc f Marked) Sending) (Sent true)) Restoring) l eq_refl eq_refl (fun H => H) eq_refl) as S5.
    match type of S5 with cstep _ _ _ ?x => set (m5 := x) in S5 end.
    destruct (IH m5 true (got m + 1)) as (m' & R & H1 & H2 & H3).
    + repeat split; auto.
    + reflexivity.
    + exact Fl.
    + exists m'. split; [|split; [exact H1|split; [exact H2|rewrite H3, zlen_cons; lia]]].
      change 0 with (0 + (0 + (0 + (0 + (0 + 0))))).
      repeat (eapply cruns_trans; [apply cruns_one; eassumption|]). exact R.
Qed.

(** C114, refuted: [k] requests on [k] threads can all pass the test of the flag before any of them
    sets it; then [k] bytes are sent, all handlers return and the process goes on. *)
Theorem signal_many_refuted : exists n, calm n /\ forall k, exists m,
  cruns [SIGINT; SIGTERM] n (Z.of_nat k) m /\ busy m = [] /\ ended m = None /\ got m = Z.of_nat k.
Proof.
  exists (mk_crowd [] 7 false (fun _ => 0) 0 None). split; [repeat split|]. intro k.
  destruct (all_enter [SIGINT; SIGTERM] SIGINT (mk_crowd [] 7 false (fun _ => 0) 0 None) k) as (m1 & R1 & O1 & L1 & N1 & F1);
    [cbn; auto|repeat split|reflexivity|].
  destruct (all_test [SIGINT; SIGTERM] (busy m1) m1 [] O1 eq_refl N1) as (m2 & R2 & O2 & L2 & F2);
    [constructor|eapply Forall_impl; [|exact F1]; cbn; tauto|].
  destruct (all_send [SIGINT; SIGTERM] (busy m2) m2 false 0 O2 eq_refl F2) as (m3 & R3 & B3 & E3 & G3).
  exists m3. split; [|split; [exact B3|split; [exact E3|]]].
  - replace (Z.of_nat k) with (Z.of_nat k + (0 + 0)) by lia. eapply cruns_trans; [exact R1|]. eapply cruns_trans; eauto.
  - rewrite G3. unfold zlen. rewrite L2. cbn [app]. rewrite L1. lia.
Qed.
Print Assumptions signal_many_refuted.

(** Three requests, handled one after the other by different threads or at the same time. *)
Example signal_many_ex : exists n m m', calm n /\ cruns [SIGINT; SIGTERM] n 2 m /\ busy m = [] /\ ended m = None /\ got m = 2 /\
  cruns [SIGINT; SIGTERM] m 1 m' /\ ended m' = Some 1.
Proof.
  destruct signal_many_refuted as (n & C & H). destruct (H 2%nat) as (m & R & B & E & G).
  destruct (signal_many_partial _ _ _ _ C R) as (_ & _ & _ & F & _).
  pose proof (c_signal [SIGINT; SIGTERM] m 5 SIGTERM 0 E) as S1. cbn in S1. rewrite B in S1.
  specialize (S1 (or_intror (or_introl eq_refl)) (fun x => x)).
  match type of S1 with cstep _ _ _ ?x => set (m1 := x) in S1 end.
  pose proof (c_test [SIGINT; SIGTERM] m1 [] 5 (mk_frame SIGTERM Entered (errs m 5)) [] 0 eq_refl eq_refl (fun x => x) eq_refl) as S2.
  assert (Ef : flag m1 = true) by (cbn; apply F; rewrite G; reflexivity). rewrite Ef in S2.
  do 3 eexists. split; [exact C|]. split; [exact R|]. split; [exact B|]. split; [exact E|]. split; [exact G|]. split.
  - change 1 with (0 + 1 + 0). eapply (cr_step _ _ _ _ false); [|exact S2]. eapply (cr_step _ _ _ _ true); [constructor|exact S1].
  - reflexivity.
Qed.
