(** Property C152: the results of a wait. *)
From Verif Require Import Base SockModel SockSpec SockProofs PollModel PollProps PollManyModel PollManyProps PollBatchModel.
From Coq Require Import ZifyBool.

(** What is reported of a socket asked for by mask [m] whose descriptor is in state [w]: everything after an error or a
    hang-up, otherwise what is asked for and there. *)
Definition seen (m w : Z) : Z :=
  let bad := Z.testbit w 3 || Z.testbit w 4 || Z.testbit w 13 in
  bit (bad || Z.testbit w 0 && Z.testbit m 0) 1 + bit (bad || Z.testbit w 2 && Z.testbit m 1) 2.
Fixpoint calls (os : list bop) : list mop :=
  match os with [] => [] | BCall o :: os => o :: calls os | BWait _ :: os => calls os end.
(** Interrupted any number of times, then answered. *)
Definition answered (w : list (list (Z * Z) + Z)) (x : list (Z * Z) + Z) : Prop :=
  exists n r, w = repeat (inr EINTR) n ++ x :: r /\ x <> inr EINTR.
Definition waits_answered (os : list bop) : Prop := forall w, In (BWait w) os -> exists x, answered w x.
(** Result [i] of the wait is about structure [j], open and asked for, which was found active. *)
Definition about (l : list ist) (ready : list (Z * Z)) (s : bsys) (i : Z) (j : nat) : Prop :=
  exists f m d w, nth_error l j = Some (IOpen f (m, d)) /\ m <> 0 /\ In (f, w) ready /\ seen m w <> 0 /\
    bdata s i = Ok d /\ bevent s i = Ok (seen m w).

Lemma seen_reg m d w : mask_ok m -> m <> 0 -> exists ev, registration (m, d) = Some (ev, d) /\
  let w' := Z.land w (Z.ldiff (Z.lor ev (Z.lor EPOLLERR EPOLLHUP)) EPOLLET) in poll_event w' = seen m w /\ (w' =? 0) = (seen m w =? 0).
Proof.
  intros Hm H0. rewrite events_reg by assumption. exists (epoll_events m). split; [reflexivity|]. cbv zeta.
  set (a := Z.ldiff (Z.lor (epoll_events m) (Z.lor EPOLLERR EPOLLHUP)) EPOLLET).
  assert (Ha : a = 2 ^ 3 + 2 ^ 4 + 2 ^ 13 + bit (Z.testbit m 0) (2 ^ 0) + bit (Z.testbit m 1) (2 ^ 2)).
  { unfold a. destruct Hm as [Hm Hx]. each8 Hm; subst m; try lia; reflexivity. }
  assert (T : forall n, 0 <= n -> Z.testbit a n = (n =? 3) || (n =? 4) || (n =? 13) || ((n =? 0) && Z.testbit m 0) || ((n =? 2) && Z.testbit m 1)).
  { intros n Hn. rewrite Ha. clear - Hn.
    destruct (Z_lt_le_dec n 14) as [L|L].
    - assert (E : n = 0 \/ n = 1 \/ n = 2 \/ n = 3 \/ n = 4 \/ n = 5 \/ n = 6 \/ n = 7 \/ n = 8 \/ n = 9 \/ n = 10 \/ n = 11 \/ n = 12 \/ n = 13) by lia.
      destruct (Z.testbit m 0), (Z.testbit m 1); repeat (destruct E as [-> | E]; [reflexivity|]); subst n; reflexivity.
    - replace (n =? 3) with false by lia. replace (n =? 4) with false by lia. replace (n =? 13) with false by lia. replace (n =? 0) with false by lia. replace (n =? 2) with false by lia. cbn [orb andb].
      apply Z.bits_above_log2; destruct (Z.testbit m 0), (Z.testbit m 1); cbn; lia. }
  split.
  - rewrite poll_event_mapping. cbv zeta. rewrite !Z.land_spec, !T by lia. unfold seen. cbn [Z.eqb Pos.eqb orb andb]. change SREAD with 1. change SWRITE with 2.
    rewrite !andb_true_r, !orb_false_r. f_equal; f_equal; rewrite orb_comm; reflexivity.
  - assert (Z0 : Z.land w a = 0 <-> seen m w = 0).
    { split.
      - intro E. assert (X : forall n, 0 <= n -> Z.testbit w n && Z.testbit a n = false) by (intros n Hn; rewrite <- Z.land_spec, E; apply Z.bits_0).
        pose proof (X 0 (Z.le_refl 0)) as X0. pose proof (X 2 (Pos2Z.is_nonneg 2)) as X2. pose proof (X 3 (Pos2Z.is_nonneg 3)) as X3. pose proof (X 4 (Pos2Z.is_nonneg 4)) as X4. pose proof (X 13 (Pos2Z.is_nonneg 13)) as X13.
        rewrite (T 0 (Z.le_refl 0)) in X0. rewrite (T 2 (Pos2Z.is_nonneg 2)) in X2. rewrite (T 3 (Pos2Z.is_nonneg 3)) in X3. rewrite (T 4 (Pos2Z.is_nonneg 4)) in X4. rewrite (T 13 (Pos2Z.is_nonneg 13)) in X13. cbn [Z.eqb Pos.eqb orb andb] in *. rewrite ?andb_true_r, ?orb_false_r in *. unfold seen. rewrite X3, X4, X13, X0, X2. reflexivity.
      - intro E. assert (Y : Z.testbit w 3 = false /\ Z.testbit w 4 = false /\ Z.testbit w 13 = false /\ Z.testbit w 0 && Z.testbit m 0 = false /\ Z.testbit w 2 && Z.testbit m 1 = false).
        { unfold seen in E. destruct (Z.testbit w 3), (Z.testbit w 4), (Z.testbit w 13), (Z.testbit w 0 && Z.testbit m 0), (Z.testbit w 2 && Z.testbit m 1); try discriminate E. repeat split. }
        destruct Y as (Y3 & Y4 & Y13 & Y0 & Y2). apply Z.bits_inj'. intros n Hn. rewrite Z.land_spec, Z.bits_0, T by exact Hn.
        destruct (Z.eqb_spec n 3) as [->|]; [now rewrite Y3|]. destruct (Z.eqb_spec n 4) as [->|]; [now rewrite Y4|]. destruct (Z.eqb_spec n 13) as [->|]; [now rewrite Y13|].
        destruct (Z.eqb_spec n 0) as [->|]; [cbn [Z.eqb orb andb]; now rewrite orb_false_r, Y0|]. destruct (Z.eqb_spec n 2) as [->|]; [cbn [orb andb]; exact Y2|]. now rewrite andb_false_r. }
    destruct (Z.eqb_spec (Z.land w a) 0), (Z.eqb_spec (seen m w) 0); tauto.
Qed.

(** What is reported: which structures, in the order of the kernel's list. *)
Lemma ready_ok ready : forall k l, (forall i j f x y, nth_error l i = Some (IOpen f x) -> nth_error l j = Some (IOpen f y) -> i = j) ->
  (forall i x, nth_error l i = Some x -> good_ist x) ->
  (forall f, k f = None \/ exists i x, nth_error l i = Some (IOpen f x) /\ k f = registration x) ->
  exists js, length js = length (ready_list k ready) /\ NoDup js /\
    (forall n j, nth_error js n = Some j -> exists f m d w w', nth_error l j = Some (IOpen f (m, d)) /\ k f <> None /\ m <> 0 /\ In (f, w) ready /\ seen m w <> 0 /\
       nth_error (ready_list k ready) n = Some (w', d) /\ poll_event w' = seen m w) /\
    (NoDup (map fst ready) -> forall j f m d w, nth_error l j = Some (IOpen f (m, d)) -> k f <> None -> In (f, w) ready -> seen m w <> 0 -> In j js).
Proof.
  induction ready as [|[f w] ready IH]; intros k l One Good K; cbn [ready_list].
  { exists []. split; [reflexivity|]. split; [constructor|]. split; [intros [|n] j H; discriminate|intros _ j f m d w _ _ []]. }
  destruct (IH (upd k f None) l One Good) as (js & Jl & Jn & J & Jc).
  { intro g. unfold upd. destruct (g =? f); [left; reflexivity|apply K]. }
  assert (J' : forall n j, nth_error js n = Some j -> exists f0 m d w0 w', nth_error l j = Some (IOpen f0 (m, d)) /\ k f0 <> None /\ f0 <> f /\ m <> 0 /\ In (f0, w0) ((f, w) :: ready) /\ seen m w0 <> 0 /\
       nth_error (ready_list (upd k f None) ready) n = Some (w', d) /\ poll_event w' = seen m w0).
  { intros n j H. destruct (J n j H) as (g & m & d & w0 & w' & A & B & C & D & E & F & G). exists g, m, d, w0, w'. unfold upd in B. destruct (Z.eqb_spec g f) as [->|Hg]; [now destruct B|].
    repeat split; auto. now right. }
  assert (Rest : NoDup (map fst ((f, w) :: ready)) -> forall j g m d w0, nth_error l j = Some (IOpen g (m, d)) -> k g <> None -> In (g, w0) ready -> seen m w0 <> 0 -> In j js).
  { cbn [map fst]. intros N j g m d w0 A B C D. inversion N as [|? ? N1 N2]; subst. apply (Jc N2 j g m d w0); auto. unfold upd. destruct (Z.eqb_spec g f) as [->|]; [|exact B].
    destruct N1. apply in_map_iff. exists (f, w0). auto. }
  assert (Skip : (forall j m d, nth_error l j = Some (IOpen f (m, d)) -> k f <> None -> seen m w = 0) -> exists js, length js = length (ready_list (upd k f None) ready) /\ NoDup js /\
    (forall n j, nth_error js n = Some j -> exists f0 m d w0 w', nth_error l j = Some (IOpen f0 (m, d)) /\ k f0 <> None /\ m <> 0 /\ In (f0, w0) ((f, w) :: ready) /\ seen m w0 <> 0 /\
       nth_error (ready_list (upd k f None) ready) n = Some (w', d) /\ poll_event w' = seen m w0) /\
    (NoDup (map fst ((f, w) :: ready)) -> forall j g m d w0, nth_error l j = Some (IOpen g (m, d)) -> k g <> None -> In (g, w0) ((f, w) :: ready) -> seen m w0 <> 0 -> In j js)).
  { intro No. exists js. split; [exact Jl|]. split; [exact Jn|]. split.
    - intros n j H. destruct (J' n j H) as (g & m & d & w0 & w' & A & B & _ & C). exists g, m, d, w0, w'. auto.
    - intros N j g m d w0 A B [[= <- <-]|C] D; [destruct D; now apply (No j m d)|now apply (Rest N j g m d w0)]. }
  destruct (K f) as [E|(i & [m d] & Hi & E)]; [rewrite E; apply Skip; intros; contradiction|].
  pose proof (Good _ _ Hi) as [_ Hm]. cbn [fst] in Hm.
  destruct (Z.eq_dec m 0) as [->|H0]; [rewrite E; cbn [registration fst Z.eqb]; apply Skip; intros j m' d' A B; rewrite E in B; now destruct B|].
  destruct (seen_reg m d w Hm H0) as (ev & R & S1 & S2). rewrite E, R. rewrite S2.
  destruct (Z.eqb_spec (seen m w) 0) as [Es|Es].
  { apply Skip. intros j m' d' A _. rewrite <- (One _ _ _ _ _ Hi A) in A. congruence. }
  exists (i :: js). split; [cbn; now rewrite Jl|]. split; [|split].
  - constructor; [|exact Jn]. intro H. apply In_nth_error in H as (n & H). destruct (J' n i H) as (g & m' & d' & _ & _ & A & _ & B & _). rewrite Hi in A. injection A as <- _ _. now destruct B.
  - intros [|n] j H; cbn [nth_error] in *.
    + injection H as <-. exists f, m, d, w, (Z.land w (Z.ldiff (Z.lor ev (Z.lor EPOLLERR EPOLLHUP)) EPOLLET)). repeat split; auto; [rewrite E, R; discriminate|now left].
    + destruct (J' n j H) as (g & m' & d' & w0 & w' & A & B & _ & C). exists g, m', d', w0, w'. auto.
  - intros N j g m' d' w0 A B [[= <- <-]|C] D; [left; exact (One _ _ _ _ _ Hi A)|right; now apply (Rest N j g m' d' w0)].
Qed.

Definition binv (s : bsys) (l : list ist) : Prop := minv (bm s) l /\ length (bres s) = Z.to_nat MAXEV.
Lemma bwait_ok s w x : answered w x -> bwait s w = match x with
  | inr _ => Ok (s, -1)
  | inl ready => let rep := firstn (Z.to_nat MAXEV) (ready_list (mreg (bm s)) ready) in
      if zlen rep <=? zlen (bres s) then Ok (mk_bsys (bm s) (map Some rep ++ skipn (length rep) (bres s)), zlen rep) else UB end.
Proof.
  intros (n & r & -> & Hx). induction n as [|n IH]; cbn [repeat app bwait]; [|exact IH].
  destruct x as [ready|e]; [reflexivity|]. destruct (Z.eqb_spec e EINTR) as [->|]; [now destruct Hx|reflexivity].
Qed.
Lemma bwait_inv s l w x : binv s l -> answered w x -> exists s' n, bwait s w = Ok (s', n) /\ binv s' l.
Proof.
  intros [M L] A. rewrite (bwait_ok _ _ _ A). destruct x as [ready|e]; [|exists s, (-1); split; [reflexivity|split; assumption]]. cbv zeta.
  set (rep := firstn (Z.to_nat MAXEV) (ready_list (mreg (bm s)) ready)).
  assert (Lr : (length rep <= Z.to_nat MAXEV)%nat) by apply firstn_le_length.
  replace (zlen rep <=? zlen (bres s)) with true by (unfold zlen; lia).
  eexists. eexists. split; [reflexivity|]. split; [exact M|]. cbn [bres]. rewrite app_length, map_length, skipn_length. lia.
Qed.
Lemma bcalls_ok cs : forall s l l2 rcs, binv s l -> Forall mop_ok cs -> ideals l cs = Some (l2, rcs) ->
  exists s', brun s (map BCall cs) = Ok (s', rcs) /\ binv s' l2 /\ bres s' = bres s.
Proof.
  induction cs as [|o cs IH]; intros s l l2 rcs I Ho Hi; cbn [ideals map brun] in *; [injection Hi as <- <-; eauto|].
  inversion Ho as [|? ? H1 H2]; subst. destruct (ideal l o) as [[l1 rc]|] eqn:E; [|discriminate]. destruct (ideals l1 cs) as [[l3 rcs3]|] eqn:E2; [|discriminate]. injection Hi as <- <-.
  destruct I as [M L]. destruct (mstep_ok _ _ _ _ _ M H1 E) as (m1 & Es & M1). cbn [bstep]. rewrite Es. cbn [bind].
  destruct (IH (mk_bsys m1 (bres s)) _ _ _ (conj M1 L) H2 E2) as (s2 & -> & I2 & B). cbn [bind]. exists s2. auto.
Qed.
Lemma brun_ok os : forall s l l2 rcs, binv s l -> Forall mop_ok (calls os) -> waits_answered os -> ideals l (calls os) = Some (l2, rcs) ->
  exists s' rs, brun s os = Ok (s', rs) /\ binv s' l2.
Proof.
  induction os as [|o os IH]; intros s l l2 rcs I Ho Hw Hi; cbn [calls brun] in *; [injection Hi as <- <-; eauto|].
  assert (Hw' : waits_answered os) by (intros w H; apply Hw; now right).
  destruct o as [o|w]; cbn [ideals bstep] in *.
  - inversion Ho as [|? ? H1 H2]; subst. destruct (ideal l o) as [[l1 rc]|] eqn:E; [|discriminate]. destruct (ideals l1 (calls os)) as [[l3 rcs3]|] eqn:E2; [|discriminate]. injection Hi as <- <-.
    destruct I as [M L]. destruct (mstep_ok _ _ _ _ _ M H1 E) as (m1 & Es & M1). rewrite Es. cbn [bind].
    destruct (IH (mk_bsys m1 (bres s)) _ _ _ (conj M1 L) H2 Hw' E2) as (s2 & rs & -> & I2). cbn [bind]. eauto.
  - destruct (Hw w (or_introl eq_refl)) as (x & A). destruct (bwait_inv _ _ _ _ I A) as (s1 & n & -> & I1). cbn [bind].
    destruct (IH _ _ _ _ I1 Ho Hw' Hi) as (s2 & rs & -> & I2). cbn [bind]. eauto.
Qed.

(** C152: after any calls and waits, a wait that is answered gives at most 1024 results, one for each of as many sockets that are open and asked
    for, each with its own data and just what is asked for and there (everything after a hang-up); none that the kernel found active is left out
    unless there are 1024.  The results stay as they are during any further calls.
    Missing: that they are still about sockets asked for, see [poll_batch_stale_refuted]. *)
Theorem poll_batch_partial : forall os w x cs l l2 rcs rcs2,
  Forall mop_ok (calls os) -> waits_answered os -> ideals [] (calls os) = Some (l, rcs) -> answered w x -> Forall mop_ok cs -> ideals l cs = Some (l2, rcs2) ->
  exists s1 rs s2 n s3, brun bstart os = Ok (s1, rs) /\ bstep s1 (BWait w) = Ok (s2, n) /\ brun s2 (map BCall cs) = Ok (s3, rcs2) /\
    match x with
    | inr _ => n = -1 /\ bres s3 = bres s1
    | inl ready => exists js, n = zlen js /\ n <= 1024 /\ NoDup js /\
        (forall i j, nth_error js i = Some j -> about l ready s2 (Z.of_nat i) j /\ about l ready s3 (Z.of_nat i) j) /\
        (n < 1024 -> NoDup (map fst ready) -> forall j f m d w, nth_error l j = Some (IOpen f (m, d)) -> m <> 0 -> In (f, w) ready -> seen m w <> 0 -> In j js)
    end.
Proof.
  intros os w x cs l l2 rcs rcs2 H1 H2 H3 A H4 H5.
  assert (I0 : binv bstart []).
  { split; [|apply repeat_length]. constructor; cbn [mreg mopen mtab bm bstart]; auto.
    - intros [|i] ? ? H; discriminate. - intros [|i] ? H; discriminate. - intros [|i] ? ? ? ? H; discriminate.
    - intro f. split; [intros []|intros ([|i] & y & H); discriminate]. - intros f H. now destruct H. }
  destruct (brun_ok os bstart [] l rcs I0 H1 H2 H3) as (s1 & rs & E1 & I1).
  destruct (bwait_inv _ _ _ _ I1 A) as (s2 & n & E2 & I2).
  destruct (bcalls_ok cs s2 l l2 rcs2 I2 H4 H5) as (s3 & E3 & I3 & B3).
  exists s1, rs, s2, n, s3. split; [exact E1|]. split; [exact E2|]. split; [exact E3|].
  rewrite (bwait_ok _ _ _ A) in E2. destruct x as [ready|e]; [|injection E2 as <- <-; auto]. cbv zeta in E2.
  destruct I1 as [M L1].
  destruct (ready_ok ready (mreg (bm s1)) l) as (js & Jl & Jn & J & Jc).
  { apply M. } { apply M. }
  { intro f. destruct (mreg (bm s1) f) eqn:K; [right|now left]. destruct (m_reg _ _ M f) as (i & y & Hy); [congruence|]. exists i, y. split; [exact Hy|].
    destruct (lookup _ _ _ _ M Hy) as (t & _ & _ & [_ S]). congruence. }
  set (rl := ready_list (mreg (bm s1)) ready) in *. set (rep := firstn (Z.to_nat MAXEV) rl) in *.
  destruct (zlen rep <=? zlen (bres s1)) eqn:Lr; [|discriminate]. injection E2 as <- <-.
  exists (firstn (Z.to_nat MAXEV) js).
  assert (Lj : length (firstn (Z.to_nat MAXEV) js) = length rep) by (unfold rep; rewrite !firstn_length; lia).
  assert (Cut : forall (T : Type) (a : list T) i y, nth_error (firstn (Z.to_nat MAXEV) a) i = Some y -> nth_error a i = Some y /\ (i < Z.to_nat MAXEV)%nat).
  { clear. intros T a i y H. assert (Hl : (i < length (firstn (Z.to_nat MAXEV) a))%nat) by (apply nth_error_Some; congruence). rewrite firstn_length in Hl.
    split; [|lia]. rewrite <- (firstn_skipn (Z.to_nat MAXEV) a). rewrite nth_error_app1; [exact H|]. rewrite firstn_length. lia. }
  split; [unfold zlen; lia|]. split; [unfold zlen; unfold rep; rewrite firstn_length; change 1024 with MAXEV; unfold MAXEV in *; lia|].
  split.
  { rewrite <- (firstn_skipn (Z.to_nat MAXEV) js) in Jn. clear - Jn. induction (firstn (Z.to_nat MAXEV) js) as [|a q IH]; [constructor|]. inversion Jn as [|? ? N1 N2]; subst. constructor; [|auto]. intro H. apply N1. apply in_or_app. now left. }
  split.
  - intros i j H. assert (Hi : (i < length rep)%nat) by (rewrite <- Lj; apply nth_error_Some; congruence). apply Cut in H as [H _].
    destruct (J i j H) as (f & m & d & w0 & w' & C1 & C2 & C3 & C4 & C5 & C6 & C7).
    assert (Ce : forall s, bres s = map Some rep ++ skipn (length rep) (bres s1) -> bcell s (Z.of_nat i) = Ok (w', d)).
    { intros s Hs. unfold bcell. rewrite Hs. unfold zget. replace (Z.of_nat i <? 0) with false by lia. rewrite Nat2Z.id. rewrite nth_error_app1 by (rewrite map_length; exact Hi).
      rewrite nth_error_map. replace (nth_error rep i) with (Some (w', d)); [reflexivity|]. symmetry. unfold rep.
      rewrite <- (firstn_skipn (Z.to_nat MAXEV) rl) in C6. rewrite nth_error_app1 in C6 by exact Hi. exact C6. }
    assert (Ab : forall s, bres s = map Some rep ++ skipn (length rep) (bres s1) -> about l ready s (Z.of_nat i) j).
    { intros s Hs. exists f, m, d, w0. unfold bdata, bevent. rewrite (Ce s Hs). cbn [bind fst snd]. rewrite C7. repeat split; auto. }
    split; apply Ab; [reflexivity|]. rewrite B3. reflexivity.
  - intros Hn N j f m d w0 C1 C2 C3 C4. assert (Hj : In j js).
    { apply (Jc N j f m d w0); auto. destruct (lookup _ _ _ _ M C1) as (t & _ & _ & [_ S]). rewrite S. unfold registration. cbn [fst]. replace (m =? 0) with false by lia. discriminate. }
    replace (firstn (Z.to_nat MAXEV) js) with js; [exact Hj|]. symmetry. apply firstn_all2. unfold zlen in Hn. rewrite <- Lj, firstn_length in Hn. unfold MAXEV in *. lia.
Qed.
Print Assumptions poll_batch_partial.
(** Three sockets, the first waits for input, the second for output, the third for both; after an interruption the kernel finds input on the first,
    input only on the second, which is not reported, and a hang-up of the third.  Then the first is closed. *)
Definition three : list bop := map BCall [MNew; MNew; MNew; MOpen 0 5; MOpen 1 6; MOpen 2 7; MCtl 0 true 1 10 0; MCtl 1 true 2 20 0; MCtl 2 true 3 30 0].
Example poll_batch_partial_ex :
  let w := [inr EINTR; inl [(5, 1); (6, 1); (7, 16); (8, 1)]] in
  Forall mop_ok (calls three) /\ waits_answered three /\ ideals [] (calls three) = Some ([IOpen 5 (1, 10); IOpen 6 (2, 20); IOpen 7 (3, 30)], repeat 0 9) /\
  answered w (inl [(5, 1); (6, 1); (7, 16); (8, 1)]) /\
  exists s rs, brun bstart (three ++ [BWait w]) = Ok (s, rs ++ [2]) /\ bdata s 0 = Ok 10 /\ bevent s 0 = Ok 1 /\ bdata s 1 = Ok 30 /\ bevent s 1 = Ok 3 /\ bdata s 2 = UB.
Proof.
  cbv zeta. split; [repeat constructor; cbn; lia|]. split; [intros w H; unfold three in H; apply in_map_iff in H as (? & H & _); discriminate|]. split; [vm_compute; reflexivity|].
  split; [exists 1%nat, []; split; [reflexivity|discriminate]|]. eexists. exists (repeat 0 9). split; [vm_compute; reflexivity|]. repeat split; vm_compute; reflexivity.
Qed.

(** The results of one wait are not updated: a socket that is removed from the poller and closed while the results are gone through comes
    again, with the data that may be freed by then. *)
Theorem poll_batch_stale_refuted : exists w s rs l rcs, let cs := [MCtl 2 false 3 30 0; MClose 2 0] in
  brun bstart (three ++ BWait w :: map BCall cs) = Ok (s, rs) /\ nth_error rs 9 = Some 2 /\ ideals [] (calls three ++ cs) = Some (l, rcs) /\ nth_error l 2 = Some (IClosed 0) /\ bdata s 1 = Ok 30.
Proof.
  exists [inl [(5, 1); (7, 1)]]. eexists. eexists. eexists. eexists. cbv zeta. split; [vm_compute; reflexivity|]. repeat split; vm_compute; reflexivity.
Qed.
Print Assumptions poll_batch_stale_refuted.
