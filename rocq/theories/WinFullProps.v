(** C98: the Windows poller of socket/sc_sock.c when its table is full. *)
From Verif Require Import Base SockModel PollModel WinModel WinSpec WinProofs WinRun WinProps.
From Coq Require Import ZifyBool.

Lemma add_fresh s a d o : shape (wp s) -> counted (wp s) -> w_polling (wp s) = false -> w_count (wp s) < 2 ^ 19 -> f_op (wf s a) = 0 -> f_fd (wf s a) <> INVALID ->
  m_events o = true -> m_chunk o = true ->
  exists s' i, win_add s a 1 d o = Ok (s', 0) /\ shape (wp s') /\ counted (wp s') /\ rest (wp s') = rest (wp s) /\ w_count (wp s') = w_count (wp s) + 1 /\
    f_op (wf s' a) = 1 /\ f_pd (wf s' a) = Some (loc i) /\ forall b, b <> a -> wf s' b = wf s b.
Proof.
  intros Sh Cn Np Lt Fo Ff Me Mc. unfold win_add. rewrite Np, Fo. change (Z.lor 0 1) with 1. change (1 =? SEDGE) with false. change (0 =? 1) with false. cbv iota zeta.
  unfold slot_for. rewrite Fo. change (0 =? 0) with true. cbv iota.
  destruct (expand_ok (wp s) o Sh Cn Lt Mc) as [[_ X]|(p1 & X1 & Sh1 & Cap1 & Cn1 & Cl1 & C1 & R1 & _ & _)]; [congruence|]. rewrite X1. cbn [bind].
  replace (negb (0 =? 0)) with false by reflexivity. set (p2 := set_count p1 (w_count p1 + 1)). assert (Sh2 : shape p2) by exact Sh1.
  destruct (ev_block_ok p2 Sh2) as (ev2 & EB & El & Len & Sl). rewrite EB. cbn [bind].
  destruct (free_slot_found ev2 0) as (i & e & F1 & F2 & F3). { change (w_events p2) with (w_events p1) in El. rewrite <- (C1 _ El), Len. exact Cl1. }
  rewrite F1. cbn [or_ub bind]. rewrite Z.add_0_l. assert (Ri : inr p2 i) by (apply (slot_range p2 i e Sh2); rewrite Sl; exact F2).
  rewrite (loc_inner p2 i Sh2 Ri). cbn [bind]. destruct (cel_in p2 i Sh2 Ri) as [c Ce]. rewrite (cell_get_ok _ _ _ Ce). cbn [bind].
  destruct (cell_put_ok p2 i (mk_cell 0 i (c_data c)) Sh2 Ri) as (d1 & Q1 & Q2 & Q3 & Q4). rewrite Q1. cbn [bind]. rewrite (zload_ok _ _ _ F2). cbn [bind].
  set (t := wf s a) in *. set (e1 := mk_pfd (f_fd t) (pf_ev e) (pf_rev e)).
  destruct (ev_put_ok (set_data p2 d1) ev2 i e1 Q2 El Ri) as (P1 & P2 & P3 & P4 & P5). rewrite P1. cbn [bind].
  set (p3 := set_events (set_data p2 d1) (Live (zset ev2 i e1))) in *.
  destruct (ev_block_ok p3 P2) as (ev3 & EB3 & El3 & Len3 & Sl3). rewrite EB3. cbn [bind]. rewrite Sl3 in P3. rewrite (zload_ok _ _ _ P3). cbn [bind].
  set (e2 := mk_pfd (pf_fd e1) (win_events 1) 0). assert (Ri3 : inr p3 i) by exact Ri. destruct (ev_put_ok p3 ev3 i e2 P2 El3 Ri3) as (T1 & T2 & T3 & T4 & T5). rewrite T1. cbn [bind].
  set (p4 := set_events p3 (Live (zset ev3 i e2))) in *. assert (Ce4 : cel p4 i = Some (mk_cell 0 i (c_data c))) by (rewrite T5, P5; exact Q3). rewrite (cell_get_ok _ _ _ Ce4). cbn [bind c_edge c_index].
  match goal with |- context [cell_put p4 (loc i) ?x] => destruct (cell_put_ok p4 i x T2 Ri3) as (d2 & U1 & U2 & _); rewrite U1; cbn [bind] end.
  exists (mk_wst (set_data p4 d2) (upf (wf s) a (mk_wfd (f_fd t) 1 (Some (loc i)) (f_opi t)))), i. split; [reflexivity|]. cbn [wp wf]. split; [exact U2|]. split.
  - intros evx Ex. cbn in Ex. injection Ex as <-. cbn [w_count set_data p4 set_events p3 p2 set_count].
    cbn in El3. injection El3 as <-. rewrite (cntu_set _ _ e1) by exact P3. rewrite (cntu_set _ _ e) by exact F2. change (w_events p2) with (w_events p1) in El. rewrite (C1 ev2 El). unfold inuse, e2, e1. cbn [pf_fd]. rewrite F3, Z.eqb_refl.
    destruct (f_fd t =? INVALID) eqn:Ei; lia.
  - split; [exact R1|]. split; [cbn; lia|]. unfold upf. rewrite Z.eqb_refl. split; [reflexivity|]. split; [reflexivity|].
    intros b Hb. destruct (b =? a) eqn:E; [lia|reflexivity].
Qed.
(** Structures 1 to [n] are registered, one after the other. *)
Definition adds (n : nat) (o : orac) : list act := map (fun k => Add (Z.of_nat k) 1 o) (seq 1 n).
Lemma wrun_snoc dat l c : forall s s1 r1 s2 x, wrun dat s l = Ok (s1, r1) -> wstep dat s1 c = Ok (s2, x) -> wrun dat s (l ++ [c]) = Ok (s2, r1 ++ [x]).
Proof.
  induction l as [|y l IH]; intros s s1 r1 s2 x H1 H2; cbn [wrun app] in *.
  - injection H1 as <- <-. rewrite H2. reflexivity.
  - destruct (wstep dat s y) as [[s' z]| |]; try discriminate. cbn [bind fst snd] in *. destruct (wrun dat s' l) as [[s'' zs]| |] eqn:E; try discriminate. cbn [bind fst snd] in H1. injection H1 as <- <-.
    rewrite (IH _ _ _ _ _ E H2). reflexivity.
Qed.
Lemma adds_run dat o s0 n : shape (wp s0) -> counted (wp s0) -> w_polling (wp s0) = false -> w_count (wp s0) = 1 -> Z.of_nat n < 2 ^ 19 -> m_events o = true -> m_chunk o = true ->
  (forall a, 1 <= a <= 2 ^ 19 -> f_op (wf s0 a) = 0 /\ f_fd (wf s0 a) <> INVALID) ->
  exists s, wrun dat s0 (adds n o) = Ok (s, repeat (Ret 0) n) /\ shape (wp s) /\ counted (wp s) /\ rest (wp s) = rest (wp s0) /\ w_count (wp s) = 1 + Z.of_nat n /\
    (forall a, Z.of_nat n < a -> wf s a = wf s0 a) /\ (forall a, 1 <= a <= Z.of_nat n -> f_op (wf s a) = 1 /\ exists i, f_pd (wf s a) = Some (loc i)).
Proof.
  intros Sh Cn Np C0. induction n as [|n IH]; intros Ln Me Mc Fr.
  - exists s0. split; [reflexivity|]. split; [exact Sh|]. split; [exact Cn|]. split; [reflexivity|]. split; [lia|]. split; [auto|]. intros a Ha. lia.
  - destruct (IH ltac:(lia) Me Mc Fr) as (s & R & Sh1 & Cn1 & Np1 & C1 & F1 & G1). set (a := Z.of_nat (S n)). destruct (Fr a ltac:(lia)) as [A1 A2].
    destruct (add_fresh s a (dat a) o) as (s' & i & W & W1 & W2 & W3 & W4 & W5 & W6 & W7); auto; [rewrite (rest_polling _ _ Np1); exact Np|lia|rewrite F1 by lia; exact A1|rewrite F1 by lia; exact A2|].
    exists s'. split.
    + unfold adds. rewrite seq_S, map_app. cbn [map]. replace (1 + n)%nat with (S n) by lia. fold a. replace (S n) with (n + 1)%nat by lia. rewrite repeat_app. cbn [repeat]. eapply wrun_snoc; [exact R|]. cbn [wstep]. rewrite W. reflexivity.
    + split; [exact W1|]. split; [exact W2|]. split; [congruence|]. split; [lia|]. split; [intros b Hb; rewrite W7 by lia; apply F1; lia|].
      intros b Hb. destruct (Z.eq_dec b a) as [->|Hne]; [eauto|]. rewrite W7 by exact Hne. apply G1. lia.
Qed.
(** The number of structures: the table of user data has 16 parts, so there is room for 2^19 - 1 structures beside the pipe.  One more
    is refused, but only after the other table was made longer and freed (socket/sc_sock.c:1643-1655, :1669), so that even with memory
    left the next call of any kind uses freed memory. *)
Theorem win_registration_many_refuted : forall dat f io s0 o n, Z.of_nat n = 2 ^ 19 - 1 -> win_init f io = Ok (s0, 0) -> i_pipe io <> Some INVALID ->
  (forall a, 1 <= a <= 2 ^ 19 -> f_op (f a) = 0 /\ f_fd (f a) <> INVALID) -> m_events o = true -> m_chunk o = true ->
  exists s s', wrun dat s0 (adds n o) = Ok (s, repeat (Ret 0) n) /\ wstep dat s (Add (2 ^ 19) 1 o) = Ok (s', Ret (-1)) /\
    wstep dat s' (Add (2 ^ 19) 1 o) = UB /\ (forall a, 1 <= a < 2 ^ 19 -> wstep dat s' (Del a 1 o) = UB) /\
    exists s2, wstep dat s' (Wait 5) = Ok (s2, Began) /\ forall k r oo, wstep dat s2 (Answer (Events k r) oo) = UB.
Proof.
  intros dat f io s0 o n Hn Hi Hp Fr Me Mc. destruct (init_state _ _ _ Hi) as (fd & _ & _ & _ & E & ->). assert (Hfd : fd <> INVALID) by congruence. set (j := i_junk io) in *. clearbody j. clear Hi Hp E.
  change (2 ^ 19) with 524288 in *.
  assert (Fs : forall a, 1 <= a -> wf (started f fd j) a = f a). { intros a Ha. cbn [wf started]. unfold upf, WAKE. destruct (a =? 0) eqn:E; [lia|reflexivity]. }
  destruct (adds_run dat o (started f fd j) n) as (s & R & Sh & Cn & Rs & C & F & G); auto.
  { eexists 0, _. split; [lia|]. split; [reflexivity|]. split; [reflexivity|]. split; [|split; reflexivity]. intros k ch H. cbn [started wp w_data] in H. assert (R := zget_Some_range _ _ _ H). change (zlen [mk_cell 0 0 0 :: repeat (mk_cell j j j) 15]) with 1 in R.
    replace k with 0 in * by lia. cbn in H. injection H as <-. reflexivity. }
  { intros ev H. cbn in H. injection H as <-. cbn. unfold inuse. cbn. apply Z.eqb_neq in Hfd. rewrite Hfd. reflexivity. }
  { change (2 ^ 19) with 524288. lia. }
  { intros a Ha. change (2 ^ 19) with 524288 in Ha. rewrite Fs by lia. auto. }
  assert (Np : w_polling (wp s) = false) by (rewrite (rest_polling _ _ Rs); reflexivity). assert (Rem : w_rem (wp s) = 0) by (unfold rest in Rs; cbn in Rs; congruence).
  destruct Sh as (k & ev & K & Cap & D & S & Ev & Le). pose proof (Cn ev Ev) as Cv. pose proof (cntu_range ev) as Cr.
  assert (K15 : k = 15). { destruct (Z.eq_dec k 15) as [|Hk]; [assumption|]. assert (2 ^ k <= 2 ^ 14) by (apply Z.pow_le_mono_r; lia). change (2 ^ 14) with 16384 in *. lia. }
  subst k. change (16 * 2 ^ 15) with 524288 in Cap. assert (Ca : w_count (wp s) = w_cap (wp s)) by lia.
  assert (Fn : f_op (wf s 524288) = 0) by (rewrite F by lia; rewrite Fs by lia; apply Fr; lia).
  exists s. eexists. split; [exact R|]. split.
  - cbn [wstep]. unfold win_add. rewrite Np, Fn. change (Z.lor 0 1) with 1. change (1 =? SEDGE) with false. change (0 =? 1) with false. cbv iota zeta. unfold slot_for. rewrite Fn. change (0 =? 0) with true. cbv iota.
    unfold expand. rewrite Ca, Z.eqb_refl. rewrite Cap. change (524288 >=? SIZE_MAX / 2) with false. cbv iota. unfold ev_block. rewrite Ev. cbn [bind]. rewrite Me, D. cbn [negb]. change (15 + 1 <? 16) with false. cbn [andb]. cbv iota. cbn [bind].
    change (negb (-1 =? 0)) with true. cbv iota. cbn [bind fst snd]. reflexivity.
  - split; [|split].
    + cbn [wstep]. unfold win_add. cbn [wp wf w_polling fst snd]. rewrite Np, Fn. change (Z.lor 0 1) with 1. change (1 =? SEDGE) with false. change (0 =? 1) with false. cbv iota zeta. unfold slot_for. rewrite Fn. change (0 =? 0) with true. cbv iota.
      unfold expand. cbn [w_count w_cap w_events]. rewrite Z.eqb_refl. change (524288 >=? SIZE_MAX / 2) with false. reflexivity.
    + intros a Ha. destruct (G a ltac:(lia)) as [G1 [i G2]]. cbn [wstep]. unfold win_del. cbn [wp wf w_polling fst snd]. rewrite Np, G1, G2. change (Z.land 1 1 =? 0) with false. cbv iota zeta. change (Z.land 1 (Z.lnot 1)) with 0. change (0 =? SEDGE) with false. cbv iota. change (0 =? 0) with true. cbv iota.
      unfold del_full. cbn [or_ub bind]. destruct (cell_get _ (loc i)) as [c| |] eqn:Eg; cbn [bind]; [reflexivity|reflexivity|].
      exfalso. unfold cell_get, zload in Eg. cbn [w_data] in Eg. destruct (zget (w_data (wp s)) (fst (loc i))) as [ch|]; cbn in Eg; [|discriminate]. destruct (zget ch (snd (loc i))); discriminate.
    + eexists. split; [cbn [wstep]; unfold wait_begin; cbn [wp wf w_events w_polling w_rem fst snd]; rewrite Np, Rem; reflexivity|]. intros k r oo. reflexivity.
Qed.
Print Assumptions win_registration_many_refuted.
Example win_registration_many_ex : win_init ex_f ex_io = Ok (ex_s0, 0) /\ i_pipe ex_io <> Some INVALID /\ (forall a, 1 <= a <= 2 ^ 19 -> f_op (ex_f a) = 0 /\ f_fd (ex_f a) <> INVALID) /\ m_events ex_o = true /\ m_chunk ex_o = true /\ Z.of_nat (N.to_nat 524287) = 2 ^ 19 - 1.
Proof. split; [reflexivity|]. split; [discriminate|]. split; [intros a Ha; split; [reflexivity|]; change (f_fd (ex_f a)) with (100 + a); unfold INVALID; lia|]. split; [reflexivity|]. split; [reflexivity|]. rewrite N_nat_Z. reflexivity. Qed.
