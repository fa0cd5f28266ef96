(** Properties of the poller of socket/sc_sock.c on Windows, for all histories of calls by any number of threads. *)
From Coq Require Import Permutation.
From Verif Require Import Base SockModel PollModel WinModel WinSpec WinProofs WinRun WinEdge WinMem.
From Coq Require Import ZifyBool.

(** ** C98: what is registered *)

(** No legal history runs into undefined behaviour, and whenever no thread is inside WSAPoll, the table that WSAPoll would be
    given has exactly one slot for every structure with a non-empty mask, with its descriptor, its events, its user data and its
    mode, and none for the others; the masks are those asked for by the calls that returned 0, however the calls and WSAPoll
    interleave.  Missing from the full statement: see [allowed] and the refutations. *)
Theorem win_registration_partial : forall dat ids f o s0 l,
  fresh ids f -> i_pipe o <> Some INVALID -> win_init f o = Ok (s0, 0) -> legal dat ids abs0 s0 l ->
  exists s r, wrun dat s0 l = Ok (s, r) /\ a_poll (aruns abs0 l r) = w_polling (wp s) /\
    (a_poll (aruns abs0 l r) = false ->
      let m := a_mask (aruns abs0 l r) in
      (forall a, In a ids -> f_op (wf s a) = m a) /\
      Permutation (table s) (map (want_row f dat m) (filter (fun a => negb (m a =? 0)) ids))).
Proof.
  intros dat ids f o s0 l Fr Hp Hi Lg. destruct (init_state _ _ _ Hi) as (fd & _ & _ & _ & E & ->). assert (Hfd : fd <> INVALID) by congruence. pose proof (init_okay ids dat f fd (i_junk o) Fr Hfd) as K.
  destruct (wrun_ok _ _ _ _ _ _ K Lg) as (s & r & R & [(V & Pol & Em & _) _]). exists s, r. split; [exact R|]. split; [exact Pol|]. intros Ap m. rewrite (Em Ap) in V. split.
  - intros a Ha. apply (idle _ _ _ _ _ a V Ha).
  - apply (table_ok _ _ _ _ _ _ V). intros a Ha. destruct (a =? WAKE) eqn:Ew; [|reflexivity]. destruct Fr as (_ & Nw & _). apply Z.eqb_eq in Ew. subst. contradiction.
Qed.
Print Assumptions win_registration_partial.
Definition ex_f (a : Z) : wfd := mk_wfd (100 + a) 0 None (-1).
Definition ex_io : iorac := mk_iorac true true true (Some 7) 99.
Definition ex_o : orac := mk_orac true true true true 55.
Definition ex_dat (a : Z) : Z := 1000 + a.
(** Two structures; one is added at once, the other while a thread polls, which also takes the first one out. *)
Definition ex_l : list act := [Add 1 3 ex_o; Wait 5; Add 2 5 ex_o; Add 3 2 ex_o; Del 1 2 ex_o; Wait 5; Answer (Events 0 []) (fun _ => ex_o); Del 3 2 ex_o].
Definition ex_s0 : wst := match win_init ex_f ex_io with Ok (s, _) => s | _ => mk_wst zero_poll ex_f end.
Ltac step_legal := split; [cbn; intuition (try discriminate; try lia)|]; intros ? ? H; vm_compute in H; injection H as <- <-.
Example win_registration_ex : fresh [1; 2; 3] ex_f /\ win_init ex_f ex_io = Ok (ex_s0, 0) /\ legal ex_dat [1; 2; 3] abs0 ex_s0 ex_l /\
  (exists s, wrun ex_dat ex_s0 ex_l = Ok (s, [Ret 0; Began; Ret 0; Ret 0; Ret 0; Ret (-1); Ret 0; Ret 0]) /\ table s = [(101, WPOLLIN, 1001, false); (102, WPOLLIN, 1002, true)]).
Proof.
  split; [|split; [|split]].
  - split; [repeat constructor; cbn; intuition lia|]. split; [cbn; unfold WAKE; intuition lia|]. split; [cbn; lia|]. intros a [<-|[<-|[<-|[]]]]; cbn; unfold INVALID; intuition lia.
  - reflexivity.
  - repeat step_legal. exact I.
  - eexists. split; vm_compute; reflexivity.
Qed.

(** *** What the full statement lacks *)

(** Memory runs out while the tables grow (socket/sc_sock.c:1645): the events are freed but still pointed to, and the next call uses
    them. *)
Definition ex_adds (n : nat) : list act := map (fun k => Add (1 + Z.of_nat k) 1 ex_o) (seq 0 n).
Theorem win_registration_oom_refuted : exists s, wrun ex_dat ex_s0 (ex_adds 15 ++ [Add 16 1 (mk_orac true false true true 0)]) = Ok (s, repeat (Ret 0) 15 ++ [Ret (-1)]) /\
  wstep ex_dat s (Del 1 1 ex_o) = UB /\ wstep ex_dat s (Add 17 1 ex_o) = UB.
Proof. eexists. split; [vm_compute; reflexivity|]. split; reflexivity. Qed.
Print Assumptions win_registration_oom_refuted.
(** While a thread polls, sc_sock_poll_del of something that is not registered (on Linux: no effect) returns 0 and makes the polling
    thread use a NULL pointer (socket/sc_sock.c:1724, :2114); the same for an add that is taken back, and for SC_SOCK_EDGE alone. *)
Theorem win_registration_null_refuted : forall c, In c [[Del 1 1 ex_o]; [Add 1 1 ex_o; Del 1 1 ex_o]; [Add 1 4 ex_o]] ->
  exists s, wrun ex_dat ex_s0 (Wait 5 :: c) = Ok (s, Began :: repeat (Ret 0) (length c)) /\ wstep ex_dat s (Answer (Events 0 []) (fun _ => ex_o)) = UB.
Proof. intros c [<-|[<-|[<-|[]]]]; eexists; (split; [vm_compute; reflexivity|reflexivity]). Qed.
Print Assumptions win_registration_null_refuted.
(** WSAPoll fails (socket/sc_sock.c:2096-2101): the calls put off stay put off, and later calls overtake them.  Here the last call takes the
    structure out, and it is registered all the same. *)
Theorem win_registration_error_refuted : exists s,
  wrun ex_dat ex_s0 [Wait 5; Add 1 1 ex_o; Answer (Failed 10050) (fun _ => ex_o); Del 1 1 ex_o; Wait 5; Answer (Events 0 []) (fun _ => ex_o)] =
    Ok (s, [Began; Ret 0; Ret (-1); Ret 0; Began; Ret 0]) /\ table s = [(101, WPOLLIN, 1001, false)].
Proof. eexists. split; [vm_compute; reflexivity|reflexivity]. Qed.
Print Assumptions win_registration_error_refuted.
(** The wakeup byte cannot be written (socket/sc_sock.c:1756): the call fails and takes effect nevertheless. *)
Theorem win_registration_wakeup_refuted : exists s,
  wrun ex_dat ex_s0 [Wait 5; Add 1 1 (mk_orac true true true false 0); Answer (Events 0 []) (fun _ => ex_o)] = Ok (s, [Began; Ret (-1); Ret 0]) /\ table s = [(101, WPOLLIN, 1001, false)].
Proof. eexists. split; [vm_compute; reflexivity|reflexivity]. Qed.
Print Assumptions win_registration_wakeup_refuted.
(** No memory when the calls put off are carried out (socket/sc_sock.c:2119-2122): a call that returned 0 has no effect; sc_sock_poll_wait
    returns -1. *)
Theorem win_registration_lost_refuted : exists s,
  wrun ex_dat ex_s0 (ex_adds 15 ++ [Wait 5; Add 16 1 ex_o; Answer (Events 0 []) (fun _ => mk_orac false true true true 0)]) = Ok (s, repeat (Ret 0) 15 ++ [Began; Ret 0; Ret (-1)]) /\
  length (table s) = 15%nat /\ f_op (wf s 16) = 0.
Proof. eexists. split; [vm_compute; reflexivity|]. split; reflexivity. Qed.
Print Assumptions win_registration_lost_refuted.

Lemma flat_ext_in {A B} (g h : A -> list B) l : (forall x, In x l -> g x = h x) -> flat_map g l = flat_map h l.
Proof. induction l as [|x l IH]; intros H; [reflexivity|]. cbn. rewrite (H x (or_introl eq_refl)), IH by (intros; apply H; now right). reflexivity. Qed.

(** ** C99: what sc_sock_poll_wait reports *)

(** A thread is inside WSAPoll, no call came in between, and WSAPoll answers for every descriptor what [rev] says.  Then this
    sc_sock_poll_wait and the following ones report, in parts of at most 1024, for every registered structure with something to
    report its events and its user data, once, and nothing else; only then WSAPoll is called again. *)
Theorem win_results : forall dat ids f o s0 l,
  fresh ids f -> i_pipe o <> Some INVALID -> win_init f o = Ok (s0, 0) -> legal dat ids abs0 s0 l ->
  exists s r, wrun dat s0 l = Ok (s, r) /\ let A := aruns abs0 l r in
    (a_poll A = true -> a_subs A = 0 -> forall rev rv ops, answers_with s rev rv ->
      exists s1 due, wstep dat s (Answer (Events (answers s rev) rv) ops) = Ok (s1, Ret (zlen (w_res (wp s1)))) /\
        w_res (wp s1) = firstn 1024 due /\ (forall k, delivers k s1 (skipn 1024 due)) /\
        Permutation due (flat_map (fun a => report (rev (f_fd (f a))) (edge_of s a) (dat a)) (filter (fun a => negb (a_mask A a =? 0)) ids))).
Proof.
  intros dat ids f o s0 l Fr Hp Hi Lg. destruct (init_state _ _ _ Hi) as (fd & _ & _ & _ & E & ->). assert (Hfd : fd <> INVALID) by congruence. pose proof (init_okay ids dat f fd (i_junk o) Fr Hfd) as K.
  destruct (wrun_ok _ _ _ _ _ _ K Lg) as (s & r & R & G). exists s, r. split; [exact R|]. intros A Ap As rev rv ops Hr.
  assert (Em : w_ops (wp s) = []). { destruct G as [(_ & _ & _ & _ & _ & (Q & _)) _]. fold A in Q. rewrite As in Q. destruct (w_ops (wp s)); [reflexivity|]. rewrite zlen_cons in Q. pose proof (zlen_nonneg l0). lia. }
  destruct (end_due _ _ _ _ _ rev rv ops G Em Hr) as (s1 & due & W & D1 & D2 & D3). exists s1, due. cbn [wstep]. rewrite W. cbn [bind fst snd]. split; [reflexivity|]. split; [exact D1|]. split; [exact D2|].
  eapply Permutation_trans; [exact D3|]. erewrite flat_ext_in; [apply Permutation_refl|]. intros a Ha. apply filter_In in Ha. destruct Ha as [Ha _]. cbn beta. destruct (a =? WAKE) eqn:Ew; [|reflexivity]. destruct Fr as (_ & Nw & _). apply Z.eqb_eq in Ew. subst. contradiction.
Qed.
Print Assumptions win_results.
(** Three structures, one of them edge-triggered and reported before; WSAPoll says: data for the wakeup pipe and for two structures. *)
Definition ex_rev (fd : Z) : Z := if fd =? 7 then WPOLLIN else if fd =? 101 then WPOLLIN + WPOLLOUT else if fd =? 103 then WPOLLHUP else 0.
Definition ex_rv : list Z := [WPOLLIN; WPOLLIN + WPOLLOUT; 0; WPOLLHUP] ++ repeat 0 12.
Definition ex_l2 : list act := [Add 1 7 ex_o; Add 2 1 ex_o; Add 3 2 ex_o; Wait 5; Answer (Events 1 ([0; WPOLLOUT] ++ repeat 0 14)) (fun _ => ex_o); Wait 5].
Definition ex_s2 : wst := match wrun ex_dat ex_s0 ex_l2 with Ok (s, _) => s | _ => ex_s0 end.
Lemma ex_fresh : fresh [1; 2; 3] ex_f.
Proof. split; [repeat constructor; cbn; intuition lia|]. split; [cbn; unfold WAKE; intuition lia|]. split; [cbn; lia|]. intros a [<-|[<-|[<-|[]]]]; cbn; unfold INVALID; intuition lia. Qed.
Lemma at_range p ev i x : ev_block p = Ok ev -> at_ p i = Some x -> 0 <= i < zlen ev.
Proof. intros E H. unfold at_ in H. rewrite E in H. destruct (data_inner i); try discriminate. destruct (zget ev i) eqn:G; [|discriminate]. apply zget_Some_range in G. exact G. Qed.
Lemma ex_slots i e c : at_ (wp ex_s2) i = Some (e, c) -> pf_fd e <> INVALID -> i = 0 \/ i = 1 \/ i = 2 \/ i = 3.
Proof.
  intros H Hn. assert (EB : exists ev, ev_block (wp ex_s2) = Ok ev /\ zlen ev = 16) by (eexists; split; vm_compute; reflexivity). destruct EB as (ev & EB & Len). assert (R := at_range _ _ _ _ EB H). rewrite Len in R.
  assert (C : i = 0 \/ i = 1 \/ i = 2 \/ i = 3 \/ i = 4 \/ i = 5 \/ i = 6 \/ i = 7 \/ i = 8 \/ i = 9 \/ i = 10 \/ i = 11 \/ i = 12 \/ i = 13 \/ i = 14 \/ i = 15) by lia.
  decompose [or] C; clear C; subst i; auto; exfalso; vm_compute in H; injection H as <- <-; apply Hn; reflexivity.
Qed.
Example win_results_ex : legal ex_dat [1; 2; 3] abs0 ex_s0 ex_l2 /\ (exists r, wrun ex_dat ex_s0 ex_l2 = Ok (ex_s2, r) /\ a_poll (aruns abs0 ex_l2 r) = true /\ a_subs (aruns abs0 ex_l2 r) = 0) /\
  answers_with ex_s2 ex_rev ex_rv /\ answers ex_s2 ex_rev = 3 /\
  exists s1, wstep ex_dat ex_s2 (Answer (Events 3 ex_rv) (fun _ => ex_o)) = Ok (s1, Ret 2) /\ w_res (wp s1) = [(SREAD, 1001); (3, 1003)].
Proof.
  split; [repeat step_legal; exact I|]. split; [eexists; split; [vm_compute; reflexivity|split; reflexivity]|]. split; [|split; [vm_compute; reflexivity|]].
  - split; [vm_compute; reflexivity|]. intros i e c r H Hn Hr. destruct (ex_slots i e c H Hn) as [->|[->|[->| ->]]]; vm_compute in H, Hr; injection H as <- <-; injection Hr as <-; reflexivity.
  - eexists. split; vm_compute; reflexivity.
Qed.

(** An event may be reported although sc_sock_poll_del for it has returned 0: it was put off until WSAPoll had answered, and del does
    not touch the answer (socket/sc_sock.c:1909-1927). *)
Theorem win_results_stale_refuted : exists s,
  wrun ex_dat ex_s0 [Add 1 3 ex_o; Wait 5; Del 1 2 ex_o; Answer (Events 1 ([0; WPOLLOUT] ++ repeat 0 14)) (fun _ => ex_o)] = Ok (s, [Ret 0; Began; Ret 0; Ret 1]) /\
  w_res (wp s) = [(SWRITE, 1001)] /\ f_op (wf s 1) = SREAD.
Proof. eexists. split; [vm_compute; reflexivity|]. split; reflexivity. Qed.
Print Assumptions win_results_stale_refuted.
(** A timeout of -1, "wait infinitely" (socket/sc_sock.h:446), is 16 milliseconds (socket/sc_sock.c:2021). *)
Theorem win_wait_infinite_refuted : exists s, wait_begin ex_s0 (-1) = Ok (s, Polls 16).
Proof. eexists. reflexivity. Qed.
Print Assumptions win_wait_infinite_refuted.

(** ** C100: edge-triggered mode *)

(** Two reports for an edge-triggered structure, by two sc_sock_poll_wait calls with any calls by any threads in between ([l2]): unless a
    send or receive on it would have blocked meanwhile or its registration was changed to another mode, no event is reported twice.  The
    structure is recognised by its user data; a broken connection is always reported (see [reported]). *)
Theorem win_edge : forall dat ids f o s0 l1 s1 r1 c1 t1 l2 s2 r2 c2 t2 a v1 v2,
  fresh ids f -> i_pipe o <> Some INVALID -> win_init f o = Ok (s0, 0) -> legal dat ids abs0 s0 (l1 ++ c1 :: l2 ++ [c2]) ->
  In a ids -> (forall b, In b ids -> dat b = dat a -> b = a) -> dat a <> 0 ->
  wrun dat s0 l1 = Ok (s1, r1) ->
  wstep dat s1 c1 = Ok (t1, Ret (zlen (w_res (wp t1)))) -> In (v1, dat a) (w_res (wp t1)) -> unbroken (f_fd (f a)) t1 ->
  wrun dat t1 l2 = Ok (s2, r2) ->
  wstep dat s2 c2 = Ok (t2, Ret (zlen (w_res (wp t2)))) -> In (v2, dat a) (w_res (wp t2)) -> unbroken (f_fd (f a)) t2 ->
  quiet dat a (astep (aruns abs0 l1 r1) c1 (Ret (zlen (w_res (wp t1))))) t1 (l2 ++ [c2]) ->
  Z.land v1 v2 = 0.
Proof.
  intros dat ids f o s0 l1 s1 r1 c1 t1 l2 s2 r2 c2 t2 a v1 v2 Fr Hp Hi Lg Ha Inj Nz W0 W1 H1 U1 W2 W3 H2 U2 Q. destruct (init_state _ _ _ Hi) as (fd & _ & _ & _ & E & ->). assert (Hfd : fd <> INVALID) by congruence. pose proof (init_okay ids dat f fd (i_junk o) Fr Hfd) as K.
  destruct (legal_app _ _ _ _ _ _ _ _ Lg W0) as [Lg1 Lg2]. destruct (wrun_ok _ _ _ _ _ _ K Lg1) as (s' & r' & R & G). rewrite W0 in R. injection R as <- <-.
  assert (Fd : (if a =? WAKE then fd else f_fd (f a)) = f_fd (f a)). { destruct (a =? WAKE) eqn:Ew; [|reflexivity]. destruct Fr as (_ & Nw & _). apply Z.eqb_eq in Ew. subst. contradiction. }
  eapply (told_once ids dat (fun a => if a =? WAKE then fd else f_fd (f a)) (aruns abs0 l1 r1) s1 c1 t1 l2 s2 r2 c2 t2 a); eauto; rewrite ?Fd; auto.
  assert (Pos : 0 < zlen (w_res (wp t1))). { destruct (w_res (wp t1)) as [|x l]; [destruct H1|]. rewrite zlen_cons. pose proof (zlen_nonneg l). lia. }
  assert (T : Z.testbit (a_mask (astep (aruns abs0 l1 r1) c1 (Ret (zlen (w_res (wp t1))))) a) 2 = true) by (destruct l2; apply Q).
  destruct c1; cbn [astep] in T; auto; destruct (zlen (w_res (wp t1))); auto; lia.
Qed.
Print Assumptions win_edge.
(** Once a send or receive would have blocked, the event is due again; nothing changes for the others.  And for a structure that is not
    edge-triggered, what was reported before makes no difference. *)
Theorem win_edge_again : forall dat ids f o s0 l,
  fresh ids f -> i_pipe o <> Some INVALID -> win_init f o = Ok (s0, 0) -> legal dat ids abs0 s0 l ->
  exists s r, wrun dat s0 l = Ok (s, r) /\ let A := aruns abs0 l r in forall a, In a ids ->
    (forall ev, ev = SREAD \/ ev = SWRITE -> exists s2, wstep dat s (Blocked a ev) = Ok (s2, Ret 0) /\
       (forall r, Z.land (rbits r) ev <> 0 -> Z.land (reported r (edge_of s2 a)) ev <> 0) /\
       (forall b, In b ids -> b <> a -> edge_of s2 b = edge_of s b)) /\
    (a_poll A = false \/ a_subs A = 0 -> Z.testbit (a_mask A a) 2 = false -> forall r d, report r (edge_of s a) d = report r 0 d).
Proof.
  intros dat ids f o s0 l Fr Hp Hi Lg. destruct (init_state _ _ _ Hi) as (fd & _ & _ & _ & E & ->). assert (Hfd : fd <> INVALID) by congruence. pose proof (init_okay ids dat f fd (i_junk o) Fr Hfd) as K.
  destruct (wrun_ok _ _ _ _ _ _ K Lg) as (s & r & R & G). exists s, r. split; [exact R|]. intros A a Ha. fold A in G. split.
  - intros ev Hev. destruct (block_edge _ _ _ _ _ a ev G Ha) as (s2 & B1 & B2 & _ & B3). exists s2. cbn [wstep]. rewrite B1. cbn [bind]. split; [reflexivity|]. split; [|exact B3].
    intros r0 H0. unfold reported. destruct (negb (Z.land r0 (Z.lor WPOLLHUP WPOLLERR) =? 0)); [destruct Hev as [-> | ->]; discriminate|]. destruct (Z.testbit (edge_of s2 a) 2); [|exact H0].
    rewrite B2. intros X. apply H0. apply Z.bits_inj'. intros n Hn. assert (Y := f_equal (fun z => Z.testbit z n) X). cbn beta in Y. rewrite Z.land_spec, !Z.ldiff_spec, Z.bits_0 in Y. rewrite Z.land_spec, Z.bits_0.
    destruct (Z.testbit (rbits r0) n), (Z.testbit ev n), (Z.testbit (edge_of _ a) n); cbn in *; congruence.
  - intros Hs Tb r0 d. assert (Em : w_ops (wp s) = []). { destruct G as [(_ & _ & Em & _ & _ & (Q & _)) _]. destruct Hs as [Hs|Hs]; [exact (Em Hs)|]. rewrite Hs in Q. destruct (w_ops (wp s)); [reflexivity|]. rewrite zlen_cons in Q. pose proof (zlen_nonneg l0). lia. }
    destruct G as [(V & _) _]. rewrite Em in V. destruct (idle _ _ _ _ _ a V Ha) as (_ & Eo & _). unfold edge_of. destruct (v_id _ _ _ _ _ _ _ V a (or_intror Ha)) as [_ [[_ D]|[_ (i & Ii & I2 & _ & (cc & Cc & _ & _ & C4))]]]; [rewrite D; reflexivity|].
    rewrite I2, (cell_get_ok _ _ _ Cc). unfold report, reported. rewrite C4, Eo, Tb, Z.bits_0. reflexivity.
Qed.
Print Assumptions win_edge_again.
(** The state of the example above: structure 1 is edge-triggered, data came in and is reported; again data: nothing; a receive would
    block; again data: reported. *)
Example win_edge_ex : (exists r, wrun ex_dat ex_s0 ex_l2 = Ok (ex_s2, r) /\ Z.testbit (a_mask (aruns abs0 ex_l2 r) 1) 2 = true /\ Z.testbit (a_mask (aruns abs0 ex_l2 r) 2) 2 = false) /\
  exists s, wrun ex_dat ex_s2 [Answer (Events 3 ex_rv) (fun _ => ex_o); Wait 5; Answer (Events 1 ([0; WPOLLIN] ++ repeat 0 14)) (fun _ => ex_o);
    Blocked 1 SREAD; Wait 5; Answer (Events 1 ([0; WPOLLIN] ++ repeat 0 14)) (fun _ => ex_o)] = Ok (s, [Ret 2; Began; Ret 0; Ret 0; Began; Ret 1]).
Proof. split; [eexists; split; [vm_compute; reflexivity|split; vm_compute; reflexivity]|eexists; vm_compute; reflexivity]. Qed.
(** All conditions of [win_edge] at once: data is reported for structure 1; then calls for the other structures, one of them while the thread
    polls again; then WSAPoll says data and room for structure 1, and only room is reported. *)
Definition ex_l3 : list act := [Add 1 7 ex_o; Add 2 1 ex_o; Wait 5].
Definition ex_c3 : act := Answer (Events 1 ([0; WPOLLIN] ++ repeat 0 14)) (fun _ => ex_o).
Definition ex_l4 : list act := [Del 2 1 ex_o; Blocked 2 SREAD; Add 2 3 ex_o; Wait 5; Add 3 2 ex_o].
Definition ex_c4 : act := Answer (Events 2 ([0; WPOLLIN + WPOLLOUT; WPOLLIN] ++ repeat 0 13)) (fun _ => ex_o).
Definition ex_at (l : list act) : wst := match wrun ex_dat ex_s0 l with Ok (s, _) => s | _ => ex_s0 end.
Ltac step_quiet := split; [reflexivity|]; split; [intros; discriminate|]; intros ? ? H; vm_compute in H; injection H as <- <-.
Lemma ex_unbroken l ev : ev_block (wp (ex_at l)) = Ok ev -> forallb (fun e => Z.land (pf_rev e) 3 =? 0) (filter (fun e => pf_fd e =? 101) ev) = true -> unbroken 101 (ex_at l).
Proof.
  intros E H i e c At Fe. unfold at_ in At. rewrite E in At. destruct (data_inner i); try discriminate. destruct (zget ev i) as [e'|] eqn:Z; [|discriminate]. destruct (cell_get _ _); try discriminate. injection At as -> _.
  rewrite forallb_forall in H. change (Z.lor WPOLLHUP WPOLLERR) with 3. apply Z.eqb_eq. apply H. apply filter_In. split; [|lia]. unfold zget in Z. destruct (i <? 0); [discriminate|]. apply nth_error_In in Z. exact Z.
Qed.
Example win_edge_quiet_ex : legal ex_dat [1; 2; 3] abs0 ex_s0 (ex_l3 ++ ex_c3 :: ex_l4 ++ [ex_c4]) /\ (forall b, In b [1; 2; 3] -> ex_dat b = ex_dat 1 -> b = 1) /\ ex_dat 1 = 1001 /\
  (exists r, wrun ex_dat ex_s0 ex_l3 = Ok (ex_at ex_l3, r) /\
     quiet ex_dat 1 (astep (aruns abs0 ex_l3 r) ex_c3 (Ret 1)) (ex_at (ex_l3 ++ [ex_c3])) (ex_l4 ++ [ex_c4])) /\
  (wstep ex_dat (ex_at ex_l3) ex_c3 = Ok (ex_at (ex_l3 ++ [ex_c3]), Ret 1) /\ w_res (wp (ex_at (ex_l3 ++ [ex_c3]))) = [(SREAD, 1001)] /\ unbroken 101 (ex_at (ex_l3 ++ [ex_c3]))) /\
  (exists r, wrun ex_dat (ex_at (ex_l3 ++ [ex_c3])) ex_l4 = Ok (ex_at (ex_l3 ++ ex_c3 :: ex_l4), r)) /\
  (wstep ex_dat (ex_at (ex_l3 ++ ex_c3 :: ex_l4)) ex_c4 = Ok (ex_at (ex_l3 ++ ex_c3 :: ex_l4 ++ [ex_c4]), Ret 2) /\
    w_res (wp (ex_at (ex_l3 ++ ex_c3 :: ex_l4 ++ [ex_c4]))) = [(SWRITE, 1001); (SREAD, 1002)] /\ unbroken 101 (ex_at (ex_l3 ++ ex_c3 :: ex_l4 ++ [ex_c4]))).
Proof.
  split; [repeat step_legal; exact I|]. split; [intros b [<-|[<-|[<-|[]]]] H; [reflexivity|discriminate|discriminate]|]. split; [reflexivity|]. split; [|split; [|split]].
  - eexists. split; [vm_compute; reflexivity|]. repeat step_quiet. split; [reflexivity|exact I].
  - split; [vm_compute; reflexivity|]. split; [vm_compute; reflexivity|]. eapply ex_unbroken; vm_compute; reflexivity.
  - eexists. vm_compute. reflexivity.
  - split; [vm_compute; reflexivity|]. split; [vm_compute; reflexivity|]. eapply ex_unbroken; vm_compute; reflexivity.
Qed.
(** Taking an event out and adding it again does not make it reported again (on Linux it does): socket/sc_sock.c:1921-1925. *)
Theorem win_edge_rearm_refuted : exists s,
  wrun ex_dat ex_s0 [Add 1 7 ex_o; Wait 5; Answer (Events 1 ([0; WPOLLIN] ++ repeat 0 14)) (fun _ => ex_o); Del 1 1 ex_o; Add 1 1 ex_o; Wait 5; Answer (Events 1 ([0; WPOLLIN] ++ repeat 0 14)) (fun _ => ex_o)] =
  Ok (s, [Ret 0; Began; Ret 1; Ret 0; Ret 0; Began; Ret 0]).
Proof. eexists. vm_compute. reflexivity. Qed.
Print Assumptions win_edge_rearm_refuted.

(** ** C101: memory *)

(** Whatever the calls, the answers of the system and the failures of the allocator: if sc_sock_poll_init fails it has freed what it
    had allocated; if it succeeds, then after any history without undefined behaviour sc_sock_poll_term frees every block exactly once,
    and at no time is a block freed that is not allocated. *)
Theorem win_memory : forall f o s0 rc, win_init f o = Ok (s0, rc) ->
  (rc <> 0 -> clean (w_log (wp s0))) /\
  (rc = 0 -> forall dat l s r o' pe s' rc', wrun dat s0 l = Ok (s, r) -> win_term s o' pe = Ok (s', rc') -> clean (w_log (wp s'))).
Proof.
  intros f o s0 rc H. split; [intros Hr; exact (init_clean _ _ _ _ H Hr)|]. intros -> dat l s r o' pe s' rc' Hr Ht. exact (term_clean _ _ _ _ _ Ht (wrun_acct _ _ _ _ _ Hr (init_acct _ _ _ H))).
Qed.
Print Assumptions win_memory.
(** A history in which everything grows. *)
Example win_memory_ex : exists s r s', wrun ex_dat ex_s0 (ex_adds 20 ++ [Wait 0; Add 30 1 ex_o]) = Ok (s, r) /\ win_term s ex_o 0 = Ok (s', 0) /\
  w_log (wp s') = [Got BResults; Got BEvents; Got (BChunk 0); Gave BEvents; Got BEvents; Got (BChunk 1); Got BOps; Gave (BChunk 0); Gave (BChunk 1); Gave BResults; Gave BEvents; Gave BOps].
Proof. eexists _, _, _. split; [vm_compute; reflexivity|]. split; vm_compute; reflexivity. Qed.

(** ** C102: the cells *)

(** For every capacity the poller can have, 16 * 2^k with k + 1 chunks, sc_sock_poll_data_inner maps the slots one to one to cells inside
    the chunks: chunk 0 has 16 cells, chunk j has 8 * 2^j; so a cell never moves when the table grows. *)
Theorem win_cells : forall k i, 0 <= k <= 15 -> 0 <= i < 16 * 2 ^ k ->
  exists x y, data_inner i = Ok (x, y) /\ 0 <= x <= k /\ 0 <= y < (if x =? 0 then 16 else 8 * 2 ^ x) /\
    forall i', 0 <= i' < 16 * 2 ^ k -> data_inner i' = Ok (x, y) -> i' = i.
Proof.
  intros k i Hk Hi. destruct (loc_spec i k Hk Hi) as (E & X & Y & Z0). exists (fst (loc i)), (snd (loc i)). rewrite <- surjective_pairing. split; [exact E|]. split; [exact X|]. split.
  - unfold csize in Y. destruct (fst (loc i) =? 0) eqn:E0; [exact Y|]. rewrite Z.pow_add_r in Y by lia. change (2 ^ 3) with 8 in Y. lia.
  - intros i' Hi' E'. destruct (loc_spec i' k Hk Hi') as (E2 & _ & _ & Z2). assert (L : loc i' = loc i) by congruence. rewrite L in Z2. lia.
Qed.
Print Assumptions win_cells.
Example win_cells_ex : data_inner 15 = Ok (0, 15) /\ data_inner 16 = Ok (1, 0) /\ data_inner 31 = Ok (1, 15) /\ data_inner 32 = Ok (2, 0) /\ data_inner (2 ^ 19 - 1) = Ok (15, 2 ^ 18 - 1).
Proof. repeat split; vm_compute; reflexivity. Qed.

(** Part of C98: WSAPoll is repeated while interrupted; the first other answer is the one acted upon. *)
Theorem win_poll_retry : forall (pre rest : list answer) (a : answer), Forall (fun x => x = Failed 10004) pre -> a <> Failed 10004 ->
  wsa_poll (pre ++ a :: rest) = Ok a.
Proof.
  intros pre rest a Hp Ha. induction Hp as [|x pre -> _ IH]; [|exact IH]. destruct a as [n r|e]; [reflexivity|]. cbn [app wsa_poll].
  destruct (Z.eqb_spec e WSAEINTR) as [->|]; [destruct Ha; reflexivity|reflexivity].
Qed.
Print Assumptions win_poll_retry.
Example win_poll_retry_ex : Forall (fun x => x = Failed 10004) [Failed 10004] /\ wsa_poll [Failed 10004; Failed 10038] = Ok (Failed 10038).
Proof. split; [repeat constructor|reflexivity]. Qed.

(** ** C103: the pipe *)

(** If sc_sock_pipe_init succeeds, exactly the two ends are open and the structure refers to the reading one; sc_sock_pipe_term then
    closes both, whatever closesocket returns, and a second call does nothing. *)
Theorem win_pipe_partial : forall o p, win_pipe_init o = (p, 0) ->
  exists r w, k_accept o = Some r /\ k_write o = Some w /\ k_fds p = (r, w) /\ k_fd p = r /\
    (forall x, k_listener o = Some x -> x <> w /\ x <> r -> w <> r -> r <> INVALID ->
       open_after (k_log p) [] = Some [w; r] /\
       forall e0 e1, let q := fst (win_pipe_term p e0 e1) in open_after (k_log q) [] = Some [] /\ (snd (win_pipe_term p e0 e1) = 0 <-> e0 && e1 = true) /\
         forall e2 e3, win_pipe_term q e2 e3 = (q, 0)).
Proof.
  intros o p. unfold win_pipe_init. destruct (k_listener o) as [x|] eqn:El; [|discriminate]. destruct (negb _); [discriminate|]. destruct (k_write o) as [w|]; [|discriminate]. destruct (negb _); [discriminate|]. destruct (k_accept o) as [r|]; [|discriminate].
  intros H. injection H as <-. exists r, w. repeat (split; [reflexivity|]). intros x' Hx [N1 N2] N3 N4. injection Hx as <-. split.
  - cbn. rewrite Z.eqb_refl. reflexivity.
  - intros e0 e1. unfold win_pipe_term. cbn [k_fds fst snd k_log k_fd]. apply Z.eqb_neq in N4. rewrite N4. cbn [fst snd k_log]. split.
    + cbn. rewrite Z.eqb_refl. cbn. assert (E : (r =? w) = false) by lia. rewrite E, Z.eqb_refl. cbn. rewrite Z.eqb_refl. reflexivity.
    + split; [destruct (e0 && e1); split; intros; congruence|]. intros e2 e3. reflexivity.
Qed.
Print Assumptions win_pipe_partial.
Example win_pipe_ex : exists p, win_pipe_init (mk_porac (Some 5) true true true true (Some 6) true true (Some 7)) = (p, 0) /\ open_after (k_log p) [] = Some [6; 7].
Proof. eexists. split; reflexivity. Qed.
(** Missing: when sc_sock_pipe_init fails, the sockets it opened stay open, and sc_sock_pipe_term does not close them
    (socket/sc_sock.c:951-953, :960). *)
Theorem win_pipe_leak_refuted : exists o p, win_pipe_init o = (p, -1) /\ open_after (k_log (fst (win_pipe_term p true true))) [] = Some [5; 6].
Proof. exists (mk_porac (Some 5) true true true true (Some 6) true false None). eexists. split; reflexivity. Qed.
Print Assumptions win_pipe_leak_refuted.
