(** Properties of the poller and the pipe of socket/sc_sock.c. *)
From Verif Require Import Base SockModel SockSpec SockProofs PollModel.

(** ** C56: the registration *)

(** A call of sc_sock_poll_add or sc_sock_poll_del: events, user data, and the error the system reports (0: none). *)
Inductive cmd := CAdd (ev data e : Z) | CDel (ev data e : Z).
Definition cmd_ok (c : cmd) : Prop := match c with CAdd ev _ _ | CDel ev _ _ => 0 <= ev < 8 end.
Definition apply (k : kernel) (t : fdt) (c : cmd) : kernel * fdt * Z * list Z :=
  match c with CAdd ev d e => poll_add k t ev d e | CDel ev d e => poll_del k t ev d e end.
Fixpoint history (k : kernel) (t : fdt) (l : list cmd) : kernel * fdt * list Z * list (list Z) :=
  match l with
  | [] => (k, t, [], [])
  | c :: l => let '(k, t, rc, seen) := apply k t c in let '(k, t, rcs, sn) := history k t l in (k, t, rc :: rcs, seen :: sn)
  end.

(** The specification: a mask of events (bit 0 read, bit 1 write, bit 2 edge-triggered; edge-triggered alone is
    nothing) and the user data of the call that last changed it. *)
Definition settle (m : Z) : Z := if m =? 4 then 0 else m.
Definition target (m : Z) (c : cmd) : Z := match c with CAdd ev _ _ => settle (Z.lor m ev) | CDel ev _ _ => settle (Z.ldiff m ev) end.
Definition data_of (c : cmd) : Z := match c with CAdd _ d _ | CDel _ d _ => d end.
Definition error_of (c : cmd) : Z := match c with CAdd _ _ e | CDel _ _ e => e end.
(** A call that would change the mask is made to fail by the system, or changes it. *)
Definition want (x : Z * Z) (c : cmd) : Z * Z :=
  if (target (fst x) c =? fst x) || negb (error_of c =? 0) then x else (target (fst x) c, data_of c).
Definition result (x : Z * Z) (c : cmd) : Z := if negb (target (fst x) c =? fst x) && negb (error_of c =? 0) then -1 else 0.
Fixpoint results (x : Z * Z) (l : list cmd) : list Z := match l with [] => [] | c :: l => result x c :: results (want x c) l end.
(** What the structure shows at the moment the system is called: the mask being registered. *)
Fixpoint shown (x : Z * Z) (l : list cmd) : list (list Z) :=
  match l with [] => [] | c :: l => (if target (fst x) c =? fst x then [] else [target (fst x) c]) :: shown (want x c) l end.
(** The registration belonging to a mask: errors and hang-ups always, and what the mask says. *)
Definition bit (b : bool) (v : Z) : Z := if b then v else 0.
Definition registration (x : Z * Z) : option (Z * Z) :=
  if fst x =? 0 then None
  else Some (EPOLLERR + EPOLLHUP + EPOLLRDHUP + bit (Z.testbit (fst x) 0) EPOLLIN + bit (Z.testbit (fst x) 1) EPOLLOUT + bit (Z.testbit (fst x) 2) EPOLLET, snd x).

(** The masks that occur. *)
Definition mask_ok (m : Z) : Prop := 0 <= m < 8 /\ m <> 4.
Lemma cases8 m : 0 <= m < 8 -> m = 0 \/ m = 1 \/ m = 2 \/ m = 3 \/ m = 4 \/ m = 5 \/ m = 6 \/ m = 7.
Proof. lia. Qed.
Ltac each8 H := apply cases8 in H; destruct H as [H|[H|[H|[H|[H|[H|[H|H]]]]]]].
Lemma target_ok m c : mask_ok m -> cmd_ok c -> mask_ok (target m c) /\ (match c with CAdd _ _ _ => target m c = 0 -> m = 0 | CDel _ _ _ => m = 0 -> target m c = 0 end).
Proof.
  intros [Hm Hn] Hc. destruct c as [ev d e|ev d e]; cbn [cmd_ok] in Hc; cbn [target]; each8 Hm; each8 Hc; subst; try lia; vm_compute; repeat split; congruence.
Qed.
Lemma events_reg m d : mask_ok m -> m <> 0 -> registration (m, d) = Some (epoll_events m, d).
Proof. intros [Hm Hx] Hn. unfold registration. cbn [fst snd]. replace (m =? 0) with false by lia. f_equal. f_equal. each8 Hm; subst; try reflexivity; lia. Qed.
Lemma upd_same k f r : upd k f r f = r.
Proof. unfold upd. now rewrite Z.eqb_refl. Qed.
Lemma upd_other k f r g : g <> f -> upd k f r g = k g.
Proof. unfold upd. destruct (Z.eqb_spec g f); [contradiction|reflexivity]. Qed.

Lemma apply_ok k t d c : mask_ok (top t) -> cmd_ok c -> k (tfd t) = registration (top t, d) ->
  exists k', apply k t c = (k', mk_fdt (tfd t) (fst (want (top t, d) c)), result (top t, d) c, if target (top t) c =? top t then [] else [target (top t) c]) /\
    k' (tfd t) = registration (want (top t, d) c) /\ (forall g, g <> tfd t -> k' g = k g).
Proof.
  intros Hm Hc Hk. destruct (target_ok (top t) c Hm Hc) as (Ht & Hz).
  assert (E : apply k t c = (if top t =? target (top t) c then (k, t, 0, []) else
    let op := match c with CAdd _ _ _ => if top t =? 0 then ADD else MOD | CDel _ _ _ => if target (top t) c =? 0 then DEL else MOD end in
    let '(k', rc) := epoll_ctl k op (tfd t) (epoll_events (target (top t) c)) (data_of c) (error_of c) in
    if negb (rc =? 0) then (k', mk_fdt (tfd t) (top t), -1, [target (top t) c]) else (k', mk_fdt (tfd t) (target (top t) c), 0, [target (top t) c]))).
  { destruct c as [ev dd e|ev dd e]; cbn [apply target data_of error_of]; unfold poll_add, poll_del, settle, SEDGE; rewrite <- ?Z.ldiff_land; cbn [tfd top]; reflexivity. }
  rewrite E. clear E. unfold want, result. cbn [fst]. rewrite (Z.eqb_sym (target (top t) c) (top t)). destruct (Z.eqb_spec (top t) (target (top t) c)) as [Es|Es].
  { exists k. cbn [orb negb andb]. destruct t as [f m]. cbn [tfd top] in *. split; [reflexivity|]. split; [exact Hk|reflexivity]. }
  cbn [orb negb andb]. cbv zeta. unfold epoll_ctl. destruct (Z.eqb_spec (error_of c) 0) as [Ee|Ee]; cbn [negb].
  2: { replace (error_of c =? 0) with false by lia. cbn [negb]. exists k. split; [reflexivity|]. split; [exact Hk|reflexivity]. }
  rewrite Hk.
  assert (R0 : top t = 0 -> registration (top t, d) = None) by (intro Z0; unfold registration; cbn [fst]; now rewrite Z0).
  assert (R2 : top t <> 0 -> registration (top t, d) = Some (epoll_events (top t), d)) by (apply events_reg; exact Hm).
  assert (R1 : target (top t) c <> 0 -> registration (target (top t) c, data_of c) = Some (epoll_events (target (top t) c), data_of c)) by (apply events_reg; exact Ht).
  assert (R3 : target (top t) c = 0 -> registration (target (top t) c, data_of c) = None) by (intro Z0; unfold registration; cbn [fst]; now rewrite Z0).
  assert (K : forall r, r = registration (target (top t) c, data_of c) -> exists k', (upd k (tfd t) r, mk_fdt (tfd t) (target (top t) c), 0, [target (top t) c]) = (k', mk_fdt (tfd t) (target (top t) c), 0, [target (top t) c]) /\
    k' (tfd t) = registration (target (top t) c, data_of c) /\ (forall g, g <> tfd t -> k' g = k g)).
  { intros r ->. eexists. split; [reflexivity|]. split; [apply upd_same|apply upd_other]. }
  destruct c as [ev dd e|ev dd e].
  - destruct (Z.eqb_spec (top t) 0) as [Z0|Z0].
    + rewrite (R0 Z0). cbn [Z.eqb negb]. apply K. symmetry. apply R1. congruence.
    + rewrite (R2 Z0). cbn [Z.eqb negb]. apply K. symmetry. apply R1. auto.
  - assert (Z0 : top t <> 0) by (intro Z0; apply Es; rewrite (Hz Z0); exact Z0). rewrite (R2 Z0).
    destruct (Z.eqb_spec (target (top t) (CDel ev dd e)) 0) as [Z1|Z1]; cbn [Z.eqb negb]; apply K; symmetry; auto.
Qed.

(** After any history of calls on a descriptor that was not registered, with failures of the system anywhere: the recorded mask
    is the specified one, the kernel has registered exactly the events it stands for (nothing exactly when it is empty) with the data of the
    call that last changed the mask, no other descriptor is affected, a call fails exactly when the system refused a needed
    change, and whenever the system is called the structure already shows the mask being registered. *)
Theorem poll_registration : forall (k : kernel) (f d0 : Z) (l : list cmd), k f = None -> Forall cmd_ok l ->
  exists k' t', history k (mk_fdt f 0) l = (k', t', results (0, d0) l, shown (0, d0) l) /\
    tfd t' = f /\ top t' = fst (fold_left want l (0, d0)) /\ 0 <= top t' < 8 /\ top t' <> 4 /\
    k' f = registration (fold_left want l (0, d0)) /\ (k' f = None <-> top t' = 0) /\ (forall g, g <> f -> k' g = k g).
Proof.
  intros k f d0 l Hk Hl.
  assert (G : forall x k, mask_ok (fst x) -> k f = registration x -> exists k' t', history k (mk_fdt f (fst x)) l = (k', t', results x l, shown x l) /\
    tfd t' = f /\ top t' = fst (fold_left want l x) /\ mask_ok (top t') /\ k' f = registration (fold_left want l x) /\ (forall g, g <> f -> k' g = k g)).
  { clear Hk k. induction Hl as [|c l Hc _ IH]; intros [m d] k Hm Hk.
    - do 2 eexists. split; [reflexivity|]. repeat (split; [reflexivity|]). split; [exact Hm|]. split; [exact Hk|reflexivity].
    - cbn [history results shown fold_left fst]. destruct (apply_ok k (mk_fdt f m) d c Hm Hc Hk) as (k1 & E & K1 & O1). rewrite E. cbn [tfd top fst] in *.
      assert (M1 : mask_ok (fst (want (m, d) c))).
      { unfold want. cbn [fst]. destruct ((target m c =? m) || negb (error_of c =? 0)); [exact Hm|]. apply target_ok; assumption. }
      destruct (IH (want (m, d) c) k1 M1 K1) as (k2 & t2 & E2 & F2 & T2 & M2 & K2 & O2). rewrite E2.
      exists k2, t2. split; [reflexivity|]. repeat (split; [assumption|]). intros g Hg. rewrite O2, O1 by exact Hg. reflexivity. }
  destruct (G (0, d0) k) as (k' & t' & E & F & T & [M1 M2] & K & O); [split; cbn; lia|exact Hk|]. exists k', t'. cbn [fst] in E. split; [exact E|]. repeat (split; [assumption|]). split; [|exact O].
  rewrite K, T. unfold registration. destruct (Z.eqb_spec (fst (fold_left want l (0, d0))) 0); split; intros; auto; try discriminate; contradiction.
Qed.
Print Assumptions poll_registration.
(** Read is added, adding write fails, write is added edge-triggered, read and edge are removed, then the rest. *)
Example poll_registration_ex :
  let l := [CAdd 1 10 0; CAdd 2 11 28; CAdd 6 12 0; CDel 5 13 0] in
  Forall cmd_ok l /\
  (let '(k, t, rcs, sn) := history (fun _ => None) (mk_fdt 5 0) l in k 5 = Some (8 + 16 + 8192 + 4, 13) /\ top t = 2 /\ rcs = [0; -1; 0; 0] /\ sn = [[1]; [3]; [7]; [2]]) /\
  (let '(k, t, rcs, _) := history (fun _ => None) (mk_fdt 5 0) (l ++ [CDel 2 0 0]) in k 5 = None /\ top t = 0 /\ rcs = [0; -1; 0; 0; 0]).
Proof. cbv zeta. split; [repeat constructor; cbn; lia|]. split; vm_compute; repeat split. Qed.
(** Asking again for events already registered does not register the new user data although the call succeeds. *)
Theorem poll_data_refuted : exists (k : kernel) (t : fdt) (ev d1 d2 : Z), d1 <> d2 /\
  let '(k1, t1, rc1, _) := poll_add k t ev d1 0 in let '(k2, t2, rc2, _) := poll_add k1 t1 ev d2 0 in
  k (tfd t) = None /\ top t = 0 /\ rc1 = 0 /\ rc2 = 0 /\ option_map snd (k2 (tfd t)) = Some d1.
Proof. exists (fun _ => None), (mk_fdt 5 0), 1, 10, 20. split; [lia|]. vm_compute. repeat split. Qed.
Print Assumptions poll_data_refuted.

(** ** C85: the poller after closing and opening again *)

(** The kernel forgets the registration of a descriptor that is closed.  A structure that was used with the poller and closed
    without sc_sock_poll_del keeps its mask; when it is connected again, sc_sock_poll_add succeeds without
    registering anything.  (sc_sock_accept and sc_sock_init clear the mask.) *)
Theorem poll_reconnect_refuted : exists (s s1 s2 : sock) (y y1 y2 : sys) (a : connects) (k : kernel),
  let '(k1, t1, rc1, _) := poll_add k (mk_fdt (fd s) (op s)) SREAD 7 0 in
  k (fd s) = None /\ op s = 0 /\ rc1 = 0 /\
  sock_term (mk_sock (fd s) (top t1) (typ s) (blocking s) (family s) (text s)) y 0 = (s1, y1, 0) /\
  sock_connect s1 y1 [0] false a = Ok (s2, y2, 0) /\
  let k2 := upd k1 (fd s) None in
  let '(k3, t3, rc3, _) := poll_add k2 (mk_fdt (fd s2) (op s2)) SREAD 7 0 in
  rc3 = 0 /\ k3 (fd s2) = None.
Proof.
  exists (with_fd (sock_init 1 true AF_INET) 5).
  exists (mk_sock (-1) 1 1 true AF_INET NoText), (mk_sock 5 1 1 true AF_INET NoText), (mk_sys [] 0), (mk_sys [Closed 5] 0).
  eexists. exists (mk_connects (inr 1) 0 0 (inr [mk_entry AF_INET [] (inl 5) 0 (mk_fcntls (inl 2) 0) 0 0 0 (inl 0) 0 0]) 0), (fun _ => None).
  vm_compute. repeat (split; try reflexivity).
Qed.
Print Assumptions poll_reconnect_refuted.
(** When the mask was empty at the time of closing, the descriptor obtained by connecting again gets registered as asked. *)
Theorem poll_reconnect_partial : forall (s : sock) (y : sys) (e : Z) (dst : list Z) (a : connects) (l : list entry) (k : kernel) (ev d : Z),
  0 <= fd s -> op s = 0 -> family s <> AF_UNIX -> c_gai a = inr l -> entries_ok l -> 0 < ev < 8 -> ev <> 4 ->
  exists s1 y1 rc1 s2 y2 rc2, sock_term s y e = (s1, y1, rc1) /\ sock_connect s1 y1 dst false a = Ok (s2, y2, rc2) /\
    (k (fd s2) = None -> let '(k', t', rc, _) := poll_add k (mk_fdt (fd s2) (op s2)) ev d 0 in rc = 0 /\ k' (fd s2) = registration (ev, d) /\ top t' = ev).
Proof.
  intros s y e dst a l k ev d H1 H2 H3 H4 H5 H6 H7. unfold sock_term. destruct (close_open s y e H1) as (y1 & E & A). rewrite E.
  set (s1 := if (if e =? 0 then 0 else -1) =? 0 then with_fd s INVALID else errstr (with_fd s INVALID) y1 0).
  assert (B : fd s1 = INVALID /\ op s1 = 0 /\ family s1 = family s) by (unfold s1; destruct (e =? 0); repeat split; exact H2). destruct B as (B1 & B2 & B3).
  destruct (connect_inet_ok s1 y1 dst false a l B1 ltac:(congruence) H4 H5) as (s2 & y2 & rc2 & tr & E2 & _ & _ & _ & _ & O & _).
  exists s1, y1, (if e =? 0 then 0 else -1), s2, y2, rc2. split; [reflexivity|]. split; [exact E2|]. rewrite O, B2. intro K.
  destruct (apply_ok k (mk_fdt (fd s2) 0) d (CAdd ev d 0)) as (k' & E3 & K3 & _); [split; cbn; lia|cbn; lia|exact K|]. cbn [apply] in E3. rewrite E3. cbn [top tfd] in *.
  assert (T : target 0 (CAdd ev d 0) = ev) by (cbn [target]; rewrite Z.lor_0_l; unfold settle; replace (ev =? 4) with false by lia; reflexivity).
  unfold want, result in *. cbn [fst] in *. rewrite T in *. replace (ev =? 0) with false in * by lia. cbn in *. auto.
Qed.
Print Assumptions poll_reconnect_partial.
Example poll_reconnect_partial_ex :
  let s := with_fd (sock_init 1 true AF_INET) 5 in let l := [mk_entry AF_INET [] (inl 5) 0 (mk_fcntls (inl 2) 0) 0 0 0 (inl 0) 0 0] in
  0 <= fd s /\ op s = 0 /\ family s <> AF_UNIX /\ entries_ok l /\ registration (1, 7) = Some (8 + 16 + 8192 + 1, 7).
Proof. cbv zeta. split; [cbn; lia|]. split; [reflexivity|]. split; [discriminate|]. split; [|reflexivity]. repeat constructor. intros f E. injection E as <-. lia. Qed.

(** ** C86: reported events *)
Lemma land_bit w n : 0 <= n -> (Z.land w (2 ^ n) =? 0) = negb (Z.testbit w n).
Proof.
  intro Hn. destruct (Z.testbit w n) eqn:E; cbn [negb].
  - apply Z.eqb_neq. intro Z0. assert (K : Z.testbit (Z.land w (2 ^ n)) n = false) by (rewrite Z0; apply Z.testbit_0_l). rewrite Z.land_spec, E, Z.pow2_bits_true in K by lia. discriminate.
  - apply Z.eqb_eq. apply Z.bits_inj'. intros i Hi. rewrite Z.land_spec, Z.testbit_0_l. destruct (Z.eq_dec i n) as [->|N]; [now rewrite E|]. rewrite Z.pow2_bits_false by lia. apply andb_false_r.
Qed.
(** Readable is reported exactly when the kernel reported input, writable exactly when it reported output, and both when it
    reported an error or a hang-up on either side. *)
Theorem poll_event_mapping : forall w : Z,
  let bad := Z.testbit w 3 || Z.testbit w 4 || Z.testbit w 13 in
  poll_event w = bit (Z.testbit w 0 || bad) SREAD + bit (Z.testbit w 2 || bad) SWRITE.
Proof.
  intro w. cbv zeta. unfold poll_event. cbv zeta.
  assert (B : (Z.land w (Z.lor EPOLLHUP (Z.lor EPOLLRDHUP EPOLLERR)) =? 0) = negb (Z.testbit w 3 || Z.testbit w 4 || Z.testbit w 13)).
  { rewrite !Z.land_lor_distr_r. replace (Z.lor (Z.land w EPOLLHUP) (Z.lor (Z.land w EPOLLRDHUP) (Z.land w EPOLLERR)) =? 0) with ((Z.land w (2 ^ 4) =? 0) && ((Z.land w (2 ^ 13) =? 0) && (Z.land w (2 ^ 3) =? 0))).
    - rewrite !land_bit by lia. destruct (Z.testbit w 3), (Z.testbit w 4), (Z.testbit w 13); reflexivity.
    - change (2 ^ 4) with EPOLLHUP. change (2 ^ 13) with EPOLLRDHUP. change (2 ^ 3) with EPOLLERR.
      destruct (Z.eqb_spec (Z.lor (Z.land w EPOLLHUP) (Z.lor (Z.land w EPOLLRDHUP) (Z.land w EPOLLERR))) 0) as [E|E].
      + apply Z.lor_eq_0_iff in E as [E1 E]. apply Z.lor_eq_0_iff in E as [E2 E3]. rewrite E1, E2, E3. reflexivity.
      + destruct (Z.eqb_spec (Z.land w EPOLLHUP) 0) as [E1|E1]; [|reflexivity]. destruct (Z.eqb_spec (Z.land w EPOLLRDHUP) 0) as [E2|E2]; [|reflexivity].
        destruct (Z.eqb_spec (Z.land w EPOLLERR) 0) as [E3|E3]; [|reflexivity]. destruct E. rewrite E1, E2, E3. reflexivity. }
  rewrite B, negb_involutive. change EPOLLIN with (2 ^ 0). change EPOLLOUT with (2 ^ 2). rewrite !land_bit by lia.
  destruct (Z.testbit w 3 || Z.testbit w 4 || Z.testbit w 13); rewrite ?orb_true_r, ?orb_false_r; [reflexivity|]. destruct (Z.testbit w 0), (Z.testbit w 2); reflexivity.
Qed.
Print Assumptions poll_event_mapping.
Example poll_event_mapping_ex : poll_event 1 = SREAD /\ poll_event 5 = 3 /\ poll_event 8192 = 3 /\ poll_event 2 = 0.
Proof. repeat split. Qed.

(** sc_sock_poll_wait is repeated while interrupted and returns the count, or -1 with a text; without a poller it fails at once. *)
Theorem poll_wait_result : forall (pre rest : list (Z + Z)) (x : Z + Z), Forall (fun p => p = inr EINTR) pre -> x <> inr EINTR ->
  poll_wait true (pre ++ x :: rest) = Ok (match x with inl n => (n, false) | inr _ => (-1, true) end) /\ (forall l, poll_wait false l = Ok (-1, true)).
Proof.
  intros pre rest x Hp Hx. split; [|reflexivity]. unfold poll_wait. cbn [negb]. induction Hp as [|p pre Ep _ IH].
  - destruct x as [n|e]; cbn [app wait_loop]; [reflexivity|]. destruct (Z.eqb_spec e EINTR); [subst; contradiction|reflexivity].
  - subst p. exact IH.
Qed.
Print Assumptions poll_wait_result.
Example poll_wait_result_ex : Forall (fun p : Z + Z => p = inr EINTR) [inr EINTR] /\ poll_wait true [inr EINTR; inl 3] = Ok (3, false).
Proof. split; [repeat constructor|reflexivity]. Qed.

(** ** C87: resources of the poller and the pipe *)

(** The memory blocks (counted) and descriptors held after the calls; none if something not held is given back. *)
Fixpoint holding (n : Z) (o : list Z) (l : list pact) : option (Z * list Z) :=
  match l with
  | [] => Some (n, o)
  | PAlloc :: r => holding (n + 1) o r
  | PFree :: r => if 0 <? n then holding (n - 1) o r else None
  | POpen f :: r => if existsb (Z.eqb f) o then None else holding n (f :: o) r
  | PClose f :: r => if existsb (Z.eqb f) o then holding n (remove Z.eq_dec f o) r else None
  end.
(** After sc_sock_poll_init the poller holds one block and one descriptor, or nothing when it failed; sc_sock_poll_term, called once or
    more, in either case leaves nothing held and gives nothing back twice. *)
Theorem poll_resources : forall (mem : bool) (cr : Z + Z) (e1 e2 : Z), handed cr ->
  let '(p, l, rc) := poll_init mem cr in let '(p1, l1, rc1) := poll_term p e1 in let '(p2, l2, rc2) := poll_term p1 e2 in
  (rc = 0 <-> (mem = true /\ exists f, cr = inl f)) /\
  (rc = 0 -> holding 0 [] l = Some (1, [pfds p])) /\ (rc <> 0 -> holding 0 [] l = Some (0, []) /\ rc = -1) /\
  holding 0 [] (l ++ l1) = Some (0, []) /\ l2 = [] /\ rc2 = 0 /\ p2 = p1.
Proof.
  intros mem cr e1 e2 Hc. destruct mem, cr as [f|e]; cbv -[Z.eqb Z.eq_dec iff not].
  - rewrite Z.eqb_refl. destruct (Z.eq_dec f f); [|contradiction]. split; [split; eauto|]. split; [reflexivity|]. split; [intro K; destruct K; reflexivity|]. repeat split.
  - split; [split; [discriminate|intros [_ [f E]]; discriminate]|]. split; [discriminate|]. split; [split; reflexivity|]. repeat split.
  - split; [split; [discriminate|intros [E _]; discriminate]|]. split; [discriminate|]. repeat split.
  - split; [split; [discriminate|intros [E _]; discriminate]|]. split; [discriminate|]. repeat split.
Qed.
Print Assumptions poll_resources.
Example poll_resources_ex : handed (inl 4) /\ poll_init true (inl 4) = (mk_poll 4 true, [PAlloc; POpen 4], 0) /\ poll_init true (inr 24) = (mk_poll (-1) false, [PAlloc; PFree], -1).
Proof. split; [intros f E; injection E as <-; lia|]. split; reflexivity. Qed.
(** The same for the pipe and its two descriptors; polling goes to its reading end. *)
Theorem pipe_resources : forall (type : Z) (a : (Z * Z) + Z) (e1 e2 e3 e4 : Z), (forall r w, a = inl (r, w) -> 0 <= r /\ 0 <= w /\ r <> w) ->
  let '(p, l, rc) := pipe_init type a in let '(p1, l1, rc1) := pipe_term p e1 e2 in let '(p2, l2, rc2) := pipe_term p1 e3 e4 in
  (rc = 0 -> holding 0 [] l = Some (0, [wend p; rend p]) /\ tfd (pfdt p) = rend p /\ top (pfdt p) = 0 /\ ptype p = type) /\
  (rc <> 0 -> rc = -1 /\ holding 0 [] l = Some (0, [])) /\
  holding 0 [] (l ++ l1) = Some (0, []) /\ l2 = [] /\ rc2 = 0 /\ p2 = p1 /\ (rc = 0 -> (rc1 = 0 <-> (e1 = 0 /\ e2 = 0))).
Proof.
  intros type [[r w]|e] e1 e2 e3 e4 Hd.
  - destruct (Hd r w eq_refl) as (D1 & D2 & D3). cbn [pipe_init]. unfold pipe_term. cbn [rend wend pfdt ptype]. unfold INVALID. replace (r =? -1) with false by lia.
    change (-1 =? -1) with true. cbn [rend wend pfdt ptype]. cbv zeta iota. cbn [holding existsb app remove]. replace (w =? r) with false by lia. cbn [orb]. rewrite !Z.eqb_refl.
    replace (r =? w) with false by lia. cbn [orb]. destruct (Z.eq_dec r w); [contradiction|]. destruct (Z.eq_dec r r); [|contradiction]. cbn [remove existsb]. rewrite Z.eqb_refl. cbn [orb remove]. destruct (Z.eq_dec w w); [|contradiction].
    split; [intros _; repeat split|]. split; [intro K; destruct K; reflexivity|]. repeat (split; [reflexivity|]). intros _. destruct (Z.eqb_spec e1 0), (Z.eqb_spec e2 0); split; intros; auto; try discriminate; lia.
  - vm_compute. repeat split; discriminate.
Qed.
Print Assumptions pipe_resources.
Example pipe_resources_ex : let '(p, l, rc) := pipe_init 7 (inl (4, 5)) in l = [POpen 4; POpen 5] /\ rc = 0 /\ fst (pipe_term p 0 9) = (mk_pipe (-1) (-1) (mk_fdt 4 0) 7, [PClose 4; PClose 5]) /\ snd (pipe_term p 0 9) = -1.
Proof. vm_compute. repeat split. Qed.
(** After a failed initialisation the structure to be given to the poller names descriptor 0, which belongs to
    someone else: sc_sock_poll_add registers it. *)
Theorem pipe_failed_refuted : exists (e : Z) (k : kernel), let '(p, _, rc) := pipe_init 7 (inr e) in
  rc = -1 /\ k 0 = None /\ let '(k', _, rc', _) := poll_add k (pfdt p) SREAD 1 0 in rc' = 0 /\ k' 0 <> None.
Proof. exists 24, (fun _ => None). vm_compute. repeat split. discriminate. Qed.
Print Assumptions pipe_failed_refuted.
(** Reading from and writing to the pipe is repeated while interrupted. *)
Theorem pipe_transfer : forall (pre rest : list (Z + Z)) (x : Z + Z), Forall (fun p => p = inr EINTR) pre -> x <> inr EINTR ->
  pipe_io (pre ++ x :: rest) = Ok (match x with inl n => n | inr _ => -1 end).
Proof.
  intros pre rest x Hp Hx. induction Hp as [|p pre Ep _ IH].
  - destruct x as [n|e]; cbn [app pipe_io]; [reflexivity|]. destruct (Z.eqb_spec e EINTR); [subst; contradiction|reflexivity].
  - subst p. exact IH.
Qed.
Print Assumptions pipe_transfer.
Example pipe_transfer_ex : Forall (fun p : Z + Z => p = inr EINTR) [inr EINTR] /\ pipe_io [inr EINTR; inl 3] = Ok 3 /\ pipe_io [inr 11] = Ok (-1).
Proof. split; [repeat constructor|split; reflexivity]. Qed.

(** ** C88: registration with kqueue *)

(** A call and which of its changes the system accepts. *)
Inductive kcmd := QAdd (ev data : Z) (ok : list bool) | QDel (ev data : Z) (ok : list bool).
Definition kcmd_ev (c : kcmd) : Z := match c with QAdd ev _ _ | QDel ev _ _ => ev end.
Definition kcmd_acc (c : kcmd) : list bool := match c with QAdd _ _ ok | QDel _ _ ok => ok end.
Definition kapply (k : filters) (t : fdt) (c : kcmd) : filters * fdt * Z * list Z :=
  match c with QAdd ev d ok => kq_add k t ev d ok | QDel ev d ok => kq_del k t ev d ok end.
Fixpoint khistory (k : filters) (t : fdt) (l : list kcmd) : filters * fdt * list Z :=
  match l with
  | [] => (k, t, [])
  | c :: l => let '(k, t, rc, _) := kapply k t c in let '(k, t, rcs) := khistory k t l in (k, t, rc :: rcs)
  end.
(** A call the system refuses, it refuses from the start. *)
Definition whole (c : kcmd) : Prop := hd true (kcmd_acc c) = false \/ Forall (fun b => b = true) (kcmd_acc c).
Definition ktarget (m : Z) (c : kcmd) : Z := match c with QAdd ev _ _ => settle (Z.lor m ev) | QDel ev _ _ => settle (Z.ldiff m ev) end.
Definition kwant (m : Z) (c : kcmd) : Z := if hd true (kcmd_acc c) then ktarget m c else m.
Definition kresult (m : Z) (c : kcmd) : Z := if negb (ktarget m c =? m) && negb (hd true (kcmd_acc c)) then -1 else 0.
Fixpoint kresults (m : Z) (l : list kcmd) : list Z := match l with [] => [] | c :: l => kresult m c :: kresults (kwant m c) l end.
(** The filters registered for a mask, and how (EV_CLEAR for edge-triggered). *)
Definition kmode (r : option (bool * Z)) : option bool := option_map fst r.
Definition kreg (m : Z) (k : filters) : Prop :=
  kmode (f_read k) = (if Z.testbit m 0 then Some (Z.testbit m 2) else None) /\ kmode (f_write k) = (if Z.testbit m 1 then Some (Z.testbit m 2) else None).
Lemma kapply_ok k t c : mask_ok (top t) -> 0 <= kcmd_ev c < 8 -> whole c -> kreg (top t) k ->
  exists k' sn, kapply k t c = (k', mk_fdt (tfd t) (kwant (top t) c), kresult (top t) c, sn) /\ kreg (kwant (top t) c) k' /\ mask_ok (kwant (top t) c).
Proof.
  destruct t as [f m], k as [r w]. cbn [top tfd]. intros [Hm Hn] He Hw [K1 K2]. cbn [f_read f_write] in K1, K2.
  destruct c as [ev d ok|ev d ok]; cbn [kcmd_ev] in He; unfold whole in Hw; cbn [kcmd_acc] in Hw; unfold kwant, kresult; cbn [kcmd_acc ktarget kapply].
  all: assert (Hw' : hd true ok = false \/ (hd true ok = true /\ hd true (tl ok) = true)) by
    (destruct Hw as [Hw|Hw]; [now left|right]; destruct Hw as [|b l Hb Hl]; [now split|]; split; [exact Hb|]; cbn [tl]; destruct Hl; [reflexivity|assumption]).
  all: clear Hw; each8 Hm; subst m; try lia; each8 He; subst ev; unfold kq_add, kq_del; cbn [top tfd];
    cbv [settle SEDGE SREAD SWRITE Z.lor Z.land Z.lnot Z.ldiff Z.eqb Z.pred Z.opp Z.add Z.pos_sub Z.succ_double Z.pred_double Z.double Pos.eqb Pos.lor Pos.land Pos.ldiff Pos.pred_double Pos.pred_N N.ldiff Pos.Nsucc_double Pos.Ndouble Z.of_N Pos.add Pos.succ negb andb app];
    cbn [kevent]; destruct Hw' as [A|[A B]]; rewrite ?A, ?B;
    destruct r as [[? ?]|]; destruct w as [[? ?]|]; try discriminate K1; try discriminate K2; cbn in K1, K2; cbn [kchange f_read f_write]; rewrite ?B;
    do 2 eexists; (split; [reflexivity|]); (split; [split; cbn; congruence|split; [lia|discriminate]]).
Qed.
(** After any history of calls in which a refused call is refused from its first change on: the recorded mask is the
    specified one, exactly its filters are registered, in the mode it says, and a call fails exactly when it was refused a needed
    change. *)
Theorem kq_registration_partial : forall (f : Z) (l : list kcmd), Forall (fun c => 0 <= kcmd_ev c < 8 /\ whole c) l ->
  exists k' t', khistory (mk_filters None None) (mk_fdt f 0) l = (k', t', kresults 0 l) /\ tfd t' = f /\ top t' = fold_left kwant l 0 /\ kreg (top t') k'.
Proof.
  intros f l Hl. assert (G : forall m k, mask_ok m -> kreg m k -> exists k' t', khistory k (mk_fdt f m) l = (k', t', kresults m l) /\ tfd t' = f /\ top t' = fold_left kwant l m /\ kreg (top t') k').
  { induction Hl as [|c l [H1 H2] _ IH]; intros m k Hm Hk.
    - do 2 eexists. split; [reflexivity|]. repeat (split; [reflexivity|]). exact Hk.
    - cbn [khistory kresults fold_left]. destruct (kapply_ok k (mk_fdt f m) c Hm H1 H2 Hk) as (k1 & sn & E & K1 & M1). rewrite E. cbn [top tfd] in *.
      destruct (IH _ _ M1 K1) as (k2 & t2 & E2 & T2). rewrite E2. exists k2, t2. split; [reflexivity|exact T2]. }
  apply (G 0); [split; [lia|discriminate]|split; reflexivity].
Qed.
Print Assumptions kq_registration_partial.
Example kq_registration_partial_ex :
  let l := [QAdd 7 1 []; QDel 1 2 [false; true]; QDel 5 3 [true; true]] in
  Forall (fun c => 0 <= kcmd_ev c < 8 /\ whole c) l /\ khistory (mk_filters None None) (mk_fdt 5 0) l = (mk_filters None (Some (false, 3)), mk_fdt 5 2, [0; -1; 0]).
Proof. cbv zeta. split; [|reflexivity]. apply Forall_cons; [split; [cbn; lia|right; constructor]|]. apply Forall_cons; [split; [cbn; lia|left; reflexivity]|]. apply Forall_cons; [split; [cbn; lia|right; repeat constructor]|constructor]. Qed.
(** What sc_sock_poll_event makes of an event of a filter that is registered then: readable or writable as asked for by the mask;
    both, asked for or not, once the other side is gone. *)
Theorem kq_events : forall (f : Z) (l : list kcmd), Forall (fun c => 0 <= kcmd_ev c < 8 /\ whole c) l ->
  let '(k, t, _) := khistory (mk_filters None None) (mk_fdt f 0) l in
  (f_read k <> None -> kq_event false true = SREAD /\ Z.testbit (top t) 0 = true) /\
  (f_write k <> None -> kq_event false false = SWRITE /\ Z.testbit (top t) 1 = true) /\
  (forall rd, kq_event true rd = SREAD + SWRITE).
Proof.
  intros f l Hl. destruct (kq_registration_partial f l Hl) as (k & t & -> & _ & _ & K1 & K2).
  split; [|split]; [intro N; split; [reflexivity|]..|reflexivity].
  - destruct (f_read k) as [[? ?]|]; [|congruence]. destruct (Z.testbit (top t) 0); [reflexivity|discriminate K1].
  - destruct (f_write k) as [[? ?]|]; [|congruence]. destruct (Z.testbit (top t) 1); [reflexivity|discriminate K2].
Qed.
Print Assumptions kq_events.
Example kq_events_ex : let l := [QAdd 1 1 []] in Forall (fun c => 0 <= kcmd_ev c < 8 /\ whole c) l /\ f_read (fst (fst (khistory (mk_filters None None) (mk_fdt 5 0) l))) = Some (false, 1) /\
  kq_event true true = 3.
Proof. split; [apply Forall_cons; [split; [cbn; lia|right; constructor]|constructor]|split; reflexivity]. Qed.
(** When the second of two changes is refused, the first stays: the mask is rolled back, the kernel is not. *)
Theorem kq_registration_refuted : exists (t : fdt) (ev d : Z) (ok : list bool), top t = 0 /\
  let '(k, t', rc, _) := kq_add (mk_filters None None) t ev d ok in rc = -1 /\ top t' = 0 /\ f_write k = Some (false, d).
Proof. exists (mk_fdt 5 0), 3, 1, [true; false]. vm_compute. repeat split. Qed.
Print Assumptions kq_registration_refuted.
