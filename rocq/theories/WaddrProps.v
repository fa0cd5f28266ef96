(** Properties C165 and C166: would-block told apart from failure, on POSIX and Windows; listening and connecting by address on Windows. *)
From Verif Require Import Base CStr CNum IniModel SockModel SockSpec SockProofs SockProps SockFallProps WaddrModel.
From Coq Require Import ZifyBool.

(** ** C166: listening and connecting by address on Windows *)

(** The addresses of the family [fam], or of another one, with their positions. *)
Fixpoint wnumbered (own : bool) (fam : Z) (i : Z) (l : list wentry) : list (Z * wentry) :=
  match l with
  | [] => []
  | p :: r => (if Bool.eqb own (w_family p =? fam) then [(i, p)] else []) ++ wnumbered own fam (i + 1) r
  end.
(** The order in which addresses are to be tried. *)
Definition wcandidates (fam : Z) (l : list wentry) : list (Z * wentry) := wnumbered true fam 0 l ++ wnumbered false fam 0 l.
Definition wentries_ok (l : list wentry) : Prop := Forall (fun p => handed (w_socket p)) l.
(** The errors of connect for a connection under way. *)
Definition wunder_way (e : Z) : Prop := e = WSAEINPROGRESS \/ e = WSAEWOULDBLOCK.
(** An address no connection could be started to. *)
Definition wrefused (block : bool) (p : wentry) : Prop :=
  (exists e, w_socket p = inr e) \/ (w_connect p <> 0 /\ (block = true \/ ~ wunder_way (w_connect p))).
Definition wsetup_ok (p : wentry) : Prop := w_ioctl p = 0 /\ w_reuse p = 0 /\ w_nodelay p = 0.

(** The proofs: a run on Windows is a run on POSIX with other numbers. *)
Definition rf (f : Z) : Z := if f =? W_INET6 then AF_INET6 else if f =? AF_INET6 then W_INET6 else f.
Definition rc_ (e : Z) : Z := if e =? WSAEWOULDBLOCK then EAGAIN else if e =? WSAEINPROGRESS then EINPROGRESS else if (e =? EAGAIN) || (e =? EINPROGRESS) then 1 else e.
Definition pa (a : act) : act := match a with Flags f m => Flags f (if m =? 0 then 0 else 2048) | _ => a end.
Definition pe (p : wentry) : entry :=
  mk_entry (rf (w_family p)) (w_addr p) (w_socket p) (w_v6 p) (mk_fcntls (inl 0) (w_ioctl p)) (w_reuse p) (w_nodelay p) (w_bind p) (w_src p) (rc_ (w_connect p)) (w_closed p).
Definition rs (fm : bool) (s p : sock) : Prop :=
  fd p = fd s /\ op p = op s /\ typ p = typ s /\ blocking p = blocking s /\ family p = rf (family s) /\ (fm = true -> (SockModel.text s = NoText <-> SockModel.text p = NoText)).
Definition ra (w0 p0 : list act) (y : wsys) (yp : sys) : Prop := exists tr, wacts y = w0 ++ tr /\ acts yp = p0 ++ map pa tr.
Definition sim (fm : bool) (w0 p0 : list act) {A} (a : sock * wsys * A) (b : sock * sys * A) : Prop :=
  rs fm (fst (fst a)) (fst (fst b)) /\ ra w0 p0 (snd (fst a)) (snd (fst b)) /\ snd a = snd b.

Lemma rf_eqb a b : (rf a =? rf b) = (a =? b).
Proof. unfold rf, W_INET6, AF_INET6. destruct (Z.eqb_spec a 23), (Z.eqb_spec a 10), (Z.eqb_spec b 23), (Z.eqb_spec b 10); lia. Qed.
Lemma rf_inet6 a : (rf a =? AF_INET6) = (a =? W_INET6).
Proof. exact (rf_eqb a W_INET6). Qed.
Lemma rf_unix a : rf a = AF_UNIX -> a = AF_UNIX.
Proof. unfold rf, W_INET6, AF_INET6, AF_UNIX. destruct (Z.eqb_spec a 23), (Z.eqb_spec a 10); lia. Qed.
Lemma rc_zero e : (rc_ e =? 0) = (e =? 0).
Proof. unfold rc_, WSAEWOULDBLOCK, WSAEINPROGRESS, EAGAIN, EINPROGRESS. destruct (Z.eqb_spec e 10035), (Z.eqb_spec e 10036), (Z.eqb_spec e 11), (Z.eqb_spec e 115); cbn [orb]; lia. Qed.
Lemma rc_way e : (rc_ e =? EINPROGRESS) || (rc_ e =? EAGAIN) = (e =? WSAEINPROGRESS) || (e =? WSAEWOULDBLOCK).
Proof. unfold rc_, WSAEWOULDBLOCK, WSAEINPROGRESS, EAGAIN, EINPROGRESS. destruct (Z.eqb_spec e 10035), (Z.eqb_spec e 10036), (Z.eqb_spec e 11), (Z.eqb_spec e 115); cbn [orb]; lia. Qed.

Lemma ra_did w0 p0 y yp a : ra w0 p0 y yp -> ra w0 p0 (wdid y a) (did yp (pa a)).
Proof. intros (tr & A & B). exists (tr ++ [a]). cbn [wdid did wacts acts]. rewrite A, B, map_app, <- !app_assoc. split; reflexivity. Qed.
Lemma ra_fails w0 p0 y yp e e' : ra w0 p0 y yp -> ra w0 p0 (wfails y e) (fails yp e').
Proof. exact (fun H => H). Qed.
Lemma rs_errstr fm s p y yp g : rs fm s p -> rs fm (w_errstr fm s y) (errstr p yp g).
Proof.
  intros (A & B & C & D & E & F). unfold w_errstr, errstr. destruct fm; (split; [exact A|]); (split; [exact B|]); (split; [exact C|]); (split; [exact D|]); (split; [exact E|]); intro H; [|discriminate].
  cbn. destruct (g =? 0); split; discriminate.
Qed.
Lemma rs_fd fm s p f : rs fm s p -> rs fm (with_fd s f) (with_fd p f).
Proof. intros (A & B & C & D & E & F). split; [reflexivity|]. auto. Qed.
Lemma rs_fam fm s p f : rs fm s p -> rs fm (with_family s f) (with_family p (rf f)).
Proof. intros (A & B & C & D & E & F). split; [exact A|]. split; [exact B|]. split; [exact C|]. split; [exact D|]. split; [reflexivity|exact F]. Qed.
Lemma sim_close fm w0 p0 s p y yp e : rs fm s p -> ra w0 p0 y yp -> sim fm w0 p0 (w_close s y e) (sock_close p yp e).
Proof.
  intros R A. unfold w_close, sock_close. replace (fd p) with (fd s) by (symmetry; apply R). destruct (fd s =? INVALID); [split; [exact R|split; [exact A|reflexivity]]|].
  split; [apply rs_fd, R|]. split; [|reflexivity]. cbn [fst snd]. destruct (e =? 0); [exact (ra_did _ _ _ _ (Closed (fd s)) A)|apply ra_fails; exact (ra_did _ _ _ _ (Closed (fd s)) A)].
Qed.
Lemma sim_mode fm w0 p0 s p y yp e : rs fm s p -> ra w0 p0 y yp ->
  ra w0 p0 (fst (w_set_blocking s y (blocking s) e)) (fst (set_blocking p yp (blocking p) (mk_fcntls (inl 0) e))) /\
  snd (w_set_blocking s y (blocking s) e) = snd (set_blocking p yp (blocking p) (mk_fcntls (inl 0) e)).
Proof.
  intros R A. unfold w_set_blocking, set_blocking. cbn [getfl setfl]. destruct (e =? 0); [|split; [exact A|reflexivity]]. split; [|reflexivity]. cbn [fst].
  replace (fd p) with (fd s) by (symmetry; apply R). replace (blocking p) with (blocking s) by (symmetry; apply R).
  pose proof (ra_did _ _ _ _ (Flags (fd s) (if blocking s then 0 else 1)) A) as Q. cbn [pa] in Q. destruct (blocking s); exact Q.
Qed.
Lemma sim_bind_error fm w0 p0 s p y yp ec : rs fm s p -> ra w0 p0 y yp -> sim fm w0 p0 (w_bind_error fm s y ec) (bind_error p yp ec).
Proof.
  intros R A. unfold w_bind_error, bind_error. pose proof (sim_close fm w0 p0 _ _ y yp ec (rs_errstr fm s p y yp 0 R) A) as Q.
  destruct (w_close (w_errstr fm s y) y ec) as [[s1 y1] r1], (sock_close (errstr p yp 0) yp ec) as [[p1 z1] q1]. destruct Q as (Q1 & Q2 & _).
  split; [exact Q1|]. split; [exact (ra_did _ _ _ _ FreeList Q2)|reflexivity].
Qed.
Lemma sim_bind_loop fm w0 p0 l : forall s p y yp i ec, rs fm s p -> ra w0 p0 y yp -> sim fm w0 p0 (w_bind_loop fm s y i l ec) (bind_loop p yp i (map pe l) ec).
Proof.
  induction l as [|x l IH]; intros s p y yp i ec R A; cbn [w_bind_loop bind_loop map]; [now apply sim_bind_error|].
  pose proof (ra_did _ _ _ _ (Tried i) A) as A1. cbn [pa] in A1. cbn [pe e_socket]. destruct (w_socket x) as [f|e]; [|apply IH; [exact R|exact A1]].
  pose proof (ra_did _ _ _ _ (Opened f) A1) as A2. cbn [pa] in A2. pose proof (rs_fd fm s p f R) as R2.
  set (s2 := with_fd s f) in *. set (p2 := with_fd p f) in *. set (y2 := wdid (wdid y (Tried i)) (Opened f)) in *. set (z2 := did (did yp (Tried i)) (Opened f)) in *.
  replace (family p2 =? AF_INET6) with (family s2 =? W_INET6) by (replace (family p2) with (rf (family s2)) by (symmetry; apply R2); symmetry; apply rf_inet6).
  cbn [e_v6 pe]. destruct ((family s2 =? W_INET6) && negb (w_v6 x =? 0)); [apply sim_bind_error; [exact R2|apply ra_fails, A2]|].
  assert (A3 : ra w0 p0 (if family s2 =? W_INET6 then wdid y2 (Option f V6ONLY) else y2) (if family s2 =? W_INET6 then did z2 (Option f V6ONLY) else z2)).
  { destruct (family s2 =? W_INET6); [exact (ra_did _ _ _ _ (Option f V6ONLY) A2)|exact A2]. }
  set (y3 := if family s2 =? W_INET6 then wdid y2 (Option f V6ONLY) else y2) in *. set (z3 := if family s2 =? W_INET6 then did z2 (Option f V6ONLY) else z2) in *.
  cbn [e_fcntl e_reuse e_nodelay e_bind e_addr pe]. destruct (sim_mode fm w0 p0 s2 p2 y3 z3 (w_ioctl x) R2 A3) as [M1 M2].
  destruct (w_set_blocking s2 y3 (blocking s2) (w_ioctl x)) as [y4 r4], (set_blocking p2 z3 (blocking p2) (mk_fcntls (inl 0) (w_ioctl x))) as [z4 q4]. cbn [fst snd] in M1, M2. subst q4.
  destruct (negb (r4 =? 0)); [now apply sim_bind_error|]. destruct (negb (w_reuse x =? 0)); [apply sim_bind_error; [exact R2|apply ra_fails, M1]|].
  pose proof (ra_did _ _ _ _ (Option f REUSEADDR) M1) as A5. cbn [pa] in A5. destruct (negb (w_nodelay x =? 0)); [apply sim_bind_error; [exact R2|apply ra_fails, A5]|].
  pose proof (ra_did _ _ _ _ (Option f NODELAY) A5) as A6. cbn [pa] in A6. destruct (negb (w_bind x =? 0)); [apply sim_bind_error; [exact R2|apply ra_fails, A6]|].
  split; [exact R2|]. split; [|reflexivity]. exact (ra_did _ _ _ _ FreeList (ra_did _ _ _ _ (Bound f (w_addr x)) A6)).
Qed.
Lemma sim_listen fm w0 p0 s p y yp host a : rs fm s p -> ra w0 p0 y yp -> family s <> AF_UNIX ->
  exists b, sock_listen p yp host (mk_listens (match wl_gai a with inl rc => inl rc | inr l => inr (map pe l) end) (inr 1) 0 0 (wl_close a) (wl_listen a) (wl_close2 a)) = Ok b /\
    sim fm w0 p0 (w_listen fm s y a) b.
Proof.
  intros R A F. unfold sock_listen, sock_bind, w_listen. cbn [l_gai l_close l_listen l_close2 family with_text].
  replace (family p =? AF_UNIX) with false by (replace (family p) with (rf (family s)) by (symmetry; apply R); symmetry; apply Z.eqb_neq; intro H; apply F, rf_unix, H).
  assert (R0 : rs fm (with_text s NoText) (with_text p NoText)) by (destruct R as (H1 & H2 & H3 & H4 & H5 & _); repeat (split; [assumption|]); tauto).
  destruct (wl_gai a) as [rc|l].
  - eexists. cbn [bind Z.eqb negb]. split; [reflexivity|]. split; [apply rs_errstr, R0|]. split; [exact A|reflexivity].
  - pose proof (sim_bind_loop fm w0 p0 l _ _ _ _ 0 (wl_close a) R0 (ra_did _ _ _ _ Resolved A)) as Q. cbn [pa] in Q.
    destruct (w_bind_loop fm (with_text s NoText) (wdid y Resolved) 0 l (wl_close a)) as [[s1 y1] r1], (bind_loop (with_text p NoText) (did yp Resolved) 0 (map pe l) (wl_close a)) as [[p1 z1] q1].
    destruct Q as (Q1 & Q2 & Q3). cbn [fst snd] in Q1, Q2, Q3. subst q1. cbn [bind]. destruct (negb (r1 =? 0)); [eexists; split; [reflexivity|]; split; [exact Q1|split; [exact Q2|reflexivity]]|].
    destruct (wl_listen a =? 0).
    + eexists. split; [reflexivity|]. split; [exact Q1|]. split; [|reflexivity]. replace (fd p1) with (fd s1) by (symmetry; apply Q1). exact (ra_did _ _ _ _ (Listening (fd s1)) Q2).
    + pose proof (sim_close fm w0 p0 _ _ (wfails y1 (wl_listen a)) (fails z1 (wl_listen a)) (wl_close2 a) (rs_errstr fm s1 p1 (wfails y1 (wl_listen a)) (fails z1 (wl_listen a)) 0 Q1) (ra_fails _ _ _ _ _ _ Q2)) as Q.
      destruct (w_close (w_errstr fm s1 (wfails y1 (wl_listen a))) (wfails y1 (wl_listen a)) (wl_close2 a)) as [[s2 y2] r2], (sock_close (errstr p1 (fails z1 (wl_listen a)) 0) (fails z1 (wl_listen a)) (wl_close2 a)) as [[p2 z2] q2].
      destruct Q as (P1 & P2 & _). eexists. split; [reflexivity|]. split; [exact P1|split; [exact P2|reflexivity]].
Qed.
Lemma sim_src_loop w0 p0 s p l : fd p = fd s -> forall y yp rc, ra w0 p0 y yp ->
  ra w0 p0 (fst (w_src_loop s y rc l)) (fst (src_loop p yp rc l)) /\ snd (w_src_loop s y rc l) = snd (src_loop p yp rc l).
Proof.
  intro F. induction l as [|e l IH]; intros y yp rc A; cbn [w_src_loop src_loop]; [split; [exact A|reflexivity]|].
  destruct (e =? 0); [|apply IH; exact A]. split; [|reflexivity]. rewrite F. exact (ra_did _ _ _ _ (Bound (fd s) []) A).
Qed.
Lemma sim_bind_src fm w0 p0 s p y yp a : rs fm s p -> ra w0 p0 y yp -> sim fm w0 p0 (w_bind_src fm s y a) (bind_src p yp a).
Proof.
  intros R A. unfold w_bind_src, bind_src. destruct a as [rc|l]; [split; [apply rs_errstr, R|split; [exact A|reflexivity]]|].
  destruct (sim_src_loop w0 p0 s p l (proj1 R) (wdid y Resolved) (did yp Resolved) 0 (ra_did _ _ _ _ Resolved A)) as [Q1 Q2].
  destruct (w_src_loop s (wdid y Resolved) 0 l) as [y1 r1], (src_loop p (did yp Resolved) 0 l) as [z1 q1]. cbn [fst snd] in Q1, Q2. subst q1.
  pose proof (ra_did _ _ _ _ FreeList Q1) as Q. destruct (r1 =? -1); [split; [apply rs_errstr, R|]|split; [exact R|]]; (split; [exact Q|reflexivity]).
Qed.
Lemma sim_round fm w0 p0 first fam src l : forall s p y yp i, rs fm s p -> ra w0 p0 y yp ->
  sim fm w0 p0 (w_connect_round fm s y first fam src i l) (connect_round p yp first (rf fam) src i (map pe l)) /\
  (snd (w_connect_round fm s y first fam src i l) = End (-1) -> werr (snd (fst (w_connect_round fm s y first fam src i l))) = EAGAIN).
Proof.
  induction l as [|x l IH]; intros s p y yp i R A; cbn [w_connect_round connect_round map].
  - split; [|discriminate]. split; [exact R|split; [exact A|reflexivity]].
  - cbn [e_family pe]. rewrite rf_eqb. destruct (xorb first (w_family x =? fam)); [apply IH; assumption|].
    pose proof (ra_did _ _ _ _ (Tried i) A) as A1. cbn [pa] in A1. cbn [pe e_socket]. destruct (w_socket x) as [f|e]; [|apply IH; [exact R|exact A1]].
    pose proof (ra_did _ _ _ _ (Opened f) A1) as A2. cbn [pa] in A2. pose proof (rs_fd fm _ _ f (rs_fam fm s p (w_family x) R)) as R2.
    set (s2 := with_fd (with_family s (w_family x)) f) in *. set (p2 := with_fd (with_family p (rf (w_family x))) f) in *. set (y2 := wdid (wdid y (Tried i)) (Opened f)) in *. set (z2 := did (did yp (Tried i)) (Opened f)) in *.
    cbn [e_fcntl e_reuse e_nodelay e_src e_addr e_connect e_close pe]. destruct (sim_mode fm w0 p0 s2 p2 y2 z2 (w_ioctl x) R2 A2) as [M1 M2].
    destruct (w_set_blocking s2 y2 (blocking s2) (w_ioctl x)) as [y4 r4], (set_blocking p2 z2 (blocking p2) (mk_fcntls (inl 0) (w_ioctl x))) as [z4 q4]. cbn [fst snd] in M1, M2. subst q4.
    assert (ER : forall y0 z0 x0, ra w0 p0 y0 z0 -> x0 <> End (-1) -> sim fm w0 p0 (s2, y0, x0) (p2, z0, x0) /\ (x0 = End (-1) -> werr y0 = EAGAIN)).
    { intros y0 z0 x0 H1 H2. split; [split; [exact R2|split; [exact H1|reflexivity]]|contradiction]. }
    destruct (negb (r4 =? 0)); [apply ER; [exact M1|discriminate]|]. destruct (negb (w_reuse x =? 0)); [apply ER; [apply ra_fails, M1|discriminate]|].
    pose proof (ra_did _ _ _ _ (Option f REUSEADDR) M1) as A5. cbn [pa] in A5. destruct (negb (w_nodelay x =? 0)); [apply ER; [apply ra_fails, A5|discriminate]|].
    pose proof (ra_did _ _ _ _ (Option f NODELAY) A5) as A6. cbn [pa] in A6. clear ER.
    assert (B : sim fm w0 p0 (if src then w_bind_src fm s2 (wdid (wdid y4 (Option f REUSEADDR)) (Option f NODELAY)) (w_src x) else (s2, wdid (wdid y4 (Option f REUSEADDR)) (Option f NODELAY), 0))
                             (if src then bind_src p2 (did (did z4 (Option f REUSEADDR)) (Option f NODELAY)) (w_src x) else (p2, did (did z4 (Option f REUSEADDR)) (Option f NODELAY), 0))).
    { destruct src; [now apply sim_bind_src|split; [exact R2|split; [exact A6|reflexivity]]]. }
    destruct (if src then w_bind_src fm s2 _ (w_src x) else _) as [[s7 y7] r7], (if src then bind_src p2 _ (w_src x) else _) as [[p7 z7] q7]. destruct B as (B1 & B2 & B3). cbn [fst snd] in B1, B2, B3. subst q7.
    destruct (negb (r7 =? 0)); [split; [|discriminate]; split; [exact B1|split; [exact B2|reflexivity]]|].
    rewrite rc_zero. destruct (negb (w_connect x =? 0)).
    + cbn [wlast wfails errno fails]. rewrite rc_way. replace (blocking p7) with (blocking s7) by (symmetry; apply B1).
      destruct (negb (blocking s7) && ((w_connect x =? WSAEINPROGRESS) || (w_connect x =? WSAEWOULDBLOCK))).
      * split; [|reflexivity]. split; [exact B1|]. split; [|reflexivity]. exact (ra_did _ _ _ _ (Connected f (w_addr x)) B2).
      * pose proof (sim_close fm w0 p0 s7 p7 (wfails y7 (w_connect x)) (fails z7 (rc_ (w_connect x))) (w_closed x) B1 (ra_fails _ _ _ _ _ _ B2)) as Q.
        destruct (w_close s7 (wfails y7 (w_connect x)) (w_closed x)) as [[s8 y8] r8], (sock_close p7 (fails z7 (rc_ (w_connect x))) (w_closed x)) as [[p8 z8] q8]. destruct Q as (Q1 & Q2 & _). apply IH; assumption.
    + split; [|discriminate]. split; [exact B1|]. split; [|reflexivity]. exact (ra_did _ _ _ _ (Connected f (w_addr x)) B2).
Qed.
Lemma sim_end fm w0 p0 s p y yp x ec : rs fm s p -> ra w0 p0 y yp -> sim fm w0 p0 (w_connect_end fm s y x ec) (connect_end p yp x ec).
Proof.
  intros R A. unfold w_connect_end, connect_end.
  assert (C : forall s0 p1, rs fm s0 p1 -> sim fm w0 p0 (let '(s, y, _) := w_close s0 y ec in (s, wdid y FreeList, -1)) (let '(s, y, _) := sock_close p1 yp ec in (s, did y FreeList, -1))).
  { intros s0 p1 R0. pose proof (sim_close fm w0 p0 s0 p1 y yp ec R0 A) as Q. destruct (w_close s0 y ec) as [[s1 y1] r1], (sock_close p1 yp ec) as [[p2 z1] q1]. destruct Q as (Q1 & Q2 & _).
    split; [exact Q1|]. split; [exact (ra_did _ _ _ _ FreeList Q2)|reflexivity]. }
  destruct x; [apply C, rs_errstr, R|apply C, rs_errstr, R|apply C, R|]. split; [exact R|]. split; [exact (ra_did _ _ _ _ FreeList A)|reflexivity].
Qed.
(** errno on Windows: set to EAGAIN when a connection is under way, not touched otherwise. *)
Lemma werr_close s y e : werr (snd (fst (w_close s y e))) = werr y /\ fd (fst (fst (w_close s y e))) = INVALID.
Proof. unfold w_close. destruct (Z.eqb_spec (fd s) INVALID) as [E|E]; [split; [reflexivity|exact E]|]. cbn. destruct (e =? 0); split; reflexivity. Qed.
Lemma werr_mode s y b e : werr (fst (w_set_blocking s y b e)) = werr y.
Proof. unfold w_set_blocking. destruct (e =? 0); reflexivity. Qed.
Lemma werr_src s l : forall y rc, werr (fst (w_src_loop s y rc l)) = werr y.
Proof. induction l as [|e l IH]; intros y rc; cbn [w_src_loop]; [reflexivity|]. destruct (e =? 0); [reflexivity|]. rewrite IH. reflexivity. Qed.
Lemma werr_bind_src fm s y a : werr (snd (fst (w_bind_src fm s y a))) = werr y.
Proof.
  unfold w_bind_src. destruct a as [rc|l]; [reflexivity|]. pose proof (werr_src s l (wdid y Resolved) 0) as Q. destruct (w_src_loop s (wdid y Resolved) 0 l) as [y1 r1]. cbn [fst] in Q.
  destruct (r1 =? -1); exact Q.
Qed.
Lemma werr_round fm first fam src l : forall s y i, let '(_, y', x) := w_connect_round fm s y first fam src i l in x <> End (-1) -> werr y' = werr y.
Proof.
  induction l as [|p l IH]; intros s y i; cbn [w_connect_round]; [reflexivity|].
  destruct (xorb first (w_family p =? fam)); [apply IH|]. destruct (w_socket p) as [f|e]; [|exact (IH s (wfails (wdid y (Tried i)) e) (i + 1))].
  set (s2 := with_fd (with_family s (w_family p)) f). pose proof (werr_mode s2 (wdid (wdid y (Tried i)) (Opened f)) (blocking s2) (w_ioctl p)) as M.
  destruct (w_set_blocking s2 (wdid (wdid y (Tried i)) (Opened f)) (blocking s2) (w_ioctl p)) as [y1 r1]. cbn [fst] in M. change (werr (wdid (wdid y (Tried i)) (Opened f))) with (werr y) in M.
  destruct (negb (r1 =? 0)); [intros _; exact M|]. destruct (negb (w_reuse p =? 0)); [intros _; exact M|]. destruct (negb (w_nodelay p =? 0)); [intros _; exact M|].
  set (y3 := wdid (wdid y1 (Option f REUSEADDR)) (Option f NODELAY)).
  assert (B : werr (snd (fst (if src then w_bind_src fm s2 y3 (w_src p) else (s2, y3, 0)))) = werr y) by (destruct src; [rewrite werr_bind_src|]; exact M).
  destruct (if src then w_bind_src fm s2 y3 (w_src p) else (s2, y3, 0)) as [[s4 y4] r4]. cbn [fst snd] in B.
  destruct (negb (r4 =? 0)); [intros _; exact B|]. destruct (negb (w_connect p =? 0)); [|intros _; exact B].
  destruct (negb (blocking s4) && _); [intro H; contradiction|].
  pose proof (werr_close s4 (wfails y4 (w_connect p)) (w_closed p)) as [C _]. destruct (w_close s4 (wfails y4 (w_connect p)) (w_closed p)) as [[s5 y5] r5]. cbn [fst snd] in C.
  change (werr (wfails y4 (w_connect p))) with (werr y4) in C. specialize (IH s5 y5 (i + 1)). destruct (w_connect_round fm s5 y5 first fam src (i + 1) l) as [[s6 y6] x6].
  intro H. rewrite (IH H), C. exact B.
Qed.
Lemma werr_end fm s y x ec : let '(s', y', rc) := w_connect_end fm s y x ec in
  werr y' = werr y /\ match x with End rv => rc = rv /\ fd s' = fd s | _ => rc = -1 /\ fd s' = INVALID end.
Proof.
  unfold w_connect_end. destruct x; [| | |cbn; auto].
  - destruct (werr_close (w_errstr fm s y) y ec) as [A B]. destruct (w_close (w_errstr fm s y) y ec) as [[s1 y1] r1]. cbn in *. auto.
  - destruct (werr_close (w_errstr fm s y) y ec) as [A B]. destruct (w_close (w_errstr fm s y) y ec) as [[s1 y1] r1]. cbn in *. auto.
  - destruct (werr_close s y ec) as [A B]. destruct (w_close s y ec) as [[s1 y1] r1]. cbn in *. auto.
Qed.
Lemma round_exits first fam src l : forall s y i rv, snd (connect_round s y first fam src i l) = End rv -> rv = 0 \/ rv = -1.
Proof.
  induction l as [|p l IH]; intros s y i rv; cbn [connect_round]; [discriminate|].
  destruct (xorb first (e_family p =? fam)); [apply IH|]. destruct (e_socket p) as [f|e]; [|apply IH].
  destruct (set_blocking _ _ _ _) as [y1 r1]. destruct (negb (r1 =? 0)); [discriminate|]. destruct (negb (e_reuse p =? 0)); [discriminate|]. destruct (negb (e_nodelay p =? 0)); [discriminate|].
  destruct (if src then _ else _) as [[s4 y4] r4]. destruct (negb (r4 =? 0)); [discriminate|]. destruct (negb (e_connect p =? 0)); [|intro H; injection H as <-; now left].
  destruct (negb (blocking s4) && _); [intro H; injection H as <-; now right|]. destruct (sock_close _ _ _) as [[s5 y5] r5]. apply IH.
Qed.

Definition pconnects (g : Z + list wentry) (ec : Z) : connects := mk_connects (inr 1) 0 0 (match g with inl rc => inl rc | inr l => inr (map pe l) end) ec.
Lemma fd_bind_src fm s y a : fd (fst (fst (w_bind_src fm s y a))) = fd s.
Proof.
  unfold w_bind_src, w_errstr. destruct a as [rc|l]; [destruct fm; reflexivity|]. destruct (w_src_loop s (wdid y Resolved) 0 l) as [y1 r1]. destruct (r1 =? -1), fm; reflexivity.
Qed.
Lemma fd_round fm first fam src l : forall s y i, wentries_ok l -> let '(s', _, x) := w_connect_round fm s y first fam src i l in forall rv, x = End rv -> 0 <= fd s'.
Proof.
  induction l as [|p l IH]; intros s y i H; cbn [w_connect_round]; [discriminate|]. inversion H as [|? ? H1 H2]; subst.
  destruct (xorb first (w_family p =? fam)); [now apply IH|]. destruct (w_socket p) as [f|e] eqn:E; [|now apply IH]. specialize (H1 f eq_refl).
  set (s2 := with_fd (with_family s (w_family p)) f).
  destruct (w_set_blocking _ _ _ _) as [y1 r1]. destruct (negb (r1 =? 0)); [discriminate|]. destruct (negb (w_reuse p =? 0)); [discriminate|]. destruct (negb (w_nodelay p =? 0)); [discriminate|].
  set (y3 := wdid (wdid y1 (Option f REUSEADDR)) (Option f NODELAY)).
  assert (B : fd (fst (fst (if src then w_bind_src fm s2 y3 (w_src p) else (s2, y3, 0)))) = f) by (destruct src; [rewrite fd_bind_src|]; reflexivity).
  destruct (if src then w_bind_src fm s2 y3 (w_src p) else (s2, y3, 0)) as [[s4 y4] r4]. cbn [fst] in B.
  destruct (negb (r4 =? 0)); [discriminate|]. destruct (negb (w_connect p =? 0)); [|intros rv _; lia].
  destruct (negb (blocking s4) && _); [intros rv _; lia|]. destruct (w_close _ _ _) as [[s5 y5] r5]. now apply IH.
Qed.
Lemma sim_connect fm w0 p0 s p y yp dst src g ec : rs fm s p -> ra w0 p0 y yp -> family s <> AF_UNIX -> fd s = -1 -> (forall l, g = inr l -> wentries_ok l) ->
  exists b, sock_connect p yp dst src (pconnects g ec) = Ok b /\ sim fm w0 p0 (w_sock_connect fm s y src g ec) b /\
    let '(s', y', rc) := w_sock_connect fm s y src g ec in
    (rc = -1 /\ fd s' <> -1 -> werr y' = EAGAIN) /\ (rc = 0 \/ fd s' = -1 -> werr y' = werr y).
Proof.
  intros R A F Hfd Hok. unfold sock_connect, w_sock_connect, pconnects. cbn [c_gai c_close].
  assert (Fp : family p = rf (family s)) by apply R.
  replace (family p =? AF_UNIX) with false by (rewrite Fp; symmetry; apply Z.eqb_neq; intro H; apply F, rf_unix, H).
  destruct g as [rc|l].
  - eexists. split; [reflexivity|]. split; [split; [apply rs_errstr, R|split; [exact A|reflexivity]]|]. split; [|reflexivity].
    intros [_ H]. exfalso. apply H. unfold w_errstr. destruct fm; exact Hfd.
  - specialize (Hok l eq_refl). rewrite Fp.
    destruct (sim_round fm w0 p0 true (family s) src l s p (wdid y Resolved) (did yp Resolved) 0 R (ra_did _ _ _ _ Resolved A)) as [S1 E1].
    pose proof (werr_round fm true (family s) src l s (wdid y Resolved) 0) as W1. pose proof (fd_round fm true (family s) src l s (wdid y Resolved) 0 Hok) as D1.
    destruct (w_connect_round fm s (wdid y Resolved) true (family s) src 0 l) as [[s1 y1] x1]. cbn [fst snd] in E1. change (werr (wdid y Resolved)) with (werr y) in W1.
    pose proof (round_exits true (rf (family s)) src (map pe l) p (did yp Resolved) 0) as X1.
    destruct (connect_round p (did yp Resolved) true (rf (family s)) src 0 (map pe l)) as [[p1 z1] q1]. destruct S1 as (R1 & A1 & Q1). cbn [fst snd] in R1, A1, Q1, X1. subst q1.
    assert (EN : forall s0 p1 y0 z0 x, rs fm s0 p1 -> ra w0 p0 y0 z0 -> (x <> End (-1) -> werr y0 = werr y) -> (x = End (-1) -> werr y0 = EAGAIN) -> (forall rv, x = End rv -> 0 <= fd s0) -> (forall rv, x = End rv -> rv = 0 \/ rv = -1) ->
      exists b, Ok (connect_end p1 z0 x ec) = Ok b /\ sim fm w0 p0 (w_connect_end fm s0 y0 x ec) b /\
      let '(s', y', rc) := w_connect_end fm s0 y0 x ec in (rc = -1 /\ fd s' <> -1 -> werr y' = EAGAIN) /\ (rc = 0 \/ fd s' = -1 -> werr y' = werr y)).
    { intros s0 p2 y0 z0 x R0 A0 W0 E0 D0 X0. eexists. split; [reflexivity|]. split; [now apply sim_end|]. pose proof (werr_end fm s0 y0 x ec) as W. destruct (w_connect_end fm s0 y0 x ec) as [[s' y'] rc].
      destruct W as [W V]. rewrite W. destruct x as [| | |rv]; [| | |].
      1-3: destruct V as [-> V]; (split; [intros [_ H]; contradiction|]); intros _; apply W0; discriminate.
      destruct V as [-> V]. specialize (D0 rv eq_refl). split; [intros [-> _]; auto|]. intros [-> | H]; [apply W0; discriminate|]. lia. }
    destruct x1.
    + destruct (sim_round fm w0 p0 false (family s) src l s1 p1 y1 z1 0 R1 A1) as [S2 E2].
      pose proof (werr_round fm false (family s) src l s1 y1 0) as W2. pose proof (fd_round fm false (family s) src l s1 y1 0 Hok) as D2.
      destruct (w_connect_round fm s1 y1 false (family s) src 0 l) as [[s2 y2] x2]. cbn [fst snd] in E2.
      pose proof (round_exits false (rf (family s)) src (map pe l) p1 z1 0) as X2.
      destruct (connect_round p1 z1 false (rf (family s)) src 0 (map pe l)) as [[p2 z2] q2]. destruct S2 as (R2 & A2 & Q2). cbn [fst snd] in R2, A2, Q2, X2. subst q2.
      apply EN; [exact R2|exact A2| |exact E2|exact D2|exact X2]. intro H. rewrite (W2 H). apply W1. discriminate.
    + apply EN; [exact R1|exact A1|exact W1|exact E1|exact D1|exact X1].
    + apply EN; [exact R1|exact A1|exact W1|exact E1|exact D1|exact X1].
    + apply EN; [exact R1|exact A1|exact W1|exact E1|exact D1|exact X1].
Qed.

Lemma live_pa l : forall o, live o (map pa l) = live o l.
Proof. induction l as [|a l IH]; intro o; [reflexivity|]. cbn [map]. destruct a; cbn [pa live]; rewrite ?IH; try reflexivity; destruct (existsb _ o); auto. Qed.
Lemma held_pa l : forall n, held n (map pa l) = held n l.
Proof. induction l as [|a l IH]; intro n; [reflexivity|]. cbn [map]. destruct a; cbn [pa held]; rewrite ?IH; try reflexivity; destruct (0 <? n); auto. Qed.
Lemma tried_pa l : tried (map pa l) = tried l.
Proof. induction l as [|a l IH]; [reflexivity|]. cbn [map]. destruct a; cbn [pa tried]; rewrite ?IH; reflexivity. Qed.
Lemma in_pa a l : (forall f m, a <> Flags f m) -> In a (map pa l) -> In a l.
Proof. intros H I. apply in_map_iff in I as (b & E & I). destruct b; cbn [pa] in E; subst a; try exact I. exfalso. eapply H. reflexivity. Qed.
Lemma entries_pe l : wentries_ok l -> entries_ok (map pe l).
Proof. intro H. unfold entries_ok. apply Forall_map. exact H. Qed.
Lemma numbered_pe own fam l : forall i, numbered own (rf fam) i (map pe l) = map (fun q => (fst q, pe (snd q))) (wnumbered own fam i l).
Proof. induction l as [|p l IH]; intro i; [reflexivity|]. cbn [map numbered wnumbered]. rewrite IH, map_app. f_equal. cbn [e_family pe]. rewrite rf_eqb. destruct (Bool.eqb own (w_family p =? fam)); reflexivity. Qed.
Lemma refused_pe b p : refused b (pe p) -> wrefused b p.
Proof.
  intros [(e & H)|[H1 H2]]; [left; exists e; exact H|right]. cbn [e_connect pe] in *. split; [intro E; apply H1; pose proof (rc_zero (w_connect p)); lia|].
  destruct H2 as [H2|H2]; [now left|right]. intro U. apply H2. pose proof (rc_way (w_connect p)) as W. unfold wunder_way, under_way in *. lia.
Qed.
Lemma rc_zero_inv e : rc_ e = 0 -> e = 0.
Proof. pose proof (rc_zero e). lia. Qed.
Lemma rc_way_inv e : under_way (rc_ e) -> wunder_way e.
Proof. pose proof (rc_way e). unfold wunder_way, under_way. lia. Qed.
Lemma setup_pe p : wsetup_ok p -> setup_ok (pe p).
Proof. intros (A & B & C). split; [exists 0; reflexivity|]. cbn. auto. Qed.
Definition posix_of (s : sock) : sock := mk_sock (fd s) (op s) (typ s) (blocking s) (rf (family s)) (SockModel.text s).
Lemma posix_rs fm s : rs fm s (posix_of s).
Proof. repeat (split; [reflexivity|]). intros _. reflexivity. Qed.
Lemma posix_ra y : ra (wacts y) (map pa (wacts y)) y (mk_sys (map pa (wacts y)) 0).
Proof. exists []. cbn. now rewrite !app_nil_r. Qed.

(** C166: listening by address on Windows holds exactly the descriptor it listens with, or nothing; the address list is released once. *)
Theorem waddr_listen : forall (fm : bool) (s : sock) (y : wsys) (a : wlistens),
  fd s = -1 -> family s <> AF_UNIX -> (forall l, wl_gai a = inr l -> wentries_ok l) -> (forall rc, wl_gai a = inl rc -> rc <> 0) ->
  exists s' y' rc tr, w_listen fm s y a = (s', y', rc) /\ wacts y' = wacts y ++ tr /\ held 0 tr = Some 0 /\
    ((rc = 0 /\ 0 <= fd s' /\ live [] tr = Some [fd s'] /\ In (Listening (fd s')) tr) \/
     (rc = -1 /\ fd s' = -1 /\ live [] tr = Some [] /\ (fm = true -> SockModel.text s' <> NoText))).
Proof.
  intros fm s y a H1 H2 H3 H4.
  destruct (sim_listen fm _ _ s (posix_of s) y _ ([] ++ 0 :: []) a (posix_rs fm s) (posix_ra y) H2) as ([[p' z'] q] & E & R & (tr & A1 & A2) & Q).
  match type of E with sock_listen _ _ _ ?la = _ => set (la0 := la) in * end.
  destruct (sock_listen_resources (posix_of s) (mk_sys (map pa (wacts y)) 0) [] [] la0) as (s2 & y2 & rc2 & tr2 & E2 & T & L & D).
  - exact H1.
  - intros [].
  - intros f Hf. discriminate.
  - intros l Hl. unfold la0 in Hl. cbn [l_gai] in Hl. destruct (wl_gai a) as [rc|l0]; [discriminate|]. injection Hl as <-. now apply entries_pe, H3.
  - intros rc Hr. unfold la0 in Hr. cbn [l_gai] in Hr. destruct (wl_gai a) as [rc0|l0]; [|discriminate]. injection Hr as <-. now apply H4.
  - rewrite E in E2. injection E2 as <- <- <-. cbn [fst snd acts] in *. rewrite A2 in T. apply app_inv_head in T. subst tr2. rewrite held_pa in L. rewrite live_pa in D.
    destruct (w_listen fm s y a) as [[s' y'] rc]. cbn [fst snd] in *. subst q. destruct R as (Rf & _ & _ & _ & _ & Rt). rewrite Rf in D.
    exists s', y', rc, tr. split; [reflexivity|]. split; [exact A1|]. split; [exact L|]. destruct D as [(D1 & D2 & D3 & D4)|(D1 & D2 & D3 & D4)].
    + left. repeat (split; [assumption|]). apply in_pa; [discriminate|exact D4].
    + right. repeat (split; [assumption|]). intros Hm K. apply D4. apply (Rt Hm). exact K.
Qed.
Print Assumptions waddr_listen.
(** Two addresses: no socket for the first, bind fails for the second; then with bind succeeding. *)
Example waddr_listen_ex :
  let s := sock_init 0 true W_INET6 in
  let l b := [mk_wentry W_INET6 [97] (inr 10024) 0 0 0 0 0 (inl 0) 0 0; mk_wentry W_INET6 [98] (inl 5) 0 0 0 0 b (inl 0) 0 0] in
  fd s = -1 /\ family s <> AF_UNIX /\ wentries_ok (l 0) /\
  (let '(s', y', rc) := w_listen true s (mk_wsys [] 0 0) (mk_wlistens (inr (l 10048)) 0 0 0) in rc = -1 /\ fd s' = -1 /\ live [] (wacts y') = Some [] /\ SockModel.text s' = Sys 10048) /\
  (let '(s', y', rc) := w_listen true s (mk_wsys [] 0 0) (mk_wlistens (inr (l 0)) 0 0 0) in rc = 0 /\ fd s' = 5 /\ live [] (wacts y') = Some [5] /\ In (Listening 5) (wacts y')).
Proof.
  repeat split; try (vm_compute; congruence); [|vm_compute; tauto]. repeat constructor; intros f E; cbn in E; try discriminate; injection E as <-; lia.
Qed.

(** C166: connecting by address on Windows: the addresses are tried in the order given, those of the socket's family first, each at most
    once, up to the first that does not refuse; exactly that descriptor is left open, and nothing if all refuse.  errno is EAGAIN if the
    connection is under way and not touched otherwise. *)
Theorem waddr_connect : forall (fm : bool) (s : sock) (y : wsys) (src : bool) (l : list wentry) (ec : Z),
  fd s = -1 -> family s <> AF_UNIX -> wentries_ok l ->
  exists s' y' rc tr dn rest, w_sock_connect fm s y src (inr l) ec = (s', y', rc) /\ wacts y' = wacts y ++ tr /\ held 0 tr = Some 0 /\
    dn ++ rest = wcandidates (family s) l /\ tried tr = map fst dn /\
    ((exists d k p, 0 <= fd s' /\ live [] tr = Some [fd s'] /\ dn = d ++ [(k, p)] /\ Forall (fun q => wrefused (blocking s) (snd q)) d /\
        In (Connected (fd s') (w_addr p)) tr /\ family s' = w_family p /\
        (rc = 0 /\ w_connect p = 0 /\ werr y' = werr y \/ rc = -1 /\ blocking s = false /\ wunder_way (w_connect p) /\ werr y' = EAGAIN)) \/
     (rc = -1 /\ fd s' = -1 /\ live [] tr = Some [] /\ werr y' = werr y /\ (fm = true -> SockModel.text s' <> NoText) /\
        (src = false -> Forall wsetup_ok l -> rest = [] /\ Forall (fun q => wrefused (blocking s) (snd q)) dn))).
Proof.
  intros fm s y src l ec H1 H2 H3.
  assert (F2 : family (posix_of s) <> AF_UNIX) by (intro K; apply H2, rf_unix, K).
  destruct (sim_connect fm _ _ s (posix_of s) y _ ([] ++ 0 :: []) src (inr l) ec (posix_rs fm s) (posix_ra y) H2 H1) as ([[p' z'] q] & E & (R & (tr & A1 & A2) & Q) & W);
    [intros l0 E0; injection E0 as <-; exact H3|].
  destruct (sock_connect_resources (posix_of s) (mk_sys (map pa (wacts y)) 0) [] [] src (pconnects (inr l) ec)) as (s2 & y2 & rc2 & tr2 & E2 & T & L & D).
  { exact H1. } { intros []. } { intros f Hf. discriminate. } { intros l0 Hl. injection Hl as <-. now apply entries_pe. } { discriminate. }
  rewrite E in E2. injection E2 as <- <- <-. cbn [fst snd acts] in *. rewrite A2 in T. apply app_inv_head in T. subst tr2. rewrite held_pa in L. rewrite !live_pa in D.
  destruct (sock_connect_order (posix_of s) (mk_sys (map pa (wacts y)) 0) ([] ++ 0 :: []) src (pconnects (inr l) ec) (map pe l) H1 F2 eq_refl (entries_pe l H3))
    as (s3 & y3 & rc3 & tr3 & dn & rest & E3 & T & C & Tr & O1 & O2).
  rewrite E in E3. injection E3 as <- <- <-. cbn [acts] in *. rewrite A2 in T. apply app_inv_head in T. subst tr3. rewrite tried_pa in Tr.
  destruct (w_sock_connect fm s y src (inr l) ec) as [[s' y'] rc]. cbn [fst snd] in *. subst q. destruct R as (Rf & _ & _ & Rb & Rfa & Rt). rewrite Rf in *. destruct W as [W1 W2].
  assert (C' : map (fun q => (fst q, pe (snd q))) (wcandidates (family s) l) = dn ++ rest).
  { rewrite C. unfold candidates, wcandidates. cbn [family posix_of]. rewrite !numbered_pe, map_app. reflexivity. }
  apply map_eq_app in C' as (dn' & rest' & C1 & <- & <-). exists s', y', rc, tr, dn', rest'. split; [reflexivity|]. split; [exact A1|]. split; [exact L|]. split; [now symmetry|].
  split; [rewrite Tr, map_map; reflexivity|].
  assert (RF : forall d, Forall (fun q : Z * entry => refused (blocking s) (snd q)) (map (fun q : Z * wentry => (fst q, pe (snd q))) d) -> Forall (fun q : Z * wentry => wrefused (blocking s) (snd q)) d).
  { intros d H. rewrite Forall_forall in *. intros q K. apply refused_pe, (H (fst q, pe (snd q))). apply in_map_iff. exists q. auto. }
  destruct (Z.eq_dec (fd s') (-1)) as [N|N].
  - right. specialize (O2 N). destruct O2 as [-> O2]. destruct D as [(D & _)|[(_ & _ & D3 & D4)|(_ & _ & _ & D & _)]]; [discriminate| |lia].
    split; [reflexivity|]. split; [exact N|]. split; [exact D3|]. split; [apply W2; now right|]. split; [intros Hm K; apply D4, (Rt Hm), K|].
    intros Hs Hu. destruct (O2 Hs) as [O3 O4]; [apply Forall_map; eapply Forall_impl; [|exact Hu]; exact setup_pe|]. split; [now apply map_eq_nil in O3|apply RF, O4].
  - left. destruct (O1 N) as (d & k & p & Ed & D1 & D2 & D3 & D4).
    apply map_eq_app in Ed as (d' & last & -> & <- & Ed).
    destruct last as [|[k' p2] [|? ?]]; try discriminate. cbn [map fst snd] in Ed. injection Ed as <- <-.
    exists d', k', p2. cbn [e_addr e_family e_connect pe blocking posix_of] in *.
    assert (FF : family s' = w_family p2) by (apply Z.eqb_eq; rewrite <- rf_eqb; apply Z.eqb_eq; now rewrite <- Rfa).
    assert (LV : 0 <= fd s' /\ live [] tr = Some [fd s']) by (destruct D as [(_ & D5 & D6 & _)|[(_ & D & _)|(_ & _ & _ & D5 & D6 & _)]]; [auto|contradiction|auto]). destruct LV as [D5 D6].
    split; [exact D5|]. split; [exact D6|]. split; [reflexivity|]. split; [apply RF, D1|]. split; [apply in_pa; [discriminate|exact D2]|]. split; [exact FF|].
    destruct D4 as [(-> & D4)|(-> & D4 & D7)]; [left|right].
    + split; [reflexivity|]. split; [exact (rc_zero_inv _ D4)|apply W2; now left].
    + split; [reflexivity|]. split; [exact D4|]. split; [exact (rc_way_inv _ D7)|apply W1; auto].
Qed.
Print Assumptions waddr_connect.
(** IPv6 preferred: the first address's socket cannot be had, the connection to the second is refused, the one to the third is under way. *)
Example waddr_connect_ex :
  let e f a sk c := mk_wentry f a sk 0 0 0 0 0 (inl 0) c 0 in
  let l := [e AF_INET [97] (inl 5) 10061; e W_INET6 [98] (inr 10024) 0; e AF_INET [99] (inl 6) WSAEWOULDBLOCK; e AF_INET [100] (inl 7) 0] in
  let s := sock_init 0 false W_INET6 in
  fd s = -1 /\ family s <> AF_UNIX /\ wentries_ok l /\ map fst (wcandidates (family s) l) = [1; 0; 2; 3] /\
  let '(s', y', rc) := w_sock_connect true s (mk_wsys [] 0 0) false (inr l) 0 in
  rc = -1 /\ fd s' = 6 /\ werr y' = EAGAIN /\ tried (wacts y') = [1; 0; 2] /\ live [] (wacts y') = Some [6].
Proof.
  repeat split; try (vm_compute; congruence). repeat constructor; intros f E; cbn in E; try discriminate; injection E as <-; lia.
Qed.

(** ** C166: the mode, and accepting *)
Lemma flags_pa f l : forall o, flags_of f (map pa l) (option_map (fun m => if m =? 0 then 0 else 2048) o) = option_map (fun m => if m =? 0 then 0 else 2048) (flags_of f l o).
Proof.
  induction l as [|a l IH]; intro o; [reflexivity|]. cbn [map]. destruct a; cbn [pa flags_of]; try apply IH.
  - match goal with |- context [if ?b then None else _] => destruct b end; [apply (IH None)|apply IH].
  - match goal with |- context [if ?b then Some ?x else o] => destruct b; [apply (IH (Some x))|apply IH] end.
Qed.
Lemma mode_pa f tr b fl : flags_of f (map pa tr) None = Some fl -> mode_ok b fl -> exists m, flags_of f tr None = Some m /\ (m = 0 <-> b = true).
Proof.
  intros E M. pose proof (flags_pa f tr None) as Q. cbn [option_map] in Q. rewrite E in Q. destruct (flags_of f tr None) as [m|]; [|discriminate]. cbn [option_map] in Q. injection Q as ->.
  exists m. split; [reflexivity|]. unfold mode_ok in M. destruct (Z.eqb_spec m 0) as [Hm|Hm]; destruct b; vm_compute in M; split; intro; try congruence; try discriminate; auto.
Qed.
(** The socket a call returns with has the mode asked for: ioctlsocket(FIONBIO) was last called with 0 if it is to block, with another
    number if not. *)
Theorem waddr_mode : forall (fm : bool) (s : sock) (y : wsys), fd s = -1 -> family s <> AF_UNIX ->
  (forall a, (forall l, wl_gai a = inr l -> wentries_ok l) -> (forall rc, wl_gai a = inl rc -> rc <> 0) ->
     exists s' y' rc tr, w_listen fm s y a = (s', y', rc) /\ wacts y' = wacts y ++ tr /\ blocking s' = blocking s /\
       (rc = 0 -> exists m, flags_of (fd s') tr None = Some m /\ (m = 0 <-> blocking s = true))) /\
  (forall src l ec, wentries_ok l ->
     exists s' y' rc tr, w_sock_connect fm s y src (inr l) ec = (s', y', rc) /\ wacts y' = wacts y ++ tr /\ blocking s' = blocking s /\
       (fd s' <> -1 -> exists m, flags_of (fd s') tr None = Some m /\ (m = 0 <-> blocking s = true))).
Proof.
  intros fm s y H1 H2. assert (F2 : family (posix_of s) <> AF_UNIX) by (intro K; apply H2, rf_unix, K). destruct sock_mode_partial as (P1 & P2 & _). split.
  - intros a H3 H4.
    destruct (sim_listen fm _ _ s (posix_of s) y _ ([] ++ 0 :: []) a (posix_rs fm s) (posix_ra y) H2) as ([[p' z'] q] & E & R & (tr & A1 & A2) & Q).
    match type of E with sock_listen _ _ _ ?la = _ => set (la0 := la) in * end.
    destruct (P1 (posix_of s) (mk_sys (map pa (wacts y)) 0) [] [] la0) as (s2 & y2 & rc2 & tr2 & E2 & T & B & M).
    { exact H1. } { exact F2. } { intros []. } { intros f Hf. discriminate. }
    { intros l Hl. unfold la0 in Hl. cbn [l_gai] in Hl. destruct (wl_gai a) as [rc|l0]; [discriminate|]. injection Hl as <-. now apply entries_pe, H3. }
    { intros rc Hr. unfold la0 in Hr. cbn [l_gai] in Hr. destruct (wl_gai a) as [rc0|l0]; [|discriminate]. injection Hr as <-. now apply H4. }
    rewrite E in E2. injection E2 as <- <- <-. cbn [fst snd acts] in *. rewrite A2 in T. apply app_inv_head in T. subst tr2.
    destruct (w_listen fm s y a) as [[s' y'] rc]. cbn [fst snd] in *. subst q. destruct R as (Rf & _ & _ & Rb & _). rewrite Rf in M. rewrite Rb in B.
    exists s', y', rc, tr. split; [reflexivity|]. split; [exact A1|]. split; [exact B|]. intro K. destruct (M K) as (fl & M1 & M2). exact (mode_pa _ _ _ _ M1 M2).
  - intros src l ec H3.
    destruct (sim_connect fm _ _ s (posix_of s) y _ ([] ++ 0 :: []) src (inr l) ec (posix_rs fm s) (posix_ra y) H2 H1) as ([[p' z'] q] & E & (R & (tr & A1 & A2) & Q) & _);
      [intros l0 E0; injection E0 as <-; exact H3|].
    destruct (P2 (posix_of s) (mk_sys (map pa (wacts y)) 0) ([] ++ 0 :: []) src (pconnects (inr l) ec) (map pe l) H1 F2 eq_refl (entries_pe l H3)) as (s2 & y2 & rc2 & tr2 & E2 & T & B & M).
    rewrite E in E2. injection E2 as <- <- <-. cbn [fst snd acts] in *. rewrite A2 in T. apply app_inv_head in T. subst tr2.
    destruct (w_sock_connect fm s y src (inr l) ec) as [[s' y'] rc]. cbn [fst snd] in *. subst q. destruct R as (Rf & _ & _ & Rb & _). rewrite Rf in M. rewrite Rb in B.
    exists s', y', rc, tr. split; [reflexivity|]. split; [exact A1|]. split; [exact B|]. intro K. destruct (M K) as (fl & M1 & M2). exact (mode_pa _ _ _ _ M1 M2).
Qed.
Print Assumptions waddr_mode.
Example waddr_mode_ex :
  let l := [mk_wentry AF_INET [97] (inl 5) 0 0 0 0 0 (inl 0) 0 0] in
  wentries_ok l /\
  (let '(s', y', rc) := w_listen true (sock_init 0 false AF_INET) (mk_wsys [] 0 0) (mk_wlistens (inr l) 0 0 0) in rc = 0 /\ flags_of (fd s') (wacts y') None = Some 1) /\
  (let '(s', y', rc) := w_sock_connect true (sock_init 0 true AF_INET) (mk_wsys [] 0 0) false (inr l) 0 in fd s' = 5 /\ flags_of (fd s') (wacts y') None = Some 0).
Proof. split; [repeat constructor; intros f E; injection E as <-; lia|]. vm_compute. auto. Qed.

(** A connection is accepted with the listening socket's family and mode, or it is closed again; the listening socket stays as it is. *)
Theorem waddr_accept : forall (fm : bool) (s n : sock) (y : wsys) (ac : Z + Z) (nd io el : Z),
  handed ac -> fd n = -1 ->
  exists s' n' y' rc tr, w_accept fm s n y ac nd io el = (s', n', y', rc) /\ wacts y' = wacts y ++ tr /\ fd s' = fd s /\
    ((rc = 0 /\ ac = inl (fd n') /\ live [] tr = Some [fd n'] /\ op n' = 0 /\ family n' = family s /\
      exists m, flags_of (fd n') tr None = Some m /\ (m = 0 <-> blocking s = true)) \/
     (rc = -1 /\ fd n' = -1 /\ live [] tr = Some [] /\ (blocking s = false /\ ac = inr WSAEWOULDBLOCK /\ s' = s \/ (fm = true -> SockModel.text s' <> NoText)))).
Proof.
  intros fm s n y ac nd io el H1 H2. unfold w_accept. destruct ac as [f|e].
  - specialize (H1 f eq_refl).
    set (n1 := mk_sock f 0 (typ n) (blocking n) (family s) (SockModel.text n)).
    assert (CL : forall y1, exists n2 y2 r2, w_close n1 y1 el = (n2, y2, r2) /\ fd n2 = -1 /\ wacts y2 = wacts y1 ++ [Closed f]).
    { intro y1. unfold w_close. replace (fd n1 =? INVALID) with false by (unfold INVALID; cbn; lia). do 3 eexists. split; [reflexivity|]. split; [reflexivity|]. destruct (el =? 0); reflexivity. }
    assert (TX : forall y1, fd (w_errstr fm s y1) = fd s /\ (fm = true -> SockModel.text (w_errstr fm s y1) <> NoText)) by (intro y1; unfold w_errstr; destruct fm; cbn; split; try reflexivity; discriminate).
    assert (ER : forall y1 tr, wacts y1 = wacts y ++ tr -> live [] (tr ++ [Closed f]) = Some [] ->
      exists s' n' y' rc tr', (let s0 := w_errstr fm s y1 in let '(n0, y0, _) := w_close n1 y1 el in (s0, n0, y0, -1)) = (s', n', y', rc) /\ wacts y' = wacts y ++ tr' /\ fd s' = fd s /\
      ((rc = 0 /\ @inl Z Z f = inl (fd n') /\ live [] tr' = Some [fd n'] /\ op n' = 0 /\ family n' = family s /\ exists m, flags_of (fd n') tr' None = Some m /\ (m = 0 <-> blocking s = true)) \/
       (rc = -1 /\ fd n' = -1 /\ live [] tr' = Some [] /\ (blocking s = false /\ @inl Z Z f = inr WSAEWOULDBLOCK /\ s' = s \/ (fm = true -> SockModel.text s' <> NoText))))).
    { intros y1 tr A L. destruct (CL y1) as (n2 & y2 & r2 & -> & D1 & D2). exists (w_errstr fm s y1), n2, y2, (-1), (tr ++ [Closed f]). split; [reflexivity|].
      split; [rewrite D2, A, app_assoc; reflexivity|]. split; [apply TX|]. right. split; [reflexivity|]. split; [exact D1|]. split; [exact L|]. right. apply TX. }
    assert (LC : forall mid, (forall g, ~ In (Opened g) mid) -> (forall g, ~ In (Closed g) mid) -> live [] (Opened f :: mid ++ [Closed f]) = Some [] /\ live [] (Opened f :: mid) = Some [f]).
    { intros mid N1 N2. cbn [live]. assert (Q : forall t, live [f] (mid ++ t) = live [f] t).
      { induction mid as [|a mid IH]; intro t; [reflexivity|]. cbn [app]. destruct a; cbn [live];
          try (apply IH; [intros g K; eapply N1; right; exact K|intros g K; eapply N2; right; exact K]).
        - exfalso. eapply N1. now left.
        - exfalso. eapply N2. now left. }
      split; [rewrite Q; cbn; rewrite Z.eqb_refl; destruct (Z.eq_dec f f); [reflexivity|contradiction]|]. specialize (Q []). rewrite app_nil_r in Q. exact Q. }
    destruct (negb (family n1 =? AF_UNIX) && negb (nd =? 0)).
    + apply (ER (wfails (wdid y (Opened f)) nd) [Opened f]); [reflexivity|]. apply (LC []); intros g [].
    + set (y1 := if negb (family n1 =? AF_UNIX) then wdid (wdid y (Opened f)) (Option f NODELAY) else wdid y (Opened f)).
      assert (A1 : exists mid, wacts y1 = wacts y ++ Opened f :: mid /\ (mid = [] \/ mid = [Option f NODELAY])).
      { unfold y1. destruct (negb (family n1 =? AF_UNIX)); eexists; cbn [wacts wdid]; rewrite <- ?app_assoc; split; [reflexivity| |reflexivity|]; auto. }
      destruct A1 as (mid & A1 & Hm). unfold w_set_blocking. destruct (io =? 0).
      * cbn [negb Z.eqb]. exists s, n1, (wdid y1 (Flags (fd n1) (if blocking s then 0 else 1))), 0, (Opened f :: mid ++ [Flags f (if blocking s then 0 else 1)]).
        split; [reflexivity|]. split; [cbn [wacts wdid]; rewrite A1, <- app_assoc; reflexivity|]. split; [reflexivity|]. left. split; [reflexivity|]. split; [reflexivity|].
        split; [apply (LC (mid ++ [Flags f _])); intros g K; destruct Hm as [-> | ->]; cbn in K; intuition discriminate|]. split; [reflexivity|]. split; [reflexivity|].
        exists (if blocking s then 0 else 1). split; [|destruct (blocking s); split; congruence]. change (fd n1) with f. destruct Hm as [-> | ->]; cbn; rewrite Z.eqb_refl; reflexivity.
      * cbn [negb Z.eqb]. apply (ER (wfails y1 io) (Opened f :: mid)); [exact A1|]. apply (LC mid); intros g K; destruct Hm as [-> | ->]; cbn in K; intuition discriminate.
  - destruct (blocking s) eqn:B; cbn [negb andb].
    + eexists _, _, _, _, []. split; [reflexivity|]. split; [cbn; now rewrite app_nil_r|]. unfold w_errstr. split; [destruct fm; reflexivity|]. right. split; [reflexivity|]. split; [exact H2|].
      split; [reflexivity|]. right. intros ->. discriminate.
    + cbn [wlast wfails]. destruct (Z.eqb_spec e WSAEWOULDBLOCK) as [->|N]; eexists _, _, _, _, []; (split; [reflexivity|]); (split; [cbn; now rewrite app_nil_r|]).
      * split; [reflexivity|]. right. split; [reflexivity|]. split; [exact H2|]. split; [reflexivity|]. left. auto.
      * unfold w_errstr. split; [destruct fm; reflexivity|]. right. split; [reflexivity|]. split; [exact H2|]. split; [reflexivity|]. right. intros ->. discriminate.
Qed.
Print Assumptions waddr_accept.
(** Accepted; then with ioctlsocket failing. *)
Example waddr_accept_ex :
  let s := with_fd (sock_init 0 false AF_INET) 3 in let n := sock_init 2 true AF_INET in
  handed (inl 6) /\ fd n = -1 /\
  (let '(s', n', y', rc) := w_accept true s n (mk_wsys [] 0 0) (inl 6) 0 0 0 in rc = 0 /\ fd n' = 6 /\ flags_of 6 (wacts y') None = Some 1) /\
  (let '(s', n', y', rc) := w_accept true s n (mk_wsys [] 0 0) (inl 6) 0 10022 0 in rc = -1 /\ fd n' = -1 /\ live [] (wacts y') = Some [] /\ SockModel.text s' = Sys 10022).
Proof. split; [intros f E; injection E as <-; lia|]. vm_compute. auto 10. Qed.

(** ** C166: the addresses tried by listen *)
(** The addresses with their positions. *)
Fixpoint wpositions (i : Z) (l : list wentry) : list (Z * wentry) :=
  match l with [] => [] | p :: r => (i, p) :: wpositions (i + 1) r end.
(** No socket can be made for the address. *)
Definition wno_socket (q : Z * wentry) : Prop := exists e, w_socket (snd q) = inr e.
(** The calls for a socket of the address succeed, up to bind. *)
Definition wbindable (fam : Z) (p : wentry) : Prop :=
  (exists f, w_socket p = inl f) /\ wsetup_ok p /\ (fam = W_INET6 -> w_v6 p = 0) /\ w_bind p = 0.
Lemma positions_pe l : forall i, positions i (map pe l) = map (fun q => (fst q, pe (snd q))) (wpositions i l).
Proof. induction l as [|p l IH]; intro i; [reflexivity|]. cbn [map positions wpositions]. now rewrite IH. Qed.
Lemma bindable_pe fam p : bindable (rf fam) (pe p) <-> wbindable fam p.
Proof.
  unfold bindable, wbindable, setup_ok, wsetup_ok. cbn [e_socket e_fcntl e_reuse e_nodelay e_v6 e_bind pe getfl setfl].
  assert (R : rf fam = AF_INET6 <-> fam = W_INET6) by (pose proof (rf_inet6 fam); lia).
  split; intros (A & B & C & D); (split; [exact A|]); (split; [|split; [|exact D]]).
  - tauto.
  - intro H. apply C, R, H.
  - split; [exists 0; reflexivity|tauto].
  - intro H. apply C, R, H.
Qed.
(** As on POSIX (C163): the addresses are tried in the order given, going on exactly if no socket can be made; the call succeeds, bound to
    the last address tried, exactly if the calls for that one and listen succeed. *)
Theorem waddr_listen_order : forall (fm : bool) (s : sock) (y : wsys) (a : wlistens) (l : list wentry),
  family s <> AF_UNIX -> wl_gai a = inr l ->
  exists s' y' rc tr dn rest, w_listen fm s y a = (s', y', rc) /\ wacts y' = wacts y ++ tr /\
    dn ++ rest = wpositions 0 l /\ tried tr = map fst dn /\
    (rest = [] /\ Forall wno_socket dn /\ rc = -1 \/
     exists d k p, dn = d ++ [(k, p)] /\ Forall wno_socket d /\ ~ wno_socket (k, p) /\
       (rc = 0 <-> wbindable (family s) p /\ wl_listen a = 0) /\ (rc <> 0 -> rc = -1) /\
       (rc = 0 -> w_socket p = inl (fd s') /\ In (Bound (fd s') (w_addr p)) tr /\ In (Listening (fd s')) tr)).
Proof.
  intros fm s y a l H1 H2. assert (F2 : family (posix_of s) <> AF_UNIX) by (intro K; apply H1, rf_unix, K).
  destruct (sim_listen fm _ _ s (posix_of s) y _ ([] ++ 0 :: []) a (posix_rs fm s) (posix_ra y) H1) as ([[p' z'] q] & E & R & (tr & A1 & A2) & Q). rewrite H2 in E.
  match type of E with sock_listen _ _ _ ?la = _ => set (la0 := la) in * end.
  destruct (sock_listen_order_partial (posix_of s) (mk_sys (map pa (wacts y)) 0) ([] ++ 0 :: []) la0 (map pe l) F2 eq_refl) as (s2 & y2 & rc2 & tr2 & dn & rest & E2 & T & C & Tr & D).
  rewrite E in E2. injection E2 as <- <- <-. cbn [fst snd acts] in *. rewrite A2 in T. apply app_inv_head in T. subst tr2. rewrite tried_pa in Tr.
  destruct (w_listen fm s y a) as [[s' y'] rc]. cbn [fst snd] in *. subst q. destruct R as (Rf & _). rewrite Rf in D. symmetry in C. rewrite positions_pe in C.
  apply map_eq_app in C as (dn' & rest' & C1 & <- & <-). exists s', y', rc, tr, dn', rest'. split; [reflexivity|]. split; [exact A1|]. split; [now symmetry|].
  split; [rewrite Tr, map_map; reflexivity|].
  assert (NS : forall d, Forall no_socket (map (fun q => (fst q, pe (snd q))) d) -> Forall wno_socket d).
  { intros d H. rewrite Forall_forall in *. intros q K. apply (H (fst q, pe (snd q))). apply in_map_iff. exists q. auto. }
  destruct D as [(D1 & D2 & D3)|(d & k & p & Ed & D1 & D2 & D3 & D4 & D5)].
  - left. split; [now apply map_eq_nil in D1|]. split; [now apply NS|exact D3].
  - right. apply map_eq_app in Ed as (d' & last & -> & <- & Ed). destruct last as [|[k' p2] [|? ?]]; try discriminate. cbn [map fst snd] in Ed. injection Ed as <- <-.
    exists d', k', p2. split; [reflexivity|]. split; [now apply NS|]. split; [exact D2|]. split; [rewrite D3; cbn [family posix_of]; rewrite bindable_pe; reflexivity|]. split; [exact D4|].
    intro K. destruct (D5 K) as (D6 & D7 & D8). split; [exact D6|]. split; apply in_pa; try assumption; discriminate.
Qed.
Print Assumptions waddr_listen_order.
(** No socket for the first address, the second can be bound, the third is not tried. *)
Example waddr_listen_order_ex :
  let e a sk := mk_wentry AF_INET a sk 0 0 0 0 0 (inl 0) 0 0 in
  let l := [e [97] (inr 10024); e [98] (inl 5); e [99] (inl 6)] in
  wno_socket (0, e [97] (inr 10024)) /\ wbindable AF_INET (e [98] (inl 5)) /\
  let '(s', y', rc) := w_listen true (sock_init 0 true AF_INET) (mk_wsys [] 0 0) (mk_wlistens (inr l) 0 0 0) in
  rc = 0 /\ fd s' = 5 /\ tried (wacts y') = [0; 1] /\ In (Bound 5 [98]) (wacts y').
Proof. split; [eexists; reflexivity|]. split; [repeat split; eexists; reflexivity|]. vm_compute. auto 20. Qed.

(** ** C165: a call that would block is told apart from one that failed *)

(** The first answer that is not an interruption. *)
Fixpoint settled (intr : Z) (l : list transfer) : option transfer :=
  match l with
  | [] => None
  | inl n :: _ => Some (inl n)
  | inr e :: r => if e =? intr then settled intr r else Some (inr e)
  end.
(** Counts are not negative. *)
Definition counts_ok (l : list transfer) : Prop := Forall (fun t => match t with inl n => 0 <= n | inr _ => True end) l.
(** fcntl does not fail with EAGAIN. *)
Definition fcntl_not_again (a : fcntls) : Prop := getfl a <> inr EAGAIN /\ setfl a <> EAGAIN.
(** None of the calls for an address fails with EAGAIN, but connect on a socket that does not block. *)
Definition not_again (block : bool) (p : entry) : Prop :=
  e_socket p <> inr EAGAIN /\ fcntl_not_again (e_fcntl p) /\ e_reuse p <> EAGAIN /\ e_nodelay p <> EAGAIN /\
  (forall l, e_src p = inr l -> ~ In EAGAIN l) /\ (block = true -> e_connect p <> EAGAIN) /\ e_close p <> EAGAIN.

Lemma send_loop_again s l : forall y, counts_ok l -> forall s' y', send_loop s y l = Ok (s', y', -1) -> (errno y' = EAGAIN <-> settled EINTR l = Some (inr EAGAIN)).
Proof.
  induction l as [|[n|e] l IH]; intros y H s' y' E; cbn [send_loop settled] in *; [discriminate| |]; inversion H; subst.
  - injection E as <- <- ->. lia.
  - destruct (e =? EINTR); [eapply IH; eauto|]. destruct (Z.eqb_spec e EAGAIN) as [->|N]; injection E as <- <-; cbn; split; congruence.
Qed.
Lemma recv_loop_again s l : forall y, counts_ok l -> forall s' y', recv_loop s y l = Ok (s', y', -1) -> (errno y' = EAGAIN <-> settled EINTR l = Some (inr EAGAIN)).
Proof.
  induction l as [|[n|e] l IH]; intros y H s' y' E; cbn [recv_loop settled] in *; [discriminate| |]; inversion H; subst.
  - destruct (n =? 0); [injection E as <- <-; cbn; split; discriminate|]. injection E as <- <- ->. lia.
  - destruct (e =? EINTR); [eapply IH; eauto|]. destruct (Z.eqb_spec e EAGAIN) as [->|N]; injection E as <- <-; cbn; split; congruence.
Qed.
(** C165 on POSIX, sending and receiving. *)
Theorem sock_again_transfer : forall (s : sock) (y : sys) (len : Z) (l : list transfer) (s' : sock) (y' : sys),
  0 < len -> counts_ok l ->
  (sock_send s y len l = Ok (s', y', -1) -> (errno y' = EAGAIN <-> settled EINTR l = Some (inr EAGAIN))) /\
  (sock_recv s y len l = Ok (s', y', -1) -> (errno y' = EAGAIN <-> settled EINTR l = Some (inr EAGAIN))).
Proof.
  intros s y len l s' y' H1 H2. unfold sock_send, sock_recv. replace (len <=? 0) with false by lia. split; [now apply send_loop_again|now apply recv_loop_again].
Qed.
Print Assumptions sock_again_transfer.
(** An interruption, then EAGAIN; then a reset connection where errno was EAGAIN. *)
Example sock_again_transfer_ex :
  let s := sock_init 0 false AF_INET in let y := mk_sys [] EAGAIN in
  counts_ok [inr EINTR; inr EAGAIN] /\
  (exists s' y', sock_recv s y 8 [inr EINTR; inr EAGAIN] = Ok (s', y', -1) /\ errno y' = EAGAIN) /\
  (exists s' y', sock_send s y 8 [inr 104] = Ok (s', y', -1) /\ errno y' = 104).
Proof. split; [repeat constructor|]. split; eexists; eexists; split; reflexivity. Qed.

Lemma close_again s y e : e <> EAGAIN -> errno y <> EAGAIN -> errno (snd (fst (sock_close s y e))) <> EAGAIN.
Proof. intros H H1. unfold sock_close. destruct (fd s =? INVALID); [exact H1|]. cbn. destruct (e =? 0); [exact H1|exact H]. Qed.
Lemma mode_again s y b a : fcntl_not_again a -> errno y <> EAGAIN -> errno (fst (set_blocking s y b a)) <> EAGAIN.
Proof. intros [H1 H2] H. unfold set_blocking. destruct (getfl a) as [f|e]; [|cbn; congruence]. destruct (setfl a =? 0); [exact H|exact H2]. Qed.
Lemma src_again s l : forall y rc, ~ In EAGAIN l -> errno y <> EAGAIN -> errno (fst (src_loop s y rc l)) <> EAGAIN.
Proof.
  induction l as [|e l IH]; intros y rc H H1; cbn [src_loop]; [exact H1|]. destruct (e =? 0); [exact H1|]. apply IH; [intro K; apply H; now right|]. cbn. intros ->. apply H. now left.
Qed.
Lemma bind_src_again s y a : (forall l, a = inr l -> ~ In EAGAIN l) -> errno y <> EAGAIN -> errno (snd (fst (bind_src s y a))) <> EAGAIN.
Proof.
  intros H H1. unfold bind_src. destruct a as [rc|l]; [exact H1|]. pose proof (src_again s l (did y Resolved) 0 (H l eq_refl) H1) as Q.
  destruct (src_loop s (did y Resolved) 0 l) as [y1 r1]. cbn [fst] in Q. destruct (r1 =? -1); exact Q.
Qed.
Lemma block_bind_src s y a : blocking (fst (fst (bind_src s y a))) = blocking s.
Proof. unfold bind_src. destruct a as [rc|l]; [reflexivity|]. destruct (src_loop s (did y Resolved) 0 l) as [y1 r1]. destruct (r1 =? -1); reflexivity. Qed.
Lemma round_again b first fam src l : forall s y i, blocking s = b -> Forall (not_again b) l -> errno y <> EAGAIN ->
  let '(s', y', x) := connect_round s y first fam src i l in blocking s' = b /\ (x <> End (-1) -> errno y' <> EAGAIN).
Proof.
  induction l as [|p l IH]; intros s y i B H HE; cbn [connect_round]; [auto|]. inversion H as [|? ? H1 H2]; subst. destruct H1 as (N1 & N2 & N3 & N4 & N5 & N6 & N7).
  destruct (xorb first (e_family p =? fam)); [now apply IH|]. destruct (e_socket p) as [f|e]; [|apply IH; [reflexivity|exact H2|cbn; congruence]].
  set (s2 := with_fd (with_family s (e_family p)) f). pose proof (mode_again s2 (did (did y (Tried i)) (Opened f)) (blocking s2) (e_fcntl p) N2 HE) as M.
  destruct (set_blocking s2 _ (blocking s2) (e_fcntl p)) as [y1 r1]. cbn [fst] in M.
  destruct (negb (r1 =? 0)); [auto|]. destruct (negb (e_reuse p =? 0)); [auto|]. destruct (negb (e_nodelay p =? 0)); [auto|].
  set (y3 := did (did y1 (Option f REUSEADDR)) (Option f NODELAY)).
  assert (Q : errno (snd (fst (if src then bind_src s2 y3 (e_src p) else (s2, y3, 0)))) <> EAGAIN /\ blocking (fst (fst (if src then bind_src s2 y3 (e_src p) else (s2, y3, 0)))) = blocking s).
  { destruct src; [split; [apply bind_src_again; [exact N5|exact M]|rewrite block_bind_src; reflexivity]|split; [exact M|reflexivity]]. }
  destruct (if src then bind_src s2 y3 (e_src p) else (s2, y3, 0)) as [[s4 y4] r4]. cbn [fst snd] in Q. destruct Q as [Q1 Q2].
  destruct (negb (r4 =? 0)); [auto|]. destruct (negb (e_connect p =? 0)); [|auto]. destruct (negb (blocking s4) && _) eqn:U; [split; [exact Q2|congruence]|].
  assert (C : e_connect p <> EAGAIN). { rewrite Q2 in U. destruct (blocking s); [now apply N6|]. cbn [negb andb errno fails] in U. intro K. rewrite K in U. discriminate. }
  pose proof (close_again s4 (fails y4 (e_connect p)) (e_close p) N7 C) as Q3.
  assert (Q4 : blocking (fst (fst (sock_close s4 (fails y4 (e_connect p)) (e_close p)))) = blocking s) by (unfold sock_close; destruct (fd s4 =? INVALID); exact Q2).
  destruct (sock_close s4 _ _) as [[s5 y5] r5]. cbn [fst snd] in Q3, Q4. now apply IH.
Qed.
Lemma end_again s y x ec : ec <> EAGAIN -> x <> End (-1) -> errno y <> EAGAIN -> errno (snd (fst (connect_end s y x ec))) <> EAGAIN.
Proof.
  intros H1 H2 H3. unfold connect_end. destruct x; [| | |exact H3].
  - pose proof (close_again (errstr s y 0) y ec H1 H3) as Q. destruct (sock_close (errstr s y 0) y ec) as [[s1 y1] r1]. exact Q.
  - pose proof (close_again (errstr s y 0) y ec H1 H3) as Q. destruct (sock_close (errstr s y 0) y ec) as [[s1 y1] r1]. exact Q.
  - pose proof (close_again s y ec H1 H3) as Q. destruct (sock_close s y ec) as [[s1 y1] r1]. exact Q.
Qed.
Lemma pfd_bind_src s y a : fd (fst (fst (bind_src s y a))) = fd s.
Proof. unfold bind_src. destruct a as [rc|l]; [reflexivity|]. destruct (src_loop s (did y Resolved) 0 l) as [y1 r1]. destruct (r1 =? -1); reflexivity. Qed.
Lemma pfd_round first fam src l : forall s y i, entries_ok l -> let '(s', _, x) := connect_round s y first fam src i l in forall rv, x = End rv -> 0 <= fd s'.
Proof.
  induction l as [|p l IH]; intros s y i H; cbn [connect_round]; [discriminate|]. inversion H as [|? ? H1 H2]; subst.
  destruct (xorb first (e_family p =? fam)); [now apply IH|]. destruct (e_socket p) as [f|e] eqn:E; [|now apply IH]. specialize (H1 f eq_refl).
  set (s2 := with_fd (with_family s (e_family p)) f).
  destruct (set_blocking _ _ _ _) as [y1 r1]. destruct (negb (r1 =? 0)); [discriminate|]. destruct (negb (e_reuse p =? 0)); [discriminate|]. destruct (negb (e_nodelay p =? 0)); [discriminate|].
  set (y3 := did (did y1 (Option f REUSEADDR)) (Option f NODELAY)).
  assert (B : fd (fst (fst (if src then bind_src s2 y3 (e_src p) else (s2, y3, 0)))) = f) by (destruct src; [rewrite pfd_bind_src|]; reflexivity).
  destruct (if src then bind_src s2 y3 (e_src p) else (s2, y3, 0)) as [[s4 y4] r4]. cbn [fst] in B.
  destruct (negb (r4 =? 0)); [discriminate|]. destruct (negb (e_connect p =? 0)); [|intros rv _; lia].
  destruct (negb (blocking s4) && _); [intros rv _; lia|]. destruct (sock_close _ _ _) as [[s5 y5] r5]. now apply IH.
Qed.
Lemma pfd_close s y e : fd (fst (fst (sock_close s y e))) = -1.
Proof. unfold sock_close. destruct (Z.eqb_spec (fd s) INVALID) as [E|E]; [exact E|]. cbn. destruct (e =? 0); reflexivity. Qed.
Lemma pfd_end s y x ec : match x with End _ => fd (fst (fst (connect_end s y x ec))) = fd s | _ => fd (fst (fst (connect_end s y x ec))) = -1 end.
Proof.
  unfold connect_end. destruct x; [| | |reflexivity].
  - pose proof (pfd_close (errstr s y 0) y ec) as Q. destruct (sock_close (errstr s y 0) y ec) as [[s1 y1] r1]. exact Q.
  - pose proof (pfd_close (errstr s y 0) y ec) as Q. destruct (sock_close (errstr s y 0) y ec) as [[s1 y1] r1]. exact Q.
  - pose proof (pfd_close s y ec) as Q. destruct (sock_close s y ec) as [[s1 y1] r1]. exact Q.
Qed.

(** C165 on POSIX, accepting and connecting, as far as it holds: no call but accept and connect themselves fails with EAGAIN, and errno was not
    EAGAIN before a connect.  (A name that cannot be resolved leaves errno alone; a Unix socket's connect may fail with EAGAIN, and the
    socket is closed.) *)
Theorem sock_again_partial :
  (forall (s n : sock) (y : sys) (ac : Z + Z) (nd : Z) (fc : fcntls) (el : Z) (s' n' : sock) (y' : sys),
     nd <> EAGAIN -> fcntl_not_again fc -> el <> EAGAIN -> sock_accept s n y ac nd fc el = (s', n', y', -1) -> (errno y' = EAGAIN <-> ac = inr EAGAIN)) /\
  (forall (s : sock) (y : sys) (dst : list Z) (src : bool) (a : connects) (s' : sock) (y' : sys),
     fd s = -1 -> family s <> AF_UNIX -> errno y <> EAGAIN -> c_close a <> EAGAIN -> (forall l, c_gai a = inr l -> entries_ok l /\ Forall (not_again (blocking s)) l) ->
     sock_connect s y dst src a = Ok (s', y', -1) -> (errno y' = EAGAIN <-> fd s' <> -1)).
Proof.
  split.
  - intros s n y ac nd fc el s' n' y' H1 H2 H3 E. unfold sock_accept in E. destruct ac as [f|e].
    + enough (errno y' <> EAGAIN) by (split; [contradiction|discriminate]).
      set (n1 := mk_sock f 0 (typ n) (blocking n) (family s) (SockModel.text n)) in E.
      destruct (negb (family n1 =? AF_UNIX) && negb (nd =? 0)) eqn:K.
      * pose proof (close_again n1 (fails (did y (Opened f)) nd) el H3 H1) as Q. destruct (sock_close n1 _ el) as [[n2 y2] r2]. cbn [fst snd] in Q. injection E as <- <- <-. exact Q.
      * set (y1 := if negb (family n1 =? AF_UNIX) then did (did y (Opened f)) (Option f NODELAY) else did y (Opened f)) in E.
        assert (M : snd (set_blocking n1 y1 (blocking s) fc) <> 0 -> errno (fst (set_blocking n1 y1 (blocking s) fc)) <> EAGAIN).
        { destruct H2 as [G1 G2]. unfold set_blocking. destruct (getfl fc) as [g|e]; [|cbn; congruence]. destruct (setfl fc =? 0); cbn; [congruence|auto]. }
        destruct (set_blocking n1 y1 (blocking s) fc) as [y2 r2]. cbn [fst snd] in M. destruct (Z.eqb_spec r2 0) as [Z0|Z0]; cbn [negb] in E; [discriminate|]. specialize (M Z0).
        pose proof (close_again n1 y2 el H3 M) as Q. destruct (sock_close n1 y2 el) as [[n3 y3] r3]. cbn [fst snd] in Q. injection E as <- <- <-. exact Q.
    + destruct (negb (blocking s) && (errno (fails y e) =? EAGAIN)) eqn:K; injection E as <- <- <-; cbn.
      * cbn in K. apply andb_prop in K as [_ K]. apply Z.eqb_eq in K. subst e. split; reflexivity.
      * split; congruence.
  - intros s y dst src a s' y' H1 H2 H3 H4 H5 E. destruct (c_gai a) as [rc|l] eqn:G.
    + unfold sock_connect in E. replace (family s =? AF_UNIX) with false in E by (symmetry; now apply Z.eqb_neq). rewrite G in E. injection E as <- <-. split; [contradiction|]. intro K. now destruct K.
    + destruct (H5 l eq_refl) as [H6 H7]. destruct (connect_inet_ok s y dst src a l H1 H2 G H6) as (s2 & y2 & rc & tr & E2 & _ & _ & _ & _ & _ & dn & rest & _ & _ & D).
      rewrite E in E2. injection E2 as <- <- <-. destruct (Z.eq_dec (fd s') (-1)) as [N|N].
      * split; [intro K; exfalso|contradiction]. clear D. unfold sock_connect in E. replace (family s =? AF_UNIX) with false in E by (symmetry; now apply Z.eqb_neq). rewrite G in E.
        pose proof (round_again (blocking s) true (family s) src l s (did y Resolved) 0 eq_refl H7 H3) as R1. pose proof (pfd_round true (family s) src l s (did y Resolved) 0 H6) as F1.
        destruct (connect_round s (did y Resolved) true (family s) src 0 l) as [[s1 y1] x1]. destruct R1 as [B1 R1].
        assert (EN : forall s0 y0 x, (x <> End (-1) -> errno y0 <> EAGAIN) -> (forall rv, x = End rv -> 0 <= fd s0) -> Ok (connect_end s0 y0 x (c_close a)) = Ok (s', y', -1) -> False).
        { intros s0 y0 x R F E0. injection E0 as E0. pose proof (pfd_end s0 y0 x (c_close a)) as P. pose proof (end_again s0 y0 x (c_close a) H4) as W. rewrite E0 in P, W. cbn [fst snd] in P, W.
          destruct x as [| | |rv]; [| | |specialize (F rv eq_refl); lia]; (apply W; [discriminate|apply R; discriminate|exact K]). }
        destruct x1; try (eapply EN; [exact R1|exact F1|exact E]).
        pose proof (round_again (blocking s) false (family s) src l s1 y1 0 B1 H7 (R1 ltac:(discriminate))) as R2. pose proof (pfd_round false (family s) src l s1 y1 0 H6) as F2.
        destruct (connect_round s1 y1 false (family s) src 0 l) as [[s3 y3] x3]. destruct R2 as [_ R2]. eapply EN; [exact R2|exact F2|exact E].
      * split; [intros _; exact N|intros _]. destruct D as [(_ & _ & _ & d & k & p & _ & _ & _ & _ & D)|(_ & D & _)]; [|contradiction]. destruct D as [(D & _)|(_ & _ & D & _)]; [discriminate|exact D].
Qed.
Print Assumptions sock_again_partial.
(** accept finds nobody waiting; a connection is under way after another was refused; with all refused, errno says why. *)
Example sock_again_partial_ex :
  let s := sock_init 0 false AF_INET in
  let e a f c := mk_entry AF_INET a (inl f) 0 (mk_fcntls (inl 2) 0) 0 0 0 (inl 0) c 0 in
  let a l := mk_connects (inr 1) 0 0 (inr l) 0 in
  entries_ok [e [97] 5 111; e [98] 6 EINPROGRESS] /\ Forall (not_again false) [e [97] 5 111; e [98] 6 EINPROGRESS] /\ fcntl_not_again (mk_fcntls (inl 2) 0) /\
  (exists s' n' y', sock_accept s s (mk_sys [] 0) (inr EAGAIN) 0 (mk_fcntls (inl 2) 0) 0 = (s', n', y', -1) /\ errno y' = EAGAIN) /\
  (exists s' y', sock_connect s (mk_sys [] 0) [120; 0] false (a [e [97] 5 111; e [98] 6 EINPROGRESS]) = Ok (s', y', -1) /\ errno y' = EAGAIN /\ fd s' = 6) /\
  (exists s' y', sock_connect s (mk_sys [] 0) [120; 0] false (a [e [97] 5 111]) = Ok (s', y', -1) /\ errno y' = 111 /\ fd s' = -1).
Proof.
  split; [repeat constructor; intros f E; injection E as <-; lia|]. split; [repeat constructor; try discriminate; intros l E; discriminate E|]. split; [split; discriminate|].
  repeat split; repeat eexists.
Qed.
(** C165 as a whole does not hold: a name that cannot be resolved leaves errno as it was; an EAGAIN there is read as a connection under way. *)
Theorem sock_again_refuted : exists (s : sock) (y : sys) (dst : list Z) (a : connects) (s' : sock) (y' : sys),
  fd s = -1 /\ family s <> AF_UNIX /\ (exists rc, c_gai a = inl rc /\ rc <> 0) /\ sock_connect s y dst false a = Ok (s', y', -1) /\ fd s' = -1 /\ errno y' = EAGAIN.
Proof.
  exists (sock_init 0 false AF_INET), (mk_sys [] EAGAIN), [120; 0], (mk_connects (inr 1) 0 0 (inl (-2)) 0).
  repeat eexists; discriminate.
Qed.
Print Assumptions sock_again_refuted.

Lemma w_send_again fm s l : forall y, werr y <> EAGAIN -> counts_ok l -> forall s' y', w_send_loop fm s y l = Ok (s', y', -1) -> (werr y' = EAGAIN <-> settled WSAEINTR l = Some (inr WSAEWOULDBLOCK)).
Proof.
  induction l as [|[n|e] l IH]; intros y HY H s' y' E; cbn [w_send_loop settled] in *; [discriminate| |]; inversion H; subst.
  - injection E as <- <- ->. lia.
  - destruct (e =? WSAEINTR); [eapply IH; [|eauto|eauto]; exact HY|]. destruct (Z.eqb_spec e WSAEWOULDBLOCK) as [->|N]; injection E as <- <-; cbn; split; congruence.
Qed.
Lemma w_recv_again fm s l : forall y, werr y <> EAGAIN -> counts_ok l -> forall s' y', w_recv_loop fm s y l = Ok (s', y', -1) -> (werr y' = EAGAIN <-> settled WSAEINTR l = Some (inr WSAEWOULDBLOCK)).
Proof.
  induction l as [|[n|e] l IH]; intros y HY H s' y' E; cbn [w_recv_loop settled] in *; [discriminate| |]; inversion H; subst.
  - destruct (n =? 0); [injection E as <- <-; cbn; split; discriminate|]. injection E as <- <- ->. lia.
  - destruct (e =? WSAEINTR); [eapply IH; [|eauto|eauto]; exact HY|]. destruct (Z.eqb_spec e WSAEWOULDBLOCK) as [->|N]; injection E as <- <-; cbn; split; congruence.
Qed.
(** C165 on Windows, as far as it holds: errno was not EAGAIN before the call. *)
Theorem wsock_again_partial : forall (fm : bool) (s : sock) (y : wsys), werr y <> EAGAIN ->
  (forall len l s' y', 0 < len -> counts_ok l -> w_send fm s y len l = Ok (s', y', -1) -> (werr y' = EAGAIN <-> settled WSAEINTR l = Some (inr WSAEWOULDBLOCK))) /\
  (forall len l s' y', 0 < len -> counts_ok l -> w_recv fm s y len l = Ok (s', y', -1) -> (werr y' = EAGAIN <-> settled WSAEINTR l = Some (inr WSAEWOULDBLOCK))) /\
  (forall n ac nd io el s' n' y', w_accept fm s n y ac nd io el = (s', n', y', -1) -> (werr y' = EAGAIN <-> blocking s = false /\ ac = inr WSAEWOULDBLOCK)) /\
  (forall src g ec s' y', fd s = -1 -> family s <> AF_UNIX -> (forall l, g = inr l -> wentries_ok l) -> w_sock_connect fm s y src g ec = (s', y', -1) -> (werr y' = EAGAIN <-> fd s' <> -1)).
Proof.
  intros fm s y HY. split; [|split; [|split]].
  - intros len l s' y' H1 H2. unfold w_send. replace (len <=? 0) with false by lia. now apply w_send_again.
  - intros len l s' y' H1 H2. unfold w_recv. replace (len <=? 0) with false by lia. now apply w_recv_again.
  - intros n ac nd io el s' n' y' E. unfold w_accept in E. destruct ac as [f|e].
    + enough (werr y' = werr y) as -> by (split; [contradiction|intros [_ K]; discriminate]).
      set (n1 := mk_sock f 0 (typ n) (blocking n) (family s) (SockModel.text n)) in E.
      destruct (negb (family n1 =? AF_UNIX) && negb (nd =? 0)).
      * pose proof (werr_close n1 (wfails (wdid y (Opened f)) nd) el) as [Q _]. destruct (w_close n1 _ el) as [[n2 y2] r2]. cbn [fst snd] in Q. injection E as <- <- <-. exact Q.
      * set (y1 := if negb (family n1 =? AF_UNIX) then wdid (wdid y (Opened f)) (Option f NODELAY) else wdid y (Opened f)) in E.
        assert (Y1 : werr y1 = werr y) by (unfold y1; destruct (negb _); reflexivity).
        pose proof (werr_mode n1 y1 (blocking s) io) as M. destruct (w_set_blocking n1 y1 (blocking s) io) as [y2 r2]. cbn [fst] in M. destruct (negb (r2 =? 0)); [|discriminate].
        pose proof (werr_close n1 y2 el) as [Q _]. destruct (w_close n1 y2 el) as [[n3 y3] r3]. cbn [fst snd] in Q. injection E as <- <- <-. congruence.
    + destruct (blocking s); cbn [negb andb] in E.
      * injection E as <- <- <-. cbn. split; [contradiction|intros [K _]; discriminate].
      * cbn [wlast wfails] in E. destruct (Z.eqb_spec e WSAEWOULDBLOCK) as [->|N]; injection E as <- <- <-; cbn; [tauto|]. split; [contradiction|intros [_ K]; congruence].
  - intros src g ec s' y' H1 H2 H3 E.
    destruct (sim_connect fm _ _ s (posix_of s) y _ [] src g ec (posix_rs fm s) (posix_ra y) H2 H1 H3) as (b & _ & _ & W). rewrite E in W. destruct W as [W1 W2].
    split; [intros K N; rewrite W2 in K by auto; contradiction|auto].
Qed.
Print Assumptions wsock_again_partial.
(** Nothing to receive; nobody waiting; a connection under way. *)
Example wsock_again_partial_ex :
  let s := sock_init 0 false AF_INET in let y := mk_wsys [] 0 0 in
  let l := [mk_wentry AF_INET [97] (inl 5) 0 0 0 0 0 (inl 0) WSAEWOULDBLOCK 0] in
  werr y <> EAGAIN /\ counts_ok [inr WSAEINTR; inr WSAEWOULDBLOCK] /\ wentries_ok l /\
  (exists s' y', w_recv true s y 8 [inr WSAEINTR; inr WSAEWOULDBLOCK] = Ok (s', y', -1) /\ werr y' = EAGAIN) /\
  (exists s' y', w_send true s y 8 [inr 10054] = Ok (s', y', -1) /\ werr y' = 0) /\
  (exists s' n' y', w_accept true s s y (inr WSAEWOULDBLOCK) 0 0 0 = (s', n', y', -1) /\ werr y' = EAGAIN) /\
  (exists s' y', w_sock_connect true s y false (inr l) 0 = (s', y', -1) /\ werr y' = EAGAIN /\ fd s' = 5).
Proof.
  split; [discriminate|]. split; [repeat constructor|]. split; [repeat constructor; intros f E; injection E as <-; lia|]. repeat split; repeat eexists.
Qed.
(** On Windows a failure does not set errno: after one call that would block, a send, recv, accept or connect that fails for good leaves
    EAGAIN there. *)
Theorem wsock_again_refuted : exists (s : sock) (y : wsys), werr y = EAGAIN /\
  (exists s' y', w_send true s y 8 [inr 10054] = Ok (s', y', -1) /\ werr y' = EAGAIN) /\
  (exists s' y', w_recv true s y 8 [inr 10054] = Ok (s', y', -1) /\ werr y' = EAGAIN) /\
  (exists s' n' y', w_accept true s s y (inr 10024) 0 0 0 = (s', n', y', -1) /\ werr y' = EAGAIN) /\
  (exists s' y' l, wentries_ok l /\ w_sock_connect true (with_fd s (-1)) y false (inr l) 0 = (s', y', -1) /\ fd s' = -1 /\ werr y' = EAGAIN).
Proof.
  exists (with_fd (sock_init 0 false AF_INET) 4), (mk_wsys [] 10035 EAGAIN). split; [reflexivity|].
  split; [repeat eexists|]. split; [repeat eexists|]. split; [repeat eexists|].
  do 2 eexists. exists [mk_wentry AF_INET [97] (inl 5) 0 0 0 0 0 (inl 0) 10061 0]. split; [repeat constructor; intros f E; injection E as <-; lia|]. repeat split.
Qed.
Print Assumptions wsock_again_refuted.
