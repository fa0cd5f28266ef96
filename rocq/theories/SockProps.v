(** Properties of socket/sc_sock.c, the sockets. *)
From Coq Require Import String Ascii.
From Verif Require Import Base CStr IniModel StrSpec StrProofs IniProofs SockModel SockSpec SockProofs.
From Verif Require SigSpec.
Local Open Scope list_scope.
Local Open Scope Z_scope.
Notation text := SigSpec.text.

Definition ok_fcntl : fcntls := mk_fcntls (inl 2) 0.
Definition start : sys := mk_sys [] 0.
(** An address with family, name and the answers of socket and connect, everything else succeeding. *)
Definition addr (fam : Z) (name : string) (sk : Z + Z) (c : Z) : entry := mk_entry fam (text name) sk 0 ok_fcntl 0 0 0 (inr [0]) c 0.

(** ** C57: descriptors *)

(** sc_sock_listen on a socket without descriptor, whatever each call answers: on success exactly one
    descriptor is open, it is the one in the structure and listens; on failure every descriptor opened has
    been closed exactly once, the structure holds none, and there is an error text.  The address list, if
    one was obtained, is freed exactly once. *)
Theorem sock_listen_resources : forall (s : sock) (y : sys) (host r : list Z) (a : listens),
  fd s = -1 -> nonul host -> handed (l_socket a) -> (forall l, l_gai a = inr l -> entries_ok l) -> (forall rc, l_gai a = inl rc -> rc <> 0) ->
  exists s' y' rc tr, sock_listen s y (host ++ 0 :: r) a = Ok (s', y', rc) /\ acts y' = acts y ++ tr /\ held 0 tr = Some 0 /\
    ((rc = 0 /\ 0 <= fd s' /\ live [] tr = Some [fd s'] /\ In (Listening (fd s')) tr) \/
     (rc = -1 /\ fd s' = -1 /\ live [] tr = Some [] /\ SockModel.text s' <> NoText)).
Proof.
  intros s y host r a H1 H2 H3 H4 H5. destruct (listen_ok s y host r a H1 H2 H3 H4 H5) as (s' & y' & rc & tr & E & A & H & S & D & L & _).
  exists s', y', rc, tr. split; [exact E|]. split; [exact A|]. split; [exact H|]. destruct D as [(-> & F & V)|D]; [left|right; exact D].
  repeat (split; [reflexivity || assumption|]). destruct (L eq_refl) as (_ & tr0 & ->). apply in_or_app. right. now left.
Qed.
Print Assumptions sock_listen_resources.
(** Two addresses: no socket for the first, bind fails for the second; then with bind succeeding. *)
Example sock_listen_resources_ex :
  let s := sock_init 7 true AF_INET in
  let l b := mk_listens (inr [addr AF_INET "a" (inr 24) 0; mk_entry AF_INET (text "b") (inl 5) 0 ok_fcntl 0 0 b (inl 0) 0 0]) (inr 1) 0 0 0 0 0 in
  fd s = -1 /\ nonul (text "h") /\ handed (l_socket (l 98)) /\ (forall x, l_gai (l 98) = inr x -> entries_ok x) /\
  (exists s' y', sock_listen s start (text "h" ++ [0]) (l 98) = Ok (s', y', -1) /\ acts y' = [Resolved; Tried 0; Tried 1; Opened 5; Flags 5 2; Option 5 REUSEADDR; Option 5 NODELAY; Closed 5; FreeList] /\ fd s' = -1) /\
  (exists s' y', sock_listen s start (text "h" ++ [0]) (l 0) = Ok (s', y', 0) /\ live [] (acts y') = Some [5] /\ fd s' = 5).
Proof.
  cbv zeta. split; [reflexivity|]. split; [unfold nonul; vm_compute; intuition discriminate|]. split; [intros f E; discriminate|].
  split; [intros x E; injection E as <-; repeat constructor; intros f Ef; [discriminate|injection Ef as <-; lia]|].
  split; do 2 eexists; vm_compute; repeat (split; try reflexivity).
Qed.

(** sc_sock_connect: the same, except that a connection under way on a non-blocking socket (result -1,
    errno EAGAIN) keeps its descriptor in the structure. *)
Theorem sock_connect_resources : forall (s : sock) (y : sys) (dst r : list Z) (src : bool) (a : connects),
  fd s = -1 -> nonul dst -> handed (c_socket a) -> (forall l, c_gai a = inr l -> entries_ok l) -> (forall rc, c_gai a = inl rc -> rc <> 0) ->
  exists s' y' rc tr, sock_connect s y (dst ++ 0 :: r) src a = Ok (s', y', rc) /\ acts y' = acts y ++ tr /\ held 0 tr = Some 0 /\
    ((rc = 0 /\ 0 <= fd s' /\ live [] tr = Some [fd s'] /\ exists to, In (Connected (fd s') to) tr) \/
     (rc = -1 /\ fd s' = -1 /\ live [] tr = Some [] /\ SockModel.text s' <> NoText) \/
     (rc = -1 /\ blocking s = false /\ errno y' = EAGAIN /\ 0 <= fd s' /\ live [] tr = Some [fd s'] /\ exists to, In (Connected (fd s') to) tr)).
Proof.
  intros s y dst r src a H1 H2 H3 H4 H5. destruct (Z.eq_dec (family s) AF_UNIX) as [Ef|Ef].
  - unfold sock_connect. rewrite Ef. change (AF_UNIX =? AF_UNIX) with true. cbv iota zeta.
    destruct (connect_unix_ok s y dst r (c_socket a) (c_connect a) (c_unix_close a) H1 H2 H3) as (s' & y' & rc & tr & E & A & H & S & D & C & _).
    exists s', y', rc, tr. repeat (split; [assumption|]). destruct D as [(-> & F & V)|D]; [left|right; left; exact D]. repeat (split; [reflexivity || assumption|]).
    destruct (C eq_refl) as (C1 & _). eauto.
  - destruct (c_gai a) as [rc|l] eqn:Eg.
    + unfold sock_connect. replace (family s =? AF_UNIX) with false by (unfold AF_UNIX in *; lia). rewrite Eg. do 3 eexists. exists [].
      split; [reflexivity|]. split; [rewrite app_nil_r; reflexivity|]. split; [reflexivity|]. right. left. split; [reflexivity|]. split; [exact H1|]. split; [reflexivity|].
      unfold errstr. cbn. destruct (rc =? 0); discriminate.
    + destruct (connect_inet_ok s y (dst ++ 0 :: r) src a l H1 Ef Eg (H4 l eq_refl)) as (s' & y' & rc & tr & E & A & H & _ & _ & _ & dn & rest & _ & _ & D).
      exists s', y', rc, tr. repeat (split; [assumption|]). destruct D as [(F & L & _ & d & k & p & _ & _ & _ & I & [(-> & _)|(-> & U1 & U2 & _)])|(-> & F & L & T & _)].
      * left. eauto 6.
      * right; right. eauto 8.
      * right; left. auto.
Qed.
Print Assumptions sock_connect_resources.
(** The first address refuses; the second is under way. *)
Example sock_connect_resources_ex :
  let s := sock_init 7 false AF_INET in
  let a := mk_connects (inr 1) 0 0 (inr [addr AF_INET "a" (inl 5) 111; addr AF_INET "b" (inl 5) EINPROGRESS]) 0 in
  fd s = -1 /\ nonul (text "h") /\ handed (c_socket a) /\ (forall x, c_gai a = inr x -> entries_ok x) /\
  exists s' y', sock_connect s start (text "h" ++ [0]) true a = Ok (s', y', -1) /\ live [] (acts y') = Some [5] /\ fd s' = 5 /\ errno y' = EAGAIN /\ tried (acts y') = [0; 1].
Proof.
  cbv zeta. split; [reflexivity|]. split; [unfold nonul; vm_compute; intuition discriminate|]. split; [intros f E; discriminate|].
  split; [intros x E; injection E as <-; repeat constructor; intros f Ef; injection Ef as <-; lia|].
  do 2 eexists; vm_compute; repeat (split; try reflexivity).
Qed.

(** sc_sock_accept into a socket without descriptor: the listening socket keeps its own; on success exactly the
    accepted descriptor is open, in the new structure, which has the listener's family and no events; on
    failure nothing is left open. *)
Theorem sock_accept_resources : forall (s n : sock) (y : sys) (ac : Z + Z) (nd : Z) (fc : fcntls) (el : Z),
  handed ac -> fd n = -1 ->
  exists s' n' y' rc tr, sock_accept s n y ac nd fc el = (s', n', y', rc) /\ acts y' = acts y ++ tr /\ fd s' = fd s /\
    ((rc = 0 /\ 0 <= fd n' /\ live [] tr = Some [fd n'] /\ op n' = 0 /\ family n' = family s) \/
     (rc = -1 /\ fd n' = -1 /\ live [] tr = Some [] /\ (SockModel.text s' <> NoText \/ (tr = [] /\ blocking s = false /\ errno y' = EAGAIN)))).
Proof.
  intros s n y ac nd fc el H1 H2. destruct (accept_ok s n y ac nd fc el H1 H2) as (s' & n' & y' & rc & tr & E & A & _ & F & _ & D).
  exists s', n', y', rc, tr. repeat (split; [assumption|]). destruct D as [(-> & _ & D1 & D2 & D3 & D4 & _)|D]; [left; auto|right; exact D].
Qed.
Print Assumptions sock_accept_resources.
Example sock_accept_resources_ex :
  let s := with_fd (sock_init 1 true AF_INET) 3 in let n := sock_init 2 true AF_INET in
  handed (inl 6) /\ fd n = -1 /\
  (exists s' n' y', sock_accept s n start (inl 6) 0 (mk_fcntls (inr 9) 0) 0 = (s', n', y', -1) /\ acts y' = [Opened 6; Option 6 NODELAY; Closed 6] /\ fd n' = -1 /\ fd s' = 3) /\
  (exists s' n' y', sock_accept s n start (inl 6) 0 ok_fcntl 0 = (s', n', y', 0) /\ fd n' = 6).
Proof. cbv zeta. split; [intros f E; injection E as <-; lia|]. split; [reflexivity|]. split; do 3 eexists; vm_compute; repeat (split; try reflexivity). Qed.

(** sc_sock_term closes an open descriptor exactly once, however often it is called. *)
Theorem sock_term_resources : forall (s : sock) (y : sys) (e1 e2 : Z), fd s = -1 \/ 0 <= fd s ->
  exists s1 y1 rc1, sock_term s y e1 = (s1, y1, rc1) /\ fd s1 = -1 /\ acts y1 = acts y ++ (if fd s =? -1 then [] else [Closed (fd s)]) /\
    sock_term s1 y1 e2 = (s1, y1, 0) /\ (rc1 = 0 <-> (fd s = -1 \/ e1 = 0)).
Proof.
  intros s y e1 e2 [H|H]; unfold sock_term.
  - rewrite (close_closed s) by exact H. cbn [Z.eqb]. exists s, y, 0. split; [reflexivity|]. split; [exact H|]. split; [replace (fd s =? -1) with true by lia; now rewrite app_nil_r|].
    rewrite close_closed by exact H. cbn [Z.eqb]. split; [reflexivity|]. tauto.
  - destruct (close_open s y e1 H) as (y' & -> & A). destruct (Z.eqb_spec e1 0) as [E|E]; cbn [Z.opp Z.eqb]; do 3 eexists; (split; [reflexivity|]); (split; [reflexivity|]);
      (split; [rewrite A; now replace (fd s =? -1) with false by lia|]); (split; [rewrite close_closed by reflexivity; reflexivity|]); split; try tauto; intro K; try (exfalso; lia); discriminate.
Qed.
Print Assumptions sock_term_resources.
Example sock_term_resources_ex : exists s1 y1, sock_term (with_fd (sock_init 1 true AF_INET) 3) start 0 = (s1, y1, 0) /\ acts y1 = [Closed 3].
Proof. do 2 eexists. vm_compute. split; reflexivity. Qed.

(** ** C58: timeouts *)

(** The time a struct timeval denotes, in microseconds. *)
Definition micros (tv : Z * Z) : Z := fst tv * 1000000 + snd tv.
(** The timeout passed for [ms] milliseconds denotes [ms] milliseconds exactly when [ms] is a number of whole
    seconds: the rest is passed in microseconds. *)
Theorem sock_timeout_partial : forall (s : sock) (y : sys) (ms e : Z), 0 <= ms ->
  exists s' y' tv rc, set_timeo s y ms e = (s', y', tv, rc) /\ (micros tv = ms * 1000 <-> ms mod 1000 = 0) /\
    micros tv = 1000000 * (ms / 1000) + ms mod 1000 /\ 0 <= snd tv < 1000000 /\ (rc = 0 <-> e = 0).
Proof.
  intros s y ms e H. unfold set_timeo. exists (if e =? 0 then s else errstr s (fails y e) 0), (if e =? 0 then y else fails y e), (timeo ms), (if e =? 0 then 0 else -1).
  split; [destruct (e =? 0); reflexivity|]. unfold micros, timeo. cbn [fst snd]. rewrite Z.quot_div_nonneg, Z.rem_mod_nonneg by lia.
  pose proof (Z.div_mod ms 1000 ltac:(lia)). pose proof (Z.mod_pos_bound ms 1000 ltac:(lia)).
  split; [split; lia|]. split; [lia|]. split; [lia|]. destruct (Z.eqb_spec e 0); split; intros; try lia; discriminate.
Qed.
Print Assumptions sock_timeout_partial.
Example sock_timeout_partial_ex : exists s' y', set_timeo (sock_init 1 true AF_INET) start 3000 0 = (s', y', (3, 0), 0) /\ micros (3, 0) = 3000 * 1000.
Proof. do 2 eexists. split; reflexivity. Qed.
(** 500 ms are passed as 500 us. *)
Theorem sock_timeout_refuted : exists ms s y, 0 <= ms /\ exists s' y' tv, set_timeo s y ms 0 = (s', y', tv, 0) /\ micros tv <> ms * 1000.
Proof. exists 500, (sock_init 1 true AF_INET), start. split; [lia|]. do 3 eexists. split; [reflexivity|]. vm_compute. discriminate. Qed.
Print Assumptions sock_timeout_refuted.

(** ** C81: the blocking mode *)

(** The descriptor of a listening, connecting or accepted internet socket was given the mode asked for.  Missing: Unix
    sockets that listen or connect, for which it is false (sock_mode_refuted). *)
Theorem sock_mode_partial : 
  (forall (s : sock) (y : sys) (host r : list Z) (a : listens), fd s = -1 -> family s <> AF_UNIX -> nonul host -> handed (l_socket a) -> (forall l, l_gai a = inr l -> entries_ok l) -> (forall rc, l_gai a = inl rc -> rc <> 0) ->
    exists s' y' rc tr, sock_listen s y (host ++ 0 :: r) a = Ok (s', y', rc) /\ acts y' = acts y ++ tr /\ blocking s' = blocking s /\
      (rc = 0 -> exists fl, flags_of (fd s') tr None = Some fl /\ mode_ok (blocking s) fl)) /\
  (forall (s : sock) (y : sys) (dst : list Z) (src : bool) (a : connects) (l : list entry), fd s = -1 -> family s <> AF_UNIX -> c_gai a = inr l -> entries_ok l ->
    exists s' y' rc tr, sock_connect s y dst src a = Ok (s', y', rc) /\ acts y' = acts y ++ tr /\ blocking s' = blocking s /\
      (fd s' <> -1 -> exists fl, flags_of (fd s') tr None = Some fl /\ mode_ok (blocking s) fl)) /\
  (forall (s n : sock) (y : sys) (ac : Z + Z) (nd : Z) (fc : fcntls) (el : Z), handed ac -> fd n = -1 ->
    exists s' n' y' rc tr, sock_accept s n y ac nd fc el = (s', n', y', rc) /\ acts y' = acts y ++ tr /\
      (rc = 0 -> exists fl, flags_of (fd n') tr None = Some fl /\ mode_ok (blocking s) fl)).
Proof.
  split; [|split].
  - intros s y host r a H1 Hf H2 H3 H4 H5. destruct (listen_ok s y host r a H1 H2 H3 H4 H5) as (s' & y' & rc & tr & E & A & H & (S & _) & D & _ & M & _).
    exists s', y', rc, tr. repeat (split; [assumption|]). auto.
  - intros s y dst src a l H1 H2 H3 H4. destruct (connect_inet_ok s y dst src a l H1 H2 H3 H4) as (s' & y' & rc & tr & E & A & _ & B & _ & _ & dn & rest & _ & _ & D).
    exists s', y', rc, tr. repeat (split; [assumption|]). destruct D as [(_ & _ & M & _)|(_ & F & _)]; [auto|contradiction].
  - intros s n y ac nd fc el H1 H2. destruct (accept_ok s n y ac nd fc el H1 H2) as (s' & n' & y' & rc & tr & E & A & _ & _ & _ & D).
    exists s', n', y', rc, tr. repeat (split; [assumption|]). intros ->. destruct D as [(_ & _ & _ & _ & _ & _ & M)|(D & _)]; [exact M|discriminate].
Qed.
Print Assumptions sock_mode_partial.
Example sock_mode_ex :
  let a := mk_connects (inr 1) 0 0 (inr [addr AF_INET "a" (inl 5) 0]) 0 in
  (exists s' y', sock_connect (sock_init 7 false AF_INET) start [] false a = Ok (s', y', 0) /\ flags_of 5 (acts y') None = Some 2050 /\ mode_ok false 2050) /\
  (exists s' y', sock_connect (sock_init 7 true AF_INET) start [] false a = Ok (s', y', 0) /\ flags_of 5 (acts y') None = Some 2 /\ mode_ok true 2).
Proof. cbv zeta. split; do 2 eexists; vm_compute; repeat (split; try reflexivity). Qed.
(** A Unix socket never gets its mode: it stays blocking although a non-blocking one was asked for, both
    listening and connected. *)
Theorem sock_mode_refuted :
  (exists s a s' y', fd s = -1 /\ blocking s = false /\ family s = AF_UNIX /\ sock_listen s start (text "/s" ++ [0]) a = Ok (s', y', 0) /\ flags_of (fd s') (acts y') None = None) /\
  (exists s a s' y', fd s = -1 /\ blocking s = false /\ family s = AF_UNIX /\ sock_connect s start (text "/s" ++ [0]) false a = Ok (s', y', 0) /\ flags_of (fd s') (acts y') None = None).
Proof.
  split; [exists (sock_init 1 false AF_UNIX), (mk_listens (inl 1) (inl 4) 0 0 0 0 0)|exists (sock_init 1 false AF_UNIX), (mk_connects (inl 4) 0 0 (inl 1) 0)];
    do 2 eexists; vm_compute; repeat (split; try reflexivity).
Qed.
Print Assumptions sock_mode_refuted.

(** ** C82: the addresses tried by connect *)

(** Addresses are tried in the order given, those of the socket's family first, each at most once, stopping at the
    first one connect accepts; a failing call has tried them all, unless a set-up call or binding the source failed. *)
Theorem sock_connect_order : forall (s : sock) (y : sys) (dst : list Z) (src : bool) (a : connects) (l : list entry),
  fd s = -1 -> family s <> AF_UNIX -> c_gai a = inr l -> entries_ok l ->
  exists s' y' rc tr dn rest, sock_connect s y dst src a = Ok (s', y', rc) /\ acts y' = acts y ++ tr /\
    dn ++ rest = candidates (family s) l /\ tried tr = map fst dn /\
    (fd s' <> -1 -> exists d k p, dn = d ++ [(k, p)] /\ Forall (fun q => refused (blocking s) (snd q)) d /\ In (Connected (fd s') (e_addr p)) tr /\ family s' = e_family p /\
       (rc = 0 /\ e_connect p = 0 \/ rc = -1 /\ blocking s = false /\ under_way (e_connect p))) /\
    (fd s' = -1 -> rc = -1 /\ (src = false -> Forall setup_ok l -> rest = [] /\ Forall (fun q => refused (blocking s) (snd q)) dn)).
Proof.
  intros s y dst src a l H1 H2 H3 H4. destruct (connect_inet_ok s y dst src a l H1 H2 H3 H4) as (s' & y' & rc & tr & E & A & _ & _ & _ & _ & dn & rest & Q1 & Q2 & D).
  exists s', y', rc, tr, dn, rest. repeat (split; [assumption|]). destruct D as [(F & _ & _ & d & k & p & D1 & D2 & D3 & D4 & D5)|(-> & F & _ & _ & D)].
  - split; [|unfold INVALID in *; lia]. intros _. exists d, k, p. repeat (split; [assumption|]).
    destruct D5 as [(-> & C)|(-> & B & _ & C)]; auto.
  - split; [contradiction|]. intros _. split; [reflexivity|]. intros -> Hs. destruct D as [D|[D|(d & k & p & -> & D)]]; [exact D|discriminate|].
    destruct D. assert (I : In (k, p) (candidates (family s) l)) by (rewrite <- Q1, <- app_assoc; apply in_or_app; right; now left).
    assert (N : forall own i q, In q (numbered own (family s) i l) -> In (snd q) l).
    { clear. intros own. induction l as [|x l IH]; intros i q Hq; [contradiction|]. cbn [numbered] in Hq. apply in_app_or in Hq as [Hq|Hq]; [|right; eapply IH; exact Hq].
      destruct (Bool.eqb own (e_family x =? family s)); [|contradiction]. destruct Hq as [<-|[]]. now left. }
    rewrite Forall_forall in Hs. apply Hs. unfold candidates in I. apply in_app_or in I as [I|I]; exact (N _ _ _ I).
Qed.
Print Assumptions sock_connect_order.
(** Own family IPv6: the addresses at 1 and 3 come before those at 0 and 2; the one at 0 is accepted. *)
Example sock_connect_order_ex :
  let l := [addr AF_INET "a" (inl 5) 0; addr AF_INET6 "b" (inl 5) 111; addr AF_INET "c" (inl 6) 0; addr AF_INET6 "d" (inr 97) 0] in
  let a := mk_connects (inr 1) 0 0 (inr l) 0 in let s := sock_init 7 true AF_INET6 in
  fd s = -1 /\ family s <> AF_UNIX /\ entries_ok l /\ map fst (candidates AF_INET6 l) = [1; 3; 0; 2] /\
  exists s' y', sock_connect s start [] false a = Ok (s', y', 0) /\ tried (acts y') = [1; 3; 0] /\ family s' = AF_INET.
Proof.
  cbv zeta. split; [reflexivity|]. split; [discriminate|]. split; [repeat constructor; intros f E; try discriminate; injection E as <-; lia|]. split; [reflexivity|].
  do 2 eexists. vm_compute. repeat (split; try reflexivity).
Qed.

(** ** C83: sending and receiving *)

(** Both calls are repeated as long as a signal interrupts them.  The first other answer decides: a count is
    returned as it is (an end of file is -1 with errno EOF); EAGAIN gives -1 and leaves the error text alone; any other error
    gives -1 with errno and the error text of that error.  Nothing is called for a length that is not positive. *)
Theorem sock_transfer : forall (s : sock) (y : sys) (len : Z) (pre rest : list transfer) (x : transfer),
  Forall (fun p => p = inr EINTR) pre -> x <> inr EINTR ->
  (len <= 0 -> sock_send s y len (pre ++ x :: rest) = Ok (s, y, len) /\ sock_recv s y len (pre ++ x :: rest) = Ok (s, y, len)) /\
  (0 < len -> exists s1 y1 n1 s2 y2 n2, sock_send s y len (pre ++ x :: rest) = Ok (s1, y1, n1) /\ sock_recv s y len (pre ++ x :: rest) = Ok (s2, y2, n2) /\
    acts y1 = acts y /\ acts y2 = acts y /\ fd s1 = fd s /\ fd s2 = fd s /\
    match x with
    | inl n => n1 = n /\ s1 = s /\ s2 = s /\ (n <> 0 -> n2 = n) /\ (n = 0 -> n2 = -1 /\ errno y2 = EOF)
    | inr e => n1 = -1 /\ n2 = -1 /\ errno y1 = e /\ errno y2 = e /\
               (e = EAGAIN -> s1 = s /\ s2 = s) /\ (e <> EAGAIN -> SockModel.text s1 = Sys e /\ SockModel.text s2 = Sys e)
    end).
Proof.
  intros s y len pre rest x Hp Hx. unfold sock_send, sock_recv. split; [intro H; now replace (len <=? 0) with true by lia|]. intro H. replace (len <=? 0) with false by lia. clear H.
  revert y. induction Hp as [|p pre Ep _ IH]; intro y.
  - destruct x as [n|e]; cbn [app send_loop recv_loop].
    + destruct (Z.eqb_spec n 0) as [E|E]; do 6 eexists; (split; [reflexivity|]); (split; [reflexivity|]); repeat apply conj; intros; try contradiction; try reflexivity; repeat apply conj; reflexivity.
    + destruct (Z.eqb_spec e EINTR) as [E|E]; [subst; contradiction|].
      destruct (Z.eqb_spec e EAGAIN) as [E2|E2]; do 6 eexists; (split; [reflexivity|]); (split; [reflexivity|]); repeat apply conj; intros; try contradiction; try reflexivity; try (symmetry; assumption); repeat apply conj; reflexivity.
  - subst p. cbn [app send_loop recv_loop]. change (EINTR =? EINTR) with true. cbv iota zeta. exact (IH (fails y EINTR)).
Qed.
Print Assumptions sock_transfer.
Example sock_transfer_ex : let s := with_fd (sock_init 1 true AF_INET) 3 in
  Forall (fun p : transfer => p = inr EINTR) [inr EINTR; inr EINTR] /\ (inl 0 : transfer) <> inr EINTR /\
  sock_send s start 5 [inr EINTR; inr EINTR; inl 3] = Ok (s, fails start EINTR, 3) /\ sock_recv s start 5 [inr EINTR; inl 0] = Ok (s, fails start EOF, -1) /\
  (exists y', sock_send s start 5 [inr 32] = Ok (with_text s (Sys 32), y', -1)).
Proof. cbv zeta. split; [repeat constructor|]. split; [discriminate|]. split; [reflexivity|]. split; [reflexivity|]. eexists. reflexivity. Qed.

(** sc_sock_finish_connect succeeds exactly when the socket reports no error; otherwise errno and the text tell which. *)
Theorem sock_finish_connect : forall (s : sock) (y : sys) (rc so : Z), exists s' y' r, finish_connect s y rc so = (s', y', r) /\ fd s' = fd s /\ acts y' = acts y /\
  (r = 0 <-> (rc = 0 /\ so = 0)) /\ (r = 0 -> s' = s /\ y' = y) /\ (r <> 0 -> r = -1 /\ errno y' = (if rc =? 0 then so else rc) /\ SockModel.text s' = Sys (errno y')).
Proof.
  intros s y rc so. unfold finish_connect. destruct (Z.eqb_spec rc 0) as [E|E]; [destruct (Z.eqb_spec so 0) as [E2|E2]|]; cbn [negb]; do 3 eexists; (split; [reflexivity|]); (split; [reflexivity|]); (split; [reflexivity|]);
    (split; [split; intro; try lia; auto|]); split; intro; try lia; auto; try contradiction; try discriminate.
Qed.
Print Assumptions sock_finish_connect.
Example sock_finish_connect_ex : exists s' y', finish_connect (sock_init 1 false AF_INET) start 0 111 = (s', y', -1) /\ SockModel.text s' = Sys 111.
Proof. do 2 eexists. split; reflexivity. Qed.

(** ** C84: the addresses of Unix sockets *)

(** Connecting goes to exactly the path given, or is refused when it does not fit; listening binds to exactly the path
    given when it fits.  Missing: listening on a longer path, for which it is false (sock_unix_path_refuted). *)
Theorem sock_unix_path_partial : forall (s : sock) (y : sys) (path r : list Z), fd s = -1 -> family s = AF_UNIX -> nonul path ->
  (forall src a, handed (c_socket a) -> exists s' y' rc tr, sock_connect s y (path ++ 0 :: r) src a = Ok (s', y', rc) /\ acts y' = acts y ++ tr /\
     (rc = 0 -> In (Connected (fd s') path) tr) /\ (zlen path >= 108 -> rc = -1 /\ fd s' = -1)) /\
  (forall a, handed (l_socket a) -> zlen path < 108 -> (forall l, l_gai a = inr l -> entries_ok l) -> (forall rc, l_gai a = inl rc -> rc <> 0) ->
     exists s' y' rc tr, sock_listen s y (path ++ 0 :: r) a = Ok (s', y', rc) /\ acts y' = acts y ++ tr /\ (rc = 0 -> In (Bound (fd s') path) tr)).
Proof.
  intros s y path r H1 H2 H3. split.
  - intros src a Ha. unfold sock_connect. rewrite H2. change (AF_UNIX =? AF_UNIX) with true. cbv iota zeta.
    destruct (connect_unix_ok s y path r (c_socket a) (c_connect a) (c_unix_close a) H1 H3 Ha) as (s' & y' & rc & tr & E & A & _ & _ & D & C & N).
    exists s', y', rc, tr. repeat (split; [assumption|]). split; [intro K; apply C; exact K|]. intro K. specialize (N K). split; [exact N|]. destruct D as [(D & _)|(_ & D & _)]; [lia|exact D].
  - intros a Ha Hl Hg Hr. destruct (listen_ok s y path r a H1 H3 Ha Hg Hr) as (s' & y' & rc & tr & E & A & _ & _ & _ & _ & _ & U). exists s', y', rc, tr. repeat (split; [assumption|]).
    intro K. destruct (U K H2) as (U1 & _). rewrite firstn_all2 in U1; [exact U1|]. unfold zlen in Hl. lia.
Qed.
Print Assumptions sock_unix_path_partial.
Example sock_unix_path_ex : let s := sock_init 1 true AF_UNIX in nonul (text "/tmp/s") /\
  (exists s' y', sock_connect s start (text "/tmp/s" ++ [0]) false (mk_connects (inl 4) 0 0 (inl 1) 0) = Ok (s', y', 0) /\ acts y' = [Tried 0; Opened 4; Connected 4 (text "/tmp/s")]) /\
  (exists s' y', sock_connect s start (repeat 97 108 ++ [0]) false (mk_connects (inl 4) 0 0 (inl 1) 0) = Ok (s', y', -1) /\ errno y' = EINVAL) /\
  (exists s' y', sock_listen s start (text "/tmp/s" ++ [0]) (mk_listens (inl 1) (inl 4) 0 0 0 0 0) = Ok (s', y', 0) /\ acts y' = [Tried 0; Opened 4; Unlink (text "/tmp/s"); Bound 4 (text "/tmp/s"); Listening 4]).
Proof. cbv zeta. split; [unfold nonul; vm_compute; intuition discriminate|]. repeat split; do 2 eexists; vm_compute; repeat (split; try reflexivity). Qed.
(** Listening on a path that does not fit succeeds on another path (and removes the file at the path given). *)
Theorem sock_unix_path_refuted : exists (s : sock) (path : list Z) (a : listens) (s' : sock) (y' : sys),
  fd s = -1 /\ family s = AF_UNIX /\ nonul path /\ zlen path = 109 /\ sock_listen s start (path ++ [0]) a = Ok (s', y', 0) /\
  In (Unlink path) (acts y') /\ In (Bound (fd s') (firstn 107 path)) (acts y') /\ ~ In (Bound (fd s') path) (acts y').
Proof.
  exists (sock_init 1 true AF_UNIX), (repeat 97 109), (mk_listens (inl 1) (inl 4) 0 0 0 0 0). do 2 eexists. split; [reflexivity|]. split; [reflexivity|].
  split; [unfold nonul; vm_compute; intuition discriminate|]. split; [reflexivity|]. split; [vm_compute; reflexivity|]. vm_compute. split; [auto|]. split; [auto|]. intuition discriminate.
Qed.
Print Assumptions sock_unix_path_refuted.
