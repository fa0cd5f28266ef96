(** Property C154: the messages of the sockets. *)
From Verif Require Import Base CStr CNum IniModel SockModel.
From Coq Require Import ZifyBool.

(** The first of the calls that fails. *)
Definition first_err (l : list Z) : option Z := find (fun e => negb (e =? 0)) l.
Definition fcntl_err (a : fcntls) : Z := match getfl a with inr e => e | inl _ => setfl a end.
(** The failure of binding to one of the addresses, [t] if there is none to try: an address no socket can be made for is passed over. *)
Fixpoint listen_fail (fam : Z) (t : errtext) (l : list entry) : option errtext :=
  match l with
  | [] => Some t
  | p :: r => match e_socket p with
              | inr e => listen_fail fam (Sys e) r
              | inl _ => option_map Sys (first_err [if fam =? AF_INET6 then e_v6 p else 0; fcntl_err (e_fcntl p); e_reuse p; e_nodelay p; e_bind p])
              end
  end.
(** The failure of binding to a source address. *)
Definition src_fail (a : Z + list Z) : option errtext :=
  match a with
  | inl rc => Some (Gai rc)
  | inr l => if existsb (Z.eqb 0) l then None else match l with [] => None | _ => Some (Sys (last l 0)) end
  end.
(** The failure of connecting to one of the addresses; None: connected, or the connection is being made. *)
Fixpoint connect_fail (src block : bool) (t : errtext) (l : list entry) : option errtext :=
  match l with
  | [] => Some t
  | p :: r =>
      match e_socket p with
      | inr e => connect_fail src block (Sys e) r
      | inl _ =>
          match first_err [fcntl_err (e_fcntl p); e_reuse p; e_nodelay p] with
          | Some e => Some (Sys e)
          | None =>
              match (if src then src_fail (e_src p) else None) with
              | Some t => Some t
              | None => if e_connect p =? 0 then None
                        else if negb block && ((e_connect p =? EINPROGRESS) || (e_connect p =? EAGAIN)) then None
                        else connect_fail src block (Sys (e_connect p)) r
              end
          end
      end
  end.
(** The addresses in the order they are tried. *)
Definition in_order (fam : Z) (l : list entry) : list entry :=
  filter (fun p => e_family p =? fam) l ++ filter (fun p => negb (e_family p =? fam)) l.

Lemma text_close s y e : text (fst (fst (sock_close s y e))) = text s.
Proof. unfold sock_close. destruct (fd s =? INVALID); reflexivity. Qed.
Lemma bind_error_text s y ec : text (fst (fst (bind_error s y ec))) = Sys (errno y) /\ snd (bind_error s y ec) = -1.
Proof. unfold bind_error. pose proof (text_close (errstr s y 0) y ec) as T. destruct (sock_close (errstr s y 0) y ec) as [[s' y'] rc]. cbn in *. auto. Qed.
Lemma set_blocking_err s y b a : let '(y', rc) := set_blocking s y b a in
  if fcntl_err a =? 0 then (match getfl a with inr _ => rc = -1 /\ errno y' = 0 | inl _ => rc = 0 /\ errno y' = errno y end) else rc = -1 /\ errno y' = fcntl_err a.
Proof.
  unfold set_blocking, fcntl_err. destruct (getfl a) as [fl|e]; [|cbn; destruct (Z.eqb_spec e 0); auto].
  destruct (setfl a =? 0); cbn; auto.
Qed.
(** System calls that fail report an error. *)
Definition real (p : entry) : Prop := match getfl (e_fcntl p) with inr e => e <> 0 | inl _ => True end.

Lemma bind_loop_text l : forall s y i ec, Forall real l ->
  let '(s', _, rc) := bind_loop s y i l ec in
  match listen_fail (family s) (Sys (errno y)) l with
  | Some t => rc = -1 /\ text s' = t
  | None => rc = 0 /\ text s' = text s
  end.
Proof.
  induction l as [|p l IH]; intros s y i ec Hr; cbn [bind_loop listen_fail].
  - pose proof (bind_error_text s y ec) as [A B]. destruct (bind_error s y ec) as [[s' y'] rc]. cbn in *. auto.
  - inversion Hr as [|? ? H1 H2]; subst. destruct (e_socket p) as [f|e]; [|exact (IH s (fails (did y (Tried i)) e) (i + 1) ec H2)].
    set (y1 := did (did y (Tried i)) (Opened f)). cbn [family with_fd].
    assert (BE : forall s y0 e0, errno y0 = e0 -> let '(s', _, rc) := bind_error s y0 ec in rc = -1 /\ text s' = Sys e0).
    { intros s0 y0 e0 <-. pose proof (bind_error_text s0 y0 ec) as [A B]. destruct (bind_error s0 y0 ec) as [[s' y'] rc]. cbn in *. auto. }
    cbn [first_err find].
    destruct (family s =? AF_INET6) eqn:E6; cbn [andb].
    + destruct (Z.eqb_spec (e_v6 p) 0) as [E|E]; cbn [negb option_map]; [|apply BE; reflexivity].
      set (y2 := did y1 (Option f V6ONLY)). pose proof (set_blocking_err (with_fd s f) y2 (blocking (with_fd s f)) (e_fcntl p)) as B.
      destruct (set_blocking (with_fd s f) y2 (blocking (with_fd s f)) (e_fcntl p)) as [y3 rc].
      unfold real in H1. destruct (Z.eqb_spec (fcntl_err (e_fcntl p)) 0) as [Ef|Ef]; cbn [negb option_map].
      * unfold fcntl_err in Ef. destruct (getfl (e_fcntl p)); [|contradiction]. destruct B as [-> _]. cbn [Z.eqb negb].
        destruct (e_reuse p =? 0); cbn [negb option_map]; [|apply BE; reflexivity]. destruct (e_nodelay p =? 0); cbn [negb option_map]; [|apply BE; reflexivity].
        destruct (e_bind p =? 0); cbn [negb option_map]; [cbn; auto|apply BE; reflexivity].
      * destruct B as [-> B]. cbn [Z.eqb negb]. apply BE. exact B.
    + cbn [Z.eqb negb].
      pose proof (set_blocking_err (with_fd s f) y1 (blocking (with_fd s f)) (e_fcntl p)) as B.
      destruct (set_blocking (with_fd s f) y1 (blocking (with_fd s f)) (e_fcntl p)) as [y3 rc].
      unfold real in H1. destruct (Z.eqb_spec (fcntl_err (e_fcntl p)) 0) as [Ef|Ef]; cbn [negb option_map].
      * unfold fcntl_err in Ef. destruct (getfl (e_fcntl p)); [|contradiction]. destruct B as [-> _]. cbn [Z.eqb negb].
        destruct (e_reuse p =? 0); cbn [negb option_map]; [|apply BE; reflexivity]. destruct (e_nodelay p =? 0); cbn [negb option_map]; [|apply BE; reflexivity].
        destruct (e_bind p =? 0); cbn [negb option_map]; [cbn; auto|apply BE; reflexivity].
      * destruct B as [-> B]. cbn [Z.eqb negb]. apply BE. exact B.
Qed.

(** Listening on a socket that is not a Unix socket. *)
Definition listen_message (s : sock) (a : listens) : option errtext :=
  match l_gai a with
  | inl rc => Some (Gai rc)
  | inr l => match listen_fail (family s) NoText l with
             | Some t => Some t
             | None => if l_listen a =? 0 then None else Some (Sys (l_listen a))
             end
  end.
Lemma listen_fail_any fam l t u : l <> [] -> listen_fail fam t l = listen_fail fam u l.
Proof. destruct l; [contradiction|reflexivity]. Qed.

Lemma src_loop_err s l : forall y rc, let '(y', rc') := src_loop s y rc l in
  if existsb (Z.eqb 0) l then rc' = 0 else match l with [] => rc' = rc /\ errno y' = errno y | _ => rc' = -1 /\ errno y' = last l 0 end.
Proof.
  induction l as [|e l IH]; intros y rc; cbn [src_loop existsb]; [auto|].
  destruct (Z.eqb_spec e 0) as [->|E]; [reflexivity|]. replace (0 =? e) with false by lia. cbn [orb].
  specialize (IH (fails y e) (-1)). destruct (src_loop s (fails y e) (-1) l) as [y' rc']. destruct (existsb (Z.eqb 0) l); [exact IH|].
  destruct l as [|e2 l]; [cbn in *; exact IH|]. destruct IH as [A B]. split; [exact A|]. rewrite B. reflexivity.
Qed.
Lemma bind_src_text s y a : (forall rc, a = inl rc -> rc <> 0) -> let '(s', y', rc) := bind_src s y a in
  fd s' = fd s /\ blocking s' = blocking s /\
  match src_fail a with Some t => rc = -1 /\ text s' = t | None => rc = 0 /\ text s' = text s end.
Proof.
  intro H. unfold bind_src, src_fail. destruct a as [rc|l].
  - cbn. specialize (H rc eq_refl). replace (rc =? 0) with false by lia. auto.
  - pose proof (src_loop_err s l (did y Resolved) 0) as L. destruct (src_loop s (did y Resolved) 0 l) as [y' rc].
    destruct (existsb (Z.eqb 0) l); [subst rc; cbn; auto|]. destruct l as [|e l]; [destruct L as [-> _]; cbn; auto|]. destruct L as [-> L]. cbn [Z.eqb]. cbn in *. rewrite L. auto.
Qed.

(** Connecting; the closes in between succeed. *)
Definition connect_ok (p : entry) : Prop := real p /\ e_close p = 0 /\ (forall rc, e_src p = inl rc -> rc <> 0).
Lemma round_text first fam src l : forall s y i r2, Forall connect_ok l ->
  let '(s', y', x) := connect_round s y first fam src i l in
  blocking s' = blocking s /\
  match x with
  | Next => connect_fail src (blocking s) (Sys (errno y)) (filter (fun p => Bool.eqb first (e_family p =? fam)) l ++ r2) = connect_fail src (blocking s) (Sys (errno y')) r2 /\ text s' = text s
  | Error => connect_fail src (blocking s) (Sys (errno y)) (filter (fun p => Bool.eqb first (e_family p =? fam)) l ++ r2) = Some (Sys (errno y'))
  | BindError => connect_fail src (blocking s) (Sys (errno y)) (filter (fun p => Bool.eqb first (e_family p =? fam)) l ++ r2) = Some (text s')
  | End rv => connect_fail src (blocking s) (Sys (errno y)) (filter (fun p => Bool.eqb first (e_family p =? fam)) l ++ r2) = None /\ text s' = text s /\ (rv = 0 \/ rv = -1 /\ errno y' = EAGAIN)
  end.
Proof.
  induction l as [|p l IH]; intros s y i r2 Hc; cbn [connect_round filter app]; [auto|].
  inversion Hc as [|? ? (H1 & H2 & H3) Hc']; subst.
  destruct (xorb first (e_family p =? fam)) eqn:X.
  - replace (Bool.eqb first (e_family p =? fam)) with false by (destruct first, (e_family p =? fam); cbn in *; congruence). exact (IH s y (i + 1) r2 Hc').
  - replace (Bool.eqb first (e_family p =? fam)) with true by (destruct first, (e_family p =? fam); cbn in *; congruence). cbn [app connect_fail].
    destruct (e_socket p) as [f|e]; [|exact (IH s (fails (did y (Tried i)) e) (i + 1) r2 Hc')].
    set (y1 := did (did y (Tried i)) (Opened f)). set (s1 := with_fd (with_family s (e_family p)) f). cbn [first_err find].
    pose proof (set_blocking_err s1 y1 (blocking s1) (e_fcntl p)) as B. destruct (set_blocking s1 y1 (blocking s1) (e_fcntl p)) as [y3 rc].
    unfold real in H1. destruct (Z.eqb_spec (fcntl_err (e_fcntl p)) 0) as [Ef|Ef]; cbn [negb].
    2:{ destruct B as [-> B]. cbn [Z.eqb negb]. rewrite B. auto. }
    unfold fcntl_err in Ef. destruct (getfl (e_fcntl p)); [|contradiction]. destruct B as [-> _]. cbn [Z.eqb negb].
    destruct (e_reuse p =? 0); cbn [negb]; [|cbn; auto]. destruct (e_nodelay p =? 0); cbn [negb]; [|cbn; auto].
    set (y5 := did (did y3 (Option f REUSEADDR)) (Option f NODELAY)).
    assert (S : let '(s', y', rc) := if src then bind_src s1 y5 (e_src p) else (s1, y5, 0) in
      fd s' = fd s1 /\ blocking s' = blocking s1 /\ match (if src then src_fail (e_src p) else None) with Some t => rc = -1 /\ text s' = t | None => rc = 0 /\ text s' = text s1 end).
    { destruct src; [apply bind_src_text; exact H3|auto]. }
    destruct (if src then bind_src s1 y5 (e_src p) else (s1, y5, 0)) as [[s2 y6] rc2]. destruct S as (S1 & S2 & S3). cbn [s1 blocking with_fd with_family text] in S2, S3.
    destruct (if src then src_fail (e_src p) else None) as [t|].
    { destruct S3 as [-> <-]. cbn [Z.eqb negb]. auto. }
    destruct S3 as [-> S3]. cbn [Z.eqb negb]. destruct (Z.eqb_spec (e_connect p) 0) as [E|E]; cbn [negb]; [cbn; auto|].
    cbn [fails errno]. rewrite S2. destruct (negb (blocking s) && ((e_connect p =? EINPROGRESS) || (e_connect p =? EAGAIN))); [cbn; auto 6|].
    assert (C : exists s4 y4 rc4, sock_close s2 (fails y6 (e_connect p)) (e_close p) = (s4, y4, rc4) /\ blocking s4 = blocking s /\ text s4 = text s /\ errno y4 = e_connect p).
    { unfold sock_close. rewrite H2. destruct (fd s2 =? INVALID); cbn; do 3 eexists; (split; [reflexivity|]); cbn; auto. }
    destruct C as (s4 & y4 & rc4 & -> & C1 & C2 & C3).
    specialize (IH s4 y4 (i + 1) r2 Hc'). destruct (connect_round s4 y4 first fam src (i + 1) l) as [[s' y'] x]. rewrite C1, C2, C3 in IH. exact IH.
Qed.

(** C154, listening: -1 comes with the message of the call that failed, 0 with none. *)
Theorem sock_listen_messages : forall (s : sock) (y : sys) (host : list Z) (a : listens), family s <> AF_UNIX ->
  match l_gai a with inl rc => rc <> 0 | inr l => l <> [] /\ Forall real l end ->
  exists s' y' rc, sock_listen s y host a = Ok (s', y', rc) /\
    match listen_message s a with None => rc = 0 /\ text s' = NoText | Some t => rc = -1 /\ text s' = t end.
Proof.
  intros s y host a Hf Ha. unfold sock_listen, sock_bind, listen_message. cbn [family with_text]. replace (family s =? AF_UNIX) with false by lia.
  destruct (l_gai a) as [rc|l].
  - cbn [bind]. unfold errstr. replace (rc =? 0) with false by lia. do 3 eexists. split; [reflexivity|]. auto.
  - destruct Ha as [Hl Hr]. cbn [bind]. pose proof (bind_loop_text l (with_text s NoText) (did y Resolved) 0 (l_close a) Hr) as B.
    destruct (bind_loop (with_text s NoText) (did y Resolved) 0 l (l_close a)) as [[s1 y1] rc]. cbn [family with_text text] in B.
    rewrite (listen_fail_any _ _ _ NoText Hl) in B. cbn [bind]. destruct (listen_fail (family s) NoText l) as [t|].
    + destruct B as [-> B]. cbn [Z.eqb negb]. do 3 eexists. split; [reflexivity|]. auto.
    + destruct B as [-> B]. cbn [Z.eqb negb]. destruct (l_listen a =? 0) eqn:E; [do 3 eexists; split; [reflexivity|]; auto|].
      cbv zeta. pose proof (text_close (errstr s1 (fails y1 (l_listen a)) 0) (fails y1 (l_listen a)) (l_close2 a)) as T.
      destruct (sock_close _ _ _) as [[s2 y2] rc2]. do 3 eexists. split; [reflexivity|]. split; [reflexivity|]. exact T.
Qed.
Print Assumptions sock_listen_messages.

(** C154, connecting: if the closes of refused sockets succeed, -1 comes with the message of the call that failed last, of the one that failed before
    all addresses were tried, or of the source address; while the connection is being made (EAGAIN) and for 0 the message is left alone.
    Missing: closes that fail, see [sock_connect_messages_refuted]. *)
Theorem sock_connect_messages_partial : forall (s : sock) (y : sys) (dst : list Z) (src : bool) (a : connects), family s <> AF_UNIX ->
  match c_gai a with inl rc => rc <> 0 | inr l => l <> [] /\ Forall connect_ok l end ->
  exists s' y' rc, sock_connect s y dst src a = Ok (s', y', rc) /\
    match (match c_gai a with inl rc => Some (Gai rc) | inr l => connect_fail src (blocking s) NoText (in_order (family s) l) end) with
    | None => (rc = 0 \/ rc = -1 /\ errno y' = EAGAIN) /\ text s' = text s
    | Some t => rc = -1 /\ text s' = t
    end.
Proof.
  intros s y dst src a Hf Ha. unfold sock_connect. replace (family s =? AF_UNIX) with false by lia. destruct (c_gai a) as [rc|l].
  - cbn [bind]. unfold errstr. replace (rc =? 0) with false by lia. do 3 eexists. split; [reflexivity|]. auto.
  - destruct Ha as [Hl Hc].
    assert (F1 : forall l, filter (fun p => Bool.eqb true (e_family p =? family s)) l = filter (fun p => e_family p =? family s) l) by (intro q; apply filter_ext; intro p; destruct (_ =? _); reflexivity).
    assert (F2 : forall l, filter (fun p => Bool.eqb false (e_family p =? family s)) l = filter (fun p => negb (e_family p =? family s)) l) by (intro q; apply filter_ext; intro p; destruct (_ =? _); reflexivity).
    assert (Any : forall b l t u, l <> [] -> connect_fail src b t l = connect_fail src b u l) by (intros b [|q l'] t u H; [contradiction|reflexivity]).
    assert (Ne : in_order (family s) l <> []).
    { unfold in_order. destruct l as [|p l]; [contradiction|]. cbn [filter]. destruct (e_family p =? family s); cbn [negb]; [discriminate|]. intro E. apply app_eq_nil in E as [_ E]. discriminate. }
    assert (En : forall s1 y1 x, let '(s', y', rc) := connect_end s1 y1 x (c_close a) in
      match x with End rv => rc = rv /\ text s' = text s1 /\ errno y' = errno y1 | BindError => rc = -1 /\ text s' = text s1 | _ => rc = -1 /\ text s' = Sys (errno y1) end).
    { intros s1 y1 x. unfold connect_end. destruct x as [| | |rv]; [| | |cbn; auto].
      - pose proof (text_close (errstr s1 y1 0) y1 (c_close a)) as T. destruct (sock_close _ _ _) as [[s2 y2] rc2]. cbn in *. auto.
      - pose proof (text_close (errstr s1 y1 0) y1 (c_close a)) as T. destruct (sock_close _ _ _) as [[s2 y2] rc2]. cbn in *. auto.
      - pose proof (text_close s1 y1 (c_close a)) as T. destruct (sock_close _ _ _) as [[s2 y2] rc2]. cbn in *. auto. }
    rewrite (Any (blocking s) _ NoText (Sys (errno (did y Resolved))) Ne). unfold in_order.
    pose proof (round_text true (family s) src l s (did y Resolved) 0 (filter (fun p => negb (e_family p =? family s)) l) Hc) as R1. rewrite F1 in R1.
    destruct (connect_round s (did y Resolved) true (family s) src 0 l) as [[s1 y1] x]. destruct R1 as [Bs R1].
    destruct x as [| | |rv].
    + pose proof (round_text false (family s) src l s1 y1 0 [] Hc) as R2. rewrite F2, app_nil_r, Bs in R2.
      destruct (connect_round s1 y1 false (family s) src 0 l) as [[s2 y2] x2]. destruct R2 as [_ R2]. destruct R1 as [R1 T1].
      specialize (En s2 y2 x2). destruct (connect_end s2 y2 x2 (c_close a)) as [[s3 y3] rc]. do 3 eexists. split; [reflexivity|]. rewrite R1.
      destruct x2 as [| | |rv].
      * destruct R2 as [-> _]. cbn [connect_fail]. exact En.
      * rewrite R2. exact En.
      * rewrite R2. exact En.
      * destruct R2 as (-> & T2 & V). destruct En as (-> & T3 & E3). split; [|congruence]. rewrite E3. exact V.
    + specialize (En s1 y1 Error). destruct (connect_end s1 y1 Error (c_close a)) as [[s3 y3] rc]. do 3 eexists. split; [reflexivity|]. rewrite R1. exact En.
    + specialize (En s1 y1 BindError). destruct (connect_end s1 y1 BindError (c_close a)) as [[s3 y3] rc]. do 3 eexists. split; [reflexivity|]. rewrite R1. exact En.
    + specialize (En s1 y1 (End rv)). destruct (connect_end s1 y1 (End rv) (c_close a)) as [[s3 y3] rc]. do 3 eexists. split; [reflexivity|].
      destruct R1 as (-> & T1 & V). destruct En as (-> & T3 & E3). split; [|congruence]. rewrite E3. exact V.
Qed.
Print Assumptions sock_connect_messages_partial.

(** C154, Unix sockets. *)
Theorem sock_unix_messages : forall (s s' : sock) (y y' : sys) (path : list Z) (rc : Z), family s = AF_UNIX ->
  (forall a, sock_listen s y path a = Ok (s', y', rc) ->
     match l_socket a with
     | inr e => rc = -1 /\ text s' = Sys e
     | inl _ => match first_err [l_bind a; l_listen a] with None => rc = 0 /\ text s' = NoText | Some e => rc = -1 /\ text s' = Sys e end
     end) /\
  (forall src a, sock_connect s y path src a = Ok (s', y', rc) -> exists n, strlen path = Ok n /\
     match c_socket a with
     | inr e => rc = -1 /\ text s' = Sys e
     | inl _ => match first_err [if 108 <=? n then EINVAL else 0; c_connect a] with None => rc = 0 /\ text s' = text s | Some e => rc = -1 /\ text s' = Sys e end
     end).
Proof.
  intros s s' y y' path rc Hf. split.
  - intros a H. unfold sock_listen, sock_bind in H. cbn [family with_text] in H. rewrite Hf in H. rewrite Z.eqb_refl in H. cbv zeta in H.
    assert (C : forall s1 y1, let '(s2, _, _) := sock_close (errstr s1 y1 0) y1 (l_close a) in text s2 = Sys (errno y1)).
    { intros s1 y1. pose proof (text_close (errstr s1 y1 0) y1 (l_close a)) as T. destruct (sock_close _ _ _) as [[s2 y2] r]. exact T. }
    destruct (l_socket a) as [f|e].
    + unfold bind_unix in H. destruct (strncpy _ path _) as [p| |]; try discriminate. cbn [bind] in H. destruct (cstring path) as [h| |]; try discriminate. cbn [bind] in H.
      destruct (cstring p) as [nm| |]; try discriminate. cbn [bind first_err find] in *. unfold first_err in *; cbn [find]; destruct (l_bind a =? 0) eqn:Eb; cbn [bind Z.eqb negb] in *.
      * destruct (l_listen a =? 0) eqn:El; cbn [negb].
        { injection H as <- _ <-. split; [reflexivity|]. first [reflexivity | exact T | exact C]. }
        pose proof (text_close (errstr (with_fd (with_text s NoText) f) (fails (did (if l_unlink a =? 0 then did (did (did y (Tried 0)) (Opened f)) (Unlink h) else fails (did (did y (Tried 0)) (Opened f)) (l_unlink a)) (Bound (fd (with_fd (with_text s NoText) f)) nm)) (l_listen a)) 0) (fails (did (if l_unlink a =? 0 then did (did (did y (Tried 0)) (Opened f)) (Unlink h) else fails (did (did y (Tried 0)) (Opened f)) (l_unlink a)) (Bound (fd (with_fd (with_text s NoText) f)) nm)) (l_listen a)) (l_close2 a)) as T.
        destruct (sock_close _ _ (l_close2 a)) as [[s2 y2] r]. cbn [fst] in T. injection H as <- _ <-. split; [reflexivity|]. first [reflexivity | exact T | exact C].
      * match type of H with context[sock_close (errstr ?a ?b 0) ?b _] => specialize (C a b) end. destruct (sock_close _ _ _) as [[s2 y2] r]. cbn [bind Z.eqb negb] in H. injection H as <- _ <-. split; [reflexivity|]. first [reflexivity | exact T | exact C].
    + match type of H with context[sock_close (errstr ?a ?b 0) ?b _] => specialize (C a b) end. destruct (sock_close _ _ _) as [[s2 y2] r]. cbn [bind Z.eqb negb] in H. injection H as <- _ <-. split; [reflexivity|]. first [reflexivity | exact T | exact C].
  - intros src a H. unfold sock_connect, connect_unix in H. rewrite Hf in H. rewrite Z.eqb_refl in H. destruct (strlen path) as [n| |]; try discriminate. exists n. split; [reflexivity|]. cbn [bind] in H. cbv zeta in H.
    assert (C : forall s1 y1, let '(s2, _, _) := sock_close (errstr s1 y1 0) y1 (c_unix_close a) in text s2 = Sys (errno y1)).
    { intros s1 y1. pose proof (text_close (errstr s1 y1 0) y1 (c_unix_close a)) as T. destruct (sock_close _ _ _) as [[s2 y2] r]. exact T. }
    destruct (c_socket a) as [f|e].
    + change SUN_PATH with 108 in H. cbn [first_err find]. destruct (108 <=? n).
      * cbn [Z.eqb negb]. match type of H with context[sock_close (errstr ?a ?b 0) ?b _] => specialize (C a b) end. destruct (sock_close _ _ _) as [[s2 y2] r]. injection H as <- _ <-. split; [reflexivity|]. first [reflexivity | exact T | exact C].
      * cbn [Z.eqb negb]. destruct (bytes_at path 0 (n + 1)) as [b| |]; try discriminate. cbn [bind] in H. destruct (memcpy _ 0 b) as [p| |]; try discriminate. cbn [bind] in H. destruct (cstring p) as [nm| |]; try discriminate. cbn [bind] in H.
        destruct (c_connect a =? 0) eqn:E; cbn [negb] in *; [injection H as <- _ <-; auto|].
        match type of H with context[sock_close (errstr ?a ?b 0) ?b _] => specialize (C a b) end. destruct (sock_close _ _ _) as [[s2 y2] r]. injection H as <- _ <-. split; [reflexivity|]. first [reflexivity | exact T | exact C].
    + match type of H with context[sock_close (errstr ?a ?b 0) ?b _] => specialize (C a b) end. destruct (sock_close _ _ _) as [[s2 y2] r]. injection H as <- _ <-. split; [reflexivity|]. first [reflexivity | exact T | exact C].
Qed.
Print Assumptions sock_unix_messages.

(** C154, accepting: the message is in the structure of the listener; closing and setting a time limit. *)
Theorem sock_other_messages : forall (s n : sock) (y : sys),
  (forall ac nd fc el, match getfl fc with inr e => e <> 0 | inl _ => True end ->
     let '(s', n', y', rc) := sock_accept s n y ac nd fc el in text n' = text n /\
     match ac with
     | inr e => rc = -1 /\ (if negb (blocking s) && (e =? EAGAIN) then text s' = text s /\ errno y' = EAGAIN else text s' = Sys e)
     | inl _ => match first_err [if family s =? AF_UNIX then 0 else nd; fcntl_err fc] with None => rc = 0 /\ text s' = text s | Some e => rc = -1 /\ text s' = Sys e end
     end) /\
  (forall e, let '(s', y', rc) := sock_term s y e in if (fd s =? -1) || (e =? 0) then rc = 0 /\ text s' = text s else rc = -1 /\ text s' = Sys e) /\
  (forall ms e, let '(s', y', _, rc) := set_timeo s y ms e in if e =? 0 then rc = 0 /\ text s' = text s else rc = -1 /\ text s' = Sys e).
Proof.
  intros s n y. split; [|split].
  - intros ac nd fc el Hfc. unfold sock_accept. destruct ac as [f|e].
    2:{ cbn [errno fails]. destruct (negb (blocking s) && (e =? EAGAIN)); cbn; auto. }
    cbn [family first_err find].
    assert (C : forall n0 y1, text n0 = text n -> let '(s', n', y', rc) := (let s0 := errstr s y1 0 in let '(n2, y2, _) := sock_close n0 y1 el in (s0, n2, y2, -1)) in text n' = text n /\ rc = -1 /\ text s' = Sys (errno y1)).
    { intros n0 y1 Hn. cbv zeta. pose proof (text_close n0 y1 el) as T. destruct (sock_close n0 y1 el) as [[n2 y2] r]. cbn in *. split; [congruence|auto]. }
    set (n1 := mk_sock f 0 (typ n) (blocking n) (family s) (text n)). assert (N1 : text n1 = text n) by reflexivity.
    assert (K : forall y1, (let '(y0, rc) := set_blocking n1 y1 (blocking s) fc in
        if negb (rc =? 0) then (let s0 := errstr s y0 0 in let '(n2, y2, _) := sock_close n1 y0 el in (s0, n2, y2, -1)) else (s, n1, y0, 0)) =
        (if fcntl_err fc =? 0 then (s, n1, fst (set_blocking n1 y1 (blocking s) fc), 0) else (let y0 := fails y1 (fcntl_err fc) in let s0 := errstr s y0 0 in let '(n2, y2, _) := sock_close n1 y0 el in (s0, n2, y2, -1)))).
    { intro y1. unfold set_blocking, fcntl_err. destruct (getfl fc) as [fl|e]; [|replace (e =? 0) with false by lia; reflexivity]. destruct (setfl fc =? 0); reflexivity. }
    destruct (family s =? AF_UNIX); cbn [negb andb].
    + cbn [Z.eqb negb]. rewrite K. destruct (fcntl_err fc =? 0) eqn:E; cbn [negb]; [auto|]. exact (C n1 _ N1).
    + destruct (nd =? 0) eqn:E; cbn [negb]; [|exact (C n1 _ N1)]. rewrite K. destruct (fcntl_err fc =? 0) eqn:E2; cbn [negb]; [auto|]. exact (C n1 _ N1).
  - intro e. unfold sock_term, sock_close. change INVALID with (-1). destruct (fd s =? -1); cbn [orb]; [auto|]. destruct (e =? 0) eqn:E; cbn; auto.
  - intros ms e. unfold set_timeo. destruct (e =? 0); cbn; auto.
Qed.
Print Assumptions sock_other_messages.

(** Two addresses: no socket for the first, the second refuses (111); a source address that cannot be bound (98) ends the call; the listener's port is taken. *)
Definition plain (fam : Z) (sk : Z + Z) (src : Z + list Z) (bd cn cl : Z) : entry := mk_entry fam [1] sk 0 (mk_fcntls (inl 2) 0) 0 0 bd src cn cl.
Example sock_messages_ex :
  let s := sock_init 0 true AF_INET in let y := mk_sys [] 0 in
  let l := [plain AF_INET (inr 24) (inr [0]) 0 0 0; plain AF_INET6 (inl 5) (inr [0]) 98 111 0] in
  let l2 := [plain AF_INET (inl 5) (inr [99; 98]) 98 111 0] in
  (l <> [] /\ Forall connect_ok l) /\ connect_fail false true NoText (in_order AF_INET l) = Some (Sys 111) /\
  (l2 <> [] /\ Forall connect_ok l2) /\ connect_fail true true NoText (in_order AF_INET l2) = Some (Sys 98) /\
  Forall real l2 /\ listen_message s (mk_listens (inr l2) (inl 0) 0 0 0 0 0) = Some (Sys 98) /\
  (exists s' y', sock_connect s y [] false (mk_connects (inl 0) 0 0 (inr l) 0) = Ok (s', y', -1) /\ text s' = Sys 111 /\ fd s' = -1).
Proof.
  cbv zeta. split; [split; [discriminate|repeat constructor; discriminate]|]. split; [reflexivity|]. split; [split; [discriminate|repeat constructor; discriminate]|]. split; [reflexivity|].
  split; [repeat constructor|]. split; [reflexivity|]. do 2 eexists. split; [vm_compute; reflexivity|]. split; reflexivity.
Qed.

(** The address refuses (111) and closing the socket fails with EIO (5): the message is that of EIO. *)
Theorem sock_connect_messages_refuted : exists (s s' : sock) (y y' : sys) (a : connects),
  c_gai a = inr [plain AF_INET (inl 5) (inr [0]) 0 111 5] /\ sock_connect s y [] false a = Ok (s', y', -1) /\ family s <> AF_UNIX /\ text s' = Sys 5.
Proof.
  exists (sock_init 0 true AF_INET). do 2 eexists. eexists. exists (mk_connects (inl 0) 0 0 (inr [plain AF_INET (inl 5) (inr [0]) 0 111 5]) 0).
  split; [reflexivity|]. split; [reflexivity|]. split; [discriminate|reflexivity].
  Unshelve. exact (mk_sys [] 0).
Qed.
Print Assumptions sock_connect_messages_refuted.
