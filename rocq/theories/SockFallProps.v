(** Properties C163 and C164: the addresses tried by sc_sock_listen, and what a socket structure records. *)
From Verif Require Import Base CStr CNum IniModel SockModel SockSpec.
From Coq Require Import ZifyBool.

(** The addresses with their positions. *)
Fixpoint positions (i : Z) (l : list entry) : list (Z * entry) :=
  match l with [] => [] | p :: r => (i, p) :: positions (i + 1) r end.
(** No socket can be made for the address. *)
Definition no_socket (q : Z * entry) : Prop := exists e, e_socket (snd q) = inr e.
(** The calls for a socket of the address succeed, up to bind. *)
Definition bindable (fam : Z) (p : entry) : Prop :=
  (exists f, e_socket p = inl f) /\ setup_ok p /\ (fam = AF_INET6 -> e_v6 p = 0) /\ e_bind p = 0.
(** The fields a call is not to change. *)
Definition same_fields (s s' : sock) : Prop := op s' = op s /\ typ s' = typ s /\ blocking s' = blocking s.

Lemma tried_app a b : tried (a ++ b) = tried a ++ tried b.
Proof. induction a as [|x a IH]; [reflexivity|]. cbn [app tried]. destruct x; rewrite IH; reflexivity. Qed.
Lemma close_quiet s y e : let '(s', y', _) := sock_close s y e in
  same_fields s s' /\ family s' = family s /\ exists tr, acts y' = acts y ++ tr /\ tried tr = [].
Proof.
  unfold sock_close. destruct (fd s =? INVALID).
  - split; [repeat split|]. split; [reflexivity|]. exists []. now rewrite app_nil_r.
  - split; [repeat split|]. split; [reflexivity|]. exists [Closed (fd s)]. destruct (e =? 0); split; reflexivity.
Qed.
Lemma bind_error_quiet s y ec : let '(s', y', rc) := bind_error s y ec in
  rc = -1 /\ same_fields s s' /\ family s' = family s /\ exists tr, acts y' = acts y ++ tr /\ tried tr = [].
Proof.
  unfold bind_error. pose proof (close_quiet (errstr s y 0) y ec) as Q. destruct (sock_close (errstr s y 0) y ec) as [[s' y'] rc].
  destruct Q as (Q & F & tr & A & T). split; [reflexivity|]. split; [exact Q|]. split; [exact F|]. exists (tr ++ [FreeList]).
  cbn [did acts]. rewrite A, <- app_assoc, tried_app, T. split; reflexivity.
Qed.

(** What the loop of sc_sock_bind has done: [dn] was tried, [rest] was not. *)
Definition bind_shape (s : sock) (y : sys) (l : list (Z * entry)) (s' : sock) (y' : sys) (rc : Z) : Prop :=
  same_fields s s' /\ family s' = family s /\
  exists tr dn rest, acts y' = acts y ++ tr /\ dn ++ rest = l /\ tried tr = map fst dn /\
    ((rc = -1 /\ rest = [] /\ Forall no_socket dn) \/
     exists d k p, dn = d ++ [(k, p)] /\ Forall no_socket d /\ ~ no_socket (k, p) /\
       ((rc = 0 /\ bindable (family s) p /\ e_socket p = inl (fd s') /\ In (Bound (fd s') (e_addr p)) tr) \/ (rc = -1 /\ ~ bindable (family s) p))).

Lemma bind_loop_shape l : forall s y i ec, let '(s', y', rc) := bind_loop s y i l ec in bind_shape s y (positions i l) s' y' rc.
Proof.
  induction l as [|p l IH]; intros s y i ec; cbn [bind_loop positions].
  - pose proof (bind_error_quiet s y ec) as Q. destruct (bind_error s y ec) as [[s' y'] rc]. destruct Q as (-> & Q & F & tr & A & T).
    split; [exact Q|]. split; [exact F|]. exists tr, [], []. split; [exact A|]. split; [reflexivity|]. split; [exact T|]. left. auto.
  - destruct (e_socket p) as [f|e] eqn:Es.
    2:{ specialize (IH s (fails (did y (Tried i)) e) (i + 1) ec). destruct (bind_loop s (fails (did y (Tried i)) e) (i + 1) l ec) as [[s' y'] rc].
        destruct IH as (Q & F & tr & dn & rest & A & L & T & D). split; [exact Q|]. split; [exact F|].
        assert (N : no_socket (i, p)) by (exists e; exact Es).
        exists (Tried i :: tr), ((i, p) :: dn), rest. cbn [acts fails did] in A. rewrite <- app_assoc in A. split; [exact A|]. cbn [app tried map fst]. rewrite L, T.
        split; [reflexivity|]. split; [reflexivity|]. destruct D as [(D1 & D2 & D3)|(d & k & q & -> & D1 & D2 & D3)]; [left; auto|right].
        exists ((i, p) :: d), k, q. split; [reflexivity|]. split; [now constructor|]. split; [exact D2|].
        destruct D3 as [(? & ? & ? & I)|D3]; [left|right; exact D3]. repeat (split; [assumption|]). now right. }
    assert (N : ~ no_socket (i, p)) by (intros [e E]; cbn in E; congruence).
    assert (BE : forall y0 tr0, acts y0 = acts y ++ Tried i :: tr0 -> tried tr0 = [] -> ~ bindable (family s) p ->
      let '(s', y', rc) := bind_error (with_fd s f) y0 ec in bind_shape s y ((i, p) :: positions (i + 1) l) s' y' rc).
    { intros y0 tr0 A0 T0 NB. pose proof (bind_error_quiet (with_fd s f) y0 ec) as Q. destruct (bind_error (with_fd s f) y0 ec) as [[s' y'] rc].
      destruct Q as (-> & Q & F & tr & A & T). split; [exact Q|]. split; [exact F|]. exists ((Tried i :: tr0) ++ tr), [(i, p)], (positions (i + 1) l).
      split; [rewrite A, A0, <- app_assoc; reflexivity|]. split; [reflexivity|]. split; [rewrite tried_app; cbn; now rewrite T0, T|].
      right. exists [], i, p. split; [reflexivity|]. split; [constructor|]. split; [exact N|]. right. auto. }
    cbn [family with_fd blocking].
    set (y1 := did (did y (Tried i)) (Opened f)).
    destruct (family s =? AF_INET6) eqn:E6; cbn [andb].
    + assert (F6 : family s = AF_INET6) by lia.
      destruct (Z.eqb_spec (e_v6 p) 0) as [V|V]; cbn [negb].
      2:{ apply (BE _ [Opened f]); [cbn; rewrite <- app_assoc; reflexivity|reflexivity|]. intros (_ & _ & H & _). auto. }
      unfold set_blocking. destruct (getfl (e_fcntl p)) as [fl|e] eqn:G.
      2:{ cbn [Z.eqb negb]. apply (BE _ [Opened f; Option f V6ONLY]); [cbn; rewrite <- !app_assoc; reflexivity|reflexivity|]. intros (_ & ((fl & H) & _) & _). congruence. }
      destruct (Z.eqb_spec (setfl (e_fcntl p)) 0) as [W|W]; cbn [Z.eqb negb].
      2:{ apply (BE _ [Opened f; Option f V6ONLY]); [cbn; rewrite <- !app_assoc; reflexivity|reflexivity|]. intros (_ & (_ & H & _) & _). auto. }
      destruct (Z.eqb_spec (e_reuse p) 0) as [R|R]; cbn [negb].
      2:{ eapply (BE _ [Opened f; Option f V6ONLY; Flags f _]); [cbn; rewrite <- !app_assoc; reflexivity|reflexivity|]. intros (_ & (_ & _ & H & _) & _). auto. }
      destruct (Z.eqb_spec (e_nodelay p) 0) as [D|D]; cbn [negb].
      2:{ eapply (BE _ [Opened f; Option f V6ONLY; Flags f _; Option f REUSEADDR]); [cbn; rewrite <- !app_assoc; reflexivity|reflexivity|]. intros (_ & (_ & _ & _ & H) & _). auto. }
      destruct (Z.eqb_spec (e_bind p) 0) as [B|B]; cbn [negb].
      2:{ eapply (BE _ [Opened f; Option f V6ONLY; Flags f _; Option f REUSEADDR; Option f NODELAY]); [cbn; rewrite <- !app_assoc; reflexivity|reflexivity|]. intros (_ & _ & _ & H). auto. }
      split; [repeat split|]. split; [reflexivity|]. eexists (Tried i :: Opened f :: Option f V6ONLY :: Flags f _ :: Option f REUSEADDR :: Option f NODELAY :: Bound f (e_addr p) :: FreeList :: []), [(i, p)], _.
      split; [cbn; rewrite <- !app_assoc; reflexivity|]. split; [reflexivity|]. split; [reflexivity|]. right. exists [], i, p. split; [reflexivity|]. split; [constructor|]. split; [exact N|].
      left. split; [reflexivity|]. split; [|split; [exact Es|cbn; tauto]]. split; [eauto|]. split; [unfold setup_ok; eauto|]. auto.
    + unfold set_blocking. destruct (getfl (e_fcntl p)) as [fl|e] eqn:G.
      2:{ cbn [Z.eqb negb]. apply (BE _ [Opened f]); [cbn; rewrite <- !app_assoc; reflexivity|reflexivity|]. intros (_ & ((fl & H) & _) & _). congruence. }
      destruct (Z.eqb_spec (setfl (e_fcntl p)) 0) as [W|W]; cbn [Z.eqb negb].
      2:{ apply (BE _ [Opened f]); [cbn; rewrite <- !app_assoc; reflexivity|reflexivity|]. intros (_ & (_ & H & _) & _). auto. }
      destruct (Z.eqb_spec (e_reuse p) 0) as [R|R]; cbn [negb].
      2:{ eapply (BE _ [Opened f; Flags f _]); [cbn; rewrite <- !app_assoc; reflexivity|reflexivity|]. intros (_ & (_ & _ & H & _) & _). auto. }
      destruct (Z.eqb_spec (e_nodelay p) 0) as [D|D]; cbn [negb].
      2:{ eapply (BE _ [Opened f; Flags f _; Option f REUSEADDR]); [cbn; rewrite <- !app_assoc; reflexivity|reflexivity|]. intros (_ & (_ & _ & _ & H) & _). auto. }
      destruct (Z.eqb_spec (e_bind p) 0) as [B|B]; cbn [negb].
      2:{ eapply (BE _ [Opened f; Flags f _; Option f REUSEADDR; Option f NODELAY]); [cbn; rewrite <- !app_assoc; reflexivity|reflexivity|]. intros (_ & _ & _ & H). auto. }
      split; [repeat split|]. split; [reflexivity|]. eexists (Tried i :: Opened f :: Flags f _ :: Option f REUSEADDR :: Option f NODELAY :: Bound f (e_addr p) :: FreeList :: []), [(i, p)], _.
      split; [cbn; rewrite <- !app_assoc; reflexivity|]. split; [reflexivity|]. split; [reflexivity|]. right. exists [], i, p. split; [reflexivity|]. split; [constructor|]. split; [exact N|].
      left. split; [reflexivity|]. split; [|split; [exact Es|cbn; tauto]]. split; [eauto|]. split; [unfold setup_ok; eauto|]. split; [intro H; unfold AF_INET6 in *; lia|exact B].
Qed.

(** ** C163: the addresses tried by listen *)

(** sc_sock_listen tries the addresses in the order given, going on to the next one exactly if no socket can be made for it; the call
    succeeds, bound to the last address tried, exactly if the calls for that one and listen succeed.  Missing, because false
    (sock_listen_order_refuted): that it goes on if bind fails. *)
Theorem sock_listen_order_partial : forall (s : sock) (y : sys) (host : list Z) (a : listens) (l : list entry),
  family s <> AF_UNIX -> l_gai a = inr l ->
  exists s' y' rc tr dn rest, sock_listen s y host a = Ok (s', y', rc) /\ acts y' = acts y ++ tr /\
    dn ++ rest = positions 0 l /\ tried tr = map fst dn /\
    (rest = [] /\ Forall no_socket dn /\ rc = -1 \/
     exists d k p, dn = d ++ [(k, p)] /\ Forall no_socket d /\ ~ no_socket (k, p) /\
       (rc = 0 <-> bindable (family s) p /\ l_listen a = 0) /\ (rc <> 0 -> rc = -1) /\
       (rc = 0 -> e_socket p = inl (fd s') /\ In (Bound (fd s') (e_addr p)) tr /\ In (Listening (fd s')) tr)).
Proof.
  intros s y host a l Hf Hl. unfold sock_listen, sock_bind. cbn [family with_text].
  replace (family s =? AF_UNIX) with false by lia. rewrite Hl. cbn [bind].
  pose proof (bind_loop_shape l (with_text s NoText) (did y Resolved) 0 (l_close a)) as B.
  destruct (bind_loop (with_text s NoText) (did y Resolved) 0 l (l_close a)) as [[s1 y1] rc1]. cbn [bind].
  destruct B as (_ & _ & tr & dn & rest & A & L & T & D). cbn [did acts] in A. rewrite <- app_assoc in A. cbn [app] in A.
  destruct D as [(-> & -> & D)|(d & k & p & -> & D1 & D2 & [(-> & D3 & D4 & D5)|(-> & D3)])].
  - cbn [Z.eqb negb]. exists s1, y1, (-1), (Resolved :: tr), dn, []. split; [reflexivity|]. split; [exact A|]. split; [exact L|]. split; [exact T|]. auto.
  - cbn [Z.eqb negb]. cbn [family with_text] in D3. destruct (Z.eqb_spec (l_listen a) 0) as [E|E].
    + do 3 eexists. exists (Resolved :: tr ++ [Listening (fd s1)]), (d ++ [(k, p)]), rest. split; [reflexivity|]. split; [cbn [did acts]; rewrite A, <- app_assoc; reflexivity|].
      split; [exact L|]. split; [cbn [tried]; rewrite tried_app, T; cbn [tried]; now rewrite app_nil_r|]. right. exists d, k, p. split; [reflexivity|]. split; [exact D1|]. split; [exact D2|].
      split; [tauto|]. split; [tauto|]. intros _. split; [exact D4|]. split; right; apply in_or_app; [left; exact D5|right; now left].
    + pose proof (close_quiet (errstr s1 (fails y1 (l_listen a)) 0) (fails y1 (l_listen a)) (l_close2 a)) as Q.
      destruct (sock_close (errstr s1 (fails y1 (l_listen a)) 0) (fails y1 (l_listen a)) (l_close2 a)) as [[s2 y2] rc2]. destruct Q as (_ & _ & tr2 & A2 & T2).
      do 3 eexists. exists (Resolved :: tr ++ tr2), (d ++ [(k, p)]), rest. split; [reflexivity|]. split; [rewrite A2; cbn [fails acts]; rewrite A, <- app_assoc; reflexivity|].
      split; [exact L|]. split; [cbn [tried]; rewrite tried_app, T, T2; now rewrite app_nil_r|]. right. exists d, k, p. split; [reflexivity|]. split; [exact D1|]. split; [exact D2|].
      split; [split; [discriminate|tauto]|]. split; [reflexivity|discriminate].
  - cbn [Z.eqb negb]. cbn [family with_text] in D3. exists s1, y1, (-1), (Resolved :: tr), (d ++ [(k, p)]), rest. split; [reflexivity|]. split; [exact A|]. split; [exact L|]. split; [exact T|].
    right. exists d, k, p. split; [reflexivity|]. split; [exact D1|]. split; [exact D2|]. split; [split; [discriminate|tauto]|]. split; [reflexivity|discriminate].
Qed.
Print Assumptions sock_listen_order_partial.

Definition ok_entry (fam : Z) (n : Z) (sk : Z + Z) (eb : Z) : entry := mk_entry fam [n] sk 0 (mk_fcntls (inl 2) 0) 0 0 eb (inr []) 0 0.
(** No socket for the first address, so the second is taken and the third not looked at. *)
Example sock_listen_order_ex :
  let a := mk_listens (inr [ok_entry AF_INET 97 (inr 24) 0; ok_entry AF_INET 98 (inl 5) 0; ok_entry AF_INET 99 (inl 6) 0]) (inr 1) 0 0 0 0 0 in
  exists s' y', sock_listen (sock_init 7 true AF_INET) (mk_sys [] 0) [104; 0] a = Ok (s', y', 0) /\ fd s' = 5 /\
    tried (acts y') = [0; 1] /\ In (Bound 5 [98]) (acts y').
Proof. do 2 eexists. split; [vm_compute; reflexivity|]. vm_compute. tauto. Qed.
(** The first address is in use; the second would do but is not tried. *)
Theorem sock_listen_order_refuted : exists (s : sock) (a : listens) (p q : entry) (s' : sock) (y' : sys),
  fd s = -1 /\ family s = AF_INET /\ l_gai a = inr [p; q] /\ ~ bindable (family s) p /\ bindable (family s) q /\ l_listen a = 0 /\
  sock_listen s (mk_sys [] 0) [104; 0] a = Ok (s', y', -1) /\ tried (acts y') = [0].
Proof.
  exists (sock_init 7 true AF_INET), (mk_listens (inr [ok_entry AF_INET 97 (inl 5) 98; ok_entry AF_INET 98 (inl 6) 0]) (inr 1) 0 0 0 0 0), (ok_entry AF_INET 97 (inl 5) 98), (ok_entry AF_INET 98 (inl 6) 0).
  do 2 eexists. split; [reflexivity|]. split; [reflexivity|]. split; [reflexivity|]. split; [intros (_ & _ & _ & H); discriminate|].
  split; [split; [eexists; reflexivity|]; split; [split; [eexists; reflexivity|auto]|auto]|]. split; [reflexivity|]. split; [vm_compute; reflexivity|]. reflexivity.
Qed.
Print Assumptions sock_listen_order_refuted.

(** ** C164: what the structure records *)

Lemma same_refl s : same_fields s s.
Proof. repeat split. Qed.
Lemma same_trans a b c : same_fields a b -> same_fields b c -> same_fields a c.
Proof. intros (A1 & A2 & A3) (B1 & B2 & B3). repeat split; congruence. Qed.
(** The family is as before or that of an address a socket was made for. *)
Definition family_from (fam : Z) (l : list entry) (fam' : Z) : Prop :=
  fam' = fam \/ exists p f, In p l /\ e_socket p = inl f /\ fam' = e_family p.
Lemma from_cons fam p l x : family_from fam l x -> family_from fam (p :: l) x.
Proof. intros [->|(q & f & H & H1)]; [now left|right; exists q, f; split; [now right|exact H1]]. Qed.
Lemma from_head fam p f l x : e_socket p = inl f -> family_from (e_family p) l x -> family_from fam (p :: l) x.
Proof. intros E [->|(q & g & H & H1)]; right; [exists p, f; split; [now left|auto]|exists q, g; split; [now right|exact H1]]. Qed.

Lemma bind_src_fields s y a : let '(s', _, _) := bind_src s y a in same_fields s s' /\ family s' = family s.
Proof.
  unfold bind_src. destruct a as [rc|l]; [cbn; repeat split|]. destruct (src_loop s (did y Resolved) 0 l) as [y' rc]. destruct (rc =? -1); cbn; repeat split.
Qed.
Lemma round_fields first fam src l : forall s y i, let '(s', _, _) := connect_round s y first fam src i l in
  same_fields s s' /\ family_from (family s) l (family s').
Proof.
  induction l as [|p l IH]; intros s y i; cbn [connect_round]; [split; [apply same_refl|now left]|].
  destruct (xorb first (e_family p =? fam)).
  - specialize (IH s y (i + 1)). destruct (connect_round s y first fam src (i + 1) l) as [[s' y'] x]. destruct IH. split; [assumption|now apply from_cons].
  - destruct (e_socket p) as [f|e] eqn:Es.
    2:{ specialize (IH s (fails (did y (Tried i)) e) (i + 1)). destruct (connect_round s (fails (did y (Tried i)) e) first fam src (i + 1) l) as [[s' y'] x].
        destruct IH. split; [assumption|now apply from_cons]. }
    set (s1 := with_fd (with_family s (e_family p)) f).
    assert (F1 : same_fields s s1 /\ family_from (family s) (p :: l) (family s1)).
    { split; [repeat split|]. right. exists p, f. split; [now left|auto]. }
    destruct (set_blocking s1 (did (did y (Tried i)) (Opened f)) (blocking s1) (e_fcntl p)) as [y2 rc].
    destruct (negb (rc =? 0)); [exact F1|]. destruct (negb (e_reuse p =? 0)); [exact F1|]. destruct (negb (e_nodelay p =? 0)); [exact F1|].
    set (y3 := did (did y2 (Option f REUSEADDR)) (Option f NODELAY)).
    assert (B : let '(s', _, _) := if src then bind_src s1 y3 (e_src p) else (s1, y3, 0) in same_fields s1 s' /\ family s' = family s1).
    { destruct src; [apply bind_src_fields|split; [apply same_refl|reflexivity]]. }
    destruct (if src then bind_src s1 y3 (e_src p) else (s1, y3, 0)) as [[s2 y4] rc2]. destruct B as [B1 B2].
    assert (F2 : same_fields s s2 /\ family_from (family s) (p :: l) (family s2)) by (rewrite B2; split; [eapply same_trans; [apply F1|exact B1]|apply F1]).
    destruct (negb (rc2 =? 0)); [exact F2|]. destruct (negb (e_connect p =? 0)); [|exact F2].
    destruct (negb (blocking s2) && _); [exact F2|].
    pose proof (close_quiet s2 (fails y4 (e_connect p)) (e_close p)) as Q. destruct (sock_close s2 (fails y4 (e_connect p)) (e_close p)) as [[s3 y5] rc3]. destruct Q as (Q1 & Q2 & _).
    specialize (IH s3 y5 (i + 1)). destruct (connect_round s3 y5 first fam src (i + 1) l) as [[s' y'] x]. destruct IH as [I1 I2].
    split; [eapply same_trans; [apply F2|]; eapply same_trans; [exact Q1|exact I1]|]. rewrite Q2, B2 in I2. exact (from_head _ _ _ _ _ Es I2).
Qed.
Lemma end_fields s y x ec : let '(s', _, _) := connect_end s y x ec in same_fields s s' /\ family s' = family s.
Proof.
  unfold connect_end. destruct x; [| | |cbn; repeat split].
  - pose proof (close_quiet (errstr s y 0) y ec) as Q. destruct (sock_close (errstr s y 0) y ec) as [[s' y'] rc]. destruct Q as (Q & F & _). split; [exact Q|exact F].
  - pose proof (close_quiet (errstr s y 0) y ec) as Q. destruct (sock_close (errstr s y 0) y ec) as [[s' y'] rc]. destruct Q as (Q & F & _). split; [exact Q|exact F].
  - pose proof (close_quiet s y ec) as Q. destruct (sock_close s y ec) as [[s' y'] rc]. destruct Q as (Q & F & _). split; [exact Q|exact F].
Qed.
Lemma from_trans fam l x z : family_from fam l x -> family_from x l z -> family_from fam l z.
Proof. intros H [->|K]; [exact H|now right]. Qed.

Lemma listen_fields s y host a s' y' rc : sock_listen s y host a = Ok (s', y', rc) -> same_fields s s' /\ family s' = family s.
Proof.
  unfold sock_listen, sock_bind. cbn [family with_text].
  assert (ER : forall (s0 : sock) (y0 : sys) (e : Z), same_fields s s0 -> family s0 = family s ->
    let '(s', _, _) := sock_close (errstr s0 y0 0) y0 e in same_fields s s' /\ family s' = family s).
  { intros s0 y0 e S0 F0. pose proof (close_quiet (errstr s0 y0 0) y0 e) as Q. destruct (sock_close (errstr s0 y0 0) y0 e) as [[s2 y2] r2].
    destruct Q as (Q & F & _). split; [eapply same_trans; [exact S0|exact Q]|now rewrite F]. }
  assert (LI : forall s1 y1, same_fields s s1 -> family s1 = family s ->
    (if l_listen a =? 0 then Ok (s1, did y1 (Listening (fd s1)), 0)
     else let '(s, y, _) := sock_close (errstr s1 (fails y1 (l_listen a)) 0) (fails y1 (l_listen a)) (l_close2 a) in Ok (s, y, -1)) = Ok (s', y', rc) ->
    same_fields s s' /\ family s' = family s).
  { intros s1 y1 S1 F1. destruct (l_listen a =? 0); [intro H; injection H as <- _ _; auto|].
    specialize (ER s1 (fails y1 (l_listen a)) (l_close2 a) S1 F1). destruct (sock_close (errstr s1 (fails y1 (l_listen a)) 0) (fails y1 (l_listen a)) (l_close2 a)) as [[s2 y2] r2].
    intro H. injection H as <- _ _. exact ER. }
  destruct (family s =? AF_UNIX).
  - destruct (l_socket a) as [f|e].
    + destruct (bind_unix _ _ host _ _) as [[y1 rc1]| |]; cbn [bind]; try discriminate. destruct (Z.eqb_spec rc1 0) as [E|E]; cbn [negb].
      * cbn [bind Z.eqb negb]. apply LI; [repeat split|reflexivity].
      * specialize (ER (with_fd (with_text s NoText) f) y1 (l_close a) (same_refl _) eq_refl).
        destruct (sock_close (errstr (with_fd (with_text s NoText) f) y1 0) y1 (l_close a)) as [[s2 y2] r2]. cbn [bind Z.eqb negb]. intro H. injection H as <- _ _. exact ER.
    + specialize (ER (with_text s NoText) (fails (did y (Tried 0)) e) (l_close a) (same_refl _) eq_refl).
      destruct (sock_close (errstr (with_text s NoText) (fails (did y (Tried 0)) e) 0) (fails (did y (Tried 0)) e) (l_close a)) as [[s2 y2] r2]. cbn [bind Z.eqb negb]. intro H. injection H as <- _ _. exact ER.
  - destruct (l_gai a) as [g|l]; [cbn [bind Z.eqb negb]; intro H; injection H as <- _ _; repeat split|].
    pose proof (bind_loop_shape l (with_text s NoText) (did y Resolved) 0 (l_close a)) as B.
    destruct (bind_loop (with_text s NoText) (did y Resolved) 0 l (l_close a)) as [[s1 y1] rc1]. destruct B as (B1 & B2 & _). cbn [bind].
    destruct (Z.eqb_spec rc1 0) as [E|E]; cbn [negb]; [apply LI; assumption|]. intro H. injection H as <- _ _. auto.
Qed.
Lemma connect_fields s y dst src a s' y' rc : sock_connect s y dst src a = Ok (s', y', rc) -> same_fields s s' /\
  (family s' = family s \/ exists l, c_gai a = inr l /\ family_from (family s) l (family s')).
Proof.
  unfold sock_connect. destruct (family s =? AF_UNIX).
  - unfold connect_unix. destruct (strlen dst) as [len| |]; cbn [bind]; try discriminate.
    assert (ER : forall (s0 : sock) (y0 : sys) (e : Z), same_fields s s0 -> family s0 = family s ->
      let '(s', _, _) := sock_close (errstr s0 y0 0) y0 e in same_fields s s' /\ family s' = family s).
    { intros s0 y0 e S0 F0. pose proof (close_quiet (errstr s0 y0 0) y0 e) as Q. destruct (sock_close (errstr s0 y0 0) y0 e) as [[s2 y2] r2].
      destruct Q as (Q & F & _). split; [eapply same_trans; [exact S0|exact Q]|now rewrite F]. }
    assert (E2 : forall s0 y0, same_fields s s0 -> family s0 = family s ->
      (let '(s, y, _) := sock_close (errstr s0 y0 0) y0 (c_unix_close a) in Ok (s, y, -1)) = Ok (s', y', rc) -> same_fields s s' /\ (family s' = family s \/ exists l, c_gai a = inr l /\ family_from (family s) l (family s'))).
    { intros s0 y0 S0 F0. specialize (ER s0 y0 (c_unix_close a) S0 F0). destruct (sock_close (errstr s0 y0 0) y0 (c_unix_close a)) as [[s2 y2] r2]. intro H. injection H as <- _ _. tauto. }
    destruct (c_socket a) as [f|e]; [|apply E2; [apply same_refl|reflexivity]].
    destruct (SUN_PATH <=? len); [apply E2; [repeat split|reflexivity]|].
    destruct (bytes_at dst 0 (len + 1)) as [b| |]; cbn [bind]; try discriminate. destruct (memcpy _ 0 b) as [path| |]; cbn [bind]; try discriminate.
    destruct (cstring path) as [nm| |]; cbn [bind]; try discriminate. destruct (negb (c_connect a =? 0)); [apply E2; [repeat split|reflexivity]|].
    intro H. injection H as <- _ _. split; [repeat split|now left].
  - destruct (c_gai a) as [g|l]; [intro H; injection H as <- _ _; split; [repeat split|now left]|].
    pose proof (round_fields true (family s) src l s (did y Resolved) 0) as R1. destruct (connect_round s (did y Resolved) true (family s) src 0 l) as [[s1 y1] x1]. destruct R1 as [R1 R2].
    assert (EN : forall s0 y0 x, same_fields s s0 -> family_from (family s) l (family s0) -> Ok (connect_end s0 y0 x (c_close a)) = Ok (s', y', rc) ->
      same_fields s s' /\ (family s' = family s \/ exists l0, @inr Z _ l = inr l0 /\ family_from (family s) l0 (family s'))).
    { intros s0 y0 x S0 F0. pose proof (end_fields s0 y0 x (c_close a)) as Q. destruct (connect_end s0 y0 x (c_close a)) as [[s2 y2] r2]. destruct Q as [Q1 Q2].
      intro H. injection H as <- _ _. split; [eapply same_trans; eassumption|]. right. exists l. split; [reflexivity|]. now rewrite Q2. }
    destruct x1; [|apply EN; assumption..].
    pose proof (round_fields false (family s) src l s1 y1 0) as T. destruct (connect_round s1 y1 false (family s) src 0 l) as [[s2 y2] x2]. destruct T as [T1 T2].
    apply EN; [eapply same_trans; eassumption|eapply from_trans; eassumption].
Qed.

(** No call changes the mode, type and events a structure was given; sc_sock_listen does not change the family, and sc_sock_connect
    does not if all addresses found are of that family, or if no socket could be made for those that are not.  sc_sock_accept gives the new
    structure the family of the listening one and its descriptor the mode of the listening one.
    Missing, because false (sock_fields_refuted): the mode of the accepted structure, the family after a connection was refused. *)
Theorem sock_fields_partial :
  (forall s y host a s' y' rc, sock_listen s y host a = Ok (s', y', rc) -> same_fields s s' /\ family s' = family s) /\
  (forall s y dst src a s' y' rc, sock_connect s y dst src a = Ok (s', y', rc) -> same_fields s s' /\
     ((forall l p, c_gai a = inr l -> In p l -> e_family p = family s \/ no_socket (0, p)) -> family s' = family s)) /\
  (forall s n y ac nd fc el s' n' y' rc, sock_accept s n y ac nd fc el = (s', n', y', rc) ->
     same_fields s s' /\ family s' = family s /\ typ n' = typ n /\ blocking n' = blocking n /\
     (rc = 0 -> family n' = family s /\ exists fl, flags_of (fd n') (acts y') None = Some fl /\ mode_ok (blocking s) fl)).
Proof.
  split; [exact listen_fields|]. split.
  - intros s y dst src a s' y' rc H. destruct (connect_fields s y dst src a s' y' rc H) as [S F]. split; [exact S|]. intro A.
    destruct F as [F|(l & G & [F|(p & f & I & E & F)])]; [exact F|exact F|]. destruct (A l p G I) as [<-|[e N]]; [exact F|]. cbn in N. congruence.
  - intros s n y ac nd fc el s' n' y' rc H. revert H. unfold sock_accept. destruct ac as [f|e].
    + assert (M : forall fl, mode_ok (blocking s) (if blocking s then Z.land fl (Z.lnot O_NONBLOCK) else Z.lor fl O_NONBLOCK)).
      { intro fl. unfold mode_ok, O_NONBLOCK. destruct (blocking s); cbn [negb]; [rewrite Z.land_spec, Z.lnot_spec by lia|rewrite Z.lor_spec]; change (Z.testbit 2048 11) with true; cbn [negb]; [apply andb_false_r|apply orb_true_r]. }
      assert (FA : forall f0 l fl, flags_of f0 (l ++ [Flags f0 fl]) None = Some fl).
      { intros f0 l fl. generalize (@None Z). induction l as [|x l IH]; intro o; cbn [app flags_of]; [now rewrite Z.eqb_refl|]. destruct x; apply IH. }
      cbn [family]. destruct (negb (family s =? AF_UNIX) && negb (nd =? 0)).
      * set (n1 := mk_sock f 0 (typ n) (blocking n) (family s) (text n)). set (y1 := fails (did y (Opened f)) nd).
        pose proof (close_quiet n1 y1 el) as Q. destruct (sock_close n1 y1 el) as [[n2 y2] r2]. destruct Q as ((_ & Q1 & Q2) & _ & _).
        intro H. injection H as <- <- _ <-. split; [repeat split|]. split; [reflexivity|]. split; [exact Q1|]. split; [exact Q2|discriminate].
      * set (n1 := mk_sock f 0 (typ n) (blocking n) (family s) (text n)).
        set (y1 := if negb (family s =? AF_UNIX) then did (did y (Opened f)) (Option f NODELAY) else did y (Opened f)).
        assert (SB : set_blocking n1 y1 (blocking s) fc = (fst (set_blocking n1 y1 (blocking s) fc), 0) /\ (exists fl, acts (fst (set_blocking n1 y1 (blocking s) fc)) = acts y1 ++ [Flags f fl] /\ mode_ok (blocking s) fl) \/ snd (set_blocking n1 y1 (blocking s) fc) = -1).
        { unfold set_blocking. destruct (getfl fc) as [fl|e]; [|right; reflexivity]. destruct (setfl fc =? 0); [left|right; reflexivity]. split; [reflexivity|]. eexists. split; [reflexivity|apply M]. }
        destruct (set_blocking n1 y1 (blocking s) fc) as [y2 rc2]. cbn [fst snd] in SB. destruct SB as [(E & fl & A & K)|E].
        -- injection E as ->. cbn [Z.eqb negb]. intro H. injection H as <- <- <- <-. split; [apply same_refl|]. split; [reflexivity|]. split; [reflexivity|]. split; [reflexivity|].
           intros _. split; [reflexivity|]. exists fl. split; [|exact K]. rewrite A. apply FA.
        -- subst rc2. cbn [Z.eqb negb]. pose proof (close_quiet n1 y2 el) as Q. destruct (sock_close n1 y2 el) as [[n2 y3] r2]. destruct Q as ((_ & Q1 & Q2) & _ & _).
           intro H. injection H as <- <- _ <-. split; [repeat split|]. split; [reflexivity|]. split; [exact Q1|]. split; [exact Q2|discriminate].
    + destruct (negb (blocking s) && _); intro H; injection H as <- <- _ <-; (split; [repeat split|]); (split; [reflexivity|]); (split; [reflexivity|]); (split; [reflexivity|discriminate]).
Qed.
Print Assumptions sock_fields_partial.

Definition refusing (fam : Z) (n : Z) (f : Z) : entry := mk_entry fam [n] (inl f) 0 (mk_fcntls (inl 2) 0) 0 0 0 (inr []) 111 0.
(** A name with two IPv4 addresses that refuse; the same call again tries them in the same order. *)
Example sock_fields_ex :
  let a := mk_connects (inr 1) 0 0 (inr [refusing AF_INET 97 5; refusing AF_INET 98 6]) 0 in
  let s := sock_init 7 true AF_INET in
  (forall l p, c_gai a = inr l -> In p l -> e_family p = family s \/ no_socket (0, p)) /\
  exists s1 y1 s2 y2, sock_connect s (mk_sys [] 0) [104; 0] false a = Ok (s1, y1, -1) /\ family s1 = AF_INET /\ tried (acts y1) = [0; 1] /\
    sock_connect s1 (mk_sys [] 0) [104; 0] false a = Ok (s2, y2, -1) /\ tried (acts y2) = [0; 1].
Proof.
  cbv zeta. split; [intros l p H I; injection H as <-; left; destruct I as [<-|[<-|[]]]; reflexivity|]. do 4 eexists. split; [vm_compute; reflexivity|]. split; [reflexivity|]. split; [reflexivity|]. split; [vm_compute; reflexivity|reflexivity].
Qed.
(** A structure made for IPv6 whose connection is refused by an IPv6 and then by an IPv4 address is one for IPv4 from then on, and the same call tries the
    addresses in another order.  A structure made blocking whose descriptor was accepted from a listening socket that is not says blocking, and the
    descriptor is not. *)
Theorem sock_fields_refuted :
  (exists s a s1 y1 s2 y2, fd s = -1 /\ family s = AF_INET6 /\
     sock_connect s (mk_sys [] 0) [104; 0] false a = Ok (s1, y1, -1) /\ fd s1 = -1 /\ family s1 = AF_INET /\ tried (acts y1) = [1; 0] /\
     sock_connect s1 (mk_sys [] 0) [104; 0] false a = Ok (s2, y2, -1) /\ tried (acts y2) = [0; 1]) /\
  (exists s n s' n' y' fl, fd n = -1 /\ sock_accept s n (mk_sys [] 0) (inl 6) 0 (mk_fcntls (inl 2) 0) 0 = (s', n', y', 0) /\
     flags_of (fd n') (acts y') None = Some fl /\ ~ mode_ok (blocking n') fl).
Proof.
  split.
  - exists (sock_init 7 true AF_INET6), (mk_connects (inr 1) 0 0 (inr [refusing AF_INET 97 5; refusing AF_INET6 98 6]) 0).
    do 4 eexists. split; [reflexivity|]. split; [reflexivity|]. split; [vm_compute; reflexivity|]. split; [reflexivity|]. split; [reflexivity|]. split; [reflexivity|]. split; [vm_compute; reflexivity|reflexivity].
  - exists (with_fd (sock_init 1 false AF_INET) 3), (sock_init 2 true AF_INET). do 4 eexists. split; [reflexivity|]. split; [vm_compute; reflexivity|]. split; [vm_compute; reflexivity|]. vm_compute. discriminate.
Qed.
Print Assumptions sock_fields_refuted.
