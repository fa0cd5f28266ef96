(** Proofs about the socket model. *)
From Verif Require Import Base CStr CNum StrSpec IniModel StrProofs IniProofs SockModel SockSpec.

(** ** Records of calls *)
Lemma live_app a : forall o b, live o (a ++ b) = match live o a with Some o' => live o' b | None => None end.
Proof. induction a as [|x a IH]; intros o b; [reflexivity|]. destruct x; cbn; auto; destruct existsb; auto. Qed.
Lemma held_app a : forall n b, held n (a ++ b) = match held n a with Some n' => held n' b | None => None end.
Proof. induction a as [|x a IH]; intros n b; [reflexivity|]. destruct x; cbn; auto. destruct (0 <? n); auto. Qed.
Lemma tried_app a b : tried (a ++ b) = tried a ++ tried b.
Proof. induction a as [|x a IH]; [reflexivity|]. destruct x; cbn; auto. now rewrite IH. Qed.
Lemma flags_app f a : forall b n, flags_of f (a ++ b) n = flags_of f b (flags_of f a n).
Proof. induction a as [|x a IH]; intros b n; [reflexivity|]. destruct x; cbn; auto. Qed.
Lemma live_close f r : live [f] (Closed f :: r) = live [] r.
Proof. cbn. rewrite Z.eqb_refl. cbn. destruct (Z.eq_dec f f); [reflexivity|contradiction]. Qed.

Lemma close_open s y e : 0 <= fd s -> exists y', sock_close s y e = (with_fd s INVALID, y', if e =? 0 then 0 else -1) /\ acts y' = acts y ++ [Closed (fd s)].
Proof.
  intro H. unfold sock_close, INVALID. replace (fd s =? -1) with false by lia. eexists. split; [reflexivity|]. destruct (e =? 0); reflexivity.
Qed.
Lemma close_closed s y e : fd s = INVALID -> sock_close s y e = (s, y, 0).
Proof. intro H. unfold sock_close. now rewrite H. Qed.

Lemma mode_set block fl : mode_ok block (if block then Z.land fl (Z.lnot O_NONBLOCK) else Z.lor fl O_NONBLOCK).
Proof.
  unfold mode_ok. destruct block; [rewrite Z.land_spec, Z.lnot_spec by lia|rewrite Z.lor_spec].
  - change (Z.testbit O_NONBLOCK 11) with true. cbn. now rewrite andb_false_r.
  - change (Z.testbit O_NONBLOCK 11) with true. now rewrite orb_true_r.
Qed.
Lemma set_blocking_ok s y block a : exists y' rc, set_blocking s y block a = (y', rc) /\
  ((rc = 0 /\ exists fl, mode_ok block fl /\ acts y' = acts y ++ [Flags (fd s) fl] /\ errno y' = errno y) \/ (rc = -1 /\ acts y' = acts y /\ ~ ((exists fl, getfl a = inl fl) /\ setfl a = 0))).
Proof.
  unfold set_blocking. destruct (getfl a) as [fl|e]; [|do 2 eexists; split; [reflexivity|]; right; split; [reflexivity|]; split; [reflexivity|]; intros [[fl E] _]; discriminate].
  destruct (Z.eqb_spec (setfl a) 0); do 2 eexists; (split; [reflexivity|]); [left|right; split; [reflexivity|]; split; [reflexivity|]; intros [_ E]; contradiction]. split; [reflexivity|]. exists (if block then Z.land fl (Z.lnot O_NONBLOCK) else Z.lor fl O_NONBLOCK). split; [apply mode_set|]. split; reflexivity.
Qed.

Ltac trace := rewrite <- ?app_assoc; cbn [app].
(** ** Listening *)
Lemma bind_error_ok s y ec : exists s' y' tr, bind_error s y ec = (s', y', -1) /\ fd s' = INVALID /\ acts y' = acts y ++ tr ++ [FreeList] /\
  text s' <> NoText /\ ((fd s = INVALID /\ tr = []) \/ (0 <= fd s /\ tr = [Closed (fd s)]) \/ fd s < -1).
Proof.
  unfold bind_error. destruct (Z.eq_dec (fd s) INVALID) as [E|E].
  - rewrite close_closed by exact E. exists (errstr s y 0). eexists. exists []. split; [reflexivity|]. split; [exact E|]. split; [reflexivity|]. split; [discriminate|auto].
  - unfold INVALID in *. destruct (Z.lt_ge_cases (fd s) 0).
    + unfold sock_close, INVALID. cbn [fd errstr with_text]. replace (fd s =? -1) with false by lia.
      exists (with_fd (errstr s y 0) INVALID). eexists. exists [Closed (fd s)]. split; [reflexivity|]. split; [reflexivity|].
      split; [destruct (ec =? 0); cbn; trace; reflexivity|]. split; [discriminate|]. right. right. lia.
    + destruct (close_open (errstr s y 0) y ec) as (y' & -> & A); [cbn; lia|]. exists (with_fd (errstr s y 0) INVALID). eexists. exists [Closed (fd s)]. split; [reflexivity|]. split; [reflexivity|].
      split; [cbn [acts did]; rewrite A; trace; reflexivity|]. split; [discriminate|]. right. left. auto.
Qed.
Definition same_but (s s' : sock) : Prop := blocking s' = blocking s /\ typ s' = typ s /\ op s' = op s /\ family s' = family s.

Lemma bind_error_same s y ec s' y' rc : bind_error s y ec = (s', y', rc) -> same_but s s'.
Proof.
  unfold bind_error, sock_close. cbn [fd errstr with_text]. destruct (fd s =? INVALID); intro E; injection E as <- _ _; repeat split.
Qed.
Lemma bind_loop_ok l : forall s y i ec, fd s = INVALID -> entries_ok l -> exists s' y' rc tr, bind_loop s y i l ec = (s', y', rc) /\
  acts y' = acts y ++ tr /\ held 1 tr = Some 0 /\ same_but s s' /\
  ((rc = 0 /\ 0 <= fd s' /\ live [] tr = Some [fd s'] /\ text s' = text s /\ exists fl, flags_of (fd s') tr None = Some fl /\ mode_ok (blocking s) fl) \/
   (rc = -1 /\ fd s' = INVALID /\ live [] tr = Some [] /\ text s' <> NoText)).
Proof.
  induction l as [|p l IH]; intros s y i ec Hs Hl; cbn [bind_loop].
  - destruct (bind_error_ok s y ec) as (s' & y' & tr & E & F & A & T & D). rewrite E. do 4 eexists. split; [reflexivity|]. split; [exact A|].
    assert (tr = []) as -> by (destruct D as [[_ D]|[[D _]|D]]; [exact D|unfold INVALID in *; lia|unfold INVALID in *; lia]).
    split; [reflexivity|]. split; [eapply bind_error_same; eassumption|]. right. auto.
  - inversion Hl as [|? ? Hp Hl']; subst. destruct (e_socket p) as [f|e] eqn:Es.
    + assert (Hf : 0 <= f) by (apply Hp; reflexivity).
      assert (ERR : forall y1 tr1, acts y1 = acts y ++ tr1 -> held 1 tr1 = Some 1 -> live [] tr1 = Some [f] ->
        exists s' y' rc tr, bind_error (with_fd s f) y1 ec = (s', y', rc) /\ acts y' = acts y ++ tr /\ held 1 tr = Some 0 /\ same_but s s' /\
        ((rc = 0 /\ 0 <= fd s' /\ live [] tr = Some [fd s'] /\ text s' = text s /\ exists fl, flags_of (fd s') tr None = Some fl /\ mode_ok (blocking s) fl) \/
         (rc = -1 /\ fd s' = INVALID /\ live [] tr = Some [] /\ text s' <> NoText))).
      { intros y1 tr1 A1 H1 L1. destruct (bind_error_ok (with_fd s f) y1 ec) as (s' & y' & tr & E & F & A & T & D). rewrite E. cbn [fd with_fd] in D.
        assert (tr = [Closed f]) as -> by (destruct D as [[D _]|[[_ D]|D]]; [unfold INVALID in *; lia|exact D|lia]).
        do 4 eexists. split; [reflexivity|]. split; [rewrite A, A1, <- app_assoc; reflexivity|]. split; [rewrite held_app, H1; reflexivity|].
        split; [apply bind_error_same in E; exact E|]. right. split; [reflexivity|]. split; [exact F|]. split; [|exact T]. rewrite live_app, L1. cbn [app]. rewrite live_close. reflexivity. }
      cbv zeta. destruct ((family (with_fd s f) =? AF_INET6) && negb (e_v6 p =? 0)).
      { apply (ERR _ [Tried i; Opened f]); [cbn; trace; reflexivity|reflexivity|reflexivity]. }
      set (y1 := if family (with_fd s f) =? AF_INET6 then did (did (did y (Tried i)) (Opened f)) (Option f V6ONLY) else did (did y (Tried i)) (Opened f)).
      assert (A1 : exists tr1, acts y1 = acts y ++ tr1 /\ held 1 tr1 = Some 1 /\ live [] tr1 = Some [f]).
      { unfold y1. destruct (family (with_fd s f) =? AF_INET6); eexists; (split; [cbn; trace; reflexivity|]); split; reflexivity. }
      destruct A1 as (tr1 & A1 & H1 & L1).
      destruct (set_blocking_ok (with_fd s f) y1 (blocking (with_fd s f)) (e_fcntl p)) as (y2 & rc & -> & [(-> & fl & Mf & A2 & _)|(-> & A2 & _)]); cbn [negb Z.eqb].
      2: { apply (ERR _ tr1); [congruence|exact H1|exact L1]. }
      cbn [fd with_fd] in A2.
      assert (A3 : acts y2 = acts y ++ tr1 ++ [Flags f fl]) by (rewrite A2, A1, <- app_assoc; reflexivity).
      assert (H3 : held 1 (tr1 ++ [Flags f fl]) = Some 1) by (rewrite held_app, H1; reflexivity).
      assert (L3 : live [] (tr1 ++ [Flags f fl]) = Some [f]) by (rewrite live_app, L1; reflexivity).
      destruct (e_reuse p =? 0); cbn [negb]; [|apply (ERR _ (tr1 ++ [Flags f fl])); auto].
      destruct (e_nodelay p =? 0); cbn [negb]; [|apply (ERR _ (tr1 ++ [Flags f fl] ++ [Option f REUSEADDR])); [cbn; rewrite A3; now trace|rewrite app_assoc, held_app, H3; reflexivity|rewrite app_assoc, live_app, L3; reflexivity]].
      destruct (e_bind p =? 0); cbn [negb]; [|apply (ERR _ (tr1 ++ [Flags f fl] ++ [Option f REUSEADDR; Option f NODELAY])); [cbn; rewrite A3; now trace|rewrite app_assoc, held_app, H3; reflexivity|rewrite app_assoc, live_app, L3; reflexivity]].
      do 3 eexists. exists (tr1 ++ [Flags f fl] ++ [Option f REUSEADDR; Option f NODELAY; Bound f (e_addr p); FreeList]). split; [reflexivity|].
      split; [cbn; rewrite A3; now trace|]. split; [rewrite app_assoc, held_app, H3; reflexivity|]. split; [repeat split|]. left.
      split; [reflexivity|]. split; [exact Hf|]. split; [rewrite app_assoc, live_app, L3; reflexivity|]. split; [reflexivity|].
      exists fl. split; [|exact Mf]. rewrite app_assoc, flags_app, flags_app. cbn [flags_of fd with_fd]. rewrite Z.eqb_refl. reflexivity.
    + destruct (IH s (fails (did y (Tried i)) e) (i + 1) ec Hs Hl') as (s' & y' & rc & tr & E & A & H & S & D). rewrite E.
      exists s', y', rc, (Tried i :: tr). split; [reflexivity|]. split; [rewrite A; cbn; now trace|]. split; [exact H|]. split; [exact S|]. exact D.
Qed.

Lemma bind_unix_ok s y t r eu eb : nonul t -> exists y' rc tr, bind_unix s y (t ++ 0 :: r) eu eb = Ok (y', rc) /\ acts y' = acts y ++ tr /\
  held 1 tr = Some 1 /\ held 0 tr = Some 0 /\ (forall o, live o tr = Some o) /\ (forall f n, flags_of f tr n = n) /\
  ((rc = 0 /\ In (Bound (fd s) (firstn 107 t)) tr) \/ rc = -1).
Proof.
  intro Hn. unfold bind_unix, strncpy. change (Z.to_nat (SUN_PATH - 1)) with 107%nat. rewrite upto_nul_ok by exact Hn. cbn [bind].
  change (SUN_PATH - 1 <=? zlen (repeat 0 (Z.to_nat SUN_PATH))) with true. cbv iota. cbn [bind]. rewrite cstring_ok by exact Hn. cbn [bind].
  change (skipn 107 (repeat 0 (Z.to_nat SUN_PATH))) with [0].
  assert (E : cstring (firstn 107 t ++ repeat 0 (107 - length (firstn 107 t)) ++ [0]) = Ok (firstn 107 t)).
  { destruct (107 - length (firstn 107 t))%nat as [|k]; cbn [repeat app]; apply cstring_ok; now apply nonul_firstn. }
  rewrite E. cbn [bind]. clear E.
  assert (A : forall b, exists y' rc, (if eb =? 0 then Ok (did b (Bound (fd s) (firstn 107 t)), 0) else Ok (fails b eb, -1)) = Ok (y', rc) /\
    acts y' = acts b ++ (if eb =? 0 then [Bound (fd s) (firstn 107 t)] else []) /\ ((rc = 0 /\ eb = 0) \/ rc = -1)).
  { intro b. destruct (Z.eqb_spec eb 0); do 2 eexists; (split; [reflexivity|]); (split; [cbn [acts did fails]; rewrite ?app_nil_r; reflexivity|auto]). }
  destruct (A (if eu =? 0 then did y (Unlink t) else fails y eu)) as (y' & rc & E & Ac & R). rewrite E.
  exists y', rc, ((if eu =? 0 then [Unlink t] else []) ++ (if eb =? 0 then [Bound (fd s) (firstn 107 t)] else [])).
  split; [reflexivity|]. split; [rewrite Ac, app_assoc; f_equal; destruct (eu =? 0); cbn [acts did fails]; rewrite ?app_nil_r; reflexivity|].
  split; [destruct (eu =? 0), (eb =? 0); reflexivity|]. split; [destruct (eu =? 0), (eb =? 0); reflexivity|].
  split; [intro o; destruct (eu =? 0), (eb =? 0); reflexivity|]. split; [intros f n; destruct (eu =? 0), (eb =? 0); reflexivity|].
  destruct R as [[-> ->]| ->]; [left|now right]. split; [reflexivity|]. apply in_app_iff. right. left. reflexivity.
Qed.

(** ** Connecting *)
Lemma src_loop_ok l : forall s y rc, exists y' rc' tr, src_loop s y rc l = (y', rc') /\ acts y' = acts y ++ tr /\
  (forall n, held n tr = Some n) /\ (forall o, live o tr = Some o) /\ tried tr = [] /\ (forall f n, flags_of f tr n = n).
Proof.
  induction l as [|e l IH]; intros s y rc; cbn [src_loop].
  - exists y, rc, []. rewrite app_nil_r. repeat (split; [reflexivity|]). reflexivity.
  - destruct (e =? 0).
    + do 2 eexists. exists [Bound (fd s) []]. split; [reflexivity|]. repeat (split; [reflexivity|]). reflexivity.
    + apply (IH s (fails y e) (-1)).
Qed.
Lemma bind_src_ok s y a : exists s' y' rc tr, bind_src s y a = (s', y', rc) /\ acts y' = acts y ++ tr /\ fd s' = fd s /\ same_but s s' /\
  (forall n, 0 <= n -> held n tr = Some n) /\ (forall o, live o tr = Some o) /\ tried tr = [] /\ (forall f n, flags_of f tr n = n) /\ (rc = 0 \/ (rc = -1 /\ text s' <> NoText)).
Proof.
  unfold bind_src. destruct a as [rc|l].
  - do 3 eexists. exists []. split; [reflexivity|]. rewrite app_nil_r. repeat (split; [reflexivity|]). split; [repeat split|]. repeat (split; [reflexivity|]).
    right. split; [reflexivity|]. unfold errstr. cbn. destruct (rc =? 0); discriminate.
  - destruct (src_loop_ok l s (did y Resolved) 0) as (y' & rc & tr & -> & A & H & L & T & F).
    assert (B : acts (did y' FreeList) = acts y ++ Resolved :: tr ++ [FreeList]) by (cbn [acts did]; rewrite A; cbn [acts did]; now trace).
    assert (K : (forall n, 0 <= n -> held n (Resolved :: tr ++ [FreeList]) = Some n) /\ (forall o, live o (Resolved :: tr ++ [FreeList]) = Some o) /\
      tried (Resolved :: tr ++ [FreeList]) = [] /\ (forall f n, flags_of f (Resolved :: tr ++ [FreeList]) n = n)).
    { split; [intros n Hn; cbn [held]; rewrite held_app, H; cbn [held]; replace (0 <? n + 1) with true by lia; f_equal; lia|].
      split; [intro o; cbn [live]; rewrite live_app, L; reflexivity|]. split; [cbn [tried]; rewrite tried_app, T; reflexivity|].
      intros f n. cbn [flags_of]. rewrite flags_app, F. reflexivity. }
    destruct K as (K1 & K2 & K3 & K4).
    destruct (rc =? -1); do 3 eexists; exists (Resolved :: tr ++ [FreeList]); (split; [reflexivity|]); (split; [exact B|]); (split; [reflexivity|]); (split; [repeat split|]);
      repeat (split; [assumption|]); [right; split; [reflexivity|discriminate]|now left].
Qed.

Definition round_post (l : list (Z * entry)) (s s' : sock) (y' : sys) (src : bool) (x : exit) (tr : list act) (dn rest : list (Z * entry)) : Prop :=
  dn ++ rest = l /\ tried tr = map fst dn /\
  match x with
  | Next => fd s' = INVALID /\ live [] tr = Some [] /\ rest = [] /\ Forall (fun q => refused (blocking s) (snd q)) dn
  | End rv => 0 <= fd s' /\ live [] tr = Some [fd s'] /\
      (exists fl, (forall n, flags_of (fd s') tr n = Some fl) /\ mode_ok (blocking s) fl) /\
      (exists d k p tr0, dn = d ++ [(k, p)] /\ Forall (fun q => refused (blocking s) (snd q)) d /\ family s' = e_family p /\ tr = tr0 ++ [Connected (fd s') (e_addr p)] /\
         ((rv = 0 /\ e_connect p = 0) \/ (rv = -1 /\ blocking s = false /\ errno y' = EAGAIN /\ under_way (e_connect p))))
  | BindError => 0 <= fd s' /\ live [] tr = Some [fd s'] /\ text s' <> NoText /\ src = true
  | Error => 0 <= fd s' /\ live [] tr = Some [fd s'] /\ (exists d k p, dn = d ++ [(k, p)] /\ ~ setup_ok p)
  end.
Lemma round_ok first fam src l : forall s y i, fd s = INVALID -> entries_ok l -> exists s' y' x tr dn rest, connect_round s y first fam src i l = (s', y', x) /\
  acts y' = acts y ++ tr /\ held 1 tr = Some 1 /\
  blocking s' = blocking s /\ typ s' = typ s /\ op s' = op s /\ round_post (numbered first fam i l) s s' y' src x tr dn rest.
Proof.
  induction l as [|p l IH]; intros s y i Hs Hl; cbn [connect_round].
  - do 3 eexists. exists [], [], []. split; [reflexivity|]. rewrite app_nil_r. repeat (split; [reflexivity|]). split; [exact Hs|]. split; [reflexivity|]. split; [reflexivity|constructor].
  - inversion Hl as [|? ? Hp Hl']; subst. cbn [numbered].
    assert (Ex : xorb first (e_family p =? fam) = negb (Bool.eqb first (e_family p =? fam))) by (destruct first, (e_family p =? fam); reflexivity).
    rewrite Ex. destruct (Bool.eqb first (e_family p =? fam)) eqn:Ef; cbn [negb app].
    2: { exact (IH s y (i + 1) Hs Hl'). }
    set (todo := numbered first fam (i + 1) l).
    (* one more round after a failure, with [tr0] recorded for this entry *)
    assert (MORE : forall s1 y1 tr0, fd s1 = INVALID -> blocking s1 = blocking s -> typ s1 = typ s -> op s1 = op s -> refused (blocking s) p ->
      acts y1 = acts y ++ tr0 -> held 1 tr0 = Some 1 -> live [] tr0 = Some [] -> tried tr0 = [i] ->
      exists s' y' x tr dn rest, connect_round s1 y1 first fam src (i + 1) l = (s', y', x) /\
        acts y' = acts y ++ tr /\ held 1 tr = Some 1 /\
        blocking s' = blocking s /\ typ s' = typ s /\ op s' = op s /\ round_post ((i, p) :: todo) s s' y' src x tr dn rest).
    { intros s1 y1 tr0 F1 E1 E2 E3 RF A1 H1 L1 T1. destruct (IH s1 y1 (i + 1) F1 Hl') as (s' & y' & x & tr & dn & rest & E & A & H & B1 & B2 & B3 & Q1 & Q2 & P). rewrite E.
      exists s', y', x, (tr0 ++ tr), ((i, p) :: dn), rest. split; [reflexivity|]. split; [rewrite A, A1, app_assoc; reflexivity|]. split; [rewrite held_app, H1; exact H|].
      split; [congruence|]. split; [congruence|]. split; [congruence|].
      split; [cbn [app]; rewrite Q1; reflexivity|]. split; [rewrite tried_app, T1, Q2; reflexivity|]. rewrite E1 in P.
      destruct x; rewrite live_app, L1.
      - destruct P as (P1 & P2 & P3 & P4). repeat (split; [assumption|]). constructor; assumption.
      - destruct P as (P1 & P2 & d & k & p' & P3 & P4). repeat (split; [assumption|]). exists ((i, p) :: d), k, p'. rewrite P3. auto.
      - exact P.
      - destruct P as (P1 & P2 & (fl & P3 & P4) & d & k & q & trq & P5 & P6 & P7 & P8 & P9). split; [exact P1|]. split; [exact P2|].
        split; [exists fl; split; [intro n; rewrite flags_app; apply P3|exact P4]|]. exists ((i, p) :: d), k, q, (tr0 ++ trq). split; [rewrite P5; reflexivity|]. split; [constructor; assumption|]. split; [exact P7|].
        split; [rewrite P8, app_assoc; reflexivity|exact P9]. }
    destruct (e_socket p) as [f|e] eqn:Es.
    2: { apply (MORE s _ [Tried i]); auto. left. eauto. }
    assert (Hf : 0 <= f) by (apply Hp; reflexivity). cbv zeta.
    set (s1 := with_fd (with_family s (e_family p)) f). set (y1 := did (did y (Tried i)) (Opened f)).
    assert (A1 : acts y1 = acts y ++ [Tried i; Opened f]) by (cbn; now trace).
    destruct (set_blocking_ok s1 y1 (blocking s1) (e_fcntl p)) as (y2 & rc & -> & [(-> & fl & Mf & A2 & _)|(-> & A2 & NS)]); cbn [negb Z.eqb].
    2: { exists s1, y2, Error, [Tried i; Opened f], [(i, p)], todo. split; [reflexivity|]. split; [congruence|]. repeat (split; [reflexivity|]). split; [exact Hf|]. split; [reflexivity|].
         exists [], i, p. split; [reflexivity|]. intros (V1 & V2 & _). apply NS. auto. }
    cbn [fd s1 with_fd] in A2. fold s1 in A2.
    assert (A3 : acts y2 = acts y ++ [Tried i; Opened f; Flags f fl]) by (rewrite A2, A1; now trace).
    destruct (Z.eqb_spec (e_reuse p) 0) as [V|V]; cbn [negb].
    2: { do 3 eexists. exists [Tried i; Opened f; Flags f fl], [(i, p)], todo. split; [reflexivity|]. split; [exact A3|]. repeat (split; [reflexivity|]). split; [exact Hf|]. split; [reflexivity|].
         exists [], i, p. split; [reflexivity|]. intros (_ & _ & V1 & _). contradiction. }
    destruct (Z.eqb_spec (e_nodelay p) 0) as [W|W]; cbn [negb].
    2: { do 3 eexists. exists [Tried i; Opened f; Flags f fl; Option f REUSEADDR], [(i, p)], todo. split; [reflexivity|]. split; [cbn; rewrite A3; now trace|]. repeat (split; [reflexivity|]). split; [exact Hf|]. split; [reflexivity|].
         exists [], i, p. split; [reflexivity|]. intros (_ & _ & _ & W1). contradiction. }
    set (y3 := did (did y2 (Option f REUSEADDR)) (Option f NODELAY)).
    assert (A4 : acts y3 = acts y ++ [Tried i; Opened f; Flags f fl; Option f REUSEADDR; Option f NODELAY]) by (cbn; rewrite A3; now trace).
    assert (SRC : exists s4 y4 rc4 tr4, (if src then bind_src s1 y3 (e_src p) else (s1, y3, 0)) = (s4, y4, rc4) /\ acts y4 = acts y3 ++ tr4 /\ fd s4 = f /\ same_but s1 s4 /\
      (forall n, 0 <= n -> held n tr4 = Some n) /\ (forall o, live o tr4 = Some o) /\ tried tr4 = [] /\ (forall g n, flags_of g tr4 n = n) /\ (rc4 = 0 \/ (rc4 = -1 /\ text s4 <> NoText /\ src = true))).
    { destruct src; [|exists s1, y3, 0, []; rewrite app_nil_r; repeat (split; [reflexivity|]); repeat split; now left].
      destruct (bind_src_ok s1 y3 (e_src p)) as (s4 & y4 & rc4 & tr4 & E & R1 & R2 & R3 & R4 & R5 & R6 & R7 & R8). exists s4, y4, rc4, tr4. rewrite E. split; [reflexivity|]. repeat (split; [assumption|]). tauto. }
    destruct SRC as (s4 & y4 & rc4 & tr4 & E4 & A5 & F4 & (S1 & S2 & S3 & S4) & H4 & L4 & T4 & G4 & R4). rewrite E4. clear E4.
    set (pre := [Tried i; Opened f; Flags f fl; Option f REUSEADDR; Option f NODELAY] ++ tr4).
    assert (A6 : acts y4 = acts y ++ pre) by (rewrite A5, A4, <- app_assoc; reflexivity).
    assert (Hpre : held 1 pre = Some 1) by (unfold pre; rewrite held_app; cbn [held]; apply H4; lia).
    assert (Lpre : live [] pre = Some [f]) by (unfold pre; rewrite live_app; cbn [live existsb]; apply L4).
    assert (Tpre : tried pre = [i]) by (unfold pre; rewrite tried_app, T4; reflexivity).
    assert (Gpre : forall n, flags_of f pre n = Some fl) by (intro n; unfold pre; rewrite flags_app; cbn [flags_of]; rewrite Z.eqb_refl; apply G4).
    destruct R4 as [->|[-> [R4 R5]]]; cbn [negb Z.eqb].
    2: { exists s4, y4, BindError, pre, [(i, p)], todo. split; [reflexivity|]. split; [exact A6|]. split; [exact Hpre|].
         split; [exact S1|]. split; [exact S2|]. split; [exact S3|]. split; [reflexivity|]. split; [exact Tpre|]. rewrite F4. auto. }
    assert (FIN : forall s5 y5 rv, fd s5 = f -> same_but s1 s5 -> acts y5 = acts y4 ++ [Connected f (e_addr p)] ->
      ((rv = 0 /\ e_connect p = 0) \/ (rv = -1 /\ blocking s = false /\ errno y5 = EAGAIN /\ under_way (e_connect p))) ->
      exists s' y' x tr dn rest, (s5, y5, End rv) = (s', y', x) /\
        acts y' = acts y ++ tr /\ held 1 tr = Some 1 /\
        blocking s' = blocking s /\ typ s' = typ s /\ op s' = op s /\ round_post ((i, p) :: todo) s s' y' src x tr dn rest).
    { intros s5 y5 rv F5 (Q1 & Q2 & Q3 & Q4) A7 R. exists s5, y5, (End rv), (pre ++ [Connected f (e_addr p)]), [(i, p)], todo.
      split; [reflexivity|]. split; [rewrite A7, A6, app_assoc; reflexivity|]. split; [rewrite held_app, Hpre; reflexivity|].
      split; [exact Q1|]. split; [exact Q2|]. split; [exact Q3|]. split; [reflexivity|]. split; [rewrite tried_app, Tpre; reflexivity|]. rewrite F5. split; [exact Hf|].
      split; [rewrite live_app, Lpre; reflexivity|]. split; [exists fl; split; [intro n; rewrite flags_app, Gpre; reflexivity|exact Mf]|].
      exists [], i, p, pre. split; [reflexivity|]. split; [constructor|]. split; [exact Q4|]. split; [reflexivity|exact R]. }
    destruct (Z.eqb_spec (e_connect p) 0) as [Ec|Ec]; cbn [negb].
    { apply FIN; [exact F4|repeat split; assumption|reflexivity|now left]. }
    cbn [errno fails]. destruct (negb (blocking s4) && ((e_connect p =? EINPROGRESS) || (e_connect p =? EAGAIN))) eqn:Eu.
    { apply FIN; [exact F4|repeat split; assumption|reflexivity|]. right. split; [reflexivity|]. apply andb_true_iff in Eu as [U1 U2]. split; [change (blocking s) with (blocking s1); rewrite <- S1; now destruct (blocking s4)|].
      split; [reflexivity|]. unfold under_way. lia. }
    destruct (close_open s4 (fails y4 (e_connect p)) (e_close p)) as (y5 & -> & A7); [lia|].
    apply (MORE _ y5 (pre ++ [Closed f])); auto.
    + right. split; [exact Ec|]. change (blocking s) with (blocking s1). rewrite <- S1. destruct (blocking s4); [now left|right]. cbn [negb andb] in Eu. unfold under_way. lia.
    + rewrite A7, F4. cbn [acts fails]. rewrite A6, app_assoc. reflexivity.
    + rewrite held_app, Hpre. reflexivity.
    + rewrite live_app, Lpre. apply live_close.
    + rewrite tried_app, Tpre. reflexivity.
Qed.

(** ** The public calls *)
Lemma close_err s y el : fd s = INVALID \/ 0 <= fd s -> exists s' y' rc, sock_close (errstr s y 0) y el = (s', y', rc) /\ fd s' = INVALID /\ same_but s s' /\
  text s' = Sys (errno y) /\ acts y' = acts y ++ (if fd s =? INVALID then [] else [Closed (fd s)]).
Proof.
  intros [H|H].
  - rewrite close_closed by exact H. exists (errstr s y 0), y, 0. rewrite H. change (INVALID =? INVALID) with true. cbv iota. rewrite app_nil_r. repeat (split; [reflexivity || exact H|]). split; [repeat split|]. auto.
  - destruct (close_open (errstr s y 0) y el H) as (y' & -> & A). replace (fd s =? INVALID) with false by (unfold INVALID; lia).
    do 3 eexists. split; [reflexivity|]. split; [reflexivity|]. split; [repeat split|]. split; [reflexivity|exact A].
Qed.

(** What a call that is to leave one descriptor open has done: [keep] says it stays open. *)
Definition one_or_none (s' : sock) (tr : list act) (rc : Z) : Prop :=
  (rc = 0 /\ 0 <= fd s' /\ live [] tr = Some [fd s']) \/ (rc = -1 /\ fd s' = INVALID /\ live [] tr = Some [] /\ text s' <> NoText).

Lemma bind_ok s y t r a : fd s = INVALID -> nonul t -> handed (l_socket a) -> (forall l, l_gai a = inr l -> entries_ok l) -> (forall rc, l_gai a = inl rc -> rc <> 0) ->
  exists s' y' rc tr, sock_bind s y (t ++ 0 :: r) a = Ok (s', y', rc) /\ acts y' = acts y ++ tr /\ held 0 tr = Some 0 /\ same_but s s' /\
  one_or_none s' tr rc /\ (rc = 0 -> text s' = NoText) /\ (rc = 0 -> family s <> AF_UNIX -> exists fl, flags_of (fd s') tr None = Some fl /\ mode_ok (blocking s) fl) /\
  (rc = 0 -> family s = AF_UNIX -> In (Bound (fd s') (firstn 107 t)) tr /\ flags_of (fd s') tr None = None).
Proof.
  intros Hs Ht Hh Hl Hg. unfold sock_bind. cbn [family with_text]. destruct (Z.eqb_spec (family s) AF_UNIX) as [Ef|Ef].
  - destruct (l_socket a) as [f|e] eqn:Es.
    + assert (Hf : 0 <= f) by (apply Hh; reflexivity). cbv zeta.
      destruct (bind_unix_ok (with_fd (with_text s NoText) f) (did (did y (Tried 0)) (Opened f)) t r (l_unlink a) (l_bind a) Ht) as (y2 & rc & tr & -> & A & _ & H & L & F & D).
      cbn [bind]. assert (A' : acts y2 = acts y ++ [Tried 0; Opened f] ++ tr) by (rewrite A; cbn [acts did]; now trace).
      destruct D as [(-> & I)| ->]; cbn [Z.eqb negb].
      * do 3 eexists. exists ([Tried 0; Opened f] ++ tr). split; [reflexivity|]. split; [exact A'|]. split; [exact H|]. split; [repeat split|].
        split; [left; split; [reflexivity|]; split; [exact Hf|]; cbn [app live existsb]; apply L|]. split; [reflexivity|]. split; [contradiction|]. intros _ _.
        split; [right; right; exact I|]. cbn [app flags_of fd with_fd]. rewrite F. now destruct (f =? f).
      * destruct (close_err (with_fd (with_text s NoText) f) y2 (l_close a)) as (s3 & y3 & rc3 & E3 & F3 & S3 & T3 & A3); [now right|]. cbn [fd with_fd] in A3. cbn [Z.opp Z.eqb negb]. rewrite E3.
        exists s3, y3, (-1), ([Tried 0; Opened f] ++ tr ++ [Closed f]). split; [reflexivity|].
        split; [rewrite A3, A'; replace (f =? INVALID) with false by (unfold INVALID; lia); now trace|].
        split; [rewrite held_app; cbn [held]; rewrite held_app, H; reflexivity|]. split; [exact S3|].
        split; [right; split; [reflexivity|]; split; [exact F3|]; split; [|rewrite T3; discriminate]; cbn [app live existsb]; rewrite live_app, L; apply live_close|]. repeat split; discriminate.
    + cbv zeta. destruct (close_err (with_text s NoText) (fails (did y (Tried 0)) e) (l_close a)) as (s3 & y3 & rc3 & E3 & F3 & S3 & T3 & A3); [now left|]. rewrite E3. cbn [fd with_text] in A3. rewrite Hs in A3.
      exists s3, y3, (-1), [Tried 0]. split; [reflexivity|]. split; [rewrite A3; apply app_nil_r|]. split; [reflexivity|]. split; [exact S3|].
      split; [right; split; [reflexivity|]; split; [exact F3|]; split; [reflexivity|rewrite T3; discriminate]|]. repeat split; discriminate.
  - destruct (l_gai a) as [rc|l] eqn:El.
    + do 3 eexists. exists []. split; [reflexivity|]. split; [rewrite app_nil_r; reflexivity|]. split; [reflexivity|]. split; [repeat split|].
      split; [right; split; [reflexivity|]; split; [exact Hs|]; split; [reflexivity|]; unfold errstr; cbn; destruct (rc =? 0); discriminate|]. repeat split; discriminate.
    + destruct (bind_loop_ok l (with_text s NoText) (did y Resolved) 0 (l_close a) Hs (Hl l eq_refl)) as (s' & y' & rc & tr & -> & A & H & S & D).
      exists s', y', rc, (Resolved :: tr). split; [reflexivity|]. split; [rewrite A; cbn [acts did]; now trace|]. split; [exact H|]. split; [exact S|].
      destruct D as [(-> & F & L & T & M)|(-> & F & L & T)].
      * split; [now left|]. split; [intros _; rewrite T; reflexivity|]. split; [intros _ _; exact M|]. intros _ E. contradiction.
      * split; [right; auto|]. repeat split; discriminate.
Qed.

Lemma listen_ok s y t r a : fd s = INVALID -> nonul t -> handed (l_socket a) -> (forall l, l_gai a = inr l -> entries_ok l) -> (forall rc, l_gai a = inl rc -> rc <> 0) ->
  exists s' y' rc tr, sock_listen s y (t ++ 0 :: r) a = Ok (s', y', rc) /\ acts y' = acts y ++ tr /\ held 0 tr = Some 0 /\ same_but s s' /\
  one_or_none s' tr rc /\ (rc = 0 -> text s' = NoText /\ exists tr0, tr = tr0 ++ [Listening (fd s')]) /\
  (rc = 0 -> family s <> AF_UNIX -> exists fl, flags_of (fd s') tr None = Some fl /\ mode_ok (blocking s) fl) /\
  (rc = 0 -> family s = AF_UNIX -> In (Bound (fd s') (firstn 107 t)) tr /\ flags_of (fd s') tr None = None).
Proof.
  intros Hs Ht Hh Hl Hg. unfold sock_listen. destruct (bind_ok s y t r a Hs Ht Hh Hl Hg) as (s' & y' & rc & tr & -> & A & H & S & D & T & M & U). cbn [bind].
  destruct D as [(-> & F & L)|(-> & F & L & N)]; cbn [Z.opp Z.eqb negb].
  2: { exists s', y', (-1), tr. repeat (split; [reflexivity || assumption|]). split; [right; auto|]. repeat split; discriminate. }
  destruct (l_listen a =? 0).
  - do 3 eexists. exists (tr ++ [Listening (fd s')]). split; [reflexivity|]. split; [cbn [acts did]; rewrite A; now trace|]. split; [rewrite held_app, H; reflexivity|]. split; [exact S|].
    split; [left; split; [reflexivity|]; split; [exact F|]; rewrite live_app, L; reflexivity|]. split; [intros _; split; [auto|eauto]|].
    rewrite flags_app. cbn [flags_of]. split; [exact M|]. intros E1 E2. destruct (U E1 E2) as (U1 & U2). split; [apply in_or_app; now left|exact U2].
  - cbv zeta. destruct (close_err s' (fails y' (l_listen a)) (l_close2 a)) as (s3 & y3 & rc3 & E3 & F3 & S3 & T3 & A3); [now right|]. rewrite E3.
    exists s3, y3, (-1), (tr ++ [Closed (fd s')]). split; [reflexivity|].
    split; [rewrite A3; cbn [acts fails]; rewrite A; replace (fd s' =? INVALID) with false by (unfold INVALID; lia); now trace|]. split; [rewrite held_app, H; reflexivity|].
    split; [destruct S as (S1 & S2 & S4 & S5), S3 as (R1 & R2 & R3 & R4); unfold same_but; repeat split; congruence|].
    split; [right; split; [reflexivity|]; split; [exact F3|]; split; [|rewrite T3; discriminate]; rewrite live_app, L; apply live_close|]. repeat split; discriminate.
Qed.

Lemma connect_unix_ok s y t r sk ec el : fd s = INVALID -> nonul t -> handed sk ->
  exists s' y' rc tr, connect_unix s y (t ++ 0 :: r) sk ec el = Ok (s', y', rc) /\ acts y' = acts y ++ tr /\ held 0 tr = Some 0 /\ same_but s s' /\ one_or_none s' tr rc /\
  (rc = 0 -> In (Connected (fd s') t) tr /\ zlen t < 108 /\ flags_of (fd s') tr None = None) /\ (zlen t >= 108 -> rc = -1).
Proof.
  intros Hs Ht Hh. unfold connect_unix. rewrite strlen_ok by exact Ht. cbn [bind]. cbv zeta. destruct sk as [f|e].
  2: { destruct (close_err s (fails (did y (Tried 0)) e) el) as (s3 & y3 & rc3 & E3 & F3 & S3 & T3 & A3); [now left|]. rewrite E3. rewrite Hs in A3.
       exists s3, y3, (-1), [Tried 0]. split; [reflexivity|]. split; [rewrite A3; apply app_nil_r|]. split; [reflexivity|]. split; [exact S3|].
       split; [right; split; [reflexivity|]; split; [exact F3|]; split; [reflexivity|rewrite T3; discriminate]|]. split; [discriminate|auto]. }
  assert (Hf : 0 <= f) by (apply Hh; reflexivity).
  assert (ERR : forall e, exists s' y' rc tr, (let '(s3, y3, _) := sock_close (errstr (with_fd s f) (fails (did (did y (Tried 0)) (Opened f)) e) 0) (fails (did (did y (Tried 0)) (Opened f)) e) el in Ok (s3, y3, -1)) = Ok (s', y', rc) /\
    acts y' = acts y ++ tr /\ held 0 tr = Some 0 /\ same_but s s' /\ one_or_none s' tr rc /\
    (rc = 0 -> In (Connected (fd s') t) tr /\ zlen t < 108 /\ flags_of (fd s') tr None = None) /\ (zlen t >= 108 -> rc = -1)).
  { intro e. destruct (close_err (with_fd s f) (fails (did (did y (Tried 0)) (Opened f)) e) el) as (s3 & y3 & rc3 & E3 & F3 & S3 & T3 & A3); [now right|]. rewrite E3. cbn [fd with_fd] in A3.
    exists s3, y3, (-1), [Tried 0; Opened f; Closed f]. split; [reflexivity|]. split; [rewrite A3; replace (f =? INVALID) with false by (unfold INVALID; lia); cbn [acts did fails]; now trace|].
    split; [reflexivity|]. split; [exact S3|]. split; [right; split; [reflexivity|]; split; [exact F3|]; split; [|rewrite T3; discriminate]; change (live [f] (Closed f :: []) = Some []); apply live_close|]. split; [discriminate|auto]. }
  destruct (Z.leb_spec SUN_PATH (zlen t)) as [Hl|Hl]; [apply ERR|]. unfold SUN_PATH in Hl.
  replace (bytes_at (t ++ 0 :: r) 0 (zlen t + 1)) with (Ok (t ++ [0])).
  2: { symmetry. pose proof (bytes_mid [] (t ++ [0]) r) as B. cbn [app] in B. rewrite <- app_assoc in B. cbn [app] in B. rewrite zlen_app in B. exact B. }
  cbn [bind]. assert (Hz : 0 <= zlen t) by apply zlen_nonneg.
  rewrite memcpy_ok by (rewrite ?zlen_repeat, ?zlen_app, ?zlen_cons; unfold SUN_PATH; cbn [zlen length Z.of_nat]; change (zlen (@nil Z)) with 0; lia). change (firstn (Z.to_nat 0) (repeat 0 (Z.to_nat SUN_PATH))) with (@nil Z).
  cbn [bind]. rewrite <- ?app_assoc. cbn [app]. rewrite <- ?app_assoc. cbn [app]. rewrite cstring_ok by exact Ht. cbn [bind].
  destruct (ec =? 0); cbn [negb]; [|apply ERR].
  do 3 eexists. exists [Tried 0; Opened f; Connected f t]. split; [reflexivity|]. split; [cbn [acts did]; now trace|]. split; [reflexivity|]. split; [repeat split|].
  split; [left; split; [reflexivity|]; split; [exact Hf|reflexivity]|]. split; [|lia]. intros _. split; [cbn; auto|]. split; [lia|]. cbn. now destruct (f =? f).
Qed.

(** What sc_sock_connect ended with, over the addresses [l] in the order they are to be tried. *)
Definition connect_post (l : list (Z * entry)) (s s' : sock) (y' : sys) (src : bool) (rc : Z) (tr : list act) : Prop :=
  exists dn rest, dn ++ rest = l /\ tried tr = map fst dn /\
  ((0 <= fd s' /\ live [] tr = Some [fd s'] /\ (exists fl, flags_of (fd s') tr None = Some fl /\ mode_ok (blocking s) fl) /\
     exists d k p, dn = d ++ [(k, p)] /\ Forall (fun q => refused (blocking s) (snd q)) d /\ family s' = e_family p /\ In (Connected (fd s') (e_addr p)) tr /\
       ((rc = 0 /\ e_connect p = 0) \/ (rc = -1 /\ blocking s = false /\ errno y' = EAGAIN /\ under_way (e_connect p)))) \/
   (rc = -1 /\ fd s' = INVALID /\ live [] tr = Some [] /\ text s' <> NoText /\
     ((rest = [] /\ Forall (fun q => refused (blocking s) (snd q)) dn) \/ src = true \/ exists d k p, dn = d ++ [(k, p)] /\ ~ setup_ok p))).
Lemma connect_end_ok l s s0 s' y y' src x tr dn rest ec : acts y' = acts y ++ tr -> held 1 tr = Some 1 -> blocking s' = blocking s ->
  round_post l s s' y' src x tr dn rest -> x <> Next \/ rest = [] ->
  exists s2 y2 rc tr2, connect_end s' y' x ec = (s2, y2, rc) /\ acts y2 = acts y ++ tr2 /\ held 1 tr2 = Some 0 /\
    blocking s2 = blocking s' /\ typ s2 = typ s' /\ op s2 = op s' /\ (blocking s0 = blocking s -> connect_post l s0 s2 y2 src rc tr2).
Proof.
  intros A H B (Q1 & Q2 & P) N.
  assert (FIN : forall s3 y3, (s3 = errstr s' y' 0 \/ (s3 = s' /\ text s' <> NoText)) -> y3 = y' -> fd s' = INVALID \/ 0 <= fd s' -> live [] tr = Some (if fd s' =? INVALID then [] else [fd s']) ->
    ((rest = [] /\ Forall (fun q => refused (blocking s) (snd q)) dn) \/ src = true \/ exists d k p, dn = d ++ [(k, p)] /\ ~ setup_ok p) ->
    exists s2 y2 rc tr2, (let '(s, y, _) := sock_close s3 y3 ec in (s, did y FreeList, -1)) = (s2, y2, rc) /\ acts y2 = acts y ++ tr2 /\ held 1 tr2 = Some 0 /\
    blocking s2 = blocking s' /\ typ s2 = typ s' /\ op s2 = op s' /\ (blocking s0 = blocking s -> connect_post l s0 s2 y2 src rc tr2)).
  { intros s3 y3 E3 -> F L R.
    assert (E : fd s3 = fd s' /\ blocking s3 = blocking s' /\ typ s3 = typ s' /\ op s3 = op s' /\ text s3 <> NoText).
    { destruct E3 as [-> | [-> T]]; repeat split; auto. discriminate. }
    destruct E as (E1 & E4 & E5 & E6 & E7).
    assert (C : exists s2 y2 rc0, sock_close s3 y' ec = (s2, y2, rc0) /\ fd s2 = INVALID /\ blocking s2 = blocking s3 /\ typ s2 = typ s3 /\ op s2 = op s3 /\ text s2 = text s3 /\ acts y2 = acts y' ++ (if fd s' =? INVALID then [] else [Closed (fd s')])).
    { destruct F as [F|F].
      - rewrite close_closed by congruence. exists s3, y', 0. rewrite F. change (INVALID =? INVALID) with true. cbv iota. rewrite app_nil_r. repeat split; congruence.
      - destruct (close_open s3 y' ec) as (y2 & -> & A2); [lia|]. replace (fd s' =? INVALID) with false by (unfold INVALID; lia). do 3 eexists. split; [reflexivity|]. repeat split. rewrite A2. congruence. }
    destruct C as (s2 & y2 & rc0 & -> & C1 & C2 & C3 & C4 & C5 & C6).
    exists s2, (did y2 FreeList), (-1), (tr ++ (if fd s' =? INVALID then [] else [Closed (fd s')]) ++ [FreeList]). split; [reflexivity|].
    split; [cbn [acts did]; rewrite C6, A; now trace|]. split; [rewrite held_app, H; destruct (fd s' =? INVALID); reflexivity|]. repeat (split; [congruence|]).
    intro Eb. exists dn, rest. split; [exact Q1|]. split; [rewrite tried_app, Q2; destruct (fd s' =? INVALID); apply app_nil_r|]. right. split; [reflexivity|]. split; [exact C1|].
    split; [rewrite live_app, L; destruct (fd s' =? INVALID); [reflexivity|apply live_close]|]. split; [congruence|]. rewrite Eb. exact R. }
  destruct x as [| | |rv]; cbn [connect_end].
  - destruct P as (P1 & P2 & P3 & P4). cbv zeta. apply FIN; auto. rewrite P1. exact P2.
  - destruct P as (P1 & P2 & P3). cbv zeta. apply FIN; auto. replace (fd s' =? INVALID) with false by (unfold INVALID; lia). exact P2.
  - destruct P as (P1 & P2 & P3 & P4). apply FIN; auto. replace (fd s' =? INVALID) with false by (unfold INVALID; lia). exact P2.
  - destruct P as (P1 & P2 & (fl & P3 & P4) & d & k & p & tr0 & P5 & P6 & P7 & P8 & P9).
    exists s', (did y' FreeList), rv, (tr ++ [FreeList]). split; [reflexivity|]. split; [cbn [acts did]; rewrite A; now trace|]. split; [rewrite held_app, H; reflexivity|]. repeat (split; [reflexivity|]).
    intro Eb. exists dn, rest. split; [exact Q1|]. split; [rewrite tried_app, Q2; apply app_nil_r|]. left. split; [exact P1|]. split; [rewrite live_app, P2; reflexivity|].
    split; [exists fl; split; [rewrite flags_app, P3; reflexivity|rewrite Eb; exact P4]|]. exists d, k, p. split; [exact P5|]. rewrite Eb. split; [exact P6|]. split; [exact P7|].
    split; [rewrite P8; apply in_or_app; left; apply in_or_app; right; now left|exact P9].
Qed.
Lemma connect_inet_ok s y dst src a l : fd s = INVALID -> family s <> AF_UNIX -> c_gai a = inr l -> entries_ok l ->
  exists s' y' rc tr, sock_connect s y dst src a = Ok (s', y', rc) /\ acts y' = acts y ++ tr /\ held 0 tr = Some 0 /\ blocking s' = blocking s /\ typ s' = typ s /\ op s' = op s /\
    connect_post (candidates (family s) l) s s' y' src rc tr.
Proof.
  intros Hs Hf Hg Hl. unfold sock_connect. replace (family s =? AF_UNIX) with false by (unfold AF_UNIX in *; lia). rewrite Hg.
  destruct (round_ok true (family s) src l s (did y Resolved) 0 Hs Hl) as (s1 & y1 & x & tr & dn & rest & -> & A & H & B1 & B2 & B3 & Q1 & Q2 & P).
  assert (LIFT : forall s2 y2 rc tr2, acts y2 = acts (did y Resolved) ++ tr2 -> held 1 tr2 = Some 0 -> connect_post (candidates (family s) l) s s2 y2 src rc tr2 -> blocking s2 = blocking s -> typ s2 = typ s -> op s2 = op s ->
    exists s' y' rc' tr', Ok (s2, y2, rc) = Ok (s', y', rc') /\ acts y' = acts y ++ tr' /\ held 0 tr' = Some 0 /\ blocking s' = blocking s /\ typ s' = typ s /\ op s' = op s /\
    connect_post (candidates (family s) l) s s' y' src rc' tr').
  { intros s2 y2 rc tr2 A2 H2 C2 E1 E2 E3. exists s2, y2, rc, (Resolved :: tr2). split; [reflexivity|]. split; [rewrite A2; cbn [acts did]; now trace|]. split; [exact H2|]. repeat (split; [assumption|]).
    destruct C2 as (d2 & r2 & C1 & C3 & C4). exists d2, r2. split; [exact C1|]. split; [exact C3|]. destruct C4 as [(D1 & D2 & D3 & d & k & p & D4 & D5 & D6 & D7 & D8)|C4]; [left|right; exact C4].
    split; [exact D1|]. split; [exact D2|]. split; [exact D3|]. exists d, k, p. repeat (split; [assumption|]). split; [right; exact D7|exact D8]. }
  destruct (match x with Next => true | _ => false end) eqn:Ex.
  - destruct x; try discriminate. destruct P as (P1 & P2 & -> & P4). rewrite app_nil_r in Q1.
    destruct (round_ok false (family s) src l s1 y1 0 P1 Hl) as (s2 & y2 & x & tr2 & dn2 & rest2 & -> & A2 & H2 & D1 & D2 & D3 & R1 & R2 & R).
    destruct (connect_end_ok (candidates (family s) l) s s s2 (did y Resolved) y2 src x (tr ++ tr2) (dn ++ dn2) rest2 (c_close a)) as (s3 & y3 & rc & tr3 & E & A3 & H3 & G1 & G2 & G3 & C).
    + rewrite A2, A, app_assoc. reflexivity.
    + rewrite held_app, H. exact H2.
    + congruence.
    + split; [rewrite <- app_assoc, R1, Q1; reflexivity|]. split; [rewrite tried_app, map_app, Q2, R2; reflexivity|]. rewrite B1 in R. destruct x; rewrite live_app, P2.
      * destruct R as (R3 & R4 & R5 & R6). repeat (split; [assumption|]). apply Forall_app. auto.
      * destruct R as (R3 & R4 & d & k & p & R5 & R6). repeat (split; [assumption|]). exists (dn ++ d), k, p. split; [rewrite R5, app_assoc; reflexivity|exact R6].
      * exact R.
      * destruct R as (R3 & R4 & (fl & R5 & R6) & d & k & p & tr0 & R7 & R8 & R9 & R10 & R11). split; [exact R3|]. split; [exact R4|]. split; [exists fl; split; [intro n; rewrite flags_app; apply R5|exact R6]|].
        exists (dn ++ d), k, p, (tr ++ tr0). split; [rewrite R7, app_assoc; reflexivity|]. split; [apply Forall_app; auto|]. split; [exact R9|]. split; [rewrite R10, app_assoc; reflexivity|exact R11].
    + destruct x; [right; destruct R as (_ & _ & R & _); exact R|now left..]. 
    + rewrite E. apply LIFT with (tr2 := tr3); auto; congruence.
  - destruct (connect_end_ok (candidates (family s) l) s s s1 (did y Resolved) y1 src x tr dn (rest ++ numbered false (family s) 0 l) (c_close a)) as (s3 & y3 & rc & tr3 & E & A3 & H3 & G1 & G2 & G3 & C); auto.
    + split; [unfold candidates; rewrite app_assoc, Q1; reflexivity|]. split; [exact Q2|]. destruct x; try discriminate; exact P.
    + left. intros ->. discriminate.
    + destruct x; try discriminate; rewrite E; apply LIFT with (tr2 := tr3); auto; congruence.
Qed.

Lemma accept_ok s n y ac nd fc el : handed ac -> fd n = INVALID -> exists s' n' y' rc tr, sock_accept s n y ac nd fc el = (s', n', y', rc) /\ acts y' = acts y ++ tr /\ held 0 tr = Some 0 /\
  fd s' = fd s /\ same_but s s' /\
  ((rc = 0 /\ s' = s /\ 0 <= fd n' /\ live [] tr = Some [fd n'] /\ op n' = 0 /\ family n' = family s /\ exists fl, flags_of (fd n') tr None = Some fl /\ mode_ok (blocking s) fl) \/
   (rc = -1 /\ fd n' = INVALID /\ live [] tr = Some [] /\ (text s' <> NoText \/ (tr = [] /\ blocking s = false /\ errno y' = EAGAIN)))).
Proof.
  intros Ha Hn. unfold sock_accept. destruct ac as [f|e].
  2: { cbv zeta. cbn [errno fails]. destruct (negb (blocking s) && (e =? EAGAIN)) eqn:Eb.
       - apply andb_true_iff in Eb as [E1 E2]. do 4 eexists. exists []. split; [reflexivity|]. rewrite app_nil_r. repeat (split; [reflexivity|]). split; [repeat split|]. right.
         split; [reflexivity|]. split; [exact Hn|]. split; [reflexivity|]. right. split; [reflexivity|]. split; [now destruct (blocking s)|reflexivity].
       - do 4 eexists. exists []. split; [reflexivity|]. rewrite app_nil_r. repeat (split; [reflexivity|]). split; [repeat split|]. right. split; [reflexivity|]. split; [exact Hn|]. split; [reflexivity|]. left. discriminate. }
  assert (Hf : 0 <= f) by (apply Ha; reflexivity). cbv zeta. cbn [family]. set (n1 := mk_sock f 0 (typ n) (blocking n) (family s) (text n)).
  assert (ERR : forall y2 tr, acts y2 = acts y ++ tr -> held 0 tr = Some 0 -> live [] tr = Some [f] ->
    exists s' n' y' rc tr', (let '(n0, y0, _) := sock_close n1 y2 el in (errstr s y2 0, n0, y0, -1)) = (s', n', y', rc) /\ acts y' = acts y ++ tr' /\ held 0 tr' = Some 0 /\
    fd s' = fd s /\ same_but s s' /\
    ((rc = 0 /\ s' = s /\ 0 <= fd n' /\ live [] tr' = Some [fd n'] /\ op n' = 0 /\ family n' = family s /\ exists fl, flags_of (fd n') tr' None = Some fl /\ mode_ok (blocking s) fl) \/
     (rc = -1 /\ fd n' = INVALID /\ live [] tr' = Some [] /\ (text s' <> NoText \/ (tr' = [] /\ blocking s = false /\ errno y' = EAGAIN))))).
  { intros y2 tr A H L. destruct (close_open n1 y2 el Hf) as (y3 & -> & A3). do 4 eexists. exists (tr ++ [Closed f]). split; [reflexivity|]. split; [rewrite A3, A; cbn [fd n1]; now trace|].
    split; [rewrite held_app, H; reflexivity|]. split; [reflexivity|]. split; [repeat split|]. right. split; [reflexivity|]. split; [reflexivity|]. split; [rewrite live_app, L; apply live_close|]. left. discriminate. }
  destruct (negb (family s =? AF_UNIX) && negb (nd =? 0)); [apply (ERR _ [Opened f]); reflexivity|].
  set (y2 := if negb (family s =? AF_UNIX) then did (did y (Opened f)) (Option f NODELAY) else did y (Opened f)).
  assert (A : exists tr, acts y2 = acts y ++ tr /\ (tr = [Opened f; Option f NODELAY] \/ tr = [Opened f])).
  { unfold y2. destruct (negb (family s =? AF_UNIX)); eexists; (split; [cbn [acts did]; now trace|auto]). }
  destruct A as (tr & A & D). cbn [family n1] in *. fold n1.
  destruct (set_blocking_ok n1 y2 (blocking s) fc) as (y3 & rc & E & K). change (mk_sock f 0 (typ n) (blocking n) (family s) (text n)) with n1. fold y2. rewrite E.
  destruct K as [(-> & fl & Mf & A3 & _)|(-> & A3 & _)]; cbn [Z.opp Z.eqb negb].
  - do 4 eexists. exists (tr ++ [Flags f fl]). split; [reflexivity|]. split; [rewrite A3, A; now trace|]. split; [destruct D as [-> | ->]; reflexivity|]. split; [reflexivity|]. split; [repeat split|]. left.
    split; [reflexivity|]. split; [reflexivity|]. split; [exact Hf|]. split; [destruct D as [-> | ->]; reflexivity|]. split; [reflexivity|]. split; [reflexivity|].
    exists fl. split; [|exact Mf]. rewrite flags_app. cbn [flags_of fd n1]. rewrite Z.eqb_refl. reflexivity.
  - apply (ERR y3 tr); [congruence|destruct D as [-> | ->]; reflexivity..].
Qed.
