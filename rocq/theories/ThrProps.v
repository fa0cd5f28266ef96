(** C75: thread/sc_thread.c. *)
From Verif Require Import Base CStr StrSpec StrProofs ThrModel.

(** The history a user expects: [cur] is the result of the thread that runs, if any.
    A start when none runs, answered by a new thread, makes one run; a join or term
    waits for it and gives its value; with none running they do nothing. *)
Fixpoint expected (cur : option Z) (l : list top) : list (Z * Z) * option Z :=
  match l with
  | [] => ([], cur)
  | o :: l =>
      let '(r, cur) := match o with
        | Start ra c _ => if ra =? 0 then match c with Created _ v => ((0, 0), Some v) | Refused rc _ => ((rc, 0), None) end else ((-1, 0), cur)
        | Join rj _ => match cur with Some v => if rj =? 0 then ((0, v), None) else ((rj, 0), None) | None => ((0, 0), None) end
        | Term rj _ => match cur with Some v => if rj =? 0 then ((0, 0), None) else ((rj, 0), None) | None => ((0, 0), None) end
        end in
      let '(rs, cur) := expected cur l in (r :: rs, cur)
  end.
(** The histories meant: a thread is started only when none runs, new threads get
    identifiers not in use and not 0, a refused creation leaves 0 in the object,
    joins succeed. *)
Fixpoint proper (used : list Z) (running : bool) (l : list top) : Prop :=
  match l with
  | [] => True
  | Start ra c _ :: l => running = false /\
      (if ra =? 0 then match c with Created id _ => id <> 0 /\ ~ In id used /\ proper (id :: used) true l | Refused rc junk => rc <> 0 /\ junk = 0 /\ proper used false l end
       else proper used false l)
  | Join rj _ :: l | Term rj _ :: l => rj = 0 /\ proper used false l
  end.

Lemma set_err_ok t msg : zlen (terr t) = 128 -> exists e, set_err t msg = Ok (mk_thread (tid t) e) /\ zlen e = 128.
Proof.
  intro H. unfold set_err. set (x := firstn 127 (msg ++ repeat 0 127)).
  assert (Hx : zlen x = 127) by (unfold x, zlen; rewrite firstn_length, app_length, repeat_length; lia).
  rewrite memcpy_ok by lia. cbn [bind]. eexists. split; [reflexivity|].
  rewrite !zlen_app. unfold zlen in *. rewrite firstn_length, skipn_length. lia.
Qed.
Lemma find_head w id r : find_thread ((id, r) :: w) id = Some r.
Proof. cbn. now rewrite Z.eqb_refl. Qed.
Lemma without_head w id r : (forall x, In x w -> fst x <> id) -> without ((id, r) :: w) id = w.
Proof.
  intro H. unfold without. cbn. rewrite Z.eqb_refl. cbn.
  induction w as [|x w IH]; [reflexivity|]. cbn. rewrite (proj2 (Z.eqb_neq (fst x) id) (H x (or_introl eq_refl))). cbn. f_equal.
  apply IH. intros y Hy. apply H. now right.
Qed.
Lemma thr_go l : forall w used t cur, zlen (terr t) = 128 -> (forall x, In x w -> In (fst x) used) ->
  match cur with Some v => tid t <> 0 /\ In (tid t) used /\ ~ (exists x, In x w /\ fst x = tid t) | None => tid t = 0 end ->
  proper used (match cur with Some _ => true | None => false end) l ->
  exists w' t', thr_run (match cur with Some v => (tid t, v) :: w | None => w end) t l = Ok (w', t', fst (expected cur l)) /\
    match snd (expected cur l) with Some v => tid t' <> 0 /\ w' = (tid t', v) :: w | None => tid t' = 0 /\ w' = w end.
Proof.
  induction l as [|o l IH]; intros w used t cur Hl Hu Hc Hp.
  - cbn. do 2 eexists. split; [reflexivity|]. destruct cur; [split; [apply Hc|reflexivity]|auto].
  - destruct o as [ra c msg|rj msg|rj msg]; cbn [proper] in Hp.
    + destruct Hp as [Hr Hp]. destruct cur as [v|]; [discriminate Hr|]. clear Hr. cbn [thr_run thr_do expected].
      unfold thr_start. destruct (Z.eqb_spec ra 0) as [->|Hra]; cbn [negb].
      * destruct c as [id v|rc junk].
        -- destruct Hp as (H1 & H2 & Hp). cbn [bind].
           destruct (IH w (id :: used) (mk_thread id (terr t)) (Some v)) as (w' & t' & E & F); cbn [tid terr] in *; auto.
           { intros x Hx. right. now apply Hu. }
           { split; [exact H1|]. split; [now left|]. intros (x & Hx & <-). apply H2. now apply Hu. }
           rewrite E. cbn [bind]. destruct (expected (Some v) l) as [rs cur]. cbn [fst snd] in *. do 2 eexists. split; [reflexivity|exact F].
        -- destruct Hp as (_ & -> & Hp). destruct (set_err_ok (mk_thread 0 (terr t)) msg Hl) as (e & Ee & Le). rewrite Ee. cbn [bind].
           destruct (IH w used (mk_thread 0 e) None) as (w' & t' & E & F); cbn [tid terr] in *; auto.
           rewrite E. cbn [bind]. destruct (expected None l) as [rs cur]. cbn [fst snd] in *. do 2 eexists. split; [reflexivity|exact F].
      * destruct (set_err_ok t msg Hl) as (e & Ee & Le). rewrite Ee. cbn [bind].
        destruct (IH w used (mk_thread (tid t) e) None) as (w' & t' & E & F); cbn [tid terr] in *; auto.
        rewrite E. cbn [bind]. destruct (expected None l) as [rs cur]. cbn [fst snd] in *. do 2 eexists. split; [reflexivity|exact F].
    + destruct Hp as [-> Hp]. cbn [thr_run thr_do expected]. unfold thr_join. destruct cur as [v|].
      * destruct Hc as (H1 & H2 & H3). rewrite (proj2 (Z.eqb_neq _ 0) H1), find_head. cbn [or_ub bind Z.eqb negb].
        rewrite without_head by (intros x Hx E; apply H3; now exists x).
        destruct (IH w used (mk_thread 0 (terr t)) None) as (w' & t' & E & F); cbn [tid terr] in *; auto.
        rewrite E. cbn [bind]. destruct (expected None l) as [rs cur]. cbn [fst snd] in *. do 2 eexists. split; [reflexivity|exact F].
      * rewrite Hc. cbn [Z.eqb bind]. destruct (IH w used t None) as (w' & t' & E & F); auto.
        rewrite E. cbn [bind]. destruct (expected None l) as [rs cur]. cbn [fst snd] in *. do 2 eexists. split; [reflexivity|exact F].
    + destruct Hp as [-> Hp]. cbn [thr_run thr_do expected]. unfold thr_term, thr_join. destruct cur as [v|].
      * destruct Hc as (H1 & H2 & H3). rewrite (proj2 (Z.eqb_neq _ 0) H1), find_head. cbn [or_ub bind Z.eqb negb].
        rewrite without_head by (intros x Hx E; apply H3; now exists x).
        destruct (IH w used (mk_thread 0 (terr t)) None) as (w' & t' & E & F); cbn [tid terr] in *; auto.
        rewrite E. cbn [bind]. destruct (expected None l) as [rs cur]. cbn [fst snd] in *. do 2 eexists. split; [reflexivity|exact F].
      * rewrite Hc. cbn [Z.eqb bind]. destruct (IH w used t None) as (w' & t' & E & F); auto.
        rewrite E. cbn [bind]. destruct (expected None l) as [rs cur]. cbn [fst snd] in *. do 2 eexists. split; [reflexivity|exact F].
Qed.

(** C75.  In every proper history on an initialised object each thread is joined
    once, gives its own value, further joins return 0 and NULL, and at the end no thread
    is left over but the one still running. *)
Theorem thread_history_partial t l : zlen (terr t) = 128 -> proper [] false l ->
  exists w t', thr_run [] (thr_init t) l = Ok (w, t', fst (expected None l)) /\
    match snd (expected None l) with Some v => tid t' <> 0 /\ w = [(tid t', v)] | None => tid t' = 0 /\ w = [] end.
Proof. intros Hl Hp. apply (thr_go l [] [] (thr_init t) None Hl); auto. Qed.
Print Assumptions thread_history_partial.
Example thread_history_ex :
  let l := [Join 0 []; Start 0 (Created 5 42) []; Join 0 []; Join 0 []; Start 11 (Created 6 0) [69]; Start 0 (Created 7 43) []; Term 0 []] in
  proper [] false l /\ expected None l = ([(0, 0); (0, 0); (0, 42); (0, 0); (-1, 0); (0, 0); (0, 0)], None).
Proof. cbn. intuition (try discriminate; try lia). Qed.
(** C75 fails after a refused creation: sc_thread_term joins whatever
    pthread_create left in the object. *)
Theorem thread_history_refuted : exists t l, zlen (terr t) = 128 /\ l = [Start 0 (Refused 11 999) [69]; Term 0 []] /\ thr_run [] (thr_init t) l = UB.
Proof. exists (mk_thread 0 (repeat 0 128)). eexists. split; [reflexivity|]. split; reflexivity. Qed.
Print Assumptions thread_history_refuted.
(** C75 fails for errors as the header states them: the result is the positive error
    number, not -1; and a failed join forgets the thread, which stays unjoined. *)
Theorem thread_error_refuted : exists t w t' rs,
  thr_run [] (thr_init t) [Start 0 (Created 5 42) []; Join 35 [69]; Join 0 []] = Ok (w, t', rs) /\
  rs = [(0, 0); (35, 0); (0, 0)] /\ w = [(5, 42)] /\ tid t' = 0.
Proof. exists (mk_thread 0 (repeat 0 128)). do 3 eexists. split; [vm_compute; reflexivity|]. repeat split. Qed.
Print Assumptions thread_error_refuted.

(** C76.  After a failing call sc_thread_err is the message, cut at 127 bytes,
    provided the message is shorter or the last byte of err was 0.  Missing: messages of
    127 bytes and more on an err the caller did not clear (sc_thread_init does not). *)
Theorem thread_err_text_partial t msg tl : zlen (terr t) = 128 -> nonul msg -> (zlen msg < 127 \/ nth_error (terr t) 127 = Some 0) ->
  exists t' rest, set_err t (msg ++ 0 :: tl) = Ok t' /\ (zlen msg < 127 -> terr t' = msg ++ 0 :: rest) /\
    (127 <= zlen msg -> terr t' = firstn 127 msg ++ [0]).
Proof.
  intros Hl Hn Hm. unfold set_err. rewrite <- app_assoc. cbn [app]. set (x := firstn 127 _).
  assert (Hx : zlen x = 127) by (unfold x, zlen; rewrite firstn_length, app_length; cbn [length]; rewrite app_length, repeat_length; lia).
  rewrite memcpy_ok by lia. cbn [bind firstn app Z.to_nat]. rewrite Hx. cbn [Z.add].
  change (Z.to_nat 127) with 127%nat.
  assert (Hs : exists y, skipn 127 (terr t) = [y] /\ nth_error (terr t) 127 = Some y).
  { destruct (skipn 127 (terr t)) as [|y [|z r]] eqn:E; apply (f_equal (@length Z)) in E as L; rewrite skipn_length in L; cbn in L; unfold zlen in Hl; try lia.
    exists y. split; [reflexivity|]. rewrite <- (firstn_skipn 127 (terr t)), E, nth_error_app2; rewrite firstn_length; [|lia].
    replace (127 - Nat.min 127 (length (terr t)))%nat with 0%nat by lia. reflexivity. }
  destruct Hs as (y & -> & Hy).
  destruct (Z.lt_ge_cases (zlen msg) 127) as [H|H].
  - exists (mk_thread (tid t) (x ++ [y])), (skipn (S (length msg)) x ++ [y]). split; [reflexivity|]. split; [intros _|lia]. cbn [terr].
    rewrite (app_comm_cons _ _ 0), app_assoc. f_equal. unfold x.
    rewrite firstn_app. unfold zlen in H. rewrite firstn_all2 by lia. f_equal.
    destruct (127 - length msg)%nat as [|k] eqn:Ek; [lia|]. cbn [firstn]. f_equal.
    rewrite skipn_app. rewrite (skipn_all2 msg) by lia. replace (S (length msg) - length msg)%nat with 1%nat by lia. reflexivity.
  - exists (mk_thread (tid t) (x ++ [y])), []. split; [reflexivity|]. split; [lia|]. intros _. cbn [terr].
    destruct Hm as [Hm|Hm]; [lia|]. rewrite Hm in Hy. injection Hy as <-. f_equal. unfold x. rewrite firstn_app.
    unfold zlen in H. replace (127 - length msg)%nat with 0%nat by lia. cbn. apply app_nil_r.
Qed.
Print Assumptions thread_err_text_partial.
Example thread_err_ex : exists t', set_err (mk_thread 0 (repeat 7 128)) [66; 97; 100; 0] = Ok t' /\ firstn 4 (terr t') = [66; 97; 100; 0].
Proof. eexists. split; [vm_compute; reflexivity|reflexivity]. Qed.
(** C76, refuted otherwise: a message of 127 bytes on a structure sc_thread_init left
    uncleared gives an err without terminator. *)
Theorem thread_err_refuted : exists t msg t', zlen (terr t) = 128 /\ nonul msg /\ zlen msg = 127 /\
  set_err (thr_init t) (msg ++ [0]) = Ok t' /\ zlen (terr t') = 128 /\ ~ In 0 (terr t').
Proof.
  exists (mk_thread 5 (repeat 7 128)), (repeat 66 127). eexists.
  split; [reflexivity|]. split; [unfold nonul; intros H; apply repeat_spec in H; discriminate H|]. split; [reflexivity|].
  split; [vm_compute; reflexivity|]. split; [reflexivity|]. cbn [terr In]. intuition discriminate.
Qed.
Print Assumptions thread_err_refuted.
