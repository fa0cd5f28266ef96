(** C132, C133: initialising the logger, and callbacks that call it. *)
From Verif Require Import Base LogModel LogCbModel.

(** C132: sc_log_init returns 0 exactly if both pthread calls succeed, otherwise their error, which is then errno; the attribute
    object is destroyed exactly if it was made; the logger is ready, logging from INFO on to the console only. *)
Theorem log_init_partial ra rm e : let '(l, rc, e') := log_init ra rm e in
  (rc = 0 <-> ra = 0 /\ rm = 0) /\ (rc = 0 -> e' = e) /\ (rc <> 0 -> e' = rc) /\
  (In AttrDestroy (fst (log_mutex_init ra rm)) <-> ra = 0) /\
  inited l = true /\ level l = LINFO /\ to_stdout l = true /\ fp l = None /\ cb l = None.
Proof.
  unfold log_init, log_mutex_init, init. destruct (Z.eqb_spec ra 0) as [->|Ha]; cbn [negb snd fst]; [destruct (Z.eqb_spec rm 0) as [->|Hm]|destruct (Z.eqb_spec ra 0); [contradiction|]];
    cbn [negb]; repeat split; cbn; intros; try tauto; try congruence; intuition discriminate.
Qed.
Print Assumptions log_init_partial.
(** On Windows it does what it does on POSIX when both calls succeed. *)
Theorem log_init_windows e : wlog_init e = log_init 0 0 e.
Proof. reflexivity. Qed.
Print Assumptions log_init_windows.
Example log_init_ex : snd (fst (log_init 0 0 7)) = 0 /\ log_mutex_init 12 0 = ([AttrInit], 12).
Proof. split; reflexivity. Qed.
(** C132, refuted: "negative value on error": error numbers are positive, and the logger counts as initialised. *)
Theorem log_init_refuted ra rm e : 0 <= ra -> 0 <= rm -> ra <> 0 \/ rm <> 0 ->
  let '(l, rc, _) := log_init ra rm e in 0 < rc /\ inited l = true.
Proof.
  intros Ha Hm H. unfold log_init, log_mutex_init, init. destruct (Z.eqb_spec ra 0); cbn [negb snd fst inited]; split; try reflexivity; lia.
Qed.
Print Assumptions log_init_refuted.

(** Calls that lock nothing: naming the thread, an unknown level, and in the build with C11 atomics setting a level and logging
    below it. *)
Definition quiet (atomic : bool) (w : world) (o : op) : Prop :=
  match o with
  | SetName _ _ => True
  | SetLevel s => find_level s 0 level_names = Ok None \/ atomic = true /\ exists i, find_level s 0 level_names = Ok (Some i)
  | Log _ lv _ _ _ _ _ _ => atomic = true /\ lv < level (lg w)
  | _ => False
  end.
(** All calls are of this kind when they are made. *)
Fixpoint all_quiet (atomic : bool) (w : world) (l : list op) : Prop :=
  match l with [] => True | o :: l => quiet atomic w o /\ forall w' rc, step w o = Ok (w', rc) -> all_quiet atomic w' l end.

Lemma locks_quiet atomic w o : locks atomic w o = Ok false <-> quiet atomic w o.
Proof.
  destruct o; cbn [locks quiet]; try (split; [discriminate|intros []]); try tauto.
  - destruct (find_level str 0 level_names) as [[i|]| |]; cbn [bind].
    + split; [destruct atomic; [right; eauto|discriminate]|]. intros [H|[-> _]]; [discriminate|reflexivity].
    + split; [auto|reflexivity].
    + split; [discriminate|intros [H|[_ [i H]]]; discriminate].
    + split; [discriminate|intros [H|[_ [i H]]]; discriminate].
  - destruct atomic; [|split; [discriminate|intros [? _]; discriminate]].
    destruct (Z.ltb_spec lv (level (lg w))); cbn [negb]; split; intros; try discriminate; try reflexivity; [auto|lia].
Qed.

(** C133, POSIX: a message that reaches the callback.  If the callback's calls lock nothing, the call returns what it would without
    them, and they have their usual effect; if one of them locks, the thread waits forever for the mutex it holds. *)
Theorem log_callback_partial atomic w t lv msg ao af mv ok body crc arg w1 rc :
  level (lg w) <= lv -> cb (lg w) = Some arg -> log w t lv msg ao af mv ok crc = Ok (w1, rc) ->
  (forall w2 rcs, all_quiet atomic w1 body -> run w1 body = Ok (w2, rcs) -> log_cb atomic w t lv msg ao af mv ok body crc = Ok (Back w2 rc)) /\
  (forall l1 o l2 w2 rcs, body = l1 ++ o :: l2 -> all_quiet atomic w1 l1 -> run w1 l1 = Ok (w2, rcs) -> locks atomic w2 o = Ok true ->
     log_cb atomic w t lv msg ao af mv ok body crc = Ok Stuck).
Proof.
  intros Hl Hc Hg. unfold log_cb. rewrite Hg. cbn [bind]. replace (lv <? level (lg w)) with false by lia. rewrite Hc.
  assert (A : forall l1 l2 w1 w2 rcs, all_quiet atomic w1 l1 -> run w1 l1 = Ok (w2, rcs) -> inside atomic w1 (l1 ++ l2) = inside atomic w2 l2).
  { induction l1 as [|o l1 IH]; intros l2 wa wb rcs Hq Hr; cbn [app inside run all_quiet] in *; [now injection Hr as <- <-|].
    destruct Hq as [Hq Hn]. apply locks_quiet in Hq. rewrite Hq. cbn [bind].
    destruct (step wa o) as [[wc rc1]| |] eqn:Es; try discriminate. cbn [bind] in Hr |- *.
    destruct (run wc l1) as [[wd rcs1]| |] eqn:Er; try discriminate. cbn [bind] in Hr. injection Hr as <- <-. eapply IH; eauto. }
  split.
  - intros w2 rcs Hq Hr. rewrite <- (app_nil_r body). rewrite (A body [] w1 w2 rcs Hq Hr). reflexivity.
  - intros l1 o l2 w2 rcs -> Hq Hr Ho. rewrite (A l1 (o :: l2) w1 w2 rcs Hq Hr). cbn [inside]. rewrite Ho. reflexivity.
Qed.
Print Assumptions log_callback_partial.

Definition ans := mk_answers (Some [50]) Good Good.
Definition w0 : world := mk_world (mk_logger None (repeat 0 256) (repeat 0 256) 0 LINFO true false (Some 5)) [] [] [] (fun _ => None) (fun _ => first_name).
Definition debug : op := Log 1 LDEBUG [88] ans ans true true 0.
Definition again : op := Log 1 LERROR [89] ans ans true true 0.
Example log_callback_ex : all_quiet true w0 [debug] /\
  match log_cb true w0 1 LERROR [90] ans ans true true [debug] 0 with Ok (Back w rc) => calls w = [(5, LERROR, [90])] /\ rc = 0 | _ => False end.
Proof. split; [split; [split; [reflexivity|vm_compute; reflexivity]|intros; exact I]|]. vm_compute. split; reflexivity. Qed.
(** C133, refuted: a callback that logs an error, on POSIX. *)
Theorem log_callback_refuted atomic : log_cb atomic w0 1 LERROR [90] ans ans true true [again] 0 = Ok Stuck.
Proof. destruct atomic; vm_compute; reflexivity. Qed.
Print Assumptions log_callback_refuted.

(** C133, Windows: a callback that logs only at lower levels than the message it gets: the nesting ends. *)
Definition lower (lv : Z) (o : op) : Prop := match o with Log _ lv' _ _ _ _ _ _ => 0 <= lv' < lv | _ => True end.
Lemma foldM_nofuel {S X} (f : S -> X -> res S) l : Forall (fun x => forall s, f s x <> Fuel) l -> forall s, foldM f s l <> Fuel.
Proof.
  induction 1 as [|x l H _ IH]; intro s; cbn [foldM]; [discriminate|]. destruct (f s x) as [s'| |] eqn:E; cbn [bind]; [apply IH|discriminate|].
  exfalso. exact (H s E).
Qed.
(** Nothing in LogModel is bounded by fuel. *)
Lemma bind_nf {A B} (x : res A) (f : A -> res B) : x <> Fuel -> (forall a, f a <> Fuel) -> bind x f <> Fuel.
Proof. destruct x; cbn; auto; discriminate. Qed.
Create HintDb nf.
Ltac nf := repeat first [discriminate | solve [auto with nf] | apply bind_nf; [|intro] |
  match goal with |- context [match ?x with _ => _ end] => destruct x end].
Lemma or_ub_nf {A} (o : option A) : or_ub o <> Fuel. Proof. unfold or_ub. nf. Qed.
Lemma zput_nf {A} (l : list A) i x : zput l i x <> Fuel. Proof. unfold zput. nf. Qed.
Lemma memcpy_nf m p xs : CStr.memcpy m p xs <> Fuel. Proof. unfold CStr.memcpy. nf. Qed.
Lemma bytes_at_nf m p n : CStr.bytes_at m p n <> Fuel. Proof. unfold CStr.bytes_at. nf. Qed.
Lemma strlen_nf l : CStr.strlen l <> Fuel. Proof. induction l; cbn [CStr.strlen]; nf. Qed.
Lemma cstring_nf l : IniModel.cstring l <> Fuel. Proof. induction l; cbn [IniModel.cstring]; nf. Qed.
Lemma upto_nf n : forall l, IniModel.upto_nul n l <> Fuel. Proof. induction n; intros [|c l]; cbn [IniModel.upto_nul]; nf. Qed.
Lemma casecmp_nf a : forall b, strcasecmp a b <> Fuel.
Proof. induction a; intros [|y b]; cbn [strcasecmp]; unfold to_lower; nf. Qed.
#[local] Hint Resolve or_ub_nf zput_nf memcpy_nf bytes_at_nf strlen_nf cstring_nf upto_nf casecmp_nf : nf.
Lemma find_level_nf str ls : forall i, find_level str i ls <> Fuel. Proof. induction ls; intro i; cbn [find_level]; nf. Qed.
Lemma header_nf lv name st a : print_header lv name st a <> Fuel. Proof. unfold print_header. nf. Qed.
#[local] Hint Resolve find_level_nf header_nf : nf.
Lemma log_stdout_nf lv name msg a : log_stdout lv name msg a <> Fuel. Proof. unfold log_stdout. nf. Qed.
Lemma log_file_nf l f p lv name msg a mv ok : log_file l f p lv name msg a mv ok <> Fuel. Proof. unfold log_file. nf. Qed.
#[local] Hint Resolve log_stdout_nf log_file_nf : nf.
Lemma log_nf w t lv msg ao af mv ok crc : log w t lv msg ao af mv ok crc <> Fuel. Proof. unfold log. nf. Qed.
Lemma set_file_nf l f p c ok nl tell e : set_file l f p c ok nl tell e <> Fuel. Proof. unfold set_file, close_file. nf. Qed.
#[local] Hint Resolve log_nf set_file_nf : nf.
Lemma step_nf w o : step w o <> Fuel. Proof. unfold step, set_level, set_thread_name, IniModel.strncpy. nf. Qed.

(** What was handed to the callback before stays. *)
Lemma log_calls w t lv msg ao af mv ok crc w' rc : log w t lv msg ao af mv ok crc = Ok (w', rc) -> exists more, calls w' = calls w ++ more.
Proof.
  unfold log. destruct (lv <? level (lg w)); [intro H; injection H as <- _; exists []; now rewrite app_nil_r|].
  intro H.
  match type of H with bind ?x _ = _ => destruct x as [[w1 r1]| |] eqn:E1 end; cbn [bind] in H; try discriminate.
  match type of H with bind ?x _ = _ => destruct x as [[w2 r2]| |] eqn:E2 end; cbn [bind] in H; try discriminate.
  assert (H1 : calls w1 = calls w).
  { destruct (to_stdout (lg w)); [|now injection E1 as <- _]. match type of E1 with bind ?x _ = _ => destruct x as [[? ?]| |] end; cbn [bind] in E1; try discriminate.
    destruct (lv =? LERROR); injection E1 as <- _; reflexivity. }
  assert (H2 : calls w2 = calls w1).
  { destruct (fp (lg w)); [|now injection E2 as <- _]. match type of E2 with bind ?x _ = _ => destruct x as [[[? ?] ?]| |] end; cbn [bind] in E2; try discriminate.
    injection E2 as <- _. reflexivity. }
  rewrite <- H1, <- H2. destruct (cb (lg w)); injection H as <- _; cbn [calls]; [eexists; reflexivity|exists []; now rewrite app_nil_r].
Qed.
Lemma step_calls w o w' rc : step w o = Ok (w', rc) -> exists more, calls w' = calls w ++ more.
Proof.
  destruct o; cbn [step]; try (intro H; eapply log_calls; exact H); intro H;
  repeat match type of H with
  | bind ?x _ = _ => destruct x as [?| |]; cbn [bind] in H; try discriminate
  | (let '(_, _) := ?x in _) = _ => destruct x
  | match ?x with _ => _ end = _ => destruct x; try discriminate
  end; try (injection H as <- _); cbn; exists []; now rewrite app_nil_r.
Qed.

(** ... and the call returns what it would without the callback's calls, the message itself being handed over first. *)
Theorem wlog_callback_partial body : (forall arg lv msg, Forall (lower lv) (body arg lv msg)) ->
  forall w t lv msg ao af mv ok crc, 0 <= lv -> (exists n, wlog_cb n body w t lv msg ao af mv ok crc <> Fuel) /\
  forall n w2 rc, wlog_cb n body w t lv msg ao af mv ok crc = Ok (w2, rc) ->
    exists w1 more, log w t lv msg ao af mv ok crc = Ok (w1, rc) /\ calls w2 = calls w1 ++ more.
Proof.
  intros Hb w t lv msg ao af mv ok crc Hl. split; [|clear Hl; intro n; revert w t lv msg ao af mv ok crc; induction n as [|n IH];
    intros w t lv msg ao af mv ok crc w2 rc; cbn [wlog_cb]; [discriminate|]].
  2:{ destruct (log w t lv msg ao af mv ok crc) as [[w1 rc1]| |]; cbn [bind]; try discriminate.
    destruct (lv <? level (lg w)); [intro H; injection H as <- <-; exists w1, []; now rewrite app_nil_r|].
    destruct (cb (lg w)) as [arg|]; [|intro H; injection H as <- <-; exists w1, []; now rewrite app_nil_r].
    generalize (body arg lv msg). intros l H.
    assert (B : forall l wa wb, foldM (fun w o => match o with Log t lv msg ao af mv ok crc => let* (w, _) := wlog_cb n body w t lv msg ao af mv ok crc in Ok w
        | _ => let* (w, _) := step w o in Ok w end) wa l = Ok wb -> exists more, calls wb = calls wa ++ more).
    { clear H. clear l. induction l as [|o l IHl]; intros wa wb; cbn [foldM]; [intro H; injection H as <-; exists []; now rewrite app_nil_r|].
      match goal with |- bind ?x _ = _ -> _ => destruct x as [wc| |] eqn:E end; cbn [bind]; try discriminate.
      intro H. destruct (IHl _ _ H) as [m2 H2]. rewrite H2.
      assert (C : exists m1, calls wc = calls wa ++ m1).
      { destruct o; try (match type of E with bind ?x _ = _ => destruct x as [[wd rd]| |] eqn:Es end; cbn [bind] in E; try discriminate; injection E as <-; eapply step_calls; exact Es).
        match type of E with bind ?x _ = _ => destruct x as [[wd rd]| |] eqn:Es end; cbn [bind] in E; try discriminate. injection E as <-.
        apply IH in Es. destruct Es as (w3 & m & Hg & Hm). apply log_calls in Hg. destruct Hg as [m' Hm']. exists (m' ++ m). now rewrite Hm, Hm', app_assoc. }
      destruct C as [m1 H1]. exists (m1 ++ m2). now rewrite H1, app_assoc. }
    match type of H with bind ?x _ = _ => destruct x as [wb| |] eqn:E end; cbn [bind] in H; try discriminate. injection H as <- <-.
    destruct (B _ _ _ E) as [more Hm]. exists w1, more. auto. }
  assert (A : forall n w t lv msg ao af mv ok crc, 0 <= lv -> (Z.to_nat lv < n)%nat -> wlog_cb n body w t lv msg ao af mv ok crc <> Fuel).
  { induction n as [|n IH]; intros w1 t1 lv1 msg1 ao1 af1 mv1 ok1 crc1 H1 Hn; [lia|]. cbn [wlog_cb].
    apply bind_nf; [apply log_nf|]. intros [w' rc]. destruct (lv1 <? level (lg w1)); [discriminate|]. destruct (cb (lg w1)) as [arg|]; [|discriminate].
    apply bind_nf; [|discriminate]. apply foldM_nofuel. eapply Forall_impl; [|apply Hb]. intros o Ho s.
    destruct o; try (apply bind_nf; [apply step_nf|intros []; discriminate]). cbn [lower] in Ho.
    apply bind_nf; [|intros []; discriminate]. apply IH; lia. }
  exists (S (Z.to_nat lv)). apply A; lia.
Qed.
Print Assumptions wlog_callback_partial.
Example wlog_callback_ex : let body := fun (arg lv : Z) (_ : list Z) => if lv =? LERROR then [Log 1 LINFO [88] ans ans true true 0] else [] in
  (forall arg lv msg, Forall (lower lv) (body arg lv msg)) /\
  match wlog_cb 2 body w0 1 LERROR [90] ans ans true true 0 with Ok (w, rc) => calls w = [(5, LERROR, [90]); (5, LINFO, [88])] /\ rc = 0 | _ => False end.
Proof.
  split.
  - intros arg lv msg. unfold LERROR. destruct (Z.eqb_spec lv 3) as [->|]; repeat constructor; cbn; discriminate.
  - vm_compute. split; reflexivity.
Qed.
(** C133, refuted: a callback that logs an error for every message never returns: no depth suffices (the stack overflows). *)
Theorem wlog_callback_refuted n r : wlog_cb n (fun _ _ _ => [again]) w0 1 LERROR [90] ans ans true true 0 <> Ok r.
Proof.
  assert (A : forall n w r, level (lg w) <= 3 -> cb (lg w) = Some 5 -> fp (lg w) = None -> to_stdout (lg w) = false ->
    forall msg, wlog_cb n (fun _ _ _ => [again]) w 1 LERROR msg ans ans true true 0 <> Ok r).
  { clear. induction n as [|n IH]; intros w r Hl Hc Hf Ho msg; cbn [wlog_cb]; [discriminate|].
    unfold log. unfold LERROR in *. replace (3 <? level (lg w)) with false by lia. rewrite Ho, Hf, Hc. cbn [bind foldM again].
    match goal with |- bind (bind (bind ?x _) _) _ <> _ => destruct x as [[w' rc]| |] eqn:E end; cbn [bind]; try discriminate.
    exfalso. eapply IH; [| | | |exact E]; cbn [lg]; auto. }
  apply A; cbn; try reflexivity. unfold LINFO. lia.
Qed.
Print Assumptions wlog_callback_refuted.
