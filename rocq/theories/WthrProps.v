(** C115, C116: thread/sc_thread.c on Windows. *)
From Verif Require Import Base CStr StrProofs WthrModel.

(** ** Specification *)

(** What a user expects: [cur] is the function and argument of the running thread, if
    any.  Results and values of the calls; what runs at the end. *)
Fixpoint meant (run : Z -> Z -> Z) (cur : option (Z * Z)) (l : list wop) : list (Z * Z) * option (Z * Z) :=
  match l with
  | [] => ([], cur)
  | o :: l =>
      let '(r, cur) := match o with
        | WStart f a h _ => if h =? 0 then ((-1, 0), None) else ((0, 0), Some (f, a))
        | WJoin _ _ _ => match cur with Some (f, a) => ((0, run f a), None) | None => ((0, 0), None) end
        | WTerm _ _ _ => ((0, 0), None)
        end in
      let '(rs, cur) := meant run cur l in (r :: rs, cur)
  end.
(** The functions to be called, with their arguments. *)
Fixpoint started (l : list wop) : list (Z * Z) :=
  match l with
  | [] => []
  | WStart f a h _ :: l => if h =? 0 then started l else (f, a) :: started l
  | _ :: l => started l
  end.
(** Histories meant: a thread is started only when none runs; waiting and closing
    succeed; the value is asked for only if a thread runs. *)
Fixpoint wproper (running : bool) (l : list wop) : Prop :=
  match l with
  | [] => True
  | WStart _ _ h _ :: l => running = false /\ wproper (negb (h =? 0)) l
  | WJoin w c _ :: l => running = true /\ w = true /\ c = true /\ wproper false l
  | WTerm w c _ :: l => w = true /\ c = true /\ wproper false l
  end.
Definition is_some {A} (x : option A) : bool := match x with Some _ => true | None => false end.
(** The process before the first call. *)
Definition fresh (o : wobj) (l : list wop) : win := mk_win (wthr_init o) [] [] l Idle [] [].
Definition finished (w : win) : Prop := todo w = [] /\ pc w = Idle.

(** ** Proof *)
Section Run.
Context (run : Z -> Z -> Z).

(** The running thread and its handle; [pend]: its call if it has not been made. *)
Definition alive (c : option (Z * Z)) (h : Z) (pend : list (Z * Z)) (w : win) : Prop :=
  match c with
  | None => kern w = [] /\ hopen w = [] /\ pend = [] /\ h = 0
  | Some (f, a) => exists s, h <> 0 /\ kern w = [(h, s)] /\ hopen w = [h] /\ wfn (obj w) = f /\ warg (obj w) = a /\
      match s with
      | T0 => pend = [(f, a)] | T1 f' => f' = f /\ pend = [(f, a)] | T2 f' a' => f' = f /\ a' = a /\ pend = [(f, a)]
      | T3 v => v = run f a /\ pend = [] | T4 => wret (obj w) = Some (run f a) /\ pend = []
      end
  end.
(** Whether the value is known when a join reads it. *)
Definition value_ok (op : wop) (c : option (Z * Z)) (w : win) : Prop :=
  match op with
  | WJoin _ _ _ => exists f a, c = Some (f, a) /\ wret (obj w) = Some (run f a)
  | WTerm _ _ _ => True
  | WStart _ _ _ _ => False
  end.
Definition joins (op : wop) : Prop := match op with WStart _ _ _ _ => False | _ => True end.
(** At each position. *)
Definition at_pos (c : option (Z * Z)) (pend : list (Z * Z)) (w : win) : Prop :=
  match pc w with
  | Idle => exists h, alive c h pend w /\ wid (obj w) = h
  | Fn => exists f a h msg r, todo w = WStart f a h msg :: r /\ alive None 0 [] w /\ c = None /\ pend = [] /\ wfn (obj w) = f
  | Arg => exists f a h msg r, todo w = WStart f a h msg :: r /\ alive None 0 [] w /\ c = None /\ pend = [] /\ wfn (obj w) = f /\ warg (obj w) = a
  | Store h => exists f a msg r, todo w = WStart f a h msg :: r /\ c = None /\
      alive (if h =? 0 then None else Some (f, a)) h pend w
  | Waiting => exists op r h, todo w = op :: r /\ joins op /\ alive c h pend w /\ h <> 0 /\ wid (obj w) = h
  | Closing rc => exists op r h, todo w = op :: r /\ rc = 0 /\ value_ok op c w /\ pend = [] /\ kern w = [(h, T4)] /\ hopen w = [h] /\ wid (obj w) = h
  | Clear rc | Out rc => exists op r, todo w = op :: r /\ rc = 0 /\ value_ok op c w /\ pend = [] /\ kern w = [] /\ hopen w = [] /\
      (pc w = Out rc -> wid (obj w) = 0)
  end.
(** Calls still to be made at each position: after _beginthreadex the thread of the
    current call counts as pending. *)
Definition ahead (w : win) : list (Z * Z) :=
  match pc w with Store _ => started (tl (todo w)) | _ => started (todo w) end.
Definition inv (l : list wop) (w : win) : Prop :=
  zlen (werr (obj w)) = 64 /\
  exists c pend, wproper (is_some c) (todo w) /\ at_pos c pend w /\
    fst (meant run None l) = outs w ++ fst (meant run c (todo w)) /\
    snd (meant run None l) = snd (meant run c (todo w)) /\
    started l = calls w ++ pend ++ ahead w.

Lemma errstr_ok o msg : zlen (werr o) = 64 ->
  exists e, wthr_errstr o msg = Ok (mk_wobj (wid o) (wfn o) (warg o) (wret o) e) /\ zlen e = 64.
Proof.
  intro H. unfold wthr_errstr. destruct msg as [msg|]; [|exists (werr o); destruct o; auto].
  set (x := firstn 63 (msg ++ repeat 0 63)).
  assert (Hx : zlen x = 63) by (unfold x, zlen; rewrite firstn_length, app_length, repeat_length; lia).
  rewrite memcpy_ok by lia. cbn [bind]. eexists. split; [reflexivity|].
  rewrite !zlen_app. unfold zlen in *. rewrite firstn_length, skipn_length. lia.
Qed.

Lemma move_one h s s' : move [(h, s)] h s' = [(h, s')].
Proof. cbn. now rewrite Z.eqb_refl. Qed.

(** A step of the thread keeps what is known of it. *)
Lemma alive_step c h pend w i : alive c h pend w ->
  exists w' pend', thread_step run i w = Ok w' /\ alive c h pend' w' /\ calls w' ++ pend' = calls w ++ pend /\
    todo w' = todo w /\ pc w' = pc w /\ outs w' = outs w /\ wid (obj w') = wid (obj w) /\ wfn (obj w') = wfn (obj w) /\
    warg (obj w') = warg (obj w) /\ werr (obj w') = werr (obj w) /\ hopen w' = hopen w.
Proof.
  intro A. unfold thread_step.
  assert (Same : thread_at (kern w) i = None \/ thread_at (kern w) i = Some T4 -> exists w' pend', Ok w = Ok w' /\ alive c h pend' w' /\ calls w' ++ pend' = calls w ++ pend /\
    todo w' = todo w /\ pc w' = pc w /\ outs w' = outs w /\ wid (obj w') = wid (obj w) /\ wfn (obj w') = wfn (obj w) /\
    warg (obj w') = warg (obj w) /\ werr (obj w') = werr (obj w) /\ hopen w' = hopen w).
  { intros _. exists w, pend. repeat split; auto. }
  unfold alive in A. destruct c as [[f a]|].
  - destruct A as (s & H1 & Ek & Eo & Ef & Ea & Hs).
    destruct (Z.eq_dec h i) as [<-|Ni].
    + rewrite Ek in *. cbn [thread_at]. rewrite Z.eqb_refl. destruct s as [|f'|f' a'|v|].
      * do 2 eexists. split; [reflexivity|]. rewrite move_one. cbn. split; [|rewrite Hs; repeat split; auto].
        exists (T1 (wfn (obj w))). rewrite Ef. cbn. repeat split; auto.
      * destruct Hs as [-> Hp]. do 2 eexists. split; [reflexivity|]. rewrite move_one. cbn. split; [|rewrite Hp; repeat split; auto].
        exists (T2 f (warg (obj w))). rewrite Ea. cbn. repeat split; auto.
      * destruct Hs as (-> & -> & Hp). do 2 eexists. split; [reflexivity|]. rewrite move_one. cbn. split.
        -- exists (T3 (run f a)). cbn. repeat split; auto.
        -- rewrite Hp, app_nil_r. repeat split; auto.
      * destruct Hs as (-> & Hp). do 2 eexists. split; [reflexivity|]. rewrite move_one. cbn. split.
        -- exists T4. cbn. repeat split; auto.
        -- rewrite Hp. repeat split; auto.
      * apply Same. right. cbn. now rewrite Z.eqb_refl.
    + assert (En : thread_at (kern w) i = None) by (rewrite Ek; cbn; now rewrite (proj2 (Z.eqb_neq h i) Ni)).
      rewrite En. now apply Same; left.
  - destruct A as (Ek & _). rewrite Ek. cbn [thread_at]. apply Same. left. now rewrite Ek.
Qed.

Lemma idle_thread w i s : kern w = [] \/ (exists h, kern w = [(h, T4)]) -> thread_at (kern w) i = Some s -> s = T4.
Proof. intros [->|[h ->]]; cbn; [discriminate|]. destruct (h =? i); now intros [= <-]. Qed.
Lemma still w i : kern w = [] \/ (exists h, kern w = [(h, T4)]) -> thread_step run i w = Ok w.
Proof.
  intro H. unfold thread_step. destruct (thread_at (kern w) i) as [s|] eqn:E; [|reflexivity].
  now rewrite (idle_thread w i s H E).
Qed.

Lemma inv_thread l w i : inv l w -> exists w', thread_step run i w = Ok w' /\ inv l w'.
Proof.
  intros (He & c & pend & Hp & Ha & Hm & Hs & Hl).
  assert (Q : kern w = [] \/ (exists h, kern w = [(h, T4)]) -> exists w', thread_step run i w = Ok w' /\ inv l w').
  { intro H. exists w. split; [now apply still|]. split; [exact He|]. exists c, pend. auto. }
  unfold at_pos in Ha. destruct (pc w) eqn:Epc.
  - destruct Ha as (h & A & Ew). destruct (alive_step c h pend w i A) as (w' & pend' & E & A' & Ec & E1 & E2 & E3 & E4 & E5 & E6 & E7 & E8).
    exists w'. split; [exact E|]. split; [congruence|]. exists c, pend'. rewrite E1, E3. unfold at_pos, ahead in *. rewrite E2, Epc in *.
    repeat split; auto. { exists h. split; [exact A'|congruence]. } rewrite E1, app_assoc, Ec, <- app_assoc. exact Hl.
  - destruct Ha as (f & a & h & msg & r & _ & (Ek & _) & _). apply Q. now left.
  - destruct Ha as (f & a & h & msg & r & _ & (Ek & _) & _). apply Q. now left.
  - destruct Ha as (f & a & msg & r & Et & Ec0 & A).
    destruct (alive_step _ h pend w i A) as (w' & pend' & E & A' & Ec & E1 & E2 & E3 & E4 & E5 & E6 & E7 & E8).
    exists w'. split; [exact E|]. split; [congruence|]. exists c, pend'. rewrite E1, E3. unfold at_pos, ahead in *. rewrite E2, Epc in *.
    repeat split; auto. { exists f, a, msg, r. split; [congruence|auto]. } rewrite E1, app_assoc, Ec, <- app_assoc. exact Hl.
  - destruct Ha as (op & r & h & Et & Ho & A & Hh & Ew).
    destruct (alive_step _ h pend w i A) as (w' & pend' & E & A' & Ec & E1 & E2 & E3 & E4 & E5 & E6 & E7 & E8).
    exists w'. split; [exact E|]. split; [congruence|]. exists c, pend'. rewrite E1, E3. unfold at_pos, ahead in *. rewrite E2, Epc in *.
    repeat split; auto. { exists op, r, h. split; [congruence|]. repeat split; auto. congruence. } rewrite E1, app_assoc, Ec, <- app_assoc. exact Hl.
  - destruct Ha as (op & r & h & _ & _ & _ & _ & Ek & _). apply Q. right. now exists h.
  - destruct Ha as (op & r & _ & _ & _ & _ & Ek & _). apply Q. now left.
  - destruct Ha as (op & r & _ & _ & _ & _ & Ek & _). apply Q. now left.
Qed.

Lemma meant_start c f a h msg r : meant run c (WStart f a h msg :: r) =
  ((if h =? 0 then (-1, 0) else (0, 0)) :: fst (meant run (if h =? 0 then None else Some (f, a)) r),
   snd (meant run (if h =? 0 then None else Some (f, a)) r)).
Proof. cbn [meant]. destruct (h =? 0); destruct (meant run _ r); reflexivity. Qed.
Lemma meant_join c f a x y msg r : c = Some (f, a) -> meant run c (WJoin x y msg :: r) =
  ((0, run f a) :: fst (meant run None r), snd (meant run None r)).
Proof. intros ->. cbn [meant]. destruct (meant run _ r); reflexivity. Qed.
Lemma meant_term c x y msg r : meant run c (WTerm x y msg :: r) = ((0, 0) :: fst (meant run None r), snd (meant run None r)).
Proof. cbn [meant]. destruct (meant run _ r); reflexivity. Qed.

Lemma inv_main l w : inv l w -> exists w', main_step w = Ok w' /\ inv l w'.
Proof.
  intros I. pose proof I as (He & c & pend & Hp & Ha & Hm & Hs & Hl).
  unfold main_step. destruct (todo w) as [|op r] eqn:Et; [now exists w|].
  unfold at_pos in Ha. destruct (pc w) eqn:Epc.
  - destruct Ha as (h & A & Ew). unfold ahead in Hl. rewrite Epc, Et in Hl.
    destruct op as [f a hh msg|wk ck msg|wk ck msg].
    + destruct Hp as [Hc Hp]. destruct c as [|]; [discriminate|]. destruct A as (A1 & A2 & A3 & A4).
      eexists. split; [reflexivity|]. split; [exact He|]. exists None, []. unfold at_pos, ahead. cbn [pc todo obj kern hopen outs calls wfn].
      split; [split; [reflexivity|exact Hp]|]. split; [|rewrite A3 in Hl; auto].
      exists f, a, hh, msg, r. repeat split; auto.
    + eexists. split; [reflexivity|]. split; [exact He|]. exists c, pend. destruct Hp as (Hc & -> & -> & Hp).
      destruct c as [[f a]|]; [|discriminate]. destruct A as (s & H1 & A). cbn [obj].
      rewrite Ew, (proj2 (Z.eqb_neq h 0) H1). unfold at_pos, ahead. cbn [pc todo obj kern hopen outs calls wfn].
      split; [cbn; auto|]. split; [|auto]. exists (WJoin true true msg), r, h. repeat split; auto. exists s. auto.
    + eexists. split; [reflexivity|]. split; [exact He|]. exists c, pend. destruct Hp as (-> & -> & Hp).
      destruct c as [[f a]|].
      * destruct A as (s & H1 & A). cbn [obj].
        rewrite Ew, (proj2 (Z.eqb_neq h 0) H1). unfold at_pos, ahead. cbn [pc todo obj kern hopen outs calls wfn].
        split; [cbn; auto|]. split; [|auto]. exists (WTerm true true msg), r, h. repeat split; auto. exists s. auto.
      * destruct A as (A1 & A2 & A3 & A4). rewrite Ew, A4. cbn [Z.eqb]. unfold at_pos, ahead. cbn [pc todo obj kern hopen outs calls wfn].
        split; [cbn; auto|]. split; [|auto]. exists (WTerm true true msg), r. repeat split; auto. intros _. congruence.
  - destruct Ha as (f & a & h & msg & r' & Et' & A & -> & -> & Ef). rewrite Et in Et'. injection Et' as -> ->.
    unfold ahead in Hl. rewrite Epc, Et in Hl.
    eexists. split; [reflexivity|]. split; [exact He|]. exists None, []. unfold at_pos, ahead. cbn [pc todo obj kern hopen outs calls wfn warg].
    repeat split; auto; try (apply Hp). exists f, a, h, msg, r'. repeat split; auto; apply A.
  - destruct Ha as (f & a & h & msg & r' & Et' & A & -> & -> & Ef & Ea). rewrite Et in Et'. injection Et' as -> ->.
    unfold ahead in Hl. rewrite Epc, Et in Hl. destruct (Z.eqb_spec h 0) as [->|Hh].
    + eexists. split; [reflexivity|]. split; [exact He|]. exists None, []. unfold at_pos, ahead. cbn [pc todo obj kern hopen outs calls wfn warg tl].
      repeat split; auto; try (apply Hp). exists f, a, msg, r'. cbn. repeat split; auto; apply A.
    + eexists. split; [reflexivity|]. split; [exact He|]. exists None, [(f, a)]. unfold at_pos, ahead. cbn [pc todo obj kern hopen outs calls wfn warg tl].
      split; [exact Hp|]. destruct A as (A1 & A2 & _). split; [|split; [exact Hm|split; [exact Hs|]]].
      * exists f, a, msg, r'. rewrite (proj2 (Z.eqb_neq h 0) Hh). repeat split; auto. exists T0. cbn. rewrite A1, A2. repeat split; auto.
      * rewrite Hl. cbn [started]. now rewrite (proj2 (Z.eqb_neq h 0) Hh).
  - destruct Ha as (f & a & msg & r' & Et' & -> & A). rewrite Et in Et'. injection Et' as -> ->.
    unfold ahead in Hl. rewrite Epc, Et in Hl. cbn [tl] in Hl. rewrite meant_start in Hm, Hs. cbn [fst snd] in Hm, Hs. destruct Hp as [_ Hp].
    destruct (Z.eqb_spec h 0) as [->|Hh].
    + destruct (errstr_ok (mk_wobj 0 (wfn (obj w)) (warg (obj w)) (wret (obj w)) (werr (obj w))) msg He) as (e & E & Le).
      rewrite E. cbn [bind]. eexists. split; [reflexivity|]. split; [exact Le|]. unfold finish, at_pos, ahead. rewrite Et.
      cbn [pc todo obj kern hopen outs calls wfn warg tl wid]. destruct A as (A1 & A2 & A3 & A4). exists None, [].
      repeat split; auto. { exists 0. repeat split; auto. } { rewrite <- app_assoc. exact Hm. } { now rewrite A3 in Hl. }
    + eexists. split; [reflexivity|]. split; [exact He|]. unfold finish, at_pos, ahead. rewrite Et.
      cbn [pc todo obj kern hopen outs calls wfn warg tl wid]. exists (Some (f, a)), pend. repeat split; auto.
      { exists h. split; [exact A|reflexivity]. } { rewrite <- app_assoc. exact Hm. }
  - destruct Ha as (op' & r' & h & Et' & Ho & A & Hh & Ew). rewrite Et in Et'. injection Et' as <- <-.
    unfold ahead in Hl. rewrite Epc, Et in Hl.
    destruct c as [[f a]|]; [|destruct A as (_ & _ & _ & A); contradiction]. destruct A as (s & H1 & Ek & Eo & Ef & Ea & As).
    destruct op as [? ? ? ?|wk ck msg|wk ck msg]; [contradiction| |];
      (assert (Ew' : wk = true) by apply Hp; subst wk; rewrite Eo, Ew; cbn [existsb]; rewrite Z.eqb_refl; cbn [orb negb];
       rewrite Ek; cbn [thread_at]; rewrite Z.eqb_refl;
       destruct s; try (exists w; split; [reflexivity|exact I]);
       destruct As as [Ar Ap]; eexists; split; [reflexivity|]; split; [exact He|]; exists (Some (f, a)), pend;
       unfold at_pos, ahead; cbn [pc todo obj kern hopen outs calls wfn warg tl wid]; split; [exact Hp|]; split; [|auto];
       do 2 eexists; exists h; split; [reflexivity|]; split; [reflexivity|]; split; [cbn; eauto|]; repeat split; auto).
  - destruct Ha as (op' & r' & h & Et' & -> & V & -> & Ek & Eo & Ew). rewrite Et in Et'. injection Et' as <- <-.
    unfold ahead in Hl. rewrite Epc, Et in Hl.
    destruct op as [? ? ? ?|wk ck msg|wk ck msg]; [contradiction| |];
      (assert (Ew' : ck = true) by apply Hp; subst ck; rewrite Ek, Eo, Ew; cbn [filter fst snd]; rewrite Z.eqb_refl; cbn [andb negb];
       eexists; split; [reflexivity|]; split; [exact He|]; exists c, [];
       unfold at_pos, ahead; cbn [pc todo obj kern hopen outs calls wfn warg tl wid]; split; [exact Hp|]; split; [|auto];
       do 2 eexists; split; [reflexivity|]; split; [reflexivity|]; split; [exact V|]; repeat split; auto; discriminate).
  - destruct Ha as (op' & r' & Et' & -> & V & -> & Ek & Eo & _). rewrite Et in Et'. injection Et' as <- <-.
    unfold ahead in Hl. rewrite Epc, Et in Hl. eexists. split; [reflexivity|]. split; [exact He|]. exists c, [].
    unfold at_pos, ahead; cbn [pc todo obj kern hopen outs calls wfn warg tl wid]. split; [exact Hp|]. split; [|auto].
    do 2 eexists. split; [reflexivity|]. split; [reflexivity|]. split; [|repeat split; auto].
    destruct op; exact V.
  - destruct Ha as (op' & r' & Et' & -> & V & -> & Ek & Eo & Ew). rewrite Et in Et'. injection Et' as <- <-.
    unfold ahead in Hl. rewrite Epc, Et in Hl.
    destruct op as [? ? ? ?|wk ck msg|wk ck msg]; [contradiction| |].
    + destruct V as (f & a & -> & Er). rewrite Er. cbn [or_ub bind]. rewrite (meant_join _ f a) in Hm, Hs by reflexivity. cbn [fst snd] in Hm, Hs.
      destruct Hp as (_ & _ & _ & Hp). eexists. split; [reflexivity|]. split; [exact He|]. unfold finish, at_pos, ahead. rewrite Et.
      cbn [pc todo obj kern hopen outs calls wfn warg tl wid]. exists None, []. repeat split; auto.
      { exists 0. repeat split; auto. } { rewrite <- app_assoc. exact Hm. }
    + rewrite meant_term in Hm, Hs. cbn [fst snd] in Hm, Hs.
      destruct Hp as (_ & _ & Hp). eexists. split; [reflexivity|]. split; [exact He|]. unfold finish, at_pos, ahead. rewrite Et.
      cbn [pc todo obj kern hopen outs calls wfn warg tl wid]. exists None, []. repeat split; auto.
      { exists 0. repeat split; auto. } { rewrite <- app_assoc. exact Hm. }
Qed.

Lemma inv_fresh o l : zlen (werr o) = 64 -> wproper false l -> inv l (fresh o l).
Proof.
  intros He Hp. split; [exact He|]. exists None, []. repeat split; auto. exists 0. repeat split.
Qed.
Lemma inv_run l sched : forall w, inv l w -> exists w', wthr_run run sched w = Ok w' /\ inv l w'.
Proof.
  induction sched as [|s sched IH]; intros w I; [now exists w|]. cbn [wthr_run].
  destruct s as [h|].
  - destruct (inv_thread l w h I) as (w1 & -> & I1). cbn [bind]. now apply IH.
  - destruct (inv_main l w I) as (w1 & -> & I1). cbn [bind]. now apply IH.
Qed.
Lemma wthr_run_app s1 s2 w : wthr_run run (s1 ++ s2) w = let* w := wthr_run run s1 w in wthr_run run s2 w.
Proof.
  revert w. induction s1 as [|s s1 IH]; intro w; [reflexivity|]. cbn [app wthr_run].
  destruct (match s with Some h => thread_step run h w | None => main_step w end); cbn [bind]; auto.
Qed.

(** Some schedule ends the running thread. *)
Lemma thread_ends c h pend w : alive c h pend w -> c <> None -> exists sched w', wthr_run run sched w = Ok w' /\ kern w' = [(h, T4)] /\
  todo w' = todo w /\ pc w' = pc w.
Proof.
  intros A Hc. destruct c as [[f a]|]; [|contradiction]. destruct A as (s & H1 & Ek & _).
  assert (G : forall n k w, kern w = [(h, k)] -> (match k with T0 => 4 | T1 _ => 3 | T2 _ _ => 2 | T3 _ => 1 | T4 => 0 end <= n)%nat ->
    exists sched w', wthr_run run sched w = Ok w' /\ kern w' = [(h, T4)] /\ todo w' = todo w /\ pc w' = pc w).
  { clear. induction n as [|n IH]; intros k w Ek Hn.
    - destruct k; try lia. exists [], w. repeat split; auto.
    - destruct k as [|f|f a|v|]; [..|exists [], w; repeat split; auto].
      all: match goal with |- context [wthr_run] => idtac end.
      + destruct (IH (T1 (wfn (obj w))) (mk_win (obj w) [(h, T1 (wfn (obj w)))] (hopen w) (todo w) (pc w) (outs w) (calls w)) eq_refl) as (sc & w' & E & H2 & H3 & H4); [lia|].
        exists (Some h :: sc), w'. cbn [wthr_run]. unfold thread_step. rewrite Ek. cbn [thread_at]. rewrite Z.eqb_refl, move_one. cbn [bind]. auto.
      + destruct (IH (T2 f (warg (obj w))) (mk_win (obj w) [(h, T2 f (warg (obj w)))] (hopen w) (todo w) (pc w) (outs w) (calls w)) eq_refl) as (sc & w' & E & H2 & H3 & H4); [lia|].
        exists (Some h :: sc), w'. cbn [wthr_run]. unfold thread_step. rewrite Ek. cbn [thread_at]. rewrite Z.eqb_refl, move_one. cbn [bind]. auto.
      + destruct (IH (T3 (run f a)) (mk_win (obj w) [(h, T3 (run f a))] (hopen w) (todo w) (pc w) (outs w) (calls w ++ [(f, a)])) eq_refl) as (sc & w' & E & H2 & H3 & H4); [lia|].
        exists (Some h :: sc), w'. cbn [wthr_run]. unfold thread_step. rewrite Ek. cbn [thread_at]. rewrite Z.eqb_refl, move_one. cbn [bind]. auto.
      + destruct (IH T4 (mk_win (mk_wobj (wid (obj w)) (wfn (obj w)) (warg (obj w)) (Some v) (werr (obj w))) [(h, T4)] (hopen w) (todo w) (pc w) (outs w) (calls w)) eq_refl) as (sc & w' & E & H2 & H3 & H4); [lia|].
        exists (Some h :: sc), w'. cbn [wthr_run]. unfold thread_step. rewrite Ek. cbn [thread_at]. rewrite Z.eqb_refl, move_one. cbn [bind]. auto. }
  exact (G _ s w Ek (le_n _)).
Qed.

(** Steps of the calling thread left: a wait counts once. *)
Definition left_ (w : win) : nat :=
  (8 * length (todo w) - match pc w with Idle => 0 | Fn => 1 | Arg => 2 | Store _ => 3 | Waiting => 1 | Closing _ => 2 | Clear _ => 3 | Out _ => 4 end)%nat.
Lemma progress l w : inv l w -> ~ finished w -> exists sched w', wthr_run run sched w = Ok w' /\ inv l w' /\ (left_ w' < left_ w)%nat.
Proof.
  intros I Nf.
  assert (M : (pc w = Waiting -> exists h, kern w = [(h, T4)]) -> exists w', main_step w = Ok w' /\ inv l w' /\ (left_ w' < left_ w)%nat).
  { intro Hw. destruct (inv_main l w I) as (w' & E & I'). exists w'. split; [exact E|]. split; [exact I'|].
    destruct I as (He & c & pend & Hp & Ha & _). clear I'. unfold main_step in E. unfold finished in Nf. destruct (todo w) as [|op r] eqn:Et.
    - exfalso. unfold at_pos in Ha. rewrite Et in Ha. destruct (pc w); [tauto|..]; repeat match type of Ha with ex _ => destruct Ha as [? Ha] end; destruct Ha as [Ha _]; discriminate.
    - unfold at_pos in Ha. unfold left_. rewrite Et. destruct (pc w) eqn:Epc.
      + destruct op; injection E as <-; cbn [todo pc]; rewrite ?Et; cbn [length]; [lia|destruct (wid (obj w) =? 0); lia..].
      + destruct op; try discriminate; injection E as <-; cbn [todo pc]; rewrite ?Et; cbn [length]; lia.
      + destruct op; try discriminate. destruct (h =? 0); injection E as <-; cbn [todo pc]; rewrite ?Et; cbn [length]; lia.
      + destruct op; try discriminate. destruct (h =? 0).
        * destruct (wthr_errstr _ msg) as [o| |]; try discriminate. injection E as <-. unfold finish. cbn [todo pc]. rewrite Et. cbn [length tl]. lia.
        * injection E as <-. unfold finish. cbn [todo pc]. rewrite Et. cbn [length tl]. lia.
      + destruct Ha as (op' & r' & h & Et' & Ho & A & Hh & Ew). destruct (Hw eq_refl) as [h' Ek].
        destruct c as [[f a]|]; [|destruct A as (_ & _ & _ & A); contradiction]. destruct A as (s & H1 & Ek' & Eo & _). rewrite Ek in Ek'. injection Ek' as -> <-.
        destruct op; [rewrite Et in Et'; injection Et' as <- _; contradiction|..];
          (cbn in Hp; assert (Ew' : w0 = true) by apply Hp; rewrite Ew', Ek, Eo, Ew in E; cbn [existsb thread_at] in E; rewrite Z.eqb_refl in E; cbn [orb negb] in E;
           injection E as <-; cbn [todo pc]; rewrite ?Et; cbn [length]; lia).
      + destruct op; try discriminate; cbn in Hp; (assert (Ew' : c0 = true) by apply Hp; rewrite Ew' in E; injection E as <-; cbn [todo pc]; rewrite ?Et; cbn [length]; lia).
      + destruct op; injection E as <-; cbn [todo pc]; rewrite ?Et; cbn [length]; lia.
      + destruct op; try discriminate.
        * destruct (wret (obj w)); try discriminate. injection E as <-. unfold finish. cbn [todo pc]. rewrite Et. cbn [length tl]. lia.
        * injection E as <-. unfold finish. cbn [todo pc]. rewrite Et. cbn [length tl]. lia. }
  destruct (pc w) eqn:Epc; try (destruct M as (w' & E & I' & L); [discriminate|]; exists [None], w'; cbn [wthr_run]; rewrite E; auto).
  pose proof I as (He & c & pend & Hp & Ha & _). unfold at_pos in Ha. rewrite Epc in Ha.
  destruct Ha as (op' & r' & h & Et' & Ho & A & Hh & Ew).
  assert (Hc : c <> None) by (intros ->; destruct A as (_ & _ & _ & A); contradiction).
  destruct (thread_ends c h pend w A Hc) as (sc & w1 & E1 & Ek & Et1 & Ep1).
  assert (I1 : inv l w1) by (destruct (inv_run l sc w I) as (w2 & E2 & I2); congruence).
  clear M. exists (sc ++ [None]). rewrite wthr_run_app, E1. cbn [bind wthr_run].
  destruct (inv_main l w1 I1) as (w2 & E2 & I2). rewrite E2. cbn [bind]. exists w2. split; [reflexivity|]. split; [exact I2|].
  pose proof I1 as (_ & c1 & pend1 & Hp1 & Ha1 & _). unfold at_pos in Ha1. rewrite Ep1, Epc in Ha1.
  destruct Ha1 as (op1 & r1 & h1 & Et2 & Ho1 & A1 & Hh1 & Ew1).
  destruct c1 as [[f a]|]; [|destruct A1 as (_ & _ & _ & A1); contradiction]. destruct A1 as (s & H1 & Ek' & Eo & _). rewrite Ek in Ek'. injection Ek' as <- <-.
  unfold main_step in E2. rewrite Et2, Ep1, Epc in E2. rewrite Et2 in Hp1. unfold left_. rewrite <- Et1, Et2, Epc.
  destruct op1; [contradiction|..];
    (cbn in Hp1; assert (Ew' : w0 = true) by apply Hp1; rewrite Ew', Ek, Eo, Ew1 in E2; cbn [existsb thread_at] in E2; rewrite Z.eqb_refl in E2; cbn [orb negb] in E2;
     injection E2 as <-; cbn [todo pc length]; lia).
Qed.
Lemma can_finish l : forall n w, (left_ w <= n)%nat -> inv l w -> exists sched w', wthr_run run sched w = Ok w' /\ finished w'.
Proof.
  assert (D : forall w, finished w \/ ~ finished w).
  { intro w. unfold finished. destruct (todo w); [|right; intros [? _]; discriminate]. destruct (pc w); [now left|right; intros [_ ?]; discriminate..]. }
  induction n as [|n IH]; intros w Hn I; (destruct (D w) as [F|F]; [exists [], w; auto|]);
    destruct (progress l w I F) as (sc & w1 & E & I1 & L); [lia|].
  destruct (IH w1) as (sc2 & w2 & E2 & F2); [lia|exact I1|]. exists (sc ++ sc2), w2. rewrite wthr_run_app, E. auto.
Qed.
End Run.

(** ** Theorems *)

(** C115: in every history in which threads are started only when none runs and whose
    waits succeed, for every interleaving of the calling thread and the started ones:
    nothing undefined happens; results and values are those meant, each join giving its
    own thread's value; each thread function is called at most once, with its own
    argument, in order; when the calls are done, no handle and no thread is left unless
    one is still running, and then all other functions have been called.  The calls can always be brought
    to an end.  Missing: a join with a place for the value when no thread runs, see
    wthread_value_refuted. *)
Theorem wthread_history_partial run o l sched : zlen (werr o) = 64 -> wproper false l ->
  exists w, wthr_run run sched (fresh o l) = Ok w /\
    (exists r, fst (meant run None l) = outs w ++ r) /\ (exists r, started l = calls w ++ r) /\
    (finished w -> outs w = fst (meant run None l) /\
       match snd (meant run None l) with
       | None => kern w = [] /\ hopen w = [] /\ wid (obj w) = 0 /\ calls w = started l
       | Some (f, a) => hopen w = [wid (obj w)] /\ wid (obj w) <> 0 /\ (started l = calls w \/ started l = calls w ++ [(f, a)])
       end) /\
    (exists sched' w', wthr_run run sched' w = Ok w' /\ finished w').
Proof.
  intros He Hp. destruct (inv_run run l sched _ (inv_fresh run o l He Hp)) as (w & E & I). exists w. split; [exact E|].
  pose proof I as (_ & c & pend & _ & Ha & Hm & Hs & Hl). split; [eexists; exact Hm|]. split; [eexists; exact Hl|]. split.
  - intros [Ft Fp]. unfold at_pos, ahead in *. rewrite Fp, Ft in *. cbn [meant fst snd started] in *. rewrite !app_nil_r in *.
    split; [easy|]. rewrite Hs. destruct Ha as (h & A & Ew). destruct c as [[f a]|].
    + destruct A as (s & H1 & Ek & Eo & Ef & Ea & As). rewrite Ew. split; [exact Eo|]. split; [exact H1|]. rewrite Hl.
      destruct s; [rewrite As; auto|destruct As as [_ ->]; auto|destruct As as (_ & _ & ->); auto|destruct As as [_ ->]; rewrite app_nil_r; auto..].
    + destruct A as (A1 & A2 & -> & A4). rewrite app_nil_r in Hl. repeat split; auto; congruence.
  - exact (can_finish run l _ w (le_n _) I).
Qed.
Print Assumptions wthread_history_partial.

(** C116: in those histories the calling thread and the started thread are never both
    about to access the same field of the object, other than the handle and the message, which only the
    caller uses. *)
Theorem wthread_no_race run o l sched w h s : zlen (werr o) = 64 -> wproper false l ->
  wthr_run run sched (fresh o l) = Ok w -> In (h, s) (kern w) ->
  forall x, In x (map fst (main_touch w)) -> ~ In x (map fst (thread_touch s)).
Proof.
  intros He Hp E Hk x Hm Ht. destruct (inv_run run l sched _ (inv_fresh run o l He Hp)) as (w' & E' & I).
  rewrite E in E'. injection E' as <-. destruct I as (_ & c & pend & Hpr & Ha & _). unfold main_touch in Hm. destruct (todo w) as [|op r] eqn:Et; [contradiction|].
  unfold at_pos in Ha. destruct (pc w) eqn:Epc; try contradiction.
  - destruct op; try contradiction. destruct Hpr as [Hc _]. destruct c; [discriminate|]. destruct Ha as (i & (Ek & _) & _). now rewrite Ek in Hk.
  - destruct Ha as (f & a & i & msg & r' & _ & (Ek & _) & _). now rewrite Ek in Hk.
  - destruct op; try contradiction. destruct Ha as (op' & r' & _ & _ & _ & _ & Ek & _). now rewrite Ek in Hk.
Qed.
Print Assumptions wthread_no_race.

(** Two threads one after the other, a refused start, and a schedule in which the first
    thread ends before its handle is stored. *)
Definition demo : list wop :=
  [WTerm true true None; WStart 3 10 7 None; WJoin true true None; WStart 4 1 0 (Some [69]); WStart 5 20 8 None; WJoin true true None; WTerm true true None].
Definition demo_sched : list (option Z) :=
  [None; None; None; None; None; Some 7; Some 7; Some 7; Some 7] ++ repeat None 13 ++ [Some 8; None; Some 8; Some 8; None; Some 8] ++ repeat None 20.
Example wthread_history_ex : wproper false demo /\
  exists w, wthr_run Z.add demo_sched (fresh (mk_wobj 1 2 3 None (repeat 0 64)) demo) = Ok w /\ finished w /\
    outs w = [(0, 0); (0, 0); (0, 13); (-1, 0); (0, 0); (0, 25); (0, 0)] /\ calls w = [(3, 10); (5, 20)] /\ started demo = calls w.
Proof. split; [cbn; intuition|]. eexists. split; [vm_compute; reflexivity|]. repeat split. Qed.
(** While the thread is about to write its value the caller waits. *)
Example wthread_no_race_ex : exists w, wthr_run Z.add [None; None; None; None; Some 7; None; Some 7; Some 7]
    (fresh (mk_wobj 1 2 3 None (repeat 0 64)) [WStart 3 10 7 None; WJoin true true None]) = Ok w /\
  kern w = [(7, T3 13)] /\ thread_touch (T3 13) = [(2, true)] /\ pc w = Waiting.
Proof. eexists. split; [vm_compute; reflexivity|]. repeat split. Qed.

(** C115, refuted: joining an object on which no thread was started reads an
    indeterminate value, where POSIX gives NULL; and after a refused start join returns
    0 and the value of the thread before. *)
Theorem wthread_value_refuted :
  (exists o, zlen (werr o) = 64 /\ wthr_run Z.add [None; None] (fresh o [WJoin true true None]) = UB) /\
  (exists o sched w, wthr_run Z.add sched (fresh o [WStart 3 10 7 None; WJoin true true None; WStart 4 20 0 None; WJoin true true None]) = Ok w /\
     finished w /\ outs w = [(0, 0); (0, 13); (-1, 0); (0, 13)]).
Proof.
  split.
  - exists (mk_wobj 0 0 0 None (repeat 0 64)). split; reflexivity.
  - exists (mk_wobj 0 0 0 None (repeat 0 64)), (repeat None 4 ++ repeat (Some 7) 4 ++ repeat None 20).
    eexists. split; [vm_compute; reflexivity|]. repeat split.
Qed.
Print Assumptions wthread_value_refuted.
(** C115, refuted for a failed wait: join gives up the handle while the thread runs; the thread then
    writes to the object, and a later start on it is seen by the old thread. *)
Theorem wthread_wait_refuted : exists o sched w,
  wthr_run Z.add sched (fresh o [WStart 3 10 7 None; WTerm false true None; WStart 4 20 8 None; WTerm true true None]) = Ok w /\
  finished w /\ outs w = [(0, 0); (-1, 0); (0, 0); (0, 0)] /\ calls w = [(4, 20); (4, 20)] /\ zlen (werr o) = 64.
Proof.
  exists (mk_wobj 0 0 0 None (repeat 0 64)), (repeat None 9 ++ repeat None 2 ++ repeat (Some 7) 4 ++ repeat None 5 ++ repeat (Some 8) 4 ++ repeat None 20).
  eexists. split; [vm_compute; reflexivity|]. repeat split.
Qed.
Print Assumptions wthread_wait_refuted.
