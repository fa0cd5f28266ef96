(** The invariant of the logger called by several threads. *)
From Verif Require Import Base CStr CNum SigSpec StrSpec StrProofs IniModel LogModel LogSpec LogProofs
  LogConcModel LogConcSpec LogConcProofs.

(** ** Traces *)
Definition conf (at_ : bool) : phase -> list point -> phase -> Prop := if at_ then in_two else at_once.

Lemma once_app p l q : at_once p l q -> forall l' r, at_once q l' r -> at_once p (l ++ l') r.
Proof. induction 1; intros; cbn; try constructor; auto. Qed.
Lemma two_app p l q : in_two p l q -> forall l' r, in_two q l' r -> in_two p (l ++ l') r.
Proof. induction 1; intros; cbn; try constructor; auto. Qed.
Lemma conf_app at_ p l q l' r : conf at_ p l q -> conf at_ q l' r -> conf at_ p (l ++ l') r.
Proof. destruct at_; cbn; intros; [eapply two_app|eapply once_app]; eauto. Qed.
Lemma conf_nil at_ p : conf at_ p [] p.
Proof. destruct at_; constructor. Qed.
Lemma conf_call at_ t o : conf at_ Idle [Seen (Inv t o)] (Called o).
Proof. destruct at_; repeat constructor. Qed.
Lemma conf_ret at_ t rc : conf at_ (Served rc) [Seen (Ret t rc)] Idle.
Proof. destruct at_; repeat constructor. Qed.
Lemma conf_whole at_ t o rc : (at_ = true -> ~ is_log o) -> conf at_ (Called o) [Whole t o rc] (Served rc).
Proof.
  destruct at_; intro H; cbn; repeat constructor.
  intros u lv msg ao af mv ok crc ->. now apply (H eq_refl).
Qed.

Lemma serial_app w l w1 : serial w l w1 -> forall l' w2, serial w1 l' w2 -> serial w (l ++ l') w2.
Proof. induction 1; intros; cbn; auto; econstructor; eauto. Qed.

Lemma seen_app l l' : seen (l ++ l') = seen l ++ seen l'.
Proof. induction l as [|[e|t o rc|t lv b|t o rc] l IH]; cbn; rewrite ?IH; reflexivity. Qed.

Lemma mine_app t l l' : mine t (l ++ l') = mine t l ++ mine t l'.
Proof. apply filter_app. Qed.

Lemma mine_own t l : Forall (fun p => of p = t) l -> mine t l = l.
Proof.
  induction 1 as [|p l E _ IH]; cbn; [reflexivity|]. rewrite E, Z.eqb_refl. f_equal. exact IH.
Qed.
Lemma mine_other t u l : u <> t -> Forall (fun p => of p = t) l -> mine u l = [].
Proof.
  intro N. induction 1 as [|p l E _ IH]; cbn; [reflexivity|]. rewrite E. replace (t =? u) with false by lia. exact IH.
Qed.

Lemma mine_add t u l d : u <> t -> Forall (fun p => of p = t) d -> mine u (l ++ d) = mine u l.
Proof. intros N F. rewrite mine_app, (mine_other t u d N F). apply app_nil_r. Qed.

(** ** Threads *)

(** The first step of a call that is not over at once. *)
Definition begun (p : prog) : Prop := match p with Done _ | Unlock _ | Act _ => False | _ => True end.

Definition outside (at_ : bool) (m : machine) (l : list point) (t : Z) (p : prog) : Prop :=
  (exists rc, p = Done rc /\ conf at_ Idle (mine t l) (Served rc)) \/
  (exists o, call_ok (Call t o) /\ code at_ o = Ok p /\ begun p /\ conf at_ Idle (mine t l) (Called o)) \/
  (at_ = true /\ exists lv msg ao af mv ok crc, p = Lock (log_sinks lv msg ao af mv ok crc) /\
     0 <= lv <= 4 /\ conf at_ Idle (mine t l) (Passed (Log t lv msg ao af mv ok crc))).

Definition inside (at_ : bool) (m : machine) (l : list point) (lev0 : Z) (r0 : rest) (t : Z) (p : prog) : Prop :=
  exists o lev' r' rc, call_ok (Call t o) /\
    runs (negb at_) (m_name m t) p (m_lev m, m_rest m) (lev', r') (Done rc) /\
    ((conf at_ Idle (mine t l) (Called o) /\ (at_ = true -> ~ is_log o) /\
      forall lv nm, (at_ = false -> lv = lev0) -> nm t = m_name m t ->
        step (W lv r0 nm) o = Ok (W (if at_ then lv else lev') r' nm, rc)) \/
     (at_ = true /\ conf at_ Idle (mine t l) (Passed o) /\
      forall nm, nm t = m_name m t -> step (W LDEBUG r0 nm) o = Ok (W LDEBUG r' nm, rc))).

Definition thread (at_ : bool) (m : machine) (l : list point) (lev0 : Z) (r0 : rest) (t : Z) : Prop :=
  match m_prog m t with
  | None => m_own m <> Some t /\ conf at_ Idle (mine t l) Idle
  | Some p => (m_own m <> Some t /\ outside at_ m l t p) \/
              (m_own m = Some t /\ inside at_ m l lev0 r0 t p)
  end.

Lemma thread_frame at_ m m' l l' lev0 r0 lev0' r0' t :
  thread at_ m l lev0 r0 t ->
  m_prog m' t = m_prog m t -> m_name m' t = m_name m t -> mine t l' = mine t l ->
  (m_own m' = Some t <-> m_own m = Some t) ->
  (m_own m = Some t -> m_rest m' = m_rest m /\ r0' = r0 /\ (at_ = false -> m_lev m' = m_lev m /\ lev0' = lev0)) ->
  thread at_ m' l' lev0' r0' t.
Proof.
  unfold thread. intros H Ep En El Eo Er. rewrite Ep. destruct (m_prog m t) as [p|].
  - destruct H as [[N H]|[O H]].
    + left. split; [tauto|]. unfold outside in *. rewrite El. exact H.
    + right. split; [tauto|]. destruct (Er O) as (E1 & E2 & E3).
      destruct H as (o & lev' & r' & rc & Ho & R & H). unfold inside. rewrite El, En, E1, E2.
      destruct at_.
      * cbn [negb] in *. destruct (runs_level _ _ _ _ _ R) as [F1 F2]. cbn in F1, F2.
        exists o, (m_lev m'), r', rc. split; [exact Ho|]. split; [apply F2|].
        destruct H as [(H1 & H2 & H3)|H]; [left|right; exact H].
        split; [exact H1|]. split; [exact H2|]. intros lv nm _ E. apply H3; [discriminate|exact E].
      * destruct (E3 eq_refl) as [-> ->]. exists o, lev', r', rc. auto.
  - rewrite El. destruct H as [N H]. split; [tauto|exact H].
Qed.

Definition inv (at_ : bool) (w0 : world) (m : machine) (l : list point) : Prop :=
  exists lev0 r0,
    serial w0 l (W lev0 r0 (m_name m)) /\ good (W lev0 r0 (m_name m)) /\
    (at_ = true -> lev0 = m_lev m) /\
    (m_own m = None -> lev0 = m_lev m /\ r0 = m_rest m) /\
    forall t, thread at_ m l lev0 r0 t.

Lemma upd_same {A} (f : Z -> A) t v : upd f t v t = v.
Proof. unfold upd. now rewrite Z.eqb_refl. Qed.
Lemma upd_other {A} (f : Z -> A) t v u : u <> t -> upd f t v u = f u.
Proof. intro N. unfold upd. now replace (u =? t) with false by lia. Qed.

Lemma set_level_none s w : find_level s 0 level_names = Ok None -> step w (SetLevel s) = Ok (w, -1).
Proof. intro E. cbn [step]. unfold set_level. rewrite E. cbn [bind]. destruct w. reflexivity. Qed.

Lemma code_ok at_ t o : call_ok (Call t o) -> exists p, code at_ o = Ok p /\
  (begun p \/ exists s, o = SetLevel s /\ find_level s 0 level_names = Ok None /\ p = Done (-1)).
Proof.
  intro H. destruct o as [rc0|ok|u m|s|b|p c ok nl tell e|c|u lv msg ao af mv ok crc]; cbn [code] in *; try contradiction;
    try (eexists; split; [reflexivity|]; left; exact I).
  - destruct H as (x & (Hn & r & ->) & Ha).
    pose proof (set_level_ok zero_logger x r Hn Ha) as E. unfold set_level in E.
    destruct (find_level (x ++ 0 :: r) 0 level_names) as [y| |] eqn:Ef; cbn [bind] in *;
      [|destruct (level_of x); discriminate|destruct (level_of x); discriminate].
    destruct y as [i|].
    + eexists. split; [reflexivity|]. left. destruct at_; exact I.
    + eexists. split; [reflexivity|]. right. eauto.
  - eexists. split; [reflexivity|]. left. destruct at_; exact I.
Qed.

Lemma good_level lev lev' r nm : good (W lev r nm) -> good (W lev' r nm).
Proof. intro H. exact H. Qed.

Lemma good_name lev r nm t : good (W lev r nm) -> holds 31 (nm t) (before_nul (nm t)).
Proof. intros [_ H]. apply H. Qed.

Lemma good_rest lev r nm : good (W lev r nm) -> good_lg (r_lg r).
Proof. intros [H _]. exact H. Qed.

(** The thread that moved, and the others. *)
Ltac others u t :=
  destruct (Z.eq_dec u t) as [->|Nu];
  [ unfold thread; cbn [m_prog]; rewrite ?upd_same
  | eapply thread_frame; [eauto|cbn [m_prog]; apply upd_other; exact Nu|..] ].

Lemma mstep_inv at_ w0 m l c : inv at_ w0 m l -> call_ok c ->
  exists m' es d, mstep at_ m c = Ok (m', es) /\ seen d = es /\ inv at_ w0 m' (l ++ d).
Proof.
  intros (lev0 & r0 & S & G & La & Lo & T) Hc.
  assert (Same : exists d, seen d = [] /\ inv at_ w0 m (l ++ d)).
  { exists []. split; [reflexivity|]. rewrite app_nil_r. exists lev0, r0. auto. }
  destruct Same as (d0 & Ed0 & I0).
  destruct c as [t o|t]; cbn [mstep].
  - (* a call *)
    destruct (m_prog m t) as [p|] eqn:Ep; [exists m, [], d0; auto|].
    destruct (code_ok at_ t o Hc) as (p & Ec & B). rewrite Ec. cbn [bind].
    pose proof (T t) as Tt. unfold thread in Tt. rewrite Ep in Tt. destruct Tt as [No Ct].
    destruct B as [B|(s & -> & Es & ->)].
    + do 2 eexists. exists [Seen (Inv t o)]. split; [reflexivity|]. split; [reflexivity|].
      exists lev0, r0. cbn [m_name m_lev m_own m_rest].
      split; [eapply serial_app; [exact S|]; repeat constructor|]. split; [exact G|]. split; [exact La|].
      split; [exact Lo|]. intro u. others u t.
      * left. split; [exact No|]. right. left. exists o. split; [exact Hc|]. split; [exact Ec|]. split; [exact B|].
        rewrite mine_app, (mine_own t [_]) by (repeat constructor). eapply conf_app; [exact Ct|apply conf_call].
      * reflexivity.
      * apply (mine_add t); [exact Nu|repeat constructor].
      * reflexivity.
      * auto.
    + do 2 eexists. exists [Seen (Inv t (SetLevel s)); Whole t (SetLevel s) (-1)].
      split; [reflexivity|]. split; [reflexivity|].
      exists lev0, r0. cbn [m_name m_lev m_own m_rest].
      split; [eapply serial_app; [exact S|]; constructor; econstructor; [apply set_level_none, Es|constructor]|].
      split; [exact G|]. split; [exact La|]. split; [exact Lo|]. intro u. others u t.
      * left. split; [exact No|]. left. exists (-1). split; [reflexivity|].
        rewrite mine_app, (mine_own t [_; _]) by (repeat constructor).
        eapply conf_app; [exact Ct|]. eapply (conf_app _ _ [_]); [apply conf_call|]. apply conf_whole. intros _ [].
      * reflexivity.
      * apply (mine_add t); [exact Nu|repeat constructor].
      * reflexivity.
      * auto.
  - (* a step *)
    unfold go. destruct (m_prog m t) as [p|] eqn:Ep; [|exists m, [], d0; auto].
    pose proof (T t) as Tt. unfold thread in Tt. rewrite Ep in Tt.
    destruct Tt as [[No [(rc & -> & Ct)|[(o & Ho & Ec & B & Ct)|(-> & lv & msg & ao & af & mv & ok & crc & -> & Hl & Ct)]]]
                   |[Ow (o & lev' & r' & rc & Ho & R & Ph)]].
    + (* return *)
      do 2 eexists. exists [Seen (Ret t rc)]. split; [reflexivity|]. split; [reflexivity|].
      exists lev0, r0. cbn [m_name m_lev m_own m_rest].
      split; [eapply serial_app; [exact S|]; repeat constructor|]. split; [exact G|]. split; [exact La|].
      split; [exact Lo|]. intro u. others u t.
      * split; [exact No|].
        rewrite mine_app, (mine_own t [_]) by (repeat constructor). eapply conf_app; [exact Ct|apply conf_ret].
      * reflexivity.
      * apply (mine_add t); [exact Nu|repeat constructor].
      * reflexivity.
      * auto.
    + (* the first step of a call *)
      destruct p as [rc|k|k|k|lv k|s k|a]; try contradiction.
      * (* lock *)
        destruct (m_own m) as [x|] eqn:Eo; [exists m, [], d0; auto|].
        destruct (Lo eq_refl) as [-> ->].
        destruct (locked_ok at_ t o k (m_name m t) _ (m_lev m) (m_rest m) (good_name _ _ _ t G) (good_rest _ _ _ G) Ho Ec)
          as (lev' & r' & rc & Nl & R & E).
        do 2 eexists. exists []. split; [reflexivity|]. split; [reflexivity|]. rewrite app_nil_r.
        exists (m_lev m), (m_rest m). cbn [m_name m_lev m_own m_rest].
        split; [exact S|]. split; [exact G|]. split; [exact La|]. split; [discriminate|]. intro u. others u t.
        -- right. split; [reflexivity|]. exists o, lev', r', rc. cbn [m_name m_lev m_rest].
           split; [exact Ho|]. split; [exact R|]. left. auto.
        -- reflexivity.
        -- reflexivity.
        -- rewrite Eo. cbn. split; congruence.
        -- auto.
      * (* load *)
        destruct o as [rc0|ok|u m0|s|b|p c ok nl tell e|c|u lv msg ao af mv ok crc]; cbn [code] in Ec; try discriminate.
        { destruct (find_level s 0 level_names) as [[i|]| |]; cbn [bind] in Ec; try discriminate. destruct at_; discriminate. }
        destruct at_; [|discriminate]. injection Ec as <-. destruct Ho as [-> Hl]. cbn [op_ok] in Hl.
        specialize (La eq_refl). subst lev0.
        do 2 eexists. exists [Peek t lv (m_lev m <=? lv)]. split; [reflexivity|]. split; [reflexivity|].
        exists (m_lev m), r0. cbn [m_name m_lev m_own m_rest].
        split; [eapply serial_app; [exact S|]; apply (serial_peek (W (m_lev m) r0 (m_name m))); constructor|].
        split; [exact G|]. split; [reflexivity|]. split; [exact Lo|]. intro u. others u t.
        -- left. split; [exact No|]. destruct (Z.ltb_spec lv (m_lev m)) as [Hv|Hv].
           ++ left. exists 0. split; [reflexivity|].
              rewrite mine_app, (mine_own t [_]) by (repeat constructor). eapply conf_app; [exact Ct|].
              replace (m_lev m <=? lv) with false by lia. repeat constructor.
           ++ right. right. split; [reflexivity|]. exists lv, msg, ao, af, mv, ok, crc.
              split; [reflexivity|]. split; [exact Hl|].
              rewrite mine_app, (mine_own t [_]) by (repeat constructor). eapply conf_app; [exact Ct|].
              replace (m_lev m <=? lv) with true by lia. repeat constructor.
        -- reflexivity.
        -- apply (mine_add t); [exact Nu|repeat constructor].
        -- reflexivity.
        -- auto.
      * (* store *)
        destruct o as [rc0|ok|u m0|s|b|p c ok nl tell e|c|u lv0 msg ao af mv ok crc]; cbn [code] in Ec; try discriminate.
        2:{ destruct at_; discriminate. }
        destruct (find_level s 0 level_names) as [[i|]| |] eqn:Ef; cbn [bind] in Ec; try discriminate.
        destruct at_; [|discriminate]. injection Ec as <- <-.
        specialize (La eq_refl). subst lev0.
        do 2 eexists. exists [Whole t (SetLevel s) 0]. split; [reflexivity|]. split; [reflexivity|].
        exists i, r0. cbn [m_name m_lev m_own m_rest].
        assert (Es : step (W (m_lev m) r0 (m_name m)) (SetLevel s) = Ok (W i r0 (m_name m), 0)).
        { cbn [step]. unfold set_level. rewrite Ef. reflexivity. }
        split; [eapply serial_app; [exact S|]; econstructor; [exact Es|constructor]|].
        split; [exact (good_level _ i _ _ G)|]. split; [reflexivity|].
        split; [intro E; split; [reflexivity|apply Lo, E]|]. intro u. others u t.
        -- left. split; [exact No|]. left. exists 0. split; [reflexivity|].
           rewrite mine_app, (mine_own t [_]) by (repeat constructor). eapply conf_app; [exact Ct|].
           apply conf_whole. intros _ [].
        -- reflexivity.
        -- apply (mine_add t); [exact Nu|repeat constructor].
        -- reflexivity.
        -- intros _. split; [reflexivity|]. split; [reflexivity|]. discriminate.
      * (* the thread's name *)
        destruct o as [rc0|ok|u m0|x|b|p c ok nl tell e|c|u lv0 msg ao af mv ok crc]; cbn [code] in Ec; try discriminate.
        2:{ destruct (find_level x 0 level_names) as [[i|]| |]; cbn [bind] in Ec; try discriminate. destruct at_; discriminate. }
        2:{ destruct at_; discriminate. }
        injection Ec as <- <-. destruct Ho as [-> (x & Hx & rx & ->)].
        destruct (strncpy_holds 31 _ _ x rx (good_name _ _ _ t G) Hx) as (b & Eb & Hb).
        change (Z.of_nat 31) with (32 - 1) in Eb. rewrite Eb. cbn [bind].
        do 2 eexists. exists [Whole t (SetName t (x ++ 0 :: rx)) 0]. split; [reflexivity|]. split; [reflexivity|].
        exists lev0, r0. cbn [m_name m_lev m_own m_rest].
        assert (Es : step (W lev0 r0 (m_name m)) (SetName t (x ++ 0 :: rx)) = Ok (W lev0 r0 (upd (m_name m) t b), 0)).
        { cbn [step]. unfold set_thread_name. change (names (W lev0 r0 (m_name m))) with (m_name m). rewrite Eb. reflexivity. }
        split; [eapply serial_app; [exact S|]; econstructor; [exact Es|constructor]|].
        split.
        { destruct G as [G1 G2]. split; [exact G1|]. intro u. cbn [names W]. unfold upd.
          destruct (u =? t); [|apply G2]. now rewrite (before_nul_holds _ _ _ Hb). }
        split; [exact La|]. split; [exact Lo|]. intro u. others u t.
        -- left. split; [exact No|]. left. exists 0. split; [reflexivity|].
           rewrite mine_app, (mine_own t [_]) by (repeat constructor). eapply conf_app; [exact Ct|].
           apply conf_whole. intros _ [].
        -- cbn [m_name]. now apply upd_other.
        -- apply (mine_add t); [exact Nu|repeat constructor].
        -- reflexivity.
        -- auto.
    + (* lock, after the level *)
      destruct (m_own m) as [x|] eqn:Eo; [exists m, [], d0; auto|].
      destruct (Lo eq_refl) as [-> ->].
      destruct (sinks_ok t lv msg ao af mv ok crc (m_name m t) _ (m_rest m) (good_name _ _ _ t G) Hl (good_rest _ _ _ G))
        as (r' & rc & R & E).
      do 2 eexists. exists []. split; [reflexivity|]. split; [reflexivity|]. rewrite app_nil_r.
      exists (m_lev m), (m_rest m). cbn [m_name m_lev m_own m_rest].
      split; [exact S|]. split; [exact G|]. split; [exact La|]. split; [discriminate|]. intro u. others u t.
      * right. split; [reflexivity|]. exists (Log t lv msg ao af mv ok crc), (m_lev m), r', rc. cbn [m_name m_lev m_rest].
        split; [cbn; auto|]. split; [apply R|]. right. split; [reflexivity|]. split; [exact Ct|].
        intros nm En. apply E; [exact En|unfold LDEBUG; lia].
      * reflexivity.
      * reflexivity.
      * rewrite Eo. cbn. split; congruence.
      * auto.
    + (* under the mutex *)
      inversion R as [k0 x0|k0 lev1 r1 y0 p0 Fl R1|k0 lv0 lev1 r1 y0 p0 Fl R1|a lev1 r1 r2 k0 y0 p0 Ea R1]; subst.
      * (* unlock *)
        rewrite Ow, Z.eqb_refl.
        destruct Ph as [(Ct & Nl & E)|(-> & Ct & E)].
        -- do 2 eexists. exists [Whole t o rc]. split; [reflexivity|]. split; [reflexivity|].
           exists (m_lev m), (m_rest m). cbn [m_name m_lev m_own m_rest].
           assert (Es : step (W lev0 (r0) (m_name m)) o = Ok (W (m_lev m) (m_rest m) (m_name m), rc)).
           { rewrite E by auto. destruct at_; [now rewrite La|reflexivity]. }
           assert (Hop : op_ok o) by (destruct o; try exact I; cbn in Ho |- *; try (apply Ho); contradiction).
           destruct (step_good _ o G Hop) as (w' & rc' & E' & G'). rewrite Es in E'. injection E' as <- <-.
           split; [eapply serial_app; [exact S|]; econstructor; [exact Es|constructor]|].
           split; [exact G'|]. split; [reflexivity|]. split; [auto|]. intro u. others u t.
           ++ left. split; [discriminate|]. left. exists rc. split; [reflexivity|].
              rewrite mine_app, (mine_own t [_]) by (repeat constructor). eapply conf_app; [exact Ct|].
              now apply conf_whole.
           ++ reflexivity.
           ++ apply (mine_add t); [exact Nu|repeat constructor].
           ++ rewrite Ow. cbn. split; congruence.
           ++ rewrite Ow. congruence.
        -- do 2 eexists. exists [Emit t o rc]. split; [reflexivity|]. split; [reflexivity|].
           specialize (La eq_refl). subst lev0.
           exists (m_lev m), (m_rest m). cbn [m_name m_lev m_own m_rest].
           assert (Es := E (m_name m) eq_refl).
           assert (Hop : op_ok o) by (destruct o; try exact I; cbn in Ho |- *; try (apply Ho); contradiction).
           destruct (step_good _ o (good_level _ LDEBUG _ _ G) Hop) as (w' & rc' & E' & G'). rewrite Es in E'. injection E' as <- <-.
           split; [eapply serial_app; [exact S|]; econstructor; [exact Es|constructor]|].
           split; [exact (good_level _ (m_lev m) _ _ G')|]. split; [reflexivity|]. split; [auto|]. intro u. others u t.
           ++ left. split; [discriminate|]. left. exists rc. split; [reflexivity|].
              rewrite mine_app, (mine_own t [_]) by (repeat constructor). eapply conf_app; [exact Ct|].
              repeat constructor.
           ++ reflexivity.
           ++ apply (mine_add t); [exact Nu|repeat constructor].
           ++ rewrite Ow. cbn. split; congruence.
           ++ rewrite Ow. congruence.
      * destruct at_; [discriminate|].
        do 2 eexists. exists []. split; [reflexivity|]. split; [reflexivity|]. rewrite app_nil_r.
        exists lev0, r0. cbn [m_name m_lev m_own m_rest].
        split; [exact S|]. split; [exact G|]. split; [discriminate|]. split; [congruence|]. intro u. others u t.
        -- right. split; [exact Ow|]. exists o, lev', r', rc. auto.
        -- reflexivity.
        -- reflexivity.
        -- reflexivity.
        -- rewrite Ow. congruence.
      * destruct at_; [discriminate|].
        do 2 eexists. exists []. split; [reflexivity|]. split; [reflexivity|]. rewrite app_nil_r.
        exists lev0, r0. cbn [m_name m_lev m_own m_rest].
        split; [exact S|]. split; [exact G|]. split; [discriminate|]. split; [congruence|]. intro u. others u t.
        -- right. split; [exact Ow|]. exists o, lev', r', rc. auto.
        -- reflexivity.
        -- reflexivity.
        -- reflexivity.
        -- rewrite Ow. congruence.
      * rewrite Ea. cbn [bind].
        do 2 eexists. exists []. split; [reflexivity|]. split; [reflexivity|]. rewrite app_nil_r.
        exists lev0, r0. cbn [m_name m_lev m_own m_rest].
        split; [exact S|]. split; [exact G|]. split; [exact La|]. split; [congruence|]. intro u. others u t.
        -- right. split; [exact Ow|]. exists o, lev', r', rc. auto.
        -- reflexivity.
        -- reflexivity.
        -- reflexivity.
        -- rewrite Ow. congruence.
Qed.

Lemma inv_start at_ w : good w -> inv at_ w (quiet_machine w) [].
Proof.
  intro G. exists (level (lg w)), (m_rest (quiet_machine w)).
  assert (E : W (level (lg w)) (m_rest (quiet_machine w)) (m_name (quiet_machine w)) = w).
  { destruct w as [lg0 o e c f n]. destruct lg0. reflexivity. }
  rewrite E. split; [constructor|]. split; [exact G|]. split; [reflexivity|]. split; [auto|].
  intro t. split; [discriminate|]. apply conf_nil.
Qed.

Lemma mrun_inv at_ w0 cs : forall m l, inv at_ w0 m l -> Forall call_ok cs ->
  exists m' es d, mrun at_ m cs = Ok (m', es) /\ seen d = es /\ inv at_ w0 m' (l ++ d).
Proof.
  induction cs as [|c cs IH]; intros m l I F.
  - exists m, [], []. rewrite app_nil_r. auto.
  - inversion F as [|? ? Hc Hcs]; subst. destruct (mstep_inv _ _ _ _ _ I Hc) as (m1 & es & d & E & Ed & I1).
    destruct (IH _ _ I1 Hcs) as (m2 & es2 & d2 & E2 & Ed2 & I2).
    exists m2, (es ++ es2), (d ++ d2). cbn [mrun]. rewrite E. cbn [bind]. rewrite E2. cbn [bind].
    split; [reflexivity|]. rewrite seen_app, Ed, Ed2, app_assoc. auto.
Qed.

(** ** Races *)
Lemma inv_touch at_ w0 m l t p : inv at_ w0 m l -> m_prog m t = Some p -> touches at_ p -> m_own m = Some t.
Proof.
  intros (lev0 & r0 & _ & _ & _ & _ & T) Ep Ht. specialize (T t). unfold thread in T. rewrite Ep in T.
  destruct T as [[_ [(rc & -> & _)|[(o & Ho & Ec & B & _)|(-> & lv & msg & ao & af & mv & ok & crc & -> & _)]]]|[O _]];
    [contradiction| |contradiction|exact O].
  destruct o as [rc0|ok|u m0|s|b|q c ok nl tell e|c|u lv msg ao af mv ok crc]; cbn [code] in Ec; try discriminate;
    try (injection Ec as <-; contradiction).
  - destruct (find_level s 0 level_names) as [[i|]| |]; cbn [bind] in Ec; try discriminate;
      [destruct at_|]; injection Ec as <-; try contradiction. discriminate Ht.
  - destruct at_; injection Ec as <-; [discriminate Ht|contradiction].
Qed.

Lemma inv_own at_ w0 m l t : inv at_ w0 m l -> m_own m = Some t ->
  exists p lev' r' rc, m_prog m t = Some p /\ runs (negb at_) (m_name m t) p (m_lev m, m_rest m) (lev', r') (Done rc).
Proof.
  intros (lev0 & r0 & _ & _ & _ & _ & T) O. specialize (T t). unfold thread in T.
  destruct (m_prog m t) as [q|]; [|tauto].
  destruct T as [[N _]|[_ (o & lev' & r' & rc & _ & R & _)]]; [tauto|]. exists q, lev', r', rc. auto.
Qed.

(** ** Progress *)
Lemma mrun_app at_ cs : forall m m1 e1 cs' m2 e2, mrun at_ m cs = Ok (m1, e1) -> mrun at_ m1 cs' = Ok (m2, e2) ->
  mrun at_ m (cs ++ cs') = Ok (m2, e1 ++ e2).
Proof.
  induction cs as [|c cs IH]; intros m m1 e1 cs' m2 e2 E1 E2; cbn [mrun app] in *.
  - injection E1 as <- <-. exact E2.
  - destruct (mstep at_ m c) as [[m3 e3]| |]; cbn [bind] in *; try discriminate.
    destruct (mrun at_ m3 cs) as [[m4 e4]| |] eqn:E4; cbn [bind] in *; try discriminate.
    injection E1 as <- <-. rewrite (IH _ _ _ _ _ _ E4 E2). cbn [bind]. now rewrite app_assoc.
Qed.

Lemma runs_free at_ fl t name p x y k : runs fl name p x y k -> forall m,
  m_prog m t = Some p -> m_name m t = name -> (m_lev m, m_rest m) = x -> m_own m = Some t ->
  exists n m', mrun at_ m (repeat (Go t) n) = Ok (m', []) /\ m_own m' = None /\ m_prog m' t = Some k /\
    forall u, u <> t -> m_prog m' u = m_prog m u.
Proof.
  induction 1 as [k x|k lev r y p _ _ IH|k lv lev r y p _ _ IH|a lev r r1 k y p Ea _ IH]; intros m Ep En Ex Eo.
  - exists 1%nat. eexists. cbn [repeat mrun mstep]. unfold go. rewrite Ep, Eo, Z.eqb_refl. cbn [bind app].
    split; [reflexivity|]. cbn [m_own m_prog]. rewrite upd_same. split; [reflexivity|]. split; [reflexivity|].
    intros u N. now apply upd_other.
  - injection Ex as El Er.
    destruct (IH (mk_machine (m_lev m) (m_rest m) (m_own m) (m_name m) (upd (m_prog m) t (Some (k (m_lev m))))))
      as (n & m' & E & Q1 & Q2 & Q3); cbn; rewrite ?upd_same, ?El, ?Er; auto.
    exists (S n), m'. cbn [repeat mrun mstep]. unfold go. rewrite Ep. cbn [bind]. rewrite E. cbn [bind app].
    split; [reflexivity|]. split; [exact Q1|]. split; [exact Q2|]. intros u N. rewrite Q3 by exact N. now apply upd_other.
  - injection Ex as El Er.
    destruct (IH (mk_machine lv (m_rest m) (m_own m) (m_name m) (upd (m_prog m) t (Some k))))
      as (n & m' & E & Q1 & Q2 & Q3); cbn; rewrite ?upd_same, ?El, ?Er; auto.
    exists (S n), m'. cbn [repeat mrun mstep]. unfold go. rewrite Ep. cbn [bind]. rewrite E. cbn [bind app].
    split; [reflexivity|]. split; [exact Q1|]. split; [exact Q2|]. intros u N. rewrite Q3 by exact N. now apply upd_other.
  - injection Ex as El Er.
    destruct (IH (mk_machine (m_lev m) r1 (m_own m) (m_name m) (upd (m_prog m) t (Some k))))
      as (n & m' & E & Q1 & Q2 & Q3); cbn; rewrite ?upd_same, ?El, ?Er; auto.
    exists (S n), m'. cbn [repeat mrun mstep]. unfold go. rewrite Ep, En, Er, Ea. cbn [bind]. rewrite E. cbn [bind app].
    split; [reflexivity|]. split; [exact Q1|]. split; [exact Q2|]. intros u N. rewrite Q3 by exact N. now apply upd_other.
Qed.

Definition can_return (at_ : bool) (m : machine) (t : Z) : Prop :=
  exists cs m' es, Forall (fun c => exists u, c = Go u) cs /\ mrun at_ m cs = Ok (m', es) /\ m_prog m' t = None.

Lemma goes t n : Forall (fun c => exists u, c = Go u) (repeat (Go t) n).
Proof. induction n; cbn; constructor; eauto. Qed.

Lemma goes_ok cs : Forall (fun c => exists u, c = Go u) cs -> Forall call_ok cs.
Proof. intro F. eapply Forall_impl; [|exact F]. intros c [u ->]. exact I. Qed.

Lemma can_after at_ m t cs m1 es : Forall (fun c => exists u, c = Go u) cs -> mrun at_ m cs = Ok (m1, es) ->
  can_return at_ m1 t -> can_return at_ m t.
Proof.
  intros F E (cs' & m2 & es' & F' & E' & P). exists (cs ++ cs'), m2, (es ++ es').
  split; [apply Forall_app; auto|]. split; [eapply mrun_app; eauto|exact P].
Qed.

Lemma can_done at_ m t rc : m_prog m t = Some (Done rc) -> can_return at_ m t.
Proof.
  intro E. exists [Go t]. do 2 eexists. split; [repeat constructor; eauto|]. cbn [mrun mstep]. unfold go. rewrite E.
  cbn [bind]. split; [reflexivity|]. cbn. now rewrite upd_same.
Qed.

Lemma can_own at_ w0 m l t : inv at_ w0 m l -> m_own m = Some t -> can_return at_ m t.
Proof.
  intros Hi O. destruct (inv_own _ _ _ _ _ Hi O) as (p & lev' & r' & rc & Ep & R).
  destruct (runs_free at_ _ t _ _ _ _ _ R m Ep eq_refl eq_refl O) as (n & m' & E & _ & P & _).
  eapply can_after; [apply goes|exact E|]. eapply can_done, P.
Qed.

Lemma can_lock at_ w0 m l t k : inv at_ w0 m l -> m_own m = None -> m_prog m t = Some (Lock k) -> can_return at_ m t.
Proof.
  intros Hi O Ep. destruct (mrun_inv at_ w0 [Go t] m l Hi) as (m1 & es & d & E & _ & I1); [repeat constructor|].
  eapply can_after; [|exact E|]; [repeat constructor; eauto|].
  apply (can_own at_ w0 m1 (l ++ d) t I1).
  cbn [mrun mstep] in E. unfold go in E. rewrite Ep, O in E. cbn in E. injection E as <- _. reflexivity.
Qed.

Lemma can_free at_ w0 m l t : inv at_ w0 m l -> m_own m = None -> can_return at_ m t.
Proof.
  intros Hi O. pose proof Hi as (lev0 & r0 & _ & G & _ & _ & T). specialize (T t). unfold thread in T.
  destruct (m_prog m t) as [p|] eqn:Ep.
  2:{ exists [], m, []. repeat split; auto. }
  destruct T as [[_ [(rc & -> & _)|[(o & Ho & Ec & B & _)|(-> & lv & msg & ao & af & mv & ok & crc & -> & _)]]]|[O' _]];
    [eapply can_done, Ep| |eapply can_lock; eauto|congruence].
  destruct p as [rc|k|k|k|lv k|s k|a]; try contradiction.
  - eapply can_lock; eauto.
  - destruct (mrun_inv at_ w0 [Go t] m l Hi) as (m1 & es & d & E & _ & I1); [repeat constructor|].
    eapply can_after; [|exact E|]; [repeat constructor; eauto|].
    cbn [mrun mstep] in E. unfold go in E. rewrite Ep in E. cbn in E. injection E as <- _.
    destruct o as [rc0|ok|u m0|s|b|q c ok nl tell e|c|u lv msg ao af mv ok crc]; cbn [code] in Ec; try discriminate.
    { destruct (find_level s 0 level_names) as [[i|]| |]; cbn [bind] in Ec; try discriminate. destruct at_; discriminate. }
    destruct at_; [|discriminate]. injection Ec as <-.
    destruct (lv <? m_lev m) eqn:El.
    + eapply can_done. cbn. rewrite upd_same, ?El. reflexivity.
    + eapply can_lock; [exact I1|exact O|]. cbn. rewrite upd_same, ?El. reflexivity.
  - destruct o as [rc0|ok|u m0|s|b|q c ok nl tell e|c|u lv0 msg ao af mv ok crc]; cbn [code] in Ec; try discriminate.
    2:{ destruct at_; discriminate. }
    destruct (find_level s 0 level_names) as [[i|]| |]; cbn [bind] in Ec; try discriminate.
    destruct at_; [|discriminate]. injection Ec as <- <-.
    eapply (can_after _ _ _ [Go t]); [repeat constructor; eauto| |].
    + cbn [mrun mstep]. unfold go. rewrite Ep. cbn [bind]. reflexivity.
    + eapply can_done. cbn. now rewrite upd_same.
  - destruct (mrun_inv at_ w0 [Go t] m l Hi) as (m1 & es & d & E & _ & I1); [repeat constructor|].
    eapply can_after; [|exact E|]; [repeat constructor; eauto|].
    cbn [mrun mstep] in E. unfold go in E. rewrite Ep in E.
    destruct (strncpy (m_name m t) s (32 - 1)); cbn in E; try discriminate. injection E as <- _.
    destruct o as [rc0|ok|u m0|x|b|q c ok nl tell e|c|u lv0 msg ao af mv ok crc]; cbn [code] in Ec; try discriminate.
    2:{ destruct (find_level x 0 level_names) as [[i|]| |]; cbn [bind] in Ec; try discriminate. destruct at_; discriminate. }
    2:{ destruct at_; discriminate. }
    injection Ec as <- <-. eapply can_done. cbn. now rewrite upd_same.
Qed.

Lemma inv_can at_ w0 m l t : inv at_ w0 m l -> can_return at_ m t.
Proof.
  intro Hi. destruct (m_own m) as [u|] eqn:O; [|eapply can_free; eauto].
  destruct (Z.eq_dec u t) as [->|N]; [eapply can_own; eauto|].
  destruct (inv_own _ _ _ _ _ Hi O) as (p & lev' & r' & rc & Ep & R).
  destruct (runs_free at_ _ u _ _ _ _ _ R m Ep eq_refl eq_refl O) as (n & m' & E & O' & _ & _).
  destruct (mrun_inv at_ w0 (repeat (Go u) n) m l Hi) as (m1 & es & d & E1 & _ & I1); [apply goes_ok, goes|].
  rewrite E in E1. injection E1 as <- <-.
  eapply can_after; [apply goes|exact E|]. eapply can_free; eauto.
Qed.
