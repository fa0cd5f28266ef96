(** Property C151: several sockets on one poller. *)
From Verif Require Import Base SockModel SockSpec SockProofs PollModel PollProps PollManyModel.
From Coq Require Import ZifyBool.

(** What is known of a structure: closed, with the mask it was left with; or open, with its descriptor, its mask and the data of
    the call that last changed it. *)
Inductive ist := IClosed (m : Z) | IOpen (f : Z) (x : Z * Z).
Definition holds (f : Z) (t : ist) : bool := match t with IOpen g _ => g =? f | _ => false end.
Definition cmd_of (add : bool) (ev d e : Z) : cmd := if add then CAdd ev d e else CDel ev d e.
(** One call; None: the structure does not exist, or is opened or initialised although it is open, or opened although it
    was closed with a mask and not initialised again (C85, C145). *)
Definition ideal (l : list ist) (o : mop) : option (list ist * Z) :=
  match o with
  | MNew => Some (l ++ [IClosed 0], 0)
  | MInit i => match nth_error l i with Some (IClosed _) => Some (lset l i (IClosed 0), 0) | _ => None end
  | MOpen i f =>
      match nth_error l i with
      | Some (IClosed 0) => if (f <? 0) || existsb (holds f) l then Some (l, -1) else Some (lset l i (IOpen f (0, 0)), 0)
      | _ => None
      end
  | MClose i e =>
      match nth_error l i with
      | None => None
      | Some (IClosed _) => Some (l, 0)
      | Some (IOpen _ x) => Some (lset l i (IClosed (fst x)), if e =? 0 then 0 else -1)
      end
  | MCtl i add ev d e =>
      let c := cmd_of add ev d e in
      match nth_error l i with
      | None => None
      | Some (IClosed m) => Some (l, if target m c =? m then 0 else -1)
      | Some (IOpen f x) => Some (lset l i (IOpen f (want x c)), result x c)
      end
  end.
Fixpoint ideals (l : list ist) (os : list mop) : option (list ist * list Z) :=
  match os with
  | [] => Some (l, [])
  | o :: os => match ideal l o with
               | None => None
               | Some (l, rc) => match ideals l os with None => None | Some (l, rcs) => Some (l, rc :: rcs) end
               end
  end.
Definition mop_ok (o : mop) : Prop := match o with MCtl _ _ ev _ _ => 0 <= ev < 8 | _ => True end.

(** A structure shows what is known of it, and the kernel has registered just that. *)
Definition shows (k : kernel) (t : fdt) (x : ist) : Prop :=
  match x with
  | IClosed m => t = mk_fdt INVALID m
  | IOpen f x => t = mk_fdt f (fst x) /\ k f = registration x
  end.

Definition good_ist (x : ist) : Prop := match x with IClosed m => mask_ok m | IOpen f x => 0 <= f /\ mask_ok (fst x) end.
Record minv (s : msys) (l : list ist) : Prop := mk_minv {
  m_len : length (mtab s) = length l;
  m_show : forall i t x, nth_error (mtab s) i = Some t -> nth_error l i = Some x -> shows (mreg s) t x;
  m_good : forall i x, nth_error l i = Some x -> good_ist x;
  m_one : forall i j f x y, nth_error l i = Some (IOpen f x) -> nth_error l j = Some (IOpen f y) -> i = j;
  m_open : forall f, In f (mopen s) <-> exists i x, nth_error l i = Some (IOpen f x);
  m_reg : forall f, mreg s f <> None -> exists i x, nth_error l i = Some (IOpen f x) }.

Lemma nth_lset {A} (l : list A) i v j : nth_error (lset l i v) j = if Nat.eqb i j then (if Nat.ltb i (length l) then Some v else None) else nth_error l j.
Proof.
  destruct (Nat.eqb_spec i j) as [->|Hn]; [|now apply nth_error_lset_neq].
  destruct (Nat.ltb_spec j (length l)); [now apply nth_error_lset_eq|]. apply nth_error_None. rewrite lset_length. lia.
Qed.
Lemma open_held s l f : minv s l -> is_open s f = existsb (holds f) l.
Proof.
  intro M. unfold is_open. apply eq_true_iff_eq. rewrite !existsb_exists. split.
  - intros (g & Hg & E). apply Z.eqb_eq in E. subst g. apply (m_open _ _ M) in Hg as (i & x & Hx). exists (IOpen f x). split; [eapply nth_error_In; eauto|]. cbn. apply Z.eqb_refl.
  - intros (x & Hx & E). destruct x as [m|g x]; [discriminate|]. cbn in E. apply Z.eqb_eq in E. subst g. apply In_nth_error in Hx as (i & Hx). exists f. split; [apply (m_open _ _ M); eauto|apply Z.eqb_refl].
Qed.
Lemma apply_refused k t c : error_of c <> 0 -> exists sn, apply k t c = (k, t, if target (top t) c =? top t then 0 else -1, sn).
Proof.
  intro He. destruct t as [f m].
  assert (X : forall k o f ev d, epoll_ctl k o f ev d (error_of c) = (k, error_of c)) by (intros; unfold epoll_ctl; replace (error_of c =? 0) with false by lia; reflexivity).
  destruct c as [ev d e|ev d e]; cbn [error_of apply target top] in *; unfold poll_add, poll_del; rewrite X; rewrite <- ?Z.ldiff_land; cbn [tfd top].
  - change (if Z.lor m ev =? SEDGE then 0 else Z.lor m ev) with (settle (Z.lor m ev)). rewrite (Z.eqb_sym m (settle (Z.lor m ev))). destruct (settle (Z.lor m ev) =? m); [eexists; reflexivity|].
    replace (e =? 0) with false by lia. eexists. reflexivity.
  - change (if Z.ldiff m ev =? SEDGE then 0 else Z.ldiff m ev) with (settle (Z.ldiff m ev)). rewrite (Z.eqb_sym m (settle (Z.ldiff m ev))). destruct (settle (Z.ldiff m ev) =? m); [eexists; reflexivity|].
    replace (e =? 0) with false by lia. eexists. reflexivity.
Qed.

Lemma lookup s l i x : minv s l -> nth_error l i = Some x -> exists t, nth_error (mtab s) i = Some t /\ (i < length l)%nat /\ shows (mreg s) t x.
Proof.
  intros M H. assert (L : (i < length l)%nat) by (apply nth_error_Some; congruence).
  destruct (nth_error (mtab s) i) as [t|] eqn:E; [|apply nth_error_None in E; rewrite (m_len _ _ M) in E; lia].
  exists t. split; [reflexivity|]. split; [exact L|]. exact (m_show _ _ M i t x E H).
Qed.

Lemma mstep_ok s l o l' rc : minv s l -> mop_ok o -> ideal l o = Some (l', rc) -> exists s', mstep s o = Ok (s', rc) /\ minv s' l'.
Proof.
  intros M Ho Hi. destruct o as [|i|i f|i e|i add ev d e]; cbn [ideal mstep] in *.
  - injection Hi as <- <-. eexists. split; [reflexivity|]. destruct M as [A B C D E F].
    assert (P : forall (T : Type) (a : list T) n x y, nth_error (a ++ [x]) n = Some y -> nth_error a n = Some y \/ (n = length a /\ y = x)).
    { intros T a n x y H. destruct (Nat.lt_ge_cases n (length a)) as [Hl|Hl]; [left; now rewrite nth_error_app1 in H|right].
      rewrite nth_error_app2 in H by exact Hl. destruct (n - length a)%nat as [|q] eqn:Q; [|destruct q; discriminate]. injection H as <-. split; [lia|reflexivity]. }
    assert (Q : forall n f x, nth_error (l ++ [IClosed 0]) n = Some (IOpen f x) <-> nth_error l n = Some (IOpen f x)).
    { intros n f x. split; [intro H; apply P in H as [H|[_ H]]; [exact H|discriminate]|]. intro H. rewrite nth_error_app1; [exact H|]. apply nth_error_Some. congruence. }
    constructor; cbn [mreg mopen mtab].
    + rewrite !app_length. cbn. lia.
    + intros n t x H1 H2. apply P in H1 as [H1|[H1 ->]]; apply P in H2 as [H2|[H2 ->]].
      * eauto. * exfalso. assert (nth_error (mtab s) n <> None) by congruence. apply nth_error_Some in H. lia.
      * exfalso. assert (nth_error l n <> None) by congruence. apply nth_error_Some in H. lia. * reflexivity.
    + intros n x H. apply P in H as [H|[_ ->]]; [eauto|]. cbn. split; lia.
    + intros n j f x y H1 H2. apply Q in H1, H2. eauto.
    + intro f. rewrite E. split; intros (n & x & H); exists n, x; now apply Q.
    + intros f H. apply F in H as (n & x & H). exists n, x. now apply Q.
  - destruct (nth_error l i) as [[m|f x]|] eqn:El; try discriminate. injection Hi as <- <-.
    destruct (lookup _ _ _ _ M El) as (t & Et & Hl & _). rewrite Et. cbn [or_ub bind]. eexists. split; [reflexivity|]. destruct M as [A B C D E F].
    assert (Q : forall n f x, nth_error (lset l i (IClosed 0)) n = Some (IOpen f x) <-> nth_error l n = Some (IOpen f x)).
    { intros n f x. rewrite nth_lset. destruct (Nat.eqb_spec i n) as [<-|]; [|reflexivity]. replace (Nat.ltb i (length l)) with true by (symmetry; now apply Nat.ltb_lt). rewrite El. split; discriminate. }
    constructor; cbn [mreg mopen mtab].
    + now rewrite !lset_length.
    + intros n t' x. rewrite !nth_lset. destruct (Nat.eqb_spec i n) as [<-|]; [|apply B]. rewrite A. replace (Nat.ltb i (length l)) with true by (symmetry; now apply Nat.ltb_lt). intros [= <-] [= <-]. reflexivity.
    + intros n x. rewrite nth_lset. destruct (Nat.eqb_spec i n) as [<-|]; [|apply C]. destruct (Nat.ltb i (length l)); [|discriminate]. intros [= <-]. cbn. split; lia.
    + intros n j f x y H1 H2. apply Q in H1, H2. eauto.
    + intro f. rewrite E. split; intros (n & x & H); exists n, x; now apply Q.
    + intros f H. apply F in H as (n & x & H). exists n, x. now apply Q.
  - destruct (nth_error l i) as [[[| |]|g x]|] eqn:El; try discriminate.
    destruct (lookup _ _ _ _ M El) as (t & Et & Hl & St). rewrite Et. cbn [or_ub bind]. rewrite (open_held _ _ f M).
    destruct ((f <? 0) || existsb (holds f) l) eqn:Ef; injection Hi as <- <-; [eauto|].
    cbn [shows] in St. subst t. cbn [top]. eexists. split; [reflexivity|].
    assert (Nf : forall n x, nth_error l n <> Some (IOpen f x)).
    { intros n x H. assert (existsb (holds f) l = true); [|destruct (f <? 0); cbn in Ef; congruence]. apply existsb_exists. exists (IOpen f x). split; [eapply nth_error_In; eauto|apply Z.eqb_refl]. }
    assert (Lt : Nat.ltb i (length l) = true) by now apply Nat.ltb_lt.
    destruct M as [A B C D E F].
    assert (Kf : mreg s f = None) by (destruct (mreg s f) eqn:K; [|reflexivity]; destruct (F f) as (n & x & H); [congruence|]; now apply Nf in H).
    assert (Q : forall n g x, nth_error (lset l i (IOpen f (0, 0))) n = Some (IOpen g x) <-> (n = i /\ g = f /\ x = (0, 0)) \/ (nth_error l n = Some (IOpen g x))).
    { intros n g x. rewrite nth_lset. destruct (Nat.eqb_spec i n) as [<-|Hn].
      - rewrite Lt, El. split; [intros [= <- <-]; auto|intros [(_ & -> & ->)|H]; [reflexivity|discriminate]].
      - split; [auto|intros [(-> & _)|H]; [now destruct Hn|exact H]]. }
    constructor; cbn [mreg mopen mtab].
    + now rewrite !lset_length.
    + intros n t x. rewrite !nth_lset. destruct (Nat.eqb_spec i n) as [<-|]; [|apply B]. rewrite A, Lt. intros [= <-] [= <-]. cbn [shows fst]. split; [reflexivity|]. exact Kf.
    + intros n x. rewrite nth_lset. destruct (Nat.eqb_spec i n) as [<-|]; [|apply C]. rewrite Lt. intros [= <-]. cbn. split; [lia|split; lia].
    + intros n j g x y H1 H2. apply Q in H1, H2. destruct H1 as [(H1 & H1' & _)|H1], H2 as [(H2 & H2' & _)|H2]; [congruence|rewrite H1' in H2; now apply Nf in H2|rewrite H2' in H1; now apply Nf in H1|eauto].
    + intro g. cbn [In]. rewrite E. split.
      * intros [<-|(n & x & H)]; [exists i, (0, 0)|exists n, x]; apply Q; auto.
      * intros (n & x & H). apply Q in H as [(_ & -> & _)|H]; [auto|eauto].
    + intros g H. apply F in H as (n & x & H). exists n, x. apply Q. auto.
  - destruct (nth_error l i) as [[m|f x]|] eqn:El; try discriminate; injection Hi as <- <-; destruct (lookup _ _ _ _ M El) as (t & Et & Hl & St); rewrite Et; cbn [or_ub bind shows] in *.
    + subst t. cbn [tfd]. rewrite Z.eqb_refl. eauto.
    + destruct St as [-> Kx]. cbn [tfd top]. pose proof (m_good _ _ M _ _ El) as [G1 G2]. replace (f =? INVALID) with false by (unfold INVALID; lia).
      eexists. split; [reflexivity|]. assert (Lt : Nat.ltb i (length l) = true) by now apply Nat.ltb_lt. destruct M as [A B C D E F].
      assert (Q : forall n g y, nth_error (lset l i (IClosed (fst x))) n = Some (IOpen g y) <-> g <> f /\ nth_error l n = Some (IOpen g y)).
      { intros n g y. rewrite nth_lset. destruct (Nat.eqb_spec i n) as [<-|Hn].
        - rewrite Lt, El. split; [discriminate|intros [Hg [= -> ->]]; now destruct Hg].
        - split; [|intros [_ H]; exact H]. intro H. split; [|exact H]. intros ->. apply Hn. eapply D; eauto. }
      constructor; cbn [mreg mopen mtab].
      * now rewrite !lset_length.
      * intros n t y H1 H2. rewrite nth_lset in H1. rewrite nth_lset in H2. destruct (Nat.eqb_spec i n) as [<-|Hn].
        { rewrite A, Lt in H1. rewrite Lt in H2. injection H1 as <-. injection H2 as <-. reflexivity. }
        pose proof (B _ _ _ H1 H2) as S. destruct y as [m|g y]; [exact S|]. cbn [shows] in *. destruct S as [S1 S2]. split; [exact S1|].
        rewrite upd_other; [exact S2|]. intros ->. apply Hn. eapply D; eauto.
      * intros n y. rewrite nth_lset. destruct (Nat.eqb_spec i n) as [<-|]; [|apply C]. rewrite Lt. intros [= <-]. exact G2.
      * intros n j g y z H1 H2. apply Q in H1 as [_ H1], H2 as [_ H2]. eauto.
      * intro g. rewrite filter_In, E. split.
        -- intros [(n & y & H) Hg]. exists n, y. apply Q. split; [lia|exact H].
        -- intros (n & y & H). apply Q in H as [Hg H]. split; [eauto|]. replace (g =? f) with false by lia. reflexivity.
      * intros g H. unfold upd in H. destruct (Z.eqb_spec g f) as [Eg|Hg]; [now destruct H|]. apply F in H as (n & y & H). exists n, y. now apply Q.
  - set (c := cmd_of add ev d (if is_open s (match nth_error (mtab s) i with Some t => tfd t | None => 0 end) then e else if e =? 0 then 9 else e)).
    change (exists s', mstep s (MCtl i add ev d e) = Ok (s', rc) /\ minv s' l').
    assert (Step : forall t, nth_error (mtab s) i = Some t ->
      mstep s (MCtl i add ev d e) = (let '(k, t, rc, _) := apply (mreg s) t c in Ok (mk_msys k (mopen s) (lset (mtab s) i t), rc))).
    { intros t Et. subst c. cbn [mstep]. rewrite Et. cbn [or_ub bind]. unfold cmd_of. destruct add; reflexivity. }
    assert (Cok : cmd_ok c) by (unfold c, cmd_of; destruct add; exact Ho).
    destruct (nth_error l i) as [[m|f x]|] eqn:El; try discriminate; injection Hi as <- <-; destruct (lookup _ _ _ _ M El) as (t & Et & Hl & St); rewrite (Step t Et); clear Step; cbn [shows] in *; subst c; rewrite Et in *.
    + subst t. cbn [tfd top] in *.
      assert (No : is_open s INVALID = false).
      { rewrite (open_held _ _ _ M). apply not_true_is_false. intro H. apply existsb_exists in H as ([|g y] & H1 & H2); [discriminate|]. cbn in H2. apply In_nth_error in H1 as (n & H1). apply (m_good _ _ M) in H1 as [H1 _]. unfold INVALID in H2. lia. }
      rewrite No in *.
      destruct (apply_refused (mreg s) (mk_fdt INVALID m) (cmd_of add ev d (if e =? 0 then 9 else e))) as (sn & Ea); [unfold cmd_of; destruct add; cbn [error_of]; destruct (Z.eqb_spec e 0); lia|].
      rewrite Ea. cbn [top]. replace (target m (cmd_of add ev d (if e =? 0 then 9 else e))) with (target m (cmd_of add ev d e)) by (unfold cmd_of; destruct add; reflexivity).
      eexists. split; [reflexivity|]. destruct M as [A B C D E F]. constructor; cbn [mreg mopen mtab]; auto; [now rewrite lset_length|].
      intros n t y. rewrite nth_lset. destruct (Nat.eqb_spec i n) as [<-|]; [|apply B]. intros H1 H2. apply (B i t y); [|exact H2]. destruct (Nat.ltb i (length (mtab s))); [congruence|discriminate].
    + destruct St as [-> Kx]. cbn [tfd top] in *. pose proof (m_good _ _ M _ _ El) as [G1 G2].
      assert (Yes : is_open s f = true).
      { rewrite (open_held _ _ _ M). apply existsb_exists. exists (IOpen f x). split; [eapply nth_error_In; eauto|apply Z.eqb_refl]. }
      rewrite Yes in *. destruct x as [m dd]. cbn [fst] in *.
      destruct (apply_ok (mreg s) (mk_fdt f m) dd (cmd_of add ev d e) G2 Cok Kx) as (k' & Ea & K1 & K2). rewrite Ea. cbn [tfd top] in *.
      eexists. split; [reflexivity|]. assert (Lt : Nat.ltb i (length l) = true) by now apply Nat.ltb_lt. destruct M as [A B C D E F].
      set (x' := want (m, dd) (cmd_of add ev d e)) in *.
      assert (Q : forall n g, (exists y, nth_error (lset l i (IOpen f x')) n = Some (IOpen g y)) <-> (exists y, nth_error l n = Some (IOpen g y))).
      { intros n g. rewrite nth_lset. destruct (Nat.eqb_spec i n) as [<-|Hn]; [|reflexivity]. rewrite Lt, El. split; intros (y & [= -> _]); eauto. }
      constructor; cbn [mreg mopen mtab].
      * now rewrite !lset_length.
      * intros n t y H1 H2. rewrite nth_lset in H1. rewrite nth_lset in H2. destruct (Nat.eqb_spec i n) as [<-|Hn].
        { rewrite A, Lt in H1. rewrite Lt in H2. injection H1 as <-. injection H2 as <-. cbn [shows]. split; [reflexivity|exact K1]. }
        pose proof (B _ _ _ H1 H2) as S. destruct y as [q|g y]; [exact S|]. cbn [shows] in *. destruct S as [S1 S2]. split; [exact S1|].
        rewrite K2; [exact S2|]. intros ->. apply Hn. eapply D; eauto.
      * intros n y. rewrite nth_lset. destruct (Nat.eqb_spec i n) as [<-|]; [|apply C]. rewrite Lt. intros [= <-]. cbn [good_ist]. split; [exact G1|].
        unfold x', want. cbn [fst]. destruct (_ || _); [exact G2|]. apply target_ok; assumption.
      * intros n j g y z H1 H2. assert (H1' : exists y, nth_error (lset l i (IOpen f x')) n = Some (IOpen g y)) by eauto. assert (H2' : exists y, nth_error (lset l i (IOpen f x')) j = Some (IOpen g y)) by eauto.
        apply Q in H1' as (? & H1'), H2' as (? & H2'). eauto.
      * intro g. rewrite E. split; intros (n & Hy); exists n; apply Q; exact Hy.
      * intros g H. assert (Hg : exists n y, nth_error l n = Some (IOpen g y)).
        { destruct (Z.eq_dec g f) as [->|Hg]; [eauto|]. rewrite K2 in H by exact Hg. eauto. }
        destruct Hg as (n & Hg). exists n. apply Q. exact Hg.
Qed.

(** C151: whatever is done with the structures, each shows its own mask, the kernel has registered for its descriptor just what the mask says with
    the data given last, and nothing is registered but for structures that are open.  The results are those of the structure alone. *)
Theorem poll_many : forall os l rcs, Forall mop_ok os -> ideals [] os = Some (l, rcs) ->
  exists s, mrun (mk_msys (fun _ => None) [] []) os = Ok (s, rcs) /\ length (mtab s) = length l /\
    (forall i x, nth_error l i = Some x -> exists t, nth_error (mtab s) i = Some t /\ shows (mreg s) t x) /\
    (forall f, mreg s f <> None -> exists i x, nth_error l i = Some (IOpen f x)) /\
    (forall i j f x y, nth_error l i = Some (IOpen f x) -> nth_error l j = Some (IOpen f y) -> i = j).
Proof.
  assert (G : forall os s l0 l rcs, minv s l0 -> Forall mop_ok os -> ideals l0 os = Some (l, rcs) -> exists s', mrun s os = Ok (s', rcs) /\ minv s' l).
  { induction os as [|o os IH]; intros s l0 l rcs M Ho Hi; cbn [ideals mrun] in *; [injection Hi as <- <-; eauto|].
    inversion Ho as [|? ? H1 H2]; subst. destruct (ideal l0 o) as [[l1 rc]|] eqn:E; [|discriminate]. destruct (ideals l1 os) as [[l2 rcs2]|] eqn:E2; [|discriminate]. injection Hi as <- <-.
    destruct (mstep_ok _ _ _ _ _ M H1 E) as (s1 & -> & M1). cbn [bind]. destruct (IH _ _ _ _ M1 H2 E2) as (s2 & -> & M2). cbn [bind]. eauto. }
  intros os l rcs Ho Hi. destruct (G os (mk_msys (fun _ => None) [] []) [] l rcs) as (s & E & M); auto.
  { constructor; cbn [mreg mopen mtab]; auto.
    - intros [|i] ? ? H; discriminate. - intros [|i] ? H; discriminate. - intros [|i] ? ? ? ? H; discriminate.
    - intro f. split; [intros []|intros ([|i] & x & H); discriminate]. - intros f H. now destruct H. }
  exists s. split; [exact E|]. split; [apply M|]. split; [|split; apply M].
  intros i x H. destruct (lookup _ _ _ _ M H) as (t & H1 & _ & H2). eauto.
Qed.
Print Assumptions poll_many.
(** The descriptor 5 goes from the first to the second structure; the first is asked for events while closed, which fails, and is then
    initialised and opened again as 6. *)
Example poll_many_ex :
  let os := [MNew; MNew; MOpen 0 5; MCtl 0 true 1 10 0; MClose 0 0; MOpen 1 5; MCtl 1 true 2 20 0; MCtl 0 true 2 11 0; MCtl 0 false 1 11 0;
             MInit 0; MOpen 0 5; MOpen 0 6; MCtl 0 true 3 12 0; MCtl 1 false 2 20 0] in
  Forall mop_ok os /\ ideals [] os = Some ([IOpen 6 (3, 12); IOpen 5 (0, 20)], [0; 0; 0; 0; 0; 0; 0; -1; -1; 0; -1; 0; 0; 0]) /\
  exists s, mrun (mk_msys (fun _ => None) [] []) os = Ok (s, [0; 0; 0; 0; 0; 0; 0; -1; -1; 0; -1; 0; 0; 0]) /\ mreg s 6 = Some (8 + 16 + 8192 + 5, 12) /\ mreg s 5 = None.
Proof. cbv zeta. split; [repeat constructor; cbn; lia|]. split; [vm_compute; reflexivity|]. eexists. split; [vm_compute; reflexivity|]. split; vm_compute; reflexivity. Qed.
