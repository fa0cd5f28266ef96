(** Property C155: several sockets on one kqueue poller. *)
From Verif Require Import Base SockModel SockSpec SockProofs PollModel PollProps PollManyProps PollBatchModel KqManyModel.
From Coq Require Import ZifyBool.

(** What is known of a structure: closed, with the mask it was left with; or open, with its descriptor, its mask, and the data of the call that
    last set the read filter and of the one that last set the write filter. *)
Inductive kst := KClosed (m : Z) | KOpen (f : Z) (x : Z * Z * Z).
Definition qholds (f : Z) (t : kst) : bool := match t with KOpen g _ => g =? f | _ => false end.
Definition kcmd_of (add : bool) (ev d : Z) (ok : list bool) : kcmd := if add then QAdd ev d ok else QDel ev d ok.
(** A call that changes the mask: adding sets the data of both filters; deleting does so only if the edge-triggered mode ends. *)
Definition qwant (x : Z * Z * Z) (c : kcmd) : Z * Z * Z :=
  let '(m, dr, dw) := x in
  if negb (hd true (kcmd_acc c)) || (ktarget m c =? m) then x
  else match c with
       | QAdd _ d _ => (ktarget m c, d, d)
       | QDel ev d _ => if Z.testbit m 2 && Z.testbit ev 2 then (ktarget m c, d, d) else (ktarget m c, dr, dw)
       end.
(** One call; None: the structure does not exist, or is opened or initialised although it is open, or opened although it was closed with a mask
    and not initialised again (C85, C145). *)
Definition kideal (l : list kst) (o : qop) : option (list kst * Z) :=
  match o with
  | QNew => Some (l ++ [KClosed 0], 0)
  | QInit i => match nth_error l i with Some (KClosed _) => Some (lset l i (KClosed 0), 0) | _ => None end
  | QOpen i f =>
      match nth_error l i with
      | Some (KClosed 0) => if (f <? 0) || existsb (qholds f) l then Some (l, -1) else Some (lset l i (KOpen f (0, 0, 0)), 0)
      | _ => None
      end
  | QClose i e =>
      match nth_error l i with
      | None => None
      | Some (KClosed _) => Some (l, 0)
      | Some (KOpen _ x) => Some (lset l i (KClosed (fst (fst x))), if e =? 0 then 0 else -1)
      end
  | QCtl i add ev d ok =>
      let c := kcmd_of add ev d ok in
      match nth_error l i with
      | None => None
      | Some (KClosed m) => Some (l, if ktarget m c =? m then 0 else -1)
      | Some (KOpen f x) => Some (lset l i (KOpen f (qwant x c)), kresult (fst (fst x)) c)
      end
  end.
Fixpoint kideals (l : list kst) (os : list qop) : option (list kst * list Z) :=
  match os with
  | [] => Some (l, [])
  | o :: os => match kideal l o with
               | None => None
               | Some (l, rc) => match kideals l os with None => None | Some (l, rcs) => Some (l, rc :: rcs) end
               end
  end.
(** A refused call is refused from the start. *)
Definition qop_ok (o : qop) : Prop := match o with QCtl _ add ev d ok => 0 <= ev < 8 /\ whole (kcmd_of add ev d ok) | _ => True end.
(** The filters of a mask with the data of each. *)
Definition kfilters (x : Z * Z * Z) : filters :=
  let '(m, dr, dw) := x in
  mk_filters (if Z.testbit m 0 then Some (Z.testbit m 2, dr) else None) (if Z.testbit m 1 then Some (Z.testbit m 2, dw) else None).
(** A structure shows what is known of it, and the kernel has registered just that. *)
Definition kshows (k : Z -> filters) (t : fdt) (x : kst) : Prop :=
  match x with
  | KClosed m => t = mk_fdt INVALID m
  | KOpen f x => t = mk_fdt f (fst (fst x)) /\ k f = kfilters x
  end.

Definition good_kst (x : kst) : Prop := match x with KClosed m => mask_ok m | KOpen f x => 0 <= f /\ mask_ok (fst (fst x)) end.
Record qinv (s : qsys) (l : list kst) : Prop := mk_qinv {
  q_len : length (qtab s) = length l;
  q_show : forall i t x, nth_error (qtab s) i = Some t -> nth_error l i = Some x -> kshows (qreg s) t x;
  q_good : forall i x, nth_error l i = Some x -> good_kst x;
  q_one : forall i j f x y, nth_error l i = Some (KOpen f x) -> nth_error l j = Some (KOpen f y) -> i = j;
  q_opn : forall f, In f (qopen s) <-> exists i x, nth_error l i = Some (KOpen f x);
  q_regd : forall f, qreg s f <> mk_filters None None -> exists i x, nth_error l i = Some (KOpen f x);
  q_arr : length (qres s) = Z.to_nat MAXEV }.
Lemma updq_other k f v g : g <> f -> updq k f v g = k g.
Proof. intro H. unfold updq. replace (g =? f) with false by lia. reflexivity. Qed.
Lemma updq_same k f v : updq k f v f = v.
Proof. unfold updq. now rewrite Z.eqb_refl. Qed.
Lemma kcmd_open x f c : mask_ok (fst (fst x)) -> 0 <= kcmd_ev c < 8 -> whole c ->
  exists sn, kapply (kfilters x) (mk_fdt f (fst (fst x))) c = (kfilters (qwant x c), mk_fdt f (fst (fst (qwant x c))), kresult (fst (fst x)) c, sn) /\ mask_ok (fst (fst (qwant x c))).
Proof.
  destruct x as [[m dr] dw]. cbn [fst]. intros [Hm Hn] He Hw.
  destruct c as [ev d ok|ev d ok]; cbn [kcmd_ev] in He; unfold whole in Hw; cbn [kcmd_acc] in Hw; unfold qwant, kresult; cbn [kcmd_acc ktarget kapply].
  all: destruct ok as [|[] [|[] ok]]; try (exfalso; destruct Hw as [Hw|Hw]; [discriminate|]; inversion Hw as [|? ? _ Hw2]; inversion Hw2; discriminate);
    clear Hw; each8 Hm; subst m; try lia; each8 He; subst ev; eexists; (split; [reflexivity|split; [cbn; lia|discriminate]]).
Qed.
Lemma kcmd_closed k f m (add : bool) ev d ok : mask_ok m -> 0 <= ev < 8 ->
  exists sn : list Z, (if add then kq_add k (mk_fdt f m) ev d [false] else kq_del k (mk_fdt f m) ev d [false]) = (k, mk_fdt f m, (if ktarget m (kcmd_of add ev d ok) =? m then 0 else -1), sn).
Proof.
  intros [Hm Hn] He. destruct add; each8 Hm; subst m; try lia; each8 He; subst ev; eexists; reflexivity.
Qed.

Lemma kopen_held s l f : qinv s l -> q_open s f = existsb (qholds f) l.
Proof.
  intro M. unfold q_open. apply eq_true_iff_eq. rewrite !existsb_exists. split.
  - intros (g & Hg & E). apply Z.eqb_eq in E. subst g. apply (q_opn _ _ M) in Hg as (i & x & Hx). exists (KOpen f x). split; [eapply nth_error_In; eauto|]. cbn. apply Z.eqb_refl.
  - intros (x & Hx & E). destruct x as [m|g x]; [discriminate|]. cbn in E. apply Z.eqb_eq in E. subst g. apply In_nth_error in Hx as (i & Hx). exists f. split; [apply (q_opn _ _ M); eauto|apply Z.eqb_refl].
Qed.
Lemma klookup s l i x : qinv s l -> nth_error l i = Some x -> exists t, nth_error (qtab s) i = Some t /\ (i < length l)%nat /\ kshows (qreg s) t x.
Proof.
  intros M H. assert (L : (i < length l)%nat) by (apply nth_error_Some; congruence).
  destruct (nth_error (qtab s) i) as [t|] eqn:E; [|apply nth_error_None in E; rewrite (q_len _ _ M) in E; lia].
  exists t. split; [reflexivity|]. split; [exact L|]. exact (q_show _ _ M i t x E H).
Qed.

Lemma qstep_ok s l o l' rc : qinv s l -> qop_ok o -> kideal l o = Some (l', rc) -> exists s', qstep s o = Ok (s', rc) /\ qinv s' l'.
Proof.
  intros M Ho Hi. destruct o as [|i|i f|i e|i add ev d ok]; cbn [kideal qstep] in *.
  - injection Hi as <- <-. eexists. split; [reflexivity|]. destruct M as [A B C D E F W].
    assert (P : forall (T : Type) (a : list T) n x y, nth_error (a ++ [x]) n = Some y -> nth_error a n = Some y \/ (n = length a /\ y = x)).
    { intros T a n x y H. destruct (Nat.lt_ge_cases n (length a)) as [Hl|Hl]; [left; now rewrite nth_error_app1 in H|right].
      rewrite nth_error_app2 in H by exact Hl. destruct (n - length a)%nat as [|q] eqn:Q; [|destruct q; discriminate]. injection H as <-. split; [lia|reflexivity]. }
    assert (Q : forall n f x, nth_error (l ++ [KClosed 0]) n = Some (KOpen f x) <-> nth_error l n = Some (KOpen f x)).
    { intros n f x. split; [intro H; apply P in H as [H|[_ H]]; [exact H|discriminate]|]. intro H. rewrite nth_error_app1; [exact H|]. apply nth_error_Some. congruence. }
    constructor; cbn [qreg qopen qtab qres].
    + rewrite !app_length. cbn. lia.
    + intros n t x H1 H2. apply P in H1 as [H1|[H1 ->]]; apply P in H2 as [H2|[H2 ->]].
      * eauto. * exfalso. assert (nth_error (qtab s) n <> None) by congruence. apply nth_error_Some in H. lia.
      * exfalso. assert (nth_error l n <> None) by congruence. apply nth_error_Some in H. lia. * reflexivity.
    + intros n x H. apply P in H as [H|[_ ->]]; [eauto|]. cbn. split; lia.
    + intros n j f x y H1 H2. apply Q in H1, H2. eauto.
    + intro f. rewrite E. split; intros (n & x & H); exists n, x; now apply Q.
    + intros f H. apply F in H as (n & x & H). exists n, x. now apply Q.
    + exact W.
  - destruct (nth_error l i) as [[m|f x]|] eqn:El; try discriminate. injection Hi as <- <-.
    destruct (klookup _ _ _ _ M El) as (t & Et & Hl & _). rewrite Et. cbn [or_ub bind]. eexists. split; [reflexivity|]. destruct M as [A B C D E F W].
    assert (Q : forall n f x, nth_error (lset l i (KClosed 0)) n = Some (KOpen f x) <-> nth_error l n = Some (KOpen f x)).
    { intros n f x. rewrite nth_lset. destruct (Nat.eqb_spec i n) as [<-|]; [|reflexivity]. replace (Nat.ltb i (length l)) with true by (symmetry; now apply Nat.ltb_lt). rewrite El. split; discriminate. }
    constructor; cbn [qreg qopen qtab qres].
    + now rewrite !lset_length.
    + intros n t' x. rewrite !nth_lset. destruct (Nat.eqb_spec i n) as [<-|]; [|apply B]. rewrite A. replace (Nat.ltb i (length l)) with true by (symmetry; now apply Nat.ltb_lt). intros [= <-] [= <-]. reflexivity.
    + intros n x. rewrite nth_lset. destruct (Nat.eqb_spec i n) as [<-|]; [|apply C]. destruct (Nat.ltb i (length l)); [|discriminate]. intros [= <-]. cbn. split; lia.
    + intros n j f x y H1 H2. apply Q in H1, H2. eauto.
    + intro f. rewrite E. split; intros (n & x & H); exists n, x; now apply Q.
    + intros f H. apply F in H as (n & x & H). exists n, x. now apply Q.
    + exact W.
  - destruct (nth_error l i) as [[[| |]|g x]|] eqn:El; try discriminate.
    destruct (klookup _ _ _ _ M El) as (t & Et & Hl & St). rewrite Et. cbn [or_ub bind]. rewrite (kopen_held _ _ f M).
    destruct ((f <? 0) || existsb (qholds f) l) eqn:Ef; injection Hi as <- <-; [eauto|].
    cbn [kshows] in St. subst t. cbn [top]. eexists. split; [reflexivity|].
    assert (Nf : forall n x, nth_error l n <> Some (KOpen f x)).
    { intros n x H. assert (existsb (qholds f) l = true); [|destruct (f <? 0); cbn in Ef; congruence]. apply existsb_exists. exists (KOpen f x). split; [eapply nth_error_In; eauto|apply Z.eqb_refl]. }
    assert (Lt : Nat.ltb i (length l) = true) by now apply Nat.ltb_lt.
    destruct M as [A B C D E F W].
    assert (Kf : qreg s f = mk_filters None None).
    { destruct (qreg s f) as [[?|] [?|]] eqn:K; [..|reflexivity]; (destruct (F f) as (n & x & H); [rewrite K; discriminate|now apply Nf in H]). }
    assert (Q : forall n g x, nth_error (lset l i (KOpen f (0, 0, 0))) n = Some (KOpen g x) <-> (n = i /\ g = f /\ x = (0, 0, 0)) \/ (nth_error l n = Some (KOpen g x))).
    { intros n g x. rewrite nth_lset. destruct (Nat.eqb_spec i n) as [<-|Hn].
      - rewrite Lt, El. split; [intros [= <- <-]; auto|intros [(_ & -> & ->)|H]; [reflexivity|discriminate]].
      - split; [auto|intros [(-> & _)|H]; [now destruct Hn|exact H]]. }
    constructor; cbn [qreg qopen qtab qres].
    + now rewrite !lset_length.
    + intros n t x. rewrite !nth_lset. destruct (Nat.eqb_spec i n) as [<-|]; [|apply B]. rewrite A, Lt. intros [= <-] [= <-]. cbn [kshows fst]. split; [reflexivity|]. exact Kf.
    + intros n x. rewrite nth_lset. destruct (Nat.eqb_spec i n) as [<-|]; [|apply C]. rewrite Lt. intros [= <-]. cbn. split; [lia|split; lia].
    + intros n j g x y H1 H2. apply Q in H1, H2. destruct H1 as [(H1 & H1' & _)|H1], H2 as [(H2 & H2' & _)|H2]; [congruence|rewrite H1' in H2; now apply Nf in H2|rewrite H2' in H1; now apply Nf in H1|eauto].
    + intro g. cbn [In]. rewrite E. split.
      * intros [<-|(n & x & H)]; [exists i, (0, 0, 0)|exists n, x]; apply Q; auto.
      * intros (n & x & H). apply Q in H as [(_ & -> & _)|H]; [auto|eauto].
    + intros g H. apply F in H as (n & x & H). exists n, x. apply Q. auto.
    + exact W.
  - destruct (nth_error l i) as [[m|f x]|] eqn:El; try discriminate; injection Hi as <- <-; destruct (klookup _ _ _ _ M El) as (t & Et & Hl & St); rewrite Et; cbn [or_ub bind kshows] in *.
    + subst t. cbn [tfd]. rewrite Z.eqb_refl. eauto.
    + destruct St as [-> Kx]. cbn [tfd top]. pose proof (q_good _ _ M _ _ El) as [G1 G2]. replace (f =? INVALID) with false by (unfold INVALID; lia).
      eexists. split; [reflexivity|]. assert (Lt : Nat.ltb i (length l) = true) by now apply Nat.ltb_lt. destruct M as [A B C D E F W].
      assert (Q : forall n g y, nth_error (lset l i (KClosed (fst (fst x)))) n = Some (KOpen g y) <-> g <> f /\ nth_error l n = Some (KOpen g y)).
      { intros n g y. rewrite nth_lset. destruct (Nat.eqb_spec i n) as [<-|Hn].
        - rewrite Lt, El. split; [discriminate|intros [Hg [= -> ->]]; now destruct Hg].
        - split; [|intros [_ H]; exact H]. intro H. split; [|exact H]. intros ->. apply Hn. eapply D; eauto. }
      constructor; cbn [qreg qopen qtab qres].
      * now rewrite !lset_length.
      * intros n t y H1 H2. rewrite nth_lset in H1. rewrite nth_lset in H2. destruct (Nat.eqb_spec i n) as [<-|Hn].
        { rewrite A, Lt in H1. rewrite Lt in H2. injection H1 as <-. injection H2 as <-. reflexivity. }
        pose proof (B _ _ _ H1 H2) as S. destruct y as [m|g y]; [exact S|]. cbn [kshows] in *. destruct S as [S1 S2]. split; [exact S1|].
        rewrite updq_other; [exact S2|]. intros ->. apply Hn. eapply D; eauto.
      * intros n y. rewrite nth_lset. destruct (Nat.eqb_spec i n) as [<-|]; [|apply C]. rewrite Lt. intros [= <-]. exact G2.
      * intros n j g y z H1 H2. apply Q in H1 as [_ H1], H2 as [_ H2]. eauto.
      * intro g. rewrite filter_In, E. split.
        -- intros [(n & y & H) Hg]. exists n, y. apply Q. split; [lia|exact H].
        -- intros (n & y & H). apply Q in H as [Hg H]. split; [eauto|]. replace (g =? f) with false by lia. reflexivity.
      * intros g H. unfold updq in H. destruct (Z.eqb_spec g f) as [Eg|Hg]; [now destruct H|]. apply F in H as (n & y & H). exists n, y. now apply Q.
      * exact W.
  - destruct Ho as [Ho Hw].
    destruct (nth_error l i) as [[m|f x]|] eqn:El; try discriminate; injection Hi as <- <-; destruct (klookup _ _ _ _ M El) as (t & Et & Hl & St); rewrite Et; cbn [kshows or_ub bind] in *.
    + subst t. cbn [tfd top] in *.
      assert (No : q_open s INVALID = false).
      { rewrite (kopen_held _ _ _ M). apply not_true_is_false. intro H. apply existsb_exists in H as ([|g y] & H1 & H2); [discriminate|]. cbn in H2. apply In_nth_error in H1 as (n & H1). apply (q_good _ _ M) in H1 as [H1 _]. unfold INVALID in H2. lia. }
      rewrite No. pose proof (q_good _ _ M _ _ El) as G.
      destruct (kcmd_closed (qreg s INVALID) INVALID m add ev d ok G Ho) as (sn & ->).
      eexists. split; [reflexivity|]. destruct M as [A B C D E F W].
      assert (U : forall g, updq (qreg s) INVALID (qreg s INVALID) g = qreg s g) by (intro g; unfold updq; destruct (Z.eqb_spec g INVALID) as [->|]; reflexivity).
      constructor; cbn [qreg qopen qtab qres]; auto; [now rewrite lset_length| |].
      * intros n t y. rewrite nth_lset. intros H1 H2. assert (S : kshows (qreg s) t y).
        { apply (B n t y); [|exact H2]. destruct (Nat.eqb_spec i n) as [<-|]; [|exact H1]. destruct (Nat.ltb i (length (qtab s))); [congruence|discriminate]. }
        destruct y as [q|g y]; [exact S|]. cbn [kshows] in *. rewrite U. exact S.
      * intro g. rewrite U. apply F.
    + destruct St as [-> Kx]. cbn [tfd top] in *. pose proof (q_good _ _ M _ _ El) as [G1 G2].
      assert (Yes : q_open s f = true).
      { rewrite (kopen_held _ _ _ M). apply existsb_exists. exists (KOpen f x). split; [eapply nth_error_In; eauto|apply Z.eqb_refl]. }
      rewrite Yes. rewrite Kx.
      destruct (kcmd_open x f (kcmd_of add ev d ok) G2) as (sn & Ea & K1); [unfold kcmd_of; destruct add; exact Ho|exact Hw|].
      assert (Ea' : (if add then kq_add (kfilters x) (mk_fdt f (fst (fst x))) ev d ok else kq_del (kfilters x) (mk_fdt f (fst (fst x))) ev d ok) =
        (kfilters (qwant x (kcmd_of add ev d ok)), mk_fdt f (fst (fst (qwant x (kcmd_of add ev d ok)))), kresult (fst (fst x)) (kcmd_of add ev d ok), sn)) by (unfold kcmd_of in *; destruct add; exact Ea).
      rewrite Ea'. clear Ea Ea'.
      eexists. split; [reflexivity|]. assert (Lt : Nat.ltb i (length l) = true) by now apply Nat.ltb_lt. destruct M as [A B C D E F W].
      set (x' := qwant x (kcmd_of add ev d ok)) in *.
      assert (Q : forall n g, (exists y, nth_error (lset l i (KOpen f x')) n = Some (KOpen g y)) <-> (exists y, nth_error l n = Some (KOpen g y))).
      { intros n g. rewrite nth_lset. destruct (Nat.eqb_spec i n) as [<-|Hn]; [|reflexivity]. rewrite Lt, El. split; intros (y & [= -> _]); eauto. }
      constructor; cbn [qreg qopen qtab qres].
      * now rewrite !lset_length.
      * intros n t y H1 H2. rewrite nth_lset in H1. rewrite nth_lset in H2. destruct (Nat.eqb_spec i n) as [<-|Hn].
        { rewrite A, Lt in H1. rewrite Lt in H2. injection H1 as <-. injection H2 as <-. cbn [kshows]. split; [reflexivity|apply updq_same]. }
        pose proof (B _ _ _ H1 H2) as S. destruct y as [q|g y]; [exact S|]. cbn [kshows] in *. destruct S as [S1 S2]. split; [exact S1|].
        rewrite updq_other; [exact S2|]. intros ->. apply Hn. eapply D; eauto.
      * intros n y. rewrite nth_lset. destruct (Nat.eqb_spec i n) as [<-|]; [|apply C]. rewrite Lt. intros [= <-]. cbn [good_kst]. split; [exact G1|exact K1].
      * intros n j g y z H1 H2. assert (H1' : exists y, nth_error (lset l i (KOpen f x')) n = Some (KOpen g y)) by eauto. assert (H2' : exists y, nth_error (lset l i (KOpen f x')) j = Some (KOpen g y)) by eauto.
        apply Q in H1' as (? & H1'), H2' as (? & H2'). eauto.
      * intro g. rewrite E. split; intros (n & Hy); exists n; apply Q; exact Hy.
      * intros g H. assert (Hg : exists n y, nth_error l n = Some (KOpen g y)).
        { destruct (Z.eq_dec g f) as [->|Hg]; [eauto|]. rewrite updq_other in H by exact Hg. eauto. }
        destruct Hg as (n & Hg). exists n. apply Q. exact Hg.
      * exact W.
Qed.

(** ** The results of a wait *)

Definition filt (k : filters) (rd : bool) : option (bool * Z) := if rd then f_read k else f_write k.
Fixpoint kcalls (os : list qbop) : list qop :=
  match os with [] => [] | QCall o :: os => o :: kcalls os | QWait _ :: os => kcalls os end.
(** Interrupted any number of times, then answered. *)
Definition kanswered (w : list (list (Z * bool * bool) + Z)) (x : list (Z * bool * bool) + Z) : Prop :=
  exists n r, w = repeat (inr EINTR) n ++ x :: r /\ x <> inr EINTR.
Definition kwaits_answered (os : list qbop) : Prop := forall w, In (QWait w) os -> exists x, kanswered w x.
(** Result [i] of the wait is about input ([rd]) or output on structure [j], open and asked for it, which was found active. *)
Definition kabout (l : list kst) (ready : list (Z * bool * bool)) (s : qsys) (i : Z) (j : nat) (rd : bool) : Prop :=
  exists f m dr dw eof, nth_error l j = Some (KOpen f (m, dr, dw)) /\ Z.testbit m (if rd then 0 else 1) = true /\ In (f, rd, eof) ready /\
    qdata s i = Ok (if rd then dr else dw) /\ qevent s i = Ok (if eof then 3 else if rd then 1 else 2).

Lemma q_ready_ok ready : forall k l, (forall i j f x y, nth_error l i = Some (KOpen f x) -> nth_error l j = Some (KOpen f y) -> i = j) ->
  (forall f rd, filt (k f) rd = None \/ exists i x, nth_error l i = Some (KOpen f x) /\ filt (k f) rd = filt (kfilters x) rd) ->
  exists js, length js = length (q_ready k ready) /\ NoDup js /\
    (forall n j rd, nth_error js n = Some (j, rd) -> exists f x eof cl d, nth_error l j = Some (KOpen f x) /\ filt (k f) rd = Some (cl, d) /\ filt (kfilters x) rd = Some (cl, d) /\ In (f, rd, eof) ready /\
       nth_error (q_ready k ready) n = Some (rd, eof, d)) /\
    (forall j f x rd eof, nth_error l j = Some (KOpen f x) -> filt (k f) rd <> None -> In (f, rd, eof) ready -> In (j, rd) js).
Proof.
  induction ready as [|[[f rd] eof] ready IH]; intros k l One K; cbn [q_ready].
  { exists []. split; [reflexivity|]. split; [constructor|]. split; [intros [|n] j rd H; discriminate|intros j f x rd eof _ _ []]. }
  change (if rd then f_read (k f) else f_write (k f)) with (filt (k f) rd). destruct (filt (k f) rd) as [[cl d]|] eqn:Ek.
  - set (k2 := updq k f (if rd then mk_filters None (f_write (k f)) else mk_filters (f_read (k f)) None)).
    assert (K2 : forall g r, filt (k2 g) r = if (g =? f) && Bool.eqb r rd then None else filt (k g) r).
    { intros g r. unfold k2, updq. destruct (Z.eqb_spec g f) as [->|]; cbn [andb]; [|reflexivity]. destruct r, rd; reflexivity. }
    destruct (IH k2 l One) as (js & Jl & Jn & J & Jc).
    { intros g r. rewrite K2. destruct ((g =? f) && Bool.eqb r rd); [now left|apply K]. }
    destruct (K f rd) as [E|(i & x & Hi & E)]; [congruence|]. exists ((i, rd) :: js).
    assert (J' : forall n j r, nth_error js n = Some (j, r) -> exists g x eo cl d, nth_error l j = Some (KOpen g x) /\ (g =? f) && Bool.eqb r rd = false /\ filt (k g) r = Some (cl, d) /\ filt (kfilters x) r = Some (cl, d) /\
       In (g, r, eo) ready /\ nth_error (q_ready k2 ready) n = Some (r, eo, d)).
    { intros n j r H. destruct (J n j r H) as (g & y & eo & c & dd & A & B & C & D & G). rewrite K2 in B. destruct ((g =? f) && Bool.eqb r rd) eqn:Eq; [discriminate|]. exists g, y, eo, c, dd. auto 10. }
    split; [cbn; now rewrite Jl|]. split; [|split].
    + constructor; [|exact Jn]. intro H. apply In_nth_error in H as (n & H). destruct (J' n i rd H) as (g & y & eo & c & dd & A & B & _). rewrite Hi in A. injection A as <- <-. rewrite Z.eqb_refl, eqb_reflx in B. discriminate.
    + intros [|n] j r H; cbn [nth_error] in *.
      * injection H as <- <-. exists f, x, eof, cl, d. repeat split; auto; [congruence|now left].
      * destruct (J' n j r H) as (g & y & eo & c & dd & A & _ & B & C & D & G). exists g, y, eo, c, dd. repeat split; auto. now right.
    + intros j g y r eo A B [[= <- <- <-]|C].
      * left. f_equal. exact (One _ _ _ _ _ Hi A).
      * destruct ((g =? f) && Bool.eqb r rd) eqn:Eq.
        { apply andb_true_iff in Eq as [E1 E2]. apply Z.eqb_eq in E1. apply eqb_prop in E2. subst g r. left. f_equal. exact (One _ _ _ _ _ Hi A). }
        right. apply (Jc j g y r eo A); [rewrite K2, Eq; exact B|exact C].
  - destruct (IH k l One K) as (js & Jl & Jn & J & Jc). exists js. split; [exact Jl|]. split; [exact Jn|]. split.
    + intros n j r H. destruct (J n j r H) as (g & y & eo & c & dd & A & B & C & D & G). exists g, y, eo, c, dd. repeat split; auto. now right.
    + intros j g y r eo A B [[= <- <- <-]|C]; [congruence|eauto].
Qed.
Lemma qwait_ok s w x : kanswered w x -> qwait s w = match x with
  | inr _ => Ok (s, -1)
  | inl ready => let rep := firstn (Z.to_nat MAXEV) (q_ready (qreg s) ready) in
      if zlen rep <=? zlen (qres s) then Ok (mk_qsys (qreg s) (qopen s) (qtab s) (map Some rep ++ skipn (length rep) (qres s)), zlen rep) else UB end.
Proof.
  intros (n & r & -> & Hx). induction n as [|n IH]; cbn [repeat app qwait]; [|exact IH].
  destruct x as [ready|e]; [reflexivity|]. destruct (Z.eqb_spec e EINTR) as [->|]; [now destruct Hx|reflexivity].
Qed.
Lemma qwait_inv s l w x : qinv s l -> kanswered w x -> exists s' n, qwait s w = Ok (s', n) /\ qinv s' l.
Proof.
  intros M A. rewrite (qwait_ok _ _ _ A). destruct x as [ready|e]; [|exists s, (-1); split; [reflexivity|assumption]]. cbv zeta.
  set (rep := firstn (Z.to_nat MAXEV) (q_ready (qreg s) ready)).
  assert (Lr : (length rep <= Z.to_nat MAXEV)%nat) by apply firstn_le_length.
  pose proof (q_arr _ _ M) as L. replace (zlen rep <=? zlen (qres s)) with true by (unfold zlen; lia).
  eexists. eexists. split; [reflexivity|]. destruct M as [A1 B C D E F W]. constructor; cbn [qreg qopen qtab qres]; auto. rewrite app_length, map_length, skipn_length. lia.
Qed.
Lemma qstep_res s o s' rc : qstep s o = Ok (s', rc) -> qres s' = qres s.
Proof.
  destruct o as [|i|i f|i e|i add ev d ok]; cbn [qstep]; [intros [= <- _]; reflexivity|destruct (nth_error (qtab s) i) as [t|]; [cbn [or_ub bind]|discriminate]..].
  - intros [= <- _]. reflexivity.
  - destruct (_ || _); intros [= <- _]; reflexivity.
  - destruct (_ =? _); intros [= <- _]; reflexivity.
  - destruct (if add then _ else _) as [[[k t'] r] sn]. intros [= <- _]. reflexivity.
Qed.
Lemma qcalls_ok cs : forall s l l2 rcs, qinv s l -> Forall qop_ok cs -> kideals l cs = Some (l2, rcs) ->
  exists s', qrun s (map QCall cs) = Ok (s', rcs) /\ qinv s' l2 /\ qres s' = qres s.
Proof.
  induction cs as [|o cs IH]; intros s l l2 rcs M Ho Hi; cbn [kideals map qrun] in *; [injection Hi as <- <-; eauto|].
  inversion Ho as [|? ? H1 H2]; subst. destruct (kideal l o) as [[l1 rc]|] eqn:E; [|discriminate]. destruct (kideals l1 cs) as [[l3 rcs3]|] eqn:E2; [|discriminate]. injection Hi as <- <-.
  destruct (qstep_ok _ _ _ _ _ M H1 E) as (m1 & Es & M1). cbn [qbstep]. rewrite Es. cbn [bind].
  destruct (IH m1 _ _ _ M1 H2 E2) as (s2 & -> & I2 & B). cbn [bind]. exists s2. split; [reflexivity|]. split; [exact I2|]. rewrite B. eapply qstep_res. exact Es.
Qed.
Lemma qrun_ok os : forall s l l2 rcs, qinv s l -> Forall qop_ok (kcalls os) -> kwaits_answered os -> kideals l (kcalls os) = Some (l2, rcs) ->
  exists s' rs, qrun s os = Ok (s', rs) /\ qinv s' l2.
Proof.
  induction os as [|o os IH]; intros s l l2 rcs M Ho Hw Hi; cbn [kcalls qrun] in *; [injection Hi as <- <-; eauto|].
  assert (Hw' : kwaits_answered os) by (intros w H; apply Hw; now right).
  destruct o as [o|w]; cbn [kideals qbstep] in *.
  - inversion Ho as [|? ? H1 H2]; subst. destruct (kideal l o) as [[l1 rc]|] eqn:E; [|discriminate]. destruct (kideals l1 (kcalls os)) as [[l3 rcs3]|] eqn:E2; [|discriminate]. injection Hi as <- <-.
    destruct (qstep_ok _ _ _ _ _ M H1 E) as (m1 & Es & M1). rewrite Es. cbn [bind].
    destruct (IH m1 _ _ _ M1 H2 Hw' E2) as (s2 & rs & -> & I2). cbn [bind]. eauto.
  - destruct (Hw w (or_introl eq_refl)) as (x & A). destruct (qwait_inv _ _ _ _ M A) as (s1 & n & -> & I1). cbn [bind].
    destruct (IH _ _ _ _ I1 Ho Hw' Hi) as (s2 & rs & -> & I2). cbn [bind]. eauto.
Qed.
Lemma qinv_start : qinv qstart [].
Proof.
  constructor; unfold qstart; cbn [qreg qopen qtab qres].
  - reflexivity.
  - intros [|i] ? ? H; discriminate.
  - intros [|i] ? H; discriminate.
  - intros [|i] ? ? ? ? H; discriminate.
  - intro f. split; [intros []|intros ([|i] & x & H); discriminate].
  - intros f H. now destruct H.
  - apply repeat_length.
Qed.

(** C155, registrations: whatever is done with the structures, each shows its own mask; exactly its filters are registered for its descriptor, in the
    mode it says, each with the data of the call that set it last; nothing is registered but for structures that are open.  The results are those
    of the structure alone. *)
Theorem kq_many_partial : forall os l rcs, Forall qop_ok os -> kideals [] os = Some (l, rcs) ->
  exists s, qrun qstart (map QCall os) = Ok (s, rcs) /\ length (qtab s) = length l /\
    (forall i x, nth_error l i = Some x -> exists t, nth_error (qtab s) i = Some t /\ kshows (qreg s) t x) /\
    (forall f, qreg s f <> mk_filters None None -> exists i x, nth_error l i = Some (KOpen f x)) /\
    (forall i j f x y, nth_error l i = Some (KOpen f x) -> nth_error l j = Some (KOpen f y) -> i = j).
Proof.
  intros os l rcs Ho Hi. destruct (qcalls_ok os qstart [] l rcs qinv_start Ho Hi) as (s & E & M & _).
  exists s. split; [exact E|]. split; [apply M|]. split; [|split; apply M].
  intros i x H. destruct (klookup _ _ _ _ M H) as (t & H1 & _ & H2). eauto.
Qed.
Print Assumptions kq_many_partial.
(** The second socket gets the descriptor the first one had.  Adding output to it gives both its filters the new data; deleting input keeps that of
    the output filter. *)
Example kq_many_partial_ex :
  let os := [QNew; QNew; QOpen 0 5; QCtl 0 true 1 10 []; QClose 0 0; QOpen 1 5; QCtl 1 true 1 20 []; QCtl 1 true 2 21 []; QCtl 1 false 1 22 []; QCtl 0 true 2 11 []; QInit 0; QOpen 0 5; QOpen 0 6; QCtl 0 true 3 12 [false]] in
  Forall qop_ok os /\ kideals [] os = Some ([KOpen 6 (0, 0, 0); KOpen 5 (2, 21, 21)], [0; 0; 0; 0; 0; 0; 0; 0; 0; -1; 0; -1; 0; -1]) /\
  exists s, qrun qstart (map QCall os) = Ok (s, [0; 0; 0; 0; 0; 0; 0; 0; 0; -1; 0; -1; 0; -1]) /\ qreg s 5 = mk_filters None (Some (false, 21)) /\ qreg s 6 = mk_filters None None.
Proof.
  cbv zeta. split; [repeat (apply Forall_cons; [first [exact I | split; [lia|first [left; reflexivity | right; cbn; repeat constructor]]]|]); constructor|]. split; [vm_compute; reflexivity|]. eexists. split; [vm_compute; reflexivity|]. split; vm_compute; reflexivity.
Qed.

(** C155, results: after any calls and waits, a wait that is answered gives at most 1024 results, one for each of as many registered filters (two for
    a socket asked for both), each with its own data and direction (both directions at the end of the stream); none that the kernel found active is
    left out unless there are 1024.  The results stay as they are during any further calls.
    Missing: that they are still about sockets asked for, as on Linux (C152), and calls the system refuses half-way (C88). *)
Theorem kq_batch_partial : forall os w x cs l l2 rcs rcs2,
  Forall qop_ok (kcalls os) -> kwaits_answered os -> kideals [] (kcalls os) = Some (l, rcs) -> kanswered w x -> Forall qop_ok cs -> kideals l cs = Some (l2, rcs2) ->
  exists s1 rs s2 n s3, qrun qstart os = Ok (s1, rs) /\ qbstep s1 (QWait w) = Ok (s2, n) /\ qrun s2 (map QCall cs) = Ok (s3, rcs2) /\
    match x with
    | inr _ => n = -1 /\ qres s3 = qres s1
    | inl ready => exists js, n = zlen js /\ n <= 1024 /\ NoDup js /\
        (forall i j rd, nth_error js i = Some (j, rd) -> kabout l ready s2 (Z.of_nat i) j rd /\ kabout l ready s3 (Z.of_nat i) j rd) /\
        (n < 1024 -> forall j f m dr dw (rd eof : bool), nth_error l j = Some (KOpen f (m, dr, dw)) -> Z.testbit m (if rd then 0 else 1) = true -> In (f, rd, eof) ready -> In (j, rd) js)
    end.
Proof.
  intros os w x cs l l2 rcs rcs2 H1 H2 H3 A H4 H5.
  destruct (qrun_ok os qstart [] l rcs qinv_start H1 H2 H3) as (s1 & rs & E1 & M).
  destruct (qwait_inv _ _ _ _ M A) as (s2 & n & E2 & I2).
  destruct (qcalls_ok cs s2 l l2 rcs2 I2 H4 H5) as (s3 & E3 & I3 & B3).
  exists s1, rs, s2, n, s3. split; [exact E1|]. split; [exact E2|]. split; [exact E3|].
  rewrite (qwait_ok _ _ _ A) in E2. destruct x as [ready|e]; [|injection E2 as <- <-; auto]. cbv zeta in E2.
  destruct (q_ready_ok ready (qreg s1) l) as (js & Jl & Jn & J & Jc).
  { apply M. }
  { intros f rd. destruct (filt (qreg s1 f) rd) eqn:K; [right|now left]. destruct (q_regd _ _ M f) as (i & y & Hy); [intro Z; rewrite Z in K; destruct rd; discriminate|]. exists i, y. split; [exact Hy|].
    destruct (klookup _ _ _ _ M Hy) as (t & _ & _ & [_ S]). rewrite <- K, S. reflexivity. }
  set (rl := q_ready (qreg s1) ready) in *. set (rep := firstn (Z.to_nat MAXEV) rl) in *.
  destruct (zlen rep <=? zlen (qres s1)) eqn:Lr; [|discriminate]. injection E2 as <- <-.
  exists (firstn (Z.to_nat MAXEV) js).
  assert (Lj : length (firstn (Z.to_nat MAXEV) js) = length rep) by (unfold rep; rewrite !firstn_length; lia).
  assert (Cut : forall (T : Type) (a : list T) i y, nth_error (firstn (Z.to_nat MAXEV) a) i = Some y -> nth_error a i = Some y /\ (i < Z.to_nat MAXEV)%nat).
  { clear. intros T a i y H. assert (Hl : (i < length (firstn (Z.to_nat MAXEV) a))%nat) by (apply nth_error_Some; congruence). rewrite firstn_length in Hl.
    split; [|lia]. rewrite <- (firstn_skipn (Z.to_nat MAXEV) a). rewrite nth_error_app1; [exact H|]. rewrite firstn_length. lia. }
  split; [unfold zlen; lia|]. split; [unfold zlen; unfold rep; rewrite firstn_length; change 1024 with MAXEV; unfold MAXEV in *; lia|].
  split.
  { rewrite <- (firstn_skipn (Z.to_nat MAXEV) js) in Jn. clear - Jn. induction (firstn (Z.to_nat MAXEV) js) as [|a q IH]; [constructor|]. inversion Jn as [|? ? N1 N2]; subst. constructor; [|auto]. intro H. apply N1. apply in_or_app. now left. }
  split.
  - intros i j rd H. assert (Hi : (i < length rep)%nat) by (rewrite <- Lj; apply nth_error_Some; congruence). apply Cut in H as [H _].
    destruct (J i j rd H) as (f & [[m dr] dw] & eof & cl & d & C1 & C2 & C3 & C4 & C5).
    assert (Ce : forall s, qres s = map Some rep ++ skipn (length rep) (qres s1) -> qcell s (Z.of_nat i) = Ok (rd, eof, d)).
    { intros s Hs. unfold qcell. rewrite Hs. unfold zget. replace (Z.of_nat i <? 0) with false by lia. rewrite Nat2Z.id. rewrite nth_error_app1 by (rewrite map_length; exact Hi).
      rewrite nth_error_map. replace (nth_error rep i) with (Some (rd, eof, d)); [reflexivity|]. symmetry. unfold rep.
      rewrite <- (firstn_skipn (Z.to_nat MAXEV) rl) in C5. rewrite nth_error_app1 in C5 by exact Hi. exact C5. }
    assert (Ab : forall s, qres s = map Some rep ++ skipn (length rep) (qres s1) -> kabout l ready s (Z.of_nat i) j rd).
    { intros s Hs. exists f, m, dr, dw, eof. unfold qdata, qevent. rewrite (Ce s Hs). cbn [bind fst snd].
      assert (T : Z.testbit m (if rd then 0 else 1) = true /\ d = if rd then dr else dw).
      { unfold filt, kfilters in C3. destruct rd; cbn [f_read f_write] in C3; [destruct (Z.testbit m 0)|destruct (Z.testbit m 1)]; try discriminate; injection C3 as <- <-; auto. }
      destruct T as [T ->]. repeat split; auto. }
    split; apply Ab; [reflexivity|]. rewrite B3. reflexivity.
  - intros Hn j f m dr dw rd eof C1 C2 C3. assert (Hj : In (j, rd) js).
    { apply (Jc j f (m, dr, dw) rd eof); auto. destruct (klookup _ _ _ _ M C1) as (t & _ & _ & [_ S]). rewrite S. unfold filt, kfilters. destruct rd; cbn [f_read f_write]; rewrite C2; discriminate. }
    replace (firstn (Z.to_nat MAXEV) js) with js; [exact Hj|]. symmetry. apply firstn_all2. unfold zlen in Hn. rewrite <- Lj, firstn_length in Hn. unfold MAXEV in *. lia.
Qed.
Print Assumptions kq_batch_partial.
(** Two sockets: both filters of the first are active, the second is at the end of its stream and asked for output only. *)
Example kq_batch_partial_ex :
  let os := map QCall [QNew; QNew; QOpen 0 5; QOpen 1 6; QCtl 0 true 1 10 []; QCtl 0 true 2 11 []; QCtl 1 true 3 20 []; QCtl 1 false 1 21 []] in
  let ready := [(5, true, false); (6, true, true); (6, false, true); (5, false, false); (5, true, false)] in
  let w := [inr EINTR; inl ready] in
  Forall qop_ok (kcalls os) /\ kwaits_answered os /\ kideals [] (kcalls os) = Some ([KOpen 5 (3, 11, 11); KOpen 6 (2, 20, 20)], repeat 0 8) /\ kanswered w (inl ready) /\
  exists s rs, qrun qstart (os ++ [QWait w]) = Ok (s, rs ++ [3]) /\ map (qdata s) [0; 1; 2] = [Ok 11; Ok 20; Ok 11] /\ map (qevent s) [0; 1; 2] = [Ok 1; Ok 3; Ok 2] /\ qdata s 3 = UB.
Proof.
  cbv zeta. split; [repeat (apply Forall_cons; [first [exact I | split; [lia|first [left; reflexivity | right; cbn; repeat constructor]]]|]); constructor|]. split; [intros w H; apply in_map_iff in H as (? & H & _); discriminate|]. split; [vm_compute; reflexivity|].
  split; [exists 1%nat, []; split; [reflexivity|discriminate]|]. eexists. exists (repeat 0 8). split; [vm_compute; reflexivity|]. repeat split; vm_compute; reflexivity.
Qed.

(** The results of one wait are not updated: a socket that is closed on its first result comes again with the second, with the data that may be
    freed by then.  (On Linux a socket has only one result.) *)
Theorem kq_batch_refuted : exists s rs,
  qrun qstart (map QCall [QNew; QOpen 0 5; QCtl 0 true 3 10 []] ++ QWait [inl [(5, true, true); (5, false, true)]] :: map QCall [QCtl 0 false 3 10 []; QClose 0 0]) = Ok (s, rs) /\
  nth_error rs 3 = Some 2 /\ qdata s 0 = Ok 10 /\ qdata s 1 = Ok 10 /\ nth_error (qtab s) 0 = Some (mk_fdt INVALID 0).
Proof. eexists. eexists. split; [vm_compute; reflexivity|]. repeat split; vm_compute; reflexivity. Qed.
Print Assumptions kq_batch_refuted.
(** When the second of two changes is refused, the first stays (C88): the socket reports output with mask 0. *)
Theorem kq_many_refuted : exists s rs,
  qrun qstart (map QCall [QNew; QOpen 0 5; QCtl 0 true 3 10 [true; false]] ++ [QWait [inl [(5, false, false)]]]) = Ok (s, rs) /\ rs = [0; 0; -1; 1] /\
  qdata s 0 = Ok 10 /\ qevent s 0 = Ok 2 /\ nth_error (qtab s) 0 = Some (mk_fdt 5 0).
Proof. eexists. eexists. split; [vm_compute; reflexivity|]. repeat split; vm_compute; reflexivity. Qed.
Print Assumptions kq_many_refuted.
