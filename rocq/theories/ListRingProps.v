(** Property C146: sc_list calls on any initialised nodes, heads of non-empty lists included. *)
From Verif Require Import Base ListModel ListSpec ListProofs ListRingModel.

(** The same rings, with other nodes taken as heads: the nodes after [x] come first, then the old head, then
    those before [x]. *)
Inductive turn : world -> world -> Prop :=
| turn_perm w w' : Permutation w w' -> turn w w'
| turn_head l a x b r : turn ((l, a ++ x :: b) :: r) ((x, b ++ l :: a) :: r)
| turn_trans w1 w2 w3 : turn w1 w2 -> turn w2 w3 -> turn w1 w3.

(** The nodes a call names are initialised; sc_list_init is only for nodes that are not. *)
Definition known (w : world) (o : lop) : Prop :=
  match o with
  | Init l => l <> 0 /\ ~ In l (nodes w)
  | AddHead l x | AddTail l x | AddAfter l x | AddBefore l x => In l (nodes w) /\ In x (nodes w)
  | PopHead l | PopTail l | Clear l | ForeachSafe l _ | ForeachSafeR l _ | Del l => In l (nodes w)
  end.
(** The heads are such that [ideal] speaks of the call: the node added or deleted is no head of a non-empty
    list; the node named as list is a head, unless it is added to itself. *)
Definition fits (w : world) (o : lop) : Prop :=
  allowed w o \/ exists x, added o = Some (x, x) /\ addable w x.

(** The implementation obeys the ideal world along a history, whatever nodes are taken as heads. *)
Fixpoint obeys_rings (m : mem) (w : world) (ops : list lop) : Prop :=
  (forall w0, turn w w0 -> shows m w0) /\
  match ops with
  | [] => True
  | o :: rest => known w o ->
      (exists w0, turn w w0 /\ fits w0 o) /\
      exists m' ret, (forall fuel, (length (nodes w) < fuel)%nat -> list_step fuel m o = Ok (m', ret)) /\
      forall w0, turn w w0 -> fits w0 o -> exists w', ideal w0 o w' ret /\ obeys_rings m' w' rest
  end.

Lemma turn_holds w w' : turn w w' -> forall m, holds m w -> holds m w'.
Proof.
  induction 1 as [w w' Hp|l a x b r|w1 w2 w3 _ IH1 _ IH2]; intros m Hh.
  - now apply (holds_perm m w).
  - destruct Hh as [Hn Hf]. inversion Hf as [|? ? Hc Hr]; subst. cbn [fst snd] in Hc. split.
    + apply (Permutation_NoDup (l := nodes ((l, a ++ x :: b) :: r))); [|exact Hn]. rewrite !nodes_cons.
      change (l :: (a ++ x :: b) ++ nodes r) with ((l :: a ++ x :: b) ++ nodes r). change (x :: (b ++ l :: a) ++ nodes r) with ((x :: b ++ l :: a) ++ nodes r).
      apply Permutation_app_tail. apply (Permutation_app_comm (l :: a) (x :: b)).
    + constructor; [|exact Hr]. cbn [fst snd]. apply (cyc_rot m (l :: a) (x :: b)). exact Hc.
  - auto.
Qed.
Lemma turn_nodes w w' : turn w w' -> Permutation (nodes w) (nodes w').
Proof.
  induction 1 as [w w' Hp|l a x b r|w1 w2 w3 _ IH1 _ IH2].
  - now apply nodes_perm.
  - rewrite !nodes_cons. change (l :: (a ++ x :: b) ++ nodes r) with ((l :: a ++ x :: b) ++ nodes r). change (x :: (b ++ l :: a) ++ nodes r) with ((x :: b ++ l :: a) ++ nodes r).
    apply Permutation_app_tail. apply (Permutation_app_comm (l :: a) (x :: b)).
  - now transitivity (nodes w2).
Qed.
Lemma turn_refl w : turn w w.
Proof. now apply turn_perm. Qed.

(** Any node can be made a head, and any node that is not alone can be made a member. *)
Lemma make_head w l : In l (nodes w) -> exists ys r, turn w ((l, ys) :: r).
Proof.
  intro H. apply in_nodes in H as (h & xs & Hi & Hl). apply in_perm in Hi as (r & Hp).
  destruct Hl as [-> | Hl]; [exists xs, r; now apply turn_perm|].
  apply in_split in Hl as (a & b & ->). exists (b ++ h :: a), r. eapply turn_trans; [apply turn_perm, Hp|apply turn_head].
Qed.
Lemma disjoint_nodes h ys r x : NoDup (nodes ((h, ys) :: r)) -> In x (h :: ys) -> ~ In x (nodes r).
Proof.
  rewrite nodes_cons. change (h :: ys ++ nodes r) with ((h :: ys) ++ nodes r). generalize (h :: ys). intro l.
  induction l as [|y l IH]; [easy|]. cbn [app]. intros Hn [-> | Hi]; apply NoDup_cons_iff in Hn as [H1 H2]; [|auto].
  intro H. apply H1. apply in_or_app. now right.
Qed.
(** [x] becomes addable by turning its own ring only. *)
Lemma make_member w x : NoDup (nodes w) -> In x (nodes w) ->
  exists h ys r, turn w ((h, ys) :: r) /\ In x (h :: ys) /\ (ys = [] \/ In x ys).
Proof.
  intros Hn H. apply in_nodes in H as (h & xs & Hi & Hx). apply in_perm in Hi as (r & Hp).
  destruct Hx as [-> | Hx]; [|exists h, xs, r; split; [now apply turn_perm|split; [now right|now right]]].
  destruct xs as [|y ys]; [exists x, [], r; split; [now apply turn_perm|split; [now left|now left]]|].
  exists y, (ys ++ [x]), r. split; [eapply turn_trans; [apply turn_perm, Hp|apply (turn_head x [] y ys)]|].
  assert (In x (ys ++ [x])) by (apply in_or_app; right; now left). split; [now right|now right].
Qed.
Lemma member_addable h ys r x : NoDup (nodes ((h, ys) :: r)) -> In x (h :: ys) -> ys = [] \/ In x ys -> addable ((h, ys) :: r) x.
Proof.
  intros Hn Hx Ho. split; [apply in_nodes; exists h, ys; split; [now left|exact Hx]|].
  intros zs [E|Hi].
  - injection E as -> ->. destruct Ho as [Ho|Ho]; [exact Ho|]. exfalso. rewrite nodes_cons in Hn. apply NoDup_cons_iff in Hn as [Hn _].
    apply Hn. apply in_or_app. now left.
  - exfalso. apply (disjoint_nodes h ys r x Hn Hx). apply in_nodes. exists x, zs. split; [exact Hi|now left].
Qed.
Lemma turn_cons p r r' : turn r r' -> turn (p :: r) (p :: r').
Proof.
  induction 1 as [w w' Hp|l a x b r|w1 w2 w3 _ IH1 _ IH2].
  - apply turn_perm. now constructor.
  - eapply turn_trans; [apply turn_perm, perm_swap|]. eapply turn_trans; [apply turn_head|]. apply turn_perm, perm_swap.
  - eapply turn_trans; eauto.
Qed.

(** For every call on initialised nodes there are such heads. *)
Lemma fits_exists w o : NoDup (nodes w) -> known w o -> exists w0, turn w w0 /\ fits w0 o.
Proof.
  intros Hn Hk.
  assert (Hdel : forall x, In x (nodes w) -> exists w0, turn w w0 /\ addable w0 x).
  { intros x Hx. destruct (make_member w x Hn Hx) as (h & ys & r & Ht & Hi & Ho). exists ((h, ys) :: r). split; [exact Ht|].
    apply member_addable; auto. apply (Permutation_NoDup (turn_nodes _ _ Ht) Hn). }
  assert (Hhead : forall l, In l (nodes w) -> exists w0, turn w w0 /\ is_head w0 l).
  { intros l Hl. destruct (make_head w l Hl) as (ys & r & Ht). exists ((l, ys) :: r). split; [exact Ht|]. exists ys. now left. }
  assert (Hadd : forall l x, In l (nodes w) -> In x (nodes w) -> x <> l -> exists w0, turn w w0 /\ is_head w0 l /\ addable w0 x).
  { intros l x Hl Hx Hne. destruct (make_head w l Hl) as (ys & r & Ht).
    pose proof (Permutation_NoDup (turn_nodes _ _ Ht) Hn) as Hn1.
    pose proof (Permutation_in x (turn_nodes _ _ Ht) Hx) as Hx1. rewrite nodes_cons in Hx1. destruct Hx1 as [E|Hx1]; [congruence|].
    apply in_app_or in Hx1 as [Hx1|Hx1].
    - exists ((l, ys) :: r). split; [exact Ht|]. split; [exists ys; now left|]. apply member_addable; [exact Hn1|now right|now right].
    - assert (Hnr : NoDup (nodes r)). { rewrite nodes_cons in Hn1. apply NoDup_cons_iff in Hn1 as [_ Hn1]. clear - Hn1. induction ys as [|y ys IH]; [exact Hn1|]. apply IH. now apply NoDup_cons_iff in Hn1. }
      destruct (make_member r x Hnr Hx1) as (h & zs & r2 & Ht2 & Hi & Ho).
      exists ((l, ys) :: (h, zs) :: r2). assert (Ht3 : turn w ((l, ys) :: (h, zs) :: r2)) by (eapply turn_trans; [exact Ht|now apply turn_cons]).
      split; [exact Ht3|]. split; [exists ys; now left|].
      assert (Hp : Permutation ((l, ys) :: (h, zs) :: r2) ((h, zs) :: (l, ys) :: r2)) by apply perm_swap.
      pose proof (Permutation_NoDup (turn_nodes _ _ Ht3) Hn) as Hn3.
      destruct (member_addable h zs ((l, ys) :: r2) x) as [H1 H2]; [apply (Permutation_NoDup (nodes_perm _ _ Hp) Hn3)|exact Hi|exact Ho|].
      split; [apply (Permutation_in _ (Permutation_sym (nodes_perm _ _ Hp)) H1)|].
      intros us Hu. apply H2. apply (Permutation_in _ Hp Hu). }
  assert (Hself : forall o x, added o = Some (x, x) -> In x (nodes w) -> exists w0, turn w w0 /\ fits w0 o).
  { intros o' x Ha Hx. destruct (Hdel x Hx) as (w0 & Ht & Had). exists w0. split; [exact Ht|]. right. now exists x. }
  destruct o as [l|l x|l x|p x|n x|l|l|x|l|l dec|l dec]; cbn [known] in Hk.
  - exists w. split; [apply turn_refl|]. now left.
  - destruct (Z.eq_dec x l) as [-> | Hne]; [apply (Hself _ l); [reflexivity|tauto]|].
    destruct (Hadd l x) as (w0 & Ht & Hh & Ha); [tauto|tauto|exact Hne|]. exists w0. split; [exact Ht|]. now left.
  - destruct (Z.eq_dec x l) as [-> | Hne]; [apply (Hself _ l); [reflexivity|tauto]|].
    destruct (Hadd l x) as (w0 & Ht & Hh & Ha); [tauto|tauto|exact Hne|]. exists w0. split; [exact Ht|]. now left.
  - destruct Hk as [Hp Hx]. destruct (Hdel x Hx) as (w0 & Ht & Ha). exists w0. split; [exact Ht|]. left. split; [|exact Ha].
    apply (Permutation_in _ (turn_nodes _ _ Ht) Hp).
  - destruct Hk as [Hp Hx]. destruct (Hdel x Hx) as (w0 & Ht & Ha). exists w0. split; [exact Ht|]. left. split; [|exact Ha].
    apply (Permutation_in _ (turn_nodes _ _ Ht) Hp).
  - destruct (Hhead l Hk) as (w0 & Ht & H). exists w0. split; [exact Ht|]. now left.
  - destruct (Hhead l Hk) as (w0 & Ht & H). exists w0. split; [exact Ht|]. now left.
  - destruct (Hdel x Hk) as (w0 & Ht & Ha). exists w0. split; [exact Ht|]. now left.
  - destruct (Hhead l Hk) as (w0 & Ht & H). exists w0. split; [exact Ht|]. now left.
  - destruct (Hhead l Hk) as (w0 & Ht & H). exists w0. split; [exact Ht|]. now left.
  - destruct (Hhead l Hk) as (w0 & Ht & H). exists w0. split; [exact Ht|]. now left.
Qed.

(** A node added to itself is only taken out of its list. *)
Lemma self_step pl m w x : holds m w -> addable w x -> x = place_node pl ->
  exists m' w', place_fn pl m x = Ok m' /\ unlinked x w w' /\ holds m' w'.
Proof.
  intros Hh Hadd Hx.
  destruct (del_ok m w x Hh Hadd) as (m1 & r1 & Hd & Hu & Hh1 & Hf1 & Hnp).
  assert (E : m1 x = Some (x, x)).
  { apply holds_cons in Hh1 as (Hc & _). apply NP_some; [apply (cyc_head _ _ _ Hc)|apply (cyc_last _ _ _ Hc)]. }
  assert (Hfn : exists m', place_fn pl m x = Ok m' /\ meq m' m1).
  { destruct pl as [h|h|p|n]; cbn [place_fn place_node] in *; subst;
      unfold list_add_head, list_add_tail, list_add_after, list_add_before; rewrite Hd; cbn [bind];
      unfold nxt, prv, set_next, set_prev, upd, or_ub; repeat (rewrite ?E, ?Z.eqb_refl; cbn [option_map fst snd bind]);
      (eexists; split; [reflexivity|]); intro q; destruct (Z.eqb_spec q h) || destruct (Z.eqb_spec q p) || destruct (Z.eqb_spec q n); subst; congruence. }
  destruct Hfn as (m' & Hfn & Hm). exists m', ((x, []) :: r1). split; [exact Hfn|]. split; [exact Hu|].
  apply (holds_agree m1); auto.
Qed.
Lemma step_fits m w o : holds m w -> fits w o ->
  exists m' ret w', ideal w o w' ret /\ holds m' w' /\
    (forall fuel, (length (nodes w) < fuel)%nat -> list_step fuel m o = Ok (m', ret)).
Proof.
  intros Hh [Ha|(x & Ho & Ha)]; [now apply step_ok|].
  assert (G : forall pl, o = place_op pl x -> x = place_node pl -> exists m' w', place_fn pl m x = Ok m' /\ unlinked x w w' /\ holds m' w')
    by (intros pl _ E; now apply self_step).
  destruct o as [l|l y|l y|p y|n y|l|l|y|l|l dec|l dec]; try discriminate; injection Ho as -> ->; cbn [list_step ideal]; rewrite Z.eqb_refl.
  - destruct (G (PHead x)) as (m' & w' & H1 & H2 & H3); [reflexivity|reflexivity|]. cbn [place_fn] in H1. rewrite H1. exists m', [], w'. cbn [bind]. eauto 6.
  - destruct (G (PTail x)) as (m' & w' & H1 & H2 & H3); [reflexivity|reflexivity|]. cbn [place_fn] in H1. rewrite H1. exists m', [], w'. cbn [bind]. eauto 6.
  - destruct (G (PAfter x)) as (m' & w' & H1 & H2 & H3); [reflexivity|reflexivity|]. cbn [place_fn] in H1. rewrite H1. exists m', [], w'. cbn [bind]. eauto 6.
  - destruct (G (PBefore x)) as (m' & w' & H1 & H2 & H3); [reflexivity|reflexivity|]. cbn [place_fn] in H1. rewrite H1. exists m', [], w'. cbn [bind]. eauto 6.
Qed.
Lemma rings_ok ops : forall m w, holds m w -> obeys_rings m w ops.
Proof.
  induction ops as [|o ops IH]; intros m w Hh; (split; [intros w0 Ht; apply holds_shows; now apply (turn_holds w)|]); [exact I|].
  intro Hk. pose proof (fits_exists w o (proj1 Hh) Hk) as F. split; [exact F|].
  destruct F as (w1 & Ht1 & Hf1). destruct (step_fits m w1 o (turn_holds _ _ Ht1 m Hh) Hf1) as (m' & ret & w1' & Hi1 & Hh1 & Hs1).
  assert (L : forall w0, turn w w0 -> length (nodes w0) = length (nodes w)) by (intros w0 Ht; symmetry; apply Permutation_length; now apply turn_nodes).
  exists m', ret. split; [intros fuel Hl; apply Hs1; rewrite L by exact Ht1; exact Hl|].
  intros w0 Ht Hf. destruct (step_fits m w0 o (turn_holds _ _ Ht m Hh) Hf) as (m2 & ret2 & w' & Hi & Hh' & Hs).
  specialize (Hs (Datatypes.S (length (nodes w)))). rewrite Hs1 in Hs by (rewrite L by exact Ht1; lia).
  rewrite L in Hs by exact Ht. assert (E : Ok (m', ret) = Ok (m2, ret2)) by (apply Hs; lia). injection E as -> ->.
  exists w'. split; [exact Hi|auto].
Qed.

(** C146: every history of calls on initialised nodes. *)
Theorem list_any_calls : forall ops : list lop, obeys_rings (fun _ => None) [] ops.
Proof. intro ops. apply rings_ok. split; constructor. Qed.
Print Assumptions list_any_calls.

(** The theorem applied: a list with its head deleted, two lists joined by adding one head to the other. *)
Example list_any_calls_ex :
  turn [(10, [1; 2; 3])] [(1, [2; 3; 10])] /\ fits [(1, [2; 3; 10])] (Del 10) /\ ~ allowed [(10, [1; 2; 3])] (Del 10) /\
  ideal [(1, [2; 3; 10])] (Del 10) [(10, []); (1, [2; 3])] [] /\
  known [(10, [1]); (20, [2])] (AddTail 10 20) /\ ~ allowed [(10, [1]); (20, [2])] (AddTail 10 20).
Proof.
  split; [apply (turn_head 10 [] 1 [2; 3] [])|]. split.
  { left. split; [cbn; tauto|]. intros ys [E|[]]. congruence. }
  split. { intros [_ H]. specialize (H [1; 2; 3] (or_introl eq_refl)). discriminate. }
  split. { split; [reflexivity|]. right. exists 1, [2; 3], [], []. split; reflexivity. }
  split; [cbn; tauto|]. intros [_ [_ H]]. specialize (H [2] (or_intror (or_introl eq_refl))). discriminate.
Qed.

(** Deleting the head of a list empties the list, but its elements stay chained: the first becomes the head of the others. *)
Theorem list_del_head : forall m w l x ys, reach m w -> In (l, x :: ys) w ->
  exists m', list_del m l = Ok m' /\ shows_list m' l [] /\ shows_list m' x ys.
Proof.
  intros m w l x ys Hr Hi. apply reach_holds in Hr. apply in_perm in Hi as (r & Hp). apply (holds_perm _ _ _ Hp) in Hr.
  apply (turn_holds _ _ (turn_head l [] x ys r)) in Hr.
  destruct (del_member m x ys l [] r) as (m' & Hd & Hh & _); [exact Hr|]. rewrite app_nil_r in Hh.
  exists m'. split; [exact Hd|]. pose proof (holds_shows _ _ Hh) as [_ Hs]. split; apply Hs; [now left|right; now left].
Qed.
Print Assumptions list_del_head.
(** "Adding a list to another one adds its elements": only its head is added; the elements are in no list any more. *)
Theorem list_join_refuted : forall m w l zs x y ys, reach m w -> In (l, zs) w -> In (x, y :: ys) w -> l <> x ->
  exists m', list_add_tail m l x = Ok m' /\ shows_list m' l (zs ++ [x]) /\ shows_list m' y ys.
Proof.
  intros m w l zs x y ys Hr Hl Hx Hne. apply reach_holds in Hr. apply in_perm in Hx as (r & Hp). pose proof (Permutation_in _ Hp Hl) as [E|Hl']; [congruence|].
  apply in_perm in Hl' as (r2 & Hp2). apply (holds_perm _ _ _ Hp) in Hr. apply (turn_holds _ _ (turn_head x [] y ys r)) in Hr.
  assert (Hp3 : Permutation ((y, ys ++ [x]) :: r) ((y, ys ++ [x]) :: (l, zs) :: r2)) by now constructor.
  apply (holds_perm _ _ _ Hp3) in Hr. set (w3 := (y, ys ++ [x]) :: (l, zs) :: r2) in *.
  assert (Hxin : In x (y :: ys ++ [x])) by (right; apply in_or_app; right; now left).
  assert (Ha : allowed w3 (AddTail l x)).
  { split; [exists zs; right; now left|]. apply member_addable; [exact (proj1 Hr)|exact Hxin|right; apply in_or_app; right; now left]. }
  destruct (step_ok m w3 (AddTail l x) Hr Ha) as (m' & ret & w' & (Hret & w1 & Hu & Hi) & Hh & Hs).
  specialize (Hs (Datatypes.S (length (nodes w3)))). cbn [list_step] in Hs. destruct (list_add_tail m l x) as [m2| |] eqn:E2; cbn [bind] in Hs; try (specialize (Hs ltac:(lia)); discriminate).
  assert (E : m2 = m') by (specialize (Hs ltac:(lia)); congruence). subst m2.
  exists m'. split; [reflexivity|].
  replace (x =? l) with false in Hi by lia.
  assert (Hn3 : NoDup (nodes w3)) by exact (proj1 Hr).
  assert (Hu2 : unlinked x w3 ((x, []) :: (y, ys) :: (l, zs) :: r2)) by (right; exists y, ys, [], ((l, zs) :: r2); split; [reflexivity|now rewrite app_nil_r]).
  pose proof (unlinked_det x w3 _ _ Hn3 Hu Hu2) as Hp4.
  destruct Hi as (h & us & us' & r3 & Hp5 & -> & (-> & ->)).
  assert (Hn1 : NoDup (nodes w1)) by (apply (Permutation_NoDup (unlinked_nodes _ _ _ Hu) Hn3)).
  assert (I1 : In (l, us) w1) by (apply (Permutation_in _ (Permutation_sym Hp5)); right; now left).
  assert (I2 : In (l, zs) w1) by (apply (Permutation_in _ (Permutation_sym Hp4)); right; right; now left).
  assert (E : (l, us) = (l, zs)) by (apply (nodup_entry w1 _ _ _ _ l Hn1 I1 I2); now left). injection E as ->.
  assert (I3 : In (y, ys) w1) by (apply (Permutation_in _ (Permutation_sym Hp4)); right; now left).
  apply (Permutation_in _ Hp5) in I3.
  pose proof (holds_shows _ _ Hh) as [_ Hsh]. split; [apply Hsh; now left|]. apply Hsh.
  assert (Hyx : y <> x).
  { intro. subst y. unfold w3 in Hn3. rewrite nodes_cons in Hn3. apply NoDup_cons_iff in Hn3 as [Hn3 _]. apply Hn3. apply in_or_app. left. apply in_or_app. right. now left. }
  assert (Hyl : y <> l).
  { intro. subst y. apply (disjoint_nodes l (ys ++ [x]) ((l, zs) :: r2) l Hn3); [now left|]. now left. }
  destruct I3 as [E|[E|I3]]; [congruence|congruence|now right].
Qed.
Print Assumptions list_join_refuted.
Example list_heads_ex : exists m, foldM (fun m o => let* (m', _) := list_step 100 m o in Ok m') (fun _ => None)
    [Init 10; Init 20; Init 1; Init 2; Init 3; AddTail 10 1; AddTail 20 2; AddTail 20 3; AddTail 10 20] = Ok m /\
  list_foreach 100 m 10 (fun s x => (s ++ [x], false)) [] = Ok [1; 20] /\ list_foreach 100 m 2 (fun s x => (s ++ [x], false)) [] = Ok [3] /\
  (let* m := list_del m 10 in list_foreach 100 m 1 (fun s x => (s ++ [x], false)) []) = Ok [20].
Proof. eexists. split; [reflexivity|]. vm_example. Qed.

(** The loop never ends if it starts at a node from which following [next] never meets [l]. *)
Lemma loop_forever m l (T : node -> Prop) {S} (b : S -> node -> S * bool) : (forall s x, snd (b s x) = false) ->
  (forall x, T x -> x <> l /\ exists y, nxt m x = Ok y /\ T y) ->
  forall fuel e s, T e -> foreach_loop nxt fuel m l e b s = Fuel.
Proof.
  intros Hb HT. induction fuel as [|f IH]; intros e s He; [reflexivity|]. cbn [foreach_loop].
  destruct (HT e He) as (Hne & y & Hy & Ty). replace (e =? l) with false by lia.
  specialize (Hb s e). destruct (b s e) as [s' brk]. cbn [snd] in Hb. subst brk. rewrite Hy. cbn [bind]. now apply IH.
Qed.

(** "A struct sc_list can be copied": a loop over the copy never ends, for an empty list too. *)
Theorem list_assign_refuted : forall m w l ys d S (b : S -> node -> S * bool) s fuel, reach m w -> In (l, ys) w -> ~ In d (nodes w) ->
  (forall s x, snd (b s x) = false) ->
  exists m', list_assign m d l = Ok m' /\ list_is_empty m' d = Ok false /\ list_foreach fuel m' d b s = Fuel.
Proof.
  intros m w l ys d S b s fuel Hr Hi Hd Hb. apply reach_holds in Hr. destruct (holds_in _ _ _ _ Hr Hi) as [Hn Hc].
  assert (Hin : forall q, In q (l :: ys) -> In q (nodes w)) by (intros q Hq; apply in_nodes; exists l, ys; auto).
  destruct (holds_def_nxt m w l Hr) as (n & p & H1 & H2); [apply Hin; now left|]. unfold list_assign. rewrite H1, H2. cbn [bind].
  eexists. split; [reflexivity|].
  set (T := fun q => In q (l :: ys)).
  assert (Hstep : forall x, T x -> exists y, nxt m x = Ok y /\ T y).
  { intros x Hx. apply in_split in Hx as (a & c & E). unfold T. rewrite E in *. apply (cyc_rot m a (x :: c)) in Hc.
    cbn [app] in Hc. pose proof (cyc_head _ _ _ Hc) as Hh. exists (hd x (c ++ a)). split; [now apply nxt_N|].
    destruct c as [|y c]; [destruct a as [|y a]; [now left|now left]|]. cbn [app hd]. apply in_or_app. right. right. now left. }
  destruct (Hstep l) as (n' & H1' & Tn); [now left|]. assert (n' = n) by congruence. subst n'.
  assert (Hnd : n <> d) by (intros ->; now apply Hd, Hin).
  assert (Hx : nxt (upd m d (Some (n, p))) d = Ok n) by (unfold nxt, upd; now rewrite Z.eqb_refl).
  unfold list_is_empty, list_foreach. rewrite Hx. cbn [bind]. replace (n =? d) with false by lia. split; [reflexivity|].
  apply (loop_forever _ d T b Hb); [|exact Tn]. intros x Tx. assert (x <> d) by (intros ->; now apply Hd, Hin). split; [assumption|].
  destruct (Hstep x Tx) as (y & Hy & Ty). exists y. split; [|exact Ty]. unfold nxt, upd in *. now replace (x =? d) with false by lia.
Qed.
Print Assumptions list_assign_refuted.
(** "Any node may be initialised again": the loop over the list of a member never ends. *)
Theorem list_reinit_refuted : forall m w l a x c S (b : S -> node -> S * bool) s fuel, reach m w -> In (l, a ++ x :: c) w ->
  (forall s x, snd (b s x) = false) -> list_foreach fuel (list_init m x) l b s = Fuel.
Proof.
  intros m w l a x c S b s fuel Hr Hi Hb. apply reach_holds in Hr. destruct (holds_in _ _ _ _ Hr Hi) as [Hn Hc].
  apply NoDup_cons_iff in Hn as [Hl Hn]. assert (Hxl : x <> l) by (intros ->; apply Hl, in_or_app; right; now left).
  assert (Hxa : ~ In x a) by (intro; apply NoDup_remove_2 in Hn; apply Hn, in_or_app; now left).
  assert (Hla : ~ In l a) by (intro; apply Hl, in_or_app; now left).
  assert (Hnx : forall pre q y post, l :: a ++ x :: c = pre ++ q :: y :: post -> nxt m q = Ok y).
  { intros pre q y post E. rewrite E in Hc. apply (cyc_rot m pre (q :: y :: post)) in Hc. apply nxt_N. exact (cyc_head _ _ _ Hc). }
  assert (Hown : nxt (list_init m x) x = Ok x) by (unfold nxt, list_init, upd; now rewrite Z.eqb_refl).
  assert (Hoth : forall q, q <> x -> nxt (list_init m x) q = nxt m q) by (intros q Hq; unfold nxt, list_init, upd; now replace (q =? x) with false by lia).
  set (T := fun q => In q a \/ q = x).
  assert (HT : forall q, T q -> q <> l /\ exists y, nxt (list_init m x) q = Ok y /\ T y).
  { intros q [Hq| -> ]; [|split; [exact Hxl|exists x; split; [exact Hown|now right]]].
    split; [intros ->; contradiction|]. assert (q <> x) by (intros ->; contradiction). rewrite Hoth by assumption.
    apply in_split in Hq as (a1 & a2 & E). destruct a2 as [|y a2].
    - exists x. split; [|now right]. apply (Hnx (l :: a1) q x c). rewrite E, <- app_assoc. reflexivity.
    - exists y. split; [|left; rewrite E; apply in_or_app; right; right; now left]. apply (Hnx (l :: a1) q y (a2 ++ x :: c)). rewrite E, <- app_assoc. reflexivity. }
  unfold list_foreach. rewrite Hoth by congruence. destruct a as [|y a].
  - rewrite (Hnx [] l x c) by reflexivity. cbn [bind]. apply (loop_forever _ l T b Hb HT). now right.
  - rewrite (Hnx [] l y (a ++ x :: c)) by reflexivity. cbn [bind]. apply (loop_forever _ l T b Hb HT). left. now left.
Qed.
Print Assumptions list_reinit_refuted.
Example list_copies_ex : exists m, foldM (fun m o => let* (m', _) := list_step 100 m o in Ok m') (fun _ => None)
    [Init 10; Init 20; Init 1; Init 2; AddTail 10 1; AddTail 10 2] = Ok m /\
  (let* m := list_assign m 30 20 in list_count 1000 m 30) = Fuel /\ (let* m := list_assign m 30 10 in list_count 1000 m 30) = Fuel /\
  list_count 1000 (list_init m 2) 10 = Fuel /\ list_count 1000 m 10 = Ok 2.
Proof. eexists. split; [reflexivity|]. vm_example. Qed.
