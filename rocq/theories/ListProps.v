(** Properties C12-C14: sc_list. *)
From Verif Require Import Base ListModel ListSpec ListProofs.

(** C12. *)
Theorem list_refines_sequences : forall ops : list lop, obeys (fun _ => None) [] ops.
Proof. intro ops. apply history_ok. split; constructor. Qed.
Print Assumptions list_refines_sequences.

(** The ideal outcome of a call is unique (up to the order in which the lists
    of the world are enumerated), so [obeys] pins the observations down. *)
Theorem list_ideal_unique :
  forall w o w1 w2 r1 r2, NoDup (nodes w) ->
    ideal w o w1 r1 -> ideal w o w2 r2 -> r1 = r2 /\ Permutation w1 w2.
Proof. exact ideal_det. Qed.
Print Assumptions list_ideal_unique.

Definition lrun (ops : list lop) : res mem :=
  foldM (fun m o => let* (m', _) := list_step 100 m o in Ok m') (fun _ => None) ops.

(** Two lists (10 and 20); nodes are moved between them and popped. *)
Example list_history_example :
  exists m, lrun [Init 10; Init 20; Init 1; Init 2; Init 3; Init 4;
                  AddTail 10 1; AddTail 10 2; AddHead 10 3; AddTail 20 4;
                  AddAfter 4 2; AddBefore 1 4; PopHead 10] = Ok m /\
    (let* xs := list_foreach 100 m 10 (fun s x => (s ++ [x], false)) [] in Ok xs) = Ok [4; 1] /\
    (let* xs := list_foreach_r 100 m 10 (fun s x => (s ++ [x], false)) [] in Ok xs) = Ok [1; 4] /\
    list_count 100 m 20 = Ok 1 /\ list_head m 20 = Ok (Some 2) /\ list_is_empty m 3 = Ok true.
Proof. eexists. split; [reflexivity|]. vm_example. Qed.

(** The hypotheses of [obeys] are met along that history. *)
Example list_allowed_example :
  allowed [(10, [3; 1; 2]); (20, [4])] (AddAfter 4 2) /\
  ideal [(10, [3; 1; 2]); (20, [4])] (AddAfter 4 2) [(20, [4; 2]); (10, [3; 1])] [].
Proof.
  split.
  - repeat split; cbn; try tauto; try lia.
    intros ys [H|[H|[]]]; congruence.
  - split; [reflexivity|]. exists [(2, []); (10, [3; 1]); (20, [4])]. split.
    + right. exists 10, [3; 1], [], [(20, [4])]. split; reflexivity.
    + exists 20, [4], [4; 2], [(10, [3; 1])]. split; [constructor; apply perm_swap|].
      split; [reflexivity|]. right. exists [], []. split; reflexivity.
Qed.

(** ** C13 *)
Lemma without_notin x zs : ~ In x zs -> without x zs = zs.
Proof.
  induction zs as [|z zs IH]; intro H; [reflexivity|]. cbn.
  destruct (Z.eqb_spec z x); [subst; elim H; now left|]. cbn. f_equal. apply IH. intro. apply H. now right.
Qed.
Lemma without_split x a b : NoDup (a ++ x :: b) -> without x (a ++ x :: b) = a ++ b.
Proof.
  intro H. replace (without x (a ++ x :: b)) with (without x a ++ without x b)
    by (unfold without; rewrite filter_app; cbn; now rewrite Z.eqb_refl).
  apply NoDup_remove_2 in H. rewrite in_app_iff in H.
  rewrite !without_notin by tauto. reflexivity.
Qed.

Lemma unlinked_in x w w1 l zs : NoDup (nodes w) -> unlinked x w w1 -> In (l, zs) w -> l <> x ->
  In (l, without x zs) w1.
Proof.
  intros Hnd Hu Hi Hne.
  assert (Hother : In x (nodes w) -> ~ In x (l :: zs) -> In (l, zs) w1 -> In (l, without x zs) w1).
  { intros _ Hn H. rewrite without_notin; [exact H|]. intro. apply Hn. now right. }
  destruct Hu as [(r & Hp & ->)|(l' & a & b & r & Hp & ->)].
  - assert (Hx : ~ In x zs).
    { intro Hx. assert ((x, []) = (l, zs)); [|congruence].
      apply (nodup_entry w _ _ _ _ x Hnd); [|exact Hi|now left|now right].
      apply (Permutation_in _ (Permutation_sym Hp)). now left. }
    rewrite without_notin by exact Hx.
    apply (Permutation_in _ Hp Hi).
  - assert (Hx : In (l', a ++ x :: b) w) by (apply (Permutation_in _ (Permutation_sym Hp)); now left).
    destruct (in_dec Z.eq_dec x zs) as [Hxi|Hxn].
    + assert (He : (l', a ++ x :: b) = (l, zs)).
      { apply (nodup_entry w _ _ _ _ x Hnd Hx Hi); [|now right].
        right. apply in_or_app. right. now left. }
      injection He as -> <-. rewrite without_split; [right; now left|].
      apply nodup_list in Hx; [|exact Hnd]. now apply NoDup_cons_iff in Hx.
    + rewrite without_notin by exact Hxn.
      apply (Permutation_in _ Hp) in Hi as [He|Hi]; [|right; now right].
      injection He as -> <-. elim Hxn. apply in_or_app. right. now left.
Qed.

Lemma flat_notin (p : node) (f : node -> list node) zs : ~ In p zs ->
  flat_map (fun y => if y =? p then f y else [y]) zs = zs.
Proof.
  induction zs as [|z zs IH]; intro H; [reflexivity|]. cbn.
  destruct (Z.eqb_spec z p); [subst; elim H; now left|]. cbn. f_equal. apply IH. intro. apply H. now right.
Qed.
Lemma flat_split (p : node) (f : node -> list node) a b : NoDup (a ++ p :: b) ->
  flat_map (fun y => if y =? p then f y else [y]) (a ++ p :: b) = a ++ f p ++ b.
Proof.
  intro H. rewrite flat_map_app. cbn. rewrite Z.eqb_refl.
  apply NoDup_remove_2 in H. rewrite in_app_iff in H. rewrite !flat_notin by tauto. reflexivity.
Qed.

Lemma place_put pl x l ys ys' : NoDup (l :: ys) -> place_how pl x l ys ys' ->
  ys' = put_in (place_op pl x) l ys.
Proof.
  intros Hnd H. apply NoDup_cons_iff in Hnd as [Hl Hnd].
  destruct pl as [h|h|p|p]; cbn [place_how place_op put_in] in *.
  - tauto.
  - tauto.
  - destruct H as [[-> ->]|(a & b & -> & ->)]; [now rewrite Z.eqb_refl|].
    destruct (Z.eqb_spec l p) as [->|]; [elim Hl; apply in_or_app; right; now left|].
    rewrite (flat_split p (fun y => [y; x])) by exact Hnd. reflexivity.
  - destruct H as [[-> ->]|(a & b & -> & ->)]; [now rewrite Z.eqb_refl|].
    destruct (Z.eqb_spec l p) as [->|]; [elim Hl; apply in_or_app; right; now left|].
    rewrite (flat_split p (fun y => [x; y])) by exact Hnd. reflexivity.
Qed.

Lemma place_in pl x h ys ys' : place_how pl x h ys ys' -> In (place_node pl) (h :: ys).
Proof.
  destruct pl as [l|l|p|p]; cbn [place_how place_node].
  - intros [-> _]. now left.
  - intros [-> _]. now left.
  - intros [[-> _]|(a & b & -> & _)]; [now left|right; apply in_or_app; right; now left].
  - intros [[-> _]|(a & b & -> & _)]; [now left|right; apply in_or_app; right; now left].
Qed.

Lemma inserted_in pl x w1 w' l zs : NoDup (nodes w1) -> inserted x w1 w' (place_how pl x) ->
  In (l, zs) w1 -> l <> x ->
  (~ In (place_node pl) (l :: zs) -> In (l, zs) w') /\
  (In (place_node pl) (l :: zs) -> In (l, put_in (place_op pl x) l zs) w').
Proof.
  intros Hnd (h & ys & ys' & r & Hp & -> & Hhow) Hi Hne.
  pose proof (place_in _ _ _ _ _ Hhow) as Hin.
  assert (Hh : In (h, ys) w1) by (apply (Permutation_in _ (Permutation_sym Hp)); right; now left).
  split; intro Ht.
  - apply (Permutation_in _ Hp) in Hi as [He|[He|Hi]]; [congruence| |now right].
    injection He as -> ->. contradiction.
  - assert (He : (h, ys) = (l, zs)) by (apply (nodup_entry w1 _ _ _ _ (place_node pl) Hnd Hh Hi Hin Ht)).
    injection He as -> ->. left. f_equal. symmetry. symmetry. apply place_put; [|exact Hhow].
    apply (nodup_list w1); auto.
Qed.

(** C13: adding [x] at the place named by node [t] takes [x] out of wherever it
    was, puts it into the list [t] belongs to, and leaves all others alone;
    deleting a node that is in no list leaves the whole heap as it was. *)
Theorem list_add_moves :
  forall m w o x t, reach m w -> allowed w o -> added o = Some (x, t) ->
    exists m', (forall fuel, list_step fuel m o = Ok (m', [])) /\
      forall l zs, In (l, zs) w -> l <> x ->
        shows_list m' l
          (if existsb (Z.eqb t) (l :: zs) then put_in o l (without x zs) else without x zs).
Proof.
  intros m w o x t Hr Hal Hadd. apply reach_holds in Hr.
  assert (Hpl : exists pl, o = place_op pl x /\ t = place_node pl).
  { destruct o; try discriminate; cbn in Hadd; injection Hadd as -> ->.
    - now exists (PHead t). - now exists (PTail t). - now exists (PAfter t). - now exists (PBefore t). }
  destruct Hpl as (pl & -> & ->).
  destruct (Z.eq_dec x (place_node pl)) as [Hself|Hself].
  { destruct (self_ok pl m w x Hr Hal Hself) as (m' & w' & H1 & H2 & H4). exists m'. split.
    { intro fuel. destruct pl; cbn in *; now rewrite H1. }
    intros l zs Hi Hne. destruct Hr as [Hnd _].
    pose proof (unlinked_in x w w' l zs Hnd H2 Hi Hne) as Hi1.
    apply (proj2 (holds_shows m' w' H4)).
    destruct (existsb (Z.eqb (place_node pl)) (l :: zs)) eqn:E; [|exact Hi1].
    rewrite <- Hself in E. apply existsb_exists in E as (q & Hq & Heq). apply Z.eqb_eq in Heq. subst q.
    assert (Hx : In x zs) by (destruct Hq; [congruence|auto]).
    assert (Hf : ~ In x (without x zs)).
    { intro H. apply filter_In in H as [_ H]. rewrite Z.eqb_refl in H. discriminate. }
    assert (Hlx : (l =? x) = false) by now apply Z.eqb_neq.
    destruct pl as [h|h|p|p]; cbn [place_node place_op put_in allowed] in *; subst.
    1,2: destruct Hal as [(ys & Hys) _];
      assert (Ep : (h, ys) = (l, zs)) by (apply (nodup_entry w _ _ _ _ h Hnd Hys Hi); [now left|now right]);
      congruence.
    - rewrite Hlx, (flat_notin p (fun y => [y; p])) by exact Hf. exact Hi1.
    - rewrite Hlx, (flat_notin p (fun y => [p; y])) by exact Hf. exact Hi1. }
  destruct (place_ok pl m w x Hr Hal Hself) as (m' & w1 & w' & H1 & H2 & H3 & H4 & _).
  exists m'. split.
  { intro fuel. destruct pl; cbn in *; now rewrite H1. }
  intros l zs Hi Hne.
  destruct Hr as [Hnd _].
  pose proof (unlinked_in x w w1 l zs Hnd H2 Hi Hne) as Hi1.
  assert (Hnd1 : NoDup (nodes w1)) by (apply (Permutation_NoDup (unlinked_nodes _ _ _ H2) Hnd)).
  destruct (inserted_in pl x w1 w' l _ Hnd1 H3 Hi1 Hne) as [Ha Hb].
  assert (Htx : place_node pl <> x) by congruence.
  assert (Hw : forall q, q <> x -> In q (l :: zs) -> In q (l :: without x zs)).
  { intros q Hq [->|Hz]; [now left|]. right. unfold without. apply filter_In. split; [exact Hz|].
    apply negb_true_iff. now apply Z.eqb_neq. }
  apply (proj2 (holds_shows m' w' H4)).
  destruct (existsb (Z.eqb (place_node pl)) (l :: zs)) eqn:E.
  - apply Hb. apply Hw; [exact Htx|]. apply existsb_exists in E as (q & Hq & Heq).
    apply Z.eqb_eq in Heq. now subst.
  - apply Ha. intro Hin.
    assert (In (place_node pl) (l :: zs)).
    { destruct Hin as [->|Hin]; [now left|]. apply filter_In in Hin. right. tauto. }
    assert (existsb (Z.eqb (place_node pl)) (l :: zs) = true); [|congruence].
    apply existsb_exists. exists (place_node pl). split; [auto|apply Z.eqb_refl].
Qed.
Print Assumptions list_add_moves.

Theorem list_del_unlinked_noop :
  forall m w x, reach m w -> In (x, []) w ->
    exists m', list_del m x = Ok m' /\ forall q, m' q = m q.
Proof.
  intros m w x Hr Hi. apply reach_holds in Hr.
  destruct (holds_in m w x [] Hr Hi) as [_ Hc]. exact (del_single m x Hc).
Qed.
Print Assumptions list_del_unlinked_noop.

(** A reachable world with two non-empty lists. *)
Lemma reach_run ops w m : forall m0 w0, reach m0 w0 ->
  (fix go m0 w0 (ops : list (lop * world * list node)) : Prop :=
     match ops with
     | [] => m0 = m /\ w0 = w
     | (o, w1, ret) :: rest => allowed w0 o /\ ideal w0 o w1 ret /\
         exists m1, list_step 100 m0 o = Ok (m1, ret) /\ go m1 w1 rest
     end) m0 w0 ops -> reach m w.
Proof.
  induction ops as [|[[o w1] ret] rest IH]; intros m0 w0 Hr.
  - intros [-> ->]. exact Hr.
  - intros (Ha & Hi & m1 & Hs & Hg). apply (IH m1 w1); [|exact Hg].
    exact (reach_step m0 w0 100 o m1 w1 ret Hr Ha Hs Hi).
Qed.

Example list_reach_example : exists m, reach m [(20, [1]); (10, [2])] /\
  allowed [(20, [1]); (10, [2])] (AddAfter 1 2).
Proof.
  eexists. split.
  - eapply (reach_run [(Init 1, [(1, [])], []); (Init 2, [(2, []); (1, [])], []);
             (Init 10, [(10, []); (2, []); (1, [])], []);
             (Init 20, [(20, []); (10, []); (2, []); (1, [])], []);
             (AddTail 10 2, [(10, [2]); (20, []); (1, [])], []);
             (AddHead 20 1, [(20, [1]); (10, [2])], [])] _ _ _ _ reach_nil).
    do 4 (split; [cbn; split; [lia|intuition lia]|]; split; [split; reflexivity|];
          eexists; split; [reflexivity|]).
    split.
    { split; [exists []; cbn; tauto|]. split; [cbn; tauto|].
      cbn. intros ys [H|[H|[H|[H|[]]]]]; inversion H; subst; reflexivity. }
    split.
    { split; [reflexivity|]. exists [(2, []); (20, []); (10, []); (1, [])]. split.
      - left. exists [(20, []); (10, []); (1, [])]. split; [|reflexivity].
        etransitivity; [apply perm_skip, perm_swap|]. apply perm_swap.
      - exists 10, [], [2], [(20, []); (1, [])]. split; [apply perm_skip, perm_swap|]. auto. }
    eexists; split; [reflexivity|].
    split.
    { split; [exists []; cbn; tauto|]. split; [cbn; tauto|].
      cbn. intros ys [H|[H|[H|[]]]]; inversion H; subst; reflexivity. }
    split.
    { split; [reflexivity|]. exists [(1, []); (10, [2]); (20, [])]. split.
      - left. exists [(10, [2]); (20, [])]. split; [|reflexivity].
        etransitivity; [apply perm_skip, perm_swap|]. apply perm_swap.
      - exists 20, [], [1], [(10, [2])]. split; [apply perm_skip, perm_swap|]. auto. }
    eexists; split; [reflexivity|]. split; reflexivity.
  - repeat split; cbn; try tauto; try lia. intros ys [H|[H|[]]]; congruence.
Qed.

(** Node 2 added after itself leaves its list, which keeps the others. *)
Example list_add_self_example :
  exists m, lrun [Init 10; Init 1; Init 2; Init 3; AddTail 10 1; AddTail 10 2; AddTail 10 3; AddAfter 2 2] = Ok m /\
    list_foreach 100 m 10 (fun s x => (s ++ [x], false)) [] = Ok [1; 3] /\ list_is_empty m 2 = Ok true /\
    allowed [(10, [1; 2; 3])] (AddAfter 2 2) /\
    ideal [(10, [1; 2; 3])] (AddAfter 2 2) [(2, []); (10, [1; 3])] [].
Proof.
  eexists. split; [reflexivity|]. split; [reflexivity|]. split; [reflexivity|]. split.
  - repeat split; cbn; try tauto. intros ys [H|[]]; congruence.
  - split; [reflexivity|]. eexists. split; [|reflexivity]. right. exists 10, [1], [3], []. split; reflexivity.
Qed.

(** C14. *)
Theorem list_foreach_covers :
  forall m w l xs, reach m w -> In (l, xs) w ->
    (forall (S : Type) (body : S -> node -> S * bool) (s : S) fuel, (length xs < fuel)%nat ->
       list_foreach fuel m l body s = Ok (visit body s xs) /\
       list_foreach_r fuel m l body s = Ok (visit body s (rev xs))) /\
    (forall dec : node -> action,
       (exists m', (forall fuel, (length xs < fuel)%nat -> list_foreach_safe fuel m l dec = Ok (m', xs)) /\
          shows_list m' l (filter (fun x => match dec x with Keep => true | _ => false end) xs) /\
          (forall l' zs, In (l', zs) w -> l' <> l -> shows_list m' l' zs) /\
          (forall x, In x xs -> dec x = Delete -> shows_list m' x [])) /\
       (exists m', (forall fuel, (length xs < fuel)%nat -> list_foreach_safe_r fuel m l dec = Ok (m', rev xs)) /\
          shows_list m' l (filter (fun x => match dec x with Keep => true | _ => false end) xs) /\
          (forall l' zs, In (l', zs) w -> l' <> l -> shows_list m' l' zs) /\
          (forall x, In x xs -> dec x = Delete -> shows_list m' x []))).
Proof.
  intros m w l xs Hr Hi. apply reach_holds in Hr.
  destruct (holds_in m w l xs Hr Hi) as [Hnd Hc]. split.
  - intros S body s fuel Hf. now apply foreach_visits.
  - intro dec. destruct (in_perm _ _ Hi) as (r & Hp).
    pose proof (holds_perm _ _ _ Hp Hr) as Hh.
    assert (Hshow : forall m', holds m' ((l, kept dec xs) :: singles (loose dec xs) ++ r) ->
      shows_list m' l (kept dec xs) /\
      (forall l' zs, In (l', zs) w -> l' <> l -> shows_list m' l' zs) /\
      (forall x, In x xs -> dec x = Delete -> shows_list m' x [])).
    { intros m' Hh'. destruct (holds_shows _ _ Hh') as [_ Hs].
      split; [apply Hs; now left|]. split.
      - intros l' zs Hin Hne. apply Hs. right. apply in_or_app. right.
        apply (Permutation_in _ Hp) in Hin as [He|Hin]; [congruence|exact Hin].
      - intros x Hx Hd. apply Hs. right. apply in_or_app. left. unfold singles.
        apply in_map_iff. exists x. split; [reflexivity|]. apply filter_In. now rewrite Hd. }
    destruct (safe_ok m l xs r dec Hh) as [(m1 & A1 & A2 & _) (m2 & B1 & B2 & _)].
    split; [exists m1|exists m2]; (split; [assumption|]); now apply Hshow.
Qed.
Print Assumptions list_foreach_covers.

(** Deleting (and freeing) every other node while iterating backwards. *)
Example list_foreach_safe_example :
  exists m m', lrun (Init 10 :: flat_map (fun n => [Init n; AddTail 10 n]) [1; 2; 3; 4; 5]) = Ok m /\
    list_foreach_safe_r 100 m 10 (fun x => if Z.even x then DeleteFree else Keep) = Ok (m', [5; 4; 3; 2; 1]) /\
    list_foreach 100 m' 10 (fun s x => (s ++ [x], false)) [] = Ok [1; 3; 5] /\ m' 4 = None.
Proof. eexists. eexists. split; [reflexivity|]. split; [reflexivity|]. split; reflexivity. Qed.
