(** Property C136: the list loops with a body that calls the list functions. *)
From Verif Require Import Base ListModel ListSpec ListProofs ListLoopModel.

(** ** The contract *)
(** The sequence in the order of the loop: forwards ([d] = true) or backwards. *)
Definition order (d : bool) (xs : list node) : list node := if d then xs else rev xs.

(** Neighbour of [x] in list [l] of the world: in the order of the loop, [y] comes right after [x]; the head [l] itself comes
    before the first node and after the last. *)
Definition follows (d : bool) (w : world) (l x y : node) : Prop :=
  exists xs a b, In (l, xs) w /\ l :: order d xs = a ++ x :: b /\ y = hd l b.

(** The calls of a body carry world [w] to [w']: each of them is allowed when it is made. *)
Fixpoint does (w : world) (ops : list lop) (w' : world) : Prop :=
  match ops with
  | [] => w' = w
  | o :: ops => allowed w o /\ exists w1 ret, ideal w o w1 ret /\ does w1 ops w'
  end.

(** The plain loop on sequences: after the body, the loop goes on with the neighbour that the current node has THEN, so the
    current node must still be in the list. *)
Inductive plain_run (d : bool) (l : node) (body : lbody) : world -> list node -> node -> world -> list node -> Prop :=
| pr_end w seen : plain_run d l body w seen l w []
| pr_break w seen e w' :
    e <> l -> snd (body seen e) = true -> does w (fst (body seen e)) w' -> plain_run d l body w seen e w' [e]
| pr_next w seen e w1 y w' vs :
    e <> l -> snd (body seen e) = false -> does w (fst (body seen e)) w1 -> follows d w1 l e y ->
    plain_run d l body w1 (seen ++ [e]) y w' vs -> plain_run d l body w seen e w' (e :: vs).

(** The safe loop: it goes on with the neighbour [n] that the current node had BEFORE the body, so [n] must still be in the
    list. *)
Inductive stored_run (d : bool) (l : node) (body : lbody) : world -> list node -> node -> node -> world -> list node -> Prop :=
| sr_end w seen n : stored_run d l body w seen l n w []
| sr_break w seen e n w' :
    e <> l -> snd (body seen e) = true -> does w (fst (body seen e)) w' -> stored_run d l body w seen e n w' [e]
| sr_next w seen e n w1 y w' vs :
    e <> l -> snd (body seen e) = false -> does w (fst (body seen e)) w1 -> follows d w1 l n y ->
    stored_run d l body w1 (seen ++ [e]) n y w' vs -> stored_run d l body w seen e n w' (e :: vs).

(** The nodes up to and including the first one at which the body breaks. *)
Fixpoint until_break (body : lbody) (seen rest : list node) : list node :=
  match rest with
  | [] => []
  | x :: r => x :: (if snd (body seen x) then [] else until_break body (seen ++ [x]) r)
  end.

(** A body keeps the nodes still to come: [I seen w rest] is an invariant of the user's choice for the moment before the
    body runs for the first of [rest].  The calls are allowed; afterwards the rest is still the end of the list, in the
    same order, behind whatever the body left or put there; for the plain loop the current node is right in front of it. *)
Definition keeps_rest (plain d : bool) (l : node) (body : lbody) (I : list node -> world -> list node -> Prop) : Prop :=
  forall seen w e rest, I seen w (e :: rest) ->
    exists w' xs pre, does w (fst (body seen e)) w' /\
      (snd (body seen e) = false ->
        In (l, xs) w' /\ order d xs = pre ++ (if plain then e :: rest else rest) /\ I (seen ++ [e]) w' rest).

(** ** Proofs *)
Lemma order_step d m w l x y : holds m w -> follows d w l x y -> l_step d m x = Ok y.
Proof.
  intros Hh (xs & a & b & Hi & He & ->). destruct (holds_in m w l xs Hh Hi) as [Hnd Hc].
  destruct (cyc_parts m l xs Hc) as (H1 & H2 & H3 & H4).
  destruct d; cbn [order l_step] in *.
  - destruct a as [|a0 a]; cbn [app] in He; injection He as <- ->.
    + apply nxt_N. rewrite H1. now destruct b.
    + apply nxt_N. rewrite <- app_assoc in H2. cbn [app] in H2.
      destruct b; cbn [app] in H2; rewrite links_app, links_cons2 in H2; cbn [hd]; tauto.
  - assert (Hx : xs = rev (order false xs)) by (cbn; now rewrite rev_involutive). cbn [order] in Hx.
    destruct a as [|a0 a]; cbn [app] in He; injection He as <- Hr.
    + apply prv_P. rewrite H3. rewrite Hx, Hr. clear. destruct b as [|y b]; [reflexivity|].
      cbn [rev]. rewrite app_assoc, last_last. reflexivity.
    + apply prv_P. rewrite Hr, rev_app_distr in Hx. cbn [rev] in Hx. rewrite <- app_assoc in Hx. cbn [app] in Hx.
      rewrite Hx in H4. clear - H4. destruct b as [|y b].
      * cbn [rev app hd] in *. rewrite links_cons2 in H4. tauto.
      * cbn [rev hd] in *. replace ([l] ++ (rev b ++ [y]) ++ x :: rev a) with (([l] ++ rev b) ++ y :: x :: rev a) in H4
          by (cbn [app]; now rewrite <- app_assoc).
        rewrite links_app, links_cons2 in H4. tauto.
Qed.

Lemma calls_ok : forall ops m w w', reach m w -> does w ops w' ->
  exists m' n, reach m' w' /\ forall f, (n <= f)%nat -> l_calls f m ops = Ok m'.
Proof.
  induction ops as [|o ops IH]; intros m w w' Hr Hd.
  - cbn in Hd. subst w'. exists m, O. split; [exact Hr|]. reflexivity.
  - destruct Hd as (Hal & w1 & ret & Hi & Hd).
    destruct (step_ok m w o (reach_holds _ _ Hr) Hal) as (m1 & ret1 & w2 & Hi2 & _ & Hs).
    destruct (ideal_det _ _ _ _ _ _ (proj1 (reach_holds _ _ Hr)) Hi Hi2) as [<- _].
    assert (Hr1 : reach m1 w1).
    { apply (reach_step m w (S (length (nodes w))) o m1 w1 ret Hr Hal); [apply Hs; lia|exact Hi]. }
    destruct (IH _ _ _ Hr1 Hd) as (m' & n & Hr' & Hrun).
    exists m', (Nat.max n (S (length (nodes w)))). split; [exact Hr'|]. intros f Hf.
    unfold l_calls. cbn [foldM]. rewrite Hs by lia. cbn [bind]. apply Hrun. lia.
Qed.

Lemma plain_ok d l body : forall w seen e w' vs, plain_run d l body w seen e w' vs ->
  forall m, reach m w ->
  exists m' n, reach m' w' /\ forall f fuel, (n <= f)%nat -> (n <= fuel)%nat ->
    plain_loop d f fuel m l e body seen = Ok (m', vs).
Proof.
  induction 1 as [w seen|w seen e w' Hne Hb Hd|w seen e w1 y w' vs Hne Hb Hd Hfo Hrun IH]; intros m Hr.
  - exists m, 1%nat. split; [exact Hr|]. intros f [|fuel] _ Hf; [lia|]. cbn. now rewrite Z.eqb_refl.
  - destruct (calls_ok _ _ _ _ Hr Hd) as (m' & n & Hr' & Hc).
    exists m', (S n). split; [exact Hr'|]. intros f [|fuel] Hf1 Hf2; [lia|]. cbn [plain_loop].
    rewrite (proj2 (Z.eqb_neq e l) Hne), Hc by lia. cbn [bind]. now rewrite Hb.
  - destruct (calls_ok _ _ _ _ Hr Hd) as (m1 & n & Hr1 & Hc).
    destruct (IH m1 Hr1) as (m' & n2 & Hr' & Hl).
    exists m', (S (Nat.max n n2)). split; [exact Hr'|]. intros f [|fuel] Hf1 Hf2; [lia|]. cbn [plain_loop].
    rewrite (proj2 (Z.eqb_neq e l) Hne), Hc by lia. cbn [bind]. rewrite Hb.
    rewrite (order_step d m1 w1 l e y (reach_holds _ _ Hr1) Hfo). cbn [bind]. rewrite Hl by lia. reflexivity.
Qed.

Lemma stored_ok d l body : forall w seen e n w' vs, stored_run d l body w seen e n w' vs ->
  forall m, reach m w ->
  exists m' k, reach m' w' /\ forall f fuel, (k <= f)%nat -> (k <= fuel)%nat ->
    stored_loop d f fuel m l e n body seen = Ok (m', vs).
Proof.
  induction 1 as [w seen n|w seen e n w' Hne Hb Hd|w seen e n w1 y w' vs Hne Hb Hd Hfo Hrun IH]; intros m Hr.
  - exists m, 1%nat. split; [exact Hr|]. intros f [|fuel] _ Hf; [lia|]. cbn. now rewrite Z.eqb_refl.
  - destruct (calls_ok _ _ _ _ Hr Hd) as (m' & k & Hr' & Hc).
    exists m', (S k). split; [exact Hr'|]. intros f [|fuel] Hf1 Hf2; [lia|]. cbn [stored_loop].
    rewrite (proj2 (Z.eqb_neq e l) Hne), Hc by lia. cbn [bind]. now rewrite Hb.
  - destruct (calls_ok _ _ _ _ Hr Hd) as (m1 & k & Hr1 & Hc).
    destruct (IH m1 Hr1) as (m' & k2 & Hr' & Hl).
    exists m', (S (Nat.max k k2)). split; [exact Hr'|]. intros f [|fuel] Hf1 Hf2; [lia|]. cbn [stored_loop].
    rewrite (proj2 (Z.eqb_neq e l) Hne), Hc by lia. cbn [bind]. rewrite Hb.
    rewrite (order_step d m1 w1 l n y (reach_holds _ _ Hr1) Hfo). cbn [bind]. rewrite Hl by lia. reflexivity.
Qed.

(** Both loops follow the sequences. *)
Theorem list_loop_follows :
  forall d l body m w w' vs, reach m w ->
    (forall e, follows d w l l e -> plain_run d l body w [] e w' vs ->
      exists m' k, reach m' w' /\ shows m' w' /\
        forall f fuel, (k <= f)%nat -> (k <= fuel)%nat -> list_plain_loop d f fuel m l body = Ok (m', vs)) /\
    (forall e n, follows d w l l e -> follows d w l e n -> stored_run d l body w [] e n w' vs ->
      exists m' k, reach m' w' /\ shows m' w' /\
        forall f fuel, (k <= f)%nat -> (k <= fuel)%nat -> list_stored_loop d f fuel m l body = Ok (m', vs)).
Proof.
  intros d l body m w w' vs Hr. pose proof (reach_holds _ _ Hr) as Hh. split.
  - intros e He Hrun. destruct (plain_ok _ _ _ _ _ _ _ _ Hrun m Hr) as (m' & k & Hr' & Hl).
    exists m', k. split; [exact Hr'|]. split; [apply holds_shows, reach_holds, Hr'|]. intros f fuel H1 H2.
    unfold list_plain_loop. rewrite (order_step _ _ _ _ _ _ Hh He). cbn [bind]. now apply Hl.
  - intros e n He Hn Hrun. destruct (stored_ok _ _ _ _ _ _ _ _ _ Hrun m Hr) as (m' & k & Hr' & Hl).
    exists m', k. split; [exact Hr'|]. split; [apply holds_shows, reach_holds, Hr'|]. intros f fuel H1 H2.
    unfold list_stored_loop. rewrite (order_step _ _ _ _ _ _ Hh He). cbn [bind].
    rewrite (order_step _ _ _ _ _ _ Hh Hn). cbn [bind]. now apply Hl.
Qed.
Print Assumptions list_loop_follows.

Lemma follows_first d w l xs : In (l, xs) w -> follows d w l l (hd l (order d xs)).
Proof. intro Hi. exists xs, [], (order d xs). auto. Qed.
Lemma follows_at d w l xs pre e rest : In (l, xs) w -> order d xs = pre ++ e :: rest -> follows d w l e (hd l rest).
Proof. intros Hi He. exists xs, (l :: pre), rest. split; [auto|]. split; [now rewrite He|reflexivity]. Qed.

Lemma order_in d l xs w pre e rest : NoDup (nodes w) -> In (l, xs) w -> order d xs = pre ++ e :: rest -> e <> l.
Proof.
  intros Hnd Hi He ->. apply nodup_list in Hi; [|exact Hnd]. apply NoDup_cons_iff in Hi as [Hn _]. apply Hn.
  assert (H : In l (order d xs)) by (rewrite He; apply in_or_app; right; now left).
  destruct d; [exact H|]. now apply in_rev.
Qed.

Lemma does_nodup w ops w' m : reach m w -> does w ops w' -> NoDup (nodes w').
Proof. intros Hr Hd. destruct (calls_ok _ _ _ _ Hr Hd) as (m' & _ & Hr' & _). exact (proj1 (reach_holds _ _ Hr')). Qed.

(** A body that keeps the nodes to come meets every node of the list once, in order, up to the break. *)
Theorem list_loop_visits_partial :
  forall (plain d : bool) l body (I : list node -> world -> list node -> Prop) m w xs,
    reach m w -> In (l, xs) w -> I [] w (order d xs) -> keeps_rest plain d l body I ->
    exists m' w' k, reach m' w' /\ shows m' w' /\
      ((forall s x, snd (body s x) = false) -> I (order d xs) w' []) /\
      forall f fuel, (k <= f)%nat -> (k <= fuel)%nat ->
        (if plain then list_plain_loop else list_stored_loop) d f fuel m l body
        = Ok (m', until_break body [] (order d xs)).
Proof.
  intros plain d l body I m w xs Hr Hi HI Hk. destruct plain.
  - assert (Hrun : forall rest seen m w xs pre, reach m w -> In (l, xs) w -> order d xs = pre ++ rest -> I seen w rest ->
      exists w', plain_run d l body w seen (hd l rest) w' (until_break body seen rest) /\
        ((forall s x, snd (body s x) = false) -> I (seen ++ rest) w' [])).
    { clear - Hk. induction rest as [|e rest IH]; intros seen m w xs pre Hr Hi He HI.
      - exists w. split; [constructor|]. now rewrite app_nil_r.
      - pose proof (order_in d l xs w pre e rest (proj1 (reach_holds _ _ Hr)) Hi He) as Hne.
        destruct (Hk seen w e rest HI) as (w1 & xs1 & pre1 & Hd & Hnext). cbn [hd until_break].
        destruct (snd (body seen e)) eqn:Eb.
        + exists w1. split; [now apply pr_break|]. intro H. rewrite H in Eb. discriminate.
        + destruct (Hnext eq_refl) as (Hi1 & He1 & HI1).
          destruct (calls_ok _ _ _ _ Hr Hd) as (m1 & _ & Hr1 & _).
          destruct (IH (seen ++ [e]) m1 w1 xs1 (pre1 ++ [e]) Hr1 Hi1) as (w' & Hrun & Hfin).
          { now rewrite <- app_assoc. } { exact HI1. }
          exists w'. split.
          * eapply pr_next; eauto. eapply follows_at; eauto.
          * intro H. rewrite <- app_assoc in Hfin. now apply Hfin. }
    destruct (Hrun (order d xs) [] m w xs [] Hr Hi eq_refl HI) as (w' & Hp & Hfin).
    destruct (list_loop_follows d l body m w w' (until_break body [] (order d xs)) Hr) as [Hl _].
    destruct (Hl _ (follows_first d w l xs Hi) Hp) as (m' & k & H1 & H2 & H3).
    exists m', w', k. auto.
  - assert (Hrun : forall rest seen m w xs pre, reach m w -> In (l, xs) w -> order d xs = pre ++ rest -> I seen w rest ->
      exists w', stored_run d l body w seen (hd l rest) (hd l (tl rest)) w' (until_break body seen rest) /\
        ((forall s x, snd (body s x) = false) -> I (seen ++ rest) w' [])).
    { clear - Hk. induction rest as [|e rest IH]; intros seen m w xs pre Hr Hi He HI.
      - exists w. split; [constructor|]. now rewrite app_nil_r.
      - pose proof (order_in d l xs w pre e rest (proj1 (reach_holds _ _ Hr)) Hi He) as Hne.
        destruct (Hk seen w e rest HI) as (w1 & xs1 & pre1 & Hd & Hnext). cbn [hd tl until_break].
        destruct (snd (body seen e)) eqn:Eb.
        + exists w1. split; [now apply sr_break|]. intro H. rewrite H in Eb. discriminate.
        + destruct (Hnext eq_refl) as (Hi1 & He1 & HI1).
          destruct (calls_ok _ _ _ _ Hr Hd) as (m1 & _ & Hr1 & _).
          destruct (IH (seen ++ [e]) m1 w1 xs1 pre1 Hr1 Hi1 He1 HI1) as (w' & Hrun & Hfin).
          exists w'. split.
          * destruct rest as [|e2 rest]; cbn [hd tl] in *.
            -- assert (w' = w1) as -> by (inversion Hrun; congruence). apply (sr_next d l body w seen e l w1 (hd l (order d xs1)) w1 []); auto; [now apply follows_first|constructor].
            -- eapply sr_next; eauto. eapply follows_at; eauto.
          * intro H. rewrite <- app_assoc in Hfin. now apply Hfin. }
    destruct (Hrun (order d xs) [] m w xs [] Hr Hi eq_refl HI) as (w' & Hp & Hfin).
    destruct (list_loop_follows d l body m w w' (until_break body [] (order d xs)) Hr) as [_ Hl].
    destruct (order d xs) as [|e rest] eqn:Eo.
    + destruct (Hl l l) as (m' & k & H1 & H2 & H3).
      { exists xs, [], []. rewrite Eo. auto. } { exists xs, [], []. rewrite Eo. auto. } { inversion Hp. constructor. }
      exists m', w', k. auto.
    + destruct (Hl e (hd l rest)) as (m' & k & H1 & H2 & H3).
      { exists xs, [], (e :: rest). rewrite Eo. auto. } { eapply (follows_at d w l xs []); eauto. } { exact Hp. }
      exists m', w', k. auto.
Qed.
Print Assumptions list_loop_visits_partial.

(** A safe loop whose body moves the current node to another list or takes it out, as it likes, empties the list and hands
    the chosen nodes over in the order of the loop. *)
Definition sorts (o : node) (dec : node -> bool) : lbody :=
  fun _ e => ([if dec e then AddTail o e else Del e], false).

Lemma order_cons d e rest : order d (e :: rest) = if d then e :: rest else order d rest ++ [e].
Proof. destruct d; reflexivity. Qed.
Lemma order_order d xs : order d (order d xs) = xs.
Proof. destruct d; [reflexivity|apply rev_involutive]. Qed.

Lemma member_addable m w l xs x : reach m w -> In (l, xs) w -> In x xs -> addable w x /\ x <> l.
Proof.
  intros Hr Hi Hx. pose proof (proj1 (reach_holds _ _ Hr)) as Hnd.
  assert (Hne : x <> l).
  { intros ->. apply nodup_list in Hi; [|exact Hnd]. apply NoDup_cons_iff in Hi. tauto. }
  split; [|exact Hne]. split; [apply in_nodes; exists l, xs; split; [exact Hi|now right]|].
  intros ys Hy. assert (E : (l, xs) = (x, ys)) by (apply (nodup_entry w _ _ _ _ x Hnd); auto; [now right|now left]). congruence.
Qed.

Lemma until_all body : (forall s x, snd (body s x) = false) -> forall rest seen, until_break body seen rest = rest.
Proof. intros Hb. induction rest as [|x r IH]; intro seen; cbn [until_break]; [reflexivity|]. now rewrite Hb, IH. Qed.

Theorem list_loop_sorts :
  forall d m w l xs o ys dec, reach m w -> In (l, xs) w -> In (o, ys) w -> o <> l ->
    exists m' w' k, reach m' w' /\ shows m' w' /\ In (l, []) w' /\ In (o, ys ++ filter dec (order d xs)) w' /\
      forall f fuel, (k <= f)%nat -> (k <= fuel)%nat ->
        list_stored_loop d f fuel m l (sorts o dec) = Ok (m', order d xs).
Proof.
  intros d m w l xs o ys dec Hr Hi Ho Hne.
  set (I := fun (seen : list node) (w : world) (rest : list node) => (exists m, reach m w) /\
    exists r, Permutation w ((l, order d rest) :: (o, ys ++ filter dec seen) :: r)).
  destruct (list_loop_visits_partial false d l (sorts o dec) I m w xs Hr Hi) as (m' & w' & k & H1 & H2 & H3 & H4).
  - split; [now exists m|]. rewrite order_order. cbn [filter]. rewrite app_nil_r.
    destruct (in_perm _ _ Hi) as (r & Hp). apply (Permutation_in _ Hp) in Ho as [E|Ho]; [congruence|].
    destruct (in_perm _ _ Ho) as (r2 & Hp2). exists r2. now rewrite Hp, Hp2.
  - intros seen w1 e rest ((m1 & Hr1) & r & Hp).
    assert (Hi1 : In (l, order d (e :: rest)) w1) by (apply (Permutation_in _ (Permutation_sym Hp)); now left).
    destruct (member_addable m1 w1 l _ e Hr1 Hi1) as [Ha Hel].
    { rewrite order_cons. destruct d; [now left|]. apply in_or_app. right. now left. }
    assert (Hu : forall W, Permutation w1 ((l, order d (e :: rest)) :: W) -> unlinked e w1 ((e, []) :: (l, order d rest) :: W)).
    { intros W HW. right. rewrite order_cons in HW. destruct d; cbn [order] in *.
      - exists l, [], rest, W. auto.
      - exists l, (rev rest), [], W. rewrite app_nil_r. auto. }
    cbn [sorts fst snd]. destruct (dec e) eqn:Ed.
    + assert (Heo : e <> o).
      { intros ->. assert (E : (l, order d (o :: rest)) = (o, ys ++ filter dec seen)); [|congruence].
        apply (nodup_entry w1 _ _ _ _ o (proj1 (reach_holds _ _ Hr1)) Hi1); [| |now left].
        - apply (Permutation_in _ (Permutation_sym Hp)). right. now left.
        - right. rewrite order_cons. destruct d; [now left|]. apply in_or_app. right. now left. }
      set (w2 := (o, (ys ++ filter dec seen) ++ [e]) :: (l, order d rest) :: r).
      assert (Hd : does w1 [AddTail o e] w2).
      { split.
        - split; [|exact Ha]. exists (ys ++ filter dec seen). apply (Permutation_in _ (Permutation_sym Hp)). right. now left.
        - exists w2, []. split; [|reflexivity]. split; [reflexivity|]. eexists. split; [apply Hu, Hp|].
          rewrite (proj2 (Z.eqb_neq e o) Heo). exists o, (ys ++ filter dec seen), ((ys ++ filter dec seen) ++ [e]), ((l, order d rest) :: r).
          split; [apply perm_skip, perm_swap|]. auto. }
      exists w2, (order d rest), []. split; [exact Hd|]. intros _.
      split; [right; now left|]. split; [apply order_order|].
      destruct (calls_ok _ _ _ _ Hr1 Hd) as (m2 & _ & Hr2 & _). split; [now exists m2|].
      exists r. rewrite filter_app. cbn [filter]. rewrite Ed, app_assoc. apply perm_swap.
    + set (w2 := (e, []) :: (l, order d rest) :: (o, ys ++ filter dec seen) :: r).
      assert (Hd : does w1 [Del e] w2).
      { split; [exact Ha|]. exists w2, []. split; [|reflexivity]. split; [reflexivity|]. apply Hu, Hp. }
      exists w2, (order d rest), []. split; [exact Hd|]. intros _.
      split; [right; now left|]. split; [apply order_order|].
      destruct (calls_ok _ _ _ _ Hr1 Hd) as (m2 & _ & Hr2 & _). split; [now exists m2|].
      exists ((e, []) :: r). rewrite filter_app. cbn [filter]. rewrite Ed, app_nil_r. unfold w2.
      etransitivity; [apply perm_swap|]. apply perm_skip, perm_swap.
  - exists m', w', k. split; [exact H1|]. split; [exact H2|].
    destruct (H3 (fun _ _ => eq_refl)) as (_ & r & Hp).
    split; [apply (Permutation_in _ (Permutation_sym Hp)); left; now destruct d|].
    split; [apply (Permutation_in _ (Permutation_sym Hp)); right; now left|].
    intros f fuel Hf1 Hf2. rewrite H4 by assumption. now rewrite until_all.
Qed.
Print Assumptions list_loop_sorts.

(** Nodes 1..4 in list 10, 5 in list 20: the even ones go over, in reverse order. *)
Definition loop_mem : res mem :=
  l_calls 9 (fun _ => None) ([Init 10; Init 20; Init 1; Init 2; Init 3; Init 4; Init 5; Init 6]
    ++ [AddTail 10 1; AddTail 10 2; AddTail 10 3; AddTail 10 4; AddTail 20 5]).
Definition contents (m : mem) (l : node) : res (list node) := list_foreach 9 m l (fun s x => (s ++ [x], false)) [].
Example list_loop_sorts_example :
  (let* m := loop_mem in
   let* (m, vs) := list_stored_loop false 9 9 m 10 (sorts 20 Z.even) in
   let* a := contents m 10 in let* b := contents m 20 in Ok (vs, a, b))
  = Ok ([4; 3; 2; 1], [], [5; 4; 2]).
Proof. vm_example. Qed.
(** A plain loop whose body puts a node behind the current one meets it too; in front of it, not. *)
Example list_loop_add_example :
  (let* m := loop_mem in
   let* (m, vs) := list_plain_loop true 9 9 m 10 (fun _ e => (if e =? 2 then [AddAfter 2 6; AddBefore 2 5] else [], false)) in
   let* a := contents m 10 in let* b := contents m 20 in Ok (vs, a, b))
  = Ok ([1; 2; 6; 3; 4], [1; 5; 2; 6; 3; 4], []).
Proof. vm_example. Qed.
(** The same as a run on sequences, so the hypotheses of [list_loop_follows] are met. *)
Example list_loop_run_example :
  plain_run true 10 (fun _ e => (if e =? 1 then [AddAfter 1 6] else [], false)) [(6, []); (10, [1])] [] 1 [(10, [1; 6])] [1; 6].
Proof.
  apply (pr_next _ _ _ _ _ _ [(10, [1; 6])] 6); [lia|reflexivity| | |].
  - cbn [fst does Z.eqb Pos.eqb]. split.
    + split; [cbn; tauto|]. split; [cbn; tauto|]. intros ys [E|[E|[]]]; [now injection E as <-|discriminate E].
    + exists [(10, [1; 6])], []. split; [|reflexivity]. split; [reflexivity|].
      exists [(6, []); (10, [1])]. split; [left; exists [(10, [1])]; auto|].
      exists 10, [1], [1; 6], []. split; [reflexivity|]. split; [reflexivity|]. right. exists [], []. auto.
  - exists [1; 6], [10], [6]. cbn. auto.
  - apply (pr_next _ _ _ _ _ _ [(10, [1; 6])] 10); [lia|reflexivity|reflexivity| |constructor].
    exists [1; 6], [10; 1], []. cbn. auto.
Qed.

(** A plain loop whose body deletes the current node never ends, in either direction, whatever the list. *)
Lemma plain_stuck d l f : forall fuel m w x seen, reach m w -> addable w x -> x <> l ->
  plain_loop d f fuel m l x (fun _ e => ([Del e], false)) seen = Fuel.
Proof.
  induction fuel as [|fuel IH]; intros m w x seen Hr Ha Hne; [reflexivity|].
  cbn [plain_loop fst snd]. rewrite (proj2 (Z.eqb_neq x l) Hne).
  destruct (step_ok m w (Del x) (reach_holds _ _ Hr) Ha) as (m1 & ret & w1 & Hi & Hh1 & Hs).
  assert (Hr1 : reach m1 w1) by (apply (reach_step m w (S (length (nodes w))) (Del x) m1 w1 ret Hr Ha); [apply Hs; lia|exact Hi]).
  assert (Hc : l_calls f m [Del x] = Ok m1).
  { unfold l_calls. cbn [foldM]. change (list_step f m (Del x)) with (list_step (S (length (nodes w))) m (Del x)).
    rewrite Hs by lia. reflexivity. }
  rewrite Hc. cbn [bind].
  assert (Hx : In (x, []) w1) by (destruct Hi as [_ [(r & _ & ->)|(l0 & a & b & r & _ & ->)]]; now left).
  assert (Hfo : l_step d m1 x = Ok x).
  { apply (order_step d m1 w1 x x x Hh1). exists [], [], []. split; [exact Hx|]. destruct d; auto. }
  rewrite Hfo. cbn [bind]. rewrite (IH m1 w1 x); [reflexivity|exact Hr1| |exact Hne].
  split; [apply in_nodes; exists x, []; split; [exact Hx|now left]|].
  intros ys Hy. assert (E : (x, []) = (x, ys)) by (apply (nodup_entry w1 _ _ _ _ x (proj1 Hh1)); auto; now left). congruence.
Qed.

Lemma order_mem d xs x : In x (order d xs) -> In x xs.
Proof. destruct d; [auto|]. apply in_rev. Qed.

Theorem list_loop_delete_refuted :
  forall d m w l xs, reach m w -> In (l, xs) w -> xs <> [] ->
    forall f fuel, list_plain_loop d f fuel m l (fun _ e => ([Del e], false)) = Fuel.
Proof.
  intros d m w l xs Hr Hi Hne f fuel.
  destruct (order d xs) as [|e r] eqn:Eo.
  { exfalso. apply Hne. destruct d; cbn in Eo; [exact Eo|]. apply (f_equal (@rev _)) in Eo. now rewrite rev_involutive in Eo. }
  unfold list_plain_loop. rewrite (order_step d m w l l e (reach_holds _ _ Hr)).
  2:{ exists xs, [], (e :: r). rewrite Eo. auto. }
  cbn [bind]. destruct (member_addable m w l xs e Hr Hi) as [Ha Hn]; [apply (order_mem d); rewrite Eo; now left|].
  now apply plain_stuck with (w := w).
Qed.
Print Assumptions list_loop_delete_refuted.

(** A safe loop whose body deletes the node after the current one never ends. *)
Lemma stored_stuck d l f body x : (forall s, body s x = ([], false)) -> x <> l ->
  forall fuel m seen, l_step d m x = Ok x -> stored_loop d f fuel m l x x body seen = Fuel.
Proof.
  intros Hb Hne. induction fuel as [|fuel IH]; intros m seen Hx; [reflexivity|].
  cbn [stored_loop]. rewrite (proj2 (Z.eqb_neq x l) Hne), Hb. cbn [fst snd l_calls foldM bind].
  rewrite Hx. cbn [bind]. now rewrite IH.
Qed.

Theorem list_loop_next_refuted :
  forall d m w l xs a b r, reach m w -> In (l, xs) w -> order d xs = a :: b :: r ->
    forall f fuel, list_stored_loop d f fuel m l (fun _ e => (if e =? a then [Del b] else [], false)) = Fuel.
Proof.
  intros d m w l xs a b r Hr Hi Eo f fuel. pose proof (reach_holds _ _ Hr) as Hh.
  destruct (member_addable m w l xs a Hr Hi) as [_ Hna]; [apply (order_mem d); rewrite Eo; now left|].
  destruct (member_addable m w l xs b Hr Hi) as [Hb Hnb]; [apply (order_mem d); rewrite Eo; right; now left|].
  assert (Hab : b <> a).
  { intros ->. apply nodup_list in Hi; [|exact (proj1 Hh)]. apply NoDup_cons_iff in Hi as [_ Hi].
    assert (H : NoDup (order d xs)) by (destruct d; [exact Hi|now apply NoDup_rev]).
    rewrite Eo in H. apply NoDup_cons_iff in H as [H _]. apply H. now left. }
  unfold list_stored_loop. rewrite (order_step d m w l l a Hh) by (exists xs, [], (a :: b :: r); rewrite Eo; auto).
  cbn [bind]. rewrite (order_step d m w l a b Hh) by (exists xs, [l], (b :: r); rewrite Eo; auto). cbn [bind].
  destruct fuel as [|fuel]; [reflexivity|]. cbn [stored_loop fst snd].
  rewrite (proj2 (Z.eqb_neq a l) Hna), Z.eqb_refl.
  destruct (step_ok m w (Del b) Hh Hb) as (m1 & ret & w1 & Hi1 & Hh1 & Hs).
  assert (Hc : l_calls f m [Del b] = Ok m1).
  { unfold l_calls. cbn [foldM]. change (list_step f m (Del b)) with (list_step (S (length (nodes w))) m (Del b)).
    rewrite Hs by lia. reflexivity. }
  rewrite Hc. cbn [bind].
  assert (Hx : In (b, []) w1) by (destruct Hi1 as [_ [(r0 & _ & ->)|(l0 & a0 & b0 & r0 & _ & ->)]]; now left).
  assert (Hfo : l_step d m1 b = Ok b).
  { apply (order_step d m1 w1 b b b Hh1). exists [], [], []. split; [exact Hx|]. destruct d; auto. }
  rewrite Hfo. cbn [bind]. rewrite stored_stuck; [reflexivity| |exact Hnb|exact Hfo].
  intro s. now rewrite (proj2 (Z.eqb_neq b a) Hab).
Qed.
Print Assumptions list_loop_next_refuted.

(** A safe loop whose body moves the current node to the end of the list never ends (lists of two or more nodes). *)
Definition to_end (d : bool) (l e : node) : lop := if d then AddTail l e else AddHead l e.

Lemma rotate d m w l xs a r f : reach m w -> In (l, xs) w -> order d xs = a :: r ->
  exists m' w' xs', l_calls f m [to_end d l a] = Ok m' /\ reach m' w' /\ In (l, xs') w' /\ order d xs' = r ++ [a].
Proof.
  intros Hr Hi Eo. destruct (member_addable m w l xs a Hr Hi) as [Ha Hne]; [apply (order_mem d); rewrite Eo; now left|].
  destruct (in_perm _ _ Hi) as (rw & Hp).
  set (xs' := order d (r ++ [a])).
  assert (Hal : allowed w (to_end d l a)) by (destruct d; (split; [now exists xs|exact Ha])).
  assert (Hid : ideal w (to_end d l a) ((l, xs') :: rw) []).
  { unfold xs'. destruct d; cbn [to_end ideal order] in *; (split; [reflexivity|]).
    - exists ((a, []) :: (l, r) :: rw). split.
      + right. exists l, [], r, rw. subst xs. auto.
      + rewrite (proj2 (Z.eqb_neq a l) Hne). exists l, r, (r ++ [a]), rw. auto.
    - apply (f_equal (@rev _)) in Eo. rewrite rev_involutive in Eo. cbn [rev] in Eo.
      exists ((a, []) :: (l, rev r) :: rw). split.
      + right. exists l, (rev r), [], rw. rewrite app_nil_r. subst xs. auto.
      + rewrite (proj2 (Z.eqb_neq a l) Hne). exists l, (rev r), (rev (r ++ [a])), rw. rewrite rev_app_distr. auto. }
  destruct (step_ok m w _ (reach_holds _ _ Hr) Hal) as (m1 & ret & w1 & Hi1 & _ & Hs).
  destruct (ideal_det _ _ _ _ _ _ (proj1 (reach_holds _ _ Hr)) Hid Hi1) as [<- _].
  exists m1, ((l, xs') :: rw), xs'. split; [|split; [|split]].
  - unfold l_calls. cbn [foldM].
    replace (list_step f m (to_end d l a)) with (list_step (S (length (nodes w))) m (to_end d l a)) by (now destruct d).
    rewrite Hs by lia. reflexivity.
  - apply (reach_step m w (S (length (nodes w))) (to_end d l a) m1 _ [] Hr Hal); [apply Hs; lia|exact Hid].
  - now left.
  - unfold xs'. destruct d; cbn; [reflexivity|]. apply rev_involutive.
Qed.

Theorem list_loop_move_refuted :
  forall d m w l xs a b r, reach m w -> In (l, xs) w -> order d xs = a :: b :: r ->
    forall f fuel, list_stored_loop d f fuel m l (fun _ e => ([to_end d l e], false)) = Fuel.
Proof.
  intros d m w l xs a b r Hr Hi Eo f fuel. pose proof (reach_holds _ _ Hr) as Hh.
  unfold list_stored_loop. rewrite (order_step d m w l l a Hh) by (exists xs, [], (a :: b :: r); rewrite Eo; auto).
  cbn [bind]. rewrite (order_step d m w l a b Hh) by (exists xs, [l], (b :: r); rewrite Eo; auto). cbn [bind].
  generalize (@nil node) as seen. revert m w xs a b r Hr Hi Eo Hh.
  induction fuel as [|fuel IH]; intros m w xs a b r Hr Hi Eo Hh seen; [reflexivity|].
  destruct (member_addable m w l xs a Hr Hi) as [_ Hna]; [apply (order_mem d); rewrite Eo; now left|].
  cbn [stored_loop fst snd]. rewrite (proj2 (Z.eqb_neq a l) Hna).
  destruct (rotate d m w l xs a (b :: r) f Hr Hi Eo) as (m1 & w1 & xs1 & Hc & Hr1 & Hi1 & Eo1).
  rewrite Hc. cbn [bind]. pose proof (reach_holds _ _ Hr1) as Hh1. cbn [app] in Eo1.
  destruct (r ++ [a]) as [|c t] eqn:Er; [now destruct r|].
  rewrite (order_step d m1 w1 l b c Hh1) by (exists xs1, [l], (c :: t); rewrite Eo1; auto). cbn [bind].
  now rewrite (IH m1 w1 xs1 b c t Hr1 Hi1 Eo1 Hh1).
Qed.
Print Assumptions list_loop_move_refuted.

(** The three traps on that list, with plenty of fuel. *)
Example list_loop_traps_example :
  (let* m := loop_mem in list_plain_loop true 9 500 m 10 (fun _ e => ([Del e], false))) = Fuel /\
  (let* m := loop_mem in list_stored_loop true 9 500 m 10 (fun _ e => (if e =? 1 then [Del 2] else [], false))) = Fuel /\
  (let* m := loop_mem in list_stored_loop false 9 500 m 10 (fun _ e => ([to_end false 10 e], false))) = Fuel.
Proof. vm_example. Qed.
