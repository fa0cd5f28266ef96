(** Proofs about the sc_list model. *)
From Verif Require Import Base ListModel ListSpec.

Local Ltac eqs := repeat match goal with
  | |- context [?a =? ?b] => destruct (Z.eqb_spec a b); subst
  | H : context [?a =? ?b] |- _ => destruct (Z.eqb_spec a b); subst
  end.

Definition N (m : mem) p := option_map fst (m p).
Definition P (m : mem) p := option_map snd (m p).

(** Closed form of unlinking and of linking in. *)
Definition unl (m : mem) (x n p : node) : mem := fun q =>
  if q =? x then Some (x, x)
  else match m q with
       | Some (a, b) => Some (if q =? p then n else a, if q =? n then p else b)
       | None => None
       end.
Definition lin (m : mem) (a e b : node) : mem := fun q =>
  if q =? e then Some (b, a)
  else match m q with
       | Some (u, v) => Some (if q =? a then e else u, if q =? b then e else v)
       | None => None
       end.

Definition meq (m m' : mem) := forall q, m q = m' q.

Ltac memsolve :=
  cbv [bind nxt prv set_next set_prev upd or_ub option_map] in *;
  repeat first
   [ progress cbn [fst snd] in *
   | progress rewrite Z.eqb_refl in *
   | match goal with
     | H : ?a <> ?b |- context [?a =? ?b] => rewrite (proj2 (Z.eqb_neq a b) H)
     | H : ?a <> ?b |- context [?b =? ?a] => rewrite (proj2 (Z.eqb_neq b a) (not_eq_sym H))
     | H : ?m ?p = Some _ |- context [?m ?p] => rewrite H
     end ].

Lemma del_closed (m : mem) x n p :
  m x = Some (n, p) -> (p = x <-> n = x) ->
  m p <> None -> m n <> None ->
  exists m', list_del m x = Ok m' /\ meq m' (unl m x n p).
Proof.
  intros Hx Hpn Hp Hn. unfold list_del, meq, unl.
  destruct (m p) as [[p1 p2]|] eqn:Ep; [|congruence].
  destruct (m n) as [[n1 n2]|] eqn:En; [|congruence]. clear Hp Hn.
  destruct (Z.eq_dec p x) as [->|Hp].
  - assert (n = x) by tauto. subst n. clear Hpn.
    rewrite Hx in Ep. injection Ep as <- <-. clear En.
    memsolve. eexists; split; [reflexivity|]. intro q. eqs; memsolve; try congruence.
    all: destruct (m q) as [[? ?]|]; reflexivity.
  - assert (Hn : n <> x) by tauto.
    destruct (Z.eq_dec p n) as [->|Hpn'].
    + memsolve. eexists; split; [reflexivity|]. intro q. eqs; memsolve; try congruence.
      all: destruct (m q) as [[? ?]|]; reflexivity.
    + memsolve. eexists; split; [reflexivity|]. intro q. eqs; memsolve; try congruence.
      all: destruct (m q) as [[? ?]|]; reflexivity.
Qed.

Local Ltac lin_tac :=
  intros Ha Hb He Hea Heb;
  match goal with Ha : ?m ?a = Some (?b, _) , Hb : ?m ?b = Some (_, ?a) |- _ =>
    destruct (Z.eq_dec a b) as [->|Hab]; [rewrite Ha in Hb; injection Hb as ? ?; subst|] end;
  memsolve; (eexists; split; [reflexivity|]); intro q; unfold lin; eqs; memsolve; try congruence;
  try (match goal with |- context [?m ?q] => destruct (m q) as [[? ?]|]; reflexivity end).

(** The four insertion sequences (after sc_list_del). *)
Lemma lin1 (m : mem) a b e pa nb x y :   (* add_tail, l = b *)
  m a = Some (b, pa) -> m b = Some (nb, a) -> m e = Some (x, y) -> e <> a -> e <> b ->
  exists m', (let* prev := prv m b in
    let* m := set_prev m b e in
    let* m := set_next m e b in
    let* m := set_prev m e prev in
    set_next m prev e) = Ok m' /\ meq m' (lin m a e b).
Proof. lin_tac. Qed.
Lemma lin2 (m : mem) a b e pa nb x y :   (* add_head, l = a *)
  m a = Some (b, pa) -> m b = Some (nb, a) -> m e = Some (x, y) -> e <> a -> e <> b ->
  exists m', (let* next := nxt m a in
    let* m := set_next m a e in
    let* m := set_prev m e a in
    let* m := set_next m e next in
    set_prev m next e) = Ok m' /\ meq m' (lin m a e b).
Proof. lin_tac. Qed.
Lemma lin3 (m : mem) a b e pa nb x y :   (* add_after *)
  m a = Some (b, pa) -> m b = Some (nb, a) -> m e = Some (x, y) -> e <> a -> e <> b ->
  exists m', (let* next := nxt m a in
    let* m := set_next m a e in
    let* m := set_next m e next in
    let* m := set_prev m e a in
    set_prev m next e) = Ok m' /\ meq m' (lin m a e b).
Proof. lin_tac. Qed.

(** ** Walks *)
Fixpoint links (m : mem) (w : list node) : Prop :=
  match w with
  | a :: (b :: _) as t => N m a = Some b /\ P m b = Some a /\ links m t
  | _ => True
  end.
Definition cyc (m : mem) (c : list node) : Prop :=
  match c with [] => True | h :: _ => links m (c ++ [h]) end.

Lemma links_cons2 m a b t : links m (a :: b :: t) <-> N m a = Some b /\ P m b = Some a /\ links m (b :: t).
Proof. reflexivity. Qed.

Lemma links_app m xs a ys : links m (xs ++ a :: ys) <-> links m (xs ++ [a]) /\ links m (a :: ys).
Proof.
  induction xs as [|x xs IH].
  - cbn [app]. split; [intro H; split; [exact I|exact H]|tauto].
  - destruct xs as [|x' xs].
    + cbn [app] in *. rewrite !links_cons2. split; [intros (?&?&?)|intros ((?&?&?)&?)]; repeat split; auto.
    + cbn [app] in *. rewrite !links_cons2, IH. tauto.
Qed.

Lemma links_frame m m' w :
  links m w ->
  (forall a, In a (removelast w) -> N m' a = N m a) ->
  (forall b, In b (tl w) -> P m' b = P m b) -> links m' w.
Proof.
  induction w as [|a [|b t] IH]; try (intros; exact I).
  rewrite !links_cons2. intros (H1 & H2 & H3) Hn Hp.
  cbn [tl] in Hp. change (removelast (a :: b :: t)) with (a :: removelast (b :: t)) in Hn.
  split; [rewrite Hn; [auto|now left]|]. split; [rewrite Hp; [auto|now left]|].
  apply IH; [exact H3| |].
  - intros c Hc. apply Hn. now right.
  - intros c Hc. apply Hp. now right.
Qed.

Lemma links_agree m m' w : links m w -> (forall a, In a w -> m' a = m a) -> links m' w.
Proof.
  intros H Ha. apply (links_frame m); [exact H| |]; intros a Hi; unfold N, P; rewrite Ha; auto.
  - clear - Hi. revert Hi. induction w as [|x [|y t] IH]; [easy|easy|].
    change (removelast (x :: y :: t)) with (x :: removelast (y :: t)).
    intros [->|Hi]; [now left|right; auto].
  - destruct w; [easy|now right].
Qed.

Lemma cyc_agree m m' c : cyc m c -> (forall a, In a c -> m' a = m a) -> cyc m' c.
Proof.
  destruct c as [|h t]; [auto|]. cbn [cyc]. intros H Ha. apply (links_agree m); [exact H|].
  intros a Hi. apply in_app_or in Hi. destruct Hi as [Hi|[<-|[]]]; apply Ha; [exact Hi|now left].
Qed.

Lemma meq_cyc m m' c : meq m m' -> cyc m' c -> cyc m c.
Proof. intros H Hc. apply (cyc_agree m'); auto. Qed.

Lemma cyc_rot1 m h t : cyc m (h :: t) -> cyc m (t ++ [h]).
Proof.
  destruct t as [|h2 t]; [auto|]. cbn [cyc app]. rewrite links_cons2.
  intros (H1 & H2 & H3).
  change (h2 :: (t ++ [h]) ++ [h2]) with (((h2 :: t) ++ [h]) ++ [h2]).
  rewrite <- app_assoc. cbn [app]. change (h2 :: t ++ h :: [h2]) with ((h2 :: t) ++ h :: [h2]).
  rewrite links_app. split; [exact H3|]. rewrite links_cons2. repeat split; auto.
Qed.

Lemma cyc_rot m a b : cyc m (a ++ b) -> cyc m (b ++ a).
Proof.
  revert b. induction a as [|x a IH]; intros b H; [now rewrite app_nil_r|].
  replace (b ++ x :: a) with ((b ++ [x]) ++ a) by now rewrite <- app_assoc.
  apply IH. rewrite app_assoc. now apply (cyc_rot1 m x (a ++ b)).
Qed.

Lemma links_defined m w a : links m w -> In a w -> (2 <= length w)%nat -> m a <> None.
Proof.
  induction w as [|x [|y t] IH]; cbn [length]; [easy|lia|].
  rewrite links_cons2. intros (H1 & H2 & H3) [<-|Hi] _.
  - unfold N in H1. destruct (m x); [easy|discriminate].
  - destruct Hi as [<-|Hi].
    + unfold P in H2. destruct (m y); [easy|discriminate].
    + apply IH; [exact H3|now right|]. destruct t; [easy|cbn; lia].
Qed.

Lemma cyc_defined m c a : cyc m c -> In a c -> m a <> None.
Proof.
  destruct c as [|h t]; [easy|]. cbn [cyc]. intros H Hi.
  apply (links_defined m ((h :: t) ++ [h])); [exact H|apply in_or_app; now left|].
  rewrite app_length. cbn. lia.
Qed.

(** The neighbours in a ring [x :: zs]: its successor and predecessor. *)
Lemma cyc_head m x zs : cyc m (x :: zs) -> N m x = Some (hd x zs).
Proof. destruct zs; cbn [cyc app hd]; rewrite ?links_cons2; tauto. Qed.
Lemma cyc_last m x zs : cyc m (x :: zs) -> P m x = Some (last zs x).
Proof.
  destruct zs as [|z zs] using rev_ind; cbn [cyc app]; [rewrite links_cons2; tauto|].
  change (x :: (zs ++ [z]) ++ [x]) with ((x :: zs ++ [z]) ++ [x]).
  replace ((x :: zs ++ [z]) ++ [x]) with ((x :: zs) ++ z :: [x]) by (cbn; now rewrite <- app_assoc).
  rewrite links_app, links_cons2, last_last. tauto.
Qed.

Lemma NP_some (m : mem) q a b : N m q = Some a -> P m q = Some b -> m q = Some (a, b).
Proof. unfold N, P. destruct (m q) as [[u v]|]; cbn; congruence. Qed.

Lemma meq_trans_in (m m' m2 : mem) q v : meq m' m2 -> m2 q = v -> m' q = v.
Proof. intros H <-. apply H. Qed.

Lemma unl_eq m x n p : unl m x n p x = Some (x, x).
Proof. unfold unl. now rewrite Z.eqb_refl. Qed.
Lemma N_unl m x n p q : q <> x -> q <> p -> N (unl m x n p) q = N m q.
Proof.
  intros H1 H2. unfold N, unl. destruct (Z.eqb_spec q x); [congruence|].
  destruct (Z.eqb_spec q p); [congruence|]. now destruct (m q) as [[? ?]|].
Qed.
Lemma P_unl m x n p q : q <> x -> q <> n -> P (unl m x n p) q = P m q.
Proof.
  intros H1 H2. unfold P, unl. destruct (Z.eqb_spec q x); [congruence|].
  destruct (Z.eqb_spec q n); [congruence|]. now destruct (m q) as [[? ?]|].
Qed.
Lemma N_unl_p m x n p : p <> x -> m p <> None -> N (unl m x n p) p = Some n.
Proof.
  intros H1 H2. unfold N, unl. destruct (Z.eqb_spec p x); [congruence|].
  rewrite Z.eqb_refl. now destruct (m p) as [[? ?]|].
Qed.
Lemma P_unl_n m x n p : n <> x -> m n <> None -> P (unl m x n p) n = Some p.
Proof.
  intros H1 H2. unfold P, unl. destruct (Z.eqb_spec n x); [congruence|].
  rewrite Z.eqb_refl. now destruct (m n) as [[? ?]|].
Qed.

Lemma removelast_snoc {A} (l : list A) z : removelast (l ++ [z]) = l.
Proof. rewrite removelast_app by discriminate. cbn. now rewrite app_nil_r. Qed.

(** Deleting [x] from a ring. *)
Lemma del_cyc m x zs :
  NoDup (x :: zs) -> zs <> [] -> cyc m (x :: zs) ->
  exists m', list_del m x = Ok m' /\ cyc m' zs /\ cyc m' [x] /\
    forall q, ~ In q (x :: zs) -> m' q = m q.
Proof.
  intros Hnd Hz Hc.
  pose proof (cyc_head m x zs Hc) as HN. pose proof (cyc_last m x zs Hc) as HP.
  pose proof (NP_some _ _ _ _ HN HP) as Hx.
  destruct zs as [|n ys]; [easy|]. cbn [hd] in *. clear Hz.
  remember (last (n :: ys) x) as p eqn:Hpd.
  assert (Hpin : In p (n :: ys)).
  { rewrite Hpd. clear. destruct ys as [|z ys _] using rev_ind; [now left|].
    change (n :: ys ++ [z]) with ((n :: ys) ++ [z]). rewrite last_last. apply in_or_app. right. now left. }
  pose proof (NoDup_cons_iff x (n :: ys)) as Hni. apply Hni in Hnd as [Hnx Hnd]. clear Hni.
  assert (p <> x) by (intros ->; auto). assert (n <> x) by (intros ->; apply Hnx; now left).
  destruct (del_closed m x n p Hx) as (m' & Hd & Hm).
  - tauto.
  - apply (cyc_defined m _ p Hc). now right.
  - apply (cyc_defined m _ n Hc). right. now left.
  - assert (Dp : m p <> None) by (apply (cyc_defined m _ p Hc); now right).
    assert (Dn : m n <> None) by (apply (cyc_defined m _ n Hc); right; now left).
    exists m'. split; [exact Hd|]. split; [|split].
    + apply (meq_cyc m' _ _ Hm).
      destruct ys as [|z ys _] using rev_ind.
      { cbn [last] in Hpd. subst p. cbn [cyc app]. rewrite links_cons2.
        split; [now apply N_unl_p|]. split; [now apply P_unl_n|exact I]. }
      change (n :: ys ++ [z]) with ((n :: ys) ++ [z]) in Hpd. rewrite last_last in Hpd. subst z.
      cbn [cyc]. change (links m ((x :: n :: ys ++ [p]) ++ [x])) in Hc.
      replace ((n :: ys ++ [p]) ++ [n]) with ((n :: ys) ++ p :: [n]) by (cbn; now rewrite <- app_assoc).
      replace ((x :: n :: ys ++ [p]) ++ [x]) with ((x :: n :: ys) ++ p :: [x]) in Hc
        by (cbn; now rewrite <- app_assoc).
      rewrite links_app in Hc. destruct Hc as [Hc _]. cbn [app] in Hc. rewrite links_cons2 in Hc.
      destruct Hc as (_ & _ & Hc).
      assert (Hnp : ~ In p (n :: ys)).
      { intro Hi. change (n :: ys ++ [p]) with ((n :: ys) ++ [p]) in Hnd.
        apply NoDup_remove_2 in Hnd. rewrite app_nil_r in Hnd. auto. }
      rewrite links_app. split.
      * apply (links_frame m); [exact Hc| |].
        -- rewrite removelast_snoc. intros a Ha. apply N_unl; intros ->.
           ++ apply Hnx. change (n :: ys ++ [p]) with ((n :: ys) ++ [p]). apply in_or_app. now left.
           ++ auto.
        -- cbn [app tl]. intros b Hb. apply P_unl; intros ->.
           ++ apply Hnx. now right.
           ++ apply NoDup_cons_iff in Hnd. tauto.
      * rewrite links_cons2. split; [now apply N_unl_p|]. split; [now apply P_unl_n|exact I].
    + apply (meq_cyc m' _ _ Hm). cbn [cyc app]. rewrite links_cons2. unfold N, P.
      rewrite unl_eq. repeat split.
    + intros q Hq. rewrite Hm. unfold unl.
      destruct (Z.eqb_spec q x); [subst; elim Hq; now left|].
      destruct (Z.eqb_spec q p); [subst q; elim Hq; now right|].
      destruct (Z.eqb_spec q n); [subst; elim Hq; right; now left|].
      now destruct (m q) as [[? ?]|].
Qed.

Lemma del_single m x : cyc m [x] -> exists m', list_del m x = Ok m' /\ meq m' m.
Proof.
  cbn [cyc app]. rewrite links_cons2. intros (H1 & H2 & _).
  pose proof (NP_some _ _ _ _ H1 H2) as Hx.
  destruct (del_closed m x x x Hx) as (m' & Hd & Hm); [tauto|congruence|congruence|].
  exists m'. split; [exact Hd|]. intro q. rewrite Hm. unfold unl.
  destruct (Z.eqb_spec q x); [now subst|]. now destruct (m q) as [[? ?]|].
Qed.

(** Inserting an isolated [e] in front of [b] in the ring [b :: zs]. *)
Lemma lin_cyc m e b zs a : a = last zs b ->
  NoDup (e :: b :: zs) -> cyc m (b :: zs) -> cyc m [e] ->
  cyc (lin m a e b) (e :: b :: zs) /\
  (forall q, ~ In q (e :: b :: zs) -> lin m a e b q = m q).
Proof.
  intros Hpd Hnd Hc He.
  assert (Hain : In a (b :: zs)).
  { rewrite Hpd. clear. destruct zs as [|z zs _] using rev_ind; [now left|].
    rewrite last_last. right. apply in_or_app. right. now left. }
  apply NoDup_cons_iff in Hnd as [Hne Hnd].
  assert (Hea : e <> a) by (intros ->; auto). assert (Heb : e <> b) by (intros ->; apply Hne; now left).
  assert (Da : m a <> None) by (apply (cyc_defined m _ a Hc); exact Hain).
  assert (Db : m b <> None) by (apply (cyc_defined m _ b Hc); now left).
  assert (HNe : N (lin m a e b) e = Some b) by (unfold N, lin; now rewrite Z.eqb_refl).
  assert (HPe : P (lin m a e b) e = Some a) by (unfold P, lin; now rewrite Z.eqb_refl).
  assert (HNa : N (lin m a e b) a = Some e).
  { unfold N, lin. destruct (Z.eqb_spec a e); [congruence|]. rewrite Z.eqb_refl. now destruct (m a) as [[? ?]|]. }
  assert (HPb : P (lin m a e b) b = Some e).
  { unfold P, lin. destruct (Z.eqb_spec b e); [congruence|]. rewrite Z.eqb_refl. now destruct (m b) as [[? ?]|]. }
  split.
  - cbn [cyc app]. rewrite links_cons2. split; [exact HNe|]. split; [exact HPb|].
    destruct zs as [|z zs _] using rev_ind.
    { cbn in Hpd. subst a. cbn [app]. rewrite links_cons2. repeat split; auto. }
    rewrite last_last in Hpd. subst z.
    cbn [cyc] in Hc.
    replace ((b :: zs ++ [a]) ++ [b]) with ((b :: zs) ++ a :: [b]) in Hc by (cbn; now rewrite <- app_assoc).
    replace (b :: (zs ++ [a]) ++ [e]) with ((b :: zs) ++ a :: [e]) by (cbn; now rewrite <- app_assoc).
    rewrite links_app in *. destruct Hc as [Hc _].
    split; [|rewrite links_cons2; repeat split; auto].
    assert (Hnp : ~ In a (b :: zs)).
    { intro Hi. change (b :: zs ++ [a]) with ((b :: zs) ++ [a]) in Hnd.
      apply NoDup_remove_2 in Hnd. rewrite app_nil_r in Hnd. auto. }
    apply (links_frame m); [exact Hc| |].
    + rewrite removelast_snoc. intros q Hq. unfold N, lin.
      destruct (Z.eqb_spec q e).
      { subst. elim Hne. change (b :: zs ++ [a]) with ((b :: zs) ++ [a]). apply in_or_app. now left. }
      destruct (Z.eqb_spec q a); [subst; contradiction|]. now destruct (m q) as [[? ?]|].
    + cbn [app tl]. intros q Hq. unfold P, lin.
      destruct (Z.eqb_spec q e); [subst; elim Hne; now right|].
      destruct (Z.eqb_spec q b); [subst; apply NoDup_cons_iff in Hnd; tauto|].
      now destruct (m q) as [[? ?]|].
  - intros q Hq. unfold lin.
    destruct (Z.eqb_spec q e); [subst; elim Hq; now left|].
    destruct (Z.eqb_spec q a); [subst q; elim Hq; now right|].
    destruct (Z.eqb_spec q b); [subst; elim Hq; right; now left|].
    now destruct (m q) as [[? ?]|].
Qed.

(** ** Worlds *)
Definition holds (m : mem) (w : world) : Prop :=
  NoDup (nodes w) /\ Forall (fun p => cyc m (fst p :: snd p)) w.

Lemma nodes_cons l xs w : nodes ((l, xs) :: w) = l :: xs ++ nodes w.
Proof. reflexivity. Qed.
Lemma nodes_app w1 w2 : nodes (w1 ++ w2) = nodes w1 ++ nodes w2.
Proof. unfold nodes. now rewrite map_app, concat_app. Qed.

Lemma nodes_perm w w' : Permutation w w' -> Permutation (nodes w) (nodes w').
Proof.
  induction 1 as [|[l xs] w w' _ IH|[l xs] [l' xs'] w|w1 w2 w3 _ IH1 _ IH2].
  - constructor.
  - rewrite !nodes_cons. constructor. now apply Permutation_app_head.
  - rewrite !nodes_cons.
    change (l' :: xs' ++ l :: xs ++ nodes w) with ((l' :: xs') ++ (l :: xs) ++ nodes w).
    change (l :: xs ++ l' :: xs' ++ nodes w) with ((l :: xs) ++ (l' :: xs') ++ nodes w).
    rewrite !app_assoc. apply Permutation_app_tail. apply Permutation_app_comm.
  - now transitivity (nodes w2).
Qed.

Lemma holds_perm m w w' : Permutation w w' -> holds m w -> holds m w'.
Proof.
  intros Hp [H1 H2]. split.
  - apply (Permutation_NoDup (nodes_perm _ _ Hp) H1).
  - rewrite Forall_forall in *. intros p Hi. apply H2. now apply (Permutation_in _ (Permutation_sym Hp)).
Qed.

Lemma holds_agree m m' w : holds m w -> (forall q, In q (nodes w) -> m' q = m q) -> holds m' w.
Proof.
  intros [H1 H2] Ha. split; [exact H1|]. rewrite Forall_forall in *. intros [l xs] Hi.
  apply (cyc_agree m); [exact (H2 _ Hi)|]. intros a Hia. apply Ha.
  unfold nodes. apply in_concat. exists (l :: xs). split; [|exact Hia].
  apply in_map_iff. now exists (l, xs).
Qed.

Lemma holds_cons m l xs w : holds m ((l, xs) :: w) <->
  cyc m (l :: xs) /\ NoDup (l :: xs) /\ holds m w /\ (forall q, In q (l :: xs) -> ~ In q (nodes w)).
Proof.
  unfold holds. rewrite nodes_cons, Forall_cons_iff. cbn [fst snd].
  change (l :: xs ++ nodes w) with ((l :: xs) ++ nodes w).
  split.
  - intros (H1 & H2 & H3). split; [auto|]. split.
    + clear - H1. induction (l :: xs); [constructor|]. cbn [app] in H1. apply NoDup_cons_iff in H1 as [Ha Hb].
      constructor; [|auto]. intro. apply Ha. apply in_or_app. now left.
    + split; [split; [|auto]|].
      * clear - H1. induction (l :: xs); [auto|]. cbn [app] in H1. apply NoDup_cons_iff in H1. tauto.
      * clear - H1. intros q. induction (l :: xs); [easy|]. cbn [app] in H1. apply NoDup_cons_iff in H1 as [Ha Hb].
        intros [<-|Hi]; [|auto]. intro Hn. apply Ha. apply in_or_app. now right.
  - intros (H1 & H2 & (H3 & H4) & H5). split; [|auto].
    clear - H2 H3 H5. induction (l :: xs) as [|a t IH]; [auto|].
    cbn [app]. apply NoDup_cons_iff in H2 as [Ha Hb]. constructor.
    + intro Hi. apply in_app_or in Hi. destruct Hi; [auto|]. apply (H5 a); [now left|auto].
    + apply IH; [auto|]. intros q Hq. apply H5. now right.
Qed.

Lemma in_nodes q w : In q (nodes w) <-> exists l xs, In (l, xs) w /\ In q (l :: xs).
Proof.
  unfold nodes. rewrite in_concat. split.
  - intros (c & Hc & Hq). apply in_map_iff in Hc as ([l xs] & <- & Hi). eauto.
  - intros (l & xs & Hi & Hq). exists (l :: xs). split; [|exact Hq].
    apply in_map_iff. now exists (l, xs).
Qed.

Lemma in_perm {A} (x : A) l : In x l -> exists r, Permutation l (x :: r).
Proof.
  intro H. apply in_split in H as (a & b & ->). exists (a ++ b).
  symmetry. apply Permutation_middle.
Qed.

(** sc_list_del on a node of a list of the world. *)
Lemma del_member m l a x b r :
  holds m ((l, a ++ x :: b) :: r) ->
  exists m', list_del m x = Ok m' /\ holds m' ((x, []) :: (l, a ++ b) :: r) /\
    (forall q, ~ In q (l :: a ++ x :: b) -> m' q = m q).
Proof.
  intro Hh. apply holds_cons in Hh as (Hc & Hnd & Hr & Hdis).
  assert (Hc2 : cyc m (x :: b ++ l :: a)).
  { replace (x :: b ++ l :: a) with ((x :: b) ++ (l :: a)) by reflexivity.
    apply cyc_rot. exact Hc. }
  assert (Hperm : Permutation (l :: a ++ x :: b) (x :: b ++ l :: a)).
  { change (l :: a ++ x :: b) with ((l :: a) ++ (x :: b)).
    change (x :: b ++ l :: a) with ((x :: b) ++ (l :: a)). apply Permutation_app_comm. }
  destruct (del_cyc m x (b ++ l :: a)) as (m' & Hd & Hc3 & Hc4 & Hf).
  { apply (Permutation_NoDup Hperm Hnd). }
  { destruct b; discriminate. }
  { exact Hc2. }
  exists m'. split; [exact Hd|]. split.
  - rewrite holds_cons. split; [exact Hc4|]. split; [constructor; [easy|constructor]|].
    apply (Permutation_NoDup Hperm) in Hnd.
    apply NoDup_cons_iff in Hnd as [Hnx Hnd].
    split.
    * rewrite holds_cons. split; [apply (cyc_rot m' b (l :: a)); exact Hc3|].
      split.
      { apply (Permutation_NoDup (l := b ++ l :: a)); [|exact Hnd].
        change (l :: a ++ b) with ((l :: a) ++ b). apply Permutation_app_comm. }
      split.
      { apply (holds_agree m); [exact Hr|]. intros q Hq. apply Hf. intro Hi.
        apply (Hdis q); [|exact Hq]. apply (Permutation_in _ (Permutation_sym Hperm)). exact Hi. }
      { intros q Hq. apply Hdis. apply (Permutation_in _ (Permutation_sym Hperm)). right.
        change (l :: a ++ b) with ((l :: a) ++ b) in Hq.
        apply (Permutation_in _ (Permutation_app_comm _ _) Hq). }
    * intros q [<-|[]]. rewrite nodes_cons. intro Hi.
      change (l :: (a ++ b) ++ nodes r) with ((l :: a ++ b) ++ nodes r) in Hi.
      apply in_app_or in Hi as [Hi|Hi].
      -- apply Hnx. change (l :: a ++ b) with ((l :: a) ++ b) in Hi.
         apply (Permutation_in _ (Permutation_app_comm _ _) Hi).
      -- apply (Hdis x); [right; apply in_or_app; right; now left|exact Hi].
  - intros q Hq. apply Hf. intro Hi. apply Hq.
    apply (Permutation_in _ (Permutation_sym Hperm)). exact Hi.
Qed.

(** sc_list_del on any node of the world. *)
Lemma del_ok m w x :
  holds m w -> addable w x ->
  exists m' r, list_del m x = Ok m' /\ unlinked x w ((x, []) :: r) /\ holds m' ((x, []) :: r) /\
    (forall q, ~ In q (nodes w) -> m' q = m q) /\ Permutation (nodes w) (x :: nodes r).
Proof.
  intros Hh [Hin Had]. apply in_nodes in Hin as (l & xs & Hl & Hx).
  destruct (in_perm _ _ Hl) as (r & Hp).
  pose proof (holds_perm _ _ _ Hp Hh) as Hh2.
  pose proof (nodes_perm _ _ Hp) as Hnp. rewrite nodes_cons in Hnp.
  destruct Hx as [->|Hx].
  - assert (xs = []) by (apply Had; exact Hl). subst xs.
    destruct (del_single m x) as (m' & Hd & Hm); [apply holds_cons in Hh2; tauto|].
    exists m', r. split; [exact Hd|]. split; [left; eauto|].
    split; [|split; [intros; apply Hm|exact Hnp]].
    apply (holds_agree m); [|intros; apply Hm]. apply (holds_perm _ _ _ Hp Hh).
  - apply in_split in Hx as (a & b & ->).
    destruct (del_member m l a x b r Hh2) as (m' & Hd & Hh3 & Hf).
    exists m', ((l, a ++ b) :: r). split; [exact Hd|].
    split; [right; exists l, a, b, r; auto|].
    split; [exact Hh3|split].
    + intros q Hq. apply Hf. intro Hi. apply Hq. apply (Permutation_in _ (Permutation_sym Hnp)).
      change (l :: (a ++ x :: b) ++ nodes r) with ((l :: a ++ x :: b) ++ nodes r).
      apply in_or_app. now left.
    + rewrite Hnp. rewrite nodes_cons.
      change (l :: (a ++ x :: b) ++ nodes r) with ((l :: a ++ x :: b) ++ nodes r).
      change (x :: l :: (a ++ b) ++ nodes r) with ((x :: l :: a ++ b) ++ nodes r).
      apply Permutation_app_tail. rewrite perm_swap. constructor. symmetry. apply Permutation_middle.
Qed.

(** Rewriting one list of the world into a rotation of the ring with [e] in
    front of [b]. *)
Lemma ins_ok m e l ys ys' b zs r m' (a := last zs b) :
  holds m ((e, []) :: (l, ys) :: r) ->
  (exists u v, l :: ys = u ++ v /\ b :: zs = v ++ u) ->
  (exists u v, e :: b :: zs = u ++ v /\ l :: ys' = v ++ u) ->
  meq m' (lin m a e b) ->
  holds m' ((l, ys') :: r) /\ (forall q, ~ In q (e :: l :: ys) -> m' q = m q).
Proof.
  intros Hh (u1 & v1 & Hu1 & Hv1) (u2 & v2 & Hu2 & Hv2) Hm.
  apply holds_cons in Hh as (He & _ & Hh & Hde).
  apply holds_cons in Hh as (Hc & Hnd & Hr & Hdis).
  assert (Hp : Permutation (l :: ys) (b :: zs)) by (rewrite Hu1, Hv1; apply Permutation_app_comm).
  assert (Hen : ~ In e (b :: zs)).
  { intro Hi. apply (Hde e); [now left|]. rewrite nodes_cons.
    change (l :: ys ++ nodes r) with ((l :: ys) ++ nodes r). apply in_or_app. left.
    apply (Permutation_in _ (Permutation_sym Hp) Hi). }
  assert (Hnd2 : NoDup (e :: b :: zs)).
  { constructor; [exact Hen|]. apply (Permutation_NoDup Hp Hnd). }
  assert (Hc2 : cyc m (b :: zs)) by (rewrite Hv1; apply cyc_rot; now rewrite <- Hu1).
  destruct (lin_cyc m e b zs a eq_refl Hnd2 Hc2 He) as [Hc3 Hf].
  assert (Hp2 : Permutation (e :: b :: zs) (l :: ys')) by (rewrite Hu2, Hv2; apply Permutation_app_comm).
  split.
  - rewrite holds_cons. split.
    { apply (meq_cyc m' _ _ Hm). rewrite Hv2. apply cyc_rot. now rewrite <- Hu2. }
    split; [apply (Permutation_NoDup Hp2 Hnd2)|].
    assert (Hd : forall q, In q (l :: ys') -> ~ In q (nodes r)).
    { intros q Hq. apply (Permutation_in _ (Permutation_sym Hp2)) in Hq as [<-|Hq].
      - intro Hi. apply (Hde e); [now left|]. rewrite nodes_cons.
        right. apply in_or_app. now right.
      - apply Hdis. apply (Permutation_in _ (Permutation_sym Hp) Hq). }
    split; [|exact Hd].
    apply (holds_agree m); [exact Hr|]. intros q Hq. rewrite Hm. apply Hf.
    intro Hi. apply (Hd q); [|exact Hq]. apply (Permutation_in _ Hp2 Hi).
  - intros q Hq. rewrite Hm. apply Hf. intros [<-|Hi]; apply Hq; [now left|].
    right. apply (Permutation_in _ (Permutation_sym Hp) Hi).
Qed.

(** Facts available before the four insertion sequences. *)
Lemma ins_pre m e l ys b zs r (a := last zs b) :
  holds m ((e, []) :: (l, ys) :: r) ->
  (exists u v, l :: ys = u ++ v /\ b :: zs = v ++ u) ->
  exists pa nb, m a = Some (b, pa) /\ m b = Some (nb, a) /\ m e = Some (e, e) /\ e <> a /\ e <> b.
Proof.
  intros Hh (u1 & v1 & Hu1 & Hv1).
  apply holds_cons in Hh as (He & _ & Hh & Hde).
  apply holds_cons in Hh as (Hc & Hnd & Hr & Hdis).
  assert (Hp : Permutation (l :: ys) (b :: zs)) by (rewrite Hu1, Hv1; apply Permutation_app_comm).
  assert (Hc2 : cyc m (b :: zs)) by (rewrite Hv1; apply cyc_rot; now rewrite <- Hu1).
  assert (Hen : ~ In e (b :: zs)).
  { intro Hi. apply (Hde e); [now left|]. rewrite nodes_cons.
    change (l :: ys ++ nodes r) with ((l :: ys) ++ nodes r). apply in_or_app. left.
    apply (Permutation_in _ (Permutation_sym Hp) Hi). }
  assert (Hain : In a (b :: zs)).
  { unfold a. clear. destruct zs as [|z zs _] using rev_ind; [now left|].
    rewrite last_last. right. apply in_or_app. right. now left. }
  pose proof (cyc_last m b zs Hc2) as HPb. fold a in HPb.
  assert (HNa : N m a = Some b).
  { unfold a. destruct zs as [|z zs _] using rev_ind.
    - cbn [last]. apply cyc_head in Hc2. exact Hc2.
    - rewrite last_last. cbn [cyc] in Hc2.
      replace ((b :: zs ++ [z]) ++ [b]) with ((b :: zs) ++ z :: [b]) in Hc2 by (cbn; now rewrite <- app_assoc).
      rewrite links_app, links_cons2 in Hc2. tauto. }
  assert (Hes : m e = Some (e, e)).
  { cbn [cyc app] in He. rewrite links_cons2 in He. apply NP_some; tauto. }
  unfold N in HNa. unfold P in HPb.
  destruct (m a) as [[u v]|] eqn:Ea; [|discriminate]. cbn in HNa. injection HNa as ->.
  destruct (m b) as [[u2 v2]|] eqn:Eb; [|discriminate]. cbn in HPb. injection HPb as ->.
  exists v, u2. repeat split; auto; intros ->; apply Hen; [exact Hain|now left].
Qed.

Lemma unlinked_head x w r l : unlinked x w ((x, []) :: r) -> is_head w l -> x <> l ->
  exists ys, In (l, ys) r.
Proof.
  intros [(r' & Hp & He)|(l' & a & b & r' & Hp & He)] (ys & Hin) Hne; injection He as ->.
  - apply (Permutation_in _ Hp) in Hin as [He|Hin]; [congruence|eauto].
  - apply (Permutation_in _ Hp) in Hin as [He|Hin]; [|exists ys; now right].
    injection He as -> <-. exists (a ++ b). now left.
Qed.

Lemma rot_id {A} (l : list A) : exists u v, l = u ++ v /\ l = v ++ u.
Proof. exists [], l. now rewrite app_nil_r. Qed.

Lemma last_hd {A} (l : list A) (x : A) d : last (l ++ [x]) d = x.
Proof. apply last_last. Qed.

(** Insertion at a described place. *)
Inductive place := PHead (l : node) | PTail (l : node) | PAfter (p : node) | PBefore (n : node).
Definition place_how (pl : place) (x : node) (h : node) (ys ys' : list node) : Prop :=
  match pl with
  | PHead l => h = l /\ ys' = x :: ys
  | PTail l => h = l /\ ys' = ys ++ [x]
  | PAfter p => (h = p /\ ys' = x :: ys) \/ (exists a b, ys = a ++ p :: b /\ ys' = a ++ p :: x :: b)
  | PBefore n => (h = n /\ ys' = ys ++ [x]) \/ (exists a b, ys = a ++ n :: b /\ ys' = a ++ x :: n :: b)
  end.
Definition place_fn (pl : place) (m : mem) (x : node) : res mem :=
  match pl with
  | PHead l => list_add_head m l x
  | PTail l => list_add_tail m l x
  | PAfter p => list_add_after m p x
  | PBefore n => list_add_before m n x
  end.
Definition place_op (pl : place) (x : node) : lop :=
  match pl with
  | PHead l => AddHead l x | PTail l => AddTail l x
  | PAfter p => AddAfter p x | PBefore n => AddBefore n x
  end.

Definition place_node pl := match pl with PHead l | PTail l | PAfter l | PBefore l => l end.

(** The ring with [x] inserted after / before a node of it. *)
Lemma ring_after_head (l : node) ys : exists b zs,
  b :: zs = ys ++ [l] /\ last zs b = l.
Proof.
  destruct ys as [|b t]; [exists l, []; auto|exists b, (t ++ [l])]. split; [auto|apply last_last].
Qed.

Lemma place_ring pl x l ys :
  (match pl with
   | PHead h | PTail h => h = l
   | PAfter p | PBefore p => In p (l :: ys)
   end) ->
  exists b zs ys',
    (exists u v, l :: ys = u ++ v /\ b :: zs = v ++ u) /\
    (exists u v, x :: b :: zs = u ++ v /\ l :: ys' = v ++ u) /\
    place_how pl x l ys ys' /\
    match pl with
    | PHead h | PAfter h => last zs b = h
    | PTail h | PBefore h => b = h
    end.
Proof.
  assert (Hh : exists b zs,
    (exists u v, l :: ys = u ++ v /\ b :: zs = v ++ u) /\
    (exists u v, x :: b :: zs = u ++ v /\ l :: x :: ys = v ++ u) /\ last zs b = l).
  { destruct (ring_after_head l ys) as (b & zs & Hbz & Hl). exists b, zs.
    split; [exists [l], ys; now rewrite Hbz|]. split; [|exact Hl].
    exists (x :: ys), [l]. now rewrite Hbz. }
  assert (Ht : (exists u v, l :: ys = u ++ v /\ l :: ys = v ++ u) /\
    (exists u v, x :: l :: ys = u ++ v /\ l :: (ys ++ [x]) = v ++ u)).
  { split; [apply rot_id|]. exists [x], (l :: ys). auto. }
  destruct pl as [h|h|p|n]; cbn [place_how].
  - intros ->. destruct Hh as (b & zs & H1 & H2 & H3). exists b, zs, (x :: ys). auto.
  - intros ->. destruct Ht as [H1 H2]. exists l, ys, (ys ++ [x]). auto.
  - intros [->|Hp].
    + destruct Hh as (b & zs & H1 & H2 & H3). exists b, zs, (x :: ys). auto 6.
    + apply in_split in Hp as (a & c & ->).
      assert (exists b zs, b :: zs = c ++ (l :: a) ++ [p] /\ last zs b = p) as (b & zs & Hbz & Hl).
      { destruct c as [|b t].
        - exists l, (a ++ [p]). split; [auto|apply last_last].
        - exists b, (t ++ (l :: a) ++ [p]). split; [auto|]. rewrite app_assoc. apply last_last. }
      exists b, zs, (a ++ p :: x :: c). split; [|split; [|split; [right; eauto|exact Hl]]].
      * exists ((l :: a) ++ [p]), c. rewrite Hbz. cbn. rewrite <- app_assoc. auto.
      * exists (x :: c), ((l :: a) ++ [p]). rewrite Hbz. cbn. rewrite <- app_assoc. auto.
  - intros [->|Hn].
    + destruct Ht as [H1 H2]. exists n, ys, (ys ++ [x]). auto 6.
    + apply in_split in Hn as (a & c & ->).
      exists n, (c ++ l :: a), (a ++ x :: n :: c). split; [|split; [|split; [right; eauto|auto]]].
      * exists (l :: a), (n :: c). auto.
      * exists (x :: n :: c), (l :: a). auto.
Qed.

Lemma place_ok pl m w x :
  holds m w -> allowed w (place_op pl x) -> x <> place_node pl ->
  exists m' w1 w', place_fn pl m x = Ok m' /\ unlinked x w w1 /\
    inserted x w1 w' (place_how pl x) /\ holds m' w' /\
    (forall q, ~ In q (nodes w) -> m' q = m q).
Proof.
  intros Hh Hal H3.
  assert (Hadd : addable w x) by (destruct pl; cbn in Hal; tauto).
  destruct (del_ok m w x Hh Hadd) as (m1 & r1 & Hd & Hu & Hh1 & Hf1 & Hnp).
  assert (Hl : exists l ys, In (l, ys) r1 /\
     match pl with PHead h | PTail h => h = l | PAfter p | PBefore p => In p (l :: ys) end).
  { destruct pl as [h|h|p|p]; cbn [place_op allowed place_node] in Hal, H3; destruct Hal as (H1 & _).
    1,2: destruct (unlinked_head x w r1 h Hu H1) as (ys & Hys); [auto|]; now exists h, ys.
    all: apply (Permutation_in _ Hnp) in H1 as [H1|H1]; [congruence|];
      apply in_nodes in H1 as (l & ys & H1 & H2); now exists l, ys. }
  destruct Hl as (l & ys & Hin & Hpl).
  destruct (in_perm _ _ Hin) as (r & Hp).
  destruct (place_ring pl x l ys Hpl) as (b & zs & ys' & Hr1 & Hr2 & Hhow & Hab).
  assert (Hp1 : Permutation ((x, []) :: r1) ((x, []) :: (l, ys) :: r)) by now constructor.
  pose proof (holds_perm _ _ _ Hp1 Hh1) as Hh2.
  destruct (ins_pre m1 x l ys b zs r Hh2 Hr1) as (pa & nb & Ha & Hb & He & Hea & Heb).
  assert (Hlin : exists m', place_fn pl m x = Ok m' /\ meq m' (lin m1 (last zs b) x b)).
  { destruct pl as [h|h|p|n]; cbn [place_fn]; subst.
    - destruct (lin2 m1 _ _ x _ _ _ _ Ha Hb He Hea Heb) as (m' & H1 & H2).
      exists m'. split; [|exact H2]. unfold list_add_head. rewrite Hd. exact H1.
    - destruct (lin1 m1 _ _ x _ _ _ _ Ha Hb He Hea Heb) as (m' & H1 & H2).
      exists m'. split; [|exact H2]. unfold list_add_tail. rewrite Hd. exact H1.
    - destruct (lin3 m1 _ _ x _ _ _ _ Ha Hb He Hea Heb) as (m' & H1 & H2).
      exists m'. split; [|exact H2]. unfold list_add_after. rewrite Hd. exact H1.
    - destruct (lin1 m1 _ _ x _ _ _ _ Ha Hb He Hea Heb) as (m' & H1 & H2).
      exists m'. split; [|exact H2]. unfold list_add_before. rewrite Hd. exact H1. }
  destruct Hlin as (m' & Hfn & Hm).
  destruct (ins_ok m1 x l ys ys' b zs r m' Hh2 Hr1 Hr2 Hm) as [Hh3 Hf3].
  exists m', ((x, []) :: r1), ((l, ys') :: r).
  split; [exact Hfn|]. split; [exact Hu|]. split; [exists l, ys, ys', r; auto|].
  split; [exact Hh3|]. intros q Hq. rewrite Hf3; [auto|].
  intro Hi. apply Hq. apply (Permutation_in _ (Permutation_sym Hnp)).
  destruct Hi as [<-|Hi]; [now left|]. right. apply in_nodes. exists l, ys. auto.
Qed.

(** A node added next to itself is only taken out of its list. *)
Lemma self_ok pl m w x :
  holds m w -> allowed w (place_op pl x) -> x = place_node pl ->
  exists m' w', place_fn pl m x = Ok m' /\ unlinked x w w' /\ holds m' w'.
Proof.
  intros Hh Hal Hx.
  assert (Hadd : addable w x) by (destruct pl; cbn in Hal; tauto).
  destruct (del_ok m w x Hh Hadd) as (m1 & r1 & Hd & Hu & Hh1 & Hf1 & Hnp).
  assert (E : m1 x = Some (x, x)).
  { apply holds_cons in Hh1 as (Hc & _). apply NP_some; [apply (cyc_head _ _ _ Hc)|apply (cyc_last _ _ _ Hc)]. }
  assert (Hfn : exists m', place_fn pl m x = Ok m' /\ meq m' m1).
  { destruct pl as [h|h|p|n]; cbn [place_fn place_node] in *; subst;
      unfold list_add_head, list_add_tail, list_add_after, list_add_before; rewrite Hd; cbn [bind];
      memsolve; (eexists; split; [reflexivity|]); intro q; eqs; memsolve; congruence. }
  destruct Hfn as (m' & Hfn & Hm). exists m', ((x, []) :: r1). split; [exact Hfn|]. split; [exact Hu|].
  apply (holds_agree m1); auto.
Qed.

(** ** Observers *)
Lemma nxt_N m p v : N m p = Some v -> nxt m p = Ok v.
Proof. unfold N, nxt. now intros ->. Qed.
Lemma prv_P m p v : P m p = Some v -> prv m p = Ok v.
Proof. unfold P, prv. now intros ->. Qed.

Lemma loop_fwd {S} m l (b : S -> node -> S * bool) : forall xs s fuel,
  ~ In l xs -> links m (xs ++ [l]) -> (length xs < fuel)%nat ->
  foreach_loop nxt fuel m l (hd l (xs ++ [l])) b s = Ok (visit b s xs).
Proof.
  induction xs as [|x xs IH]; intros s fuel Hn Hl Hf; (destruct fuel as [|fuel]; [lia|]).
  - cbn. now rewrite Z.eqb_refl.
  - cbn [app hd foreach_loop visit]. destruct (Z.eqb_spec x l); [subst; elim Hn; now left|].
    destruct (b s x) as [s' [|]]; [reflexivity|].
    assert (Hnx : nxt m x = Ok (hd l (xs ++ [l])) /\ links m (xs ++ [l])).
    { destruct xs; cbn [app] in *; rewrite links_cons2 in Hl; split; try (apply nxt_N; tauto); tauto. }
    destruct Hnx as [-> Hl2]. cbn [bind]. apply IH; [|exact Hl2|cbn in Hf; lia].
    intro. apply Hn. now right.
Qed.

Lemma loop_bwd {S} m l (b : S -> node -> S * bool) : forall xs s fuel,
  ~ In l xs -> links m ([l] ++ xs) -> (length xs < fuel)%nat ->
  foreach_loop prv fuel m l (last ([l] ++ xs) l) b s = Ok (visit b s (rev xs)).
Proof.
  induction xs as [|x xs IH] using rev_ind; intros s fuel Hn Hl Hf; (destruct fuel as [|fuel]; [lia|]).
  - cbn. now rewrite Z.eqb_refl.
  - rewrite rev_app_distr. rewrite app_assoc, last_last. cbn [app rev foreach_loop visit].
    destruct (Z.eqb_spec x l); [subst; elim Hn; apply in_or_app; right; now left|].
    destruct (b s x) as [s' [|]]; [reflexivity|].
    assert (Hpx : prv m x = Ok (last ([l] ++ xs) l) /\ links m ([l] ++ xs)).
    { clear - Hl. destruct xs as [|z xs _] using rev_ind.
      - cbn [app] in *. rewrite links_cons2 in Hl. split; [apply prv_P; cbn; tauto|exact I].
      - replace ([l] ++ (xs ++ [z]) ++ [x]) with (([l] ++ xs) ++ z :: [x]) in Hl
          by (cbn; now rewrite <- app_assoc).
        rewrite links_app, links_cons2 in Hl. rewrite app_assoc, last_last.
        split; [apply prv_P; tauto|tauto]. }
    destruct Hpx as [-> Hl2]. cbn [bind]. apply IH; [|exact Hl2|].
    + intro. apply Hn. apply in_or_app. now left.
    + rewrite app_length in Hf. cbn in Hf. lia.
Qed.

Lemma cyc_parts m l xs : cyc m (l :: xs) ->
  N m l = Some (hd l (xs ++ [l])) /\ links m (xs ++ [l]) /\
  P m l = Some (last ([l] ++ xs) l) /\ links m ([l] ++ xs).
Proof.
  intro H. pose proof (cyc_head m l xs H) as HN. pose proof (cyc_last m l xs H) as HP.
  cbn [cyc app] in H. split; [destruct xs; exact HN|].
  split; [destruct xs; cbn [app] in *; rewrite links_cons2 in H; tauto|].
  split.
  - rewrite HP. destruct xs as [|z xs _] using rev_ind; [reflexivity|].
    now rewrite app_assoc, !last_last.
  - destruct xs as [|z xs _] using rev_ind; [exact I|].
    replace (l :: (xs ++ [z]) ++ [l]) with ((l :: xs) ++ z :: [l]) in H by (cbn; now rewrite <- app_assoc).
    rewrite links_app in H. cbn [app] in *. tauto.
Qed.

Lemma foreach_visits {S} m l xs (b : S -> node -> S * bool) s fuel :
  NoDup (l :: xs) -> cyc m (l :: xs) -> (length xs < fuel)%nat ->
  list_foreach fuel m l b s = Ok (visit b s xs) /\
  list_foreach_r fuel m l b s = Ok (visit b s (rev xs)).
Proof.
  intros Hnd Hc Hf. apply NoDup_cons_iff in Hnd as [Hn _].
  destruct (cyc_parts m l xs Hc) as (H1 & H2 & H3 & H4).
  unfold list_foreach, list_foreach_r. rewrite (nxt_N _ _ _ H1), (prv_P _ _ _ H3). cbn [bind].
  split; [now apply loop_fwd|now apply loop_bwd].
Qed.

Lemma visit_collect xs : forall s, visit (fun s (x : node) => (s ++ [x], false)) s xs = s ++ xs.
Proof.
  induction xs as [|x xs IH]; intro s; cbn; [now rewrite app_nil_r|].
  rewrite IH, <- app_assoc. reflexivity.
Qed.
Lemma visit_count xs : forall c, 0 <= c -> c + zlen xs < 2^64 ->
  visit (fun c (_ : node) => (u64 (c + 1), false)) c xs = c + zlen xs.
Proof.
  induction xs as [|x xs IH]; intros c H1 H2; cbn [visit].
  - change (zlen (@nil node)) with 0. lia.
  - rewrite zlen_cons in *. pose proof (zlen_nonneg xs).
    rewrite u64_small by lia. rewrite IH by lia. lia.
Qed.

Lemma cyc_shows m l xs : NoDup (l :: xs) -> cyc m (l :: xs) -> shows_list m l xs.
Proof.
  intros Hnd Hc. split; [|].
  - intros fuel Hf.
    destruct (foreach_visits m l xs (fun s x => (s ++ [x], false)) [] fuel Hnd Hc Hf) as [-> ->].
    rewrite !visit_collect. split; [reflexivity|]. split; [reflexivity|].
    intro Hs. unfold list_count.
    destruct (foreach_visits m l xs (fun c _ => (u64 (c + 1), false)) 0 fuel Hnd Hc Hf) as [-> _].
    rewrite visit_count by lia. reflexivity.
  - destruct (cyc_parts m l xs Hc) as (H1 & _ & H3 & _).
    unfold list_is_empty, list_head, list_tail. rewrite (nxt_N _ _ _ H1), (prv_P _ _ _ H3).
    cbn [bind]. apply NoDup_cons_iff in Hnd as [Hn _].
    split; [|split].
    + destruct xs as [|x xs]; cbn [app hd]; [now rewrite Z.eqb_refl|].
      destruct (Z.eqb_spec x l); [subst; elim Hn; now left|reflexivity].
    + destruct xs as [|x xs]; cbn [app hd hd_error]; [now rewrite Z.eqb_refl|].
      destruct (Z.eqb_spec x l); [subst; elim Hn; now left|reflexivity].
    + destruct xs as [|z xs _] using rev_ind; [cbn; now rewrite Z.eqb_refl|].
      rewrite app_assoc, last_last, rev_app_distr. cbn.
      destruct (Z.eqb_spec z l); [subst; elim Hn; apply in_or_app; right; now left|reflexivity].
Qed.

Lemma holds_in m w l xs : holds m w -> In (l, xs) w -> NoDup (l :: xs) /\ cyc m (l :: xs).
Proof.
  intros Hh Hi. destruct (in_perm _ _ Hi) as (r & Hp).
  apply (holds_perm _ _ _ Hp) in Hh. apply holds_cons in Hh. tauto.
Qed.

Lemma holds_shows m w : holds m w -> shows m w.
Proof.
  intros Hh. split; [apply Hh|]. intros l xs Hi.
  destruct (holds_in m w l xs Hh Hi). now apply cyc_shows.
Qed.

(** ** The deleting loops *)
Lemma nodes_singles xs : nodes (singles xs) = xs.
Proof. induction xs as [|x xs IH]; [reflexivity|]. cbn. f_equal. exact IH. Qed.

Lemma holds_drop m x xs w : holds m ((x, xs) :: w) -> holds m w.
Proof. rewrite holds_cons. tauto. Qed.

(** One round of the body on member [y]. *)
Lemma body_ok m l a y b r dec :
  holds m ((l, a ++ y :: b) :: r) ->
  exists m', (match dec y with
              | Keep => Ok m
              | Delete => list_del m y
              | DeleteFree => let* m := list_del m y in Ok (upd m y None)
              end) = Ok m' /\
    holds m' ((l, a ++ kept dec [y] ++ b) :: singles (loose dec [y]) ++ r) /\
    (forall q, ~ In q (l :: a ++ y :: b) -> m' q = m q).
Proof.
  intro Hh. unfold kept, loose. cbn [filter].
  destruct (dec y); cbn [app singles map].
  - exists m. auto.
  - destruct (del_member m l a y b r Hh) as (m' & Hd & Hh2 & Hf). exists m'.
    split; [exact Hd|]. split; [|exact Hf]. apply (holds_perm m' ((y, []) :: (l, a ++ b) :: r)); [|exact Hh2].
    apply perm_swap.
  - destruct (del_member m l a y b r Hh) as (m' & Hd & Hh2 & Hf). exists (upd m' y None).
    rewrite Hd. split; [reflexivity|]. apply holds_cons in Hh2 as (_ & _ & Hh2 & Hn).
    split.
    + apply (holds_agree m'); [exact Hh2|]. intros q Hq. unfold upd.
      destruct (Z.eqb_spec q y); [subst; elim (Hn y); [now left|exact Hq]|reflexivity].
    + intros q Hq. unfold upd. destruct (Z.eqb_spec q y); [|auto].
      subst. elim Hq. right. apply in_or_app. right. now left.
Qed.

Lemma kept_app dec a b : kept dec (a ++ b) = kept dec a ++ kept dec b.
Proof. unfold kept. apply filter_app. Qed.
Lemma loose_app dec a b : loose dec (a ++ b) = loose dec a ++ loose dec b.
Proof. unfold loose. apply filter_app. Qed.
Lemma singles_app a b : singles (a ++ b) = singles a ++ singles b.
Proof. apply map_app. Qed.

Lemma holds_def_nxt m w q : holds m w -> In q (nodes w) -> exists n p, nxt m q = Ok n /\ prv m q = Ok p.
Proof.
  intros Hh Hi. apply in_nodes in Hi as (l & xs & Hi & Hq).
  destruct (holds_in m w l xs Hh Hi) as [_ Hc].
  pose proof (cyc_defined m _ q Hc Hq) as Hd. unfold nxt, prv.
  destruct (m q) as [[u v]|]; [exists u, v; auto|congruence].
Qed.

Lemma nodes_loop_frame l a y b dec r q :
  In q (nodes ((l, a ++ kept dec [y] ++ b) :: singles (loose dec [y]) ++ r)) ->
  In q (nodes ((l, a ++ y :: b) :: r)).
Proof.
  rewrite !nodes_cons, nodes_app, nodes_singles. unfold kept, loose. cbn [filter].
  cbn [In]. rewrite !in_app_iff. destruct (dec y); cbn [In]; tauto.
Qed.

Lemma safe_fwd l dec : forall ys pre r m n,
  holds m ((l, pre ++ ys) :: r) ->
  nxt m (hd l (ys ++ [l])) = Ok n ->
  exists m', (forall fuel, (length ys < fuel)%nat ->
      safe_loop nxt fuel m l (hd l (ys ++ [l])) n dec = Ok (m', ys)) /\
    holds m' ((l, pre ++ kept dec ys) :: singles (loose dec ys) ++ r) /\
    (forall q, ~ In q (nodes ((l, pre ++ ys) :: r)) -> m' q = m q).
Proof.
  induction ys as [|y ys IH]; intros pre r m n Hh Hn.
  - exists m. split; [|auto]. intros [|fuel] Hf; [lia|]. cbn [app hd safe_loop]. now rewrite Z.eqb_refl.
  - cbn [app hd] in *.
    destruct (Z.eqb_spec y l) as [->|Hyl].
    { apply holds_cons in Hh as (_ & Hnd & _). apply NoDup_cons_iff in Hnd as [Hnd _].
      elim Hnd. apply in_or_app. right. now left. }
    assert (Hn2 : n = hd l (ys ++ [l])).
    { apply holds_cons in Hh as (Hc & _). apply cyc_parts in Hc as (_ & Hl & _).
      replace ((pre ++ y :: ys) ++ [l]) with (pre ++ y :: ys ++ [l]) in Hl by now rewrite <- app_assoc.
      rewrite links_app in Hl. destruct Hl as [_ Hl].
      destruct ys; cbn [app] in *; rewrite links_cons2 in Hl; destruct Hl as (Hl & _);
        apply nxt_N in Hl; cbn [hd]; congruence. }
    subst n.
    destruct (body_ok m l pre y ys r dec Hh) as (m1 & Hb & Hh1 & Hfr).
    destruct (holds_def_nxt m1 _ (hd l (ys ++ [l])) Hh1) as (n' & p' & Hn' & _).
    { rewrite nodes_cons. destruct ys; cbn [app hd]; [now left|].
      right. apply in_or_app. left. apply in_or_app. right. apply in_or_app. right. now left. }
    rewrite app_assoc in Hh1.
    destruct (IH (pre ++ kept dec [y]) (singles (loose dec [y]) ++ r) m1 n' Hh1 Hn') as (m2 & Hs & Hh2 & Hf2).
    exists m2. split; [|split].
    + intros [|fuel] Hf; [lia|]. cbn [safe_loop]. destruct (Z.eqb_spec y l); [congruence|].
      rewrite Hb. cbn [bind]. rewrite Hn'. cbn [bind]. rewrite Hs by (cbn in Hf; lia). reflexivity.
    + revert Hh2. apply holds_perm.
      change (y :: ys) with ([y] ++ ys). rewrite kept_app, loose_app, singles_app, <- !app_assoc.
      constructor. rewrite !app_assoc. apply Permutation_app_tail. apply Permutation_app_comm.
    + intros q Hq. rewrite Hf2, Hfr; [reflexivity| |].
      * intro Hi. apply Hq. apply in_nodes. exists l, (pre ++ y :: ys). split; [now left|exact Hi].
      * intro Hi. apply Hq. rewrite <- app_assoc in Hi. now apply (nodes_loop_frame _ _ _ _ dec).
Qed.

Lemma safe_bwd l dec : forall ys post r m n,
  holds m ((l, ys ++ post) :: r) ->
  prv m (last ([l] ++ ys) l) = Ok n ->
  exists m', (forall fuel, (length ys < fuel)%nat ->
      safe_loop prv fuel m l (last ([l] ++ ys) l) n dec = Ok (m', rev ys)) /\
    holds m' ((l, kept dec ys ++ post) :: singles (loose dec ys) ++ r) /\
    (forall q, ~ In q (nodes ((l, ys ++ post) :: r)) -> m' q = m q).
Proof.
  induction ys as [|y ys IH] using rev_ind; intros post r m n Hh Hn.
  - exists m. split; [|auto]. intros [|fuel] Hf; [lia|]. cbn [app last safe_loop]. now rewrite Z.eqb_refl.
  - rewrite app_assoc, last_last in *. rewrite rev_app_distr. cbn [rev app].
    rewrite <- app_assoc in Hh. cbn [app] in Hh.
    destruct (Z.eqb_spec y l) as [->|Hyl].
    { apply holds_cons in Hh as (_ & Hnd & _). apply NoDup_cons_iff in Hnd as [Hnd _].
      elim Hnd. apply in_or_app. right. now left. }
    assert (Hn2 : n = last ([l] ++ ys) l).
    { apply holds_cons in Hh as (Hc & _). apply cyc_parts in Hc as (_ & _ & _ & Hl).
      destruct ys as [|z ys _] using rev_ind.
      - cbn [app] in Hl. rewrite links_cons2 in Hl. destruct Hl as (_ & Hl & _).
        apply prv_P in Hl. cbn. congruence.
      - rewrite app_assoc, last_last.
        replace ([l] ++ (ys ++ [z]) ++ y :: post) with (([l] ++ ys) ++ z :: y :: post) in Hl
          by (cbn; now rewrite <- app_assoc).
        rewrite links_app, links_cons2 in Hl. destruct Hl as (_ & _ & Hl & _).
        apply prv_P in Hl. congruence. }
    subst n.
    destruct (body_ok m l ys y post r dec Hh) as (m1 & Hb & Hh1 & Hfr).
    destruct (holds_def_nxt m1 _ (last ([l] ++ ys) l) Hh1) as (n' & p' & _ & Hn').
    { rewrite nodes_cons. destruct ys as [|z ys _] using rev_ind; [now left|].
      rewrite app_assoc, last_last. right. apply in_or_app. left. apply in_or_app. left.
      apply in_or_app. right. now left. }
    destruct (IH (kept dec [y] ++ post) (singles (loose dec [y]) ++ r) m1 p' Hh1 Hn') as (m2 & Hs & Hh2 & Hf2).
    exists m2. split; [|split].
    + intros [|fuel] Hf; [lia|]. cbn [safe_loop]. destruct (Z.eqb_spec y l); [congruence|].
      rewrite Hb. cbn [bind]. rewrite Hn'. cbn [bind]. rewrite Hs by (rewrite app_length in Hf; cbn in Hf; lia). reflexivity.
    + revert Hh2. apply holds_perm.
      rewrite kept_app, loose_app, singles_app, <- !app_assoc. reflexivity.
    + intros q Hq. rewrite <- app_assoc in Hq. cbn [app] in Hq. rewrite Hf2, Hfr; [reflexivity| |].
      * intro Hi. apply Hq. apply in_nodes. exists l, (ys ++ y :: post). split; [now left|exact Hi].
      * intro Hi. apply Hq. now apply (nodes_loop_frame _ _ _ _ dec).
Qed.

Lemma kept_none ys : kept (fun _ => Delete) ys = [].
Proof. induction ys; auto. Qed.
Lemma loose_all ys : loose (fun _ => Delete) ys = ys.
Proof. induction ys as [|y ys IH]; [auto|]. cbn. f_equal. exact IH. Qed.

Lemma safe_ok m l ys r dec :
  holds m ((l, ys) :: r) ->
  (exists m', (forall fuel, (length ys < fuel)%nat -> list_foreach_safe fuel m l dec = Ok (m', ys)) /\
    holds m' ((l, kept dec ys) :: singles (loose dec ys) ++ r) /\
    (forall q, ~ In q (nodes ((l, ys) :: r)) -> m' q = m q)) /\
  (exists m', (forall fuel, (length ys < fuel)%nat -> list_foreach_safe_r fuel m l dec = Ok (m', rev ys)) /\
    holds m' ((l, kept dec ys) :: singles (loose dec ys) ++ r) /\
    (forall q, ~ In q (nodes ((l, ys) :: r)) -> m' q = m q)).
Proof.
  intros Hh. pose proof Hh as Hh0. apply holds_cons in Hh0 as (Hc & _).
  destruct (cyc_parts m l ys Hc) as (H1 & _ & H3 & _). split.
  - unfold list_foreach_safe. rewrite (nxt_N _ _ _ H1). cbn [bind].
    destruct (holds_def_nxt m _ (hd l (ys ++ [l])) Hh) as (n & p & Hn & _).
    { rewrite nodes_cons. destruct ys; cbn [app hd]; [now left|right; now left]. }
    rewrite Hn. cbn [bind]. apply (safe_fwd l dec ys [] r m n Hh Hn).
  - unfold list_foreach_safe_r. rewrite (prv_P _ _ _ H3). cbn [bind].
    destruct (holds_def_nxt m _ (last ([l] ++ ys) l) Hh) as (n & p & _ & Hn).
    { rewrite nodes_cons. destruct ys as [|z ys _] using rev_ind; [now left|].
      rewrite app_assoc, last_last. right. apply in_or_app. left. apply in_or_app. right. now left. }
    rewrite Hn. cbn [bind].
    replace ys with (ys ++ []) in Hh by apply app_nil_r.
    destruct (safe_bwd l dec ys [] r m p Hh Hn) as (m' & A1 & A2 & A3).
    exists m'. rewrite app_nil_r in A2, A3. auto.
Qed.

(** ** One step *)
Lemma is_head_perm w l : is_head w l -> exists ys r, Permutation w ((l, ys) :: r).
Proof. intros (ys & Hi). destruct (in_perm _ _ Hi) as (r & Hp). eauto. Qed.

Lemma length_nodes_perm w l ys r : Permutation w ((l, ys) :: r) -> (length ys < length (nodes w))%nat.
Proof.
  intro Hp. rewrite (Permutation_length (nodes_perm _ _ Hp)), nodes_cons. cbn [length].
  rewrite app_length. lia.
Qed.

Lemma step_ok m w o :
  holds m w -> allowed w o ->
  exists m' ret w', ideal w o w' ret /\ holds m' w' /\
    (forall fuel, (length (nodes w) < fuel)%nat -> list_step fuel m o = Ok (m', ret)).
Proof.
  intros Hh Hal.
  assert (Hplace : forall pl x, o = place_op pl x ->
    exists m' w1 w', place_fn pl m x = Ok m' /\ unlinked x w w1 /\
    (if x =? place_node pl then w' = w1 else inserted x w1 w' (place_how pl x)) /\ holds m' w').
  { intros pl x ->. destruct (Z.eqb_spec x (place_node pl)) as [E|E].
    - destruct (self_ok pl m w x Hh Hal E) as (m' & w' & H1 & H2 & H3). exists m', w', w'. auto.
    - destruct (place_ok pl m w x Hh Hal E) as (m' & w1 & w' & H1 & H2 & H3 & H4 & _).
      exists m', w1, w'. auto. }
  destruct o as [l|l x|l x|p x|n x|l|l|x|l|l dec|l dec]; cbn [ideal allowed list_step] in *.
  - destruct Hal as [Hz Hl]. exists (list_init m l), [], ((l, []) :: w).
    split; [auto|]. split; [|auto].
    rewrite holds_cons. split.
    { cbn [cyc app]. rewrite links_cons2. unfold N, P, list_init, upd. rewrite Z.eqb_refl. repeat split. }
    split; [constructor; [easy|constructor]|]. split.
    { apply (holds_agree m); [exact Hh|]. intros q Hq. unfold list_init, upd.
      destruct (Z.eqb_spec q l); [subst; contradiction|reflexivity]. }
    { intros q [<-|[]]. exact Hl. }
  - destruct (Hplace (PHead l) x eq_refl) as (m' & w1 & w' & H1 & H2 & H3 & H4).
    exists m', [], w'. split; [split; [auto|exists w1; auto]|]. split; [exact H4|].
    intros. cbn in H1. now rewrite H1.
  - destruct (Hplace (PTail l) x eq_refl) as (m' & w1 & w' & H1 & H2 & H3 & H4).
    exists m', [], w'. split; [split; [auto|exists w1; auto]|]. split; [exact H4|].
    intros. cbn in H1. now rewrite H1.
  - destruct (Hplace (PAfter p) x eq_refl) as (m' & w1 & w' & H1 & H2 & H3 & H4).
    exists m', [], w'. split; [split; [auto|exists w1; auto]|]. split; [exact H4|].
    intros. cbn in H1. now rewrite H1.
  - destruct (Hplace (PBefore n) x eq_refl) as (m' & w1 & w' & H1 & H2 & H3 & H4).
    exists m', [], w'. split; [split; [auto|exists w1; auto]|]. split; [exact H4|].
    intros. cbn in H1. now rewrite H1.
  - destruct (is_head_perm _ _ Hal) as (ys & r & Hp).
    pose proof (holds_perm _ _ _ Hp Hh) as Hh2. pose proof Hh2 as Hh3.
    apply holds_cons in Hh3 as (Hc & Hnd & _).
    destruct (cyc_shows m l ys Hnd Hc) as (_ & He & _ & _).
    destruct (cyc_parts m l ys Hc) as (H1 & _ & H3 & _).
    unfold list_pop_head. rewrite (nxt_N _ _ _ H1), He. cbn [bind].
    destruct ys as [|x ys].
    + exists m, [], w. split; [left; eauto|]. auto.
    + cbn [app hd]. destruct (del_member m l [] x ys r Hh2) as (m' & Hd & Hh4 & _).
      rewrite Hd. exists m', [x], ((x, []) :: (l, ys) :: r).
      split; [right; exists x, ys, r; auto|]. auto.
  - destruct (is_head_perm _ _ Hal) as (ys & r & Hp).
    pose proof (holds_perm _ _ _ Hp Hh) as Hh2. pose proof Hh2 as Hh3.
    apply holds_cons in Hh3 as (Hc & Hnd & _).
    destruct (cyc_shows m l ys Hnd Hc) as (_ & He & _ & _).
    destruct (cyc_parts m l ys Hc) as (H1 & _ & H3 & _).
    unfold list_pop_tail. rewrite (prv_P _ _ _ H3), He. cbn [bind].
    destruct ys as [|x ys _] using rev_ind.
    + exists m, [], w. split; [left; eauto|]. auto.
    + assert (Hne : match ys ++ [x] with [] => true | _ => false end = false) by now destruct ys.
      rewrite Hne. rewrite app_assoc, last_last.
      destruct (del_member m l ys x [] r Hh2) as (m' & Hd & Hh4 & _).
      rewrite Hd. exists m', [x], ((x, []) :: (l, ys) :: r). rewrite app_nil_r in Hh4.
      split; [right; exists x, ys, r; auto|]. auto.
  - destruct (del_ok m w x Hh Hal) as (m' & r & Hd & Hu & Hh2 & _).
    exists m', [], ((x, []) :: r). rewrite Hd. auto.
  - destruct (is_head_perm _ _ Hal) as (ys & r & Hp).
    pose proof (holds_perm _ _ _ Hp Hh) as Hh2. pose proof (length_nodes_perm _ _ _ _ Hp) as Hlen.
    destruct (safe_ok m l ys r (fun _ => Delete) Hh2) as [(m' & Hs & Hh3 & _) _].
    rewrite kept_none, loose_all in Hh3.
    exists m', [], ((l, []) :: singles ys ++ r). split; [split; [auto|eauto]|]. split; [exact Hh3|].
    intros fuel Hf. unfold list_clear. rewrite Hs by lia. reflexivity.
  - destruct (is_head_perm _ _ Hal) as (ys & r & Hp).
    pose proof (holds_perm _ _ _ Hp Hh) as Hh2. pose proof (length_nodes_perm _ _ _ _ Hp) as Hlen.
    destruct (safe_ok m l ys r dec Hh2) as [(m' & Hs & Hh3 & _) _].
    exists m', ys, ((l, kept dec ys) :: singles (loose dec ys) ++ r). split; [exists ys, r; auto|].
    split; [exact Hh3|]. intros fuel Hf. apply Hs. lia.
  - destruct (is_head_perm _ _ Hal) as (ys & r & Hp).
    pose proof (holds_perm _ _ _ Hp Hh) as Hh2. pose proof (length_nodes_perm _ _ _ _ Hp) as Hlen.
    destruct (safe_ok m l ys r dec Hh2) as [_ (m' & Hs & Hh3 & _)].
    exists m', (rev ys), ((l, kept dec ys) :: singles (loose dec ys) ++ r). split; [exists ys, r; auto|].
    split; [exact Hh3|]. intros fuel Hf. apply Hs. lia.
Qed.

Lemma history_ok ops : forall m w, holds m w -> obeys m w ops.
Proof.
  induction ops as [|o ops IH]; intros m w Hh; (split; [now apply holds_shows|]); [exact I|].
  intro Hal. destruct (step_ok m w o Hh Hal) as (m' & ret & w' & Hi & Hh' & Hs).
  exists w', ret. split; [exact Hi|]. exists m'. split; [exact Hs|auto].
Qed.

(** ** [ideal] is deterministic up to the order of the world *)
Lemma nodup_entry w l xs l' xs' q : NoDup (nodes w) -> In (l, xs) w -> In (l', xs') w ->
  In q (l :: xs) -> In q (l' :: xs') -> (l, xs) = (l', xs').
Proof.
  intros Hnd Hi Hi' Hq Hq'.
  apply in_split in Hi as (a & b & ->).
  apply in_app_or in Hi' as [Hi'|[Hi'|Hi']].
  - exfalso. rewrite nodes_app in Hnd. apply nodup_app in Hnd as (_ & _ & Hd). apply (Hd q).
    + apply in_nodes. eauto.
    + apply in_nodes. exists l, xs. split; [now left|exact Hq].
  - congruence.
  - exfalso. rewrite nodes_app in Hnd. apply nodup_app in Hnd as (_ & Hnd & _).
    rewrite nodes_cons in Hnd. change (l :: xs ++ nodes b) with ((l :: xs) ++ nodes b) in Hnd.
    apply nodup_app in Hnd as (_ & _ & Hd). apply (Hd q Hq). apply in_nodes. eauto.
Qed.

Lemma split_unique {A} (x : A) a b a' b' :
  NoDup (a ++ x :: b) -> a ++ x :: b = a' ++ x :: b' -> a = a' /\ b = b'.
Proof.
  revert a'. induction a as [|y a IH]; intros [|y' a'] Hnd He; cbn in *.
  - injection He as ->. auto.
  - injection He as -> He. apply NoDup_cons_iff in Hnd as [Hn _]. elim Hn. rewrite He.
    apply in_or_app. right. now left.
  - injection He as -> He. apply NoDup_cons_iff in Hnd as [Hn _]. elim Hn.
    apply in_or_app. right. now left.
  - injection He as -> He. apply NoDup_cons_iff in Hnd as [_ Hnd].
    destruct (IH a' Hnd He) as [-> ->]. auto.
Qed.

Lemma entry_perm w l xs r l' xs' r' q : NoDup (nodes w) ->
  Permutation w ((l, xs) :: r) -> Permutation w ((l', xs') :: r') ->
  In q (l :: xs) -> In q (l' :: xs') -> l = l' /\ xs = xs' /\ Permutation r r'.
Proof.
  intros Hnd Hp Hp' Hq Hq'.
  assert (He : (l, xs) = (l', xs')).
  { apply (nodup_entry w _ _ _ _ q Hnd); auto.
    - apply (Permutation_in _ (Permutation_sym Hp)). now left.
    - apply (Permutation_in _ (Permutation_sym Hp')). now left. }
  injection He as <- <-. split; [auto|]. split; [auto|].
  apply (Permutation_cons_inv (a := (l, xs))). now rewrite <- Hp, <- Hp'.
Qed.

Lemma nodup_list w l xs : NoDup (nodes w) -> In (l, xs) w -> NoDup (l :: xs).
Proof.
  intros Hnd Hi. apply in_split in Hi as (a & b & ->).
  rewrite nodes_app, nodes_cons in Hnd. apply nodup_app in Hnd as (_ & Hnd & _).
  change (l :: xs ++ nodes b) with ((l :: xs) ++ nodes b) in Hnd. now apply nodup_app in Hnd.
Qed.

Lemma unlinked_nodes x w w1 : unlinked x w w1 -> Permutation (nodes w) (nodes w1).
Proof.
  intros [(r & Hp & ->)|(l & a & b & r & Hp & ->)]; rewrite (nodes_perm _ _ Hp); [reflexivity|].
  rewrite !nodes_cons. cbn [app].
  change (l :: (a ++ x :: b) ++ nodes r) with ((l :: a ++ x :: b) ++ nodes r).
  change (x :: l :: (a ++ b) ++ nodes r) with ((x :: l :: a ++ b) ++ nodes r).
  apply Permutation_app_tail. rewrite perm_swap. constructor. symmetry. apply Permutation_middle.
Qed.

Lemma unlinked_det x w w1 w2 : NoDup (nodes w) ->
  unlinked x w w1 -> unlinked x w w2 -> Permutation w1 w2.
Proof.
  intros Hnd [(r & Hp & ->)|(l & a & b & r & Hp & ->)] [(r' & Hp' & ->)|(l' & a' & b' & r' & Hp' & ->)].
  - constructor. destruct (entry_perm w x [] r x [] r' x Hnd Hp Hp') as (_ & _ & H); auto; now left.
  - destruct (entry_perm w x [] r l' (a' ++ x :: b') r' x Hnd Hp Hp') as (_ & H & _).
    + now left.
    + right. apply in_or_app. right. now left.
    + destruct a'; discriminate.
  - destruct (entry_perm w l (a ++ x :: b) r x [] r' x Hnd Hp Hp') as (_ & H & _).
    + right. apply in_or_app. right. now left.
    + now left.
    + destruct a; discriminate.
  - destruct (entry_perm w l (a ++ x :: b) r l' (a' ++ x :: b') r' x Hnd Hp Hp') as (<- & H & Hr).
    + right. apply in_or_app. right. now left.
    + right. apply in_or_app. right. now left.
    + assert (Hnx : NoDup (a ++ x :: b)).
      { assert (Hl : NoDup (l :: a ++ x :: b)).
        { apply (nodup_list w); [exact Hnd|]. apply (Permutation_in _ (Permutation_sym Hp)). now left. }
        now apply NoDup_cons_iff in Hl. }
      destruct (split_unique x a b a' b' Hnx H) as [-> ->]. now do 2 constructor.
Qed.

Lemma inserted_det x w1 w2 w' w'' pl : NoDup (nodes w1) -> Permutation w1 w2 ->
  inserted x w1 w' (place_how pl x) -> inserted x w2 w'' (place_how pl x) -> Permutation w' w''.
Proof.
  intros Hnd Hp (l & ys & ys' & r & Hp1 & -> & Hh1) (l2 & ys2 & ys2' & r2 & Hp2 & -> & Hh2).
  rewrite <- Hp in Hp2.
  assert (Hq : exists q, In q (l :: ys) /\ In q (l2 :: ys2)).
  { destruct pl as [h|h|p|p]; cbn [place_how] in *.
    - destruct Hh1, Hh2. subst. exists h. split; now left.
    - destruct Hh1, Hh2. subst. exists h. split; now left.
    - exists p. split.
      + destruct Hh1 as [[-> _]|(a & b & -> & _)]; [now left|right; apply in_or_app; right; now left].
      + destruct Hh2 as [[-> _]|(a & b & -> & _)]; [now left|right; apply in_or_app; right; now left].
    - exists p. split.
      + destruct Hh1 as [[-> _]|(a & b & -> & _)]; [now left|right; apply in_or_app; right; now left].
      + destruct Hh2 as [[-> _]|(a & b & -> & _)]; [now left|right; apply in_or_app; right; now left]. }
  destruct Hq as (q & Hq1 & Hq2).
  assert (Hpr : Permutation ((l, ys) :: r) ((l2, ys2) :: r2)).
  { apply (Permutation_cons_inv (a := (x, []))). now rewrite <- Hp1, <- Hp2. }
  assert (Hnd2 : NoDup (nodes ((l, ys) :: r))).
  { apply (Permutation_NoDup (nodes_perm _ _ Hp1)) in Hnd. rewrite nodes_cons in Hnd.
    apply NoDup_cons_iff in Hnd. apply Hnd. }
  destruct (entry_perm _ l ys r l2 ys2 r2 q Hnd2 (Permutation_refl _) Hpr Hq1 Hq2) as (<- & <- & Hr).
  assert (Hnl : NoDup (l :: ys)) by (apply (nodup_list _ l ys Hnd2); now left).
  pose proof (proj1 (NoDup_cons_iff l ys) Hnl) as [Hnl1 Hnl2].
  assert (ys' = ys2').
  { destruct pl as [h|h|p|p]; cbn [place_how] in *.
    - destruct Hh1, Hh2. congruence.
    - destruct Hh1, Hh2. congruence.
    - destruct Hh1 as [[-> ->]|(a & b & E1 & ->)], Hh2 as [[E2 ->]|(a2 & b2 & E2 & ->)]; [auto| | |].
      + elim Hnl1. rewrite E2. apply in_or_app. right. now left.
      + subst. elim Hnl1. apply in_or_app. right. now left.
      + subst ys. destruct (split_unique p a b a2 b2 Hnl2 E2) as [-> ->]. auto.
    - destruct Hh1 as [[-> ->]|(a & b & E1 & ->)], Hh2 as [[E2 ->]|(a2 & b2 & E2 & ->)]; [auto| | |].
      + elim Hnl1. rewrite E2. apply in_or_app. right. now left.
      + subst. elim Hnl1. apply in_or_app. right. now left.
      + subst ys. destruct (split_unique p a b a2 b2 Hnl2 E2) as [-> ->]. auto. }
  subst. now constructor.
Qed.

Lemma ideal_det w o w1 w2 r1 r2 : NoDup (nodes w) ->
  ideal w o w1 r1 -> ideal w o w2 r2 -> r1 = r2 /\ Permutation w1 w2.
Proof.
  intros Hnd H1 H2.
  assert (Hpl : forall pl x w1' w2', unlinked x w w1' ->
     (if x =? place_node pl then w1 = w1' else inserted x w1' w1 (place_how pl x)) ->
     unlinked x w w2' ->
     (if x =? place_node pl then w2 = w2' else inserted x w2' w2 (place_how pl x)) -> Permutation w1 w2).
  { intros pl x w1' w2' A1 A2 A3 A4.
    pose proof (unlinked_det x w _ _ Hnd A1 A3) as Hp.
    destruct (x =? place_node pl); [now subst|].
    eapply inserted_det; [|exact Hp|exact A2|exact A4].
    apply (Permutation_NoDup (unlinked_nodes _ _ _ A1) Hnd). }
  destruct o as [l|l x|l x|p x|n x|l|l|x|l|l dec|l dec]; cbn [ideal] in *.
  - destruct H1, H2. subst. auto.
  - destruct H1 as (-> & a & A1 & A2), H2 as (-> & b & B1 & B2). split; [auto|].
    exact (Hpl (PHead l) x a b A1 A2 B1 B2).
  - destruct H1 as (-> & a & A1 & A2), H2 as (-> & b & B1 & B2). split; [auto|].
    exact (Hpl (PTail l) x a b A1 A2 B1 B2).
  - destruct H1 as (-> & a & A1 & A2), H2 as (-> & b & B1 & B2). split; [auto|].
    exact (Hpl (PAfter p) x a b A1 A2 B1 B2).
  - destruct H1 as (-> & a & A1 & A2), H2 as (-> & b & B1 & B2). split; [auto|].
    exact (Hpl (PBefore n) x a b A1 A2 B1 B2).
  - destruct H1 as [(r & P1 & -> & ->)|(x & ys & r & P1 & -> & ->)],
      H2 as [(r' & P2 & -> & ->)|(x' & ys' & r' & P2 & -> & ->)];
      destruct (entry_perm w _ _ _ _ _ _ l Hnd P1 P2 (or_introl eq_refl) (or_introl eq_refl)) as (_ & E & Hr);
      try discriminate; [auto|].
    injection E as -> ->. split; [auto|]. now do 2 constructor.
  - destruct H1 as [(r & P1 & -> & ->)|(x & ys & r & P1 & -> & ->)],
      H2 as [(r' & P2 & -> & ->)|(x' & ys' & r' & P2 & -> & ->)];
      destruct (entry_perm w _ _ _ _ _ _ l Hnd P1 P2 (or_introl eq_refl) (or_introl eq_refl)) as (_ & E & Hr).
    + auto.
    + destruct ys'; discriminate.
    + destruct ys; discriminate.
    + apply app_inj_tail in E as [-> ->]. split; [auto|]. now do 2 constructor.
  - destruct H1 as [-> A1], H2 as [-> A2]. split; [auto|]. now apply (unlinked_det x w).
  - destruct H1 as (-> & ys & r & P1 & ->), H2 as (-> & ys' & r' & P2 & ->). split; [auto|].
    destruct (entry_perm w _ _ _ _ _ _ l Hnd P1 P2 (or_introl eq_refl) (or_introl eq_refl)) as (_ & <- & Hr).
    constructor. now apply Permutation_app_head.
  - destruct H1 as (ys & r & P1 & -> & ->), H2 as (ys' & r' & P2 & -> & ->).
    destruct (entry_perm w _ _ _ _ _ _ l Hnd P1 P2 (or_introl eq_refl) (or_introl eq_refl)) as (_ & <- & Hr).
    split; [auto|]. constructor. now apply Permutation_app_head.
  - destruct H1 as (ys & r & P1 & -> & ->), H2 as (ys' & r' & P2 & -> & ->).
    destruct (entry_perm w _ _ _ _ _ _ l Hnd P1 P2 (or_introl eq_refl) (or_introl eq_refl)) as (_ & <- & Hr).
    split; [auto|]. constructor. now apply Permutation_app_head.
Qed.

(** More fuel never changes a finished loop, so any successful step agrees
    with the one of [step_ok]. *)
Lemma foreach_safe_fuel step dec l : forall f m e n r, safe_loop step f m l e n dec = Ok r ->
  forall f', (f <= f')%nat -> safe_loop step f' m l e n dec = Ok r.
Proof.
  induction f as [|f IH]; intros m e n r H f' Hle; [discriminate|].
  destruct f' as [|f']; [lia|]. cbn [safe_loop] in *.
  destruct (e =? l); [exact H|].
  destruct (match dec e with Keep => _ | Delete => _ | DeleteFree => _ end) as [m1| |]; try discriminate.
  cbn [bind] in *. destruct (step m1 n) as [n1| |]; try discriminate. cbn [bind] in *.
  destruct (safe_loop step f m1 l n n1 dec) as [[m2 vs]| |] eqn:E; try discriminate.
  rewrite (IH _ _ _ _ E f') by lia. exact H.
Qed.

Lemma step_fuel f m o r : list_step f m o = Ok r -> forall f', (f <= f')%nat -> list_step f' m o = Ok r.
Proof.
  intros H f' Hle. destruct o; cbn [list_step] in *; try exact H.
  - unfold list_clear, list_foreach_safe in *.
    destruct (nxt m l) as [e| |]; try discriminate. cbn [bind] in *.
    destruct (nxt m e) as [n| |]; try discriminate. cbn [bind] in *.
    destruct (safe_loop nxt f m l e n (fun _ => Delete)) as [[m2 vs]| |] eqn:E; try discriminate.
    now rewrite (foreach_safe_fuel _ _ _ _ _ _ _ _ E f' Hle).
  - unfold list_foreach_safe in *.
    destruct (nxt m l) as [e| |]; try discriminate. cbn [bind] in *.
    destruct (nxt m e) as [n| |]; try discriminate. cbn [bind] in *.
    now apply (foreach_safe_fuel _ _ _ f).
  - unfold list_foreach_safe_r in *.
    destruct (prv m l) as [e| |]; try discriminate. cbn [bind] in *.
    destruct (prv m e) as [n| |]; try discriminate. cbn [bind] in *.
    now apply (foreach_safe_fuel _ _ _ f).
Qed.

Lemma reach_holds m w : reach m w -> holds m w.
Proof.
  induction 1 as [|m w fuel o m' w' ret Hr IH Hal Hs Hi].
  - split; constructor.
  - destruct (step_ok m w o IH Hal) as (m2 & ret2 & w2 & Hi2 & Hh2 & Hs2).
    pose proof (step_fuel _ _ _ _ Hs (fuel + S (length (nodes w)))%nat) as Hs3.
    rewrite Hs2 in Hs3 by lia. specialize (Hs3 ltac:(lia)). injection Hs3 as -> ->.
    destruct (ideal_det w o w2 w' ret ret (proj1 IH) Hi2 Hi) as [_ Hp].
    exact (holds_perm _ _ _ Hp Hh2).
Qed.
