(** Properties of macro arguments that read or change the container, or use
    variables of the caller (C142, C143). *)
From Coq Require Import String.
From Verif Require Import Base ArrayModel ArraySpec ArrayProofs QueueModel QueueSpec QueueProofs QueueProps ArgModel.
Local Open Scope string_scope.
Local Open Scope list_scope.
Local Open Scope Z_scope.

(** ** Specification *)

(** What a queue argument means to its reader: on a queue showing [l] it gives [x]
    and leaves [l']. *)
Definition gives {A} (l : list A) (e : qexpr A) (x : A) (l' : list A) : Prop :=
  match e with
  | Value y => x = y /\ l' = l
  | At i => zget l i = Some x /\ l' = l
  | PeekFirst => (exists r, l = x :: r) /\ l' = l
  | PeekLast => (exists r, l = r ++ [x]) /\ l' = l
  | Size f => x = f (zlen l) /\ l' = l
  | PopFirst => l = x :: l'
  | PopLast => l = l' ++ [x]
  end.
(** From here on the queue behaves as the sequence [l], whatever is called. *)
Definition q_is {A} (zero : A) (q : queue A) (l : list A) : Prop := forall ops, q_obeys zero q l ops.
(** An add is refused only for these reasons. *)
Definition refusal {A} (q : queue A) (l : list A) (ok : bool) : Prop := q_oom q = true \/ ok = false \/ 2^63 - 1 <= zlen l.

(** [a_reach sz a l]: some history of allowed calls from init leads to array [a]
    while the ideal sequence has become [l]. *)
Inductive a_reach {A} (sz : Z) : arr A -> list A -> Prop :=
| a_reach_init : a_reach sz arr_init []
| a_reach_step a l o a' : a_reach sz a l -> allowed l o -> arr_step sz a o = Ok a' -> a_reach sz a' (ideal l o (arr_oom a')).
(** From here on the array behaves as the sequence [l]. *)
Definition a_is {A} (sz : Z) (a : arr A) (l : list A) : Prop := forall ops, obeys sz a l ops.
(** What an array argument means to its reader: the value it has in the caller's
    scope, on the array as it is. *)
Definition a_gives {A} (s : scope) (l : list A) (e : aexpr A) (x : A) : Prop :=
  match e with
  | AValue y => x = y
  | AAt i => zget l i = Some x
  | ALast => exists r, l = r ++ [x]
  | ASize f => x = f (zlen l)
  | AVar v f => exists y, s v = Some y /\ x = f y
  end.
(** The value of an integer argument in the caller's scope, and the scope after
    evaluating it once. *)
Definition i_gives (s : scope) (e : iexpr) (x : Z) (s' : scope) : Prop :=
  match e with
  | Num y => x = y /\ (forall v, s' v = s v)
  | Plus v c => (exists y, s v = Some y /\ x = y + c) /\ (forall v, s' v = s v)
  | Incr v => s v = Some x /\ s' v = Some (x + 1) /\ (forall w, w <> v -> s' w = s w)
  end.

(** ** Queues *)

Ltac qw := unfold wrap in *; repeat match goal with
  | |- context [if ?a <? ?b then _ else _] => destruct (Z.ltb_spec a b)
  | H : context [if ?a <? ?b then _ else _] |- _ => destruct (Z.ltb_spec a b)
  end.

Section Queue.
Context {A : Type}.
Implicit Types (q : queue A) (l : list A).

Lemma expand_room (zero : A) q l ok : qwf q l -> zlen l + 1 < qcap q -> q_expand zero q ok = Ok q.
Proof.
  intros Hwf Hroom. pose proof (qcap_range _ _ Hwf) as Hc. pose proof (zlen_nonneg l) as Hl0.
  pose proof Hwf as (Hk & He & Hf & Hl & Hla & Hi). unfold q_expand.
  rewrite (mask_wrap q l) by (auto; rewrite Hla; qw; lia). cbv zeta.
  destruct (Z.eqb_spec (wrap (qcap q) (qlast q + 1)) (qfirst q)) as [E|]; [|reflexivity].
  exfalso. rewrite Hla in E. qw; lia.
Qed.
(** The two stores, on a queue with room. *)
Lemma store_last (zero : A) q l x : qwf q l -> zlen l + 1 < qcap q -> qoom q = false ->
  exists q', (let* e := zput (qelems q) (qlast q) x in Ok (mk_q false (qcap q) (qfirst q) (mask (qlast q + 1) (qcap q)) e)) = Ok q' /\
    qoom q' = false /\ qwf q' (l ++ [x]).
Proof.
  intros Hwf Hr Ho. destruct (add_last_ok zero q l x true Hwf) as (q' & E & Hw & _). unfold q_add_last in E.
  rewrite (expand_room zero q l true Hwf Hr) in E. cbn [bind] in E. rewrite Ho in E.
  exists q'. split; [exact E|]. destruct (zput (qelems q) (qlast q) x); try discriminate E. injection E as <-. cbn [qoom] in *. auto.
Qed.
Lemma store_first (zero : A) q l x : qwf q l -> zlen l + 1 < qcap q -> qoom q = false ->
  exists q', (let* e := zput (qelems q) (mask (qfirst q - 1) (qcap q)) x in Ok (mk_q false (qcap q) (mask (qfirst q - 1) (qcap q)) (qlast q) e)) = Ok q' /\
    qoom q' = false /\ qwf q' (x :: l).
Proof.
  intros Hwf Hr Ho. destruct (add_first_ok zero q l x true Hwf) as (q' & E & Hw & _). unfold q_add_first in E.
  rewrite (expand_room zero q l true Hwf Hr) in E. cbn [bind] in E. rewrite Ho in E. cbv zeta in E.
  exists q'. split; [exact E|]. destruct (zput (qelems q) _ x); try discriminate E. injection E as <-. cbn [qoom] in *. auto.
Qed.

Lemma eval_ok q l e x l' : qwf q l -> gives l e x l' -> e <> PopLast ->
  exists q', q_eval q e = Ok (q', x) /\ qwf q' l' /\ qoom q' = qoom q /\ qcap q' = qcap q.
Proof.
  intros Hwf Hg He. pose proof (qwf_shows _ _ Hwf) as (Hs & _ & Hat & Hpf & Hpl).
  destruct e as [y|i| | |f| |]; cbn [gives q_eval] in *.
  - destruct Hg as [-> ->]. exists q. auto.
  - destruct Hg as [Hg ->]. rewrite (Hat _ _ Hg). cbn [bind]. exists q. auto.
  - destruct Hg as [(r & Hg) ->]. rewrite (Hpf _ _ Hg). cbn [bind]. exists q. auto.
  - destruct Hg as [(r & Hg) ->]. rewrite (Hpl _ _ Hg). cbn [bind]. exists q. auto.
  - destruct Hg as [-> ->]. rewrite Hs. exists q. auto.
  - subst l. destruct (del_first_ok q l' x Hwf) as (q' & E & Hw & Ho). exists q'. split; [exact E|]. split; [exact Hw|]. split; [exact Ho|].
    unfold q_del_first in E. destruct (zload (qelems q) (qfirst q)); try discriminate E. injection E as <- _. reflexivity.
  - congruence.
Qed.

(** After (q)->first has been moved back the queue shows one more item: whatever is
    in the free slot. *)
Lemma moved_wf q l : qwf q l -> zlen l + 1 < qcap q ->
  exists y, qwf (mk_q false (qcap q) (mask (qfirst q - 1) (qcap q)) (qlast q) (qelems q)) (y :: l).
Proof.
  intros Hwf Hr. pose proof (qcap_range _ _ Hwf) as Hc. pose proof (zlen_nonneg l) as Hl0.
  pose proof Hwf as (Hk & He & Hf & Hl & Hla & Hi). rewrite (mask_wrap q l) by (auto; lia).
  set (f' := wrap (qcap q) (qfirst q - 1)). assert (Hf' : 0 <= f' < qcap q) by (subst f'; qw; lia).
  destruct (zget (qelems q) f') as [y|] eqn:Ey; [|apply zget_None in Ey; lia].
  exists y. split; [auto|]. cbn [qcap qelems qfirst qlast]. rewrite zlen_cons. split; [auto|]. split; [auto|]. split; [lia|]. split.
  - rewrite Hla. subst f'. qw; lia.
  - intros i x Hx. pose proof (zget_Some_range _ _ _ Hx) as Hri. rewrite zlen_cons in Hri. rewrite zget_cons in Hx. destruct (Z.eqb_spec i 0) as [->|].
    + injection Hx as <-. rewrite Z.add_0_r. replace (wrap (qcap q) f') with f' by (unfold wrap; destruct (f' <? 0) eqn:?, (f' <? qcap q) eqn:?; lia). exact Ey.
    + specialize (Hi _ _ Hx). replace (wrap (qcap q) (f' + i)) with (wrap (qcap q) (qfirst q + (i - 1))) by (subst f'; qw; lia). exact Hi.
Qed.
Lemma store_head q l y x : qwf q (y :: l) ->
  exists q', (let* e := zput (qelems q) (qfirst q) x in Ok (mk_q false (qcap q) (qfirst q) (qlast q) e)) = Ok q' /\ qoom q' = false /\ qwf q' (x :: l).
Proof.
  intros Hwf. pose proof (qcap_range _ _ Hwf) as Hc. pose proof (zlen_nonneg l) as Hl0.
  pose proof Hwf as (Hk & He & Hf & Hl & Hla & Hi). rewrite zlen_cons in *.
  rewrite zput_ok by lia. cbn [bind]. eexists. split; [reflexivity|]. split; [reflexivity|]. split; [auto|]. cbn [qcap qelems qfirst qlast].
  rewrite zlen_zset, zlen_cons. split; [auto|]. split; [auto|]. split; [lia|]. split; [exact Hla|].
  intros i z Hz. pose proof (zget_Some_range _ _ _ Hz) as Hri. rewrite zlen_cons in Hri. rewrite zget_zset by lia.
  rewrite zget_cons in Hz. destruct (Z.eqb_spec i 0) as [->|].
  - injection Hz as <-. rewrite Z.add_0_r. replace (wrap (qcap q) (qfirst q)) with (qfirst q) by (unfold wrap; destruct (qfirst q <? 0) eqn:?, (qfirst q <? qcap q) eqn:?; lia).
    rewrite Z.eqb_refl. reflexivity.
  - destruct (Z.eqb_spec (qfirst q) (wrap (qcap q) (qfirst q + i))); [qw; lia|]. apply Hi. rewrite zget_cons.
    destruct (Z.eqb_spec i 0); [lia|exact Hz].
Qed.
(** A store outside the live slots. *)
Lemma store_free q l x j : qwf q l -> zlen l + 1 < qcap q -> j = wrap (qcap q) (qfirst q - 1) ->
  exists q', (let* e := zput (qelems q) j x in Ok (mk_q false (qcap q) (qfirst q) (qlast q) e)) = Ok q' /\ qoom q' = false /\ qwf q' l.
Proof.
  intros Hwf Hr ->. pose proof (qcap_range _ _ Hwf) as Hc. pose proof (zlen_nonneg l) as Hl0.
  pose proof Hwf as (Hk & He & Hf & Hl & Hla & Hi).
  assert (Hj : 0 <= wrap (qcap q) (qfirst q - 1) < qcap q) by (qw; lia).
  rewrite zput_ok by lia. cbn [bind]. eexists. split; [reflexivity|]. split; [reflexivity|]. split; [auto|]. cbn [qcap qelems qfirst qlast].
  rewrite zlen_zset. split; [auto|]. split; [auto|]. split; [lia|]. split; [exact Hla|].
  intros i z Hz. pose proof (zget_Some_range _ _ _ Hz) as Hri. rewrite zget_zset by lia.
  destruct (Z.eqb_spec (wrap (qcap q) (qfirst q - 1)) (wrap (qcap q) (qfirst q + i))); [qw; lia|]. auto.
Qed.
Lemma wf_is (zero : A) q l : qwf q l -> q_is zero q l.
Proof. intros H ops. now apply history_ok. Qed.
End Queue.

(** C142, queues, as far as it holds.  [q] is any reachable queue showing [l], the
    argument gives [x] on it and leaves [l'].  sc_queue_add_last(q, e) appends [x] to
    [l'] for every argument but sc_queue_del_last(q), which is undefined (below);
    in particular sc_queue_add_last(q, sc_queue_del_first(q)) rotates, and a
    refused call does not evaluate its argument. *)
Theorem queue_add_last_arg_partial {A} (zero : A) q l e x l' ok :
  q_reach zero q l -> gives l e x l' -> e <> PopLast ->
  exists q', q_add_last_arg zero q e ok = Ok q' /\ q_is zero q' (if q_oom q' then l else l' ++ [x]) /\
    (q_oom q' = true -> refusal q l ok).
Proof.
  intros Hr Hg He. apply reach_wf in Hr. unfold q_add_last_arg.
  destruct (expand_ok zero q l ok Hr) as (q1 & -> & Hwf & Hroom & Hfail). cbn [bind].
  destruct (qoom q1) eqn:Eo; [exists q1; unfold q_oom; rewrite Eo; split; [reflexivity|]; split; [now apply wf_is|exact Hfail]|].
  specialize (Hroom eq_refl). destruct (eval_ok q1 l e x l' Hwf Hg He) as (q2 & E2 & Hw2 & Ho2 & Hc2).
  assert (Hl : zlen l' <= zlen l).
  { destruct e; cbn [gives] in Hg; first [subst l; rewrite ?zlen_cons, ?zlen_app; pose proof (zlen_nonneg [x]); lia|destruct Hg as [_ ->]; lia]. }
  assert (E3 : exists q', (let* (q, x) := q_eval q1 e in let* l := zput (qelems q) (qlast q) x in
      Ok (mk_q false (qcap q) (qfirst q) (mask (qlast q + 1) (qcap q)) l)) = Ok q' /\ qoom q' = false /\ qwf q' (l' ++ [x])).
  { rewrite E2. cbn [bind]. apply (store_last zero); [exact Hw2|lia|congruence]. }
  destruct E3 as (q' & E3 & Ho & Hw). exists q'. split; [destruct e; try exact E3; congruence|].
  unfold q_oom. rewrite Ho. split; [now apply wf_is|discriminate].
Qed.
Print Assumptions queue_add_last_arg_partial.
(** C142 fails: sc_queue_add_last(q, sc_queue_del_last(q)) is undefined whenever the
    call is not refused. *)
Theorem queue_add_last_pop_refuted {A} (zero : A) q l :
  q_reach zero q l -> ~ refusal q l true -> q_add_last_arg zero q PopLast true = UB.
Proof.
  intros Hr Hn. apply reach_wf in Hr. unfold q_add_last_arg.
  destruct (expand_ok zero q l true Hr) as (q1 & -> & Hwf & Hroom & Hfail). cbn [bind].
  destruct (qoom q1) eqn:Eo; [|reflexivity]. exfalso. apply Hn. exact (Hfail eq_refl).
Qed.
Print Assumptions queue_add_last_pop_refuted.

(** C142 for sc_queue_add_first(q, e), as far as it holds: values, sc_queue_peek_last(q)
    and sc_queue_del_last(q), however the compiler orders the operands. *)
Theorem queue_add_first_arg_partial {A} (zero : A) q l e x l' ok left :
  q_reach zero q l -> gives l e x l' -> match e with Value _ | PeekLast | PopLast => True | _ => False end ->
  exists q', q_add_first_arg zero q e ok left = Ok q' /\ q_is zero q' (if q_oom q' then l else x :: l') /\
    (q_oom q' = true -> refusal q l ok).
Proof.
  intros Hr Hg He. apply reach_wf in Hr. unfold q_add_first_arg.
  destruct (expand_ok zero q l ok Hr) as (q1 & -> & Hwf & Hroom & Hfail). cbn [bind].
  destruct (qoom q1) eqn:Eo; [exists q1; unfold q_oom; rewrite Eo; split; [reflexivity|]; split; [now apply wf_is|exact Hfail]|].
  specialize (Hroom eq_refl). cbv zeta. destruct (moved_wf q1 l Hwf Hroom) as (y & Hy).
  set (q2 := mk_q false (qcap q1) (mask (qfirst q1 - 1) (qcap q1)) (qlast q1) (qelems q1)) in *.
  assert (E : exists q3, q_eval q2 e = Ok (q3, x) /\ qwf q3 (y :: l') /\ qfirst q3 = qfirst q2).
  { pose proof (qwf_shows _ _ Hy) as (_ & _ & _ & _ & Hpl). destruct e as [z|i| | |f| |]; try contradiction; cbn [gives q_eval] in *.
    - destruct Hg as [-> ->]. exists q2. auto.
    - destruct Hg as [(r & ->) ->]. rewrite (Hpl x (y :: r) eq_refl). exists q2. auto.
    - subst l. destruct (del_last_ok q2 (y :: l') x Hy) as (q3 & E & Hw & _). exists q3. split; [exact E|]. split; [exact Hw|].
      unfold q_del_last in E. destruct (zload (qelems q2) _); try discriminate E. injection E as <- _. reflexivity. }
  destruct E as (q3 & -> & Hw3 & Hf3). cbn [bind]. destruct (store_head q3 l' y x Hw3) as (q4 & E4 & Ho4 & Hw4).
  exists q4. split.
  - rewrite Hf3 in *. cbn [qfirst] in *. destruct left; exact E4.
  - unfold q_oom. rewrite Ho4. split; [now apply wf_is|discriminate].
Qed.
Print Assumptions queue_add_first_arg_partial.
(** C142 fails for the others, on every queue unless the call is refused, because
    (q)->first has been moved when the argument is evaluated:
    sc_queue_add_first(q, sc_queue_at(q, i)) adds the item before the i-th;
    sc_queue_size(q) is one too large; sc_queue_peek_first(q) is whatever the free slot
    holds; sc_queue_del_first(q) leaves the queue as it is or, if the compiler
    evaluates the right side first, replaces the first item by what the free slot holds. *)
Theorem queue_add_first_arg_refuted {A} (zero : A) q l left :
  q_reach zero q l -> ~ refusal q l true ->
  (forall i y, zget l i = Some y -> exists q', q_add_first_arg zero q (At (i + 1)) true left = Ok q' /\ q_is zero q' (y :: l)) /\
  (forall f, exists q', q_add_first_arg zero q (Size f) true left = Ok q' /\ q_is zero q' (f (zlen l + 1) :: l)) /\
  (exists y q', q_add_first_arg zero q PeekFirst true left = Ok q' /\ q_add_first_arg zero q (At 0) true left = Ok q' /\ q_is zero q' (y :: l)) /\
  (forall x r, l = x :: r -> exists y q', q_add_first_arg zero q PopFirst true left = Ok q' /\ q_is zero q' (if left then l else y :: r)).
Proof.
  intros Hr Hn. apply reach_wf in Hr. unfold q_add_first_arg.
  destruct (expand_ok zero q l true Hr) as (q1 & -> & Hwf & Hroom & Hfail). cbn [bind].
  destruct (qoom q1) eqn:Eo; [exfalso; apply Hn; exact (Hfail eq_refl)|]. clear Hfail Hn Hr q.
  specialize (Hroom eq_refl). cbv zeta. destruct (moved_wf q1 l Hwf Hroom) as (y & Hy).
  set (q2 := mk_q false (qcap q1) (mask (qfirst q1 - 1) (qcap q1)) (qlast q1) (qelems q1)) in *.
  assert (Hst : forall x, exists q', (let* e := zput (qelems q2) (if left then mask (qfirst q1 - 1) (qcap q1) else qfirst q2) x in
      Ok (mk_q false (qcap q2) (qfirst q2) (qlast q2) e)) = Ok q' /\ q_is zero q' (x :: l)).
  { intro x. destruct (store_head q2 l y x Hy) as (q4 & E4 & Ho4 & Hw4). exists q4. split; [destruct left; exact E4|now apply wf_is]. }
  pose proof (qwf_shows _ _ Hy) as (Hs & _ & Hat & Hpf & _). split; [|split; [|split]].
  - intros i z Hz. cbn [q_eval]. rewrite (Hat (i + 1) z). 2:{ rewrite zget_cons. apply zget_Some_range in Hz as Hri. destruct (Z.eqb_spec (i + 1) 0); [lia|]. replace (i + 1 - 1) with i by lia. exact Hz. }
    apply Hst.
  - intro f. cbn [q_eval]. rewrite Hs, zlen_cons. cbn [bind]. apply Hst.
  - exists y. destruct (Hst y) as (q' & E & H). exists q'. cbn [q_eval].
    rewrite (Hpf y l eq_refl), (Hat 0 y eq_refl). cbn [bind]. auto.
  - intros x r ->. exists y. cbn [q_eval]. destruct (del_first_ok q2 (x :: r) y Hy) as (q3 & E & Hw3 & _). rewrite E. cbn [bind].
    assert (Hq3 : qcap q3 = qcap q2 /\ qfirst q3 = mask (qfirst q2 + 1) (qcap q2)).
    { unfold q_del_first in E. destruct (zload (qelems q2) _); try discriminate E. injection E as <- _. auto. }
    destruct Hq3 as [Hc3 Hf3]. destruct left.
    + destruct (store_free q3 (x :: r) y (mask (qfirst q1 - 1) (qcap q1)) Hw3) as (q4 & E4 & _ & Hw4).
      * rewrite Hc3. exact Hroom.
      * pose proof (qcap_range _ _ Hwf) as Hc. pose proof Hwf as (_ & _ & Hf & _). pose proof Hy as (_ & _ & Hfy & _).
        rewrite Hc3, Hf3. change (qcap q2) with (qcap q1). change (qfirst q2) with (mask (qfirst q1 - 1) (qcap q1)) in *. change (qcap q2) with (qcap q1) in *.
        rewrite (mask_wrap q1 (x :: r) (_ + 1)) by (try exact Hwf; lia). clear - Hfy Hc. qw; lia.
      * exists q4. split; [exact E4|now apply wf_is].
    + destruct (store_head q3 r x y Hw3) as (q4 & E4 & _ & Hw4). exists q4. split; [exact E4|now apply wf_is].
Qed.
Print Assumptions queue_add_first_arg_refuted.

(** A queue of the bytes 5 and 6. *)
Definition demo_q : queue Z := mk_q false 8 0 2 [5; 6; 0; 0; 0; 0; 0; 0].
Example demo_q_reach : q_reach 0 demo_q [5; 6] /\ ~ refusal demo_q [5; 6] true.
Proof.
  split.
  - apply (reach_step 0 (mk_q false 8 0 1 [5; 0; 0; 0; 0; 0; 0; 0]) [5] (AddLast 6 true) demo_q None [5; 6]); [|exact I|reflexivity|split; reflexivity].
    apply (reach_step 0 (q_init 0 true) [] (AddLast 5 true) _ None [5]); [constructor|exact I|reflexivity|split; reflexivity].
  - intros [H|[H|H]]; [discriminate|discriminate|]. vm_compute in H. congruence.
Qed.
(** Rotating gives 6 5; the first item added in front again gives 0 5 6, item 1 gives 5 5 6. *)
Example queue_arg_example :
  gives [5; 6] PopFirst 5 [6] /\ gives [5; 6] PopLast 6 [5] /\ gives [5; 6] PeekFirst 5 [5; 6] /\
  (let* q := q_add_last_arg 0 demo_q PopFirst true in q_foreach (fun s x => (s ++ [x], false)) q []) = Ok [6; 5] /\
  (let* q := q_add_first_arg 0 demo_q PopLast true true in q_foreach (fun s x => (s ++ [x], false)) q []) = Ok [6; 5] /\
  (let* q := q_add_first_arg 0 demo_q PeekFirst true true in q_foreach (fun s x => (s ++ [x], false)) q []) = Ok [0; 5; 6] /\
  (let* q := q_add_first_arg 0 demo_q (At 1) true true in q_foreach (fun s x => (s ++ [x], false)) q []) = Ok [5; 5; 6] /\
  (let* q := q_add_first_arg 0 demo_q PopFirst true true in q_foreach (fun s x => (s ++ [x], false)) q []) = Ok [5; 6] /\
  (let* q := q_add_first_arg 0 demo_q PopFirst true false in q_foreach (fun s x => (s ++ [x], false)) q []) = Ok [0; 6] /\
  q_add_last_arg 0 demo_q PopLast true = UB.
Proof. split; [reflexivity|]. split; [reflexivity|]. split; [split; [exists [6]|]; reflexivity|]. repeat split; vm_compute; reflexivity. Qed.

(** ** Arrays *)

Section Array.
Context {A : Type}.
Implicit Types (a : arr A) (l : list A).

Lemma a_reach_wf sz a l : 1 <= sz -> 8 * sz < 2^64 -> a_reach sz a l -> wf sz a l.
Proof.
  intros Hsz H8 H. induction H as [|a l o a' H IH Hal Hst]; [now apply wf_init|].
  destruct o as [x ok|i|i| |]; cbn [arr_step allowed ideal] in *.
  - destruct (add_ok sz a l x ok Hsz H8 IH) as (a'' & E & _ & Hw & _). rewrite Hst in E. injection E as <-. exact Hw.
  - destruct (del_ok sz a l i Hsz IH Hal) as (a'' & E & Hw). rewrite Hst in E. injection E as <-. exact Hw.
  - destruct (del_unordered_ok sz a l i Hsz IH Hal) as (a'' & E & Hw). rewrite Hst in E. injection E as <-. exact Hw.
  - destruct (ArrayProofs.del_last_ok sz a l IH Hal) as (a'' & E & Hw). rewrite Hst in E. injection E as <-. exact Hw.
  - injection Hst as <-. apply (ArrayProofs.clear_ok sz a l IH).
Qed.
End Array.

(** Names the block of sc_array_add declares. *)
Definition add_names : list string := ["_max"; "_cap"; "_p"].
(** C142 for sc_array_add(a, e), as far as it holds: [e] may be any value, sc_array_at(a, i) even
    when the array has to be moved, or use variables not called like those of the
    macro. *)
Theorem array_add_arg_partial {A} sz s (a : arr A) l e x ok p :
  1 <= sz -> 8 * sz < 2^64 -> a_reach sz a l -> a_gives s l e x ->
  match e with AValue _ | AAt _ => True | AVar v _ => ~ In v add_names | _ => False end ->
  exists a', arr_add_arg sz s a e ok p = Ok a' /\ a_is sz a' (if arr_oom a' then l else l ++ [x]) /\
    (arr_oom a' = true -> ok = false \/ 2^63 <= zlen l * sz).
Proof.
  intros Hsz H8 Hr Hg He. apply a_reach_wf in Hr as Hwf; [|exact Hsz|exact H8].
  destruct (add_ok sz a l x ok Hsz H8 Hwf) as (a' & E & Hf & Hw & _). exists a'. split.
  - rewrite <- E. unfold arr_add_arg, arr_add. cbv zeta.
    assert (Hv : forall s' b, (forall v, ~ In v add_names -> s' v = s v) -> (forall i y, zget l i = Some y -> zget (elems b) i = Some (Some y)) -> a_eval s' b e = Ok x).
    { intros s' b Hs Hb. destruct e as [y|i| |f|v f]; try contradiction; cbn [a_eval a_gives] in *.
      - now subst y.
      - unfold arr_at. apply zread_ok. auto.
      - destruct Hg as (y & Hy & ->). rewrite (Hs v He), Hy. reflexivity. }
    assert (Hd : forall (s' : scope) n y v, In n add_names -> ~ In v add_names -> declare s' n y v = s' v).
    { intros s' n y v Hn Hv'. unfold declare. destruct (String.eqb_spec v n); [congruence|reflexivity]. }
    destruct Hwf as (H1 & H2 & H3 & H4 & H5).
    destruct (Z.eqb_spec (cap a) (size a)) as [Ec|_].
    + destruct (Z.ltb_spec (arr_max / sz / 2) (cap a)) as [|Hmax]; [reflexivity|]. destruct ok; [|reflexivity].
      rewrite Hv; [reflexivity| |].
      * intros v Hn. rewrite !Hd by (try exact Hn; cbn; tauto). reflexivity.
      * intros i y Hy. cbn [elems]. assert (Hc : zlen (elems a) <= (if cap a =? 0 then 8 else u64 (cap a * 2)) /\ (if cap a =? 0 then 8 else u64 (cap a * 2)) * sz < 2^64).
        { destruct (Z.eqb_spec (cap a) 0); [split; lia|]. pose proof (zlen_nonneg (elems a)). assert (cap a * 2 * sz < 2^64).
          { unfold arr_max in Hmax. rewrite Z.div_div in Hmax by lia. pose proof (Z.mul_div_le (2^64-1) (sz*2)). nia. }
          rewrite u64_small by nia. split; nia. }
        destruct (realloc_block_spec (elems a) (if cap a =? 0 then 8 else u64 (cap a * 2)) sz Hsz (proj1 Hc) (proj2 Hc)) as [_ Hb]. apply Hb. auto.
    + rewrite Hv; [reflexivity| |exact H5]. intros v Hn. rewrite !Hd by (try exact Hn; cbn; tauto). reflexivity.
  - split; [|exact Hf]. intro ops. now apply ArrayProofs.history_ok.
Qed.
Print Assumptions array_add_arg_partial.
(** C142 fails: unless it is refused, sc_array_add with an argument that uses sc_array_last(a) or
    sc_array_size(a) is undefined; a variable called _max is not the caller's, and
    one called _cap or _p is read without having a value when there is room and is the new
    capacity or address when there is none. *)
Theorem array_add_arg_refuted {A} sz s (a : arr A) l p :
  1 <= sz -> 8 * sz < 2^64 -> a_reach sz a l -> zlen l * sz < 2^63 ->
  (forall x, a_gives s l ALast x -> arr_add_arg sz s a ALast true p = UB) /\
  (forall f, arr_add_arg sz s a (ASize f) true p = UB) /\
  (forall f, exists a', arr_add_arg sz s a (AVar "_max" f) true p = Ok a' /\ a_is sz a' (l ++ [f ((2^64 - 1) / sz)])) /\
  (forall f, arr_size a < cap a -> arr_add_arg sz s a (AVar "_cap" f) true p = UB /\ arr_add_arg sz s a (AVar "_p" f) true p = UB) /\
  (forall f, arr_size a = cap a ->
     (exists a', arr_add_arg sz s a (AVar "_cap" f) true p = Ok a' /\ a_is sz a' (l ++ [f (if cap a =? 0 then 8 else 2 * cap a)])) /\
     (exists a', arr_add_arg sz s a (AVar "_p" f) true p = Ok a' /\ a_is sz a' (l ++ [f p]))).
Proof.
  intros Hsz H8 Hr Hl. apply a_reach_wf in Hr as Hwf; [|exact Hsz|exact H8].
  assert (Hno : forall x : A, cap a = size a -> (arr_max / sz / 2 <? cap a) = false).
  { intros x Hc. destruct (arr_max / sz / 2 <? cap a) eqn:E; [exfalso|reflexivity].
    destruct (add_ok sz a l x true Hsz H8 Hwf) as (a' & E' & Hf & _). unfold arr_add in E'. rewrite (proj2 (Z.eqb_eq _ _) Hc) in E'. rewrite E in E'.
    injection E' as <-. destruct (Hf eq_refl); [discriminate|lia]. }
  split; [|split; [|split; [|split]]].
  - intros x _. unfold arr_add_arg. cbv zeta. destruct (Z.eqb_spec (cap a) (size a)) as [Hc|]; [rewrite (Hno x Hc)|]; reflexivity.
  - intro f. unfold arr_add_arg. cbv zeta. destruct (Z.eqb_spec (cap a) (size a)) as [Hc|]; [rewrite (Hno (f 0) Hc)|]; reflexivity.
  - intro f. destruct (add_ok sz a l (f ((2^64 - 1) / sz)) true Hsz H8 Hwf) as (a' & E & Hf & Hw & _). exists a'.
    assert (Ho : arr_oom a' = false) by (destruct (arr_oom a'); [destruct (Hf eq_refl); [discriminate|lia]|reflexivity]).
    rewrite Ho in Hw. split; [|intro ops; now apply ArrayProofs.history_ok].
    rewrite <- E. unfold arr_add_arg, arr_add. cbv zeta. destruct (cap a =? size a); [destruct (arr_max / sz / 2 <? cap a)|]; reflexivity.
  - intros f Hc. unfold arr_size in Hc. unfold arr_add_arg. cbv zeta. destruct (Z.eqb_spec (cap a) (size a)); [lia|]. split; reflexivity.
  - intros f Hc. unfold arr_size in Hc.
    assert (G : forall v x, (forall cap', (if cap a =? 0 then 8 else u64 (cap a * 2)) = cap' -> (declare (declare (declare (declare (declare s "_max" (Some (arr_max / sz))) "_cap" None) "_p" None) "_cap" (Some cap')) "_p" (Some p)) v = Some x) ->
      exists a', arr_add_arg sz s a (AVar v f) true p = Ok a' /\ a_is sz a' (l ++ [f x])).
    { intros v x Hv. destruct (add_ok sz a l (f x) true Hsz H8 Hwf) as (a' & E & Hf & Hw & _). exists a'.
      assert (Ho : arr_oom a' = false) by (destruct (arr_oom a'); [destruct (Hf eq_refl); [discriminate|lia]|reflexivity]).
      rewrite Ho in Hw. split; [|intro ops; now apply ArrayProofs.history_ok].
      rewrite <- E. unfold arr_add_arg, arr_add. cbv zeta. destruct (Z.eqb_spec (cap a) (size a)); [|lia]. destruct (arr_max / sz / 2 <? cap a); [reflexivity|].
      cbn [a_eval]. rewrite (Hv _ eq_refl). reflexivity. }
    split; apply G; intros cap' <-; unfold declare; cbn [String.eqb Ascii.eqb Bool.eqb]; [|reflexivity]. f_equal. destruct (Z.eqb_spec (cap a) 0); [reflexivity|].
    specialize (Hno (f 0) (eq_sym Hc)). apply Z.ltb_ge in Hno. unfold arr_max in Hno. rewrite Z.div_div in Hno by lia.
    pose proof (Z.mul_div_le (2^64-1) (sz*2)). destruct Hwf as (W1 & W2 & _). pose proof (zlen_nonneg (elems a)). rewrite u64_small by nia. lia.
Qed.
Print Assumptions array_add_arg_refuted.
(** An array of eight: adding item 0 again moves it. *)
Definition demo_a : arr Z := mk_arr false 8 8 [Some 10; Some 11; Some 12; Some 13; Some 14; Some 15; Some 16; Some 17].
Example array_arg_example :
  a_reach 4 demo_a [10; 11; 12; 13; 14; 15; 16; 17] /\ a_gives (fun _ => None) [10; 11; 12; 13; 14; 15; 16; 17] (AAt 0) 10 /\
  (let* a := arr_add_arg 4 (fun _ => None) demo_a (AAt 0) true 4096 in arr_last a) = Ok 10 /\
  arr_add_arg 4 (fun _ => None) demo_a ALast true 4096 = UB /\
  (let* a := arr_add_arg 4 (fun _ => Some 3) demo_a (AVar "x" (fun y => y)) true 4096 in arr_last a) = Ok 3 /\
  (let* a := arr_add_arg 4 (fun _ => Some 3) demo_a (AVar "_cap" (fun y => y)) true 4096 in arr_last a) = Ok 16.
Proof.
  split; [|repeat split; vm_compute; reflexivity].
  assert (H : forall (xs : list Z) (a : arr Z) (l : list Z) a', a_reach 4 a l -> foldM (fun a x => let* a' := arr_add 4 a x true in if arr_oom a' then UB else Ok a') a xs = Ok a' -> a_reach 4 a' (l ++ xs)).
  { intro xs. induction xs as [|x xs IH]; intros a l a' Ha E; cbn [foldM] in E; [injection E as <-; now rewrite app_nil_r|].
    destruct (arr_add 4 a x true) as [b| |] eqn:Eb; try discriminate E. cbn [bind] in E. destruct (arr_oom b) eqn:Eo; [discriminate E|]. cbn [bind] in E.
    replace (l ++ x :: xs) with ((l ++ [x]) ++ xs) by (rewrite <- app_assoc; reflexivity). apply (IH b); [|exact E].
    pose proof (a_reach_step 4 a l (Add x true) b Ha I Eb) as Hb. cbn [ideal] in Hb. rewrite Eo in Hb. exact Hb. }
  apply (H [10; 11; 12; 13; 14; 15; 16; 17] arr_init [] demo_a); [constructor|vm_compute; reflexivity].
Qed.

(** ** Integer arguments *)

(** C143, as far as it holds: unless it uses a variable called idx, the index given
    to sc_array_del and sc_array_del_unordered is the one it has for the caller, and it is evaluated once. *)
Theorem array_del_arg_partial {A} sz un s (a : arr A) l e i s' :
  1 <= sz -> 8 * sz < 2^64 -> a_reach sz a l -> i_gives s e i s' -> uses e "idx" = false -> 0 <= i < zlen l ->
  exists s'' a', arr_del_arg un s a e = Ok (s'', a') /\ (forall v, s'' v = s' v) /\
    a_is sz a' (if un then swap_remove i l else remove_at i l).
Proof.
  intros Hsz H8 Hr Hg Hu Hi. apply a_reach_wf in Hr as Hwf; [|exact Hsz|exact H8].
  assert (He : exists t, i_eval (declare s "idx" None) e = Ok (t, i) /\ forall v, declare t "idx" (s "idx") v = s' v).
  { destruct e as [y|w c|w]; cbn [i_eval i_gives uses] in *.
    - destruct Hg as [-> Hg]. eexists. split; [reflexivity|]. intro v. unfold declare. rewrite Hg. destruct (String.eqb_spec v "idx"); [now subst|reflexivity].
    - destruct Hg as [(y & Hy & ->) Hg]. unfold declare at 1. rewrite Hu, Hy. eexists. split; [reflexivity|].
      intro v. unfold declare. rewrite Hg. destruct (String.eqb_spec v "idx"); [now subst|reflexivity].
    - destruct Hg as (Hy & H1 & H2). unfold declare at 1. rewrite Hu, Hy. eexists. split; [reflexivity|].
      intro v. unfold declare. destruct (String.eqb_spec v "idx") as [->|Hv].
      + rewrite H2; [reflexivity|]. intros <-. rewrite String.eqb_refl in Hu. discriminate.
      + destruct (String.eqb_spec v w) as [->|Hw]; [now rewrite H1|]. now rewrite H2. }
  destruct He as (t & E & Ht). unfold arr_del_arg. rewrite E. cbn [bind]. destruct un.
  - destruct (del_unordered_ok sz a l i Hsz Hwf Hi) as (a' & Ea & Hw). rewrite Ea. cbn [bind]. eexists _, a'. split; [reflexivity|].
    split; [exact Ht|]. intro ops. now apply ArrayProofs.history_ok.
  - destruct (del_ok sz a l i Hsz Hwf Hi) as (a' & Ea & Hw). rewrite Ea. cbn [bind]. eexists _, a'. split; [reflexivity|].
    split; [exact Ht|]. intro ops. now apply ArrayProofs.history_ok.
Qed.
Print Assumptions array_del_arg_partial.
(** C143 fails: with a variable called idx the macro reads its own, which has no value yet. *)
Theorem array_del_arg_refuted {A} un s (a : arr A) e : uses e "idx" = true -> arr_del_arg un s a e = UB.
Proof.
  intro Hu. unfold arr_del_arg. destruct e as [y|w c|w]; cbn [uses] in Hu; [discriminate| |]; cbn [i_eval]; unfold declare at 1; rewrite Hu; reflexivity.
Qed.
Print Assumptions array_del_arg_refuted.
Example array_del_arg_example :
  (let* (s, a) := arr_del_arg false (fun _ => Some 2) demo_a (Incr "i") in let* x := arr_at a 2 in Ok (s "i", s "j", arr_size a, x)) = Ok (Some 3, Some 2, 7, 13) /\
  i_gives (fun _ => Some 2) (Incr "i") 2 (declare (fun _ => Some 2) "i" (Some 3)) /\
  arr_del_arg false (fun _ => Some 2) demo_a (Plus "idx" 0) = UB.
Proof.
  split; [vm_compute; reflexivity|]. split; [|reflexivity]. split; [reflexivity|]. split; [reflexivity|].
  intros w Hw. unfold declare. destruct (String.eqb_spec w "i"); [congruence|reflexivity].
Qed.
(** C143, sc_max and sc_min, as far as it holds: arguments without side effects. *)
Theorem minmax_partial least s e1 e2 x y s1 s2 :
  i_gives s e1 x s1 -> i_gives s e2 y s2 -> (forall v, e1 <> Incr v /\ e2 <> Incr v) ->
  pick least s e1 e2 = Ok (s, if least then Z.min x y else Z.max x y).
Proof.
  intros H1 H2 Hn.
  assert (E : forall e x s1, i_gives s e x s1 -> (forall v, e <> Incr v) -> i_eval s e = Ok (s, x)).
  { intros e z t H Hi. destruct e as [k|w c|w]; cbn [i_gives i_eval] in *; [destruct H as [-> _]; reflexivity| |destruct (Hi w eq_refl)].
    destruct H as [(k & -> & ->) _]. reflexivity. }
  assert (Hc : clash e1 e2 = false).
  { destruct e1 as [?|? ?|v]; [| |destruct (proj1 (Hn v) eq_refl)]; (destruct e2 as [?|? ?|w]; [reflexivity|reflexivity|destruct (proj2 (Hn w) eq_refl)]). }
  assert (E1 := E e1 x s1 H1 (fun v => proj1 (Hn v))). assert (E2 := E e2 y s2 H2 (fun v => proj2 (Hn v))).
  unfold pick. rewrite Hc, E1. cbn [bind]. rewrite E2. cbn [bind].
  destruct (Z.ltb_spec y x); destruct least; rewrite ?E1, ?E2; do 2 f_equal; lia.
Qed.
Print Assumptions minmax_partial.
(** C143 fails: sc_max(v++, y) with v above y gives v + 1 and counts v up twice, and
    sc_min(v++, y) with v not above y does. *)
Theorem minmax_refuted s v x y : s v = Some x ->
  (y < x -> exists s', pick false s (Incr v) (Num y) = Ok (s', x + 1) /\ s' v = Some (x + 2)) /\
  (x <= y -> exists s', pick true s (Incr v) (Num y) = Ok (s', x + 1) /\ s' v = Some (x + 2)).
Proof.
  intro Hv. assert (Hd : forall (t : scope) z, declare t v z v = z) by (intros; unfold declare; now rewrite String.eqb_refl).
  split; intro H; unfold pick; cbn [clash uses i_eval]; rewrite Hv; cbn [bind or_ub];
    (destruct (Z.ltb_spec y x); [try lia|try lia]); rewrite Hd; cbn [bind or_ub]; eexists; (split; [reflexivity|]); rewrite Hd; f_equal; lia.
Qed.
Print Assumptions minmax_refuted.
Example minmax_example : (let* (_, z) := pick false (fun _ => Some 4) (Plus "a" 0) (Plus "b" 3) in Ok z) = Ok 7 /\
  (let* (s, z) := pick false (fun _ => Some 4) (Incr "a") (Num 3) in Ok (s "a", z)) = Ok (Some 6, 5) /\
  i_gives (fun _ => Some 4) (Plus "b" 3) 7 (fun _ => Some 4).
Proof. split; [reflexivity|]. split; [reflexivity|]. split; [exists 4; auto|reflexivity]. Qed.
