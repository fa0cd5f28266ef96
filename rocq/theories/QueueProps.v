(** Properties C08-C11: sc_queue. *)
From Verif Require Import Base QueueModel QueueSpec QueueProofs.

Local Ltac uw := unfold wrap in *; repeat match goal with
  | |- context [if ?a <? ?b then _ else _] => destruct (Z.ltb_spec a b)
  | H : context [if ?a <? ?b then _ else _] |- _ => destruct (Z.ltb_spec a b)
  end.

(** C08. *)
Theorem queue_refines_deque :
  forall (A : Type) (zero : A) (ops : list (qop A)), q_obeys zero (q_init zero true) [] ops.
Proof. intros. apply history_ok. apply init_ok. Qed.
Print Assumptions queue_refines_deque.

Definition q_run {A} (zero : A) (q : queue A) (ops : list (qop A)) : res (queue A) :=
  foldM (fun q o => let* (q', _) := q_step zero q o in Ok q') q ops.

(** Growth with a wrapped ring: two elements are removed from the front before
    filling up, and one is pushed in front. *)
Example queue_history_example :
  let ops := [AddLast 1 true; AddLast 2 true; DelFirst; DelFirst] ++
             map (fun n => AddLast (Z.of_nat n) true) (seq 3 8) ++ [AddFirst 0 true; DelLast] in
  exists q, q_run 0 (q_init 0 true) ops = Ok q /\ qcap q = 16 /\ q_size q = 8 /\
    q_at q 0 = Ok 0 /\ q_at q 7 = Ok 9 /\ q_peek_last q = Ok 9.
Proof. cbn zeta. vm_example. Qed.

Lemma reach_wf {A} (zero : A) q l : q_reach zero q l -> qwf q l.
Proof.
  induction 1 as [|q l o q' ret l' Hr IH Hal Hst Hid]; [apply init_ok|].
  destruct (step_ok zero q l o IH Hal) as (q2 & ret2 & l2 & H1 & H2 & H3 & H4).
  rewrite Hst in H1. injection H1 as <- <-.
  replace l' with l2; [exact H4|].
  destruct o; cbn [q_ideal] in *.
  - destruct H2, Hid; congruence.
  - destruct H2, Hid; congruence.
  - destruct H2 as (x & Hx & Hrx), Hid as (y & Hy & Hry).
    rewrite Hx in Hy. apply app_inj_tail in Hy. tauto.
  - destruct H2 as (x & Hx & Hrx), Hid as (y & Hy & Hry). congruence.
  - destruct H2, Hid; congruence.
Qed.

(** C09. *)
Theorem queue_add_atomic :
  forall (A : Type) (zero : A) (q : queue A) (l : list A) (x : A) (ok front : bool),
    q_reach zero q l ->
    exists q',
      (if front then q_add_first zero q x ok else q_add_last zero q x ok) = Ok q' /\
      (q_oom q' = true -> q_shows q' l) /\
      (q_oom q' = false -> q_shows q' (if front then x :: l else l ++ [x])) /\
      (q_oom q' = true -> q_oom q = true \/ ok = false \/ 2^63 - 1 <= zlen l).
Proof.
  intros A zero q l x ok front Hr. apply reach_wf in Hr.
  destruct front.
  - destruct (add_first_ok zero q l x ok Hr) as (q' & Ha & Hw & Hf). exists q'.
    unfold q_oom. destruct (qoom q') eqn:E; (split; [exact Ha|]);
      (split; [intros; try discriminate; now apply qwf_shows|]);
      (split; [intros; try discriminate; now apply qwf_shows|auto]).
  - destruct (add_last_ok zero q l x ok Hr) as (q' & Ha & Hw & Hf). exists q'.
    unfold q_oom. destruct (qoom q') eqn:E; (split; [exact Ha|]);
      (split; [intros; try discriminate; now apply qwf_shows|]);
      (split; [intros; try discriminate; now apply qwf_shows|auto]).
Qed.
Print Assumptions queue_add_atomic.

Example queue_add_atomic_example :
  exists q q' q'', q_run 0 (q_init 0 true) (map (fun n => AddLast (Z.of_nat n) true) (seq 1 7)) = Ok q /\
    q_add_last 0 q 8 false = Ok q' /\ q_oom q' = true /\ q_size q' = 7 /\
    q_add_last 0 q 8 true = Ok q'' /\ q_oom q'' = false /\ q_size q'' = 8.
Proof. vm_example. Qed.

Example queue_reach_example :
  q_reach 0 (mk_q false 8 0 1 [5; 0; 0; 0; 0; 0; 0; 0]) [5].
Proof.
  eapply (reach_step 0 _ [] (AddLast 5 true) _ None [5]); [apply reach_init|exact I|reflexivity|].
  cbn. auto.
Qed.

(** C10 is false: the failure flag is sticky (queue/sc_queue.h:65-95 clears it
    only when the ring is grown).  The eighth add fails; one element is removed,
    so there is room; the next add, with a willing allocator, stores nothing. *)
Theorem queue_recovers_refuted :
  exists (q7 qf qd qa : queue Z),
    q_run 0 (q_init 0 true) (map (fun n => AddLast (Z.of_nat n) true) (seq 1 7)) = Ok q7 /\
    q_add_last 0 q7 8 false = Ok qf /\
    q_del_first qf = Ok (qd, 1) /\ q_size qd = 6 /\ qcap qd = 8 /\
    q_add_last 0 qd 9 true = Ok qa /\ q_size qa = 6 /\ q_peek_last qa = Ok 7.
Proof. vm_example. Qed.
Print Assumptions queue_recovers_refuted.

(** What remains true of C10 (missing: recovery while the flag is still set and
    the ring is not full): an add succeeds when the flag is not set and there
    is a free slot, whatever the allocator does; it also succeeds on a full
    ring when the allocator grants the growth, even if the flag was set; and
    clear always re-enables adding. *)
Theorem queue_recovers_partial :
  forall (A : Type) (zero : A) (q : queue A) (l : list A) (x : A),
    q_reach zero q l ->
    (q_oom q = false -> zlen l + 1 < qcap q -> forall ok,
       exists q', q_add_last zero q x ok = Ok q' /\ q_oom q' = false /\ q_shows q' (l ++ [x])) /\
    (zlen l + 1 = qcap q -> qcap q < 2^63 ->
       exists q', q_add_last zero q x true = Ok q' /\ q_oom q' = false /\ q_shows q' (l ++ [x])) /\
    (forall ok, exists q', q_add_last zero (q_clear q) x ok = Ok q' /\ q_oom q' = false /\ q_shows q' [x]).
Proof.
  intros A zero q l x Hr. apply reach_wf in Hr.
  assert (Hnf : forall q l ok, qwf q l -> q_oom q = false -> zlen l + 1 < qcap q ->
     exists q', q_add_last zero q x ok = Ok q' /\ q_oom q' = false /\ q_shows q' (l ++ [x])).
  { clear. intros q l ok Hwf Ho Hroom.
    destruct (add_last_ok zero q l x ok Hwf) as (q' & Ha & Hw & _). exists q'. split; [exact Ha|].
    assert (Hoo : q_oom q' = false).
    { unfold q_add_last in Ha. assert (He : q_expand zero q ok = Ok q).
      { unfold q_expand. pose proof (qcap_range _ _ Hwf) as Hc. pose proof (zlen_nonneg l).
        pose proof Hwf as (_ & _ & Hf & Hl & Hla & _).
        rewrite (mask_wrap q l) by (auto; rewrite Hla; uw; lia).
        destruct (_ =? qfirst q) eqn:E; [|auto]. exfalso. rewrite Hla in E. uw; lia. }
      rewrite He in Ha. cbn [bind] in Ha. unfold q_oom in *. rewrite Ho in Ha.
      apply bind_ok in Ha as (e & _ & Ha). injection Ha as <-. reflexivity. }
    split; [exact Hoo|]. unfold q_oom in Hoo. rewrite Hoo in Hw. now apply qwf_shows. }
  split; [intros; now apply Hnf|]. split.
  - intros Hfull Hmax.
    destruct (add_last_ok zero q l x true Hr) as (q' & Ha & Hw & Hf). exists q'. split; [exact Ha|].
    assert (Hoo : q_oom q' = false).
    { unfold q_add_last in Ha. apply bind_ok in Ha as (q1 & H1 & H2).
      assert (qoom q1 = false) as Ho1.
      { unfold q_expand in H1. pose proof (qcap_range _ _ Hr) as Hc. pose proof (zlen_nonneg l).
        pose proof Hr as (_ & He & Hf1 & Hl & Hla & _).
        rewrite (mask_wrap q l) in H1 by (auto; rewrite Hla; uw; lia).
        destruct (_ =? qfirst q) eqn:E.
        - change ((2^64-1)/2) with (2^63-1) in H1. destruct (2^63-1 <? qcap q) eqn:E2; [lia|].
          destruct (zlen (qelems q) <? qcap q) eqn:E3; [discriminate|]. injection H1 as <-. reflexivity.
        - exfalso. rewrite Hla in E. uw; lia. }
      rewrite Ho1 in H2. apply bind_ok in H2 as (e & _ & H2). injection H2 as <-. reflexivity. }
    split; [exact Hoo|]. unfold q_oom in Hoo. rewrite Hoo in Hw. now apply qwf_shows.
  - intros ok. apply (Hnf (q_clear q) [] ok).
    + eapply clear_ok; eauto.
    + reflexivity.
    + pose proof (qcap_range _ _ Hr). cbn [q_clear qcap]. change (zlen (@nil A)) with 0. lia.
Qed.
Print Assumptions queue_recovers_partial.

(** C11. *)
Theorem queue_foreach_visits :
  forall (A S : Type) (zero : A) (q : queue A) (l : list A) (b : S -> A -> S * bool) (s : S),
    q_reach zero q l -> q_foreach b q s = Ok (q_visit b s l).
Proof. intros. apply foreach_ok. eapply reach_wf; eauto. Qed.
Print Assumptions queue_foreach_visits.

Example queue_foreach_example :
  let ops := [AddLast 1 true; AddFirst 0 true; AddFirst (-1) true; AddLast 2 true] in
  exists q, q_run 0 (q_init 0 true) ops = Ok q /\
    q_foreach (fun s x => (s ++ [x], false)) q [] = Ok [-1; 0; 1; 2] /\
    q_foreach (fun s x => (s ++ [x], x =? 0)) q [] = Ok [-1; 0].
Proof. cbn zeta. vm_example. Qed.
