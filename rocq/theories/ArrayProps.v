(** Properties C01-C03: sc_array. *)
From Verif Require Import Base ArrayModel ArraySpec ArrayProofs.

(** C01. *)
Theorem array_refines_sequence :
  forall (A : Type) (sz : Z) (ops : list (op A)),
    1 <= sz -> 8 * sz < 2^64 -> obeys sz arr_init [] ops.
Proof. intros. apply history_ok; auto. apply wf_init; auto. Qed.
Print Assumptions array_refines_sequence.

(** A growing history that wraps every kind of call: nine adds (growth at 1 and
    9), a failing growth, both deletions. *)
Example array_history_example :
  let ops := map (fun n => Add (Z.of_nat n) true) (seq 1 8) ++
             [Add 9 false; Add 10 true; Del 0; DelUnordered 1; DelLast; Add 11 true] in
  exists a, foldM (arr_step 4) arr_init ops = Ok a /\
    shows a [2; 10; 4; 5; 6; 7; 11] /\ obeys 4 arr_init [] ops.
Proof.
  cbn zeta. eexists. split; [vm_compute; reflexivity|]. split.
  - apply (wf_shows 4); [lia|].
    split; [reflexivity|]. split; [reflexivity|]. split; [vm_compute; discriminate|].
    split; [vm_compute; reflexivity|].
    intros i x Hx. pose proof (zget_Some_range _ _ _ Hx) as Hr.
    change (zlen [2; 10; 4; 5; 6; 7; 11]) with 7 in Hr.
    assert (i = 0 \/ i = 1 \/ i = 2 \/ i = 3 \/ i = 4 \/ i = 5 \/ i = 6) as Hc by lia.
    destruct Hc as [->|[->|[->|[->|[->|[->| ->]]]]]]; vm_compute in Hx; injection Hx as <-; reflexivity.
  - apply array_refines_sequence; lia.
Qed.

(** C02.  [a] is any array reachable from init. *)
Theorem array_add_atomic :
  forall (A : Type) (sz : Z) (ops : list (op A)) (a : arr A) (x : A) (ok : bool),
    1 <= sz -> 8 * sz < 2^64 ->
    (forall i, In (Del i) ops \/ In (DelUnordered i) ops -> 0 <= i < 2^64) ->
    foldM (arr_step sz) arr_init ops = Ok a ->
    exists a', arr_add sz a x ok = Ok a' /\
      (* failure: reported, nothing changes *)
      (arr_oom a' = true ->
         arr_size a' = arr_size a /\ cap a' = cap a /\ elems a' = elems a /\
         (ok = false \/ 2^63 <= arr_size a * sz)) /\
      (* success: stored at the end, everything else kept *)
      (arr_oom a' = false ->
         arr_size a' = arr_size a + 1 /\ arr_at a' (arr_size a) = Ok x /\
         (forall i, 0 <= i < arr_size a -> exists y, arr_at a i = Ok y /\ arr_at a' i = Ok y)) /\
      (* no memory needed: always succeeds *)
      (arr_size a < cap a -> arr_oom a' = false) /\
      (* the block really has [cap] slots, of representable byte size *)
      cap a' = zlen (elems a') /\ cap a' * sz < 2^64.
Proof.
  intros A sz ops a x ok Hsz H8 Hin Hr.
  destruct (reachable_wf sz ops Hsz H8 arr_init [] a (wf_init sz Hsz) Hr Hin) as (l & Hwf).
  destruct (add_ok sz a l x ok Hsz H8 Hwf) as (a' & Ha & Hoom & Hw & Hsame & Hnm).
  exists a'. split; [exact Ha|].
  pose proof Hwf as (H1 & H2 & H3 & H4 & H5).
  destruct Hw as (W1 & W2 & W3 & W4 & W5).
  unfold arr_size, arr_oom, arr_at in *. split; [|split; [|split; [|split]]].
  - intros Ho. destruct (Hsame Ho) as (-> & -> & ->). rewrite H1.
    repeat split; auto.
  - intros Ho. rewrite Ho in *. rewrite W1, zlen_app, zlen_cons, zlen_nil.
    split; [lia|]. split.
    + apply zread_ok. apply W5. rewrite zget_app2 by lia.
      replace (size a - zlen l) with 0 by lia. reflexivity.
    + intros i Hi. destruct (zget_in_range l i) as [y Hy]; [lia|].
      exists y. split; apply zread_ok; [auto|]. apply W5. rewrite zget_app1 by lia. auto.
  - rewrite H1. intros Hlt. apply Hnm. lia.
  - exact W2.
  - exact W4.
Qed.
Print Assumptions array_add_atomic.

Example array_add_atomic_example :
  let ops := map (fun n => Add (Z.of_nat n) true) (seq 1 8) in
  exists a a', foldM (arr_step 4) arr_init ops = Ok a /\
    arr_add 4 a 9 false = Ok a' /\ arr_oom a' = true /\ arr_size a' = 8 /\
    arr_at a' 7 = Ok 8.
Proof. cbn zeta. vm_example. Qed.

(** C03. *)
Theorem array_foreach_visits :
  forall (A S : Type) (sz : Z) (ops : list (op A)) (a : arr A) (b : S -> A -> S * bool) (s : S),
    1 <= sz -> 8 * sz < 2^64 ->
    (forall i, In (Del i) ops \/ In (DelUnordered i) ops -> 0 <= i < 2^64) ->
    foldM (arr_step sz) arr_init ops = Ok a ->
    exists l, shows a l /\ arr_foreach b a s = Ok (visit b s l).
Proof.
  intros A S sz ops a b s Hsz H8 Hin Hr.
  destruct (reachable_wf sz ops Hsz H8 arr_init [] a (wf_init sz Hsz) Hr Hin) as (l & Hwf).
  exists l. split; [eapply wf_shows; eauto|]. eapply foreach_ok; eauto.
Qed.
Print Assumptions array_foreach_visits.

(** Summing with a break at the first element above 2: visits 1, 2, 3 only. *)
Example array_foreach_example :
  let ops := map (fun n => Add (Z.of_nat n) true) (seq 1 5) in
  exists a, foldM (arr_step 4) arr_init ops = Ok a /\
    arr_foreach (fun s x => (s ++ [x], 2 <? x)) a [] = Ok [1; 2; 3].
Proof. cbn zeta. vm_example. Qed.
