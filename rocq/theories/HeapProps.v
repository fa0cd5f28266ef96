(** Properties C04-C07: sc_heap.  [lim] is the largest block (in bytes) the
    platform's allocator can hand out; every 64-bit platform has lim < 2^62. *)
From Verif Require Import Base HeapModel HeapSpec HeapProofs.

(** C04. *)
Theorem heap_is_priority_queue :
  forall (D : Type) (lim cap : Z) (ok : bool) (h : heap D) (ops : list (hop D)),
    0 <= lim < 2^62 -> 0 <= cap < 2^64 ->
    heap_init lim cap ok = (h, true) ->
    pq_obeys lim h [] ops.
Proof.
  intros D lim cap ok h ops Hl Hc Hi. apply pq_history; [lia|]. eapply init_correct; eauto.
Qed.
Print Assumptions heap_is_priority_queue.

Example heap_history_example :
  exists h0 h1 h2 h3 h4, heap_init (2^40) 2 true = (h0, true) /\
    heap_add (2^40) h0 5 10 true = Ok (h1, true) /\
    heap_add (2^40) h1 (-3) 11 true = Ok (h2, true) /\
    heap_add (2^40) h2 4 12 true = Ok (h3, true) /\
    heap_pop h3 = Ok (h4, Some (-3, 11)) /\ heap_size h4 = 2 /\
    heap_peek h4 = Ok (Some (4, 12)).
Proof. vm_example. Qed.

(** C05. *)
Theorem heap_pop_all_sorts :
  forall (D : Type) (lim cap : Z) (ok : bool) (h0 h1 : heap D) (l : list (item D)),
    0 <= lim < 2^62 -> 0 <= cap < 2^64 ->
    heap_init lim cap ok = (h0, true) ->
    add_all lim h0 l = Ok (h1, true) ->
    exists h2 out,
      pop_n (length l) h1 = Ok (h2, map Some out) /\
      Permutation out l /\ sorted_keys out /\
      heap_size h2 = 0 /\ heap_pop h2 = Ok (h2, None).
Proof.
  intros D lim cap ok h0 h1 l Hl Hc Hi Ha.
  pose proof (init_correct lim cap ok h0 Hc Hl Hi) as Hwf.
  destruct (add_all_correct lim l ltac:(lia) h0 [] h1 Hwf Ha) as (m & Hm & Hp).
  rewrite app_nil_r in Hp.
  destruct (pop_n_correct lim ltac:(lia) (length l) h1 m Hm) as (h2 & out & Ho & Hpo & Hs & Hw).
  { now apply Permutation_length. }
  exists h2, out. split; [exact Ho|]. split; [now rewrite Hpo|]. split; [exact Hs|].
  assert (Hz : hsize h2 = 0) by apply Hw.
  split; [exact Hz|]. unfold heap_pop. rewrite Hz. reflexivity.
Qed.
Print Assumptions heap_pop_all_sorts.

Example heap_sort_example :
  exists h0 h1 h2, heap_init (2^40) 0 true = (h0, true) /\
    add_all (2^40) h0 [(3, 1); (1, 2); (2, 3); (1, 4); (0, 5)] = Ok (h1, true) /\
    pop_n 5 h1 = Ok (h2, map Some [(0, 5); (1, 4); (1, 2); (2, 3); (3, 1)]).
Proof. vm_example. Qed.

(** Run a history that ignores results (adds are expected to succeed). *)
Definition heap_step {D} (lim : Z) (s : heap D * bool) (o : hop D) : res (heap D * bool) :=
  let (h, good) := s in
  match o with
  | HAdd k d ok => let* (h', r) := heap_add lim h k d ok in Ok (h', good && r)
  | HPop => let* (h', _) := heap_pop h in Ok (h', good)
  | HClear => Ok (heap_clear h, good)
  end.

(** C06: as long as adds have succeeded, no call is undefined behaviour, i.e.
    no access outside the block and no use of an unwritten slot. *)
Theorem heap_memory_safe :
  forall (D : Type) (lim cap : Z) (ok : bool) (h0 : heap D) (pre : list (hop D)) (o : hop D) (h : heap D),
    0 <= lim < 2^62 -> 0 <= cap < 2^64 ->
    heap_init lim cap ok = (h0, true) ->
    foldM (heap_step lim) (h0, true) pre = Ok (h, true) ->
    (exists h' g, heap_step lim (h, true) o = Ok (h', g)) /\
    (exists r, heap_peek h = Ok r).
Proof.
  intros D lim cap ok h0 pre o h Hl Hc Hi Hr.
  assert (Hinv : forall (ops : list (hop D)) (s : heap D) g (h' : heap D), (g = true -> exists m, hwf lim s m) ->
            foldM (heap_step lim) (s, g) ops = Ok (h', true) -> exists m, hwf lim h' m).
  { induction ops as [|x ops IH]; intros s g h' Hs Hf; cbn [foldM] in Hf.
    - injection Hf as <- ->. auto.
    - apply bind_ok in Hf as ([s1 g1] & H1 & H2). eapply IH; [|exact H2].
      intros ->. destruct x as [k d b| |]; cbn [heap_step] in H1.
      + apply bind_ok in H1 as ([s2 r] & Ha & Hb). injection Hb as -> Hg.
        apply andb_prop in Hg as [-> ->]. destruct (Hs eq_refl) as (m & Hm).
        destruct (add_correct lim s m k d b Hm ltac:(lia)) as (h2 & ret & Ha2 & Ht & _).
        rewrite Ha2 in Ha. injection Ha as -> ->. exists ((k, d) :: m). auto.
      + apply bind_ok in H1 as ([s2 r] & Ha & Hb). injection Hb as -> ->.
        destruct (Hs eq_refl) as (m & Hm).
        destruct (pop_correct lim s m Hm ltac:(lia)) as (h2 & r2 & m2 & Ha2 & _ & _ & Hw2).
        rewrite Ha2 in Ha. injection Ha as -> ->. eauto.
      + injection H1 as <- ->. destruct (Hs eq_refl) as (m & Hm).
        exists []. eapply clear_correct; eauto. }
  destruct (Hinv pre h0 true h) as (m & Hm); auto.
  { intros _. exists []. eapply init_correct; eauto. }
  split.
  - destruct o as [k d b| |]; cbn [heap_step].
    + destruct (add_correct lim h m k d b Hm ltac:(lia)) as (h2 & ret & Ha2 & _).
      rewrite Ha2. cbn. eauto.
    + destruct (pop_correct lim h m Hm ltac:(lia)) as (h2 & r2 & m2 & Ha2 & _).
      rewrite Ha2. cbn. eauto.
    + eauto.
  - destruct (peek_correct lim h m Hm) as (r & Hr2 & _). eauto.
Qed.
Print Assumptions heap_memory_safe.

Example heap_memory_safe_example :
  exists h0 h, heap_init (2^40) 1 true = (h0, true) /\
    foldM (heap_step (2^40)) (h0, true)
      [HAdd 3 0 true; HAdd 1 0 true; HPop; HAdd 2 0 true; HClear; HAdd 7 0 true] = Ok (h, true).
Proof. vm_example. Qed.

(** C07 is false of the code: a failed add still counts the element
    (heap/sc_heap.c:85 increments before the allocation at 90).  Three entries
    are stored, the fourth add fails for lack of memory: the reported size is
    4 and the next pop reads outside the block. *)
Theorem heap_failed_add_refuted :
  exists (h0 h3 h4 : heap Z),
    heap_init (2^40) 4 true = (h0, true) /\
    add_all (2^40) h0 [(1, 1); (2, 2); (3, 3)] = Ok (h3, true) /\
    heap_add (2^40) h3 4 4 false = Ok (h4, false) /\
    heap_size h3 = 3 /\ heap_size h4 = 4 /\ heap_pop h4 = UB.
Proof. vm_example. Qed.
Print Assumptions heap_failed_add_refuted.

(** ... and on an empty heap a failed add makes peek dereference NULL. *)
Theorem heap_failed_add_empty_refuted :
  exists (h0 h1 : heap Z),
    heap_init (2^40) 0 true = (h0, true) /\
    heap_add (2^40) h0 1 1 false = Ok (h1, false) /\
    heap_peek h1 = UB.
Proof. vm_example. Qed.
Print Assumptions heap_failed_add_empty_refuted.

(** What remains true of C07 (missing: the size is not restored): a failed add
    leaves the stored block and the capacity untouched, the size is exactly one
    too large, and it fails only when more memory was needed. *)
Theorem heap_failed_add_partial :
  forall (D : Type) (lim : Z) (h h' : heap D) (k : Z) (d : D) (ok : bool),
    0 <= heap_size h < 2^64 - 1 ->
    heap_add lim h k d ok = Ok (h', false) ->
    hcap h' = hcap h /\ helems h' = helems h /\ heap_size h' = heap_size h + 1 /\
    hcap h <= heap_size h + 1.
Proof.
  intros D lim h h' k d ok Hs Ha. unfold heap_size in *. unfold heap_add in Ha.
  rewrite u64_small in Ha by lia.
  destruct (hcap h <=? hsize h + 1) eqn:E.
  - destruct (_ || _); [injection Ha as <-; cbn; repeat split; auto; lia|].
    apply bind_ok in Ha as (e & _ & Ha). discriminate.
  - apply bind_ok in Ha as (e & _ & Ha). discriminate.
Qed.
Print Assumptions heap_failed_add_partial.

Example heap_failed_add_partial_example :
  exists (h0 h1 : heap Z), heap_init (2^40) 0 true = (h0, true) /\
    heap_add (2^40) h0 1 1 false = Ok (h1, false) /\ heap_size h1 = 1.
Proof. vm_example. Qed.
