(** Memory of programs that use several objects of the library together. *)
From Verif Require Import Base MemModel MemSpec MemProofs MemProofs2 MemProofs3.
From Coq Require Import Permutation.

(** ** A concrete program *)

(** 100 bytes of the caller, the constant empty table of a map with items of 16 bytes. *)
Definition demo_store : mem := mk_mem [(1, (100, User)); (2, (32, Const))] 3.

(** Variables 0 to 8: map, array, buffer, buffer over the caller's memory,
    string, timer, uri, queue, heap; some requests are refused. *)
Definition demo_calls : list call :=
  [ New (CMap 16 (PBlk 2 16) 0 0 Moved); New (CArr 8); New (CBuf 0 Fail);
    New (CWrap (PBlk 1 10) 20 false); New (CStr (PBlk 1 0) 5 Moved); New CTimer;
    New (CUri 30 40 true true Moved); New (CQueue 8 Moved); New (CHeap 0 Fail);
    On 0 (MPut true true Fail); On 0 (MPut true true Moved); On 0 (MPut false true Fail);
    On 1 (AAdd Moved); On 1 (AAdd Fail); On 1 (ADel 0);
    On 2 (BPut (PBlk 1 0) 100 Moved); On 2 (BPut (PBlk 1 0) 50 Fail); On 2 (BPut (PBlk 5 0) 9 Stay);
    On 3 (BPut (PBlk 1 90) 10 Moved);
    On 4 (SAppend (PBlk 1 20) 30 Moved); On 4 (SSet (PBlk 9 6) 2 Moved); On 4 (SSetFmt 2000 (-1) Moved);
    On 5 (TAdd 3 None Moved); On 5 (TCancel 3); On 7 (QAddLast Fail); On 7 QDelFirst;
    On 8 (HAdd Moved); On 8 HPop ].

(** The state after calls. *)
Fixpoint run (w : world) (cs : list call) : res world :=
  match cs with
  | [] => Ok w
  | c :: r => let* w := step w c in run w r
  end.

(** Every call of the list is allowed when it is made. *)
Fixpoint run_allowed (w : world) (cs : list call) : Prop :=
  match cs with
  | [] => True
  | c :: r => allowed w c /\ forall w', step w c = Ok w' -> run_allowed w' r
  end.

Lemma run_reached m0 cs w w' : reached m0 w -> run_allowed w cs -> run w cs = Ok w' -> reached m0 w'.
Proof.
  revert w. induction cs as [|c cs IH]; intros w R A E; cbn [run run_allowed] in *.
  - injection E as <-. auto.
  - destruct A as [A1 A2]. destruct (step w c) as [w1| |] eqn:E1; cbn [bind] in E; try discriminate.
    apply (IH w1); [eapply after; eauto|auto|auto].
Qed.

Definition demo_end : world :=
  match run (mk_world [] demo_store) demo_calls with Ok w => w | _ => mk_world [] demo_store end.

Lemma demo_start : start demo_store.
Proof.
  split.
  - repeat constructor; cbn; intuition discriminate.
  - cbn. intros b s k [E|[E|[]]]; injection E as <- <- <-; cbn; unfold ADDR_MAX; split; try split; try lia; discriminate.
Qed.

Ltac readable_tac := repeat eexists; cbn; [auto 20|lia|lia].

Lemma demo_allowed : run_allowed (mk_world [] demo_store) demo_calls.
Proof.
  unfold demo_calls.
  repeat (cbn [run_allowed]; split;
    [ cbn [allowed allowed_new allowed_op vars store nth_error];
      try (eexists; split; [reflexivity|]);
      cbn [allowed_op a_size h_bad b_ref b_cap t_wheel q_elems s_ptr p_used p_size];
      repeat split; try lia; try discriminate; try reflexivity;
      try (right; readable_tac); try (left; split; [readable_tac|discriminate]); try readable_tac
    | let E := fresh in intros ? E; vm_compute in E; injection E as <- ]).
  - exists 2. cbn. auto.
  - exact I.
Qed.

Lemma demo_runs : run (mk_world [] demo_store) demo_calls = Ok demo_end.
Proof. vm_compute. reflexivity. Qed.

Lemma demo_reached : reached demo_store demo_end.
Proof. exact (run_reached _ _ _ _ (at_start _) demo_allowed demo_runs). Qed.

(** ** No misuse *)

(** C104: a program that uses the objects as documented never releases a block
    twice, never uses a released block, never passes an address to free or
    realloc that did not come from the allocator, never reads or writes outside
    a block and never writes a constant object.  Partial: [allowed] leaves out
    five uses the headers do not forbid (see the end of this file). *)
Theorem mem_no_misuse_partial m0 w c :
  start m0 -> reached m0 w -> allowed w c -> exists w', step w c = Ok w'.
Proof.
  intros S R A. destruct (step_inv m0 w c (reached_inv _ _ S R) A) as (w' & E & _). eauto.
Qed.
Print Assumptions mem_no_misuse_partial.

(** Appending to the string and growing the map of the program above. *)
Example mem_no_misuse_partial_ex :
  start demo_store /\ reached demo_store demo_end /\
  allowed demo_end (On 4 (SAppend (PBlk 1 0) 99 Moved)) /\
  allowed demo_end (On 0 (MPut false true Fail)).
Proof.
  split; [exact demo_start|]. split; [exact demo_reached|]. split.
  - eexists. split; [vm_compute; reflexivity|]. cbn. split; [lia|]. left. split; [|discriminate].
    exists 1, 0, 100, User. split; [reflexivity|]. split; [vm_compute; auto 20|lia].
  - eexists. split; [vm_compute; reflexivity|]. exact I.
Qed.

(** ** Ownership *)

(** C105: at every point the blocks that were obtained from the allocator and
    not given back are exactly the blocks of the variables, and no two
    variables share one. *)
Theorem mem_owned m0 w :
  start m0 -> reached m0 w ->
  NoDup (owned_all (vars w)) /\ Permutation (unreleased (live (store w))) (owned_all (vars w)).
Proof. intros S R. exact (inv_blocks _ _ (reached_inv _ _ S R)). Qed.
Print Assumptions mem_owned.

Example mem_owned_ex :
  start demo_store /\ reached demo_store demo_end /\
  owned_all (vars demo_end) = [6; 7; 8; 10; 12; 4; 5; 13] /\
  unreleased (live (store demo_end)) = [13; 12; 10; 8; 7; 6; 5; 4].
Proof.
  split; [exact demo_start|]. split; [exact demo_reached|]. split; vm_compute; reflexivity.
Qed.

(** ** No leak *)

(** C106: terminating every variable gives back every block. *)
Theorem mem_no_leak m0 w :
  start m0 -> reached m0 w ->
  exists w', term_all (length (vars w)) w = Ok w' /\ unreleased (live (store w')) = [].
Proof.
  intros S R.
  destruct (term_all_ok m0 (length (vars w)) w (reached_inv _ _ S R) (le_n _)) as (w' & E & I & L & N).
  exists w'. split; [auto|].
  destruct (unreleased (live (store w'))) as [|x l] eqn:Eu; [auto|exfalso].
  assert (Hx : In x (owned_all (vars w'))).
  { eapply Permutation_in; [apply (inv_blocks _ _ I)|]. rewrite Eu. left. auto. }
  apply in_owned in Hx as (i & o & Hi & Ho). rewrite (N i o) in Ho; [discriminate| |auto].
  rewrite <- L. apply nth_error_Some. congruence.
Qed.
Print Assumptions mem_no_leak.

Example mem_no_leak_ex :
  start demo_store /\ reached demo_store demo_end /\ length (unreleased (live (store demo_end))) = 8%nat.
Proof. split; [exact demo_start|]. split; [exact demo_reached|]. vm_compute. reflexivity. Qed.

(** ** The caller's memory *)

(** C107: the caller's blocks and the constant objects stay as large as they
    are and are never released, also when a buffer wraps them. *)
Theorem mem_user_kept m0 w b s k :
  start m0 -> reached m0 w -> In (b, (s, k)) (live m0) -> In (b, (s, k)) (live (store w)).
Proof.
  intros S R H. apply find_in. apply (i_user _ _ (reached_inv _ _ S R)).
  apply in_find; [apply S|auto].
Qed.
Print Assumptions mem_user_kept.

(** The wrapped buffer, variable 3, is terminated. *)
Example mem_user_kept_ex :
  exists w, start demo_store /\ step demo_end (On 3 Term) = Ok w /\ reached demo_store w /\
    In (1, (100, User)) (live demo_store).
Proof.
  eexists. split; [exact demo_start|]. split; [vm_compute; reflexivity|]. split; [|cbn; auto].
  apply (after _ demo_end (On 3 Term)); [exact demo_reached| |vm_compute; reflexivity].
  eexists. split; [vm_compute; reflexivity|]. exact I.
Qed.

(** ** Terminating twice *)

(** C108: terminating a variable leaves nothing to give back, and terminating
    it once more changes nothing in memory.  (sc_uri_destroy takes the pointer
    by value and is not meant: there is no variable left to pass.) *)
Theorem mem_term_twice m0 w i o :
  start m0 -> reached m0 w -> nth_error (vars w) i = Some o ->
  exists w1 o1 w2, step w (On i Term) = Ok w1 /\ nth_error (vars w1) i = Some o1 /\
    owned o1 = None /\ step w1 (On i Term) = Ok w2 /\ store w2 = store w1.
Proof.
  intros S R Hi. pose proof (reached_inv _ _ S R) as I.
  destruct (apply_good (store w) o Term (i_ok _ _ I) (i_wf _ _ I _ _ Hi) (allowed_term _ _))
    as (o1 & m1 & E & K & Fr & W1).
  assert (N : owned o1 = None).
  { rewrite apply_term in E. eapply term_owns; [exact (i_wf _ _ I _ _ Hi)|exact E]. }
  destruct (term_again o1 m1 W1 N) as [o2 E2].
  exists (mk_world (lset (vars w) i o1) m1), o1, (mk_world (lset (lset (vars w) i o1) i o2) m1).
  assert (Hl : nth_error (lset (vars w) i o1) i = Some o1) by (eapply nth_lset_same; eauto).
  split; [cbn [step]; rewrite Hi, E; reflexivity|]. split; [exact Hl|]. split; [exact N|].
  split; [|reflexivity]. cbn [step vars store]. rewrite Hl, apply_term, E2. reflexivity.
Qed.
Print Assumptions mem_term_twice.

(** The timer, variable 5. *)
Example mem_term_twice_ex :
  start demo_store /\ reached demo_store demo_end /\
  nth_error (vars demo_end) 5 = Some (OTimer (mk_timer 4 (PBlk 12 0))).
Proof. split; [exact demo_start|]. split; [exact demo_reached|]. vm_compute. reflexivity. Qed.

(** ** Refused requests *)

(** C109: a call whose requests for memory are refused changes neither the
    store nor what any variable owns. *)
Theorem mem_refused_keeps m0 w i c :
  start m0 -> reached m0 w -> allowed w (On i c) -> refused c ->
  exists w', step w (On i c) = Ok w' /\ store w' = store w /\
    map owned (vars w') = map owned (vars w).
Proof.
  intros S R A Rf. destruct (mem_no_misuse_partial m0 w (On i c) S R A) as (w' & E).
  exists w'. split; [auto|]. destruct A as (o & Hi & A). cbn [step] in E. rewrite Hi in E.
  destruct (apply o c (store w)) as [[o' m']| |] eqn:Ea; cbn [bind] in E; try discriminate.
  injection E as <-. cbn [vars store]. apply refused_keeps in Ea as [-> Eo]; [|auto].
  split; [auto|]. clear -Hi Eo. revert i Hi. induction (vars w) as [|x l IH]; intros [|i] Hi; cbn in *; try discriminate.
  - injection Hi as ->. now rewrite Eo.
  - now rewrite IH.
Qed.
Print Assumptions mem_refused_keeps.

(** The buffer, variable 2, has to grow for 5000 bytes more. *)
Example mem_refused_keeps_ex :
  start demo_store /\ reached demo_store demo_end /\
  allowed demo_end (On 2 (BReserve 5000 Fail)) /\ refused (BReserve 5000 Fail) /\
  exists w', step demo_end (On 2 (BReserve 5000 Moved)) = Ok w' /\ store w' <> store demo_end.
Proof.
  split; [exact demo_start|]. split; [exact demo_reached|]. split; [|split; [reflexivity|]].
  - eexists. split; [vm_compute; reflexivity|]. cbn. lia.
  - eexists. split; [vm_compute; reflexivity|]. vm_compute. discriminate.
Qed.

(** ** What is not safe *)

(** The documentation of sc_buf_shrink names no exception for a buffer over the
    caller's memory; the caller's address goes to realloc. *)
Theorem mem_shrink_wrapped_refuted :
  exists m0 w, start m0 /\ reached m0 w /\ nth_error (vars w) 0 = Some (OBuf (buf_wrap (PBlk 1 0) 100 true false)) /\
    step w (On 0 (BShrink 50 Moved)) = UB.
Proof.
  exists demo_store. eexists. split; [exact demo_start|]. split; [|split].
  - apply (after _ (mk_world [] demo_store) (New (CWrap (PBlk 1 0) 100 false)));
      [apply at_start| |vm_compute; reflexivity].
    cbn. split; [lia|]. exists 1, 0, 100. split; [reflexivity|]. split; [auto|lia].
  - vm_compute. reflexivity.
  - vm_compute. reflexivity.
Qed.
Print Assumptions mem_shrink_wrapped_refuted.

(** A heap whose adds returned false counts the rejected elements: pop reads
    behind the block. *)
Theorem mem_heap_failed_add_refuted :
  exists m0 w, start m0 /\ reached m0 w /\ run w [On 0 (HAdd Fail); On 0 HPop] = UB.
Proof.
  exists demo_store. eexists. split; [exact demo_start|]. split.
  - apply (after _ (mk_world [] demo_store) (New (CHeap 1 Moved)));
      [apply at_start| |vm_compute; reflexivity].
    cbn. lia.
  - vm_compute. reflexivity.
Qed.
Print Assumptions mem_heap_failed_add_refuted.

(** sc_queue_clear resets the oom flag of a queue whose init failed: the next
    add writes through NULL. *)
Theorem mem_queue_failed_init_refuted :
  exists m0 w, start m0 /\ reached m0 w /\ run w [On 0 QClear; On 0 (QAddLast Moved)] = UB.
Proof.
  exists demo_store. eexists. split; [exact demo_start|]. split.
  - apply (after _ (mk_world [] demo_store) (New (CQueue 8 Fail)));
      [apply at_start| |vm_compute; reflexivity].
    cbn. lia.
  - vm_compute. reflexivity.
Qed.
Print Assumptions mem_queue_failed_init_refuted.

(** sc_str_append(&s, s): when realloc moves the block, the source is gone. *)
Theorem mem_append_itself_refuted :
  exists m0 w p, start m0 /\ reached m0 w /\ nth_error (vars w) 0 = Some (OStr (mk_str p 5)) /\
    step w (On 0 (SAppend p 5 Moved)) = UB.
Proof.
  exists demo_store. eexists. exists (PBlk 3 4). split; [exact demo_start|]. split; [|split].
  - apply (after _ (mk_world [] demo_store) (New (CStr (PBlk 1 0) 5 Moved)));
      [apply at_start| |vm_compute; reflexivity].
    cbn. split; [lia|]. right.
    exists 1, 0, 100, User. split; [reflexivity|]. split; [cbn; auto|lia].
  - vm_compute. reflexivity.
  - vm_compute. reflexivity.
Qed.
Print Assumptions mem_append_itself_refuted.

(** sc_buf_put_raw from the buffer's own memory, likewise. *)
Theorem mem_put_itself_refuted :
  exists m0 w p, start m0 /\ reached m0 w /\
    nth_error (vars w) 0 = Some (OBuf (mk_buf p 8 SC_BUF_MAX 0 8 false false)) /\
    readable (store w) p 8 /\ step w (On 0 (BPut p 8 Moved)) = UB.
Proof.
  exists demo_store. eexists. exists (PBlk 3 0). split; [exact demo_start|]. split; [|split; [|split]].
  - apply (after _ (mk_world [] demo_store) (New (CWrapOwn 8 true Moved)));
      [apply at_start| |vm_compute; reflexivity].
    cbn. lia.
  - vm_compute. reflexivity.
  - exists 3, 0, 8, Alloc. split; [reflexivity|]. split; [vm_compute; auto|lia].
  - vm_compute. reflexivity.
Qed.
Print Assumptions mem_put_itself_refuted.
