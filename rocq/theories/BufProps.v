(** Properties C22-C30: byte buffers. *)
From Verif Require Import Base BufModel BufSpec BufProofs.
From Coq Require Import ZifyBool.

Local Notation got j := (Some j, Some j, Some j).

(** C22. A buffer created with any initial capacity is a FIFO of typed values:
    along every program of writes and reads no call is undefined, the buffer
    stays valid, its size is the size of the values not yet read, and every read
    returns the oldest value. *)
Theorem buf_round_trip :
  forall (c : Z) (b : buf) (ops : list fop),
    0 <= c < 2^64 -> buf_init c true = (b, true) -> Forall fop_ok ops ->
    c + budget ops <= 2^64 - 1 - 2 * 4096 ->
    fifo b [] ops.
Proof.
  intros c b ops Hc Hi Ho Hb. destruct (init_wf c true b Hc Hi) as (W & E & R & P & F & L & C).
  apply fifo_ok; auto.
  - unfold unread. rewrite R, P. reflexivity.
  - rewrite C. unfold BUF_MAX. lia.
Qed.
Print Assumptions buf_round_trip.

Definition round_trip_ops : list fop :=
  [FWrite (VBool true) (got [9]); FWrite (VInt 2 513) (got []); FWrite (VStr false (Some [104; 105])) (got [1; 2]);
   FRead; FWrite (VStr true None) (got []); FWrite (VBlob [0; 255]) (got []); FRead; FRead; FRead; FRead;
   FWrite (VDouble 4614253070214989087) (got []); FWrite (VStr true (Some [])) (got [])].
Example round_trip_hyps : Forall fop_ok round_trip_ops /\ 3 + budget round_trip_ops <= 2^64 - 1 - 2 * 4096.
Proof.
  split; [|vm_compute; discriminate].
  repeat apply Forall_cons; try apply Forall_nil; cbn [fop_ok]; try exact I;
    (split; [|repeat split; discriminate]); cbn [value_ok]; try exact I.
  - split; [auto|lia].
  - split; [repeat constructor; lia|reflexivity].
  - split; [repeat constructor; unfold byte; lia|reflexivity].
  - lia.
  - split; [constructor|reflexivity].
Qed.
Example round_trip_example :
  exists b b1 b2 b3, buf_init 3 true = (b, true) /\
    write_value b (VInt 4 67305985) (got [9]) = Ok b1 /\ unread b1 = [1; 2; 3; 4] /\
    write_value b1 (VStr false (Some [104; 105])) (got []) = Ok b2 /\
    unread b2 = [1; 2; 3; 4; 2; 0; 0; 0; 0; 0; 0; 0; 104; 105; 0] /\
    read_like b2 (VInt 4 0) = Ok (b3, Some (VInt 4 67305985)) /\
    (exists b4, read_like b3 (VStr false None) = Ok (b4, Some (VStr false (Some [104; 105]))) /\ buf_size b4 = 0).
Proof. vm_example. Qed.

(** C23. Integers are stored and loaded in place, little-endian; nothing else
    changes.  Missing: offsets within [n] of 2^64, for which the range check
    wraps (see [buf_set_wrap_refuted]). *)
Theorem buf_set_peek_partial :
  forall (b : buf) (n pos v : Z),
    wf b -> buf_valid b = true -> n = 1 \/ n = 2 \/ n = 4 \/ n = 8 -> 0 <= pos -> pos + n < 2^64 -> 0 <= v < 2^(8 * n) ->
    (pos + n <= cap b -> exists b',
       buf_set_at n b pos v = Ok b' /\ buf_valid b' = true /\ rpos b' = rpos b /\ wpos b' = wpos b /\ cap b' = cap b /\
       zslice (mem b') pos n = le (Z.to_nat n) v /\
       (forall i, i < pos \/ pos + n <= i -> zget (mem b') i = zget (mem b) i) /\
       (pos + n <= wpos b -> buf_peek_at n b' pos = Ok (b', v))) /\
    (cap b < pos + n -> exists b',
       buf_set_at n b pos v = Ok b' /\ buf_valid b' = false /\ mem b' = mem b /\ rpos b' = rpos b /\ wpos b' = wpos b) /\
    (wpos b < pos + n -> exists b',
       buf_peek_at n b pos = Ok (b', 0) /\ buf_valid b' = false /\ mem b' = mem b /\ rpos b' = rpos b /\ wpos b' = wpos b).
Proof.
  intros b n pos v W Hv Hn Hp Hb Hr. assert (He : err b = 0) by (unfold buf_valid in Hv; lia).
  assert (Hn0 : 0 < n) by lia. pose proof (flag_CORRUPT_ne b W) as Hf. split; [|split].
  - intro Hin. destruct (set_in n b pos v W He Hn0 Hp Hin) as (b' & H1 & W' & E' & C' & _ & _ & R' & P' & S' & F').
    exists b'. split; [exact H1|]. split; [unfold buf_valid; now rewrite E'|]. repeat (split; [assumption|]).
    intro Hw. unfold buf_peek_at. rewrite peek_in by (auto; lia). cbn [bind]. rewrite S', val_of_le; [reflexivity|].
    now replace (Z.of_nat (Z.to_nat n)) with n by lia.
  - intro Hout. rewrite set_out by (right; rewrite u64_small; lia). eexists. split; [reflexivity|].
    split; [|auto]. unfold buf_valid. cbf. lia.
  - intro Hout. unfold buf_peek_at. rewrite peek_out by (right; rewrite u64_small; lia). cbn [bind].
    eexists. split; [reflexivity|]. split; [|auto]. unfold buf_valid. cbf. lia.
Qed.
Print Assumptions buf_set_peek_partial.
Example set_peek_example :
  exists b b1 b2 b3 b4, buf_init 8 true = (b, true) /\ buf_put_raw b [1; 2; 3; 4; 5] None = Ok b1 /\
    buf_set_at 2 b1 1 (258 + 0) = Ok b2 /\ unread b2 = [1; 2; 1; 4; 5] /\ buf_peek_at 2 b2 1 = Ok (b3, 258) /\
    buf_set_at 4 b2 5 7 = Ok b4 /\ buf_valid b4 = false.
Proof. vm_example. Qed.

(** sc_buf_peek_N and sc_buf_set_N: the integer the next sc_buf_get_N returns, and a store just behind the
    unread bytes, to be added by sc_buf_mark_write. *)
Theorem buf_set_peek_here :
  forall (b : buf) (n v : Z), wf b -> buf_valid b = true -> n = 1 \/ n = 2 \/ n = 4 \/ n = 8 ->
    (n <= buf_size b -> exists x b', buf_peek n b = Ok (b, x) /\ buf_get n b = Ok (b', x) /\
       unread b = zslice (mem b) (rpos b) n ++ unread b' /\ x = val_le (zslice (mem b) (rpos b) n)) /\
    (buf_size b < n -> cap b + n < 2^64 -> exists b', buf_peek n b = Ok (b', 0) /\ buf_valid b' = false /\ unread b' = unread b) /\
    (n <= buf_quota b -> exists b', buf_set n b v = Ok b' /\ buf_valid b' = true /\ unread b' = unread b /\
       unread (buf_mark_write b' n) = unread b ++ le (Z.to_nat n) v) /\
    (buf_quota b < n -> cap b + n < 2^64 -> exists b', buf_set n b v = Ok b' /\ buf_valid b' = false /\ unread b' = unread b).
Proof.
  intros b n v W Hv Hn. assert (He : err b = 0) by (unfold buf_valid in Hv; lia). pose proof (flag_CORRUPT_ne b W) as Hf.
  assert (Hn0 : 0 < n) by lia. pose proof W as W0. destruct W0. unfold buf_size, buf_quota. rewrite !u64_small by lia.
  split; [|split; [|split]]; intro H.
  - exists (val_le (zslice (mem b) (rpos b) n)), (with_rpos b (rpos b + n)). unfold buf_peek, buf_peek_at, buf_get. rewrite peek_in by (auto; lia). cbn [bind].
    rewrite u64_small by lia. do 2 (split; [reflexivity|]). split; [|reflexivity]. unfold unread. cbf.
    replace (wpos b - rpos b) with (n + (wpos b - (rpos b + n))) by lia. apply zslice_app; lia.
  - intro Hc. unfold buf_peek, buf_peek_at. rewrite peek_out by (right; rewrite u64_small; lia).
    cbn [bind]. eexists. split; [reflexivity|]. split; [unfold buf_valid; cbf; lia|reflexivity].
  - destruct (set_in n b (wpos b) v W He Hn0 ltac:(lia) ltac:(lia)) as (b' & H1 & W' & E' & C' & _ & _ & R' & P' & S' & F').
    exists b'. split; [exact H1|]. split; [unfold buf_valid; now rewrite E'|]. destruct W'.
    assert (U : unread b' = unread b) by (unfold unread; rewrite R', P'; apply zslice_ext; try lia; intros i Hi; apply F'; lia).
    split; [exact U|]. rewrite <- U, <- S'. unfold unread, buf_mark_write. cbf. rewrite u64_small by lia. rewrite R', P'.
    replace (wpos b + n - rpos b) with ((wpos b - rpos b) + n) by lia. rewrite zslice_app by lia. do 2 f_equal. lia.
  - intro Hc. unfold buf_set. rewrite set_out by (right; rewrite u64_small; lia). eexists. split; [reflexivity|]. split; [unfold buf_valid; cbf; lia|reflexivity].
Qed.
Print Assumptions buf_set_peek_here.
Example set_peek_here_ex :
  exists b b1 b2 b3, buf_init 8 true = (b, true) /\ buf_put_raw b [1; 2; 3] None = Ok b1 /\ buf_peek 2 b1 = Ok (b1, 513) /\ buf_peek 4 b1 = Ok (b2, 0) /\
    buf_set 4 b1 7 = Ok b3 /\ unread (buf_mark_write b3 4) = [1; 2; 3; 7; 0; 0; 0] /\ buf_valid b1 = true.
Proof. vm_example. Qed.

(** The full C23 fails: with an offset just below 2^64 the check of
    buffer/sc_buf.c:359 wraps and the store is out of bounds. *)
Theorem buf_set_wrap_refuted :
  exists b pos, wf b /\ buf_valid b = true /\ 0 <= pos < 2^64 /\ cap b < pos /\
    buf_set_at 4 b pos 7 = UB /\ buf_peek_at 4 b pos = UB.
Proof.
  destruct (init_wf 8 true (fst (buf_init 8 true)) ltac:(lia) eq_refl) as (W & _).
  exists (fst (buf_init 8 true)), (2^64 - 4). split; [exact W|].
  split; [reflexivity|]. split; [lia|]. split; [reflexivity|]. split; reflexivity.
Qed.
Print Assumptions buf_set_wrap_refuted.

(** C24. After an error every typed getter (except sc_buf_get_blob), every
    typed or raw put and every in-place store reports nothing, moves no
    position, changes no byte and leaves the buffer invalid, along every
    program.  Missing: sc_buf_get_blob, sc_buf_put_fmt, sc_buf_put_text, for
    which the claim is false (below). *)
Theorem buf_errors_sticky_partial :
  forall (b : buf) (ops : list sop), wf b -> buf_valid b = false -> frozen b ops.
Proof. intros b ops W Hv. apply frozen_ok; [exact W|]. unfold buf_valid in Hv. lia. Qed.
Print Assumptions buf_errors_sticky_partial.
Example errors_sticky_example :
  exists b b1 b2 b3 b4 b5, buf_init 8 true = (b, true) /\ buf_put_raw b [1; 2; 3] None = Ok b1 /\
    buf_get 8 b1 = Ok (b2, 0) /\ buf_valid b2 = false /\ sop_ok b2 (SWrite (PInt 1 7) None None None) /\
    buf_put 1 b2 7 None = Ok b3 /\ unread b3 = [1; 2; 3] /\ buf_get 1 b3 = Ok (b4, 0) /\ unread b4 = [1; 2; 3] /\
    buf_get_str b4 = Ok (b5, None) /\ unread b5 = [1; 2; 3] /\ buf_valid (buf_clear b5) = true.
Proof.
  vm_example. all: try (split; [exact I|reflexivity]); reflexivity.
Qed.

(** Until cleared: sc_buf_clear empties the buffer and lifts the error, in the same block; a growing buffer
    is then a FIFO of typed values again. *)
Theorem buf_clear_fresh :
  forall (b : buf), wf b -> let b' := buf_clear b in
    wf b' /\ buf_valid b' = true /\ unread b' = [] /\ buf_size b' = 0 /\ buf_quota b' = cap b /\
    mem b' = mem b /\ cap b' = cap b /\ limit b' = limit b /\ ref b' = ref b /\
    (forall ops, ref b = false -> limit b = BUF_MAX -> Forall fop_ok ops -> cap b + budget ops <= BUF_MAX - 4096 -> fifo b' [] ops).
Proof.
  intros b W b'. assert (W' : wf b') by (destruct W; constructor; unfold b', buf_clear; cbf; auto; lia).
  split; [exact W'|]. split; [reflexivity|]. split; [reflexivity|]. split; [reflexivity|].
  split; [unfold buf_quota, b', buf_clear; cbf; rewrite Z.sub_0_r; destruct W; apply u64_small; lia|].
  do 4 (split; [reflexivity|]). intros ops Hr Hl Ho Hb. apply fifo_ok; auto.
Qed.
Print Assumptions buf_clear_fresh.
Example clear_fresh_ex : exists b b1 b2, buf_init 8 true = (b, true) /\ buf_put_raw b [1; 2; 3] None = Ok b1 /\ buf_get 8 b1 = Ok (b2, 0) /\
  buf_valid b2 = false /\ unread b2 = [1; 2; 3] /\ buf_valid (buf_clear b2) = true /\ ref b2 = false /\ limit b2 = BUF_MAX /\ cap b2 + budget round_trip_ops <= BUF_MAX - 4096.
Proof. vm_example. all: reflexivity || discriminate. Qed.

(** sc_buf_get_blob ignores the error flag. *)
Theorem buf_get_blob_sticky_refuted :
  exists b b' p, wf b /\ buf_valid b = false /\ buf_get_blob b 2 = Ok (b', Some p) /\ rpos b' <> rpos b.
Proof.
  set (b0 := buf_wrap [1; 2; 3] false true).
  assert (W : wf b0).
  { constructor; vm_compute; try discriminate; try reflexivity; try (split; [discriminate|reflexivity]).
    repeat (constructor; [split; [discriminate|reflexivity]|]). constructor. }
  exists (flag b0 CORRUPT). eexists _, _. split; [apply flag_wf; [exact W|discriminate]|].
  split; [reflexivity|]. split; [reflexivity|]. vm_compute. discriminate.
Qed.
Print Assumptions buf_get_blob_sticky_refuted.
(** sc_buf_put_fmt and sc_buf_put_text move the write position of an invalid
    buffer; put_fmt does so although it does not store the length prefix. *)
Theorem buf_put_fmt_sticky_refuted :
  exists b b' b'', wf b /\ buf_valid b = false /\
    buf_put_fmt b (Some [65]) None = Ok b' /\ wpos b' <> wpos b /\ unread b' = [0; 0; 0; 0; 0; 0; 0; 0; 65; 0] /\
    buf_put_text b (Some [65]) None = Ok b'' /\ wpos b'' <> wpos b /\ unread b'' = [65; 0].
Proof.
  destruct (init_wf 16 true (fst (buf_init 16 true)) ltac:(lia) eq_refl) as (W & _).
  exists (flag (fst (buf_init 16 true)) CORRUPT). eexists _, _.
  split; [apply flag_wf; [exact W|discriminate]|]. split; [reflexivity|].
  split; [vm_compute; reflexivity|]. split; [vm_compute; discriminate|]. split; [reflexivity|].
  split; [vm_compute; reflexivity|]. split; [vm_compute; discriminate|reflexivity].
Qed.
Print Assumptions buf_put_fmt_sticky_refuted.

(** C25. A successful put advances the write position by what the length helper
    says; an unsuccessful one leaves a prefix of the encoding. *)
Theorem buf_len_helpers :
  forall (b : buf) (x : value) (a : alloc * alloc * alloc),
    wf b -> value_ok x -> cap b + helper_len x + 3 * 4096 < 2^64 - 1 - 4096 ->
    exists b', write_value b x a = Ok b' /\
      (buf_valid b' = true -> wpos b' = wpos b + helper_len x /\ unread b' = unread b ++ enc x) /\
      (buf_valid b' = false -> exists p q, enc x = p ++ q /\ unread b' = unread b ++ p).
Proof.
  intros b x [[a1 a2] a3] W Hx Hb. rewrite write_value_eq. rewrite helper_enc in * by exact Hx.
  destruct (write_ext b (wop_of x) a1 a2 a3 W (value_wop_ok x Hx)) as (b' & p & Hw & E & _).
  { rewrite <- enc_wbytes. exact Hb. }
  rewrite <- enc_wbytes in E. exists b'. split; [exact Hw|]. pose proof (ext_unread _ _ _ _ _ E W) as Hu. split.
  - intro Hv. unfold buf_valid in Hv. destruct (e_ok _ _ _ _ _ E ltac:(lia)) as [-> _].
    split; [apply (e_w _ _ _ _ _ E)|exact Hu].
  - intros _. destruct (e_pre _ _ _ _ _ E) as [q Hq]. eauto.
Qed.
Print Assumptions buf_len_helpers.
Example len_helpers_example :
  exists b b1, buf_init 8 true = (b, true) /\
    write_value b (VStr true (Some [104; 105; 106])) (got [5]) = Ok b1 /\ buf_valid b1 = true /\
    wpos b1 = 12 /\ helper_len (VStr true (Some [104; 105; 106])) = 12 /\ value_ok (VStr true (Some [104; 105; 106])) /\
    (exists b2, write_value b (VBlob [1; 2]) (None, None, None) = Ok b2 /\ buf_valid b2 = false /\ wpos b2 = 8).
Proof. vm_example. repeat constructor; lia. Qed.

(** C26. reserve, shrink and compact keep the unread bytes; a successful
    reserve makes the room, a failed one only flags.  Missing: requests so
    large that uint64_t arithmetic wraps (below). *)
Theorem buf_space_partial :
  forall (b : buf) (len : Z) (a : alloc),
    wf b -> 0 <= len ->
    (cap b + len + 4095 < 2^64 ->
       exists b' ok, buf_reserve b len a = Ok (b', ok) /\ wf b' /\ unread b' = unread b /\
         rpos b' = rpos b /\ wpos b' = wpos b /\
         (ok = true -> len <= buf_quota b' /\ err b' = err b) /\
         (ok = false -> buf_valid b' = false /\ mem b' = mem b /\ cap b' = cap b)) /\
    (exists b', buf_compact b = Ok b' /\ wf b' /\ unread b' = unread b /\ rpos b' = 0 /\ cap b' = cap b) /\
    (ref b = false -> len + 4095 < 2^64 ->
       exists b' ok, buf_shrink b len a = Ok (b', ok) /\ wf b' /\ unread b' = unread b /\
         (ok = false -> buf_valid b' = false)).
Proof.
  intros b len a W Hl. split; [|split].
  - intro Hb. destruct (reserve_ok b len a W Hl Hb) as [(Hr & _)|(b' & Hr & W' & G & Hroom & _)].
    + eexists _, false. split; [exact Hr|]. split; [apply flag_wf; [exact W|discriminate]|].
      repeat (split; [reflexivity|]). split; [discriminate|]. intros _. split; [|auto].
      pose proof (flag_pos b OOM (w_err _ W) ltac:(reflexivity)). unfold buf_valid. lia.
    + exists b', true. split; [exact Hr|]. split; [exact W'|]. split; [now apply grown_unread|].
      destruct G. split; [assumption|]. split; [assumption|]. split; [|discriminate].
      intros _. rewrite quota_ok by exact W'. split; [lia|assumption].
  - destruct (compact_ok b W) as (b' & H & W' & U & R & C & _). eauto 10.
  - intros Hr Hb. destruct (shrink_ok b len a W Hr Hl Hb) as (b' & ok & H & W' & U & R & _ & F).
    exists b', ok. repeat (split; [assumption|]). intro Ho. destruct (F Ho) as (_ & He & _). unfold buf_valid. lia.
Qed.
Print Assumptions buf_space_partial.
Example space_example :
  exists b b1 b2 b3 b4, buf_init 8 true = (b, true) /\ buf_put_raw b [1; 2; 3; 4; 5] None = Ok b1 /\
    buf_get 2 b1 = Ok (b2, 513) /\ buf_compact b2 = Ok b3 /\ unread b3 = [3; 4; 5] /\ rpos b3 = 0 /\
    buf_reserve b2 100 (Some [9; 9]) = Ok (b4, true) /\ unread b4 = [3; 4; 5] /\ cap b4 = 4096 /\
    (exists b5, buf_reserve b2 100 None = Ok (b5, false) /\ unread b5 = [3; 4; 5]).
Proof. vm_example. Qed.

(** The full C26 fails: wpos + len wraps and the reserve reports success
    without making room. *)
Theorem buf_reserve_wrap_refuted :
  exists b len, wf b /\ 0 <= len < 2^64 /\ buf_reserve b len None = Ok (b, true) /\ buf_quota b < len.
Proof.
  set (b0 := buf_wrap [1; 2; 3] false true).
  assert (W : wf b0).
  { constructor; vm_compute; try discriminate; try reflexivity; try (split; [discriminate|reflexivity]).
    repeat (constructor; [split; [discriminate|reflexivity]|]). constructor. }
  exists b0, (2^64 - 2). split; [exact W|]. split; [lia|]. split; reflexivity.
Qed.
Print Assumptions buf_reserve_wrap_refuted.
(** Or the rounded size wraps: the block is shrunk below the data. *)
Theorem buf_reserve_loses_data_refuted :
  exists b len b', wf b /\ 0 <= len < 2^64 /\ buf_reserve b len (Some []) = Ok (b', true) /\
    cap b' < wpos b'.
Proof.
  set (b0 := with_wpos (buf_wrap (repeat 7 (Z.to_nat 8200)) false true) 4100).
  assert (W : wf b0).
  { constructor; try (vm_compute; (reflexivity || discriminate)); try (vm_compute; split; (reflexivity || discriminate)).
    apply Forall_forall. intros x Hx. apply repeat_spec in Hx as ->. unfold byte. lia. }
  exists b0, (2^64 - 4200). eexists. split; [exact W|]. split; [lia|].
  split; [vm_compute; reflexivity|]. vm_compute. reflexivity.
Qed.
Print Assumptions buf_reserve_loses_data_refuted.

(** C27. Whatever is written (typed, raw, formatted, moved or stored in
    place), the capacity exceeds the limit only if it already did, and memory
    the buffer does not own is never reallocated: the calls behave as if the
    allocator refused.  Missing: shrink, which is false (below). *)
Fixpoint gsteps (b : buf) (ops : list gop) : res buf :=
  match ops with [] => Ok b | o :: r => let* b := gstep b o in gsteps b r end.
Theorem buf_limit_partial :
  forall (ops : list gop) (b b' : buf),
    gsteps b ops = Ok b' ->
    limit b' = limit b /\ ref b' = ref b /\ cap b' <= Z.max (cap b) (limit b) /\
    (ref b = true -> cap b' = cap b /\ gsteps b (map gdeny ops) = Ok b').
Proof.
  induction ops as [|o ops IH]; intros b b' H; cbn [gsteps map] in *.
  - injection H as <-. repeat split; auto. lia.
  - apply bind_ok in H as (b1 & H1 & H2). pose proof (gstep_capped _ _ _ H1) as (L & R & C).
    destruct (IH b1 b' H2) as (L2 & R2 & C2 & D2). rewrite L, R in *.
    split; [exact L2|]. split; [exact R2|]. split.
    + destruct C as [C|[_ C]]; lia.
    + intro Hr. destruct (D2 Hr) as [Hc Hd]. split; [destruct C as [C|[C _]]; congruence|].
      rewrite <- (gstep_ref b o Hr), H1. exact Hd.
Qed.
Print Assumptions buf_limit_partial.
Example limit_example :
  let b := buf_limit (fst (buf_init 8 true)) 5000 in
  exists b1 b2, gsteps b [GWrite (PRaw (repeat 7 100)) (Some []) None None] = Ok b1 /\ cap b1 = 4096 /\ buf_valid b1 = true /\
    gsteps b1 [GWrite (PRaw (repeat 7 4000)) (Some []) None None] = Ok b2 /\ cap b2 = 4096 /\ buf_valid b2 = false /\
    (exists b3, gsteps (buf_wrap [1; 2; 3] true false) [GWrite (PInt 4 1) (Some []) None None] = Ok b3 /\ mem b3 = [1; 2; 3]
       /\ buf_valid b3 = false).
Proof. cbn zeta. vm_example. Qed.

(** shrink reallocates borrowed memory, and can grow the block past the
    limit. *)
Theorem buf_shrink_limit_refuted :
  (exists b, wf b /\ ref b = true /\ buf_shrink b 2 (Some []) = UB) /\
  (exists b b', wf b /\ cap b <= limit b /\ buf_shrink b 50 (Some []) = Ok (b', true) /\ limit b' < cap b').
Proof.
  split.
  - exists (buf_wrap [1; 2; 3] true false). split; [|split; reflexivity].
    constructor; vm_compute; try discriminate; try reflexivity; try (split; [discriminate|reflexivity]).
    repeat (constructor; [split; [discriminate|reflexivity]|]). constructor.
  - destruct (init_wf 60 true (fst (buf_init 60 true)) ltac:(lia) eq_refl) as (W & _).
    exists (buf_limit (fst (buf_init 60 true)) 100). eexists. split.
    + destruct W. constructor; cbn [buf_limit mem cap limit rpos wpos err ref]; auto; lia.
    + split; [vm_compute; discriminate|]. split; [vm_compute; reflexivity|]. vm_compute. reflexivity.
Qed.
Print Assumptions buf_shrink_limit_refuted.

(** C28. For any contents, along every program of typed reads: no call is
    undefined, the read position only moves forward and stays below the write
    position, memory does not change, and what a read returns lies inside the
    data; otherwise the error is set and nothing is returned.  Missing: string
    lengths (or arguments) for which position arithmetic wraps, and the final
    NUL of a string (below). *)
Theorem buf_untrusted_partial :
  forall (b : buf) (rs : list rop), wf b -> cap b + 8 < 2^64 -> contained b rs.
Proof. intros. now apply contained_ok. Qed.
Print Assumptions buf_untrusted_partial.
Example untrusted_example :
  let b := buf_wrap [2; 0; 0; 0; 0; 0; 0; 0; 104; 105; 0; 200; 0; 0; 0; 0; 0; 0; 0] false true in
  exists b1 b2, tame b GStr /\ buf_read b GStr = Ok (b1, RPtr (Some 8)) /\ rpos b1 = 11 /\
    tame b1 GStr /\ buf_read b1 GStr = Ok (b2, RPtr None) /\ buf_valid b2 = false.
Proof.
  cbn zeta. eexists _, _. split; [intros _ _; right; vm_compute; reflexivity|].
  split; [vm_compute; reflexivity|]. split; [reflexivity|].
  split; [intros _ _; right; vm_compute; reflexivity|]. split; [vm_compute; reflexivity|]. reflexivity.
Qed.

(** The full C28 fails.  A length prefix near 2^64 makes rpos + len + 1 wrap:
    the "string" is accepted, and the read position moves backwards.  And a
    string without final NUL is accepted, so the returned pointer is not a C
    string inside the buffer. *)
Theorem buf_get_str_wrap_refuted :
  exists b b', wf b /\ buf_valid b = true /\
    buf_get_str b = Ok (b', Some (rpos b + 8)) /\ buf_valid b' = true /\ rpos b' < rpos b.
Proof.
  set (b0 := with_rpos (buf_wrap (repeat 1 8 ++ [240; 255; 255; 255; 255; 255; 255; 255]) false true) 8).
  assert (W : wf b0).
  { constructor; vm_compute; try discriminate; try reflexivity; try (split; [discriminate|reflexivity]).
    repeat (constructor; [split; [discriminate|reflexivity]|]). constructor. }
  exists b0. eexists. split; [exact W|]. split; [reflexivity|]. split; [vm_compute; reflexivity|].
  split; reflexivity.
Qed.
Print Assumptions buf_get_str_wrap_refuted.
Theorem buf_get_str_nul_refuted :
  exists b b' p, wf b /\ buf_valid b = true /\
    buf_get_str b = Ok (b', Some p) /\ buf_valid b' = true /\ cstr b' p = None.
Proof.
  set (b0 := buf_wrap [1; 0; 0; 0; 0; 0; 0; 0; 65; 66] false true).
  assert (W : wf b0).
  { constructor; vm_compute; try discriminate; try reflexivity; try (split; [discriminate|reflexivity]).
    repeat (constructor; [split; [discriminate|reflexivity]|]). constructor. }
  exists b0. eexists _, _. split; [exact W|]. split; [reflexivity|]. split; [vm_compute; reflexivity|].
  split; reflexivity.
Qed.
Print Assumptions buf_get_str_nul_refuted.

(** C29. Moving takes a prefix of the source's unread bytes, as long as fits,
    to the end of the destination.  Missing: a destination that is already
    invalid (below). *)
Theorem buf_move_partial :
  forall (d s : buf) (a : alloc),
    wf d -> wf s -> buf_valid d = true ->
    exists d' s' k, buf_move d s a = Ok (d', s') /\ wf d' /\ wf s' /\
      k = Z.min (buf_quota d) (buf_size s) /\
      unread d' = unread d ++ firstn (Z.to_nat k) (unread s) /\
      unread s' = skipn (Z.to_nat k) (unread s) /\
      unread d' ++ unread s' = unread d ++ unread s /\
      buf_valid d' = true /\ cap d' = cap d.
Proof.
  intros d s a Wd Ws Hv. unfold buf_valid in Hv.
  destruct (move_ok d s a Wd Ws ltac:(lia)) as (d' & s' & k & H & W1 & W2 & Hk & U1 & U2 & E & _ & C).
  exists d', s', k. rewrite quota_ok, size_ok by assumption. repeat (split; [assumption|]).
  split; [now rewrite U1, U2, <- app_assoc, firstn_skipn|]. split; [unfold buf_valid; lia|exact C].
Qed.
Print Assumptions buf_move_partial.
Example move_example :
  exists d s s1 d' s', buf_init 4 true = (d, true) /\ buf_init 8 true = (s, true) /\
    buf_put_raw s [1; 2; 3; 4; 5; 6] None = Ok s1 /\ buf_move d s1 None = Ok (d', s') /\
    unread d' = [1; 2; 3; 4] /\ unread s' = [5; 6].
Proof. vm_example. Qed.
(** When the destination is invalid the bytes are consumed from the source and
    lost. *)
Theorem buf_move_invalid_refuted :
  exists d s d' s', wf d /\ wf s /\ buf_valid d = false /\ buf_move d s None = Ok (d', s') /\
    unread d' = [] /\ unread s' = [] /\ unread s = [1; 2; 3].
Proof.
  set (s0 := buf_wrap [1; 2; 3] false true).
  assert (W : wf s0).
  { constructor; vm_compute; try discriminate; try reflexivity; try (split; [discriminate|reflexivity]).
    repeat (constructor; [split; [discriminate|reflexivity]|]). constructor. }
  destruct (init_wf 16 true (fst (buf_init 16 true)) ltac:(lia) eq_refl) as (W2 & _).
  exists (flag (fst (buf_init 16 true)) CORRUPT), s0. eexists _, _.
  split; [apply flag_wf; [exact W2|discriminate]|]. split; [exact W|]. split; [reflexivity|].
  split; [vm_compute; reflexivity|]. repeat split.
Qed.
Print Assumptions buf_move_invalid_refuted.

(** C30. sc_buf_put_fmt appends length, text and NUL whenever it fits or the
    buffer can grow, except for two exact-fit situations (below); when it
    fails, the unread data is kept.  sc_buf_put_text concatenates. *)
Theorem buf_put_fmt_partial :
  forall (b : buf) (text : list Z) (a : alloc),
    wf b -> buf_valid b = true -> Forall byte text -> cap b + zlen text + 8 + 4095 < 2^64 ->
    let record := le 8 (zlen text) ++ text ++ [0] in
    exists b', buf_put_fmt b (Some text) a = Ok b' /\ wf b' /\
      (buf_valid b' = true -> unread b' = unread b ++ record) /\
      (buf_valid b' = false -> unread b' = unread b) /\
      (zlen record <= buf_quota b -> buf_valid b' = true) /\
      (ref b = false -> a <> None -> cap b + zlen text + 8 + 4096 <= limit b -> cap b < BUF_MAX - 4096 ->
         wpos b + zlen text + 8 <> cap b ->
         ~ (wpos b = cap b /\ (cap b + zlen text + 8) mod 4096 = 0) ->
         buf_valid b' = true).
Proof.
  intros b text a W Hv Ht Hb record. unfold buf_valid in Hv.
  assert (Hrec : zlen record = zlen text + 9).
  { unfold record. rewrite !zlen_app, le_len. change (zlen [0]) with 1. lia. }
  destruct (put_fmt_ok b text a W ltac:(lia) Ht Hb) as [(b' & H & A)|(b' & H & S & E & F & G)].
  - exists b'. split; [exact H|]. split; [apply A|]. pose proof (a_e _ _ _ A). unfold buf_valid.
    split; [intros _; now apply appended_unread|]. split; [lia|]. split; intros; lia.
  - exists b'. split; [exact H|]. split; [apply S|]. unfold buf_valid.
    split; [lia|]. split; [intros _; now apply scribbled_unread|].
    rewrite quota_ok by exact W. rewrite Hrec. split; [lia|].
    intros G1 G2 G3 G4 G5 G6. exfalso. pose proof (pages_bounds (cap b + zlen text + 8)).
    destruct G as [G|[G|[G|[G|[G|G]]]]]; try contradiction; try lia.
Qed.
Print Assumptions buf_put_fmt_partial.
Example put_fmt_example :
  exists b b1 b2, buf_init 12 true = (b, true) /\ buf_put_fmt b (Some [104; 105]) None = Ok b1 /\
    unread b1 = [2; 0; 0; 0; 0; 0; 0; 0; 104; 105; 0] /\
    buf_put_fmt b1 (Some [106]) (Some []) = Ok b2 /\ buf_valid b2 = true /\
    unread b2 = [2; 0; 0; 0; 0; 0; 0; 0; 104; 105; 0; 1; 0; 0; 0; 0; 0; 0; 0; 106; 0].
Proof. vm_example. Qed.
(** The exact fits: one byte is missing for the NUL, sc_buf_reserve is asked
    for wr + 8 bytes instead of wr + 9, and put_fmt reports out of memory
    although memory is available. *)
Theorem buf_put_fmt_refuted :
  (exists b b', buf_init 10 true = (b, true) /\ buf_put_fmt b (Some [104; 105]) (Some []) = Ok b' /\ buf_valid b' = false) /\
  (exists b b', buf_init 0 true = (b, true) /\ buf_put_fmt b (Some (repeat 65 4088)) (Some []) = Ok b' /\ buf_valid b' = false).
Proof. split; vm_example. Qed.
Print Assumptions buf_put_fmt_refuted.

Theorem buf_put_text_concatenates :
  forall (b : buf) (t text : list Z) (a : alloc),
    wf b -> (unread b = [] /\ t = [] \/ unread b = t ++ [0]) -> Forall byte text ->
    cap b + zlen text + 1 + 4095 < 2^64 ->
    (zlen text + 1 <= buf_quota b \/
     (ref b = false /\ a <> None /\ cap b + zlen text + 1 + 4096 <= limit b /\ cap b < BUF_MAX - 4096)) ->
    exists b', buf_put_text b (Some text) a = Ok b' /\ wf b' /\ unread b' = t ++ text ++ [0] /\ err b' = err b.
Proof.
  intros b t text a W Hu Ht Hb Hm. rewrite quota_ok in Hm by exact W.
  destruct (put_text_ok b t text a W Hu Ht Hb) as [(b' & H & W' & U & E & _)|(b' & H & _ & _ & _ & F & G)].
  - eauto 10.
  - exfalso. pose proof (pages_bounds (cap b + zlen text + 1)).
    destruct Hm as [Hm|(M1 & M2 & M3 & M4)]; [lia|].
    destruct G as [G|[G|[G|G]]]; try contradiction; try lia.
Qed.
Print Assumptions buf_put_text_concatenates.
Example put_text_example :
  exists b b1 b2, buf_init 4 true = (b, true) /\ buf_put_text b (Some [104; 105]) None = Ok b1 /\ unread b1 = [104; 105; 0] /\
    buf_put_text b1 (Some [33; 33; 33]) (Some []) = Ok b2 /\ unread b2 = [104; 105; 33; 33; 33; 0].
Proof. vm_example. Qed.
(** A put_text that fails after something was read leaves the write position
    before the read position: the size wraps around. *)
Theorem buf_put_text_failure_refuted :
  exists b b1 b2 b3, buf_init 4 true = (b, true) /\ buf_put_text b (Some [104; 105]) None = Ok b1 /\
    buf_get 1 b1 = Ok (b2, 104) /\ buf_put_text b2 (Some [33; 33; 33]) None = Ok b3 /\
    wpos b3 < rpos b3 /\ buf_size b3 = 2^64 - 1.
Proof. vm_example. Qed.
Print Assumptions buf_put_text_failure_refuted.

(** C67.  Moving positions: an accepted move puts exactly that position there,
    changes no byte and no other position; a position outside its range changes
    nothing but the error flag.  Partial: sc_buf_set_wpos for positions not
    below the read position (see the refutation); sc_buf_mark_read and
    sc_buf_mark_write, which check nothing, for amounts inside the range. *)
Theorem buf_positions_partial :
  forall (b : buf) (pos : Z), wf b -> 0 <= pos < 2^64 ->
    let r := buf_set_rpos b pos in let w := buf_set_wpos b pos in
    let mr := buf_mark_read b pos in let mw := buf_mark_write b pos in
    (mem r = mem b /\ cap r = cap b /\ wpos r = wpos b) /\ (mem w = mem b /\ cap w = cap b /\ rpos w = rpos b) /\
    (pos <= wpos b -> wf r /\ rpos r = pos /\ err r = err b) /\
    (wpos b < pos -> wf r /\ rpos r = rpos b /\ buf_valid r = false) /\
    (rpos b <= pos <= cap b -> wf w /\ wpos w = pos /\ err w = err b) /\
    (cap b < pos -> wf w /\ wpos w = wpos b /\ buf_valid w = false) /\
    (pos <= buf_size b -> wf mr /\ unread b = zslice (mem b) (rpos b) pos ++ unread mr) /\
    (pos <= buf_quota b -> wf mw /\ unread mw = unread b ++ zslice (mem b) (wpos b) pos).
Proof.
  intros b pos W Hp r w mr mw. pose proof W as W0. destruct W0.
  assert (Wf : wf (flag b CORRUPT)).
  { constructor; try assumption. unfold flag. cbf. apply Z.lor_nonneg. unfold CORRUPT. lia. }
  assert (Bad : buf_valid (flag b CORRUPT) = false).
  { unfold buf_valid, flag. cbf. destruct (Z.eqb_spec (Z.lor (err b) CORRUPT) 0) as [E|E]; [|reflexivity].
    apply Z.lor_eq_0_iff in E. destruct E as [_ E]. discriminate E. }
  unfold r, w, mr, mw, buf_set_rpos, buf_set_wpos.
  split; [destruct (wpos b <? pos); cbf; auto|]. split; [destruct (cap b <? pos); cbf; auto|].
  split; [intro H; replace (wpos b <? pos) with false by lia; split; [constructor; cbf; auto; lia|cbf; auto]|].
  split; [intro H; replace (wpos b <? pos) with true by lia; split; [exact Wf|split; [reflexivity|exact Bad]]|].
  split; [intro H; replace (cap b <? pos) with false by lia; split; [constructor; cbf; auto; lia|cbf; auto]|].
  split; [intro H; replace (cap b <? pos) with true by lia; split; [exact Wf|split; [reflexivity|exact Bad]]|].
  split; intro H.
  - unfold buf_size in H. rewrite u64_small in H by lia. unfold buf_mark_read. rewrite u64_small by lia.
    split; [constructor; cbf; auto; lia|]. unfold unread. cbf.
    replace (wpos b - rpos b) with (pos + (wpos b - (rpos b + pos))) by lia. apply zslice_app; lia.
  - unfold buf_quota in H. rewrite u64_small in H by lia. unfold buf_mark_write. rewrite u64_small by lia.
    split; [constructor; cbf; auto; lia|]. unfold unread. cbf.
    replace (wpos b + pos - rpos b) with ((wpos b - rpos b) + pos) by lia. rewrite zslice_app by lia.
    do 2 f_equal. lia.
Qed.
Print Assumptions buf_positions_partial.
Example positions_example :
  exists b b1, buf_init 16 true = (b, true) /\ write_value b (VInt 4 77) (None, None, None) = Ok b1 /\
    rpos (buf_set_rpos b1 2) = 2 /\ wpos (buf_set_wpos b1 16) = 16 /\ buf_valid (buf_set_rpos b1 5) = false /\
    buf_valid (buf_set_wpos b1 17) = false /\ unread (buf_mark_read b1 1) = [0; 0; 0].
Proof. vm_example. Qed.
(** sc_buf_set_wpos accepts a position before the read position: the size wraps
    around and the buffer still counts as valid. *)
Theorem buf_set_wpos_refuted :
  exists b b1 b2, buf_init 16 true = (b, true) /\ write_value b (VInt 4 77) (None, None, None) = Ok b1 /\
    buf_get 1 b1 = Ok (b2, 77) /\ buf_valid (buf_set_wpos b2 0) = true /\ buf_size (buf_set_wpos b2 0) = 2^64 - 1.
Proof. vm_example. Qed.
Print Assumptions buf_set_wpos_refuted.
