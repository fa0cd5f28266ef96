(** Sizes of blocks with 32-bit and 64-bit size_t. *)
From Coq Require Import ZifyBool.
From Verif Require Import Base SizeModel.
Local Open Scope Z_scope.

(** ** Specification *)

(** The widths of size_t. *)
Definition width (W : Z) : Prop := W = 32 \/ W = 64.
(** The block has room for [cap * k] items of [E] bytes, and no byte more. *)
Definition exact (k E : Z) (b : blk) : Prop := 0 <= bcap b /\ bytes b = k * bcap b * E.
(** A container that has grown (or not) as the allocator allowed. *)
Definition grown (f : blk -> bool -> blk) (b : blk) (oks : list bool) : blk := fold_left f oks b.

Lemma width_pos W : width W -> 2^W = 4294967296 \/ 2^W = 18446744073709551616.
Proof. intros [-> | ->]; [left | right]; reflexivity. Qed.
Lemma uw_small W x : 0 <= x < 2^W -> uw W x = x.
Proof. intro H. unfold uw. apply Z.mod_small. exact H. Qed.
Lemma grown_inv (P : blk -> Prop) f : (forall b ok, P b -> P (f b ok)) -> forall oks b, P b -> P (grown f b oks).
Proof. intros Hs oks. unfold grown. induction oks as [|ok oks IH]; intros b Hb; cbn [fold_left]; auto. Qed.
Lemma div_mul a b : 0 < b -> a / b * b <= a.
Proof. intro H. pose proof (Z.mul_div_le a b H). lia. Qed.
Lemma grants_lim lim ok n : grants lim ok n = true -> n <= lim.
Proof. unfold grants. lia. Qed.

(** ** Arrays *)

Theorem array_sizes_partial W lim E oks : width W -> 0 < E -> 8 * E < 2^W ->
  exact 1 E (grown (array_grow W lim E) (mk_blk 0 0) oks).
Proof.
  intros HW HE H8. apply grown_inv.
  2:{ split; cbn [bcap bytes]; lia. }
  intros b ok [Hc Hb]. unfold array_grow. cbv zeta.
  destruct ((2^W - 1) / E / 2 <? bcap b) eqn:Hm; [split; assumption|].
  pose proof (div_mul (2^W - 1) E HE) as H1. pose proof (div_mul ((2^W - 1) / E) 2 ltac:(lia)) as H2.
  assert (Hle : bcap b * 2 <= (2^W - 1) / E) by lia.
  assert (HcE : bcap b * 2 * E <= 2^W - 1) by nia.
  destruct (bcap b =? 0) eqn:H0.
  - rewrite (uw_small W (8 * E)) by lia.
    destruct (grants lim ok (8 * E)); [|split; assumption]. split; cbn [bcap bytes]; lia.
  - rewrite (uw_small W (bcap b * 2)) by nia. rewrite uw_small by nia.
    destruct (grants _ _ _); [|split; assumption]. split; cbn [bcap bytes]; lia.
Qed.
Print Assumptions array_sizes_partial.

Example array_sizes_ex :
  width 32 /\ 8 * 100 < 2^32 /\
  grown (array_grow 32 (2^31 - 1) 100) (mk_blk 0 0) (repeat true 30) = mk_blk 16777216 1677721600.
Proof. split; [left; reflexivity|]. split; [lia|]. vm_compute. reflexivity. Qed.

(** Items of 512 MB: the first block has no bytes. *)
Theorem array_sizes_refuted :
  grown (array_grow 32 (2^31 - 1) (2^29)) (mk_blk 0 0) [true] = mk_blk 8 0.
Proof. vm_compute. reflexivity. Qed.
Print Assumptions array_sizes_refuted.

(** ** Queues *)

Theorem queue_sizes_partial W lim E ok oks : width W -> 0 < E -> 8 * E < 2^W ->
  grants lim ok (8 * E) = true ->
  exact 1 E (grown (queue_grow W lim E) (queue_init W lim E ok) oks).
Proof.
  intros HW HE H8 Hok. apply grown_inv.
  2:{ unfold queue_init. cbv zeta. rewrite uw_small by lia. replace (E * 8) with (8 * E) by lia. rewrite Hok. split; cbn [bcap bytes]; lia. }
  intros b ok' [Hc Hb]. unfold queue_grow. cbv zeta.
  destruct ((2^W - 1) / 2 <? bcap b) eqn:Hm; [split; assumption|].
  pose proof (div_mul (2^W - 1) 2 ltac:(lia)) as H1.
  rewrite (uw_small W (bcap b * 2)) by lia.
  destruct (grants _ _ _ && _); [|split; assumption]. split; cbn [bcap bytes]; lia.
Qed.
Print Assumptions queue_sizes_partial.

Example queue_sizes_ex :
  grants (2^31 - 1) true (8 * 24) = true /\
  grown (queue_grow 32 (2^31 - 1) 24) (queue_init 32 (2^31 - 1) 24 true) (repeat true 40) = mk_blk 67108864 1610612736.
Proof. split; [reflexivity|]. vm_compute. reflexivity. Qed.

(** Items of 512 MB: capacity 8 without a byte, and calloc(1, 0) may succeed. *)
Theorem queue_sizes_refuted : queue_init 32 (2^31 - 1) (2^29) true = mk_blk 8 0.
Proof. vm_compute. reflexivity. Qed.
Print Assumptions queue_sizes_refuted.

(** ** Heaps *)

Theorem heap_sizes_partial W lim E c ok b oks : width W -> 0 < E -> 8 * E < 2^W -> lim < 2^(W - 1) ->
  0 <= c -> 4 * c * E < 2^W ->
  heap_init_size W lim E c ok = Some b ->
  let b' := grown (heap_grow W lim E) b oks in
  0 <= bcap b' /\ bcap b' * E <= bytes b'.
Proof.
  intros HW HE H8 Hl Hc HcE Hi.
  assert (Hw : 2^W = 2 * 2^(W - 1)) by (destruct HW as [-> | ->]; reflexivity).
  assert (Hinv : (fun b => (0 <= bcap b /\ bytes b = bcap b * E /\ 4 * bcap b * E < 2^W) \/ (0 < bcap b /\ bytes b = 2 * bcap b * E /\ bytes b <= lim)) (grown (heap_grow W lim E) b oks)).
  { apply grown_inv.
    - clear - HW HE H8 Hl Hw. intros b ok Hb. unfold heap_grow. cbv zeta.
      assert (Hb' : 4 * bcap b * E < 2^W /\ 0 <= bcap b).
      { destruct Hb as [(? & ? & ?) | (? & ? & ?)]; split; lia. }
      destruct (bcap b =? 0) eqn:H0.
      + rewrite (uw_small W (4 * 2)) by nia. rewrite (uw_small W (4 * 2 * E)) by lia.
        destruct (((2^W - 1) / E / 2 <=? bcap b) || negb (grants lim ok (4 * 2 * E))) eqn:Hg; [exact Hb|].
        right. cbn [bcap bytes]. assert (grants lim ok (4 * 2 * E) = true) as Hg' by lia.
        apply grants_lim in Hg'. lia.
      + rewrite (uw_small W (bcap b * 2)) by nia. rewrite (uw_small W (bcap b * 2 * 2)) by nia.
        rewrite (uw_small W (bcap b * 2 * 2 * E)) by lia.
        destruct (((2^W - 1) / E / 2 <=? bcap b) || negb (grants lim ok (bcap b * 2 * 2 * E))) eqn:Hg; [exact Hb|].
        right. cbn [bcap bytes]. assert (grants lim ok (bcap b * 2 * 2 * E) = true) as Hg' by lia.
        apply grants_lim in Hg'. lia.
    - left. unfold heap_init_size in Hi. cbv zeta in Hi.
      destruct (c =? 0) eqn:H0; [inversion Hi; subst b; cbn [bcap bytes]; lia|].
      rewrite (uw_small W (c * E)) in Hi by nia.
      destruct (_ || _) in Hi; [discriminate|]. inversion Hi; subst b; cbn [bcap bytes]; lia. }
  cbv zeta. destruct Hinv as [(? & ? & ?) | (? & ? & ?)]; split; nia.
Qed.
Print Assumptions heap_sizes_partial.

Example heap_sizes_ex :
  heap_init_size 32 (2^31 - 1) 16 (2^20) true = Some (mk_blk 1048576 16777216) /\ 4 * 2^20 * 16 < 2^32 /\
  grown (heap_grow 32 (2^31 - 1) 16) (mk_blk 1048576 16777216) (repeat true 20) = mk_blk 33554432 1073741824.
Proof. split; [reflexivity|]. split; [lia|]. vm_compute. reflexivity. Qed.

(** A heap made for [c] items, [c] a bit above 2^26 (1 GB): the first growth leaves
    it with a few bytes. *)
Theorem heap_sizes_refuted c : 2^26 <= c < 2^26 + 2^20 ->
  exists b, heap_init_size 32 (2^31 - 1) 16 c true = Some b /\ bytes b = 16 * c /\
  heap_grow 32 (2^31 - 1) 16 b true = mk_blk (2 * c) (64 * (c - 2^26)).
Proof.
  intro Hc. exists (mk_blk c (16 * c)).
  assert (E1 : uw 32 (c * 16) = 16 * c) by (rewrite uw_small; lia).
  assert (E2 : uw 32 (c * 2) = 2 * c) by (rewrite uw_small; lia).
  assert (E3 : uw 32 (2 * c * 2) = 4 * c) by (rewrite uw_small; lia).
  assert (E4 : uw 32 (4 * c * 16) = 64 * (c - 2^26)).
  { unfold uw. replace (4 * c * 16) with (64 * (c - 2^26) + 1 * 2^32) by lia. rewrite Z.mod_add by lia. apply Z.mod_small. lia. }
  split; [|split; [reflexivity|]].
  - unfold heap_init_size. cbv zeta. rewrite E1. change ((2^32 - 1) / 16) with 268435455.
    replace (c =? 0) with false by lia.
    replace ((268435455 <? c) || negb (grants (2 ^ 31 - 1) true (16 * c))) with false by (unfold grants; lia). reflexivity.
  - unfold heap_grow. cbn [bcap]. cbv zeta. replace (c =? 0) with false by lia. rewrite E2, E3, E4.
    change ((2^32 - 1) / 16 / 2) with 134217727.
    replace ((134217727 <=? c) || negb (grants (2 ^ 31 - 1) true (64 * (c - 2 ^ 26)))) with false by (unfold grants; lia).
    reflexivity.
Qed.
Print Assumptions heap_sizes_refuted.

Example heap_sizes_refuted_ex :
  heap_grow 32 (2^31 - 1) 16 (mk_blk (2^26 + 1) (16 * (2^26 + 1))) true = mk_blk (2^27 + 2) 64.
Proof. vm_compute. reflexivity. Qed.

(** ** Timers *)

Theorem timer_sizes W lim E oks : width W -> E = 20 \/ E = 24 -> lim < 2^(W - 1) ->
  exact 32 E (grown (timer_grow W lim E) (mk_blk 0 0) oks).
Proof.
  intros HW HE Hl.
  assert (Hw : 2^W = 2 * 2^(W - 1)) by (destruct HW as [-> | ->]; reflexivity).
  pose proof (width_pos W HW) as Hp.
  assert (Hinv : (fun b => exact 32 E b /\ bytes b <= Z.max 0 lim) (grown (timer_grow W lim E) (mk_blk 0 0) oks)).
  2:{ apply Hinv. }
  apply grown_inv.
  2:{ split; [split|]; cbn [bcap bytes]; lia. }
  intros b ok [[Hc Hb] Hbl]. unfold timer_grow. cbv zeta.
  destruct ((2^32 - 1) / E / 16 / 2 <=? bcap b) eqn:Hm; [split; [split|]; assumption|].
  assert (Hcl : bcap b < 6710887).
  { clear - Hm HE Hc. destruct HE as [-> | ->].
    - change ((2^32 - 1) / 20 / 16 / 2) with 6710886 in Hm. lia.
    - change ((2^32 - 1) / 24 / 16 / 2) with 5592405 in Hm. lia. }
  destruct (bcap b =? 0) eqn:H0.
  - change (u32 (u32 (4 * 16) * 2)) with 128. rewrite uw_small by (destruct HE; lia).
    destruct (grants lim ok (128 * E)) eqn:Hg; [|split; [split|]; assumption].
    apply grants_lim in Hg. split; [split|]; cbn [bcap bytes]; lia.
  - rewrite (u32_small (bcap b * 2)) by lia. rewrite (u32_small (bcap b * 2 * 16)) by lia.
    rewrite (u32_small (bcap b * 2 * 16 * 2)) by lia.
    rewrite uw_small by (destruct HE; subst E; lia).
    destruct (grants lim ok _) eqn:Hg; [|split; [split|]; assumption].
    apply grants_lim in Hg. split; [split|]; cbn [bcap bytes]; lia.
Qed.
Print Assumptions timer_sizes.

Example timer_sizes_ex :
  grown (timer_grow 32 (2^31 - 1) 20) (mk_blk 0 0) (repeat true 40) = mk_blk 2097152 1342177280.
Proof. vm_compute. reflexivity. Qed.

(** An allocator that grants blocks above half the address space. *)
Theorem timer_sizes_refuted :
  grown (timer_grow 32 (2^32 - 1) 20) (mk_blk 0 0) (repeat true 22) = mk_blk 8388608 1073741824 /\
  32 * 8388608 * 20 > 1073741824.
Proof. split; [vm_compute; reflexivity|lia]. Qed.
Print Assumptions timer_sizes_refuted.

(** ** Buffers *)

Theorem buf_init_sizes_partial W lim cap ok b : 0 <= cap < 2^W ->
  buf_init_size W lim cap ok = Some b -> bcap b = cap /\ bytes b = cap.
Proof.
  intros Hc Hi. unfold buf_init_size in Hi. cbv zeta in Hi. destruct (cap =? 0) eqn:H0.
  - inversion Hi; cbn [bcap bytes]; lia.
  - rewrite uw_small in Hi by lia. destruct (grants _ _ _); [|discriminate]. inversion Hi; cbn [bcap bytes]; lia.
Qed.
Print Assumptions buf_init_sizes_partial.

Example buf_init_sizes_ex : buf_init_size 32 (2^31 - 1) 5000 true = Some (mk_blk 5000 5000).
Proof. reflexivity. Qed.

(** 4 GB and a bit: one byte. *)
Theorem buf_init_sizes_refuted : buf_init_size 32 (2^31 - 1) (2^32 + 1) true = Some (mk_blk (2^32 + 1) 1).
Proof. reflexivity. Qed.
Print Assumptions buf_init_sizes_refuted.

(** Reserving, as long as no 64-bit sum wraps and the new size or the limit fits
    size_t: there is room, or the buffer is as it was. *)
Theorem buf_reserve_sizes_partial W lim max wpos b len ok b' r : width W ->
  0 <= wpos <= bcap b -> bytes b = bcap b -> 0 <= len -> bcap b + len + 4095 < 2^64 ->
  Z.min max (bcap b + len + 4095) < 2^W ->
  buf_reserve_size W lim max wpos b len ok = (b', r) ->
  bytes b' = bcap b' /\ bcap b <= bcap b' /\ (r = true -> wpos + len <= bcap b') /\ (r = false -> b' = b).
Proof.
  intros HW Hw Hb Hl H64 HWm. unfold buf_reserve_size. cbv zeta.
  rewrite (u64_small (wpos + len)) by lia.
  destruct (bcap b <? wpos + len) eqn:Hn.
  2:{ intro H; inversion H; subst; repeat split; lia || congruence. }
  rewrite (u64_small (bcap b + len)) by lia. rewrite (u64_small (bcap b + len + 4095)) by lia.
  pose proof (Z.mul_div_le (bcap b + len + 4095) 4096 ltac:(lia)) as H1.
  pose proof (Z.mul_succ_div_gt (bcap b + len + 4095) 4096 ltac:(lia)) as H2.
  set (q := (bcap b + len + 4095) / 4096) in *.
  rewrite (u64_small (q * 4096)) by lia.
  destruct ((max <? q * 4096) || (2 ^ 64 - 1 - 4096 - 4096 <=? bcap b)) eqn:Hm.
  { intro H; inversion H; subst; repeat split; lia || congruence. }
  rewrite uw_small by lia.
  destruct (grants _ _ _); intro H; inversion H; subst; cbn [bcap bytes]; repeat split; lia || congruence.
Qed.
Print Assumptions buf_reserve_sizes_partial.

Example buf_reserve_sizes_ex :
  buf_reserve_size 32 (2^31 - 1) (2^64 - 4097) 4000 (mk_blk 4096 4096) 1000 true = (mk_blk 8192 8192, true) /\
  Z.min (2^64 - 4097) (4096 + 1000 + 4095) < 2^32 /\
  buf_reserve_size 32 (2^31 - 1) 1000000 4000 (mk_blk 4096 4096) (2^40) true = (mk_blk 4096 4096, false) /\
  Z.min 1000000 (4096 + 2^40 + 4095) < 2^32.
Proof. vm_compute. repeat split. Qed.

(** Without a limit, asking for 4 GB: success, and the block is shrunk to one page. *)
Theorem buf_reserve_sizes_refuted :
  buf_reserve_size 32 (2^31 - 1) (2^64 - 1 - 4096) 0 (mk_blk 4096 4096) (2^32) true = (mk_blk (2^32 + 4096) 4096, true).
Proof. reflexivity. Qed.
Print Assumptions buf_reserve_sizes_refuted.

Theorem buf_shrink_sizes W lim wpos b len ok : width W -> lim < 2^(W - 1) ->
  0 <= wpos <= bcap b -> bytes b = bcap b -> bytes b <= lim -> 0 <= len ->
  let b' := buf_shrink_size W lim wpos b len ok in
  bytes b' = bcap b' /\ wpos <= bcap b'.
Proof.
  intros HW Hlim Hw Hb Hbl Hl. unfold buf_shrink_size. cbv zeta.
  destruct ((bcap b <? len) || (len <=? wpos)) eqn:Hn; [split; lia|].
  assert (Hlen : len + 4095 < 2^W /\ 2^W <= 2^64) by (destruct HW as [-> | ->]; lia).
  rewrite (u64_small (len + 4095)) by lia.
  pose proof (Z.mul_div_le (len + 4095) 4096 ltac:(lia)) as H1.
  pose proof (Z.mul_succ_div_gt (len + 4095) 4096 ltac:(lia)) as H2.
  rewrite u64_small by lia. rewrite uw_small by lia.
  destruct (grants _ _ _); cbn [bcap bytes]; split; lia.
Qed.
Print Assumptions buf_shrink_sizes.

Example buf_shrink_sizes_ex :
  buf_shrink_size 32 (2^31 - 1) 10 (mk_blk 100000 100000) 5000 true = mk_blk 8192 8192.
Proof. reflexivity. Qed.

(** ** Strings *)

(** The block holds the length, the text and a NUL. *)
Definition str_exact (b : blk) : Prop := 0 <= bcap b /\ bytes b = bcap b + 5.

Lemma str_bytes_ok W n : width W -> 0 <= n -> n + 5 < 2^W -> str_bytes W n = n + 5.
Proof. intros HW H0 Hn. unfold str_bytes. rewrite (uw_small W (n + 4)) by lia. rewrite uw_small by lia. lia. Qed.

(** A text of [len] bytes lies in memory, so with 32-bit pointers [len] is below 2^31. *)
Theorem str_create_sizes W lim len ok b : width W -> 0 <= len < 2^32 -> len < 2^(W - 1) ->
  str_create_size W lim len ok = Some b -> str_exact b /\ bcap b = len.
Proof.
  intros HW Hl Hp. unfold str_create_size. cbv zeta.
  rewrite str_bytes_ok by (try exact HW; destruct HW as [-> | ->]; lia).
  destruct (grants _ _ _); intro H; inversion H. split; [split|]; cbn [bcap bytes]; lia.
Qed.
Print Assumptions str_create_sizes.

Example str_create_sizes_ex : str_create_size 32 (2^31 - 1) 3 true = Some (mk_blk 3 8).
Proof. reflexivity. Qed.

Theorem str_append_sizes_partial W lim b len ok b' r : width W -> str_exact b -> bcap b <= 2^32 - 6 -> 0 <= len < 2^W ->
  str_append_size W lim b len ok = (b', r) ->
  if r then str_exact b' /\ bcap b' = bcap b + len /\ bcap b' <= 2^32 - 6 else b' = b.
Proof.
  intros HW [Hc Hb] Hm Hl. unfold str_append_size, str_max. cbv zeta.
  pose proof (width_pos W HW) as Hp.
  rewrite (uw_small W (2 ^ 32 - 1 - 4 - 1 - bcap b)) by lia.
  destruct (2 ^ 32 - 1 - 4 - 1 - bcap b <? len) eqn:Hs.
  { cbn [orb]. intro H; inversion H; subst. reflexivity. }
  rewrite (uw_small W (bcap b + len)) by lia. rewrite str_bytes_ok by (try exact HW; lia).
  destruct (grants _ _ _); cbn [orb negb]; intro H; inversion H; subst; [|reflexivity].
  unfold str_exact. cbn [bcap bytes]. rewrite (u32_small len) by lia. rewrite u32_small by lia. lia.
Qed.
Print Assumptions str_append_sizes_partial.

Example str_append_sizes_ex : str_append_size 32 (2^31 - 1) (mk_blk 3 8) 4 true = (mk_blk 7 12, true) /\ str_exact (mk_blk 3 8).
Proof. vm_compute. repeat split; discriminate. Qed.

(** sc_str_create_len takes more than SC_STR_MAX bytes; the length of such a string is
    lost by appending to it. *)
Theorem str_append_sizes_refuted :
  str_create_size 64 (2^63 - 1) (2^32 - 2) true = Some (mk_blk (2^32 - 2) (2^32 + 3)) /\
  str_append_size 64 (2^63 - 1) (mk_blk (2^32 - 2) (2^32 + 3)) 10 true = (mk_blk 8 (2^32 + 13), true).
Proof. split; vm_compute; reflexivity. Qed.
Print Assumptions str_append_sizes_refuted.

Lemma str_replace_len_ok W : width W -> forall count diff size,
  0 <= size <= 2^32 - 6 -> - (2^32) < diff < 2^32 -> 0 <= size + Z.of_nat count * diff ->
  match str_replace_len W count diff size with
  | Some n => n = size + Z.of_nat count * diff /\ 0 <= n <= 2^32 - 6
  | None => 2^32 - 6 < size + Z.of_nat count * diff
  end.
Proof.
  intro HW. pose proof (width_pos W HW) as Hp. induction count as [|c IH]; intros diff size Hs Hd Hn.
  - cbn [str_replace_len]. lia.
  - cbn [str_replace_len]. unfold str_max at 1.
    assert (Hmix : 0 <= size + diff) by nia.
    destruct (2 ^ 32 - 1 - 4 - 1 - diff <? size) eqn:Ho; [nia|].
    rewrite uw_small by lia. specialize (IH diff (size + diff) ltac:(lia) Hd ltac:(lia)).
    destruct (str_replace_len W c diff (size + diff)); lia.
Qed.

(** [count] disjoint matches, each changing the length by [diff]. *)
Theorem str_replace_sizes W lim b count diff ok : width W -> str_exact b -> bcap b <= 2^32 - 6 ->
  - (2^32) < diff < 2^32 -> 0 <= bcap b + Z.of_nat count * diff ->
  match str_replace_size W lim b count diff ok with
  | Some b' => str_exact b' /\ bcap b' = bcap b + Z.of_nat count * diff
  | None => True
  end.
Proof.
  intros HW [Hc Hb] Hm Hd Hn. unfold str_replace_size.
  pose proof (str_replace_len_ok W HW count diff (bcap b) ltac:(lia) Hd Hn) as H.
  pose proof (width_pos W HW) as Hp.
  destruct (str_replace_len W count diff (bcap b)) as [n|]; [|exact I].
  cbv zeta. rewrite str_bytes_ok by (try exact HW; lia).
  destruct (grants _ _ _); [|exact I]. unfold str_exact. cbn [bcap bytes]. rewrite u32_small by lia. lia.
Qed.
Print Assumptions str_replace_sizes.

Example str_replace_sizes_ex : str_replace_size 32 (2^31 - 1) (mk_blk 10 15) 3 (-2) true = Some (mk_blk 4 9).
Proof. vm_compute. reflexivity. Qed.
