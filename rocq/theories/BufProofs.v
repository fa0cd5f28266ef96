(** Proofs about the buffer model. *)
From Verif Require Import Base BufModel BufSpec.
From Coq Require Import ZifyBool.

(** Projections of updated buffers. *)
Ltac cbf := cbn [mem cap limit rpos wpos err ref with_err with_rpos with_wpos with_mem flag].

(** ** Bytes and blocks *)
Lemma store_ok m pos bs : 0 <= pos -> pos + zlen bs <= zlen m ->
  exists m', store m pos bs = Ok m' /\ zlen m' = zlen m /\
    (forall i, zget m' i = if (pos <=? i) && (i <? pos + zlen bs) then zget bs (i - pos) else zget m i).
Proof.
  intros Hp Hl. unfold store. pose proof (zlen_nonneg bs) as Hb.
  replace ((0 <=? pos) && (pos + zlen bs <=? zlen m)) with true by lia.
  eexists. split; [reflexivity|]. split.
  - rewrite !zlen_app, zlen_firstn, zlen_skipn. lia.
  - intro i. rewrite zget_app, zlen_firstn, zget_firstn, zget_app.
    destruct (Z.ltb_spec i (Z.min (Z.of_nat (Z.to_nat pos)) (zlen m))).
    + replace (i <? Z.of_nat (Z.to_nat pos)) with true by lia.
      replace ((pos <=? i) && (i <? pos + zlen bs)) with false by lia. reflexivity.
    + replace (Z.min (Z.of_nat (Z.to_nat pos)) (zlen m)) with pos by lia.
      destruct (Z.ltb_spec (i - pos) (zlen bs)).
      * replace ((pos <=? i) && (i <? pos + zlen bs)) with true by lia. reflexivity.
      * replace ((pos <=? i) && (i <? pos + zlen bs)) with false by lia.
        rewrite zget_skipn by lia. f_equal. lia.
Qed.

Lemma zlen_grow m n j : 0 <= n -> zlen (grow m n j) = n.
Proof.
  intro Hn. unfold grow. rewrite zlen_app, !zlen_firstn, zlen_app, zlen_repeat.
  pose proof (zlen_nonneg (map u8 j)). unfold zlen in *. lia.
Qed.
Lemma zget_grow m n j i : 0 <= n -> i < zlen m -> i < n -> zget (grow m n j) i = zget m i.
Proof.
  intros Hn H1 H2. unfold grow. rewrite zget_app, zlen_firstn, zget_firstn.
  destruct (Z.ltb_spec i (Z.min (Z.of_nat (Z.to_nat n)) (zlen m))); [|lia].
  replace (i <? Z.of_nat (Z.to_nat n)) with true by lia. reflexivity.
Qed.
Lemma Forall_firstn {A} (P : A -> Prop) n l : Forall P l -> Forall P (firstn n l).
Proof. intro H. revert n. induction H; intros [|n]; cbn; auto. Qed.
Lemma Forall_skipn {A} (P : A -> Prop) n l : Forall P l -> Forall P (skipn n l).
Proof. intro H. revert n. induction H; intros [|n]; cbn; auto. Qed.
Lemma grow_bytes m n j : Forall byte m -> Forall byte (grow m n j).
Proof.
  intro H. unfold grow. apply Forall_app. split; [now apply Forall_firstn|].
  apply Forall_firstn, Forall_app. split.
  - apply Forall_forall. intros x Hx. apply in_map_iff in Hx as (y & <- & _). apply (u8_range y).
  - apply Forall_forall. intros x Hx. apply repeat_spec in Hx as ->. unfold byte. lia.
Qed.
Lemma store_bytes m pos bs m' : Forall byte m -> Forall byte bs -> store m pos bs = Ok m' -> Forall byte m'.
Proof.
  unfold store. intros Hm Hb. destruct (_ && _); [|discriminate]. intros [= <-].
  rewrite !Forall_app. auto using Forall_firstn, Forall_skipn.
Qed.

Lemma load_ok m pos n : 0 <= pos -> 0 <= n -> pos + n <= zlen m -> load m pos n = Ok (zslice m pos n).
Proof. intros. unfold load. now replace ((0 <=? pos) && (0 <=? n) && (pos + n <=? zlen m)) with true by lia. Qed.

Lemma zslice_ext {A} (m m' : list A) p n : 0 <= p -> 0 <= n -> p + n <= zlen m -> p + n <= zlen m' ->
  (forall i, p <= i < p + n -> zget m i = zget m' i) -> zslice m p n = zslice m' p n.
Proof.
  intros Hp Hn H1 H2 He. apply zget_ext.
  - now rewrite !zlen_zslice.
  - rewrite zlen_zslice by assumption. intros i Hi. rewrite !zget_zslice by assumption.
    replace ((0 <=? i) && (i <? n)) with true by lia. apply He. lia.
Qed.
Lemma zslice_app {A} (m : list A) p n1 n2 : 0 <= p -> 0 <= n1 -> 0 <= n2 -> p + n1 + n2 <= zlen m ->
  zslice m p (n1 + n2) = zslice m p n1 ++ zslice m (p + n1) n2.
Proof.
  intros. apply zget_ext.
  - rewrite zlen_app, !zlen_zslice by lia. lia.
  - rewrite zlen_zslice by lia. intros i Hi. rewrite zget_app, zlen_zslice, !zget_zslice by lia.
    replace ((0 <=? i) && (i <? n1 + n2)) with true by lia.
    destruct (Z.ltb_spec i n1).
    + now replace ((0 <=? i) && true) with true by lia.
    + replace ((0 <=? i - n1) && (i - n1 <? n2)) with true by lia. f_equal. lia.
Qed.
Lemma zslice_exact {A} (m bs : list A) p : 0 <= p -> p + zlen bs <= zlen m ->
  (forall i, 0 <= i < zlen bs -> zget m (p + i) = zget bs i) -> zslice m p (zlen bs) = bs.
Proof.
  intros Hp Hl He. pose proof (zlen_nonneg bs). apply zget_ext; [now rewrite zlen_zslice by lia|].
  rewrite zlen_zslice by lia. intros i Hi. rewrite zget_zslice by lia.
  replace ((0 <=? i) && (i <? zlen bs)) with true by lia. now apply He.
Qed.
Lemma zslice_bytes m p n : Forall byte m -> Forall byte (zslice m p n).
Proof. intro H. unfold zslice. now apply Forall_firstn, Forall_skipn. Qed.

(** ** Little-endian *)
Lemma le_len n : forall v, zlen (le n v) = Z.of_nat n.
Proof. induction n as [|n IH]; intro v; [reflexivity|]. cbn [le]. rewrite zlen_cons, IH. lia. Qed.
Lemma le_bytes n : forall v, Forall byte (le n v).
Proof.
  induction n as [|n IH]; intro v; [constructor|]. constructor; [|apply IH].
  unfold byte. pose proof (Z.mod_pos_bound v 256). lia.
Qed.
Lemma le_split_aux v : forall n k,
  map (fun i => u8 (Z.shiftr v (8 * Z.of_nat i))) (seq k n) = le n (v / 2^(8 * Z.of_nat k)).
Proof.
  induction n as [|n IH]; intro k; [reflexivity|]. cbn [seq map le]. f_equal.
  - unfold u8. rewrite Z.shiftr_div_pow2 by lia. reflexivity.
  - rewrite IH. f_equal. rewrite Z.div_div by (try apply Z.pow_nonzero; lia).
    f_equal. replace (8 * Z.of_nat (S k)) with (8 * Z.of_nat k + 8) by lia.
    now rewrite Z.pow_add_r by lia.
Qed.
Lemma le_split_le n v : le_split n v = le (Z.to_nat n) v.
Proof.
  unfold le_split. rewrite le_split_aux. change (2^(8 * Z.of_nat 0)) with 1. now rewrite Z.div_1_r.
Qed.
Lemma lor_disjoint a b k : 0 <= k -> 0 <= a < 2^k -> 0 <= b -> Z.lor a (Z.shiftl b k) = a + b * 2^k.
Proof.
  intros Hk Ha Hb. rewrite <- Z.shiftl_mul_pow2 by lia.
  assert (Hl : Z.land a (Z.shiftl b k) = 0).
  { apply Z.bits_inj'. intros i Hi. rewrite Z.land_spec, Z.shiftl_spec, Z.bits_0 by lia.
    destruct (Z.lt_ge_cases i k).
    - rewrite (Z.testbit_neg_r b) by lia. apply andb_false_r.
    - destruct (Z.eq_dec a 0) as [->|]; [now rewrite Z.bits_0|].
      rewrite Z.bits_above_log2; [reflexivity|lia|].
      assert (Z.log2 a < k) by (apply Z.log2_lt_pow2; lia). lia. }
  rewrite <- Z.lxor_lor by exact Hl. symmetry. now apply Z.add_nocarry_lxor.
Qed.
Lemma val_range bs : Forall byte bs -> 0 <= val_le bs < 2^(8 * zlen bs).
Proof.
  induction 1 as [|b r Hb Hr IH]; [cbn; lia|]. cbn [val_le]. rewrite zlen_cons.
  pose proof (zlen_nonneg r). replace (8 * (zlen r + 1)) with (8 * zlen r + 8) by lia.
  rewrite Z.pow_add_r by lia. unfold byte in Hb. change (2^8) with 256. nia.
Qed.
Lemma le_or_val bs : Forall byte bs -> forall i, 0 <= i -> le_or bs i = val_le bs * 2^(8 * i).
Proof.
  induction 1 as [|b r Hb Hr IH]; intros i Hi; [reflexivity|]. cbn [le_or val_le].
  rewrite IH by lia. replace (8 * (i + 1)) with (8 + 8 * i) by lia.
  rewrite Z.pow_add_r by lia. pose proof (val_range r Hr).
  rewrite Z.mul_assoc, <- Z.shiftl_mul_pow2 by lia.
  rewrite <- Z.shiftl_lor.
  replace (val_le r * 2^8) with (Z.shiftl (val_le r) 8) by (rewrite Z.shiftl_mul_pow2; lia).
  unfold byte in Hb. rewrite lor_disjoint by (change (2^8) with 256; lia).
  rewrite Z.shiftl_mul_pow2 by lia. f_equal. change (2^8) with 256. lia.
Qed.
Lemma val_of_le n : forall v, 0 <= v < 2^(8 * Z.of_nat n) -> val_le (le n v) = v.
Proof.
  induction n as [|n IH]; intros v Hv.
  - change (2^(8 * Z.of_nat 0)) with 1 in Hv. cbn. lia.
  - cbn [le val_le]. replace (8 * Z.of_nat (S n)) with (8 + 8 * Z.of_nat n) in Hv by lia.
    rewrite Z.pow_add_r in Hv by lia. change (2^8) with 256 in Hv.
    rewrite IH.
    + pose proof (Z.div_mod v 256). lia.
    + split; [apply Z.div_pos; lia|]. apply Z.div_lt_upper_bound; lia.
Qed.
Lemma le_or_le n v : 0 <= v < 2^(8 * Z.of_nat n) -> le_or (le n v) 0 = v.
Proof.
  intro H. rewrite le_or_val by (try apply le_bytes; lia). rewrite val_of_le by exact H.
  change (2^(8*0)) with 1. lia.
Qed.

Lemma app_inj_len {A} (a b c d : list A) : length a = length c -> a ++ b = c ++ d -> a = c /\ b = d.
Proof.
  revert c. induction a as [|x a IH]; intros [|y c] Hl He; cbn in *; try lia; auto.
  injection He as -> He. destruct (IH c ltac:(lia) He) as [-> ->]. auto.
Qed.

(** ** Basic facts *)
Lemma unread_len b : wf b -> zlen (unread b) = wpos b - rpos b.
Proof. intros []. unfold unread. rewrite zlen_zslice; lia. Qed.
Lemma size_ok b : wf b -> buf_size b = wpos b - rpos b.
Proof. intros []. unfold buf_size. rewrite u64_small; lia. Qed.
Lemma quota_ok b : wf b -> buf_quota b = cap b - wpos b.
Proof. intros []. unfold buf_quota. rewrite u64_small; lia. Qed.

Lemma flag_pos b e : 0 <= err b -> 0 < e -> err (flag b e) <> 0.
Proof.
  intros H1 H2. cbn. intro H. apply Z.lor_eq_0_iff in H. lia.
Qed.
Lemma flag_wf b e : wf b -> 0 <= e -> wf (flag b e).
Proof.
  intros [] He. constructor; cbf; auto.
  apply Z.lor_nonneg. auto.
Qed.

Lemma init_wf c ok b : 0 <= c < 2^64 -> buf_init c ok = (b, true) ->
  wf b /\ err b = 0 /\ rpos b = 0 /\ wpos b = 0 /\ ref b = false /\ limit b = BUF_MAX /\ cap b = c.
Proof.
  intros Hc. unfold buf_init. destruct (Z.ltb_spec 0 c).
  - destruct ok; [|discriminate]. intros [= <-]. unfold buf_wrap.
    assert (Hl : zlen (repeat 0 (Z.to_nat c)) = c) by (rewrite zlen_repeat; lia).
    rewrite Hl. split; [|repeat split].
    constructor; cbf; try lia; try (unfold BUF_MAX; lia).
    apply Forall_forall. intros x Hx. apply repeat_spec in Hx as ->. unfold byte. lia.
  - intros [= <-]. unfold buf_wrap. change (zlen (@nil Z)) with 0. split; [|repeat split; cbn [cap]; lia].
    constructor; cbf; try lia; try (unfold BUF_MAX; lia); [reflexivity|constructor].
Qed.

(** ** Growing *)
Definition pages (n : Z) : Z := (n + 4095) / 4096 * 4096.
Lemma pages_bounds n : n <= pages n < n + 4096.
Proof.
  unfold pages. pose proof (Z.div_mod (n + 4095) 4096). pose proof (Z.mod_pos_bound (n + 4095) 4096). lia.
Qed.

(** [b'] is [b] with a possibly larger block. *)
Record grown (b b' : buf) : Prop := mk_grown {
  g_r : rpos b' = rpos b; g_w : wpos b' = wpos b; g_e : err b' = err b; g_l : limit b' = limit b; g_ref : ref b' = ref b;
  g_cap : cap b <= cap b'; g_same : forall i, i < cap b -> zget (mem b') i = zget (mem b) i;
  g_lim : b' = b \/ (ref b = false /\ cap b' <= limit b) }.

Lemma reserve_ok b len a : wf b -> 0 <= len -> cap b + len + 4095 < 2^64 ->
  (buf_reserve b len a = Ok (flag b OOM, false) /\ cap b < wpos b + len /\
     (ref b = true \/ limit b < pages (cap b + len) \/ BUF_MAX - 4096 <= cap b \/ a = None)) \/
  (exists b', buf_reserve b len a = Ok (b', true) /\ wf b' /\ grown b b' /\ wpos b + len <= cap b' /\
     (b' = b \/ cap b' = pages (cap b + len))).
Proof.
  intros W Hl Hc. pose proof W as W'. destruct W'. unfold buf_reserve.
  rewrite (u64_small (wpos b + len)), (u64_small (cap b + len)), (u64_small (cap b + len + 4095)) by lia.
  destruct (Z.ltb_spec (cap b) (wpos b + len)) as [H|H].
  - destruct (ref b) eqn:Er; [left; split; [reflexivity|split; [lia|auto]]|].
    pose proof (pages_bounds (cap b + len)) as Hpg.
    assert (Hpd : pages (cap b + len) <= cap b + len + 4095).
    { unfold pages. pose proof (Z.mul_div_le (cap b + len + 4095) 4096). lia. }
    change ((cap b + len + 4095) / 4096 * 4096) with (pages (cap b + len)).
    rewrite (u64_small (pages _)) by lia.
    destruct (Z.ltb_spec (limit b) (pages (cap b + len))) as [H1|H1]; [left; split; [reflexivity|split; [lia|auto]]|].
    destruct (Z.leb_spec (BUF_MAX - 4096) (cap b)) as [H2|H2]; [left; split; [reflexivity|split; [lia|auto]]|]. cbn [orb].
    destruct (Z.eqb_spec (pages (cap b + len)) 0); [lia|].
    destruct a as [junk|]; [right|left; split; [reflexivity|split; [lia|auto]]].
    eexists. split; [reflexivity|]. split; [|split; [|split]].
    + constructor; cbf; try lia.
      * symmetry. apply zlen_grow. lia.
      * now apply grow_bytes.
    + constructor; cbf; auto; [lia|].
      intros i Hi. apply zget_grow; lia.
    + cbn [cap]. lia.
    + right. reflexivity.
  - right. exists b. split; [reflexivity|]. split; [exact W|]. split; [|split; [lia|auto]].
    constructor; auto; lia.
Qed.

Lemma grown_unread b b' : wf b -> wf b' -> grown b b' -> unread b' = unread b.
Proof.
  intros [] [] []. unfold unread. rewrite g_r0, g_w0.
  apply zslice_ext; try lia. intros i Hi. apply g_same0. lia.
Qed.

(** ** Appending bytes *)
(** [b'] is [b] with [bs] appended to the unread data. *)
Record appended (b b' : buf) (bs : list Z) : Prop := mk_app {
  a_wf : wf b'; a_r : rpos b' = rpos b; a_w : wpos b' = wpos b + zlen bs; a_e : err b' = 0;
  a_ref : ref b' = ref b; a_l : limit b' = limit b; a_cap : cap b <= cap b';
  a_same : forall i, 0 <= i < wpos b -> zget (mem b') i = zget (mem b) i;
  a_new : forall i, 0 <= i < zlen bs -> zget (mem b') (wpos b + i) = zget bs i }.

Lemma appended_unread b b' bs : wf b -> appended b b' bs -> unread b' = unread b ++ bs.
Proof.
  intros W A. pose proof (a_wf _ _ _ A) as W'. destruct W, W', A. pose proof (zlen_nonneg bs).
  unfold unread. rewrite a_r0, a_w0.
  replace (wpos b + zlen bs - rpos b) with ((wpos b - rpos b) + zlen bs) by lia.
  rewrite zslice_app by lia. f_equal.
  - apply zslice_ext; try lia. intros i Hi. apply a_same0. lia.
  - replace (rpos b + (wpos b - rpos b)) with (wpos b) by lia. apply zslice_exact; auto; lia.
Qed.

Lemma appended_trans b b1 b2 x y : appended b b1 x -> appended b1 b2 y -> wf b -> appended b b2 (x ++ y).
Proof.
  intros A1 A2 W. pose proof (zlen_nonneg x). pose proof (zlen_nonneg y). destruct W.
  constructor.
  - apply A2.
  - rewrite (a_r _ _ _ A2). apply A1.
  - rewrite (a_w _ _ _ A2), (a_w _ _ _ A1), zlen_app. lia.
  - apply A2.
  - rewrite (a_ref _ _ _ A2). apply A1.
  - rewrite (a_l _ _ _ A2). apply A1.
  - pose proof (a_cap _ _ _ A2). pose proof (a_cap _ _ _ A1). lia.
  - intros i Hi. rewrite (a_same _ _ _ A2) by (rewrite (a_w _ _ _ A1); lia). now apply (a_same _ _ _ A1).
  - intros i Hi. rewrite zlen_app in Hi. rewrite zget_app. destruct (Z.ltb_spec i (zlen x)).
    + rewrite (a_same _ _ _ A2) by (rewrite (a_w _ _ _ A1); lia). apply (a_new _ _ _ A1). lia.
    + rewrite <- (a_new _ _ _ A2) by lia. f_equal. rewrite (a_w _ _ _ A1). lia.
Qed.

(** What a failed or refused append leaves. *)
Record unchanged (b b' : buf) : Prop := mk_unch {
  u_wf : wf b'; u_r : rpos b' = rpos b; u_w : wpos b' = wpos b; u_e : err b' <> 0;
  u_ref : ref b' = ref b; u_l : limit b' = limit b; u_cap : cap b <= cap b';
  u_same : forall i, i < cap b -> zget (mem b') i = zget (mem b) i }.

Lemma unchanged_trans b b1 b2 : unchanged b b1 -> unchanged b1 b2 -> unchanged b b2.
Proof.
  intros [] []. constructor; auto; try congruence; try lia.
  intros i Hi. rewrite u_same1 by lia. auto.
Qed.
Lemma unchanged_unread b b' : wf b -> unchanged b b' -> unread b' = unread b.
Proof.
  intros [] U. pose proof (u_wf _ _ U) as W'. destruct W', U. unfold unread. rewrite u_r0, u_w0.
  apply zslice_ext; try lia. intros i Hi. apply u_same0. lia.
Qed.
Lemma flag_unchanged b e : wf b -> 0 < e -> unchanged b (flag b e).
Proof.
  intros W He. constructor; try reflexivity.
  - apply flag_wf; [exact W|lia].
  - apply flag_pos; [apply W|exact He].
Qed.

Definition room (b : buf) (n : Z) : Prop := cap b + n + 4095 < 2^64.

(** put_raw on a valid buffer. *)
Lemma put_raw_ok b src a : wf b -> err b = 0 -> Forall byte src -> room b (zlen src) ->
  exists b', buf_put_raw b src a = Ok b' /\
    ((err b' = 0 /\ appended b b' src /\ (cap b' = cap b \/ cap b' = pages (cap b + zlen src))) \/
     (b' = flag b OOM /\ cap b < wpos b + zlen src /\
        (ref b = true \/ limit b < pages (cap b + zlen src) \/ BUF_MAX - 4096 <= cap b \/ a = None))).
Proof.
  intros W He Hb Hroom. pose proof (zlen_nonneg src) as Hs. unfold buf_put_raw.
  destruct (reserve_ok b (zlen src) a W Hs Hroom) as [(Hr & Hx & Hy)|(b1 & Hr & W1 & G & Hroom1 & Hcap)]; rewrite Hr; cbn [bind].
  - eexists. split; [reflexivity|]. right. auto.
  - pose proof (w_r _ W). pose proof (w_rw _ W). pose proof (w_wc _ W). pose proof W1 as W1'. destruct W1'. destruct G.
    unfold buf_set_data. rewrite g_e0, He. change (negb (0 =? 0)) with false. cbn [orb].
    rewrite g_w0, u64_small by lia.
    replace (cap b1 <? wpos b + zlen src) with false by lia.
    assert (Hcapd : cap b1 = cap b \/ cap b1 = pages (cap b + zlen src)) by (destruct Hcap as [->|]; auto).
    destruct (Z.eqb_spec (zlen src) 0) as [Hz|Hz]; cbn [bind].
    + eexists. split; [reflexivity|]. left. cbn [err with_wpos]. split; [congruence|]. split; [|exact Hcapd].
      constructor; cbf; auto; try congruence; try lia.
      * rewrite g_w0, Z.add_0_r, u64_small by lia.
        constructor; cbf; auto; lia.
      * rewrite g_w0, u64_small; lia.
      * intros i Hi. apply g_same0. lia.
    + destruct (store_ok (mem b1) (wpos b) src) as (m' & Hst & Hlen & Hget); [lia|lia|].
      rewrite Hst. cbn [bind]. eexists. split; [reflexivity|]. left. cbn [err with_wpos with_mem].
      split; [congruence|]. split; [|exact Hcapd].
      constructor; cbf; auto; try congruence; try lia.
      * rewrite g_w0, u64_small by lia.
        constructor; cbf; auto; try lia.
        eapply store_bytes; [exact w_bytes|exact Hb|exact Hst].
      * rewrite g_w0, u64_small; lia.
      * intros i Hi. rewrite Hget. replace ((wpos b <=? i) && (i <? wpos b + zlen src)) with false by lia.
        apply g_same0. lia.
      * intros i Hi. rewrite Hget.
        replace ((wpos b <=? wpos b + i) && (wpos b + i <? wpos b + zlen src)) with true by lia.
        f_equal. lia.
Qed.

(** put_raw on a buffer with an error. *)
Lemma put_raw_err b src a : wf b -> err b <> 0 -> room b (zlen src) ->
  exists b', buf_put_raw b src a = Ok b' /\ unchanged b b' /\ (ref b = true -> mem b' = mem b /\ cap b' = cap b) /\
    (cap b' <= Z.max (cap b) (limit b)).
Proof.
  intros W He Hroom. pose proof (zlen_nonneg src) as Hs. unfold buf_put_raw.
  destruct (reserve_ok b (zlen src) a W Hs Hroom) as [(Hr & Hx & Hy)|(b1 & Hr & W1 & G & Hroom1 & Hcap)]; rewrite Hr; cbn [bind].
  - eexists. split; [reflexivity|]. split; [now apply flag_unchanged|]. cbn. split; [auto|lia].
  - unfold buf_set_data. pose proof G as G'. destruct G'. rewrite g_e0.
    destruct (Z.eqb_spec (err b) 0); [contradiction|]. cbn [negb orb bind].
    eexists. split; [reflexivity|]. pose proof W1 as W1'. destruct W1'.
    split; [constructor|split]; cbf; auto.
    + rewrite Z.add_0_r, u64_small by lia.
      constructor; cbf; auto. apply Z.lor_nonneg. split; [assumption|unfold CORRUPT; lia].
    + rewrite Z.add_0_r, u64_small by lia. exact g_w0.
    + intro H. apply Z.lor_eq_0_iff in H as [H _]. rewrite g_e0 in H. contradiction.
    + intro Hre. destruct g_lim0 as [->|[H _]]; [auto|congruence].
    + destruct g_lim0 as [->|[_ H]]; lia.
Qed.

Lemma put_eq n b v a : 0 < n -> buf_put n b v a = buf_put_raw b (le (Z.to_nat n) v) a.
Proof.
  intro Hn. unfold buf_put, buf_put_raw. rewrite le_len.
  replace (Z.of_nat (Z.to_nat n)) with n by lia.
  destruct (buf_reserve b n a) as [[b1 []]| |]; cbn [bind]; [|reflexivity..].
  unfold set_pos, buf_set_data. rewrite le_len, le_split_le.
  replace (Z.of_nat (Z.to_nat n)) with n by lia.
  destruct (_ || _); [reflexivity|]. replace (n =? 0) with false by lia.
  destruct (store _ _ _); reflexivity.
Qed.

(** ** Reading *)
(** [b'] is [b] with [n] bytes consumed. *)
Lemma get_ok n b v rest : wf b -> err b = 0 -> 0 < n ->
  0 <= v < 2^(8 * n) -> unread b = le (Z.to_nat n) v ++ rest ->
  exists b', buf_get n b = Ok (b', v) /\ wf b' /\ err b' = 0 /\ unread b' = rest /\
    mem b' = mem b /\ cap b' = cap b /\ limit b' = limit b /\ ref b' = ref b /\ wpos b' = wpos b /\ rpos b' = rpos b + n.
Proof.
  intros W He Hn Hv Hu. pose proof W as W'. destruct W'.
  assert (Hlen : wpos b - rpos b = n + zlen rest).
  { rewrite <- (unread_len b W), Hu, zlen_app, le_len. lia. }
  pose proof (zlen_nonneg rest) as Hr.
  unfold buf_get, peek_pos. rewrite He. change (negb (0 =? 0)) with false. cbn [orb].
  rewrite u64_small by lia. replace (wpos b <? rpos b + n) with false by lia.
  rewrite load_ok by lia. cbn [bind].
  assert (Hsp : zslice (mem b) (rpos b) (wpos b - rpos b) =
                zslice (mem b) (rpos b) n ++ zslice (mem b) (rpos b + n) (wpos b - rpos b - n)).
  { replace (wpos b - rpos b) with (n + (wpos b - rpos b - n)) at 1 by lia. apply zslice_app; lia. }
  unfold unread in Hu. rewrite Hsp in Hu.
  assert (Hb : zslice (mem b) (rpos b) n = le (Z.to_nat n) v /\
               zslice (mem b) (rpos b + n) (wpos b - rpos b - n) = rest).
  { apply app_inj_len; [|exact Hu].
    apply Nat2Z.inj. change (zlen (zslice (mem b) (rpos b) n) = zlen (le (Z.to_nat n) v)).
    rewrite zlen_zslice, le_len by lia. lia. }
  destruct Hb as [Hb1 Hb2]. rewrite Hb1, le_or_le by (replace (Z.of_nat (Z.to_nat n)) with n by lia; exact Hv).
  eexists. split; [reflexivity|].
  cbf. rewrite u64_small by lia.
  split; [constructor; cbf; auto; lia|].
  split; [exact He|]. split; [|auto 10].
  unfold unread. cbn [mem rpos wpos with_rpos]. rewrite <- Hb2. f_equal. lia.
Qed.

(** ** Writes in general *)
(** [b'] is [b] after a write of [bs] of which [p] made it into the buffer,
    with at most [k] growths. *)
Record ext (b b' : buf) (bs p : list Z) (k : Z) : Prop := mk_ext {
  e_wf : wf b'; e_r : rpos b' = rpos b; e_w : wpos b' = wpos b + zlen p;
  e_ref : ref b' = ref b; e_l : limit b' = limit b; e_cap : cap b <= cap b';
  e_hi : cap b' <= cap b + zlen bs + 4095 * k;
  e_lim : cap b' = cap b \/ (ref b = false /\ cap b' <= limit b);
  e_pre : exists q, bs = p ++ q;
  e_ok : err b' = 0 -> p = bs /\ err b = 0;
  e_bad : err b <> 0 -> p = [] /\ err b' <> 0;
  e_same : forall i, i < cap b -> i < wpos b \/ wpos b + zlen p <= i -> zget (mem b') i = zget (mem b) i;
  e_new : forall i, 0 <= i < zlen p -> zget (mem b') (wpos b + i) = zget p i }.

(** Memory is available for [n] more bytes. *)
Definition ample (b : buf) (n : Z) : Prop :=
  ref b = false /\ limit b = BUF_MAX /\ cap b + n + 4096 <= BUF_MAX - 4096.

Lemma put_raw_ext b src a : wf b -> Forall byte src -> room b (zlen src) ->
  exists b' p, buf_put_raw b src a = Ok b' /\ ext b b' src p 1 /\
    (err b = 0 -> a <> None -> ample b (zlen src) -> err b' = 0).
Proof.
  intros W Hb Hroom. pose proof (zlen_nonneg src) as Hs. unfold buf_put_raw.
  destruct (reserve_ok b (zlen src) a W Hs Hroom) as [(Hr & Hx & Hy)|(b1 & Hr & W1 & G & Hroom1 & Hcap)]; rewrite Hr; cbn [bind].
  - exists (flag b OOM), []. split; [reflexivity|]. split.
    + constructor; change (zlen (@nil Z)) with 0; cbf; auto; try lia.
      * apply flag_wf; [exact W|unfold OOM; lia].
      * eexists. reflexivity.
      * intro H. exfalso. revert H. apply (flag_pos b OOM); [apply W|reflexivity].
      * intros _. split; [reflexivity|]. apply (flag_pos b OOM); [apply W|reflexivity].
    + intros _ Ha (A1 & A2 & A3). exfalso. pose proof (pages_bounds (cap b + zlen src)).
      destruct Hy as [Hy|[Hy|[Hy|Hy]]]; [congruence|lia..|contradiction].
  - assert (Hpg : cap b1 <= cap b + zlen src + 4095).
    { destruct Hcap as [->| ->]; [lia|]. pose proof (pages_bounds (cap b + zlen src)). lia. }
    pose proof (w_r _ W). pose proof (w_rw _ W). pose proof (w_wc _ W).
    pose proof W1 as W1'. destruct W1'. destruct G.
    assert (Hlm : cap b1 = cap b \/ ref b = false /\ cap b1 <= limit b) by (destruct g_lim0 as [->|]; auto).
    unfold buf_set_data. rewrite g_e0, g_w0, u64_small by lia.
    replace (cap b1 <? wpos b + zlen src) with false by lia. rewrite orb_false_r.
    destruct (Z.eqb_spec (err b) 0) as [He|He]; cbn [negb].
    + destruct (Z.eqb_spec (zlen src) 0) as [Hz|Hz]; cbn [bind].
      * eexists _, src. split; [reflexivity|]. split; [|intros; cbf; congruence].
        constructor; cbf; rewrite ?g_w0, ?Z.add_0_r, ?u64_small by lia; auto; try congruence; try lia.
        -- constructor; cbf; auto; lia.
        -- exists []. now rewrite app_nil_r.
      * destruct (store_ok (mem b1) (wpos b) src) as (m' & Hst & Hlen & Hget); [lia|lia|].
        rewrite Hst. cbn [bind]. eexists _, src. split; [reflexivity|]. split; [|intros; cbf; congruence].
        constructor; cbf; rewrite ?g_w0, ?u64_small by lia; auto; try congruence; try lia.
        -- constructor; cbf; auto; try lia.
           eapply store_bytes; [exact w_bytes|exact Hb|exact Hst].
        -- exists []. now rewrite app_nil_r.
        -- intros i Hi Ho. rewrite Hget. replace ((wpos b <=? i) && (i <? wpos b + zlen src)) with false by lia.
           now apply g_same0.
        -- intros i Hi. rewrite Hget.
           replace ((wpos b <=? wpos b + i) && (wpos b + i <? wpos b + zlen src)) with true by lia.
           f_equal. lia.
    + cbn [bind]. eexists _, []. split; [reflexivity|]. split; [|intros; contradiction].
      assert (Hne : Z.lor (err b1) CORRUPT <> 0).
      { intro H'. apply Z.lor_eq_0_iff in H' as [H' _]. congruence. }
      constructor; change (zlen (@nil Z)) with 0; cbf; rewrite ?g_w0, ?Z.add_0_r, ?u64_small by lia; auto; try lia.
      * constructor; cbf; auto; try lia. apply Z.lor_nonneg. split; [assumption|unfold CORRUPT; lia].
      * eexists. reflexivity.
Qed.

Lemma ext_trans b b1 b2 x y p1 p2 k1 k2 : wf b -> ext b b1 x p1 k1 -> ext b1 b2 y p2 k2 ->
  ext b b2 (x ++ y) (p1 ++ p2) (k1 + k2).
Proof.
  intros W E1 E2. pose proof (zlen_nonneg p1). pose proof (zlen_nonneg p2).
  pose proof (w_wc _ W). pose proof (w_wc _ (e_wf _ _ _ _ _ E1)) as Hw1. pose proof (w_r _ W). pose proof (w_rw _ W).
  rewrite (e_w _ _ _ _ _ E1) in Hw1. pose proof (e_cap _ _ _ _ _ E1). pose proof (e_cap _ _ _ _ _ E2).
  constructor.
  - apply E2.
  - rewrite (e_r _ _ _ _ _ E2). apply E1.
  - rewrite (e_w _ _ _ _ _ E2), (e_w _ _ _ _ _ E1), zlen_app. lia.
  - rewrite (e_ref _ _ _ _ _ E2). apply E1.
  - rewrite (e_l _ _ _ _ _ E2). apply E1.
  - lia.
  - rewrite zlen_app. pose proof (e_hi _ _ _ _ _ E1). pose proof (e_hi _ _ _ _ _ E2). lia.
  - pose proof (e_lim _ _ _ _ _ E1) as L1. pose proof (e_lim _ _ _ _ _ E2) as L2.
    rewrite (e_l _ _ _ _ _ E1), (e_ref _ _ _ _ _ E1) in L2.
    destruct L2 as [->|L2]; auto.
  - destruct (e_pre _ _ _ _ _ E1) as [q1 ->], (e_pre _ _ _ _ _ E2) as [q2 ->].
    destruct (Z.eq_dec (err b1) 0) as [He|He].
    + destruct (e_ok _ _ _ _ _ E1 He) as [Hp _].
      assert (q1 = []) as -> by (apply (app_inv_head p1); now rewrite app_nil_r).
      exists q2. rewrite app_nil_r. now rewrite app_assoc.
    + destruct (e_bad _ _ _ _ _ E2 He) as [-> _]. exists (q1 ++ [] ++ q2). rewrite app_nil_r. now rewrite !app_assoc.
  - intro He. destruct (e_ok _ _ _ _ _ E2 He) as [-> He1]. destruct (e_ok _ _ _ _ _ E1 He1) as [-> He0]. auto.
  - intro He. destruct (e_bad _ _ _ _ _ E1 He) as [-> He1]. destruct (e_bad _ _ _ _ _ E2 He1) as [-> He2]. auto.
  - intros i Hi Ho. rewrite zlen_app in Ho.
    rewrite (e_same _ _ _ _ _ E2) by (rewrite ?(e_w _ _ _ _ _ E1); lia).
    apply (e_same _ _ _ _ _ E1); lia.
  - intros i Hi. rewrite zlen_app in Hi. rewrite zget_app. destruct (Z.ltb_spec i (zlen p1)).
    + rewrite (e_same _ _ _ _ _ E2) by (rewrite ?(e_w _ _ _ _ _ E1); lia). apply (e_new _ _ _ _ _ E1). lia.
    + rewrite <- (e_new _ _ _ _ _ E2) by lia. f_equal. rewrite (e_w _ _ _ _ _ E1). lia.
Qed.

Lemma ext_weak b b' bs p k k' : ext b b' bs p k -> k <= k' -> ext b b' bs p k'.
Proof. intros [] H. constructor; auto. lia. Qed.

Lemma ext_appended b b' bs p k : ext b b' bs p k -> wf b -> err b' = 0 -> appended b b' bs.
Proof.
  intros E W He. destruct (e_ok _ _ _ _ _ E He) as [-> _]. destruct E. pose proof (w_wc _ W).
  constructor; auto. intros i Hi. apply e_same0; lia.
Qed.

Lemma ext_unread b b' bs p k : ext b b' bs p k -> wf b -> unread b' = unread b ++ p.
Proof.
  intros E W. pose proof (e_wf _ _ _ _ _ E) as W'. pose proof (zlen_nonneg p).
  destruct E. destruct W, W'.
  unfold unread. rewrite e_r0, e_w0.
  replace (wpos b + zlen p - rpos b) with ((wpos b - rpos b) + zlen p) by lia.
  rewrite zslice_app by lia. f_equal.
  - apply zslice_ext; try lia. intros i Hi. apply e_same0; lia.
  - replace (rpos b + (wpos b - rpos b)) with (wpos b) by lia. apply zslice_exact; auto; lia.
Qed.

(** The bytes of a write. *)
Definition wbytes (w : wop) : list Z :=
  match w with
  | PBool v => [if v then 1 else 0]
  | PInt n v => le (Z.to_nat n) v
  | PDouble v => le 8 v
  | PStr None | PStrLen None => le 8 NULL_LEN
  | PStr (Some s) | PStrLen (Some s) => le 8 (zlen s) ++ s ++ [0]
  | PBlob s => le 8 (zlen s) ++ s
  | PRaw s => s
  end.
Definition wop_ok (w : wop) : Prop :=
  match w with
  | PInt n _ => 0 < n
  | PStr (Some s) | PStrLen (Some s) | PBlob s | PRaw s => Forall byte s
  | _ => True
  end.
Definition big_room (b : buf) (n : Z) : Prop := cap b + n + 3 * 4096 < BUF_MAX.

Lemma big_room_room b n m : big_room b n -> 0 <= m <= n -> room b m.
Proof. unfold big_room, room, BUF_MAX. lia. Qed.

Definition okk (b b' : buf) (a1 a2 a3 : alloc) (n : Z) : Prop :=
  err b = 0 -> granted (a1, a2, a3) -> ref b = false -> limit b = BUF_MAX ->
  cap b + n + 3 * 4096 <= BUF_MAX - 4096 -> err b' = 0.

Lemma put_ext n b v a : wf b -> 0 < n -> room b n ->
  exists b' p, buf_put n b v a = Ok b' /\ ext b b' (le (Z.to_nat n) v) p 1 /\
    (err b = 0 -> a <> None -> ample b n -> err b' = 0).
Proof.
  intros W Hn Hr. rewrite put_eq by exact Hn.
  assert (Hl : zlen (le (Z.to_nat n) v) = n) by (rewrite le_len; lia).
  destruct (put_raw_ext b (le (Z.to_nat n) v) a W (le_bytes _ _)) as (b' & p & H1 & H2 & H3); [now rewrite Hl|].
  rewrite Hl in H3. eauto.
Qed.

Lemma write_ext b w a1 a2 a3 : wf b -> wop_ok w -> big_room b (zlen (wbytes w)) ->
  exists b' p, buf_write b w a1 a2 a3 = Ok b' /\ ext b b' (wbytes w) p 3 /\ okk b b' a1 a2 a3 (zlen (wbytes w)).
Proof.
  intros W Hw Hr.
  assert (One : forall n v, 0 < n -> big_room b n -> zlen (le (Z.to_nat n) v) = n ->
    exists b' p, buf_put n b v a1 = Ok b' /\ ext b b' (le (Z.to_nat n) v) p 3 /\ okk b b' a1 a2 a3 n).
  { intros n v Hn Hrn Hl.
    destruct (put_ext n b v a1 W Hn) as (b' & p & H1 & H2 & H3); [eapply big_room_room; [exact Hrn|lia]|].
    exists b', p. split; [exact H1|]. split; [eapply ext_weak; [exact H2|lia]|].
    intros He (G1 & _) R1 R2 R3. apply H3; auto. repeat split; auto. lia. }
  assert (Two : forall v s, Forall byte s -> big_room b (8 + zlen s) -> forall aa, (granted (a1, a2, a3) -> aa <> None) ->
    exists b' p, (let* b1 := buf_put 8 b v a1 in buf_put_raw b1 s aa) = Ok b' /\ ext b b' (le 8 v ++ s) p 2 /\
      okk b b' a1 a2 a3 (8 + zlen s)).
  { intros v s Hs Hrs aa Haa. pose proof (zlen_nonneg s) as Hz.
    destruct (put_ext 8 b v a1 W) as (b1 & p1 & H1 & H2 & H3); [lia|eapply big_room_room; [exact Hrs|lia]|].
    pose proof (e_hi _ _ _ _ _ H2) as Hhi. rewrite le_len in Hhi.
    destruct (put_raw_ext b1 s aa (e_wf _ _ _ _ _ H2) Hs) as (b2 & p2 & I1 & I2 & I3).
    { unfold room, big_room, BUF_MAX in *. lia. }
    exists b2, (p1 ++ p2). rewrite H1. cbn [bind]. split; [exact I1|].
    split; [exact (ext_trans _ _ _ _ _ _ _ _ _ W H2 I2)|].
    intros He Hg R1 R2 R3. pose proof (Haa Hg). destruct Hg as (G1 & _). apply I3; auto.
    - apply H3; auto. repeat split; auto. lia.
    - repeat split; [rewrite (e_ref _ _ _ _ _ H2)|rewrite (e_l _ _ _ _ _ H2)|]; auto. lia. }
  assert (Hg2 : granted (a1, a2, a3) -> a2 <> None) by (intros (_ & H & _); exact H).
  destruct w as [v|n v|v|[s|]|[s|]|s|s]; cbn [buf_write wbytes wop_ok] in *.
  - destruct (One 1 (if v then 1 else 0)) as (b' & p & H); [lia|destruct v; exact Hr|reflexivity|].
    exists b', p. destruct v; exact H.
  - assert (Hl : zlen (le (Z.to_nat n) v) = n) by (rewrite le_len; lia).
    rewrite Hl in Hr |- *. now apply One.
  - apply (One 8); [lia|exact Hr|reflexivity].
  - rewrite zlen_app, le_len in Hr. change (Z.of_nat 8) with 8 in Hr.
    unfold buf_put_str.
    assert (Hs : zlen s < BUF_MAX).
    { pose proof (w_r _ W). pose proof (w_rw _ W). pose proof (w_wc _ W). unfold big_room in Hr. rewrite zlen_app in Hr.
      change (zlen [0]) with 1 in Hr. lia. }
    replace (BUF_MAX <=? zlen s) with false by lia.
    destruct (Two (zlen s) (s ++ [0])) with (aa := a2) as (b' & p & H1 & H2 & H3); auto.
    { apply Forall_app. split; [exact Hw|]. repeat constructor; lia. }
    exists b', p. split; [exact H1|]. split; [eapply ext_weak; [exact H2|lia]|].
    rewrite (zlen_app (le 8 (zlen s))), le_len. exact H3.
  - apply (One 8); [lia|exact Hr|reflexivity].
  - rewrite !zlen_app, le_len in Hr. change (Z.of_nat 8) with 8 in Hr. change (zlen [0]) with 1 in Hr.
    unfold buf_put_str_len. pose proof (zlen_nonneg s).
    destruct (Two (zlen s) s Hw) with (aa := a2) as (b2 & p2 & H1 & H2 & H3); auto.
    { unfold big_room in *. lia. }
    pose proof (e_hi _ _ _ _ _ H2) as Hhi. rewrite zlen_app, le_len in Hhi.
    destruct (put_ext 1 b2 0 a3 (e_wf _ _ _ _ _ H2)) as (b3 & p3 & I1 & I2 & I3); [lia|unfold room, big_room, BUF_MAX in *; lia|].
    assert (Hrun : (let* b0 := buf_put 8 b (zlen s) a1 in let* b1 := buf_put_raw b0 s a2 in buf_put 1 b1 0 a3) = Ok b3).
    { destruct (buf_put 8 b (zlen s) a1) as [b0| |]; cbn [bind] in H1 |- *; try discriminate.
      rewrite H1. exact I1. }
    exists b3, (p2 ++ p3). split; [exact Hrun|].
    rewrite (app_assoc (le 8 (zlen s)) s [0]).
    split; [exact (ext_trans _ _ _ _ _ _ _ _ _ W H2 I2)|].
    rewrite !zlen_app, le_len. change (zlen [0]) with 1. change (Z.of_nat 8) with 8.
    intros He Hg R1 R2 R3. pose proof Hg as (_ & _ & G3). apply I3; auto.
    + apply H3; auto. lia.
    + repeat split; [rewrite (e_ref _ _ _ _ _ H2)|rewrite (e_l _ _ _ _ _ H2)|]; auto. lia.
  - apply (One 8); [lia|exact Hr|reflexivity].
  - rewrite zlen_app, le_len in Hr |- *. change (Z.of_nat 8) with 8 in *.
    destruct (Two (zlen s) s Hw) with (aa := a2) as (b' & p & H1 & H2 & H3); auto.
    exists b', p. split; [exact H1|]. split; [eapply ext_weak; [exact H2|lia]|exact H3].
  - destruct (put_raw_ext b s a1 W Hw) as (b' & p & H1 & H2 & H3).
    { eapply big_room_room; [exact Hr|]. pose proof (zlen_nonneg s). lia. }
    exists b', p. split; [exact H1|]. split; [eapply ext_weak; [exact H2|lia]|].
    intros He (G1 & _) R1 R2 R3. apply H3; auto. repeat split; auto. lia.
Qed.

(** ** Values *)
Definition wop_of (x : value) : wop :=
  match x with
  | VBool v => PBool v | VInt n v => PInt n v | VDouble v => PDouble v
  | VStr true s => PStrLen s | VStr false s => PStr s | VBlob s => PBlob s
  end.
Lemma write_value_eq b x a : write_value b x a = let '(a1, a2, a3) := a in buf_write b (wop_of x) a1 a2 a3.
Proof. destruct a as [[a1 a2] a3], x as [| | |[] s|]; reflexivity. Qed.
Lemma enc_wbytes x : enc x = wbytes (wop_of x).
Proof. destruct x as [| | |[] [s|]|]; reflexivity. Qed.
Lemma value_wop_ok x : value_ok x -> wop_ok (wop_of x).
Proof.
  assert (Hs : forall s, Forall (fun c => 0 < c < 256) s -> Forall byte s).
  { intros s H. eapply Forall_impl; [|exact H]. unfold byte. cbn. intros. lia. }
  destruct x as [|n v| |[] [s|]|s]; cbn; intro H; auto.
  - destruct H as [[->|[->|[->| ->]]] _]; lia.
  - apply Hs, H.
  - apply Hs, H.
  - apply H.
Qed.
Lemma helper_enc x : value_ok x -> helper_len x = zlen (enc x).
Proof.
  destruct x as [|n v| |l [s|]|s]; cbn [helper_len enc value_ok]; intro H; try reflexivity.
  - rewrite le_len. unfold len_fixed. destruct H as [[->|[->|[->| ->]]] _]; reflexivity.
  - rewrite !zlen_app, le_len. unfold len_str. pose proof (zlen_nonneg s). rewrite u64_small by lia.
    change (zlen [0]) with 1. lia.
  - rewrite zlen_app, le_len. unfold len_blob. pose proof (zlen_nonneg s). rewrite u64_small; lia.
Qed.

(** ** Reading values *)
Lemma until_nul_app s t : Forall (fun c => 0 < c < 256) s -> until_nul (s ++ 0 :: t) = Some s.
Proof.
  induction 1 as [|c s Hc Hs IH]; [reflexivity|]. cbn. replace (c =? 0) with false by lia. now rewrite IH.
Qed.
Lemma unread_tail b : wf b -> exists t, skipn (Z.to_nat (rpos b)) (mem b) = unread b ++ t.
Proof.
  intros []. unfold unread, zslice. eexists. symmetry. apply firstn_skipn.
Qed.

(** Advancing the read position. *)
Lemma advance b n x rest : wf b -> unread b = x ++ rest -> zlen x = n ->
  wf (with_rpos b (rpos b + n)) /\ unread (with_rpos b (rpos b + n)) = rest /\ rpos b + n <= wpos b.
Proof.
  intros W Hu Hn. pose proof (unread_len b W) as Hl. rewrite Hu, zlen_app in Hl.
  pose proof (zlen_nonneg rest). pose proof (zlen_nonneg x). pose proof W as W'. destruct W'.
  split; [|split; [|lia]].
  - constructor; cbf; auto; lia.
  - unfold unread in *. cbf. replace (wpos b - rpos b) with (n + (wpos b - (rpos b + n))) in Hu by lia.
    rewrite zslice_app in Hu by lia. apply app_inj_len in Hu; [apply Hu|].
    apply Nat2Z.inj. change (zlen (zslice (mem b) (rpos b) n) = zlen x). rewrite zlen_zslice; lia.
Qed.

Lemma read_value_ok b x rest : wf b -> err b = 0 -> value_ok x -> unread b = enc x ++ rest ->
  exists b', read_like b x = Ok (b', Some x) /\ wf b' /\ err b' = 0 /\ unread b' = rest /\
    mem b' = mem b /\ cap b' = cap b /\ limit b' = limit b /\ ref b' = ref b.
Proof.
  intros W He Hx Hu. destruct x as [v|n v|v|l [s|]|s]; cbn [read_like enc value_ok] in *.
  - destruct (get_ok 1 b (if v then 1 else 0) rest W He) as (b' & Hg & H); [lia|destruct v; lia|destruct v; exact Hu|].
    unfold buf_get_bool. rewrite Hg. cbn [bind]. exists b'.
    replace (negb ((if v then 1 else 0) =? 0)) with v by (destruct v; reflexivity). tauto.
  - destruct (get_ok n b v rest W He) as (b' & Hg & H); [lia|lia|exact Hu|].
    rewrite Hg. cbn [bind]. exists b'. tauto.
  - destruct (get_ok 8 b v rest W He) as (b' & Hg & H); [lia|exact Hx|exact Hu|].
    unfold buf_get_double. rewrite Hg. cbn [bind]. exists b'. tauto.
  - destruct Hx as [Hs Hl]. rewrite <- !app_assoc in Hu. pose proof (zlen_nonneg s) as Hz.
    destruct (get_ok 8 b (zlen s) (s ++ [0] ++ rest) W He) as (b1 & Hg & W1 & E1 & U1 & M1 & C1 & L1 & R1 & P1 & Q1);
      [lia|lia|exact Hu|].
    destruct (advance b1 (zlen s + 1) (s ++ [0]) rest W1) as (W2 & U2 & A2);
      [rewrite U1; now rewrite app_assoc|now rewrite zlen_app|].
    pose proof W1 as W1'. destruct W1'.
    unfold buf_get_str. rewrite Hg. cbn [bind].
    replace (zlen s =? NULL_LEN) with false by (unfold NULL_LEN, BUF_MAX; lia).
    unfold buf_valid. rewrite E1. cbn [negb Z.eqb].
    rewrite (u64_small (rpos b1 + zlen s)) by lia. rewrite (u64_small (rpos b1 + zlen s + 1)) by lia.
    replace (wpos b1 <? rpos b1 + zlen s + 1) with false by lia. cbn [bind].
    rewrite (u64_small (zlen s + 1)) by lia. rewrite u64_small by lia.
    assert (Hc : cstr (with_rpos b1 (rpos b1 + (zlen s + 1))) (rpos b1) = Some s).
    { unfold cstr. cbf. destruct (unread_tail b1 W1) as [t ->]. rewrite U1, <- app_assoc. now apply until_nul_app. }
    rewrite Hc. eexists. split; [reflexivity|]. cbf. auto 10.
  - destruct (get_ok 8 b (2^64 - 1 - 4096) rest W He) as (b' & Hg & H); [lia|lia|exact Hu|].
    unfold buf_get_str. rewrite Hg. cbn [bind].
    replace (2^64 - 1 - 4096 =? NULL_LEN) with true by reflexivity. cbn [bind]. exists b'. tauto.
  - destruct Hx as [Hs Hl]. rewrite <- !app_assoc in Hu. pose proof (zlen_nonneg s) as Hz.
    destruct (get_ok 8 b (zlen s) (s ++ rest) W He) as (b1 & Hg & W1 & E1 & U1 & M1 & C1 & L1 & R1 & P1 & Q1);
      [lia|lia|exact Hu|].
    rewrite Hg. cbn [bind]. unfold buf_get_blob.
    destruct (Z.eqb_spec (zlen s) 0) as [H0|H0]; cbn [bind].
    + apply zlen_zero in H0 as ->. exists b1. auto 10.
    + destruct (advance b1 (zlen s) s rest W1 U1 eq_refl) as (W2 & U2 & A2). pose proof W1 as W1'. destruct W1'.
      rewrite u64_small by lia. replace (wpos b1 <? rpos b1 + zlen s) with false by lia. cbn [bind]. cbf.
      rewrite load_ok by lia. cbn [bind].
      assert (Hsl : zslice (mem b1) (rpos b1) (zlen s) = s).
      { unfold unread in U1. replace (wpos b1 - rpos b1) with (zlen s + (wpos b1 - rpos b1 - zlen s)) in U1 by lia.
        rewrite zslice_app in U1 by lia. apply app_inj_len in U1; [apply U1|].
        apply Nat2Z.inj. change (zlen (zslice (mem b1) (rpos b1) (zlen s)) = zlen s). rewrite zlen_zslice; lia. }
      rewrite Hsl. eexists. split; [reflexivity|]. cbf. auto 10.
Qed.

(** ** The FIFO *)
Lemma fifo_ok ops : forall b q, wf b -> err b = 0 -> ref b = false -> limit b = BUF_MAX ->
  Forall value_ok q -> Forall fop_ok ops -> unread b = enc_all q ->
  cap b + budget ops <= BUF_MAX - 4096 -> fifo b q ops.
Proof.
  induction ops as [|o ops IH]; intros b q W He Hr Hl Hq Ho Hu Hb.
  - cbn [fifo]. unfold buf_valid. rewrite He. split; [reflexivity|]. split; [|exact I].
    now rewrite size_ok, <- Hu, unread_len.
  - inversion Ho as [|? ? Ho1 Ho2]; subst. cbn [fifo].
    split; [unfold buf_valid; now rewrite He|]. split; [now rewrite size_ok, <- Hu, unread_len|].
    destruct o as [x a|].
    + destruct Ho1 as [Hx Ha]. cbn [budget] in Hb. rewrite write_value_eq. destruct a as [[a1 a2] a3].
      assert (Hbud : 0 <= budget ops).
      { clear. induction ops as [|[x a|] r IH]; cbn [budget]; [lia| |exact IH]. pose proof (zlen_nonneg (enc x)). lia. }
      destruct (write_ext b (wop_of x) a1 a2 a3 W (value_wop_ok x Hx)) as (b' & p & Hw & E & K).
      { rewrite <- enc_wbytes. unfold big_room. lia. }
      rewrite <- enc_wbytes in *. specialize (K He Ha Hr Hl ltac:(lia)).
      exists b'. split; [exact Hw|]. apply IH; auto.
      * apply E.
      * rewrite (e_ref _ _ _ _ _ E). exact Hr.
      * rewrite (e_l _ _ _ _ _ E). exact Hl.
      * apply Forall_app. auto.
      * destruct (e_ok _ _ _ _ _ E K) as [-> _]. rewrite (ext_unread _ _ _ _ _ E W), Hu.
        unfold enc_all. rewrite flat_map_app. cbn. now rewrite app_nil_r.
      * pose proof (e_hi _ _ _ _ _ E). lia.
    + destruct q as [|x q]; [exact I|]. inversion Hq as [|? ? Hx Hq']; subst. cbn [budget] in Hb.
      destruct (read_value_ok b x (enc_all q) W He Hx Hu) as (b' & Hrd & W' & E' & U' & M' & C' & L' & R').
      exists b'. split; [exact Hrd|]. apply IH; auto; congruence.
Qed.

(** ** In-place access *)
Lemma le_or_val0 bs : Forall byte bs -> le_or bs 0 = val_le bs.
Proof. intro H. rewrite le_or_val by (auto; lia). change (2^(8*0)) with 1. lia. Qed.

Lemma peek_in n b pos : wf b -> err b = 0 -> 0 < n -> 0 <= pos -> pos + n <= wpos b ->
  peek_pos n b pos = Ok (b, val_le (zslice (mem b) pos n), n).
Proof.
  intros W He Hn Hp Hw. pose proof W as W'. destruct W'. unfold peek_pos. rewrite He.
  change (negb (0 =? 0)) with false. cbn [orb]. rewrite u64_small by lia.
  replace (wpos b <? pos + n) with false by lia. rewrite load_ok by lia. cbn [bind].
  now rewrite le_or_val0 by now apply zslice_bytes.
Qed.
Lemma peek_out n b pos : (err b <> 0 \/ wpos b < u64 (pos + n)) ->
  peek_pos n b pos = Ok (flag b CORRUPT, 0, 0).
Proof.
  intro H. unfold peek_pos. now replace (negb (err b =? 0) || (wpos b <? u64 (pos + n))) with true by lia.
Qed.

Lemma set_in n b pos v : wf b -> err b = 0 -> 0 < n -> 0 <= pos -> pos + n <= cap b ->
  exists b', buf_set_at n b pos v = Ok b' /\ wf b' /\ err b' = 0 /\ cap b' = cap b /\ limit b' = limit b /\
    ref b' = ref b /\ rpos b' = rpos b /\ wpos b' = wpos b /\ zslice (mem b') pos n = le (Z.to_nat n) v /\
    (forall i, i < pos \/ pos + n <= i -> zget (mem b') i = zget (mem b) i).
Proof.
  intros W He Hn Hp Hc. pose proof W as W'. destruct W'. unfold buf_set_at, set_pos. rewrite He.
  change (negb (0 =? 0)) with false. cbn [orb]. rewrite u64_small by lia.
  replace (cap b <? pos + n) with false by lia. rewrite le_split_le.
  assert (Hl : zlen (le (Z.to_nat n) v) = n) by (rewrite le_len; lia).
  destruct (store_ok (mem b) pos (le (Z.to_nat n) v)) as (m' & Hst & Hlen & Hget); [lia|lia|].
  rewrite Hst. cbn [bind]. eexists. split; [reflexivity|]. rewrite Hl in Hget. cbf.
  split; [|repeat split; auto].
  - constructor; cbf; auto; try lia. eapply store_bytes; [exact w_bytes|apply le_bytes|exact Hst].
  - rewrite <- Hl at 1. apply zslice_exact; [lia|lia|].
    intros i Hi. rewrite Hget. replace ((pos <=? pos + i) && (pos + i <? pos + n)) with true by lia. f_equal. lia.
  - intros i Hi. rewrite Hget. now replace ((pos <=? i) && (i <? pos + n)) with false by lia.
Qed.
Lemma set_out n b pos v : (err b <> 0 \/ cap b < u64 (pos + n)) -> buf_set_at n b pos v = Ok (flag b CORRUPT).
Proof.
  intro H. unfold buf_set_at, set_pos. now replace (negb (err b =? 0) || (cap b <? u64 (pos + n))) with true by lia.
Qed.
Lemma val_le_mod n : forall v, 0 <= v -> val_le (le n v) = v mod 2^(8 * Z.of_nat n).
Proof.
  induction n as [|n IH]; intros v Hv.
  - change (2^(8 * Z.of_nat 0)) with 1. cbn. now rewrite Z.mod_1_r.
  - cbn [le val_le]. replace (8 * Z.of_nat (S n)) with (8 + 8 * Z.of_nat n) by lia.
    rewrite Z.pow_add_r by lia. change (2^8) with 256.
    rewrite IH by (apply Z.div_pos; lia). rewrite Z.rem_mul_r; [lia|lia|].
    apply Z.pow_pos_nonneg; lia.
Qed.

(** ** Stickiness *)
Lemma wsize_wbytes w : warg_ok w -> wsize w = zlen (wbytes w).
Proof.
  destruct w as [v|n v|v|[s|]|[s|]|s|s]; cbn [wsize wbytes warg_ok]; intro H; rewrite ?zlen_app, ?le_len; try reflexivity;
    change (zlen [0]) with 1; lia.
Qed.
Lemma fits_room b w : warg_ok w -> fits b w -> big_room b (zlen (wbytes w)).
Proof. intros H1 H2. unfold fits, big_room, BUF_MAX in *. rewrite <- wsize_wbytes by exact H1. exact H2. Qed.

Lemma flag_err b e : err b <> 0 -> err (flag b e) <> 0.
Proof. intros H1 H2. cbn in H2. apply Z.lor_eq_0_iff in H2. lia. Qed.
Lemma add0 b : wf b -> u64 (rpos b + 0) = rpos b.
Proof. intros []. rewrite Z.add_0_r. apply u64_small. lia. Qed.

Lemma get_err n b : wf b -> err b <> 0 -> buf_get n b = Ok (with_rpos (flag b CORRUPT) (rpos b), 0).
Proof. intros W He. unfold buf_get. rewrite peek_out by auto. cbn [bind]. cbf. now rewrite add0. Qed.

Lemma frozen_ok ops : forall b, wf b -> err b <> 0 -> frozen b ops.
Proof.
  induction ops as [|o ops IH]; intros b W He; [exact I|]. cbn [frozen]. intro Ho.
  assert (Fl : forall v : option rval, (forall x, v = Some x -> nothing x) ->
    forall st, st = Ok (flag b CORRUPT, v) \/ st = Ok (with_rpos (flag b CORRUPT) (rpos b), v) ->
    exists b' v', st = Ok (b', v') /\ (forall x, v' = Some x -> nothing x) /\
      buf_valid b' = false /\ rpos b' = rpos b /\ wpos b' = wpos b /\
      (forall i, 0 <= i < cap b -> zget (mem b') i = zget (mem b) i) /\ frozen b' ops).
  { intros v Hv st Hst. pose proof (flag_wf b CORRUPT W ltac:(unfold CORRUPT; lia)) as Wf.
    pose proof (flag_err b CORRUPT He) as Ef.
    destruct Hst as [->| ->]; eexists _, v; (split; [reflexivity|]); (split; [exact Hv|]); unfold buf_valid; cbf;
      (split; [|split; [reflexivity|split; [reflexivity|split; [reflexivity|]]]]); try (cbn [flag err with_err] in Ef; lia).
    - now apply IH.
    - apply IH; [|exact Ef]. destruct Wf. constructor; assumption. }
  destruct o as [r|w a1 a2 a3|n pos v].
  - destruct r as [|n| | |len|len|n pos|pos len]; cbn [sstep buf_read sop_ok] in *.
    + unfold buf_get_bool. rewrite get_err by auto. cbn [bind]. eapply Fl; [|right; reflexivity]. intros x [= <-]. reflexivity.
    + rewrite get_err by auto. cbn [bind]. eapply Fl; [|right; reflexivity]. intros x [= <-]. reflexivity.
    + unfold buf_get_double. rewrite get_err by auto. cbn [bind]. eapply Fl; [|right; reflexivity]. intros x [= <-]. reflexivity.
    + unfold buf_get_str. rewrite get_err by auto. cbn [bind]. change (0 =? NULL_LEN) with false. cbn [bind].
      unfold buf_valid at 1. pose proof (flag_err b CORRUPT He) as Ef. cbf. cbn [flag err with_err] in Ef.
      replace (negb (negb (Z.lor (err b) CORRUPT =? 0))) with false by lia.
      replace (negb (Z.lor (err b) CORRUPT =? 0)) with true by lia. cbn [bind negb].
      eapply Fl; [|right; reflexivity]. intros x [= <-]. reflexivity.
    + contradiction.
    + assert (Hz : Forall (fun c => c = 0) (repeat 0 (Z.to_nat len))).
      { apply Forall_forall. intros x Hx. now apply repeat_spec in Hx. }
      unfold buf_get_data. destruct (wpos b <? u64 (rpos b + len)); cbn [bind].
      * eapply Fl; [|left; reflexivity]. intros x [= <-]. exact Hz.
      * unfold buf_peek_data. replace (negb (err b =? 0)) with true by lia. cbn [orb bind]. cbf. rewrite add0 by exact W.
        eapply Fl; [|right; reflexivity]. intros x [= <-]. exact Hz.
    + unfold buf_peek_at. rewrite peek_out by auto. cbn [bind]. eapply Fl; [|left; reflexivity]. intros x [= <-]. reflexivity.
    + unfold buf_peek_data. replace (negb (err b =? 0)) with true by lia. cbn [orb bind].
      eapply Fl; [|left; reflexivity]. intros x [= <-].
      apply Forall_forall. intros x Hx. now apply repeat_spec in Hx.
  - destruct Ho as [Hw Hf]. cbn [sstep].
    destruct (write_ext b w a1 a2 a3 W) as (b' & p & Hr & E & _); [exact Hw|now apply fits_room|].
    rewrite Hr. cbn [bind]. destruct (e_bad _ _ _ _ _ E He) as [-> He']. exists b', None.
    split; [reflexivity|]. split; [discriminate|]. destruct E. change (zlen (@nil Z)) with 0 in *.
    split; [unfold buf_valid; lia|]. split; [assumption|]. split; [lia|].
    split; [intros i Hi; apply e_same0; lia|]. now apply IH.
  - cbn [sstep]. rewrite set_out by auto. cbn [bind]. eapply Fl; [|left; reflexivity]. discriminate.
Qed.

(** ** Untrusted data *)
Lemma get_valid n b : wf b -> err b = 0 -> 0 < n -> rpos b + n < 2^64 ->
  (rpos b + n <= wpos b /\ buf_get n b = Ok (with_rpos b (rpos b + n), val_le (zslice (mem b) (rpos b) n))) \/
  (wpos b < rpos b + n /\ buf_get n b = Ok (with_rpos (flag b CORRUPT) (rpos b), 0)).
Proof.
  intros W He Hn Hb. pose proof (w_r _ W). pose proof (w_wc _ W). pose proof (w_max _ W). unfold buf_get.
  destruct (Z.le_gt_cases (rpos b + n) (wpos b)); [left|right]; (split; [lia|]).
  - rewrite peek_in by (auto; lia). cbn [bind]. rewrite u64_small by lia. reflexivity.
  - rewrite peek_out by (right; rewrite u64_small; lia). cbn [bind]. cbf. now rewrite add0.
Qed.

Lemma flag_CORRUPT_ne b : wf b -> Z.lor (err b) CORRUPT <> 0.
Proof. intro W. apply (flag_pos b CORRUPT); [apply W|reflexivity]. Qed.

Lemma val_le_one l : zlen l = 1 -> exists c, l = [c] /\ val_le l = c.
Proof.
  destruct l as [|c [|d r]]; intro H; [discriminate| |].
  - exists c. cbn. split; [reflexivity|]. lia.
  - rewrite !zlen_cons in H. pose proof (zlen_nonneg r). lia.
Qed.

Lemma contained_ok rs : forall b, wf b -> cap b + 8 < 2^64 -> contained b rs.
Proof.
  induction rs as [|r rs IH]; intros b W Hcap; [exact I|]. cbn [contained]. intro Ht.
  pose proof (flag_CORRUPT_ne b W) as Hf.
  pose proof W as W'. destruct W'.
  (* outcome: flagged, with the read position at [p] *)
  assert (Bad : forall p v st, st = Ok (with_rpos (flag b CORRUPT) p, v) -> rpos b <= p <= wpos b -> nothing v ->
    exists b' v', st = Ok (b', v') /\ mem b' = mem b /\ cap b' = cap b /\ wpos b' = wpos b /\ rpos b <= rpos b' <= wpos b' /\
      (buf_valid b = true -> buf_valid b' = true -> inside b b' r v') /\
      (buf_valid b = true -> buf_valid b' = false -> nothing v') /\ contained b' rs).
  { intros p v st -> Hp Hn. eexists _, v. split; [reflexivity|]. unfold buf_valid. cbf.
    do 3 (split; [reflexivity|]). split; [exact Hp|]. split; [intros; exfalso; lia|]. split; [auto|].
    apply IH; [|exact Hcap]. constructor; cbf; auto; try lia. apply Z.lor_nonneg. split; [assumption|unfold CORRUPT; lia]. }
  assert (Bad' : forall v st, st = Ok (flag b CORRUPT, v) -> nothing v ->
    exists b' v', st = Ok (b', v') /\ mem b' = mem b /\ cap b' = cap b /\ wpos b' = wpos b /\ rpos b <= rpos b' <= wpos b' /\
      (buf_valid b = true -> buf_valid b' = true -> inside b b' r v') /\
      (buf_valid b = true -> buf_valid b' = false -> nothing v') /\ contained b' rs).
  { intros v st -> Hn. apply (Bad (rpos b) v); [reflexivity|lia|exact Hn]. }
  (* outcome: fine, with the read position at [p] *)
  assert (Good : forall p v st, st = Ok (with_rpos b p, v) -> rpos b <= p <= wpos b ->
    (err b = 0 -> inside b (with_rpos b p) r v) ->
    exists b' v', st = Ok (b', v') /\ mem b' = mem b /\ cap b' = cap b /\ wpos b' = wpos b /\ rpos b <= rpos b' <= wpos b' /\
      (buf_valid b = true -> buf_valid b' = true -> inside b b' r v') /\
      (buf_valid b = true -> buf_valid b' = false -> nothing v') /\ contained b' rs).
  { intros p v st -> Hp Hi. eexists _, v. split; [reflexivity|]. unfold buf_valid. cbf.
    do 3 (split; [reflexivity|]). split; [exact Hp|]. split; [intros; apply Hi; lia|]. split; [intros; congruence|].
    apply IH; [|exact Hcap]. constructor; cbf; auto; lia. }
  assert (Get : forall n (k : buf * Z -> res (buf * rval)) (f : Z -> rval), 0 < n <= 8 -> nothing (f 0) ->
    (forall b v, k (b, v) = Ok (b, f v)) ->
    (err b = 0 -> rpos b + n <= wpos b -> inside b (with_rpos b (rpos b + n)) r (f (val_le (zslice (mem b) (rpos b) n)))) ->
    exists b' v', bind (buf_get n b) k = Ok (b', v') /\ mem b' = mem b /\ cap b' = cap b /\ wpos b' = wpos b /\
      rpos b <= rpos b' <= wpos b' /\
      (buf_valid b = true -> buf_valid b' = true -> inside b b' r v') /\
      (buf_valid b = true -> buf_valid b' = false -> nothing v') /\ contained b' rs).
  { intros n k f Hn Hz Hk Hi. destruct (Z.eq_dec (err b) 0) as [He|He].
    - destruct (get_valid n b W He) as [[Hin ->]|[Hout ->]]; [lia|lia| |]; cbn [bind]; rewrite Hk.
      + eapply Good; [reflexivity|lia|auto].
      + eapply Bad; [reflexivity|lia|exact Hz].
    - rewrite get_err by auto. cbn [bind]. rewrite Hk. eapply Bad; [reflexivity|lia|exact Hz]. }
  destruct r as [|n| | |len|len|n pos|pos len]; cbn [buf_read tame inside] in *.
  - unfold buf_get_bool.
    replace (let* (b0, v) := let* (b', v) := buf_get 1 b in Ok (b', negb (v =? 0)) in Ok (b0, RBool v))
      with (let* (b0, v) := buf_get 1 b in Ok (b0, RBool (negb (v =? 0))))
      by (destruct (buf_get 1 b) as [[? ?]| |]; reflexivity).
    apply (Get 1 (fun '(b0, v) => Ok (b0, RBool (negb (v =? 0)))) (fun v => RBool (negb (v =? 0)))); [lia|reflexivity|reflexivity|].
    intros He Hle. cbn [inside]. cbf. split; [reflexivity|].
    destruct (val_le_one (zslice (mem b) (rpos b) 1)) as (c & Hc & Hv); [rewrite zlen_zslice; lia|].
    exists c. split; [|now rewrite Hv].
    assert (Hg : zget (zslice (mem b) (rpos b) 1) 0 = Some c) by now rewrite Hc.
    rewrite zget_zslice in Hg by lia. cbn in Hg. now rewrite Z.add_0_r in Hg.
  - apply (Get n (fun '(b0, v) => Ok (b0, RInt v)) RInt); [lia|reflexivity|reflexivity|]. intros He Hle. cbn [inside]. cbf. auto.
  - apply (Get 8 (fun '(b0, v) => Ok (b0, RInt v)) RInt); [lia|reflexivity|reflexivity|]. intros He Hle. cbn [inside]. cbf. auto.
  - unfold buf_get_str. destruct (Z.eq_dec (err b) 0) as [He|He].
    + destruct (get_valid 8 b W He) as [[Hin ->]|[Hout ->]]; [lia|lia| |]; cbn [bind].
      * specialize (Ht He Hin). unfold str_len_at in *.
        set (len := val_le (zslice (mem b) (rpos b) 8)) in *.
        assert (Hlen : 0 <= len < 2^64).
        { pose proof (val_range (zslice (mem b) (rpos b) 8) (zslice_bytes _ _ _ w_bytes)) as Hr.
          rewrite zlen_zslice in Hr by lia. exact Hr. }
        unfold NULL_LEN, BUF_MAX.
        destruct (Z.eqb_spec len (2^64 - 1 - 4096)) as [Hn|Hn]; cbn [bind].
        -- eapply Good; [reflexivity|lia|]. intros _. cbn [inside]. cbf. auto.
        -- destruct Ht as [Ht|Ht]; [contradiction|]. unfold buf_valid at 1. cbf. rewrite He. cbn [Z.eqb negb].
           rewrite (u64_small (rpos b + 8 + len)) by lia. rewrite (u64_small (rpos b + 8 + len + 1)) by lia.
           destruct (Z.ltb_spec (wpos b) (rpos b + 8 + len + 1)); cbn [bind].
           ++ eapply (Bad (rpos b + 8)); [reflexivity|lia|reflexivity].
           ++ rewrite (u64_small (len + 1)) by lia. rewrite u64_small by lia.
              eapply (Good (rpos b + 8 + (len + 1))); [reflexivity|lia|]. intros _. cbn [inside]. cbf. unfold str_len_at. fold len. lia.
      * change (0 =? NULL_LEN) with false. cbn [bind]. unfold buf_valid at 1. cbf.
        replace (negb (Z.lor (err b) CORRUPT =? 0)) with true by lia. cbn [bind].
        eapply (Bad (rpos b)); [reflexivity|lia|reflexivity].
    + rewrite get_err by auto. cbn [bind]. change (0 =? NULL_LEN) with false. cbn [bind]. unfold buf_valid at 1. cbf.
      replace (negb (Z.lor (err b) CORRUPT =? 0)) with true by lia. cbn [bind].
      eapply (Bad (rpos b)); [reflexivity|lia|reflexivity].
  - unfold buf_get_blob. destruct (Z.eqb_spec len 0) as [Hz|Hz]; cbn [bind].
    + assert (Hb : b = with_rpos b (rpos b)) by (destruct b; reflexivity).
      eapply (Good (rpos b)); [rewrite <- Hb; reflexivity|lia|]. intros _. cbn [inside]. cbf. auto.
    + rewrite u64_small by lia. destruct (Z.ltb_spec (wpos b) (rpos b + len)); cbn [bind].
      * eapply Bad'; [reflexivity|reflexivity].
      * eapply Good; [reflexivity|lia|]. intros _. cbn [inside]. cbf. auto.
  - assert (Hz : Forall (fun c => c = 0) (repeat 0 (Z.to_nat len))).
    { apply Forall_forall. intros x Hx. now apply repeat_spec in Hx. }
    unfold buf_get_data, buf_peek_data. rewrite u64_small by lia.
    destruct (Z.ltb_spec (wpos b) (rpos b + len)); cbn [bind].
    + eapply Bad'; [reflexivity|exact Hz].
    + rewrite orb_false_r. destruct (Z.eqb_spec (err b) 0) as [He|He]; cbn [negb bind].
      * rewrite load_ok by lia. cbn [bind]. rewrite u64_small by lia. eapply Good; [reflexivity|lia|].
        intros _. cbn [inside]. cbf. auto.
      * cbf. rewrite add0 by exact W. eapply Bad; [reflexivity|lia|exact Hz].
  - unfold buf_peek_at. destruct (Z.eq_dec (err b) 0) as [He|He]; [destruct (Z.le_gt_cases (pos + n) (wpos b))|].
    + rewrite peek_in by (auto; lia). cbn [bind].
      assert (Hb : b = with_rpos b (rpos b)) by (destruct b; reflexivity).
      eapply (Good (rpos b)); [rewrite <- Hb; reflexivity|lia|]. intros _. cbn [inside]. cbf. auto.
    + rewrite peek_out by (right; rewrite u64_small; lia). cbn [bind]. eapply Bad'; reflexivity.
    + rewrite peek_out by auto. cbn [bind]. eapply Bad'; reflexivity.
  - assert (Hz : Forall (fun c => c = 0) (repeat 0 (Z.to_nat len))).
    { apply Forall_forall. intros x Hx. now apply repeat_spec in Hx. }
    unfold buf_peek_data. rewrite u64_small by lia.
    destruct (Z.eqb_spec (err b) 0) as [He|He]; cbn [negb orb].
    + destruct (Z.ltb_spec (wpos b) (pos + len)); cbn [bind].
      * eapply Bad'; [reflexivity|exact Hz].
      * rewrite load_ok by lia. cbn [bind].
        assert (Hb : b = with_rpos b (rpos b)) by (destruct b; reflexivity).
        eapply (Good (rpos b)); [rewrite <- Hb; reflexivity|lia|]. intros _. cbn [inside]. cbf. auto.
    + cbn [bind]. eapply Bad'; [reflexivity|exact Hz].
Qed.

(** ** reserve, compact, shrink, move *)
Lemma compact_ok b : wf b -> exists b', buf_compact b = Ok b' /\ wf b' /\ unread b' = unread b /\ rpos b' = 0 /\
  cap b' = cap b /\ limit b' = limit b /\ ref b' = ref b /\ err b' = err b /\ zlen (mem b') = zlen (mem b).
Proof.
  intros W. pose proof (unread_len b W) as Hl. pose proof W as W'. destruct W'. unfold buf_compact.
  destruct (Z.eqb_spec (rpos b) (wpos b)) as [He|He].
  - cbf. cbn [Z.eqb negb]. eexists. split; [reflexivity|]. unfold unread. cbf.
    split; [constructor; cbf; auto; lia|]. split; [|auto 10].
    replace (wpos b - rpos b) with 0 by lia. reflexivity.
  - destruct (Z.eqb_spec (rpos b) 0) as [Hz|Hz]; cbn [negb].
    + exists b. auto 10.
    + rewrite u64_small by lia. rewrite load_ok by lia. cbn [bind].
      fold (unread b).
      destruct (store_ok (mem b) 0 (unread b)) as (m' & Hst & Hlen & Hget); [lia|lia|].
      rewrite Hst. cbn [bind]. eexists. split; [reflexivity|]. cbf.
      split; [|split; [|auto 10]].
      * constructor; cbf; auto; try lia. eapply store_bytes; [exact w_bytes| |exact Hst]. now apply zslice_bytes.
      * unfold unread at 1. cbf. rewrite Z.sub_0_r, <- Hl. apply zslice_exact; [lia|lia|].
        intros i Hi. rewrite Hget. replace ((0 <=? 0 + i) && (0 + i <? 0 + zlen (unread b))) with true by lia.
        f_equal. lia.
Qed.

Lemma shrink_ok b len a : wf b -> ref b = false -> 0 <= len -> len + 4095 < 2^64 ->
  exists b' ok, buf_shrink b len a = Ok (b', ok) /\ wf b' /\ unread b' = unread b /\ rpos b' = 0 /\
    (ok = true -> err b' = err b) /\ (ok = false -> a = None /\ err b' <> 0 /\ cap b' = cap b).
Proof.
  intros W Hr Hl Hb. unfold buf_shrink.
  destruct (compact_ok b W) as (b1 & -> & W1 & U1 & R1 & C1 & L1 & F1 & E1 & M1). cbn [bind].
  destruct (Z.ltb_spec (cap b1) len); cbn [orb].
  { exists b1, true. split; [reflexivity|]. repeat (split; [auto; fail|]). discriminate. }
  destruct (Z.leb_spec len (wpos b1)).
  { exists b1, true. split; [reflexivity|]. repeat (split; [auto; fail|]). discriminate. }
  rewrite F1, Hr. pose proof W1 as W1'. destruct W1'.
  rewrite (u64_small (len + 4095)) by lia.
  pose proof (pages_bounds len) as Hp. assert (Hq : pages len <= len + 4095).
  { lia. }
  change ((len + 4095) / 4096 * 4096) with (pages len). rewrite u64_small by lia.
  destruct (Z.eqb_spec (pages len) 0); [lia|].
  destruct a as [junk|].
  - eexists _, true. split; [reflexivity|]. split; [|split; [|split; [auto|split; [auto|discriminate]]]].
    + constructor; cbf; auto; try lia; [symmetry; apply zlen_grow; lia|now apply grow_bytes].
    + rewrite <- U1. unfold unread. cbf. apply zslice_ext; try lia; [rewrite zlen_grow; lia|].
      intros i Hi. apply zget_grow; lia.
  - eexists _, false. split; [reflexivity|]. split; [apply flag_wf; [exact W1|unfold OOM; lia]|].
    split; [exact U1|]. split; [exact R1|]. split; [discriminate|]. intros _. split; [reflexivity|].
    split; [|exact C1]. apply flag_pos; [exact w_err|reflexivity].
Qed.

Lemma put_raw_fit b src a : wf b -> err b = 0 -> Forall byte src -> wpos b + zlen src <= cap b ->
  exists b', buf_put_raw b src a = Ok b' /\ appended b b' src.
Proof.
  intros W He Hb Hfit. pose proof (zlen_nonneg src) as Hs. pose proof W as W'. destruct W'.
  unfold buf_put_raw, buf_reserve. rewrite u64_small by lia.
  replace (cap b <? wpos b + zlen src) with false by lia. cbn [bind].
  unfold buf_set_data. rewrite He. change (negb (0 =? 0)) with false. cbn [orb]. rewrite u64_small by lia.
  replace (cap b <? wpos b + zlen src) with false by lia.
  destruct (Z.eqb_spec (zlen src) 0) as [Hz|Hz]; cbn [bind].
  - eexists. split; [reflexivity|]. constructor; cbf; rewrite ?Z.add_0_r, ?u64_small by lia; auto; try lia.
    constructor; cbf; auto; lia.
  - destruct (store_ok (mem b) (wpos b) src) as (m' & Hst & Hlen & Hget); [lia|lia|].
    rewrite Hst. cbn [bind]. eexists. split; [reflexivity|].
    constructor; cbf; rewrite ?u64_small by lia; auto; try lia.
    + constructor; cbf; auto; try lia. eapply store_bytes; [exact w_bytes|exact Hb|exact Hst].
    + intros i Hi. rewrite Hget. now replace ((wpos b <=? i) && (i <? wpos b + zlen src)) with false by lia.
    + intros i Hi. rewrite Hget.
      replace ((wpos b <=? wpos b + i) && (wpos b + i <? wpos b + zlen src)) with true by lia. f_equal. lia.
Qed.

Lemma move_ok d s a : wf d -> wf s -> err d = 0 ->
  exists d' s' k, buf_move d s a = Ok (d', s') /\ wf d' /\ wf s' /\
    k = Z.min (cap d - wpos d) (wpos s - rpos s) /\
    unread d' = unread d ++ firstn (Z.to_nat k) (unread s) /\
    unread s' = skipn (Z.to_nat k) (unread s) /\ err d' = 0 /\ err s' = err s /\ cap d' = cap d.
Proof.
  intros Wd Ws He. unfold buf_move. rewrite quota_ok, size_ok by assumption.
  set (k := if cap d - wpos d <? wpos s - rpos s then cap d - wpos d else wpos s - rpos s).
  assert (Hk : k = Z.min (cap d - wpos d) (wpos s - rpos s)) by (unfold k; destruct (Z.ltb_spec (cap d - wpos d) (wpos s - rpos s)); lia).
  clearbody k.
  pose proof Wd as Wd'. pose proof (unread_len s Ws) as Hul. pose proof Ws as Ws'. destruct Wd'. destruct Ws'.
  rewrite load_ok by lia. cbn [bind].
  assert (Hlen : zlen (zslice (mem s) (rpos s) k) = k) by (apply zlen_zslice; lia).
  destruct (put_raw_fit d (zslice (mem s) (rpos s) k) a Wd He) as (d' & Hp & A).
  { now apply zslice_bytes. } { lia. }
  assert (Hcap : cap d' = cap d).
  { clear - Hp Hlen Hk w_rw w_wc w_max w_r w_rw0 w_wc0. revert Hp. unfold buf_put_raw, buf_reserve.
    rewrite Hlen, u64_small by lia. replace (cap d <? wpos d + k) with false by lia. cbn [bind].
    unfold buf_set_data. destruct (_ || _); cbn [bind]; [intros [= <-]; reflexivity|].
    destruct (_ =? 0); cbn [bind]; [intros [= <-]; reflexivity|].
    destruct (store _ _ _); cbn [bind]; [intros [= <-]; reflexivity|discriminate..]. }
  rewrite Hp. cbn [bind].
  rewrite u64_small by lia. eexists d', _, k. split; [reflexivity|].
  assert (Hsplit : unread s = zslice (mem s) (rpos s) k ++ zslice (mem s) (rpos s + k) (wpos s - rpos s - k)).
  { unfold unread. replace (wpos s - rpos s) with (k + (wpos s - rpos s - k)) at 1 by lia. apply zslice_app; lia. }
  assert (Hnat : length (zslice (mem s) (rpos s) k) = Z.to_nat k) by (unfold zlen in Hlen; lia).
  split; [apply A|]. split; [constructor; cbf; auto; lia|]. split; [exact Hk|].
  split; [|split; [|split; [apply A|split; [reflexivity|exact Hcap]]]].
  - rewrite (appended_unread _ _ _ Wd A). f_equal. rewrite Hsplit, firstn_app, <- Hnat, firstn_all, Nat.sub_diag.
    now rewrite app_nil_r.
  - unfold unread at 1. cbf. rewrite Hsplit, skipn_app, <- Hnat, skipn_all, Nat.sub_diag. cbn [app skipn].
    f_equal. lia.
Qed.

(** ** Formatted text *)
Lemma vsnprintf_ok m pos quota text : 0 <= pos -> 0 <= quota -> pos + quota <= zlen m -> Forall byte m -> Forall byte text ->
  exists m', vsnprintf m pos quota text = Ok m' /\ zlen m' = zlen m /\ Forall byte m' /\
    (forall i, i < pos \/ pos + quota <= i -> zget m' i = zget m i) /\
    (zlen text < quota -> forall i, 0 <= i < zlen text + 1 -> zget m' (pos + i) = zget (text ++ [0]) i).
Proof.
  intros Hp Hq Hl Hm Ht. unfold vsnprintf. pose proof (zlen_nonneg text) as Hzt.
  destruct (Z.eqb_spec quota 0) as [Hz|Hz].
  - exists m. split; [reflexivity|]. split; [reflexivity|]. split; [exact Hm|]. split; [reflexivity|]. lia.
  - set (bs := firstn (Z.to_nat (quota - 1)) text ++ [0]).
    assert (Hbs : zlen bs = Z.min (quota - 1) (zlen text) + 1).
    { unfold bs. rewrite zlen_app, zlen_firstn. change (zlen [0]) with 1. lia. }
    destruct (store_ok m pos bs) as (m' & Hst & Hlen & Hget); [lia|lia|].
    exists m'. split; [exact Hst|]. split; [exact Hlen|]. split; [|split].
    + eapply store_bytes; [exact Hm| |exact Hst]. apply Forall_app. split; [now apply Forall_firstn|].
      repeat constructor; lia.
    + intros i Hi. rewrite Hget. now replace ((pos <=? i) && (i <? pos + zlen bs)) with false by lia.
    + intros Hlt i Hi. rewrite Hget. replace ((pos <=? pos + i) && (pos + i <? pos + zlen bs)) with true by lia.
      unfold bs. rewrite firstn_all2 by (unfold zlen in *; lia). f_equal. lia.
Qed.

Lemma with_mem_wf b m : wf b -> zlen m = zlen (mem b) -> Forall byte m -> wf (with_mem b m).
Proof. intros [] Hl Hb. constructor; cbf; auto. lia. Qed.

(** The tail of put_fmt: length prefix and position. *)
Lemma fmt_finish b text : wf b -> err b = 0 -> wpos b + 8 + zlen text + 1 <= cap b -> Forall byte text ->
  (forall i, 0 <= i < zlen text + 1 -> zget (mem b) (wpos b + 8 + i) = zget (text ++ [0]) i) ->
  exists b', (let* b := buf_set_at 8 b (wpos b) (zlen text) in
              Ok (buf_mark_write b (u64 (u64 (zlen text + 8) + 1)))) = Ok b' /\
    appended b b' (le 8 (zlen text) ++ text ++ [0]).
Proof.
  intros W He Hc Ht Hg. pose proof (zlen_nonneg text) as Hz. pose proof W as W'. destruct W'.
  destruct (set_in 8 b (wpos b) (zlen text) W He) as (b1 & -> & W1 & E1 & C1 & L1 & R1 & P1 & Q1 & S1 & F1); [lia|lia|lia|].
  cbn [bind]. unfold buf_mark_write. rewrite Q1. rewrite (u64_small (zlen text + 8)) by lia.
  rewrite (u64_small (zlen text + 8 + 1)) by lia. rewrite u64_small by lia.
  eexists. split; [reflexivity|].
  assert (Hbl : zlen (le 8 (zlen text) ++ text ++ [0]) = zlen text + 8 + 1).
  { rewrite !zlen_app, le_len. change (zlen [0]) with 1. lia. }
  destruct W1.
  constructor; cbf; auto; try lia.
  - constructor; cbf; auto; lia.
  - intros i Hi. apply F1. lia.
  - intros i Hi. rewrite Hbl in Hi. rewrite zget_app, le_len. change (Z.of_nat 8) with 8.
    destruct (Z.ltb_spec i 8).
    + change (Z.to_nat 8) with 8%nat in S1. rewrite <- S1. rewrite zget_zslice by lia.
      now replace ((0 <=? i) && (i <? 8)) with true by lia.
    + rewrite F1 by lia. rewrite <- Hg by lia. f_equal. lia.
Qed.

(** [b'] differs from [b] at most by bytes at or after the write position, the
    size of the block and the error. *)
Record scribbled (b b' : buf) : Prop := mk_scr {
  s_wf : wf b'; s_r : rpos b' = rpos b; s_w : wpos b' = wpos b;
  s_ref : ref b' = ref b; s_l : limit b' = limit b; s_cap : cap b <= cap b';
  s_same : forall i, 0 <= i < wpos b -> zget (mem b') i = zget (mem b) i }.
Lemma scribbled_unread b b' : wf b -> scribbled b b' -> unread b' = unread b.
Proof.
  intros [] S. pose proof (s_wf _ _ S) as W'. destruct W'. destruct S. unfold unread. rewrite s_r0, s_w0.
  apply zslice_ext; try lia. intros i Hi. apply s_same0. lia.
Qed.
Lemma scribbled_appended b b1 b2 bs : scribbled b b1 -> appended b1 b2 bs -> wf b -> appended b b2 bs.
Proof.
  intros [] [] []. constructor; auto; try congruence; try lia.
  - intros i Hi. rewrite a_same0 by lia. auto.
  - intros i Hi. rewrite <- s_w0. now apply a_new0.
Qed.

Lemma put_fmt_ok b text a : wf b -> err b = 0 -> Forall byte text -> cap b + zlen text + 8 + 4095 < 2^64 ->
  (exists b', buf_put_fmt b (Some text) a = Ok b' /\ appended b b' (le 8 (zlen text) ++ text ++ [0])) \/
  (exists b', buf_put_fmt b (Some text) a = Ok b' /\ scribbled b b' /\ err b' <> 0 /\
    cap b < wpos b + zlen text + 9 /\
    (wpos b + zlen text + 8 = cap b \/ (wpos b = cap b /\ (cap b + zlen text + 8) mod 4096 = 0) \/
     ref b = true \/ limit b < pages (cap b + zlen text + 8) \/ BUF_MAX - 4096 <= cap b \/ a = None)).
Proof.
  intros W He Ht Hb. pose proof (zlen_nonneg text) as Hz. unfold buf_put_fmt. rewrite quota_ok by exact W.
  set (q := if 8 <? cap b - wpos b then cap b - wpos b - 8 else 0).
  assert (Hq : q = Z.max 0 (cap b - wpos b - 8)) by (pose proof (w_wc _ W); unfold q; destruct (Z.ltb_spec 8 (cap b - wpos b)); lia).
  clearbody q. pose proof W as W'. destruct W'.
  assert (Hv : exists m', vsnprintf (mem b) (wpos b + 8) q text = Ok m' /\ zlen m' = zlen (mem b) /\ Forall byte m' /\
    (forall i, i < wpos b + 8 -> zget m' i = zget (mem b) i) /\
    (zlen text < q -> forall i, 0 <= i < zlen text + 1 -> zget m' (wpos b + 8 + i) = zget (text ++ [0]) i)).
  { destruct (Z.eq_dec q 0) as [Hq0|Hq0].
    - exists (mem b). unfold vsnprintf. rewrite Hq0. split; [reflexivity|]. repeat split; auto. lia.
    - destruct (vsnprintf_ok (mem b) (wpos b + 8) q text) as (m' & V1 & V2 & V3 & V4 & V5); try lia; auto.
      exists m'. repeat split; auto. }
  destruct Hv as (m1 & -> & Hl1 & Hb1 & Hs1 & Ht1). cbn [bind].
  assert (W1 : wf (with_mem b m1)) by now apply with_mem_wf.
  assert (S1 : scribbled b (with_mem b m1)).
  { constructor; cbf; auto; try lia. intros i Hi. apply Hs1. lia. }
  destruct (Z.leb_spec q (zlen text)) as [Hc|Hc].
  - rewrite (u64_small (zlen text + 8)) by lia.
    destruct (reserve_ok (with_mem b m1) (zlen text + 8) a W1) as [(-> & Hx & Hy)|(b2 & -> & W2 & G2 & Hroom & Hcap)];
      [lia|cbf; lia| |]; cbn [bind].
    + right. eexists. split; [reflexivity|]. split; [|split; [|split]].
      * destruct S1. constructor; cbf; auto. apply flag_wf; [exact W1|unfold OOM; lia].
      * apply flag_pos; [exact w_err|reflexivity].
      * cbf. cbn [with_mem cap wpos] in Hx. lia.
      * right. right. cbn [with_mem cap ref limit] in Hy. now rewrite Z.add_assoc in Hy.
    + pose proof W2 as W2'. destruct W2'. destruct G2. cbn [with_mem rpos wpos err limit ref cap mem] in *.
      rewrite quota_ok by exact W2. rewrite (u64_small (cap b2 - wpos b2 - 8)) by lia. rewrite g_w0.
      destruct (vsnprintf_ok (mem b2) (wpos b + 8) (cap b2 - wpos b - 8) text) as (m3 & -> & V2 & V3 & V4 & V5); try lia; auto.
      cbn [bind].
      assert (W3 : wf (with_mem b2 m3)) by now apply with_mem_wf.
      assert (S3 : scribbled b (with_mem b2 m3)).
      { constructor; cbf; auto; try lia. intros i Hi. rewrite V4 by lia. rewrite g_same0 by lia. apply Hs1. lia. }
      destruct (Z.leb_spec (cap b2 - wpos b - 8) (zlen text)) as [Hd|Hd].
      * right. eexists. split; [reflexivity|]. split; [|split; [|split]].
        -- destruct S3. constructor; cbf; auto. apply flag_wf; [exact W3|unfold OOM; lia].
        -- apply flag_pos; [exact w_err0|reflexivity].
        -- cbf. lia.
        -- destruct Hcap as [->|Hcap]; [left; cbn [with_mem cap] in *; lia|].
           pose proof (pages_bounds (cap b + (zlen text + 8))).
           right. left. split; [lia|]. replace (cap b + zlen text + 8) with (cap b + (zlen text + 8)) by lia.
           assert (Heq : pages (cap b + (zlen text + 8)) = cap b + (zlen text + 8)) by lia.
           rewrite <- Heq. unfold pages. apply Z.mod_mul. lia.
      * left. destruct (fmt_finish (with_mem b2 m3) text W3) as (b4 & H4 & A4); cbf; auto; try lia; try congruence.
        { intros i Hi. rewrite g_w0. apply V5; lia. }
        cbn [with_mem wpos] in H4. rewrite g_w0, (u64_small (zlen text + 8)) in H4 by lia. exists b4. split; [exact H4|].
        eapply scribbled_appended; [exact S3|exact A4|exact W].
  - left. destruct (fmt_finish (with_mem b m1) text W1) as (b4 & H4 & A4); cbf; auto; try lia.
    cbn [with_mem wpos] in H4. exists b4. split; [exact H4|]. eapply scribbled_appended; [exact S1|exact A4|exact W].
Qed.

Lemma unread_last b t : wf b -> unread b = t ++ [0] -> zget (mem b) (wpos b - 1) = Some 0.
Proof.
  intros W Hu. pose proof (unread_len b W) as Hl. pose proof (w_r _ W).
  rewrite Hu, zlen_app in Hl. change (zlen [0]) with 1 in Hl. pose proof (zlen_nonneg t).
  assert (H1 : zget (unread b) (zlen t) = Some 0) by (rewrite Hu, zget_app; replace (zlen t <? zlen t) with false by lia; now rewrite Z.sub_diag).
  unfold unread in H1. rewrite zget_zslice in H1 by lia.
  replace ((0 <=? zlen t) && (zlen t <? wpos b - rpos b)) with true in H1 by lia.
  replace (rpos b + zlen t) with (wpos b - 1) in H1 by lia. exact H1.
Qed.

(** put_text: [t] is the text so far. *)
Lemma put_text_ok b t text a : wf b -> (unread b = [] /\ t = [] \/ unread b = t ++ [0]) ->
  Forall byte text -> cap b + zlen text + 1 + 4095 < 2^64 ->
  (exists b', buf_put_text b (Some text) a = Ok b' /\ wf b' /\ unread b' = t ++ text ++ [0] /\ err b' = err b /\
     rpos b' = rpos b /\ ref b' = ref b /\ limit b' = limit b /\ cap b <= cap b' <= cap b + zlen text + 1 + 4095) \/
  (exists b', buf_put_text b (Some text) a = Ok b' /\ wpos b' = 0 /\ rpos b' = rpos b /\ err b' <> 0 /\ 
     cap b < wpos b + zlen text + 1 /\
     (ref b = true \/ limit b < pages (cap b + zlen text + 1) \/ BUF_MAX - 4096 <= cap b \/ a = None)).
Proof.
  intros W Hu Ht Hb. pose proof (zlen_nonneg text) as Hz. pose proof (unread_len b W) as Hul. pose proof (zlen_nonneg t) as Hzt.
  unfold buf_put_text. rewrite quota_ok, size_ok by exact W.
  set (off := if 0 <? wpos b - rpos b then 1 else 0).
  assert (Hoff : (off = 0 /\ t = [] /\ wpos b = rpos b) \/ (off = 1 /\ unread b = t ++ [0] /\ wpos b = rpos b + zlen t + 1)).
  { destruct Hu as [[Hu Hte]|Hu]; rewrite Hu in Hul.
    - change (zlen (@nil Z)) with 0 in Hul. left. unfold off. replace (0 <? wpos b - rpos b) with false by lia.
      split; [reflexivity|]. split; [exact Hte|lia].
    - rewrite zlen_app in Hul. change (zlen [0]) with 1 in Hul.
      right. unfold off. replace (0 <? wpos b - rpos b) with true by lia. split; [reflexivity|]. split; [exact Hu|lia]. }
  clearbody off. pose proof W as W'. destruct W'.
  assert (Hor : 0 <= off <= 1 /\ rpos b <= wpos b - off /\ wpos b - off = rpos b + zlen t).
  { destruct Hoff as [(-> & -> & ?)|(-> & ? & ?)]; change (zlen (@nil Z)) with 0 in *; lia. }
  assert (Hpre : forall i, 0 <= i < zlen t -> zget (mem b) (rpos b + i) = zget t i).
  { intros i Hi. destruct Hoff as [(-> & -> & ?)|(-> & Hue & ?)]; [change (zlen (@nil Z)) with 0 in *; lia|].
    assert (H1 : zget (unread b) i = zget t i).
    { rewrite Hue, zget_app. now replace (i <? zlen t) with true by lia. }
    rewrite <- H1. unfold unread. rewrite zget_zslice by lia. now replace ((0 <=? i) && (i <? wpos b - rpos b)) with true by lia. }
  (* completion *)
  assert (Fin : forall b2 m, wf b2 -> rpos b2 = rpos b -> wpos b2 = wpos b -> zlen m = zlen (mem b2) -> Forall byte m ->
     wpos b + zlen text + 1 <= cap b2 ->
     (forall i, 0 <= i < wpos b - off -> zget m i = zget (mem b) i) ->
     (forall i, 0 <= i < zlen text + 1 -> zget m (wpos b - off + i) = zget (text ++ [0]) i) ->
     let b' := buf_mark_write (with_mem b2 m) (u64 (zlen text - off + 1)) in
     wf b' /\ unread b' = t ++ text ++ [0] /\ err b' = err b2 /\ rpos b' = rpos b /\ ref b' = ref b2 /\ limit b' = limit b2 /\ cap b' = cap b2).
  { intros b2 m W2 Hr2 Hw2 Hlm Hbm Hfit Hold Hnew. destruct W2. unfold buf_mark_write. cbf.
    rewrite (u64_small (zlen text - off + 1)) by lia. rewrite Hw2, u64_small by lia.
    split; [constructor; cbf; auto; lia|]. split; [|auto 10].
    unfold unread. cbf. rewrite Hr2.
    assert (Hbl : wpos b + (zlen text - off + 1) - rpos b = zlen (t ++ text ++ [0])).
    { rewrite !zlen_app. change (zlen [0]) with 1. lia. }
    rewrite Hbl. rewrite zlen_app, (zlen_app text) in Hbl. change (zlen [0]) with 1 in Hbl. apply zslice_exact; [lia| |].
    - rewrite !zlen_app. change (zlen [0]) with 1. lia.
    - rewrite !zlen_app. change (zlen [0]) with 1. intros i Hi. rewrite zget_app. destruct (Z.ltb_spec i (zlen t)).
      + rewrite Hold by lia. apply Hpre. lia.
      + rewrite <- Hnew by lia. f_equal. lia. }
  destruct (vsnprintf_ok (mem b) (wpos b - off) (cap b - wpos b) text) as (m1 & -> & V2 & V3 & V4 & V5); try lia; auto.
  cbn [bind].
  assert (W1 : wf (with_mem b m1)) by now apply with_mem_wf.
  destruct (Z.leb_spec (cap b - wpos b) (zlen text)) as [Hc|Hc].
  - rewrite (u64_small (zlen text + 1)) by lia.
    destruct (reserve_ok (with_mem b m1) (zlen text + 1) a W1) as [(-> & Hx & Hy)|(b2 & -> & W2 & G2 & Hroom & Hcap)];
      [lia|cbf; lia| |]; cbn [bind].
    + right. unfold buf_set_wpos. cbf. replace (cap b <? 0) with false by lia.
      eexists. split; [reflexivity|]. cbf. split; [reflexivity|]. split; [reflexivity|].
      split; [apply (flag_pos b OOM); [exact w_err|reflexivity]|]. cbn [with_mem cap wpos ref limit] in *.
      rewrite Z.add_assoc in Hy. split; [lia|exact Hy].
    + left. pose proof (pages_bounds (cap b + (zlen text + 1))) as Hpg.
      assert (Hhi : cap b2 <= cap b + (zlen text + 1) + 4095).
      { destruct Hcap as [->| ->]; cbf; lia. }
      pose proof W2 as W2'. destruct W2'. destruct G2. cbn [with_mem rpos wpos err limit ref cap mem] in *.
      rewrite quota_ok by exact W2. rewrite g_w0.
      destruct (vsnprintf_ok (mem b2) (wpos b - off) (cap b2 - wpos b) text) as (m3 & -> & X2 & X3 & X4 & X5); try lia; auto.
      cbn [bind]. replace (cap b2 - wpos b <=? zlen text) with false by lia.
      destruct (Fin b2 m3 W2 g_r0 g_w0 X2 X3) as (F1 & F2 & F3 & F4 & F5 & F6 & F7); [lia| |intros i Hi; apply X5; lia|].
      { intros i Hi. rewrite X4 by lia. rewrite g_same0 by lia. apply V4. lia. }
      eexists. split; [reflexivity|]. split; [exact F1|]. split; [exact F2|]. split; [congruence|]. split; [exact F4|].
      split; [congruence|]. split; [congruence|]. lia.
  - left. destruct (Fin b m1 W eq_refl eq_refl V2 V3) as (F1 & F2 & F3 & F4 & F5 & F6 & F7); [lia| |intros i Hi; apply V5; lia|].
    { intros i Hi. apply V4. lia. }
    eexists. split; [reflexivity|]. split; [exact F1|]. split; [exact F2|]. split; [exact F3|]. split; [exact F4|].
    split; [exact F5|]. split; [exact F6|]. lia.
Qed.

(** ** Limit *)
Definition capped (b b' : buf) : Prop :=
  limit b' = limit b /\ ref b' = ref b /\ (cap b' = cap b \/ (ref b = false /\ cap b' <= limit b)).
Lemma capped_refl b : capped b b.
Proof. unfold capped. auto. Qed.
Lemma capped_trans a b c : capped a b -> capped b c -> capped a c.
Proof.
  unfold capped. intros (-> & -> & H1) (-> & -> & H2). repeat split.
  destruct H2 as [->|H2]; auto.
Qed.
Lemma reserve_capped b len a b' ok : buf_reserve b len a = Ok (b', ok) -> capped b b'.
Proof.
  unfold buf_reserve, capped. destruct (cap b <? _); [|intros [= <- _]; auto].
  destruct (ref b) eqn:Er; [intros [= <- _]; cbf; auto|].
  destruct (_ || _) eqn:E; [intros [= <- _]; cbf; auto|].
  destruct (_ =? 0); [discriminate|]. destruct a; intros [= <- _]; cbf; auto.
  split; [reflexivity|]. split; [congruence|]. right. split; [reflexivity|]. lia.
Qed.
Lemma set_data_capped b off src b' n : buf_set_data b off src = Ok (b', n) -> capped b b'.
Proof.
  unfold buf_set_data, capped. destruct (_ || _); [intros [= <- _]; cbf; auto|].
  destruct (_ =? 0); [intros [= <- _]; cbf; auto|].
  destruct (store _ _ _); cbn [bind]; intros [= <- _]; cbf; auto.
Qed.
Lemma set_pos_capped n b pos v b' k : set_pos n b pos v = Ok (b', k) -> capped b b'.
Proof.
  unfold set_pos, capped. destruct (_ || _); [intros [= <- _]; cbf; auto|].
  destruct (store _ _ _); cbn [bind]; intros [= <- _]; cbf; auto.
Qed.
Lemma with_wpos_capped b b' p : capped b b' -> capped b (with_wpos b' p).
Proof. unfold capped. cbf. auto. Qed.
Lemma with_mem_capped b b' m : capped b b' -> capped b (with_mem b' m).
Proof. unfold capped. cbf. auto. Qed.
Lemma flag_capped b b' e : capped b b' -> capped b (flag b' e).
Proof. unfold capped. cbf. auto. Qed.
Lemma put_raw_capped b src a b' : buf_put_raw b src a = Ok b' -> capped b b'.
Proof.
  unfold buf_put_raw. intro H. apply bind_ok in H as ([b1 ok] & H1 & H2). apply reserve_capped in H1.
  destruct ok; [|now injection H2 as <-]. apply bind_ok in H2 as ([b2 n] & H2 & H3). apply set_data_capped in H2.
  injection H3 as <-. apply with_wpos_capped. eapply capped_trans; eauto.
Qed.
Lemma put_capped n b v a b' : buf_put n b v a = Ok b' -> capped b b'.
Proof.
  unfold buf_put. intro H. apply bind_ok in H as ([b1 ok] & H1 & H2). apply reserve_capped in H1.
  destruct ok; [|now injection H2 as <-]. apply bind_ok in H2 as ([b2 k] & H2 & H3). apply set_pos_capped in H2.
  injection H3 as <-. apply with_wpos_capped. eapply capped_trans; eauto.
Qed.
Lemma set_wpos_capped b b' p : capped b b' -> capped b (buf_set_wpos b' p).
Proof. intro H. unfold buf_set_wpos. destruct (_ <? _); [now apply flag_capped|now apply with_wpos_capped]. Qed.
Lemma set_at_capped n b pos v b' : buf_set_at n b pos v = Ok b' -> capped b b'.
Proof.
  unfold buf_set_at. intro H. apply bind_ok in H as ([b1 k] & H1 & H2). injection H2 as <-. eapply set_pos_capped; eauto.
Qed.

Ltac cap_step := first
  [ eapply put_raw_capped; eassumption | eapply put_capped; eassumption
  | eapply set_at_capped; eassumption | apply capped_refl ].
Lemma write_capped b w a1 a2 a3 b' : buf_write b w a1 a2 a3 = Ok b' -> capped b b'.
Proof.
  destruct w as [v|n v|v|[s|]|[s|]|s|s]; cbn [buf_write].
  - apply put_capped. - apply put_capped. - apply put_capped.
  - unfold buf_put_str. destruct (_ <=? _); [intros [= <-]; apply flag_capped, capped_refl|].
    intro H. apply bind_ok in H as (b1 & H1 & H2). eapply capped_trans; cap_step.
  - apply put_capped.
  - unfold buf_put_str_len. intro H. apply bind_ok in H as (b1 & H1 & H). apply bind_ok in H as (b2 & H2 & H3).
    eapply capped_trans; [|cap_step]. eapply capped_trans; cap_step.
  - apply put_capped.
  - unfold buf_put_blob. intro H. apply bind_ok in H as (b1 & H1 & H2). eapply capped_trans; cap_step.
  - apply put_raw_capped.
Qed.
Lemma put_fmt_capped b t a b' : buf_put_fmt b t a = Ok b' -> capped b b'.
Proof.
  unfold buf_put_fmt. destruct t as [text|]; [|intros [= <-]; apply flag_capped, capped_refl].
  set (q := if 8 <? buf_quota b then buf_quota b - 8 else 0). clearbody q.
  intro H. apply bind_ok in H as (m & _ & H).
  assert (C0 : capped b (with_mem b m)) by apply with_mem_capped, capped_refl.
  destruct (q <=? zlen text).
  - apply bind_ok in H as ([b1 ok] & H1 & H). apply reserve_capped in H1. pose proof (capped_trans _ _ _ C0 H1) as C1.
    destruct ok; [|now injection H as <-]. apply bind_ok in H as (m2 & _ & H).
    destruct (_ <=? _); [injection H as <-; now apply flag_capped, with_mem_capped|].
    apply bind_ok in H as (b3 & H3 & H). injection H as <-. apply with_wpos_capped.
    eapply capped_trans; [|cap_step]. now apply with_mem_capped.
  - apply bind_ok in H as (b3 & H3 & H). injection H as <-. apply with_wpos_capped.
    eapply capped_trans; [|cap_step]. exact C0.
Qed.
Lemma put_text_capped b t a b' : buf_put_text b t a = Ok b' -> capped b b'.
Proof.
  unfold buf_put_text. destruct t as [text|]; [|intros [= <-]; apply set_wpos_capped, flag_capped, capped_refl].
  set (off := if 0 <? buf_size b then 1 else 0). clearbody off.
  intro H. apply bind_ok in H as (m & _ & H).
  assert (C0 : capped b (with_mem b m)) by apply with_mem_capped, capped_refl.
  destruct (_ <=? _).
  - apply bind_ok in H as ([b1 ok] & H1 & H). apply reserve_capped in H1. pose proof (capped_trans _ _ _ C0 H1) as C1.
    destruct ok; [|injection H as <-; now apply set_wpos_capped]. apply bind_ok in H as (m2 & _ & H).
    destruct (_ <=? _); injection H as <-.
    + apply set_wpos_capped. change (capped b (with_err (with_mem b1 m2) OOM)). unfold capped in *. cbf. exact C1.
    + apply with_wpos_capped, with_mem_capped, C1.
  - injection H as <-. now apply with_wpos_capped.
Qed.
Lemma compact_capped b b' : buf_compact b = Ok b' -> capped b b'.
Proof.
  unfold buf_compact.
  assert (C0 : capped b (if rpos b =? wpos b then with_wpos (with_rpos b 0) 0 else b)).
  { destruct (_ =? _); unfold capped; cbf; auto. }
  set (b0 := if rpos b =? wpos b then with_wpos (with_rpos b 0) 0 else b) in *. clearbody b0.
  destruct (negb _); [|intros [= <-]; exact C0].
  intro H. apply bind_ok in H as (bs & _ & H). apply bind_ok in H as (m & _ & H). injection H as <-.
  unfold capped in *. cbf. exact C0.
Qed.
Lemma gstep_capped b o b' : gstep b o = Ok b' -> capped b b'.
Proof.
  destruct o as [w a1 a2 a3|t a|t a|n pos v|len a| |s a]; cbn [gstep].
  - apply write_capped.
  - apply put_fmt_capped.
  - apply put_text_capped.
  - apply set_at_capped.
  - intro H. apply bind_ok in H as ([b1 ok] & H1 & H2). injection H2 as <-. eapply reserve_capped; eauto.
  - apply compact_capped.
  - intro H. apply bind_ok in H as ([b1 s1] & H1 & H2). injection H2 as <-. unfold buf_move in H1.
    apply bind_ok in H1 as (bs & _ & H1). apply bind_ok in H1 as (d & Hd & H1). injection H1 as <- _. cap_step.
Qed.

(** A borrowed block never reaches the allocator. *)
Lemma reserve_ref b len a : ref b = true -> buf_reserve b len a = buf_reserve b len None.
Proof. intro H. unfold buf_reserve. now rewrite H. Qed.
Lemma put_raw_ref b s a : ref b = true -> buf_put_raw b s a = buf_put_raw b s None.
Proof. intro H. unfold buf_put_raw. now rewrite reserve_ref. Qed.
Lemma put_ref n b v a : ref b = true -> buf_put n b v a = buf_put n b v None.
Proof. intro H. unfold buf_put. now rewrite reserve_ref. Qed.
Lemma bind_ext {A B} (m : res A) (f g : A -> res B) : (forall x, m = Ok x -> f x = g x) -> bind m f = bind m g.
Proof. destruct m; cbn; auto. Qed.
Lemma ref_put n b v b' : ref b = true -> buf_put n b v None = Ok b' -> ref b' = true.
Proof. intros H1 H2. apply put_capped in H2 as (_ & -> & _). exact H1. Qed.
Lemma ref_put_raw b s b' : ref b = true -> buf_put_raw b s None = Ok b' -> ref b' = true.
Proof. intros H1 H2. apply put_raw_capped in H2 as (_ & -> & _). exact H1. Qed.
Lemma gstep_ref b o : ref b = true -> gstep b o = gstep b (gdeny o).
Proof.
  intro Hr. destruct o as [w a1 a2 a3|t a|t a|n pos v|len a| |s a]; cbn [gstep gdeny]; try reflexivity.
  - destruct w as [v|n v|v|[s|]|[s|]|s|s]; cbn [buf_write].
    + now apply put_ref. + now apply put_ref. + now apply put_ref.
    + unfold buf_put_str. destruct (_ <=? _); [reflexivity|]. rewrite (put_ref _ _ _ a1 Hr). apply bind_ext.
      intros b1 H1. apply put_raw_ref. eapply ref_put; eauto.
    + now apply put_ref.
    + unfold buf_put_str_len. rewrite (put_ref _ _ _ a1 Hr). apply bind_ext. intros b1 H1.
      pose proof (ref_put _ _ _ _ Hr H1) as R1. rewrite (put_raw_ref _ _ a2 R1). apply bind_ext. intros b2 H2.
      apply put_ref. eapply ref_put_raw; eauto.
    + now apply put_ref.
    + unfold buf_put_blob. rewrite (put_ref _ _ _ a1 Hr). apply bind_ext. intros b1 H1. apply put_raw_ref. eapply ref_put; eauto.
    + now apply put_raw_ref.
  - unfold buf_put_fmt. destruct t as [text|]; [|reflexivity]. apply bind_ext. intros m _.
    destruct (_ <=? _); [|reflexivity]. now rewrite (reserve_ref _ _ a).
  - unfold buf_put_text. destruct t as [text|]; [|reflexivity]. apply bind_ext. intros m _.
    destruct (_ <=? _); [|reflexivity]. now rewrite (reserve_ref _ _ a).
  - now rewrite reserve_ref.
  - unfold buf_move. destruct (load _ _ _); cbn [bind]; try reflexivity. now rewrite put_raw_ref.
Qed.
