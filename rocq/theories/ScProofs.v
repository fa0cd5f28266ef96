(** Proofs about the helpers of sc.c. *)
From Verif Require Import Base Bits CStr CNum StrSpec StrProofs ScModel ScSpec.
From Coq Require Import ZifyBool.

(** ** Powers of two *)
Lemma is_pow2_iff n : 0 <= n < 2^64 -> (is_pow2 n = true <-> exists k, 0 <= k /\ n = 2^k).
Proof.
  intro Hn. unfold is_pow2. split.
  - intro H. apply andb_true_iff in H as [H1 H2]. assert (0 < n) by lia. rewrite u64_small in H2 by lia.
    apply Z.eqb_eq in H2. exists (Z.log2 n). split; [apply Z.log2_nonneg|].
    destruct (Z.log2_spec n ltac:(lia)) as [L1 L2]. destruct (Z.eq_dec n (2 ^ Z.log2 n)) as [E|E]; [exact E|exfalso].
    pose proof (Z.log2_nonneg n).
    assert (Hb : Z.testbit (Z.land n (n - 1)) (Z.log2 n) = true).
    { rewrite Z.land_spec, Z.bit_log2 by lia. cbn [andb].
      replace (Z.log2 n) with (Z.log2 (n - 1)); [apply Z.bit_log2; lia|]. apply Z.log2_unique; lia. }
    rewrite H2, Z.bits_0 in Hb. discriminate.
  - intros (k & Hk & ->). assert (0 < 2^k) by (apply Z.pow_pos_nonneg; lia). rewrite u64_small by lia.
    replace (2^k - 1) with (Z.ones k) by (rewrite Z.ones_equiv; lia). rewrite Z.land_ones by lia.
    rewrite Z.mod_same by lia. lia.
Qed.
Lemma smear64 x : 0 < x < 2^64 ->
  fold_left (fun v i => Z.lor v (Z.shiftr v i)) [1; 2; 4; 8; 16; 32] x = 2^(Z.log2 x + 1) - 1.
Proof.
  intro Hx. cbn [fold_left]. apply (smeared_ones x 64); [lia|lia|lia|].
  apply (smeared_step x 32); [lia|]. apply (smeared_step x 16); [lia|]. apply (smeared_step x 8); [lia|].
  apply (smeared_step x 4); [lia|]. apply (smeared_step x 2); [lia|]. apply (smeared_step x 1); [lia|].
  apply smeared_1. lia.
Qed.
Lemma to_pow2_log n : 1 < n < 2^64 -> to_pow2 n = u64 (2 ^ (Z.log2 (n - 1) + 1)).
Proof.
  intro H. unfold to_pow2. destruct (Z.eqb_spec n 0); [lia|]. cbv zeta. rewrite (u64_small (n - 1)) by lia.
  rewrite smear64 by lia. f_equal. lia.
Qed.
Lemma to_pow2_least n : 0 <= n <= 2^63 ->
  exists k, 0 <= k /\ to_pow2 n = 2^k /\ n <= 2^k /\ forall j, 0 <= j -> n <= 2^j -> 2^k <= 2^j.
Proof.
  intro H. assert (n <= 1 \/ 1 < n) as [H1|H1] by lia.
  - exists 0. assert (n = 0 \/ n = 1) as [->| ->] by lia; (split; [lia|split; [reflexivity|split; [lia|]]]);
      intros j Hj _; apply Z.pow_le_mono_r; lia.
  - rewrite to_pow2_log by lia. pose proof (Z.log2_spec (n - 1) ltac:(lia)) as [L1 L2].
    pose proof (Z.log2_nonneg (n - 1)). assert (Z.log2 (n - 1) < 63) by (apply Z.log2_lt_pow2; lia).
    assert (2 ^ (Z.log2 (n - 1) + 1) <= 2^63) by (apply Z.pow_le_mono_r; lia).
    replace (Z.succ (Z.log2 (n - 1))) with (Z.log2 (n - 1) + 1) in L2 by lia.
    exists (Z.log2 (n - 1) + 1). rewrite u64_small by lia. split; [lia|]. split; [reflexivity|]. split; [lia|].
    intros j Hj Hle. apply Z.pow_le_mono_r; [lia|]. destruct (Z.lt_ge_cases (Z.log2 (n - 1)) j); [lia|].
    assert (2^j <= 2 ^ Z.log2 (n - 1)) by (apply Z.pow_le_mono_r; lia). lia.
Qed.
Lemma to_pow2_above n : 2^63 < n < 2^64 -> to_pow2 n = 0.
Proof.
  intro H. rewrite to_pow2_log by lia. assert (Z.log2 (n - 1) = 63) as -> by (apply Z.log2_unique; lia). reflexivity.
Qed.

(** ** Random bytes *)
Lemma zget_swap (m : list Z) a b x y k : zget m a = Some x -> zget m b = Some y -> 0 <= k ->
  zget (zset (zset m a y) b x) k = if k =? a then Some y else if k =? b then Some x else zget m k.
Proof.
  intros Ha Hb Hk. pose proof (zget_Some_range _ _ _ Ha). pose proof (zget_Some_range _ _ _ Hb).
  rewrite zget_zset by (rewrite zlen_zset; lia). rewrite zget_zset by lia.
  destruct (Z.eqb_spec b k) as [->|]; destruct (Z.eqb_spec k a) as [->|]; [congruence|destruct (Z.eqb_spec k k); [reflexivity|lia]|..].
  - destruct (Z.eqb_spec a a); [reflexivity|lia].
  - destruct (Z.eqb_spec a k); [lia|]. destruct (Z.eqb_spec k b); [lia|reflexivity].
Qed.
Lemma u8_256 x : u8 x = x mod 256. Proof. reflexivity. Qed.
Lemma holds_bytes r i j S : has_state r (i, j, S) -> forall x, 0 <= x < 256 -> zget (rtab r) x = Some (S x).
Proof. intros (_ & _ & _ & _ & _ & H). exact H. Qed.
Lemma rand_byte_ok r i j S : has_state r (i, j, S) ->
  exists r', rand_byte r = Ok (r', snd (rc4_step i j S)) /\ has_state r' (fst (rc4_step i j S)) /\
    Permutation (rtab r') (rtab r) /\ In (snd (rc4_step i j S)) (rtab r').
Proof.
  intros (Hi & Hj & Ri & Rj & Hl & H). unfold rand_byte, rc4_step. rewrite Hi, Hj, !u8_256. cbv zeta. cbn [fst snd].
  set (i' := (i + 1) mod 256). assert (Ri' : 0 <= i' < 256) by (apply Z.mod_pos_bound; lia).
  pose proof (H i' Ri') as Gi. rewrite (zload_ok _ _ _ Gi). cbn [bind]. rewrite ?u8_256.
  set (j' := (j + S i') mod 256). assert (Rj' : 0 <= j' < 256) by (apply Z.mod_pos_bound; lia).
  pose proof (H j' Rj') as Gj. rewrite (zload_ok _ _ _ Gj). cbn [bind].
  rewrite zput_ok by lia. cbn [bind]. rewrite zput_ok by (rewrite zlen_zset; lia). cbn [bind].
  set (m := zset (zset (rtab r) i' (S j')) j' (S i')).
  assert (Hm : forall x, 0 <= x < 256 -> zget m x = Some (swap S i' j' x)).
  { intros x Hx. unfold m. rewrite (zget_swap _ _ _ _ _ _ Gi Gj) by lia. unfold swap.
    destruct (x =? i'); [reflexivity|]. destruct (x =? j'); [reflexivity|]. apply H. exact Hx. }
  rewrite (zload_ok _ _ _ (Hm i' Ri')). cbn [bind]. rewrite u8_256.
  assert (Es : S i' + swap S i' j' i' = swap S i' j' i' + swap S i' j' j').
  { unfold swap at 3. destruct (Z.eqb_spec j' i') as [->|]; [|rewrite Z.eqb_refl]; lia. }
  rewrite Es. set (k := (swap S i' j' i' + swap S i' j' j') mod 256).
  assert (Rk : 0 <= k < 256) by (apply Z.mod_pos_bound; lia).
  rewrite (zload_ok _ _ _ (Hm k Rk)). cbn [bind]. eexists. split; [reflexivity|].
  split; [|split].
  - unfold has_state. cbn. split; [reflexivity|]. split; [reflexivity|]. split; [exact Ri'|]. split; [exact Rj'|]. split; [|exact Hm].
    unfold m. now rewrite !zlen_zset.
  - cbn [rtab]. unfold m. apply Permutation_swap; assumption.
  - cbn [rtab]. apply (zget_In _ _ _ (Hm k Rk)).
Qed.
Lemma rc4_length n : forall st, length (snd (rc4 n st)) = n.
Proof.
  induction n as [|n IH]; intros [[i j] S]; [reflexivity|]. cbn [rc4].
  destruct (rc4_step i j S) as [st z]. specialize (IH st). destruct (rc4 n st). cbn in *. lia.
Qed.
Lemma rc4_split a : forall b st, fst (rc4 (a + b) st) = fst (rc4 b (fst (rc4 a st))) /\
  snd (rc4 (a + b) st) = snd (rc4 a st) ++ snd (rc4 b (fst (rc4 a st))).
Proof.
  induction a as [|a IH]; intros b [[i j] S]; [split; reflexivity|]. cbn [Nat.add rc4].
  destruct (rc4_step i j S) as [st z]. destruct (IH b st) as [I1 I2].
  destruct (rc4 (a + b) st) as [s1 z1]. destruct (rc4 a st) as [s2 z2]. cbn in *. subst. split; reflexivity.
Qed.
Lemma skipn_skipn {A} a b (l : list A) : skipn a (skipn b l) = skipn (a + b) l.
Proof.
  revert l. induction b as [|b IH]; intro l; [now rewrite Nat.add_0_r|]. rewrite Nat.add_succ_r. destruct l; [now rewrite skipn_nil|]. apply IH.
Qed.
Lemma zset_at (m : list Z) p z : 0 <= p < zlen m ->
  zset m p z = firstn (Z.to_nat p) m ++ z :: skipn (Z.to_nat (p + 1)) m.
Proof.
  intro H. replace m with (firstn (Z.to_nat p) m ++ skipn (Z.to_nat p) m) at 1 by apply firstn_skipn.
  destruct (skipn (Z.to_nat p) m) as [|y t] eqn:E.
  - exfalso. assert (zlen (skipn (Z.to_nat p) m) = 0) by now rewrite E. rewrite zlen_skipn in *. lia.
  - replace p with (zlen (firstn (Z.to_nat p) m)) at 2 by (rewrite zlen_firstn; lia). rewrite zset_mid. do 2 f_equal.
    replace (Z.to_nat (p + 1)) with (1 + Z.to_nat p)%nat by lia. rewrite <- skipn_skipn, E. reflexivity.
Qed.
Lemma rand_loop_ok n : forall r st buf p, has_state r st -> 0 <= p -> p + Z.of_nat n <= zlen buf ->
  exists r', rand_loop n r buf p = Ok (r', firstn (Z.to_nat p) buf ++ snd (rc4 n st) ++ skipn (Z.to_nat p + n) buf) /\
    has_state r' (fst (rc4 n st)) /\ Permutation (rtab r') (rtab r) /\ Forall (fun z => In z (rtab r)) (snd (rc4 n st)).
Proof.
  induction n as [|n IH]; intros r [[i j] S] buf p Hr Hp Hlen.
  - exists r. cbn [rand_loop rc4 fst snd app]. rewrite Nat.add_0_r, firstn_skipn.
    split; [reflexivity|]. split; [exact Hr|]. split; [reflexivity|constructor].
  - cbn [rand_loop rc4]. destruct (rand_byte_ok _ _ _ _ Hr) as (r1 & E1 & H1 & P1 & I1). rewrite E1. cbn [bind].
    destruct (rc4_step i j S) as [st z]. cbn [fst snd] in *. rewrite zput_ok by lia. cbn [bind].
    destruct (IH r1 st (zset buf p z) (p + 1) H1 ltac:(lia)) as (r2 & E2 & H2 & P2 & F2); [rewrite zlen_zset; lia|].
    destruct (rc4 n st) as [st' zs] eqn:E. cbn [fst snd] in *. exists r2. split; [|split; [exact H2|split]].
    + rewrite E2. do 2 f_equal. rewrite zset_at by lia.
      replace (firstn (Z.to_nat (p + 1)) (firstn (Z.to_nat p) buf ++ z :: skipn (Z.to_nat (p + 1)) buf))
        with (firstn (Z.to_nat p) buf ++ [z]).
      2:{ assert (L : length (firstn (Z.to_nat p) buf) = Z.to_nat p) by (rewrite firstn_length; unfold zlen in Hlen; lia).
          rewrite firstn_app, L. replace (Z.to_nat (p + 1) - Z.to_nat p)%nat with 1%nat by lia.
          rewrite (firstn_all2 (n := Z.to_nat (p + 1))) by lia. reflexivity. }
      rewrite <- app_assoc. cbn [app]. do 3 f_equal.
      assert (L : length (firstn (Z.to_nat p) buf) = Z.to_nat p) by (rewrite firstn_length; unfold zlen in Hlen; lia).
      rewrite skipn_app, L, skipn_all2 by lia. cbn [app].
      replace (Z.to_nat (p + 1) + n - Z.to_nat p)%nat with (Datatypes.S n) by lia. cbn [skipn].
      rewrite skipn_skipn. f_equal. lia.
    + rewrite P2. exact P1.
    + constructor; [now apply (Permutation_in z P1)|]. eapply Forall_impl; [|exact F2]. cbv beta. intros a Ha.
      now apply (Permutation_in a P1).
Qed.
Lemma rand_read_ok r st buf size : has_state r st -> size <= zlen buf ->
  exists r', rand_read r (Some buf) size = Ok (r', Some (snd (rc4 (Z.to_nat size) st) ++ skipn (Z.to_nat size) buf)) /\
    has_state r' (fst (rc4 (Z.to_nat size) st)) /\ Permutation (rtab r') (rtab r) /\
    Forall (fun z => In z (rtab r)) (snd (rc4 (Z.to_nat size) st)).
Proof.
  intros H Hl. unfold rand_read. destruct (Z.leb_spec size 0).
  - replace (Z.to_nat size) with 0%nat by lia. exists r. destruct st as [[i j] S]. cbn.
    split; [reflexivity|]. split; [exact H|]. split; [reflexivity|constructor].
  - destruct (rand_loop_ok (Z.to_nat size) r st buf 0 H ltac:(lia) ltac:(lia)) as (r' & E & R). exists r'. rewrite E. cbn [bind].
    split; [reflexivity|exact R].
Qed.
Lemma reads_ok bufs : forall r st, has_state r st -> let n := length (concat bufs) in
  exists r' outs, reads r bufs = Ok (r', outs) /\ map (@length Z) outs = map (@length Z) bufs /\
    concat outs = snd (rc4 n st) /\ has_state r' (fst (rc4 n st)) /\
    rand_read r (Some (concat bufs)) (zlen (concat bufs)) = Ok (r', Some (concat outs)).
Proof.
  assert (G : forall b r st, has_state r st -> exists r', rand_read r (Some b) (zlen b) = Ok (r', Some (snd (rc4 (length b) st))) /\
    has_state r' (fst (rc4 (length b) st))).
  { intros b r st H. destruct (rand_read_ok r st b (zlen b) H ltac:(lia)) as (r' & E & R & _). unfold zlen in *. rewrite Nat2Z.id in *.
    rewrite skipn_all, app_nil_r in E. eauto. }
  induction bufs as [|b bufs IH]; intros r st H; cbv zeta.
  - exists r, []. destruct st as [[i j] S]. cbn. repeat (split; [reflexivity||exact H|]). reflexivity.
  - destruct (G b r st H) as (r1 & E1 & H1). cbn [reads]. rewrite E1. cbn [bind].
    destruct (IH r1 _ H1) as (r2 & outs & E2 & Hm & Hc & H2 & E3). rewrite E2. cbn [bind].
    destruct (rc4_split (length b) (length (concat bufs)) st) as [S1 S2].
    exists r2, (snd (rc4 (length b) st) :: outs). split; [reflexivity|]. cbn [map concat]. rewrite rc4_length, Hm.
    split; [reflexivity|]. rewrite app_length, S2, Hc. split; [reflexivity|]. rewrite S1. split; [exact H2|].
    destruct (G (b ++ concat bufs) r st H) as (r3 & E4 & H3). rewrite E4. rewrite app_length, S2.
    assert (r3 = r2) as ->; [|reflexivity]. rewrite app_length, S1 in H3. clear - H2 H3.
    destruct (fst (rc4 (length (concat bufs)) (fst (rc4 (length b) st)))) as [[i j] S].
    destruct H2 as (I1 & J1 & _ & _ & L1 & G1). destruct H3 as (I2 & J2 & _ & _ & L2 & G2).
    destruct r2, r3. cbn in *. subst. f_equal. apply zget_ext; [lia|]. intros x Hx. rewrite G1, G2 by lia. reflexivity.
Qed.

(** Key schedule. *)
Lemma mix_ok seed K r n j S : has_state r (0, j, S) -> 0 <= n < 256 -> zget seed n = Some (K n) ->
  let j' := (j + S n + K n) mod 256 in
  exists r', mix seed r n = Ok r' /\ has_state r' (0, j', swap S n j') /\ Permutation (rtab r') (rtab r).
Proof.
  intros (Hi & Hj & Ri & Rj & Hl & H) Hn HK j'. unfold mix. rewrite (zload_ok _ _ _ (H n Hn)). cbn [bind].
  rewrite (zload_ok _ _ _ HK). cbn [bind]. rewrite Hj, u8_256, Z.add_assoc. fold j'.
  assert (Rj' : 0 <= j' < 256) by (apply Z.mod_pos_bound; lia).
  rewrite (zload_ok _ _ _ (H j' Rj')). cbn [bind]. rewrite zput_ok by lia. cbn [bind].
  rewrite zput_ok by (rewrite zlen_zset; lia). cbn [bind]. eexists. split; [reflexivity|]. split.
  - unfold has_state. cbn. split; [exact Hi|]. split; [reflexivity|]. split; [lia|]. split; [exact Rj'|].
    rewrite !zlen_zset. split; [exact Hl|]. intros x Hx. rewrite (zget_swap _ _ _ _ _ _ (H j' Rj') (H n Hn)) by lia.
    unfold swap. destruct (Z.eqb_spec x j') as [E|E]; destruct (Z.eqb_spec x n) as [E'|E']; [|reflexivity..|].
    + now rewrite <- E, <- E'.
    + apply H. exact Hx.
  - cbn. apply Permutation_swap; auto.
Qed.
Lemma schedule_ok seed K S r : (forall x, 0 <= x < 256 -> zget seed x = Some (K x)) -> has_state r (0, 0, S) ->
  forall n, (n <= 256)%nat -> exists r', foldM (mix seed) r (map Z.of_nat (seq 0 n)) = Ok r' /\
    has_state r' (0, fst (schedule K S n), snd (schedule K S n)) /\ Permutation (rtab r') (rtab r).
Proof.
  intros HK Hr. induction n as [|n IH]; intro Hn; [exists r; cbn; auto|].
  destruct (IH ltac:(lia)) as (r1 & E1 & H1 & P1). rewrite seq_S, map_app, foldM_app, E1. cbn [bind Nat.add map foldM].
  destruct (mix_ok seed K r1 (Z.of_nat n) _ _ H1 ltac:(lia)) as (r2 & E2 & H2 & P2); [apply HK; lia|]. rewrite E2. cbn [bind].
  exists r2. split; [reflexivity|]. cbn [schedule]. destruct (schedule K S n) as [j T]. split; [exact H2|].
  now rewrite P2.
Qed.
Lemma rand_init_ok seed : seed_ok seed -> let K := fun x => nth (Z.to_nat x) seed 0 in
  exists r, rand_init seed = Ok r /\ has_state r (0, fst (schedule K K 256), snd (schedule K K 256)) /\ from_seed seed r.
Proof.
  intros [Hl _] K. unfold rand_init, bytes_at. replace ((0 <=? 0) && (0 <=? 256) && (0 + 256 <=? zlen seed)) with true by lia.
  cbn [bind]. assert (HK : forall x, 0 <= x < 256 -> zget seed x = Some (K x)).
  { intros x Hx. unfold zget, K. destruct (Z.ltb_spec x 0); [lia|]. apply nth_error_nth'. unfold zlen in Hl. lia. }
  assert (E0 : zslice seed 0 256 = firstn 256 seed) by reflexivity. rewrite E0.
  assert (L : zlen (firstn 256 seed) = 256) by (rewrite zlen_firstn; lia).
  destruct (schedule_ok seed K K (mk_rand 0 0 (firstn 256 seed)) HK) with (n := 256%nat) as (r & E & H & P); [|lia|].
  - unfold has_state. cbn [ri rj rtab]. repeat (split; [lia|]). intros x Hx. rewrite zget_firstn.
    destruct (Z.ltb_spec x (Z.of_nat 256)); [now apply HK|lia].
  - exists r. split; [exact E|]. split; [exact H|exact P].
Qed.

(** ** Size strings *)
Lemma span_ok p a c t : Forall (fun x => p x = true) a -> p c = false -> span p (a ++ c :: t) = Ok (a, c :: t).
Proof.
  intros Ha Hc. induction Ha as [|x a Hx Ha IH]; cbn [app span]; [now rewrite Hc|]. rewrite Hx, IH. reflexivity.
Qed.
(** The run of [p] at the start of a string. *)
Lemma span_split p l : p 0 = false -> exists a r, l = a ++ r /\ Forall (fun x => p x = true) a /\
  (forall c r', r = c :: r' -> p c = false) /\ forall tl, span p (l ++ 0 :: tl) = Ok (a, r ++ 0 :: tl).
Proof.
  intro H0. induction l as [|x l (a & r & E & Ha & Hr & Hs)].
  - exists [], []. cbn. split; [reflexivity|]. split; [constructor|]. split; [discriminate|]. intro tl. now rewrite H0.
  - destruct (p x) eqn:Ex.
    + exists (x :: a), r. split; [cbn; now rewrite E|]. split; [now constructor|]. split; [exact Hr|].
      intro tl. cbn. rewrite Ex, Hs. reflexivity.
    + exists [], (x :: l). split; [reflexivity|]. split; [constructor|]. split; [intros c r' [= <- _]; exact Ex|].
      intro tl. cbn. now rewrite Ex.
Qed.
Lemma digit_not_space c : isdigit c = true -> isspace c = false.
Proof. unfold isdigit, isspace. lia. Qed.
Lemma next_head (r : list Z) tl : exists c t, r ++ 0 :: tl = c :: t /\ ((exists r', r = c :: r') \/ r = [] /\ c = 0).
Proof. destruct r as [|c r]; [exists 0, tl; auto|]. exists c, (r ++ 0 :: tl). split; [reflexivity|left; eauto]. Qed.
Lemma subject_number sp sg ds r tl : ds <> [] ->
  Forall (fun c => isspace c = true) sp -> Forall (fun c => isdigit c = true) ds ->
  (forall c r', r = c :: r' -> isdigit c = false) -> sg = [] \/ sg = [43] \/ sg = [45] ->
  subject ((sp ++ sg ++ ds ++ r) ++ 0 :: tl) = Ok (sp, sg, ds).
Proof.
  intros Hne Hsp Hds Hr Hsg. unfold subject. destruct ds as [|d ds]; [congruence|].
  destruct (next_head r tl) as (c & t & E & Hc). assert (Hd : isdigit d = true) by now inversion Hds.
  assert (Hcd : isdigit c = false) by (destruct Hc as [[r' ->]|[-> ->]]; [eapply Hr; reflexivity|reflexivity]).
  replace ((sp ++ sg ++ (d :: ds) ++ r) ++ 0 :: tl) with (sp ++ sg ++ (d :: ds) ++ c :: t) by (rewrite <- E, !app_assoc; reflexivity).
  assert (Hsign : forall x, sign ((d :: ds) ++ x) = ([], (d :: ds) ++ x)).
  { intro x. cbn [app sign]. replace ((d =? 43) || (d =? 45)) with false; [reflexivity|]. unfold isdigit in Hd. lia. }
  assert (Hdig : span isdigit (d :: ds ++ c :: t) = Ok (d :: ds, c :: t)) by (apply (span_ok isdigit (d :: ds)); assumption).
  destruct Hsg as [->|[->| ->]]; cbn [app] in *; (rewrite span_ok; [|exact Hsp|try reflexivity; now apply digit_not_space]); cbn [bind].
  - rewrite Hsign. cbv iota. rewrite Hdig. reflexivity.
  - change (sign (43 :: d :: ds ++ c :: t)) with ([43], d :: ds ++ c :: t). cbv iota. rewrite Hdig. reflexivity.
  - change (sign (45 :: d :: ds ++ c :: t)) with ([45], d :: ds ++ c :: t). cbv iota. rewrite Hdig. reflexivity.
Qed.
Lemma sign_split l : exists sg r, l = sg ++ r /\ (sg = [] \/ sg = [43] \/ sg = [45]) /\ forall tl, sign (l ++ 0 :: tl) = (sg, r ++ 0 :: tl).
Proof.
  destruct l as [|c l]; [exists [], []; cbn; auto|]. destruct ((c =? 43) || (c =? 45)) eqn:E.
  - exists [c], l. split; [reflexivity|]. split; [assert (c = 43 \/ c = 45) as [->| ->] by lia; auto|]. intro tl. cbn. now rewrite E.
  - exists [], (c :: l). split; [reflexivity|]. split; [auto|]. intro tl. cbn. now rewrite E.
Qed.
Lemma subject_none s tl : (forall n r, ~ number s n r) -> exists sp sg, subject (s ++ 0 :: tl) = Ok (sp, sg, []).
Proof.
  intro H. unfold subject. destruct (span_split isspace s eq_refl) as (sp & r1 & E1 & F1 & N1 & S1). rewrite S1. cbn [bind].
  destruct (sign_split r1) as (sg & r2 & E2 & Hsg & S2). rewrite S2.
  destruct (span_split isdigit r2 eq_refl) as (ds & r3 & E3 & F3 & N3 & S3). rewrite S3. cbn [bind].
  destruct ds as [|d ds]; [eauto|]. exfalso.
  assert (Hn : exists n, n = dec (d :: ds) /\ (sg = [] \/ sg = [43]) \/ n = - dec (d :: ds) /\ sg = [45]).
  { destruct Hsg as [->|[->| ->]]; [exists (dec (d :: ds))|exists (dec (d :: ds))|exists (- dec (d :: ds))]; auto. }
  destruct Hn as [n Hn]. apply (H n r3). exists sp, sg, (d :: ds).
  split; [subst; reflexivity|]. split; [discriminate|]. repeat (split; [assumption|]). exact Hn.
Qed.
Definition fits (n : Z) : bool := (INT64_MIN <=? n) && (n <=? INT64_MAX).
Lemma strtoll_number s n r tl : number s n r -> exists v, strtoll (s ++ 0 :: tl) = Ok (v, negb (fits n), zlen s - zlen r) /\
  (fits n = true -> v = n) /\ 0 < zlen s - zlen r.
Proof.
  intros (sp & sg & ds & -> & Hne & Hsp & Hds & Hr & Hn). unfold strtoll.
  rewrite subject_number by (try assumption; destruct Hn as [[_ [H|H]]|[_ H]]; auto). cbn [bind].
  destruct ds as [|d ds]; [congruence|].
  set (v := if match sg with [45] => true | _ => false end then - dec (d :: ds) else dec (d :: ds)).
  assert (Hv : v = n) by (unfold v; destruct Hn as [[-> [->| ->]]|[-> ->]]; reflexivity).
  assert (Hlen : zlen (sp ++ sg ++ (d :: ds) ++ r) - zlen r = zlen sp + zlen sg + zlen (d :: ds)) by (rewrite !zlen_app; lia).
  rewrite Hlen, Hv. unfold fits, INT64_MIN, INT64_MAX.
  pose proof (zlen_nonneg sp). pose proof (zlen_nonneg sg). pose proof (zlen_nonneg ds). rewrite zlen_cons.
  destruct (Z.ltb_spec (2^63 - 1) n); [|destruct (Z.ltb_spec n (- 2^63))]; (eexists; split; [do 2 f_equal; f_equal; lia|]; split; lia).
Qed.
Lemma strtoll_none s tl : (forall n r, ~ number s n r) -> strtoll (s ++ 0 :: tl) = Ok (0, false, 0).
Proof. intro H. unfold strtoll. destruct (subject_none s tl H) as (sp & sg & ->). reflexivity. Qed.

Lemma tolower_letter l c : 97 <= l <= 122 -> (tolower c =? l) = letter l c.
Proof. intro H. unfold tolower, letter. destruct ((65 <=? c) && (c <=? 90)) eqn:E; lia. Qed.
Lemma times_ok n u : 0 < u -> INT64_MIN <= n <= INT64_MAX ->
  times n u = if INT64_MAX <? n * u then Ok (-1) else if n * u <? INT64_MIN then UB else Ok (n * u).
Proof.
  intros Hu Hn. unfold times. assert (E : (INT64_MAX / u <? n) = (INT64_MAX <? n * u)).
  { apply eq_true_iff_eq. rewrite !Z.ltb_lt.
    split; intro H.
    - assert (INT64_MAX / u + 1 <= n) by lia. pose proof (Z.mul_succ_div_gt INT64_MAX u Hu). nia.
    - apply Z.div_lt_upper_bound; lia. }
  rewrite E. destruct (Z.ltb_spec INT64_MAX (n * u)); [reflexivity|].
  destruct (Z.ltb_spec (n * u) INT64_MIN); [|].
  - replace ((INT64_MIN <=? n * u) && (n * u <=? INT64_MAX)) with false by lia. reflexivity.
  - replace ((INT64_MIN <=? n * u) && (n * u <=? INT64_MAX)) with true by lia. reflexivity.
Qed.
(** What the code computes from the number and what follows it. *)
Definition sized (n : Z) (u : option Z) : res Z :=
  match u with
  | None => Ok (-1)
  | Some u => if INT64_MAX <? n * u then Ok (-1) else if n * u <? INT64_MIN then UB else Ok (n * u)
  end.
Definition unit_case (val c : Z) : res Z :=
  let* c := char_lower c in
  if c =? 98 then Ok val
  else if c =? 107 then times val (2^10)
  else if c =? 109 then times val (2^20)
  else if c =? 103 then times val (2^30)
  else if c =? 116 then times val (2^40)
  else if c =? 112 then times val (2^50)
  else if c =? 101 then times val (2^60)
  else Ok (-1).
Lemma char_lower_ok c : c < 128 -> char_lower c = Ok (tolower c).
Proof. intro H. unfold char_lower. destruct (Z.ltb_spec c 128); [reflexivity|lia]. Qed.
Lemma unit_case_ok n c : INT64_MIN <= n <= INT64_MAX -> c < 128 -> unit_case n c = sized n (unit_letter c).
Proof.
  intros Hn Hc. unfold unit_case, unit_letter. rewrite char_lower_ok by exact Hc. cbn [bind]. rewrite !tolower_letter by lia.
  destruct (letter 98 c); [cbn [sized]; rewrite Z.mul_1_r; unfold INT64_MAX, INT64_MIN in *; destruct (Z.ltb_spec (2^63 - 1) n); [lia|]; destruct (Z.ltb_spec n (- 2^63)); [lia|reflexivity]|].
  repeat (match goal with |- (if ?b then times n ?x else _) = sized n (if ?b then _ else _) => destruct b; [rewrite times_ok by (try exact Hn; lia); reflexivity|] end).
  reflexivity.
Qed.
Lemma i32_small x : - 2^31 <= x < 2^31 -> i32 x = x.
Proof. intro H. unfold i32. rewrite Z.mod_small by lia. lia. Qed.
Lemma size_to_bytes_number s n r tl : nonul s -> zlen s < 2^31 -> number s n r -> plain_unit r ->
  size_to_bytes (s ++ 0 :: tl) = if fits n then sized n (unit_of r) else Ok (-1).
Proof.
  intros Hs Hlen Hn Hp. unfold size_to_bytes. rewrite strlen_ok by exact Hs. cbn [bind].
  destruct (strtoll_number s n r tl Hn) as (v & -> & Hv & Hpos). cbn [bind].
  destruct (fits n) eqn:Ef; cbn [negb orb]; [|reflexivity]. rewrite (Hv eq_refl). clear v Hv.
  destruct (Z.eqb_spec (zlen s - zlen r) 0) as [|_]; [lia|].
  assert (Hn' : INT64_MIN <= n <= INT64_MAX) by (unfold fits in Ef; lia).
  pose proof (zlen_nonneg r). pose proof (zlen_nonneg s).
  assert (Hr : zlen r <= zlen s) by lia.
  cbv zeta. rewrite i32_small by lia. replace (zlen s - (zlen s - zlen r)) with (zlen r) by lia.
  assert (Es : exists p, s = p ++ r).
  { destruct Hn as (sp & sg & ds & -> & _). exists (sp ++ sg ++ ds). now rewrite <- !app_assoc. }
  destruct Es as [p ->]. rewrite zlen_app in *. replace (zlen p + zlen r - zlen r) with (zlen p) in * by lia.
  rewrite <- app_assoc.
  destruct r as [|c r]; [cbn [unit_of zlen length]; rewrite zlen_nil; cbn [Z.eqb sized]; rewrite Z.mul_1_r|].
  { destruct (Z.ltb_spec INT64_MAX n); [lia|]. destruct (Z.ltb_spec n INT64_MIN); [lia|reflexivity]. }
  rewrite zlen_cons in *. destruct (Z.eqb_spec (zlen r + 1) 0); [pose proof (zlen_nonneg r); lia|].
  cbn [app]. rewrite (zload_ok _ _ c) by apply zget_mid. cbn [bind].
  match goal with |- context [bind (char_lower c) ?k] => change (bind (char_lower c) k) with (unit_case n c) end.
  destruct r as [|d r]; [rewrite unit_case_ok; [reflexivity|exact Hn'|apply Hp; [cbn; lia|left; reflexivity]]|].
  rewrite zlen_cons in *. pose proof (zlen_nonneg r). destruct (Z.eqb_spec (zlen r + 1 + 1) 1); [lia|].
  destruct r as [|e r].
  - rewrite zlen_nil. cbn [Z.eqb Z.add Pos.add Pos.eqb].
    rewrite (zload_ok _ _ d). 2:{ replace (zlen p + 1) with (zlen (p ++ [c])) by (rewrite zlen_app; reflexivity).
      change (zget (p ++ [c] ++ d :: 0 :: tl) (zlen (p ++ [c])) = Some d). rewrite app_assoc. apply zget_mid. }
    cbn [bind unit_of]. rewrite char_lower_ok by (apply Hp; [cbn; lia|right; left; reflexivity]). cbn [bind].
    rewrite tolower_letter by lia. destruct (letter 98 d); cbn [negb]; [|reflexivity].
    apply unit_case_ok; [exact Hn'|]. apply Hp; [cbn; lia|left; reflexivity].
  - rewrite zlen_cons in *. pose proof (zlen_nonneg r). destruct (Z.eqb_spec (zlen r + 1 + 1 + 1) 2); [lia|reflexivity].
Qed.
Lemma size_to_bytes_not_ascii s n c tl : nonul s -> zlen s < 2^31 -> number s n [c] -> fits n = true -> 128 <= c ->
  size_to_bytes (s ++ 0 :: tl) = UB.
Proof.
  intros Hs Hlen Hn Hf Hc. unfold size_to_bytes. rewrite strlen_ok by exact Hs. cbn [bind].
  destruct (strtoll_number s n [c] tl Hn) as (v & -> & Hv & Hpos). cbn [bind]. rewrite Hf. cbn [negb orb].
  destruct (Z.eqb_spec (zlen s - zlen [c]) 0) as [|_]; [lia|]. cbv zeta.
  replace (zlen s - (zlen s - zlen [c])) with 1 by (cbn; lia). cbn [Z.eqb Pos.eqb]. change (i32 1) with 1. cbn [Z.eqb Pos.eqb].
  destruct Hn as (sp & sg & ds & -> & _). rewrite !app_assoc. rewrite <- (app_assoc _ [c]), zlen_app.
  replace (zlen ((sp ++ sg) ++ ds) + zlen [c] - zlen [c]) with (zlen ((sp ++ sg) ++ ds)) by lia.
  cbn [app]. rewrite (zload_ok _ _ c) by apply zget_mid. cbn [bind]. unfold char_lower.
  destruct (Z.ltb_spec c 128); [lia|reflexivity].
Qed.
Lemma size_to_bytes_none s tl : nonul s -> (forall n r, ~ number s n r) -> size_to_bytes (s ++ 0 :: tl) = Ok (-1).
Proof.
  intros Hs H. unfold size_to_bytes. rewrite strlen_ok by exact Hs. cbn [bind]. rewrite strtoll_none by exact H. reflexivity.
Qed.
(** (int) of the rest's length: 2^32 characters count as none. *)
Lemma size_to_bytes_long s n r tl : nonul s -> number s n r -> zlen r = 2^32 -> fits n = true -> size_to_bytes (s ++ 0 :: tl) = Ok n.
Proof.
  intros Hs Hn Hr Hf. unfold size_to_bytes. rewrite strlen_ok by exact Hs. cbn [bind].
  destruct (strtoll_number s n r tl Hn) as (v & -> & Hv & Hpos). cbn [bind]. rewrite Hf. cbn [negb orb]. rewrite (Hv Hf).
  destruct (Z.eqb_spec (zlen s - zlen r) 0) as [|_]; [lia|]. cbv zeta.
  replace (zlen s - (zlen s - zlen r)) with (2^32) by lia. reflexivity.
Qed.

(** ** Size texts *)
Lemma dec_snoc a d : dec (a ++ [d]) = 10 * dec a + (d - 48).
Proof. unfold dec. rewrite fold_left_app. reflexivity. Qed.
Lemma digits_decimal f : forall n, 0 <= n < 10 ^ Z.of_nat f -> (0 < f)%nat -> decimal n (digits f n).
Proof.
  induction f as [|f IH]; intros n Hn Hf; [lia|]. cbn [digits].
  assert (Hd : isdigit (48 + n mod 10) = true) by (unfold isdigit; pose proof (Z.mod_pos_bound n 10 ltac:(lia)); lia).
  destruct (Z.ltb_spec n 10).
  - cbn [app]. rewrite Z.mod_small in * by lia. split; [repeat constructor; exact Hd|].
    split; [unfold dec; cbn [fold_left]; lia|]. split; [discriminate|]. cbn [hd]. intro E. now rewrite E.
  - assert (Hf' : (0 < f)%nat) by (destruct f; [cbn in Hn; lia|lia]).
    assert (Hq : 1 <= n / 10 < 10 ^ Z.of_nat f).
    { split; [apply Z.div_le_lower_bound; lia|]. apply Z.div_lt_upper_bound; [lia|].
      replace (10 * 10 ^ Z.of_nat f) with (10 ^ Z.of_nat (S f)); [lia|]. rewrite Nat2Z.inj_succ, Z.pow_succ_r by lia. reflexivity. }
    destruct (IH (n / 10) ltac:(lia) Hf') as (F & D & N & H0). split; [|split; [|split]].
    + apply Forall_app. split; [exact F|]. repeat constructor. exact Hd.
    + rewrite dec_snoc, D. pose proof (Z.div_mod n 10). lia.
    + intro E. apply app_eq_nil in E as [_ E]. discriminate.
    + destruct (digits f (n / 10)) as [|x t]; [congruence|]. cbn [hd app] in *. intros ->.
      specialize (H0 eq_refl). injection H0 as ->. exfalso. cbn in D. lia.
Qed.
Lemma large_text_ok h name : 0 <= h < 10^20 -> exists w, decimal2 h w /\ large_text h name = w ++ [32] ++ name.
Proof.
  intro Hh. exists (digits 20 (h / 100) ++ [46; 48 + h / 10 mod 10; 48 + h mod 10]). split.
  - exists (digits 20 (h / 100)), (48 + h / 10 mod 10), (48 + h mod 10).
    pose proof (Z.mod_pos_bound (h / 10) 10 ltac:(lia)). pose proof (Z.mod_pos_bound h 10 ltac:(lia)).
    split; [reflexivity|]. split; [apply digits_decimal; [|lia]|].
    + split; [apply Z.div_pos; lia|]. apply Z.div_lt_upper_bound; lia.
    + split; [unfold isdigit; lia|]. split; [unfold isdigit; lia|]. unfold dec. cbn [fold_left].
      Z.div_mod_to_equations. lia.
  - unfold large_text. rewrite <- !app_assoc. reflexivity.
Qed.
Lemma hundredths_ok c : 2 * Z.abs (1024 * hundredths c - 100 * c) <= 1024.
Proof.
  unfold hundredths. pose proof (Z.div_mod (100 * c) 1024 ltac:(lia)) as D. pose proof (Z.mod_pos_bound (100 * c) 1024 ltac:(lia)).
  destruct ((512 <? 100 * c mod 1024) || ((100 * c mod 1024 =? 512) && Z.odd (100 * c / 1024))) eqn:E; lia.
Qed.
(** The unit chosen. *)
Lemma scale_ok val : 1024 <= val < 2^64 ->
  exists n name, scale [40; 30; 20; 10; 0] val 0 val = (n, val / 1024^n) /\ 0 <= n <= 5 /\
    zget suffixes n = Some name /\ In (name, 1024^(n + 1)) unit_names /\ 1023 <= val / 1024^n <= 1048524.
Proof.
  intro Hv. cbn [scale]. rewrite !Z.shiftr_shiftr by lia. cbn [Z.add Pos.add Pos.succ].
  change (Z.shiftr 0xfffcccccccccccc 40) with 1048524. change (Z.shiftr 0xfffcccccccccccc 30) with 1073689395.
  change (Z.shiftr 0xfffcccccccccccc 20) with 1099457940684. change (Z.shiftr 0xfffcccccccccccc 10) with 1125844931261235.
  change (Z.shiftr 0xfffcccccccccccc 0) with 1152865209611504844. rewrite !Z.shiftr_div_pow2 by lia.
  destruct (Z.ltb_spec 1048524 val); [destruct (Z.ltb_spec 1073689395 val); [destruct (Z.ltb_spec 1099457940684 val); [destruct (Z.ltb_spec 1125844931261235 val); [destruct (Z.ltb_spec 1152865209611504844 val)|]|]|]|].
  - exists 5, [69; 66]. split; [reflexivity|]. split; [lia|]. split; [reflexivity|]. split; [cbn; tauto|]. change (1024^5) with 1125899906842624. Z.div_mod_to_equations. lia.
  - exists 4, [80; 66]. split; [reflexivity|]. split; [lia|]. split; [reflexivity|]. split; [cbn; tauto|]. change (1024^4) with 1099511627776. Z.div_mod_to_equations. lia.
  - exists 3, [84; 66]. split; [reflexivity|]. split; [lia|]. split; [reflexivity|]. split; [cbn; tauto|]. change (1024^3) with 1073741824. Z.div_mod_to_equations. lia.
  - exists 2, [71; 66]. split; [reflexivity|]. split; [lia|]. split; [reflexivity|]. split; [cbn; tauto|]. change (1024^2) with 1048576. Z.div_mod_to_equations. lia.
  - exists 1, [77; 66]. split; [reflexivity|]. split; [lia|]. split; [reflexivity|]. split; [cbn; tauto|]. change (1024^1) with 1024. Z.div_mod_to_equations. lia.
  - exists 0, [75; 66]. split; [change (1024^0) with 1; now rewrite Z.div_1_r|]. split; [lia|]. split; [reflexivity|]. split; [cbn; tauto|]. change (1024^0) with 1. rewrite Z.div_1_r. lia.
Qed.
Lemma snprintf_ok buf len t : 0 <= len <= zlen buf ->
  exists buf', snprintf buf len t = Ok (buf', zlen t) /\ zlen buf' = zlen buf /\
    (zlen t < len -> buf' = t ++ [0] ++ skipn (length t + 1) buf) /\
    (0 < len <= zlen t -> buf' = firstn (Z.to_nat (len - 1)) t ++ [0] ++ skipn (Z.to_nat len) buf) /\ (len = 0 -> buf' = buf).
Proof.
  intro H. unfold snprintf. pose proof (zlen_nonneg t). destruct (Z.eqb_spec len 0).
  - exists buf. split; [reflexivity|]. split; [reflexivity|]. split; [lia|]. split; [lia|auto].
  - cbv zeta. set (out := firstn (Z.to_nat (len - 1)) t ++ [0]).
    assert (Ho : zlen out = Z.min len (zlen t + 1)) by (unfold out; rewrite zlen_app, zlen_firstn; change (zlen [0]) with 1; lia).
    destruct (Z.leb_spec (zlen out) (zlen buf)); [|lia]. eexists. split; [reflexivity|]. split; [rewrite zlen_app, zlen_skipn; clear - H0 H1; unfold zlen in *; lia|].
    split; [|split; [|lia]].
    + intro L. unfold out. rewrite firstn_all2 by (unfold zlen in *; lia). rewrite <- app_assoc, app_length. reflexivity.
    + intro L. replace (length out) with (Z.to_nat len) by (unfold zlen in *; lia). unfold out. now rewrite <- app_assoc.
Qed.
Lemma bytes_to_size_ok buf len val : 0 <= len <= zlen buf -> 0 <= val < 2^64 ->
  exists t buf', size_text val t /\ bytes_to_size buf len val = Ok (buf', zlen t <? len) /\ snprintf buf len t = Ok (buf', zlen t).
Proof.
  intros Hlen Hv. unfold bytes_to_size. destruct (Z.ltb_spec val 1024).
  - assert (D : decimal val (digits 20 val)) by (apply digits_decimal; [|lia]; change (10 ^ Z.of_nat 20) with 100000000000000000000; lia).
    destruct (snprintf_ok buf len (small_text val) Hlen) as (buf' & E & _). rewrite E. cbn [bind].
    exists (small_text val), buf'. split; [left; split; [lia|exists (digits 20 val); split; [exact D|reflexivity]]|]. split; [|exact E].
    do 2 f_equal. assert (0 < zlen (small_text val)) by (unfold small_text; rewrite zlen_app; change (zlen [32; 66]) with 2; pose proof (zlen_nonneg (digits 20 val)); lia). lia.
  - destruct (scale_ok val ltac:(lia)) as (n & name & Es & Hn & Hg & Hin & Hc). rewrite Es.
    rewrite (zload_ok _ _ _ Hg). cbn [bind]. set (c := val / 1024^n) in *. pose proof (hundredths_ok c) as Hh.
    destruct (large_text_ok (hundredths c) name ltac:(lia)) as (w & D & Et).
    destruct (snprintf_ok buf len (large_text (hundredths c) name) Hlen) as (buf' & E & _). rewrite E. cbn [bind].
    eexists _, buf'. split; [|split; [|exact E]].
    + right. split; [lia|]. exists (hundredths c), w, name, (1024^(n + 1)). split; [exact D|]. split; [exact Et|]. split; [exact Hin|].
      split; [lia|]. rewrite Z.pow_add_r by lia. change (1024^1) with 1024.
      assert (0 < 1024^n) by (apply Z.pow_pos_nonneg; lia). pose proof (Z.div_mod val (1024^n) ltac:(lia)) as D1.
      pose proof (Z.mod_pos_bound val (1024^n) ltac:(lia)) as M1. fold c in D1.
      set (U := 1024^n) in *. set (m := val mod U) in *. clearbody U m c. clear - Hh D1 M1 H0. nia.
    + do 2 f_equal. assert (0 < zlen (large_text (hundredths c) name)).
      { rewrite Et, !zlen_app. change (zlen [32]) with 1. pose proof (zlen_nonneg w). pose proof (zlen_nonneg name). lia. } lia.
Qed.
