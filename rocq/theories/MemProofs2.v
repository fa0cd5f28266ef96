(** Proofs for the memory theorems, continued: map, buffer, string, timer, uri. *)
From Coq Require Import ZifyBool.
From Verif Require Import Base MapModel MemModel MemSpec MemProofs.
From Verif Require MapProofs.

Arguments Z.mul : simpl never.
Arguments Z.add : simpl never.
Arguments Z.sub : simpl never.
Arguments Z.opp : simpl never.
Arguments Z.pow : simpl never.
Arguments Z.div : simpl never.

(** * Map *)

Lemma padd_back b w : padd (PBlk b w) (- w) = PBlk b 0.
Proof. cbn. f_equal. lia. Qed.

Lemma peq_refl p : peq p p = true.
Proof. destruct p; cbn; [auto|]. now rewrite !Z.eqb_refl. Qed.

Lemma peq_diff b c o o' : b <> c -> peq (PBlk b o) (PBlk c o') = false.
Proof. intro. cbn. destruct (Z.eqb_spec b c); [lia|auto]. Qed.

Lemma map_alloc_cases m w c f ans : okm m -> 0 < w ->
  (f = 1 /\ 0 < c <= 2^31 \/ f = 2 /\ exists k, 0 <= k <= 31 /\ c = 2^k) ->
  (exists v, map_alloc w c f ans m = (v, PNull, m)) \/
  exists k, 3 <= k <= 31 /\ ans <> Fail /\ (2^k + 1) * w <= ADDR_MAX /\
    map_alloc w c f ans m = (2^k, PBlk (fresh m) w, ins m ((2^k + 1) * w)).
Proof.
  intros K Hw Hc. unfold map_alloc.
  destruct (Z.ltb_spec (SC_MAP_MAX / f) c) as [Hm|Hm]; [left; eauto|].
  assert (Hv : exists k, 3 <= k <= 31 /\ next_pow2_32 (if c <? 8 then 8 else u32 (c * f)) = 2^k).
  { destruct Hc as [[-> Hc]|[-> (k & Hk & ->)]].
    - destruct (MapProofs.alloc_pow2 c) as (k & Hk & E & _); [lia|]. eauto.
    - destruct (Z.ltb_spec (2^k) 8) as [H8|H8].
      + exists 3. split; [lia|]. exact (MapProofs.next_pow2_pow 3 ltac:(lia)).
      + assert (3 <= k) by (apply (Z.pow_le_mono_r_iff 2); lia).
        assert (k <= 30).
        { destruct (Z.eq_dec k 31) as [->|]; [|lia]. exfalso. revert Hm. clear. vm_compute. auto. }
        assert (Hd : 2^(k+1) = 2^k * 2) by (rewrite Z.pow_add_r by lia; reflexivity).
        assert (2^k <= 2^30) by (apply Z.pow_le_mono_r; lia).
        exists (k + 1). split; [lia|]. rewrite u32_small by lia. rewrite <- Hd.
        apply MapProofs.next_pow2_pow. lia. }
  destruct Hv as (k & Hk & ->).
  assert (0 < 2^k) by (apply Z.pow_pos_nonneg; lia).
  assert (2^k <= 2^31) by (apply Z.pow_le_mono_r; lia).
  cbv zeta. rewrite (u32_small (2^k + 1)) by lia.
  destruct (malloc_cases m ((2^k + 1) * w) ans) as [->|(Ha & Hx & ->)]; [nia| |].
  - left. eexists. reflexivity.
  - right. exists k. split; [auto|]. split; [auto|]. split; [auto|]. reflexivity.
Qed.

Definition mwf (m : mem) (p : map_) : Prop := wf m (OMap p).

Lemma pow_pos k : 0 <= k -> 0 < 2^k.
Proof. intro. apply Z.pow_pos_nonneg; lia. Qed.

(** The table a map has after remap: its own. *)
Definition own_table (m : mem) (p : map_) : Prop :=
  exists b s, p_mem p = PBlk b (p_w p) /\ find (live m) b = Some (s, Alloc) /\
    p_w p + p_cap p * p_w p <= s.

Lemma own_owned m p : mwf m p -> own_table m p -> owned (OMap p) = block (p_mem p).
Proof.
  intros (Hw & (e & Ee & Fe) & _) (b & s & Eb & Fb & _). cbn [owned].
  rewrite Ee, Eb. rewrite peq_diff; [auto|]. intros ->. congruence.
Qed.

Lemma map_remap_ok m p ans : okm m -> mwf m p ->
  map_remap p ans m = Ok (None, m) \/
  exists p' m', map_remap p ans m = Ok (Some p', m') /\ okm m' /\
    frm m (owned (OMap p)) m' (owned (OMap p')) /\ mwf m' p' /\ own_table m' p' /\
    p_size p' = p_size p /\ p_used p' = p_used p.
Proof.
  intros K W. pose proof W as (Hw & (e & Ee & Fe) & (k & Hk & Ec) & Hp).
  unfold map_remap. destruct (Z.ltb_spec (p_size p) (p_remap p)) as [Hl|Hl].
  { right. exists p, m. split; [auto|]. split; [auto|]. split; [now apply frm_same|]. split; [auto|].
    split; [|auto]. destruct Hp as [(_ & E1 & _ & E2 & _)|Hh]; [lia|]. exact Hh. }
  destruct (map_alloc_cases m (p_w p) (p_cap p) 2 ans K Hw) as
    [[v ->]|(k' & Hk' & _ & Hx & ->)]; [right; split; [auto|]; eauto| |].
  { cbn [isnull]. auto. }
  right. cbn [isnull]. pose proof (pow_pos k ltac:(lia)) as Pk. pose proof (pow_pos k' ltac:(lia)) as Pk'.
  assert (Fe1 : e < fresh m) by (apply K in Fe; lia).
  set (sz := (2^k' + 1) * p_w p) in *. set (m1 := ins m sz).
  assert (K1 : okm m1) by (apply okm_ins; [auto|unfold sz; nia]).
  assert (Ft : find (live m1) (fresh m) = Some (sz, Alloc)) by apply find_ins_same.
  destruct Hp as [(Em & E1 & E2 & E3 & E4)|(b & s & Em & Fb & Hs)].
  - (* the constant table *)
    rewrite Em, Ee, peq_refl.
    erewrite (rd_ok m1 e); [|unfold m1; rewrite find_ins by lia; exact Fe|nia..]. cbn [bind].
    erewrite wr_ok; [|exact Ft|discriminate|unfold sz; nia..]. cbn [bind].
    eexists _, m1. split; [reflexivity|]. split; [auto|].
    cbn [owned p_mem p_empty]. rewrite Em, Ee, peq_refl. rewrite peq_diff by lia.
    cbn [block]. split; [now apply frm_new|]. split; [|split; [|auto]].
    + unfold mwf. cbn [wf p_w p_empty p_mem p_cap p_size p_used p_remap].
      split; [auto|]. split; [exists e; split; [auto|]; unfold m1; rewrite find_ins by lia; auto|].
      split; [exists k'; split; [lia|auto]|]. right. exists (fresh m), sz.
      split; [auto|]. split; [auto|unfold sz; lia].
    + exists (fresh m), sz. cbn [p_mem p_w p_cap]. split; [auto|]. split; [auto|]. unfold sz; nia.
  - (* a table of its own *)
    assert (Fb1 : b < fresh m) by (apply K in Fb; lia).
    assert (Hbe : b <> e) by (intros ->; congruence).
    assert (Fm : find (live m1) b = Some (s, Alloc)) by (unfold m1; rewrite find_ins by lia; auto).
    rewrite Em, Ee, (peq_diff b e) by auto.
    erewrite (rd_ok m1 b); [|exact Fm|nia..]. cbn [bind].
    erewrite wr_ok; [|exact Ft|discriminate|unfold sz; nia..]. cbn [bind].
    erewrite (rd_ok m1 b); [|exact Fm|nia..]. cbn [bind].
    erewrite wr_ok; [|exact Ft|discriminate|unfold sz; nia..]. cbn [bind].
    rewrite padd_back. erewrite free_ok by exact Fm. cbn [bind].
    eexists _, _. split; [reflexivity|]. split; [now apply okm_del|].
    cbn [owned p_mem p_empty]. rewrite Em, Ee. rewrite (peq_diff b e), (peq_diff (fresh m) e) by lia.
    cbn [block]. split; [apply frm_new_free; auto|].
    assert (Ft2 : find (live (del m1 b)) (fresh m) = Some (sz, Alloc)) by (rewrite find_del by lia; auto).
    split; [|split; [|auto]].
    + unfold mwf. cbn [wf p_w p_empty p_mem p_cap p_size p_used p_remap].
      split; [auto|]. split.
      { exists e; split; [auto|]. rewrite find_del by auto. unfold m1; rewrite find_ins by lia; auto. }
      split; [exists k'; split; [lia|auto]|]. right. exists (fresh m), sz.
      split; [auto|]. split; [auto|unfold sz; lia].
    + exists (fresh m), sz. cbn [p_mem p_w p_cap]. split; [auto|]. split; [auto|]. unfold sz; nia.
Qed.

(** Changing size and used of a map with its own table. *)
Lemma map_same m p n u : okm m -> mwf m p -> own_table m p ->
  good m (owned (OMap p))
    (Ok (OMap (mk_map_ (p_w p) (p_empty p) (p_mem p) (p_cap p) n u (p_fac p) (p_remap p)), m)).
Proof.
  intros K W T. apply good_same'; [auto|reflexivity|].
  destruct W as (Hw & He & Hc & _). cbn [wf p_w p_empty p_mem p_cap p_size p_used p_remap].
  split; [auto|]. split; [auto|]. split; [auto|]. right. exact T.
Qed.

Lemma frm_good m b m' b' r : frm m b m' b' -> okm m ->
  (exists o, r = Ok (o, m') /\ owned o = b' /\ okm m' /\ wf m' o) -> good m b r.
Proof.
  intros Fr K (o & -> & Eo & K' & W). exists o, m'. rewrite Eo. auto.
Qed.

Lemma map_good m p c : okm m -> wf m (OMap p) -> allowed_op m (OMap p) c ->
  good m (owned (OMap p)) (apply (OMap p) c m).
Proof.
  intros K W A. pose proof W as (Hw & (e & Ee & Fe) & (k & Hk & Ec) & Hp).
  pose proof (pow_pos k ltac:(lia)) as Pk.
  assert (Rd : rd m (p_mem p) 0 (p_cap p * p_w p) = Ok tt /\
               rd m (p_mem p) (- p_w p) ((p_cap p + 1) * p_w p) = Ok tt /\
               rd m (p_mem p) (- p_w p) (p_w p) = Ok tt).
  { destruct Hp as [(Em & E1 & E2 & E3 & E4)|(b & s & Em & Fb & Hs)].
    - rewrite Em, Ee, E4. split; [|split]; (eapply rd_ok; [exact Fe|nia..]).
    - rewrite Em. split; [|split]; (eapply rd_ok; [exact Fb|nia..]). }
  destruct Rd as (R1 & R2 & R3).
  destruct c; try (exfalso; exact A).
  - cbn [apply term]. unfold wrap, map_term.
    destruct Hp as [(Em & E1 & E2 & E3 & E4)|(b & s & Em & Fb & Hs)].
    + rewrite Em, peq_refl. cbn [bind]. apply good_same; auto.
    + assert (Hbe : b <> e) by (intros ->; congruence).
      rewrite Em, Ee, peq_diff by auto. rewrite padd_back. erewrite free_ok by eauto. cbn [bind].
      apply good_intro; [now apply okm_del| |].
      * cbn [owned map_empty p_mem p_empty]. rewrite Em, Ee, peq_refl, peq_diff by auto.
        cbn [block]. now apply frm_free.
      * cbn. split; [auto|]. split; [exists e; split; [auto|]; rewrite find_drop|].
        { destruct (Z.eqb_spec b e); [lia|auto]. }
        split; [exists 0; split; [lia|reflexivity]|]. left. auto.
  - cbn [apply]. unfold wrap, map_put.
    destruct (map_remap_ok m p ans K W) as [->|(p' & m' & -> & K' & Fr & W' & T' & _)]; cbn [bind].
    { apply good_same; auto. }
    pose proof T' as (b & s & Em & Fb & Hs). pose proof W' as (Hw' & _ & (k2 & Hk2 & Ec2) & _).
    pose proof (pow_pos k2 ltac:(lia)) as Pk2.
    destruct z.
    + rewrite Em. erewrite wr_ok; [|exact Fb|discriminate|nia..]. cbn [bind]. rewrite <- Em.
      match goal with |- good _ _ (Ok (OMap (mk_map_ _ _ _ _ ?n ?u _ _), _)) =>
        destruct (map_same m' p' n u K' W' T') as (o2 & m2 & E & K2 & Fr2 & W2) end.
      injection E as <- <-. eapply frm_good; [exact Fr|auto|]. eexists. split; [reflexivity|].
      split; [reflexivity|]. auto.
    + rewrite Em. erewrite wr_ok; [|exact Fb|discriminate|nia..]. cbn [bind]. rewrite <- Em.
      match goal with |- good _ _ (Ok (OMap (mk_map_ _ _ _ _ ?n ?u _ _), _)) =>
        destruct (map_same m' p' n u K' W' T') as (o2 & m2 & E & K2 & Fr2 & W2) end.
      injection E as <- <-. eapply frm_good; [exact Fr|auto|]. eexists. split; [reflexivity|].
      split; [reflexivity|]. auto.
  - cbn [apply]. unfold wrap, map_get. rewrite R1, R3.
    destruct z; [destruct (p_used p)|]; cbn [bind]; apply good_same; auto.
  - cbn [apply]. unfold wrap, map_del. rewrite R1, R3. destruct z.
    + replace (if p_used p then Ok tt else Ok tt) with (@Ok unit tt) by (destruct (p_used p); auto).
      cbn [bind]. destruct Hp as [(Em & E1 & E2 & E3 & E4)|Hh]; [|now apply map_same].
      apply good_same'; [auto|reflexivity|].
      cbn [wf p_w p_empty p_mem p_cap p_size p_used p_remap]. rewrite E1, E2.
      split; [auto|]. split; [eauto|]. split; [eauto|]. left. auto.
    + destruct hit; cbn [bind]; [|apply good_same; auto].
      cbn [allowed_op] in A. destruct Hp as [(Em & E1 & E2 & E3 & E4)|Hh].
      { rewrite E1, E2 in A. lia. }
      pose proof Hh as (b & s & Em & Fb & Hs).
      rewrite Em. erewrite wr_ok; [|exact Fb|discriminate|nia..]. cbn [bind]. rewrite <- Em.
      now apply map_same.
  - cbn [apply]. unfold wrap, map_clear.
    destruct (Z.ltb_spec 0 (p_size p)); cbn [bind]; [|apply good_same; auto].
    destruct Hp as [(Em & E1 & E2 & E3 & E4)|Hh]; [lia|].
    pose proof Hh as (b & s & Em & Fb & Hs).
    rewrite Em. erewrite wr_ok; [|exact Fb|discriminate|nia..]. cbn [bind]. rewrite <- Em.
    now apply map_same.
  - cbn [apply]. unfold wrap, map_each. rewrite R2. cbn [bind]. apply good_same; auto.
Qed.

(** * Buffer *)

Definition bwf (m : mem) (b : buf) : Prop := wf m (OBuf b).

Lemma buf_wr m b pos n : okm m -> bwf m b -> 0 <= pos -> 0 <= n -> pos + n <= b_cap b ->
  wr m (b_mem b) pos n = Ok tt /\ rd m (b_mem b) pos n = Ok tt.
Proof.
  intros K (_ & _ & _ & Hp) H1 H2 H3. destruct (b_ref b).
  - destruct Hp as (x & off & s & -> & F & Ho & Hs).
    split; [eapply wr_ok|eapply rd_ok]; try exact F; try discriminate; lia.
  - destruct Hp as [[-> E]|[(x & s & -> & F & Hs) _]].
    + replace n with 0 by lia. auto.
    + split; [eapply wr_ok|eapply rd_ok]; try exact F; try discriminate; lia.
Qed.

Lemma buf_fail_same m b : okm m -> bwf m b -> good m (owned (OBuf b)) (Ok (OBuf (buf_fail b), m)).
Proof. intros K W. apply good_same'; auto. Qed.

Lemma round_up n : 0 <= n -> n + 4095 < 2^64 ->
  u64 (u64 (n + 4095) / 4096 * 4096) = (n + 4095) / 4096 * 4096 /\
  n <= (n + 4095) / 4096 * 4096 <= n + 4095.
Proof.
  intros H1 H2. rewrite (u64_small (n + 4095)) by lia.
  pose proof (Z.div_mod (n + 4095) 4096 ltac:(lia)) as D.
  pose proof (Z.mod_pos_bound (n + 4095) 4096 ltac:(lia)) as B.
  assert (0 <= (n + 4095) / 4096) by (apply Z.div_pos; lia).
  rewrite u64_small by lia. lia.
Qed.

Lemma buf_reserve_ok m b len ans : okm m -> bwf m b -> 0 <= len -> b_cap b + len + 4095 < 2^64 ->
  buf_reserve b len ans m = Ok (false, buf_fail b, m) \/
  exists b' m', buf_reserve b len ans m = Ok (true, b', m') /\ okm m' /\
    frm m (owned (OBuf b)) m' (owned (OBuf b')) /\ bwf m' b' /\
    b_pos b' = b_pos b /\ b_ref b' = b_ref b /\ b_pos b + len <= b_cap b'.
Proof.
  intros K W H1 H2. pose proof W as (Hr & Hpos & Hc & Hp).
  unfold buf_reserve. rewrite (u64_small (b_pos b + len)) by lia.
  destruct (Z.ltb_spec (b_cap b) (b_pos b + len)) as [Hl|Hl].
  2:{ right. exists b, m. split; [auto|]. split; [auto|]. split; [now apply frm_same|]. auto. }
  destruct (b_ref b) eqn:Er; [auto|].
  destruct (round_up (b_cap b + len)) as [-> Hup]; [lia|lia|].
  set (sz := (b_cap b + len + 4095) / 4096 * 4096) in *. cbv zeta.
  destruct ((b_limit b <? sz) || (SC_BUF_MAX - 4096 <=? b_cap b)); [auto|].
  destruct (re_cases m (b_mem b) sz ans K) as [->|(x & m' & _ & -> & K' & Fr & F & Hx)].
  { lia. }
  { destruct Hp as [[E _]|[Hh _]]; [auto|right; eapply holds_start; eauto]. }
  { cbn [bind isnull]. auto. }
  cbn [bind isnull]. right. eexists _, m'. split; [reflexivity|]. split; [auto|].
  split; [cbn [owned b_ref b_mem]; rewrite Er; exact Fr|].
  split; [|cbn [b_pos b_ref b_cap]; split; [auto|]; split; [auto|lia]].
  unfold bwf. cbn [wf b_r b_pos b_cap b_ref b_mem].
  split; [lia|]. split; [lia|]. split; [lia|]. right. split; [|lia]. exists x, sz. 
  split; [auto|]. split; [auto|lia].
Qed.

Lemma buf_compact_ok m b : okm m -> bwf m b ->
  exists b', buf_compact b m = Ok (b', m) /\ owned (OBuf b') = owned (OBuf b) /\ bwf m b' /\
    b_ref b' = b_ref b /\ b_mem b' = b_mem b /\ b_cap b' = b_cap b.
Proof.
  intros K W. pose proof W as (Hr & Hpos & Hc & Hp). unfold buf_compact.
  destruct (Z.eqb_spec (b_r b) (b_pos b)) as [E|E].
  - cbn [negb Z.eqb]. eexists. split; [reflexivity|]. split; [reflexivity|].
    split; [|auto]. unfold bwf. cbn [wf b_r b_pos b_cap b_ref b_mem].
    split; [lia|]. split; [lia|]. split; [lia|]. exact Hp.
  - destruct (Z.eqb_spec (b_r b) 0) as [E0|E0]; cbn [negb].
    + eexists. split; [reflexivity|]. split; [reflexivity|].
      split; [|auto]. exact W.
    + cbv zeta. rewrite (u64_small (b_pos b - b_r b)) by (rewrite addr_max in Hc; lia).
      destruct (buf_wr m b (b_r b) (b_pos b - b_r b) K W) as [_ ->]; [lia..|].
      destruct (buf_wr m b 0 (b_pos b - b_r b) K W) as [-> _]; [lia..|]. cbn [bind].
      eexists. split; [reflexivity|]. split; [reflexivity|].
      split; [|auto]. unfold bwf. cbn [wf b_r b_pos b_cap b_ref b_mem].
      split; [lia|]. split; [lia|]. split; [lia|]. exact Hp.
Qed.

Lemma readable_find m p n : okm m -> readable m p n ->
  exists b off s k, p = PBlk b off /\ find (live m) b = Some (s, k) /\ 0 <= off /\ off + n <= s.
Proof.
  intros K (b & off & s & k & -> & Hi & H1 & H2). exists b, off, s, k.
  split; [auto|]. split; [|auto]. apply in_find; [apply K|auto].
Qed.

Lemma buf_good m b c : okm m -> wf m (OBuf b) -> allowed_op m (OBuf b) c ->
  good m (owned (OBuf b)) (apply (OBuf b) c m).
Proof.
  intros K W A. pose proof W as (Hr & Hpos & Hc & Hp). pose proof Hc as Hc'. rewrite addr_max in Hc'.
  destruct c; try (exfalso; exact A).
  - cbn [apply term]. unfold wrap, buf_term.
    assert (W0 : forall m, wf m (OBuf (buf_wrap PNull 0 false false))).
    { intro. cbn. rewrite addr_max. split; [lia|]. split; [lia|]. split; [lia|]. auto. }
    destruct (b_ref b) eqn:Er.
    + cbn [bind]. apply good_same'; [auto|cbn; now rewrite Er|apply W0].
    + destruct Hp as [[E1 E2]|[(x & s & E1 & F & Hx) _]].
      * rewrite E1. cbn [free bind]. apply good_same'; [auto|cbn; now rewrite Er, E1|apply W0].
      * rewrite E1. erewrite free_ok by eauto. cbn [bind].
        apply good_intro; [now apply okm_del| |apply W0].
        cbn [owned b_ref b_mem buf_wrap block]. rewrite Er, E1. now apply frm_free.
  - (* reserve *)
    destruct A as [A1 A2]. cbn [apply].
    destruct (buf_reserve_ok m b len ans K W A1 A2) as [->|(b' & m' & -> & K' & Fr & W' & _)]; cbn [bind].
    + now apply buf_fail_same.
    + apply good_intro; auto.
  - (* shrink *)
    destruct A as [A1 A2]. cbn [apply]. unfold wrap, buf_shrink.
    destruct (buf_compact_ok m b K W) as (b' & -> & Eo & W' & E1 & E2 & E3). cbn [bind].
    pose proof W' as (Hr' & Hpos' & Hc1 & Hp'). rewrite E1, A1 in Hp'.
    destruct ((b_cap b' <? len) || (len <=? b_pos b')) eqn:El.
    { cbn [bind]. apply good_same'; auto. }
    apply orb_false_elim in El as [El1 El2].
    destruct (round_up len) as [-> Hup]; [lia|lia|].
    set (sz := (len + 4095) / 4096 * 4096) in *. cbv zeta.
    destruct (re_cases m (b_mem b') sz ans K) as [->|(x & m' & _ & -> & K' & Fr & F & Hx)].
    { lia. }
    { destruct Hp' as [[E _]|[Hh _]]; [auto|right; eapply holds_start; eauto]. }
    { cbn [bind isnull]. rewrite <- Eo. now apply buf_fail_same. }
    cbn [bind isnull]. apply good_intro; [auto| |].
    + cbn [owned b_ref b_mem block]. rewrite E1, A1. rewrite <- E2. exact Fr.
    + cbn [wf b_r b_pos b_cap b_ref b_mem]. rewrite E1, A1.
      split; [lia|]. split; [lia|]. split; [lia|]. right. split; [|lia]. exists x, sz.
      split; [auto|]. split; [auto|lia].
  - (* put *)
    destruct A as (A1 & A2 & A3 & A4). cbn [apply]. unfold wrap, buf_put.
    destruct (buf_reserve_ok m b len ans K W A1 A2)
      as [->|(b' & m' & -> & K' & Fr & W' & E1 & E2 & E3)]; cbn [bind negb].
    { now apply buf_fail_same. }
    pose proof W' as (Hr' & Hpos' & Hc1 & Hp'). rewrite addr_max in Hc1.
    assert (Hf : good m (owned (OBuf b)) (Ok (OBuf (buf_fail b'), m'))).
    { apply good_intro; auto. }
    destruct (b_err b' || (b_cap b' <? u64 (b_pos b' + len))) eqn:El; [exact Hf|].
    apply orb_false_elim in El as [El1 El2].
    rewrite (u64_small (b_pos b' + len)) by lia.
    destruct (readable_find m src len K A3) as (x & off & s & k & -> & F & Ho & Hs).
    assert (F' : find (live m') x = Some (s, k)).
    { destruct Fr as (_ & Fr & _). rewrite Fr; [auto| |apply K in F; lia].
      cbn [owned]. destruct (b_ref b) eqn:Er; [discriminate|]. specialize (A4 eq_refl).
      cbn [block] in A4. congruence. }
    erewrite rd_ok; [|exact F'|lia..]. cbn [bind].
    destruct (buf_wr m' b' (b_pos b') len K' W') as [-> _]; [lia..|]. cbn [bind].
    apply good_intro; [auto|exact Fr|].
    cbn [wf b_r b_pos b_cap b_ref b_mem].
    split; [lia|]. split; [lia|]. split; [rewrite addr_max; lia|]. exact Hp'.
  - (* access *)
    destruct A as (A1 & A2 & A3). cbn [apply]. unfold wrap, buf_access.
    rewrite (u64_small (pos + n)) by lia.
    destruct (b_err b || ((if w then b_cap b else b_pos b) <? pos + n)) eqn:El.
    { cbn [bind]. now apply buf_fail_same. }
    apply orb_false_elim in El as [_ El].
    destruct (buf_wr m b pos n K W) as [-> ->]; [lia|lia|destruct w; lia|].
    destruct w; cbn [bind]; apply good_same; auto.
  - (* at *)
    destruct A as (A1 & A2 & A3). cbn [apply]. unfold wrap, buf_at.
    assert (E : wr m (padd (b_mem b) pos) 0 n = Ok tt).
    { destruct (b_ref b).
      - destruct Hp as (x & off & s & -> & F & Ho & Hs). cbn [padd].
        eapply wr_ok; [exact F|discriminate|lia..].
      - destruct Hp as [[-> E]|[(x & s & -> & F & Hs) _]]; cbn [padd].
        + replace n with 0 by lia. auto.
        + eapply wr_ok; [exact F|discriminate|lia..]. }
    rewrite E. cbn [bind]. apply good_same; auto.
  - cbn [apply]. unfold wrap. destruct (buf_compact_ok m b K W) as (b' & -> & Eo & W' & _).
    cbn [bind]. apply good_same'; auto.
  - cbn [apply]. apply good_same'; [auto|reflexivity|]. exact W.
  - destruct A as (A1 & A2). cbn [apply]. apply good_same'; [auto|reflexivity|].
    cbn [buf_move_to wf b_r b_pos b_cap b_ref b_mem]. split; [lia|]. split; [lia|].
    split; [lia|]. exact Hp.
Qed.
