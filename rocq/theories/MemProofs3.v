(** Proofs for the memory theorems, continued: string, timer, uri, programs. *)
From Coq Require Import ZifyBool.
From Verif Require Import Base MapModel MemModel MemSpec MemProofs MemProofs2.

Arguments Z.mul : simpl never.
Arguments Z.add : simpl never.
Arguments Z.sub : simpl never.
Arguments Z.opp : simpl never.
Arguments Z.pow : simpl never.
Arguments Z.div : simpl never.

(** * String *)

Lemma str_bytes_small n : 0 <= n <= 2^60 -> str_bytes n = n + 5.
Proof. intro. unfold str_bytes. rewrite u64_small by lia. lia. Qed.

Definition src_ok (m : mem) (p : ptr) (n : Z) : Prop :=
  p = PNull \/ exists b off s k, p = PBlk b off /\ find (live m) b = Some (s, k) /\
                 0 <= off /\ off + n <= s.

Definition nostr : str := mk_str PNull 0.

Lemma str_create_len_ok m src len ans : okm m -> 0 <= len < 2^32 -> src_ok m src len ->
  str_create_len src len ans m = Ok (nostr, m) \/
  ans <> Fail /\
  str_create_len src len ans m = Ok (mk_str (PBlk (fresh m) SHDR) len, ins m (len + 5)).
Proof.
  intros K Hl Hs. unfold str_create_len.
  destruct Hs as [->|(b & off & s & k & -> & F & Ho & Hs)]; cbn [isnull]; [auto|].
  rewrite str_bytes_small by lia.
  destruct (malloc_cases m (len + 5) ans) as [->|(Ha & Hx & ->)]; [lia| |]; cbn [isnull]; [auto|].
  right. split; [auto|].
  erewrite rd_ok; [|rewrite find_ins; [exact F|apply K in F; lia]|lia..]. cbn [bind].
  erewrite wr_ok; [|apply find_ins_same|discriminate|unfold SHDR; lia..]. cbn [bind].
  erewrite wr_ok; [|apply find_ins_same|discriminate|lia..]. reflexivity.
Qed.

Lemma str_create_ok m src len ans : okm m -> 0 <= len -> src_ok m src (len + 1) ->
  str_create src len ans m = Ok (nostr, m) \/
  ans <> Fail /\ len < 2^32 /\
  str_create src len ans m = Ok (mk_str (PBlk (fresh m) SHDR) len, ins m (len + 5)).
Proof.
  intros K Hl Hs. unfold str_create. pose proof Hs as Hs'.
  destruct Hs as [->|(b & off & s & k & -> & F & Ho & Hs)]; cbn [isnull]; [auto|].
  erewrite rd_ok; [|exact F|lia..]. cbn [bind].
  destruct (Z.ltb_spec SC_STR_MAX len) as [Hm|Hm]; [auto|]. unfold SC_STR_MAX in Hm.
  destruct (str_create_len_ok m (PBlk b off) len ans K) as [->|[Ha ->]]; [lia| |auto|].
  - right. exists b, off, s, k. split; [auto|]. split; [auto|]. lia.
  - right. split; [auto|]. split; [lia|auto].
Qed.

Lemma str_create_va_ok m rc rc2 ans : okm m -> rc < 2^31 ->
  str_create_va rc rc2 ans m = Ok (nostr, m) \/
  ans <> Fail /\ 0 <= rc /\
  (str_create_va rc rc2 ans m = Ok (nostr, del (ins m (rc + 5)) (fresh m)) \/
   str_create_va rc rc2 ans m = Ok (mk_str (PBlk (fresh m) SHDR) rc, ins m (rc + 5))).
Proof.
  intros K Hl. unfold str_create_va. destruct (Z.ltb_spec rc 0) as [H0|H0]; [auto|].
  rewrite str_bytes_small by lia.
  destruct (malloc_cases m (rc + 5) ans) as [->|(Ha & Hx & ->)]; [lia| |]; cbn [isnull]; [auto|].
  right. split; [auto|]. split; [auto|].
  erewrite wr_ok; [|apply find_ins_same|discriminate|lia..]. cbn [bind].
  erewrite wr_ok; [|apply find_ins_same|discriminate|unfold SHDR; lia..]. cbn [bind].
  destruct (rc <? 1024); [auto|].
  destruct ((rc2 <? 0) || (rc <? rc2)); [|auto].
  erewrite free_ok by apply find_ins_same. auto.
Qed.

Lemma str_new_good m b sz n : okm m -> b = None -> 0 <= sz <= ADDR_MAX -> 0 <= n < 2^32 -> n + 5 <= sz ->
  good m b (Ok (OStr (mk_str (PBlk (fresh m) SHDR) n), ins m sz)).
Proof.
  intros K -> Hs Hn Hf. apply good_intro; [now apply okm_ins|now apply frm_new|].
  cbn [wf s_len s_ptr]. split; [lia|]. right. apply holds_ins. unfold SHDR. lia.
Qed.

Lemma str_store_good m s sz n : okm m -> wf m (OStr s) -> 0 <= sz <= ADDR_MAX ->
  0 <= n < 2^32 -> n + 5 <= sz ->
  good m (owned (OStr s))
    (wrap OStr (str_store s (mk_str (PBlk (fresh m) SHDR) n) (ins m sz))).
Proof.
  intros K (Hl & Hp) Hs Hn Hf. unfold wrap, str_store, str_destroy.
  destruct Hp as [E|(b & x & E & F & Hx)].
  - rewrite E. cbn [isnull bind]. apply str_new_good; auto. cbn [owned]. now rewrite E.
  - rewrite E. cbn [isnull]. rewrite padd_back.
    assert (Hb : b < fresh m) by (apply K in F; lia).
    erewrite free_ok by (rewrite find_ins; [exact F|lia]). cbn [bind].
    apply good_intro; [now apply okm_del, okm_ins| |].
    + cbn [owned s_ptr block]. rewrite E. now apply frm_new_free.
    + cbn [wf s_len s_ptr]. split; [lia|]. right. exists (fresh m), sz. split; [auto|].
      split; [rewrite find_del by lia; apply find_ins_same|unfold SHDR; lia].
Qed.

Lemma ins_fit m sz ans p m1 : malloc m sz ans = (p, m1) -> p <> PNull -> sz <= ADDR_MAX.
Proof.
  unfold malloc. intros E N. destruct ans; [injection E as <- _; congruence| |];
  (destruct (Z.ltb_spec ADDR_MAX sz); [injection E as <- _; congruence|lia]).
Qed.

Lemma small_str n : n < 2^32 -> n + 5 <= ADDR_MAX.
Proof. rewrite addr_max. lia. Qed.

Lemma tmp_good m o sz : okm m -> wf m o -> (forall x, owned o = Some x -> x < fresh m) ->
  0 <= sz <= ADDR_MAX -> wf (del (ins m sz) (fresh m)) o ->
  good m (owned o) (Ok (o, del (ins m sz) (fresh m))).
Proof.
  intros K W Hx Hs W'. apply good_intro; [now apply okm_del, okm_ins| |auto].
  now apply frm_tmp.
Qed.

Lemma str_wf_frame m m' s : wf m (OStr s) ->
  (forall x i, find (live m) x = Some i -> find (live m') x = Some i) -> wf m' (OStr s).
Proof.
  intros (H1 & H2) Hf. split; [auto|]. destruct H2 as [|(b & x & E & F & Hx)]; [auto|].
  right. exists b, x. auto.
Qed.

Lemma str_owner_lt m s x : okm m -> wf m (OStr s) -> owned (OStr s) = Some x -> x < fresh m.
Proof.
  intros K (_ & [E|(b & z & E & F & _)]); cbn [owned]; rewrite E; [discriminate|].
  intro Q; injection Q as <-. apply K in F. lia.
Qed.

Lemma tmp_frame m sz x i : okm m -> find (live m) x = Some i ->
  find (live (del (ins m sz) (fresh m))) x = Some i.
Proof.
  intros K F. destruct i as [s k]. assert (x < fresh m) by (apply K in F; lia).
  rewrite find_del by lia. rewrite find_ins by lia. auto.
Qed.

Lemma str_good m s c : okm m -> wf m (OStr s) -> allowed_op m (OStr s) c ->
  good m (owned (OStr s)) (apply (OStr s) c m).
Proof.
  intros K W A. pose proof W as (Hl & Hp).
  assert (Acc : s_ptr s <> PNull ->
    wr m (s_ptr s) (- SHDR) (SHDR + s_len s + 1) = Ok tt /\
    rd m (s_ptr s) (- SHDR) (SHDR + s_len s + 1) = Ok tt /\ rd m (s_ptr s) (- SHDR) 4 = Ok tt).
  { intro N. destruct Hp as [E|(b & x & E & F & Hx)]; [congruence|]. rewrite E. unfold SHDR in *.
    split; [|split]; [eapply wr_ok; [exact F|discriminate|lia..]|eapply rd_ok; [exact F|lia..]..]. }
  destruct c; try (exfalso; exact A).
  - (* destroy *)
    cbn [apply term]. unfold wrap, str_destroy.
    destruct Hp as [E|(b & x & E & F & Hx)].
    + rewrite E. cbn [isnull bind]. apply good_same; auto.
    + rewrite E. cbn [isnull]. rewrite padd_back. erewrite free_ok by eauto. cbn [bind].
      apply good_intro; [now apply okm_del| |].
      * cbn [owned s_ptr block]. rewrite E. now apply frm_free.
      * cbn. split; [lia|auto].
  - (* set *)
    destruct A as [A1 A2]. cbn [apply]. unfold str_set.
    assert (So : src_ok m src (len + 1)).
    { destruct A2 as [->|A2]; [now left|right]. now apply readable_find. }
    destruct (str_create_ok m src len ans K A1 So) as [->|(_ & Hlt & ->)]; cbn [bind nostr s_ptr isnull].
    + unfold wrap. cbn [bind]. apply good_same; auto.
    + apply str_store_good; auto; [pose proof (small_str len Hlt)|]; lia.
  - (* set_fmt *)
    cbn [allowed_op] in A. cbn [apply]. unfold str_set_fmt.
    destruct (str_create_va_ok m rc rc2 ans K A) as [->|(_ & H0 & [-> | ->])];
      cbn [bind nostr s_ptr isnull].
    + unfold wrap. cbn [bind]. apply good_same; auto.
    + unfold wrap. cbn [bind]. apply tmp_good; auto.
      * intros x. now apply str_owner_lt.
      * pose proof (small_str rc). lia.
      * eapply str_wf_frame; [exact W|]. intros x i. now apply tmp_frame.
    + apply str_store_good; auto; [pose proof (small_str rc)|..]; lia.
  - (* append *)
    destruct A as [A1 A2]. cbn [apply]. unfold wrap, str_append.
    destruct (isnull (s_ptr s)) eqn:En.
    + assert (E : s_ptr s = PNull) by (destruct (s_ptr s); [auto|discriminate]).
      assert (So : src_ok m src (len + 1)).
      { destruct A2 as [[A2 _]|[-> _]]; [right|now left]. now apply readable_find. }
      destruct (str_create_ok m src len ans K A1 So) as [->|(_ & Hlt & ->)]; cbn [bind].
      * apply good_same'; [auto|cbn [owned]; now rewrite E|]. cbn. split; [lia|auto].
      * apply str_new_good; auto; [cbn [owned]; now rewrite E|pose proof (small_str len Hlt)|]; lia.
    + assert (N : s_ptr s <> PNull) by (intro E; rewrite E in En; discriminate).
      destruct (Acc N) as (_ & _ & ->). cbn [bind].
      destruct A2 as [[A2 A3]|[_ E]]; [|congruence].
      destruct (readable_find m src (len + 1) K A2) as (b & off & x & k & -> & F & Ho & Hx).
      erewrite rd_ok; [|exact F|lia..]. cbn [bind].
      destruct (u64 (SC_STR_MAX - s_len s) <? len); [cbn [bind]; apply good_same; auto|].
      destruct Hp as [E|(bs & xs & E & Fs & Hxs)]; [congruence|].
      pose proof (okm_lt _ _ _ _ K F) as [_ Hsz]. rewrite addr_max in Hsz.
      rewrite E, padd_back. rewrite str_bytes_small by lia.
      destruct (re_cases m (PBlk bs 0) (s_len s + len + 5) ans K) as
        [->|(b' & m' & _ & -> & K' & Fr & F' & Hz)].
      { lia. }
      { right. eauto. }
      { cbn [bind isnull]. apply good_same; auto. }
      cbn [bind isnull].
      assert (Fsrc : find (live m') b = Some (x, k)).
      { destruct Fr as (_ & Fr & _). rewrite Fr; [auto| |apply K in F; lia].
        rewrite E in A3. cbn [block] in A3 |- *. congruence. }
      erewrite rd_ok; [|exact Fsrc|lia..]. cbn [bind].
      erewrite wr_ok; [|exact F'|discriminate|unfold SHDR; lia..]. cbn [bind].
      erewrite wr_ok; [|exact F'|discriminate|lia..]. cbn [bind].
      pose proof (u32_range (s_len s + len)) as Hu.
      assert (Hle : u32 (s_len s + len) <= s_len s + len) by (apply Z.mod_le; lia).
      erewrite wr_ok; [|exact F'|discriminate|unfold SHDR; lia..]. cbn [bind].
      apply good_intro; [auto|cbn [owned]; rewrite E; exact Fr|].
      cbn [wf s_len s_ptr]. split; [lia|]. right. exists b', (s_len s + len + 5).
      split; [auto|]. split; [auto|unfold SHDR; lia].
  - (* cut *)
    destruct A as (A1 & A2 & A3). cbn [apply]. unfold str_cut.
    destruct (isnull (s_ptr s)) eqn:En.
    { unfold wrap; cbn [bind]. apply good_same; auto. }
    assert (N : s_ptr s <> PNull) by (intro E; rewrite E in En; discriminate).
    destruct (Acc N) as (_ & -> & _). cbn [bind].
    destruct (negb always && (h =? 0) && (n =? s_len s)); [unfold wrap; cbn [bind]; apply good_same; auto|].
    assert (So : src_ok m (padd (s_ptr s) h) n).
    { destruct Hp as [E|(b & x & E & F & Hx)]; [congruence|]. rewrite E. right. cbn [padd].
      exists b, (SHDR + h), x, Alloc. unfold SHDR in *. split; [auto|]. split; [auto|]. lia. }
    destruct (str_create_len_ok m _ n ans K ltac:(lia) So) as [->|(_ & ->)]; cbn [bind nostr s_ptr isnull].
    + unfold wrap. cbn [bind]. apply good_same; auto.
    + apply str_store_good; auto; [pose proof (small_str n)|..]; lia.
  - (* replace *)
    cbn [apply]. unfold str_replace.
    destruct (isnull (s_ptr s)) eqn:En.
    { unfold wrap; cbn [bind]. apply good_same; auto. }
    assert (N : s_ptr s <> PNull) by (intro E; rewrite E in En; discriminate).
    destruct (Acc N) as (-> & _ & _). cbn [bind].
    destruct n as [n|]; [|unfold wrap; cbn [bind]; apply good_same; auto].
    cbn [allowed_op] in A. rewrite str_bytes_small by lia.
    destruct (malloc_cases m (n + 5) ans) as [->|(Ha & Hx & ->)]; [lia| |]; cbn [isnull].
    { unfold wrap; cbn [bind]. apply good_same; auto. }
    erewrite wr_ok; [|apply find_ins_same|discriminate|unfold SHDR; lia..]. cbn [bind].
    rewrite (u32_small n) by lia. apply str_store_good; auto; lia.
  - cbn [apply]. unfold wrap, str_use. destruct (isnull (s_ptr s)) eqn:En.
    { cbn [bind]. apply good_same; auto. }
    assert (N : s_ptr s <> PNull) by (intro E; rewrite E in En; discriminate).
    destruct (Acc N) as (-> & _ & _). cbn [bind]. apply good_same; auto.
Qed.

(** * Timer *)

Lemma timer_max : SC_TIMER_MAX = 11184810. Proof. reflexivity. Qed.

Lemma timer_copy_ok n i t p m b s b' s' :
  t_list t = PBlk b 0 -> find (live m) b = Some (s, Alloc) -> t_wheel t * 32 * TW <= s ->
  p = PBlk b' 0 -> find (live m) b' = Some (s', Alloc) -> t_wheel t * 64 * TW <= s' ->
  0 < t_wheel t <= SC_TIMER_MAX -> 0 <= i -> i + Z.of_nat n <= 16 ->
  timer_copy n i t p m = Ok tt.
Proof.
  intros E F Hs -> F' Hs' Hw. revert i. rewrite timer_max in Hw. unfold TW in *.
  induction n as [|n IH]; intros i H0 Hn; [reflexivity|]. cbn [timer_copy].
  rewrite !(u32_small (i * t_wheel t)) by nia. rewrite (u32_small (i * t_wheel t * 2)) by nia.
  unfold TW. erewrite wr_ok; [|exact F'|discriminate|nia..]. cbn [bind].
  rewrite E. erewrite rd_ok; [|exact F|nia..]. cbn [bind]. apply IH; lia.
Qed.

Lemma timer_expand_ok m t ans : okm m -> wf m (OTimer t) ->
  timer_expand t ans m = Ok (false, t, m) \/
  exists t' m', timer_expand t ans m = Ok (true, t', m') /\ okm m' /\
    frm m (owned (OTimer t)) m' (owned (OTimer t')) /\ wf m' (OTimer t') /\
    t_wheel t < t_wheel t'.
Proof.
  intros K W. unfold timer_expand.
  destruct (Z.leb_spec (SC_TIMER_MAX / 2) (t_wheel t)) as [Hm|Hm]; [auto|].
  assert (Hm2 : t_wheel t < 5592405) by exact Hm.
  assert (Hw0 : 0 <= t_wheel t) by (destruct W as [[_ ->]|[_ W]]; lia).
  set (wh := if t_wheel t =? 0 then 4 else u32 (t_wheel t * 2)).
  assert (Hwh : t_wheel t < wh <= 11184810 /\ 0 < wh /\ (t_wheel t <> 0 -> wh = t_wheel t * 2)).
  { subst wh. destruct (Z.eqb_spec (t_wheel t) 0) as [E|E]; [lia|]. rewrite u32_small by lia. lia. }
  cbv zeta. rewrite (u32_small (wh * 16 * 2)) by lia. unfold TW.
  destruct (malloc_cases m (wh * 16 * 2 * 24) ans) as [->|(Ha & Hx & ->)]; [lia| |]; cbn [isnull]; [auto|].
  set (sz := wh * 16 * 2 * 24) in *. set (m1 := ins m sz).
  assert (Ft : find (live m1) (fresh m) = Some (sz, Alloc)) by apply find_ins_same.
  assert (K1 : okm m1) by (apply okm_ins; [auto|lia]).
  erewrite wr_ok; [|exact Ft|discriminate|lia..]. cbn [bind]. right.
  destruct W as [[E1 E2]|[(b & s & E1 & F & Hs) Hw]].
  - rewrite E2, E1. cbn [Z.eqb bind free]. eexists _, m1. split; [reflexivity|]. split; [auto|].
    cbn [owned t_list block t_wheel]. rewrite E1. split; [now apply frm_new|].
    split; [|lia]. cbn [wf t_list t_wheel]. right. rewrite timer_max. split; [|lia]. exists (fresh m), sz.
    unfold TW. split; [auto|]. split; [auto|lia].
  - assert (Hb : b < fresh m) by (apply K in F; lia).
    assert (Fm : find (live m1) b = Some (s, Alloc)) by (unfold m1; rewrite find_ins by lia; auto).
    destruct (Z.eqb_spec (t_wheel t) 0) as [E0|E0]; [lia|].
    erewrite timer_copy_ok; [|exact E1|exact Fm|exact Hs|reflexivity|exact Ft|unfold TW; lia|
      rewrite timer_max in *; lia|lia|lia].
    cbn [bind]. rewrite E1. erewrite free_ok by exact Fm. cbn [bind].
    eexists _, _. split; [reflexivity|]. split; [now apply okm_del|].
    cbn [owned t_list block t_wheel]. rewrite E1. split; [now apply frm_new_free|].
    split; [|lia]. cbn [wf t_list t_wheel]. right. rewrite timer_max. split; [|lia]. exists (fresh m), sz.
    unfold TW. split; [auto|]. split; [rewrite find_del by lia; auto|lia].
Qed.

Lemma timer_good m t c : okm m -> wf m (OTimer t) -> allowed_op m (OTimer t) c ->
  good m (owned (OTimer t)) (apply (OTimer t) c m).
Proof.
  intros K W A.
  assert (Acc : forall i n, 0 <= i -> 0 <= n -> i + n <= t_wheel t * 16 ->
    wr m (t_list t) (i * TW) (n * TW) = Ok tt /\ rd m (t_list t) (i * TW) (n * TW) = Ok tt).
  { intros i n H1 H2 H3. unfold TW. destruct W as [[E1 E2]|[(b & s & E1 & F & Hs) Hw]].
    - replace n with 0 by lia. auto.
    - rewrite E1. unfold TW in Hs.
      split; [eapply wr_ok; [exact F|discriminate|lia..]|eapply rd_ok; [exact F|lia..]]. }
  assert (Hw : 0 <= t_wheel t <= SC_TIMER_MAX).
  { destruct W as [[_ ->]|[_ W']]; [rewrite timer_max|]; lia. }
  pose proof Hw as Hw'. rewrite timer_max in Hw'.
  assert (Acc1 : forall i, 0 <= i -> i + 1 <= t_wheel t * 16 -> wr m (t_list t) (i * TW) TW = Ok tt).
  { intros i H1 H2. destruct (Acc i 1) as [E _]; [lia..|]. rewrite Z.mul_1_l in E. exact E. }
  destruct c; try (exfalso; exact A).
  - cbn [apply term]. unfold wrap, timer_term.
    destruct W as [[E1 E2]|[(b & s & E1 & F & Hs) Hw1]].
    + rewrite E1. cbn [free bind]. apply good_same'; [auto|cbn; now rewrite E1|]. left. auto.
    + rewrite E1. erewrite free_ok by eauto. cbn [bind].
      apply good_intro; [now apply okm_del| |].
      * cbn [owned t_list block]. rewrite E1. now apply frm_free.
      * left. auto.
  - cbn [apply]. unfold wrap, timer_add.
    assert (Hpos : 0 <= pos < 16) by (destruct room; cbn [allowed_op] in A; tauto).
    rewrite !(u32_small (pos * t_wheel t)) by nia.
    destruct room as [seq|].
    + cbn [allowed_op] in A. destruct A as [_ A].
      destruct (Acc (pos * t_wheel t) (seq + 1)) as [_ ->]; [nia..|]. cbn [bind].
      rewrite u32_small by nia. rewrite Acc1 by nia. cbn [bind]. apply good_same; auto.
    + destruct (Acc (pos * t_wheel t) (t_wheel t)) as [_ ->]; [nia..|]. cbn [bind].
      destruct (timer_expand_ok m t ans K W) as [->|(t' & m' & -> & K' & Fr & W' & Hlt)];
        cbn [bind negb]; [apply good_same; auto|].
      destruct W' as [[E1 E2]|[(b & s & E1 & F & Hs) Hw1]]; [lia|].
      rewrite timer_max in Hw1. unfold TW in *.
      rewrite (u32_small (pos * t_wheel t')) by nia. rewrite u32_small by nia.
      rewrite E1. erewrite wr_ok; [|exact F|discriminate|nia..]. cbn [bind].
      apply good_intro; [auto|exact Fr|]. right. rewrite timer_max. split; [|lia].
      exists b, s. unfold TW. auto.
  - destruct A as (A1 & A2 & A3). cbn [apply]. unfold wrap, timer_cancel.
    rewrite Z.shiftr_div_pow2 by lia. change (u32 id) with (id mod 2^32).
    pose proof (Z.mod_pos_bound id (2^32) ltac:(lia)) as Hb.
    assert (0 <= id / 2^32) by (apply Z.div_pos; lia).
    rewrite (u32_small (id mod 2^32 * t_wheel t)) by nia.
    rewrite (u64_small (id mod 2 ^ 32 * t_wheel t + id / 2 ^ 32)) by nia.
    cbv zeta. rewrite Acc1 by nia. cbn [bind]. apply good_same; auto.
  - destruct A as (A1 & A2). cbn [apply]. unfold wrap, timer_visit.
    rewrite (u32_small (t_wheel t * head)) by nia. rewrite u32_small by nia.
    rewrite Acc1 by nia. cbn [bind]. apply good_same; auto.
  - cbn [apply]. unfold wrap, timer_clear. rewrite u32_small by lia.
    destruct (Acc 0 (t_wheel t * 16)) as [E _]; [lia..|]. rewrite Z.mul_0_l in E. rewrite E.
    cbn [bind]. apply good_same; auto.
Qed.

(** * A call on any variable *)

Lemma apply_good m o c : okm m -> wf m o -> allowed_op m o c -> good m (owned o) (apply o c m).
Proof.
  intros K W A. destruct o.
  - destruct c; try (exfalso; exact A). cbn [apply term]. apply good_same; auto.
  - now apply arr_good.
  - now apply heap_good.
  - now apply queue_good.
  - now apply map_good.
  - now apply buf_good.
  - now apply str_good.
  - now apply timer_good.
  - destruct c; try (exfalso; exact A). cbn [apply term]. unfold uri_destroy.
    destruct W as [->|(b & s & -> & F & Hs)].
    + cbn [free bind]. apply good_same'; [auto|reflexivity|exact I].
    + erewrite free_ok by eauto. cbn [bind]. apply good_intro; [now apply okm_del| |exact I].
      cbn [owned block]. now apply frm_free.
Qed.

(** * Setting up a variable *)

Lemma create_good m c : okm m -> allowed_new m c -> good m None (create c m).
Proof.
  intros K A. pose proof (proj1 K) as ND. destruct c; cbn [allowed_new] in A; cbn [create].
  - apply good_same'; [auto|reflexivity|]. cbn. split; [lia|]. split; [lia|]. split; [lia|auto].
  - unfold wrap, heap_init. assert (W0 : wf m (OHeap (mk_heap 0 0 PNull false))).
    { cbn. split; [lia|]. auto. }
    destruct (Z.eqb_spec c 0); [cbn [bind]; apply good_same'; auto|].
    destruct (Z.ltb_spec SC_HEAP_MAX c) as [Hm|Hm]; [cbn [bind]; apply good_same'; auto|].
    assert (Hc : c * HW < 2^64).
    { unfold HW. assert (c <= 1152921504606846975) by exact Hm. lia. }
    rewrite u64_small by (unfold HW in *; lia). cbv zeta.
    destruct (malloc_cases m (c * HW) ans) as [->|(_ & Hx & ->)]; [unfold HW; lia| |]; cbn [isnull bind].
    { apply good_same'; auto. }
    apply good_intro; [apply okm_ins; [auto|unfold HW in *; lia]|now apply frm_new|].
    cbn [wf h_size h_cap h_elems h_bad]. split; [lia|]. split; [lia|]. right. split; [|lia].
    apply holds_ins. lia.
  - unfold wrap, q_init. rewrite u64_small by lia.
    destruct (malloc_cases m (w * 8) ans) as [->|(_ & Hx & ->)]; [lia| |]; cbn [isnull bind].
    { apply good_same'; auto. cbn. split; [lia|]. split; [lia|]. auto. }
    apply good_intro; [apply okm_ins; [auto|lia]|now apply frm_new|].
    cbn [wf q_w q_elems q_cap q_first q_last]. split; [lia|]. split; [lia|]. right.
    split; [apply holds_ins; lia|lia].
  - destruct A as (A1 & A2 & x & -> & Hi). apply (in_find _ _ _ ND) in Hi.
    unfold map_init. set (f := if lf =? 0 then 75 else lf). clearbody f.
    destruct ((95 <? f) || (f <? 25)); [cbn [bind]; apply good_same'; [auto|reflexivity|exact I]|].
    destruct (Z.eqb_spec c 0) as [E|E].
    + cbn [bind]. apply good_same'; [auto|cbn [owned p_mem p_empty]; now rewrite peq_refl|].
      cbn [wf p_w p_empty p_mem p_cap p_size p_used p_remap]. split; [auto|].
      split; [eauto|]. split; [exists 0; split; [lia|reflexivity]|]. left. auto.
    + destruct (map_alloc_cases m w c 1 ans K A1) as [[v ->]|(k & Hk & _ & Hx & ->)]; [left; lia| |];
        cbn [isnull bind].
      { apply good_same'; [auto|reflexivity|exact I]. }
      assert (He : x < fresh m) by (apply K in Hi; lia).
      pose proof (pow_pos k ltac:(lia)).
      apply good_intro; [apply okm_ins; [auto|nia]| |].
      * cbn [owned p_mem p_empty]. rewrite peq_diff by lia. cbn [block]. now apply frm_new.
      * cbn [wf p_w p_empty p_mem p_cap p_size p_used p_remap]. split; [auto|].
        split; [exists x; split; [auto|]; rewrite find_ins by lia; auto|].
        split; [exists k; split; [lia|auto]|]. right. apply holds_ins. nia.
  - unfold wrap, buf_init. destruct (Z.ltb_spec 0 c) as [Hc|Hc].
    + destruct (malloc_cases m c ans) as [->|(_ & Hx & ->)]; [lia| |]; cbn [isnull bind].
      { apply good_same'; auto. cbn. rewrite addr_max. split; [lia|]. split; [lia|]. split; [lia|auto]. }
      apply good_intro; [apply okm_ins; [auto|lia]|now apply frm_new|].
      cbn [buf_wrap wf b_r b_pos b_cap b_ref b_mem]. split; [lia|]. split; [lia|]. split; [lia|].
      right. split; [|lia]. apply holds_ins. lia.
    + cbn [bind]. apply good_same'; auto. cbn. rewrite addr_max.
      split; [lia|]. split; [lia|]. split; [lia|]. left. split; [auto|lia].
  - destruct A as (A1 & b & off & s & -> & Hi & Ho & Hs). apply (in_find _ _ _ ND) in Hi.
    pose proof (okm_lt _ _ _ _ K Hi) as [_ Hz].
    apply good_same'; auto. cbn [buf_wrap wf b_r b_pos b_cap b_ref b_mem].
    split; [destruct data; lia|]. split; [destruct data; lia|]. split; [lia|].
    exists b, off, s. auto.
  - destruct (malloc_cases m len ans) as [->|(_ & Hx & ->)]; [lia| |]; cbn [isnull].
    { apply good_same'; [auto|reflexivity|exact I]. }
    apply good_intro; [apply okm_ins; [auto|lia]|now apply frm_new|].
    cbn [buf_wrap wf b_r b_pos b_cap b_ref b_mem].
    split; [destruct data; lia|]. split; [destruct data; lia|]. split; [lia|].
    right. split; [|lia]. apply holds_ins. lia.
  - destruct A as [A1 A2].
    assert (So : src_ok m src (len + 1)).
    { destruct A2 as [->|A2]; [now left|right]. now apply readable_find. }
    unfold wrap. destruct (str_create_ok m src len ans K A1 So) as [->|(_ & Hlt & ->)]; cbn [bind].
    + apply good_same'; auto. cbn. split; [lia|auto].
    + apply str_new_good; auto; [pose proof (small_str len Hlt)|]; lia.
  - destruct A as [A1 A2].
    assert (So : src_ok m src len).
    { destruct A2 as [->|A2]; [now left|right]. now apply readable_find. }
    unfold wrap. destruct (str_create_len_ok m src len ans K A1 So) as [->|(_ & ->)]; cbn [bind].
    + apply good_same'; auto. cbn. split; [lia|auto].
    + apply str_new_good; auto; [pose proof (small_str len)|]; lia.
  - unfold wrap. destruct (str_create_va_ok m rc rc2 ans K A) as [->|(_ & H0 & [-> | ->])]; cbn [bind].
    + apply good_same'; auto. cbn. split; [lia|auto].
    + change None with (owned (OStr nostr)). apply tmp_good; auto.
      * cbn. split; [lia|auto].
      * discriminate.
      * pose proof (small_str rc). lia.
      * cbn. split; [lia|auto].
    + apply str_new_good; auto; [pose proof (small_str rc)|..]; lia.
  - apply good_same'; auto. left. auto.
  - unfold wrap, uri_create, UHDR. rewrite u64_small by lia.
    destruct (malloc_cases m (64 + parts + full) ans) as [->|(_ & Hx & ->)]; [lia| |]; cbn [isnull].
    { cbn [bind]. apply good_same'; auto. left. auto. }
    assert (Tmp : good m None (Ok (OUri PNull, del (ins m (64 + parts + full)) (fresh m)))).
    { change None with (owned (OUri PNull)). apply tmp_good; auto.
      - left. auto.
      - discriminate.
      - lia.
      - left. auto. }
    erewrite wr_ok; [|apply find_ins_same|discriminate|lia..]. cbn [bind].
    destruct ok1; cbn [negb].
    2:{ erewrite free_ok by apply find_ins_same. cbn [bind]. exact Tmp. }
    erewrite wr_ok; [|apply find_ins_same|discriminate|lia..]. cbn [bind].
    destruct ok2; cbn [negb].
    2:{ erewrite free_ok by apply find_ins_same. cbn [bind]. exact Tmp. }
    erewrite wr_ok; [|apply find_ins_same|discriminate|lia..]. cbn [bind].
    apply good_intro; [apply okm_ins; [auto|lia]|now apply frm_new|].
    right. apply holds_ins. lia.
Qed.

(** * Programs *)

Lemma wf_frame m m' o :
  wf m o ->
  (forall x s k, find (live m) x = Some (s, k) ->
     k <> Alloc \/ owned o = Some x -> find (live m') x = Some (s, k)) ->
  wf m' o.
Proof.
  intros W Hf.
  assert (H0 : forall p off n, (forall b, block p = Some b -> owned o = Some b) ->
                 holds m p off n -> holds m' p off n).
  { intros p off n Ho (b & s & -> & F & Hs). exists b, s. split; [auto|]. split; [|auto].
    apply Hf; [auto|]. right. now apply Ho. }
  destruct o; cbn [wf] in *.
  - exact I.
  - destruct W as (W1 & W2 & W3 & W4). split; [auto|]. split; [auto|]. split; [auto|].
    destruct W4 as [|[W4 W5]]; [auto|right; split; [|auto]]. apply H0; auto.
  - destruct W as (W1 & W2 & W4). split; [auto|]. split; [auto|].
    destruct W4 as [|[W4 W5]]; [auto|right; split; [|auto]]. apply H0; auto.
  - destruct W as (W1 & W2 & W4). split; [auto|]. split; [auto|].
    destruct W4 as [|[W4 W5]]; [auto|right; split; [|auto]]. apply H0; auto.
  - destruct W as (W1 & (e & E1 & E2) & W3 & W4). split; [auto|].
    split; [exists e; split; [auto|]; apply Hf; [auto|left; discriminate]|]. split; [auto|].
    destruct W4 as [|W4]; [auto|right]. apply H0; [|auto]. intros b Eb.
    destruct W4 as (b' & s & Ep & F & _). cbn [owned]. rewrite E1, Ep. rewrite Ep in Eb.
    injection Eb as ->. rewrite peq_diff; [auto|]. intros ->. congruence.
  - destruct W as (W1 & W2 & W3 & W4). split; [auto|]. split; [auto|]. split; [auto|].
    cbn [owned] in *. destruct (b_ref b).
    + destruct W4 as (x & off & s & E & F & Hs). exists x, off, s. split; [auto|].
      split; [|auto]. apply Hf; [auto|left; discriminate].
    + destruct W4 as [|[W4 W5]]; [auto|right; split; [|auto]]. apply H0; auto.
  - destruct W as (W1 & W4). split; [auto|].
    destruct W4 as [|W4]; [auto|right]. apply H0; auto.
  - destruct W as [|[W4 W5]]; [auto|right; split; [|auto]]. apply H0; auto.
  - destruct W as [|W4]; [auto|right]. apply H0; auto.
Qed.

Lemma owned_live m o x : wf m o -> owned o = Some x -> exists s, find (live m) x = Some (s, Alloc).
Proof.
  assert (H0 : forall p off n, holds m p off n -> block p = Some x ->
                 exists s, find (live m) x = Some (s, Alloc)).
  { intros p off n (b & s & -> & F & _) E. injection E as ->. eauto. }
  intros W E. destruct o; cbn [wf owned] in *; try discriminate.
  - destruct W as (_ & _ & _ & [[N _]|[W _]]); [rewrite N in E; discriminate|eauto].
  - destruct W as (_ & _ & [[N _]|[W _]]); [rewrite N in E; discriminate|eauto].
  - destruct W as (_ & _ & [N|[W _]]); [rewrite N in E; discriminate|eauto].
  - destruct W as (_ & _ & _ & [(N & _)|W]); [rewrite N, peq_refl in E; discriminate|].
    destruct (peq (p_mem p) (p_empty p)); [discriminate|eauto].
  - destruct W as (_ & _ & _ & W). destruct (b_ref b); [discriminate|].
    destruct W as [[N _]|[W _]]; [rewrite N in E; discriminate|eauto].
  - destruct W as (_ & [N|W]); [rewrite N in E; discriminate|eauto].
  - destruct W as [[N _]|[W _]]; [rewrite N in E; discriminate|eauto].
  - destruct W as [N|W]; [rewrite N in E; discriminate|eauto].
Qed.

Record inv (m0 : mem) (w : world) : Prop := mk_inv {
  i_ok : okm (store w);
  i_wf : forall i o, nth_error (vars w) i = Some o -> wf (store w) o;
  i_one : forall i j o o' x, nth_error (vars w) i = Some o -> nth_error (vars w) j = Some o' ->
            owned o = Some x -> owned o' = Some x -> i = j;
  i_all : forall x s, find (live (store w)) x = Some (s, Alloc) ->
            exists i o, nth_error (vars w) i = Some o /\ owned o = Some x;
  i_user : forall x s k, find (live m0) x = Some (s, k) ->
            k <> Alloc /\ find (live (store w)) x = Some (s, k) }.

Lemma start_okm m : start m -> okm m.
Proof.
  intros [H1 H2]. split; [auto|]. intros b s k F. apply find_in, H2 in F. tauto.
Qed.

Lemma inv_start m0 : start m0 -> inv m0 (mk_world [] m0).
Proof.
  intro S. constructor; cbn.
  - now apply start_okm.
  - intros [|i]; discriminate.
  - intros [|i]; discriminate.
  - intros x s F. apply find_in, S in F. destruct F as (_ & F & _). congruence.
  - intros x s k F. split; [|auto]. apply find_in, S in F. tauto.
Qed.

Lemma frm_user m b m' b' x s k : okm m -> (forall z, b = Some z -> exists t, find (live m) z = Some (t, Alloc)) ->
  frm m b m' b' -> k <> Alloc -> find (live m) x = Some (s, k) -> find (live m') x = Some (s, k).
Proof.
  intros K Hb (_ & Fr & _) Hk F. rewrite Fr; [auto| |apply K in F; lia].
  intro E. apply Hb in E as [t E]. congruence.
Qed.

Lemma nth_lset_inv {A} (l : list A) i o j x : nth_error (lset l i o) j = Some x ->
  (j = i /\ x = o) \/ (j <> i /\ nth_error l j = Some x).
Proof.
  revert i j. induction l as [|y l IH]; intros [|i] [|j]; cbn; try discriminate; auto.
  - intro E; injection E as ->; auto.
  - intro H. apply IH in H as [[-> ->]|[N H]]; auto.
Qed.

Lemma nth_lset_same {A} (l : list A) i (o o' : A) : nth_error l i = Some o -> nth_error (lset l i o') i = Some o'.
Proof. intro H. apply nth_error_lset_eq. apply nth_error_Some. congruence. Qed.

Lemma nth_snoc {A} (l : list A) o j x : nth_error (l ++ [o]) j = Some x ->
  (j = length l /\ x = o) \/ nth_error l j = Some x.
Proof.
  intro H. destruct (Nat.lt_ge_cases j (length l)) as [Hl|Hl].
  - rewrite nth_error_app1 in H by auto. auto.
  - rewrite nth_error_app2 in H by auto. destruct (j - length l)%nat as [|n] eqn:E.
    + injection H as ->. left. split; [lia|auto].
    + destruct n; discriminate.
Qed.

Lemma inv_update m0 w i o o' m' : inv m0 w -> nth_error (vars w) i = Some o ->
  okm m' -> frm (store w) (owned o) m' (owned o') -> wf m' o' ->
  inv m0 (mk_world (lset (vars w) i o') m').
Proof.
  intros I Hi K' Fr W'. pose proof Fr as (F1 & F2 & F3 & F4). destruct I as [K Wf One All User].
  assert (Hb : forall z, owned o = Some z -> exists t, find (live (store w)) z = Some (t, Alloc)).
  { intros z. apply owned_live. eapply Wf; eauto. }
  constructor; cbn.
  - auto.
  - intros j x Hj. apply nth_lset_inv in Hj as [[-> ->]|[N Hj]]; [auto|].
    apply (wf_frame (store w)); [eapply Wf; eauto|].
    intros z s k F [Hk|Ho]; (rewrite F2; [auto| |apply K in F; lia]).
    + intro E. apply Hb in E as [t E]. congruence.
    + intro E. apply N. eapply One; eauto.
  - assert (Other : forall j x z, j <> i -> nth_error (vars w) j = Some x -> owned x = Some z ->
              owned o' = Some z -> False).
    { intros j x z N Hj Ex Eo. destruct (F3 z Eo) as [E|E].
      - apply N. eapply One; eauto.
      - destruct (owned_live (store w) x z) as [t Ft]; [eapply Wf; eauto|auto|].
        apply K in Ft. lia. }
    intros j j' x x' z Hj Hj' E E'.
    apply nth_lset_inv in Hj as [[-> ->]|[N Hj]]; apply nth_lset_inv in Hj' as [[-> ->]|[N' Hj']].
    + auto.
    + exfalso. eapply Other; eauto.
    + exfalso. eapply Other; eauto.
    + eapply One; eauto.
  - intros x s F. destruct (F4 x s F) as [E|[N Hl]].
    + exists i, o'. split; [eapply nth_lset_same; eauto|auto].
    + rewrite F2 in F by auto. destruct (All x s F) as (j & oj & Hj & Ej).
      exists j, oj. split; [|auto]. rewrite nth_error_lset_neq; [auto|]. intros ->. congruence.
  - intros x s k F. destruct (User x s k F) as [Hk F']. split; [auto|].
    apply (frm_user (store w) (owned o) m' (owned o')); auto.
Qed.

Lemma inv_append m0 w o' m' : inv m0 w ->
  okm m' -> frm (store w) None m' (owned o') -> wf m' o' ->
  inv m0 (mk_world (vars w ++ [o']) m').
Proof.
  intros I K' Fr W'. pose proof Fr as (F1 & F2 & F3 & F4). destruct I as [K Wf One All User].
  constructor; cbn.
  - auto.
  - intros j x Hj. apply nth_snoc in Hj as [[-> ->]|Hj]; [auto|].
    apply (wf_frame (store w)); [eapply Wf; eauto|].
    intros z s k F _. rewrite F2; [auto|discriminate|apply K in F; lia].
  - assert (Other : forall j x z, nth_error (vars w) j = Some x -> owned x = Some z ->
              owned o' = Some z -> False).
    { intros j x z Hj Ex Eo. destruct (F3 z Eo) as [E|E]; [discriminate|].
      destruct (owned_live (store w) x z) as [t Ft]; [eapply Wf; eauto|auto|].
      apply K in Ft. lia. }
    intros j j' x x' z Hj Hj' E E'.
    apply nth_snoc in Hj as [[-> ->]|Hj]; apply nth_snoc in Hj' as [[-> ->]|Hj'].
    + auto.
    + exfalso. eapply Other; eauto.
    + exfalso. eapply Other; eauto.
    + eapply One; eauto.
  - intros x s F. destruct (F4 x s F) as [E|[N Hl]].
    + exists (length (vars w)), o'. split; [|auto]. rewrite nth_error_app2, Nat.sub_diag by lia. auto.
    + rewrite F2 in F by auto. destruct (All x s F) as (j & oj & Hj & Ej).
      exists j, oj. split; [|auto]. rewrite nth_error_app1; [auto|]. apply nth_error_Some. congruence.
  - intros x s k F. destruct (User x s k F) as [Hk F']. split; [auto|].
    apply (frm_user (store w) None m' (owned o')); auto. discriminate.
Qed.

Lemma step_inv m0 w c : inv m0 w -> allowed w c -> exists w', step w c = Ok w' /\ inv m0 w'.
Proof.
  intros I A. destruct c as [c|i c]; cbn [allowed step] in *.
  - destruct (create_good (store w) c (i_ok _ _ I) A) as (o & m & -> & K & Fr & W). cbn [bind].
    eexists. split; [reflexivity|]. now apply inv_append.
  - destruct A as (o & Hi & A). rewrite Hi.
    destruct (apply_good (store w) o c (i_ok _ _ I) (i_wf _ _ I _ _ Hi) A) as (o' & m & -> & K & Fr & W).
    cbn [bind]. eexists. split; [reflexivity|]. eapply inv_update; eauto.
Qed.

Lemma reached_inv m0 w : start m0 -> reached m0 w -> inv m0 w.
Proof.
  intros S R. induction R as [|w c w' R IH A E]; [now apply inv_start|].
  destruct (step_inv m0 w c IH A) as (w2 & E2 & I). congruence.
Qed.

(** ** Lists of blocks *)

Lemma in_unreleased l x : In x (unreleased l) <-> exists s, In (x, (s, Alloc)) l.
Proof.
  induction l as [|[b [s k]] l IH]; cbn; [split; [easy|intros [s []]]|].
  destruct k; cbn; rewrite IH.
  - split.
    + intros [->|[t H]]; eauto.
    + intros (t & [E|H]); [injection E as -> _; auto|right; eauto].
  - split; [intros [t H]; eauto|]. intros (t & [E|H]); [discriminate|eauto].
  - split; [intros [t H]; eauto|]. intros (t & [E|H]); [discriminate|eauto].
Qed.

Lemma nodup_unreleased l : NoDup (map fst l) -> NoDup (unreleased l).
Proof.
  induction l as [|[b [s k]] l IH]; cbn; [constructor|]. inversion 1; subst.
  destruct k; auto. constructor; auto. rewrite in_unreleased. intros [t Ht].
  apply H2. change b with (fst (b, (t, Alloc))). now apply in_map.
Qed.

Lemma in_owned l x : In x (owned_all l) <-> exists i o, nth_error l i = Some o /\ owned o = Some x.
Proof.
  induction l as [|o l IH]; cbn.
  - split; [easy|intros ([|i] & o & H & _); discriminate].
  - assert (E : (exists i o', nth_error (o :: l) i = Some o' /\ owned o' = Some x) <->
                owned o = Some x \/ In x (owned_all l)).
    { rewrite IH. split.
      - intros ([|i] & o' & H & Ho); cbn in H; [injection H as ->; auto|right; eauto].
      - intros [H|(i & o' & H & Ho)]; [exists 0%nat, o; auto|exists (S i), o'; auto]. }
    rewrite E. destruct (owned o) as [b|] eqn:Eo; cbn.
    + split; (intros [H|H]; [left; congruence|auto]).
    + split; [auto|]. intros [H|H]; [discriminate|auto].
Qed.

Lemma nodup_owned l :
  (forall i j o o' x, nth_error l i = Some o -> nth_error l j = Some o' ->
     owned o = Some x -> owned o' = Some x -> i = j) -> NoDup (owned_all l).
Proof.
  induction l as [|o l IH]; cbn; intro H; [constructor|].
  assert (N : NoDup (owned_all l)).
  { apply IH. intros i j a b x Hi Hj Ea Eb.
    assert (S i = S j) by (eapply (H (S i) (S j)); cbn; eauto). lia. }
  destruct (owned o) as [b|] eqn:Eo; [|auto]. constructor; [|auto].
  rewrite in_owned. intros (i & o' & Hi & Eo').
  assert (0%nat = S i) by (eapply (H 0%nat (S i)); cbn; eauto). discriminate.
Qed.

Lemma inv_blocks m0 w : inv m0 w ->
  NoDup (owned_all (vars w)) /\ Permutation (unreleased (live (store w))) (owned_all (vars w)).
Proof.
  intros [K Wf One All User]. assert (N := nodup_owned _ One). split; [auto|].
  apply NoDup_Permutation; [apply nodup_unreleased, K|auto|].
  intro x. rewrite in_unreleased, in_owned. split.
  - intros [s Hi]. apply (All x s). apply in_find; [apply K|auto].
  - intros (i & o & Hi & Ho). destruct (owned_live (store w) o x) as [s F]; [eapply Wf; eauto|auto|].
    exists s. now apply find_in.
Qed.

(** ** Terminating *)

Lemma term_owns o m o' m' : wf m o -> term o m = Ok (o', m') -> owned o' = None.
Proof.
  intros W H. destruct o; cbn [term] in H; unfold wrap in H.
  - now injection H as <- _.
  - unfold arr_term in H. destruct (free m (a_elems a)); cbn [bind] in H; try discriminate.
    now injection H as <- _.
  - unfold heap_term in H. destruct (free m (h_elems h)); cbn [bind] in H; try discriminate.
    now injection H as <- _.
  - unfold q_term in H. destruct (free m (q_elems q)); cbn [bind] in H; try discriminate.
    now injection H as <- _.
  - unfold map_term in H. destruct (peq (p_mem p) (p_empty p)) eqn:E; cbn [bind] in H.
    + injection H as <- _. cbn [owned]. now rewrite E.
    + destruct (free m (padd (p_mem p) (- p_w p))); cbn [bind] in H; try discriminate.
      injection H as <- _. cbn. now rewrite peq_refl.
  - unfold buf_term in H. destruct (b_ref b); cbn [bind] in H; [now injection H as <- _|].
    destruct (free m (b_mem b)); cbn [bind] in H; try discriminate. now injection H as <- _.
  - unfold str_destroy in H. destruct (isnull (s_ptr s)) eqn:E; cbn [bind] in H.
    + injection H as <- _. cbn [owned]. destruct (s_ptr s); [auto|discriminate].
    + destruct (free m (padd (s_ptr s) (- SHDR))); cbn [bind] in H; try discriminate.
      now injection H as <- _.
  - unfold timer_term in H. destruct (free m (t_list t)); cbn [bind] in H; try discriminate.
    now injection H as <- _.
  - destruct (uri_destroy u m); cbn [bind] in H; try discriminate. now injection H as <- _.
Qed.

Lemma apply_term o m : apply o Term m = term o m.
Proof. destruct o; reflexivity. Qed.

Lemma allowed_term m o : allowed_op m o Term.
Proof. destruct o; exact I. Qed.

Lemma term_all_ok m0 n w : inv m0 w -> (n <= length (vars w))%nat ->
  exists w', term_all n w = Ok w' /\ inv m0 w' /\ length (vars w') = length (vars w) /\
    forall i o, (i < n)%nat -> nth_error (vars w') i = Some o -> owned o = None.
Proof.
  intros I. induction n as [|n IH]; intro Hn.
  - exists w. split; [auto|]. split; [auto|]. split; [auto|]. lia.
  - destruct IH as (w1 & E1 & I1 & L1 & N1); [lia|]. cbn [term_all]. rewrite E1. cbn [bind step].
    destruct (nth_error (vars w1) n) as [o|] eqn:Hi.
    2:{ apply nth_error_None in Hi. lia. }
    pose proof (i_wf _ _ I1 _ _ Hi) as W.
    destruct (apply_good (store w1) o Term (i_ok _ _ I1) W (allowed_term _ _)) as (o' & m & E & K & Fr & W').
    rewrite E. cbn [bind]. eexists. split; [reflexivity|]. split; [eapply inv_update; eauto|].
    cbn [vars]. split; [rewrite lset_length; auto|].
    intros i x Hlt Hx. apply nth_lset_inv in Hx as [[-> ->]|[N Hx]].
    + rewrite apply_term in E. eapply term_owns; [exact W|exact E].
    + apply (N1 i); [lia|auto].
Qed.

Lemma term_again o m : wf m o -> owned o = None -> exists o', term o m = Ok (o', m).
Proof.
  intros W E. destruct o; cbn [term wf owned] in *; unfold wrap.
  - eauto.
  - unfold arr_term. destruct (a_elems a); [cbn; eauto|discriminate].
  - unfold heap_term. destruct (h_elems h); [cbn; eauto|discriminate].
  - unfold q_term. destruct (q_elems q); [cbn; eauto|discriminate].
  - unfold map_term. destruct W as (_ & _ & _ & [(N & _)|(b & s & N & F & _)]).
    + rewrite N, peq_refl. cbn. eauto.
    + destruct (peq (p_mem p) (p_empty p)); [cbn; eauto|]. rewrite N in E. discriminate.
  - unfold buf_term. destruct (b_ref b); [cbn; eauto|]. destruct (b_mem b); [cbn; eauto|discriminate].
  - unfold str_destroy. destruct (s_ptr s); [cbn; eauto|discriminate].
  - unfold timer_term. destruct (t_list t); [cbn; eauto|discriminate].
  - destruct u; [cbn; eauto|discriminate].
Qed.

(** ** Refused allocations *)

Lemma realloc_fail m p sz q m' : realloc m p sz Fail = Ok (q, m') -> q = PNull /\ m' = m.
Proof.
  unfold realloc. destruct p as [|b off]; [cbn; intro H; injection H; auto|].
  destruct (find (live m) b) as [[s [| |]]|]; try discriminate.
  destruct (negb (off =? 0) || (sz <=? 0)); [discriminate|].
  destruct (ADDR_MAX <? sz); intro H; injection H; auto.
Qed.

Ltac ok H :=
  match type of H with
  | bind ?r _ = Ok _ =>
      let E := fresh "E" in destruct r eqn:E; cbn [bind] in H; try discriminate H
  | (if ?c then _ else _) = Ok _ => let E := fresh "C" in destruct c eqn:E
  | Ok _ = Ok _ => injection H; clear H; intros; subst
  | (let (_, _) := ?p in _) = Ok _ => destruct p
  | (match ?p with _ => _ end) = Ok _ => destruct p eqn:?
  end.

Lemma buf_reserve_fail b len m ok b' m' : buf_reserve b len Fail m = Ok (ok, b', m') ->
  m' = m /\ owned (OBuf b') = owned (OBuf b).
Proof.
  unfold buf_reserve. intro H.
  destruct (b_cap b <? u64 (b_pos b + len)); [|injection H as <- <- <-; auto].
  destruct (b_ref b) eqn:Er; [injection H as <- <- <-; cbn; rewrite Er; auto|].
  destruct ((_ <? _) || (_ <=? _)); [injection H as <- <- <-; cbn; rewrite Er; auto|].
  destruct (realloc m (b_mem b) _ Fail) as [[q m1]| |] eqn:E; cbn [bind] in H; try discriminate.
  apply realloc_fail in E as [-> ->]. cbn [isnull] in H. injection H as <- <- <-; cbn; rewrite Er; auto.
Qed.

Lemma buf_compact_keep b m b' m' : buf_compact b m = Ok (b', m') ->
  m' = m /\ b_ref b' = b_ref b /\ b_mem b' = b_mem b.
Proof.
  unfold buf_compact. intro H. destruct (b_r b =? b_pos b); cbn [negb Z.eqb] in H.
  - injection H as <- <-. auto.
  - destruct (negb (b_r b =? 0)).
    + repeat ok H. auto.
    + injection H as <- <-. auto.
Qed.

Lemma str_create_len_fail src len m s m' : str_create_len src len Fail m = Ok (s, m') ->
  s_ptr s = PNull /\ m' = m.
Proof.
  unfold str_create_len. destruct (isnull src); cbn [malloc isnull];
    intro H; injection H as <- <-; auto.
Qed.

Lemma str_create_fail src len m s m' : str_create src len Fail m = Ok (s, m') -> s_ptr s = PNull /\ m' = m.
Proof.
  unfold str_create. intro H. destruct (isnull src); [injection H as <- <-; auto|].
  ok H. destruct (SC_STR_MAX <? len); [injection H as <- <-; auto|].
  eapply str_create_len_fail; eauto.
Qed.

Lemma str_create_va_fail rc rc2 m s m' : str_create_va rc rc2 Fail m = Ok (s, m') -> s_ptr s = PNull /\ m' = m.
Proof.
  unfold str_create_va. destruct (rc <? 0); cbn [malloc isnull];
    intro H; injection H as <- <-; auto.
Qed.

Lemma q_expand_fail q m q' m' : q_expand q Fail m = Ok (q', m') -> m' = m /\ q_elems q' = q_elems q.
Proof.
  unfold q_expand. cbn [malloc isnull]. intro H. repeat ok H; auto.
Qed.

Lemma map_remap_fail p m r m' : map_remap p Fail m = Ok (r, m') -> m' = m /\ (r = None \/ r = Some p).
Proof.
  unfold map_remap, map_alloc. cbn [malloc padd]. intro H.
  destruct (p_size p <? p_remap p); [ok H; auto|].
  destruct (SC_MAP_MAX / 2 <? p_cap p); cbn [isnull] in H; ok H; auto.
Qed.

Lemma timer_expand_fail t m ok t' m' : timer_expand t Fail m = Ok (ok, t', m') -> m' = m /\ t' = t.
Proof.
  unfold timer_expand. cbn [malloc isnull]. intro H. repeat ok H; auto.
Qed.

Lemma wrap_inv {A} (f : A -> obj) r o m : wrap f r = Ok (o, m) -> exists a, r = Ok (a, m) /\ o = f a.
Proof.
  unfold wrap. destruct r as [[a m1]| |]; cbn [bind]; try discriminate.
  intro H. injection H as <- <-. eauto.
Qed.

Lemma refused_keeps o c m o' m' : refused c -> apply o c m = Ok (o', m') ->
  m' = m /\ owned o' = owned o.
Proof.
  intros R H. destruct o, c; cbn [apply refused] in *; try discriminate H; try contradiction R;
    try subst ans;
    try apply wrap_inv in H as (x & H & ->).
  - unfold arr_add in H. repeat ok H; auto;
      match goal with E : realloc _ _ _ _ = Ok _ |- _ => apply realloc_fail in E as [-> ->] end; auto.
    discriminate.
  - unfold arr_del in H. repeat ok H; auto.
  - unfold arr_del_unordered in H. repeat ok H; auto.
  - unfold arr_del_last in H. repeat ok H; auto.
  - unfold arr_clear in H. repeat ok H; auto.
  - unfold arr_at in H. repeat ok H; auto.
  - unfold arr_all in H. repeat ok H; auto.
  - unfold heap_add in H. repeat ok H; auto;
      match goal with E : realloc _ _ _ _ = Ok _ |- _ => apply realloc_fail in E as [-> ->] end; auto.
    discriminate.
  - unfold heap_pop in H. repeat ok H; auto.
  - unfold heap_peek in H. repeat ok H; auto.
  - unfold heap_clear in H. repeat ok H; auto.
  - unfold q_add_last in H. repeat ok H; auto;
      match goal with E : q_expand _ _ _ = Ok _ |- _ => apply q_expand_fail in E as [-> E] end;
      cbn; rewrite E; auto.
  - unfold q_add_first in H. repeat ok H; auto;
      match goal with E : q_expand _ _ _ = Ok _ |- _ => apply q_expand_fail in E as [-> E] end;
      cbn; rewrite E; auto.
  - unfold q_del_last in H. repeat ok H; auto.
  - unfold q_del_first in H. repeat ok H; auto.
  - unfold q_clear in H. repeat ok H; auto.
  - unfold q_at in H. repeat ok H; auto.
  - unfold map_put in H.
    destruct (map_remap p Fail m) as [[r m1]| |] eqn:E; cbn [bind] in H; try discriminate.
    apply map_remap_fail in E as [-> [-> | ->]]; repeat ok H; auto.
  - unfold map_get in H. repeat ok H; auto.
  - unfold map_del in H. repeat ok H; auto.
  - unfold map_clear in H. repeat ok H; auto.
  - unfold map_each in H. repeat ok H; auto.
  - destruct (buf_reserve b len Fail m) as [[[ok1 b1] m1]| |] eqn:E; cbn [bind] in H; try discriminate.
    apply buf_reserve_fail in E as [-> E]. ok H. auto.
  - unfold buf_shrink in H.
    destruct (buf_compact b m) as [[b1 m1]| |] eqn:E; cbn [bind] in H; try discriminate.
    apply buf_compact_keep in E as (-> & E1 & E2).
    assert (Eo : owned (OBuf b1) = owned (OBuf b)) by (cbn; rewrite E1, E2; auto).
    destruct (_ || _); cbn [bind] in H; [ok H; auto|].
    destruct (realloc m (b_mem b1) _ Fail) as [[q m2]| |] eqn:E; cbn [bind] in H; try discriminate.
    apply realloc_fail in E as [-> ->]. cbn [isnull] in H. ok H. auto.
  - unfold buf_put in H.
    destruct (buf_reserve b len Fail m) as [[[ok1 b1] m1]| |] eqn:E; cbn [bind] in H; try discriminate.
    apply buf_reserve_fail in E as [-> E]. rewrite <- E. repeat ok H; auto.
  - unfold buf_access in H. repeat ok H; auto.
  - unfold buf_at in H. repeat ok H; auto.
  - destruct (buf_compact b m) as [[b1 m1]| |] eqn:E; cbn [bind] in H; try discriminate.
    apply buf_compact_keep in E as (-> & E1 & E2). ok H. cbn. rewrite E1, E2. auto.
  - ok H. auto.
  - ok H. auto.
  - unfold str_set in H.
    destruct (str_create src len Fail m) as [[c m1]| |] eqn:E; cbn [bind] in H; try discriminate.
    apply str_create_fail in E as [E ->]. rewrite E in H. cbn [isnull] in H. ok H. auto.
  - unfold str_set_fmt in H.
    destruct (str_create_va rc rc2 Fail m) as [[c m1]| |] eqn:E; cbn [bind] in H; try discriminate.
    apply str_create_va_fail in E as [E ->]. rewrite E in H. cbn [isnull] in H. ok H. auto.
  - unfold str_append in H. destruct (isnull (s_ptr s)) eqn:En.
    + destruct (str_create src len Fail m) as [[c m1]| |] eqn:E; cbn [bind] in H; try discriminate.
      apply str_create_fail in E as [E ->]. ok H. cbn. rewrite E.
      destruct (s_ptr s); [auto|discriminate].
    + ok H. ok H. clear E0. ok H; [ok H; auto|]. 
      destruct (realloc m _ _ Fail) as [[q m2]| |] eqn:Er; cbn [bind] in H; try discriminate.
      apply realloc_fail in Er as [-> ->]. cbn [isnull] in H. ok H. auto.
  - unfold str_cut in H. destruct (isnull (s_ptr s)); [ok H; auto|].
    destruct (rd m _ _ _); cbn [bind] in H; try discriminate.
    destruct (_ && _); [ok H; auto|].
    destruct (str_create_len _ n Fail m) as [[c m1]| |] eqn:E; cbn [bind] in H; try discriminate.
    apply str_create_len_fail in E as [E ->]. rewrite E in H. cbn [isnull] in H. ok H. auto.
  - unfold str_replace in H. destruct (isnull (s_ptr s)); [ok H; auto|].
    destruct (wr m _ _ _); cbn [bind] in H; try discriminate.
    destruct n; cbn [malloc isnull bind] in H; ok H; auto.
  - unfold str_use in H. repeat ok H; auto.
  - unfold timer_add in H. destruct room.
    + repeat ok H; auto.
    + destruct (rd m _ _ _); cbn [bind] in H; try discriminate.
      destruct (timer_expand t Fail m) as [[[ok1 t1] m1]| |] eqn:E; cbn [bind] in H; try discriminate.
      apply timer_expand_fail in E as [-> ->]. repeat ok H; auto.
  - unfold timer_cancel in H. repeat ok H; auto.
  - unfold timer_visit in H. repeat ok H; auto.
  - unfold timer_clear in H. repeat ok H; auto.
Qed.
