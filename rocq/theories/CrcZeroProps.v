(** Property C148: sc_crc32 without sc_crc32_init. *)
From Verif Require Import Base CrcModel CrcSpec CrcProofs CrcProps CrcZeroModel.
From Coq Require Import ZifyBool.

Lemma tab_zero m k n : 0 <= k < Z.of_nat m -> 0 <= n < 256 -> tab (zero_rows m) k n = Ok 0.
Proof.
  intros Hk Hn. unfold tab, zload, zero_rows. unfold zget. replace (n <? 0) with false by lia. cbn [or_ub].
  rewrite nth_error_repeat by lia. cbn [bind or_ub]. unfold zget. replace (k <? 0) with false by lia. rewrite nth_error_repeat by lia. reflexivity.
Qed.
Lemma shift8 c j : 0 <= j -> Z.shiftr (Z.shiftr c 8) (8 * j) = Z.shiftr c (8 * (j + 1)).
Proof. intro H. rewrite Z.shiftr_shiftr by lia. f_equal. lia. Qed.
Lemma zero_byte buf next c : 0 <= next < zlen buf -> sw_byte (zero_rows 8) buf next c = Ok (Z.shiftr c 8).
Proof.
  intro H. unfold sw_byte. unfold zload. destruct (zget buf next) as [b|] eqn:E.
  - cbn [or_ub bind]. change (or_ub (zget ?a ?b)) with (zload a b). rewrite tab_zero by (try apply land_255_range; lia). reflexivity.
  - exfalso. unfold zget in E. replace (next <? 0) with false in E by lia. apply nth_error_None in E. unfold zlen in H. lia.
Qed.
Lemma zero_lead buf addr : forall n next c, 0 <= next -> next + Z.of_nat n <= zlen buf ->
  exists k m, n = (k + m)%nat /\ (m = O \/ Z.land (addr + (next + Z.of_nat k)) 7 = 0) /\
    sw_lead (zero_rows 8) buf addr n next c = Ok (next + Z.of_nat k, m, Z.shiftr c (8 * Z.of_nat k)).
Proof.
  induction n as [|n IH]; intros next c H1 H2; cbn [sw_lead].
  - exists O, O. split; [reflexivity|]. split; [auto|]. change (8 * Z.of_nat 0) with 0. rewrite Z.shiftr_0_r. do 3 f_equal; lia.
  - destruct (Z.eqb_spec (Z.land (addr + next) 7) 0).
    + exists O, (S n). split; [reflexivity|]. split; [right; rewrite Z.add_0_r; exact e|]. change (8 * Z.of_nat 0) with 0. rewrite Z.shiftr_0_r. do 3 f_equal; lia.
    + rewrite zero_byte by lia. cbn [bind]. destruct (IH (next + 1) (Z.shiftr c 8)) as (k & m & -> & Hm & ->); [lia|lia|].
      exists (S k), m. split; [reflexivity|]. split; [destruct Hm as [Hm|Hm]; [auto|right; rewrite <- Hm; f_equal; lia]|].
      rewrite shift8 by lia. replace (Z.of_nat (S k)) with (Z.of_nat k + 1) by lia. do 3 f_equal; lia.
Qed.
Lemma zero_tail buf : forall n next c, 0 <= next -> next + Z.of_nat n <= zlen buf ->
  sw_tail (zero_rows 8) buf n next c = Ok (Z.shiftr c (8 * Z.of_nat n)).
Proof.
  induction n as [|n IH]; intros next c H1 H2; cbn [sw_tail]; [change (8 * Z.of_nat 0) with 0; now rewrite Z.shiftr_0_r|].
  rewrite zero_byte by lia. cbn [bind]. rewrite IH by lia. rewrite shift8 by lia. do 2 f_equal. lia.
Qed.
Lemma zero_word buf addr next c : Forall byte buf -> 0 <= next -> next + 8 <= zlen buf ->
  Z.land (addr + next) 7 = 0 -> 0 <= c < 2^32 -> sw_word (zero_rows 8) buf addr next c = Ok 0.
Proof.
  intros F H1 H2 Ha Hc. unfold sw_word, load64_aligned, load64. rewrite Ha. change (0 =? 0) with true. cbn iota.
  replace ((0 <=? next) && (next + 8 <=? zlen buf)) with true by lia. cbn [bind].
  pose proof (Forall_zslice byte buf next 8 F) as Fs. pose proof (zslice_len_Z buf next 8 H1 ltac:(lia) H2) as Hl.
  pose proof (le64_range _ Fs) as Hr. rewrite Hl in Hr. change (8 * 8) with 64 in Hr.
  set (x := Z.lxor c (le64 (zslice buf next 8))). assert (Hx : 0 <= x < 2^64) by (apply lxor_lt; lia).
  pose proof (shiftr_lt x 64 56 ltac:(lia) Hx) as H56. change (2^(64-56)) with 256 in H56.
  rewrite !tab_zero by (first [lia|apply land_255_range]). reflexivity.
Qed.
Lemma shr_zero c j : 0 <= c < 2^32 -> 32 <= j -> Z.shiftr c j = 0.
Proof. intros Hc Hj. rewrite Z.shiftr_div_pow2 by lia. apply Z.div_small. split; [lia|]. apply Z.lt_le_trans with (2^32); [lia|]. apply Z.pow_le_mono_r; lia. Qed.
Lemma shr_range c j : 0 <= c < 2^32 -> 0 <= j -> 0 <= Z.shiftr c j < 2^32.
Proof.
  intros Hc Hj. rewrite Z.shiftr_div_pow2 by lia. assert (0 < 2^j) by (apply Z.pow_pos_nonneg; lia). split; [apply Z.div_pos; lia|].
  apply Z.le_lt_trans with c; [|lia]. apply Z.div_le_upper_bound; [lia|]. nia.
Qed.
Lemma zero_words buf addr : Forall byte buf -> forall fuel next len c,
  0 <= next -> 0 <= len -> next + len <= zlen buf -> (len < 8 \/ Z.land (addr + next) 7 = 0) -> 0 <= c < 2^32 -> len <= Z.of_nat fuel ->
  exists k, 0 <= k /\ 8 * k <= len < 8 * k + 8 /\
    sw_words fuel (zero_rows 8) buf addr next len c = Ok (next + 8 * k, len - 8 * k, if k =? 0 then c else 0).
Proof.
  intros F. induction fuel as [|fuel IH]; intros next len c H1 H2 H3 Ha Hc Hf; cbn [sw_words].
  - replace (len <? 8) with true by lia. exists 0. split; [lia|]. split; [lia|]. do 3 f_equal; lia.
  - destruct (Z.ltb_spec len 8).
    + exists 0. split; [lia|]. split; [lia|]. do 3 f_equal; lia.
    + destruct Ha as [Ha|Ha]; [lia|]. rewrite zero_word by (assumption || lia). cbn [bind].
      destruct (IH (next + 8) (len - 8) 0) as (k & K1 & K2 & ->); [lia|lia|lia| |lia|lia|].
      * right. rewrite Z.add_assoc, land7_add. exact Ha.
      * exists (k + 1). split; [lia|]. split; [lia|]. replace (k + 1 =? 0) with false by lia. destruct (k =? 0); do 3 f_equal; lia.
Qed.

(** Little-endian software: only the length counts; four bytes or more give 2^32 - 1 whatever they are. *)
Theorem crc_uninit_software : forall crc buf addr len, Forall byte buf -> 0 <= crc < 2^32 -> 0 <= len <= zlen buf ->
  sc_crc32 zero_le crc buf addr len = Ok (2^32 - 1 - (2^32 - 1 - crc) / 256 ^ len).
Proof.
  intros crc buf addr len F Hc Hl. cbn [sc_crc32 zero_le]. unfold crc32_sw_le. pose proof (not32_range crc Hc) as Hn.
  assert (N : forall x, 0 <= x < 2^32 -> not32 x = 2^32 - 1 - x).
  { intros x Hx. unfold not32. change 0xffffffff with (Z.ones 32). rewrite Z.lxor_comm.
    assert (E : x + Z.lxor (Z.ones 32) x = Z.ones 32).
    { rewrite Z.add_nocarry_lxor; [rewrite Z.lxor_comm, Z.lxor_assoc, Z.lxor_nilpotent, Z.lxor_0_r; reflexivity|].
      apply Z.bits_inj'. intros i Hi. rewrite Z.land_spec, Z.lxor_spec, Z.bits_0. destruct (Z.testbit x i) eqn:T; [|reflexivity]. cbn [andb].
      destruct (Z.lt_ge_cases i 32); [rewrite Z.ones_spec_low by lia; reflexivity|]. exfalso. rewrite (bits_lt_pow2 x 32) in T by lia. discriminate. }
    change (Z.ones 32) with (2^32 - 1) in *. lia. }
  destruct (zero_lead buf addr (Z.to_nat len) 0 (not32 crc)) as (k & m & Hk & Ha & ->); [lia|lia|]. cbn [bind].
  assert (R1 := shr_range (not32 crc) (8 * Z.of_nat k) Hn ltac:(lia)).
  destruct (zero_words buf addr F m (0 + Z.of_nat k) (Z.of_nat m) (Z.shiftr (not32 crc) (8 * Z.of_nat k)))
    as (q & Q1 & Q2 & ->); [lia|lia|lia|destruct Ha as [-> | Ha]; [left; lia|right; exact Ha]|exact R1|lia|]. cbn [bind].
  rewrite zero_tail by lia. cbn [bind].
  assert (E : Z.shiftr (u32 (if q =? 0 then Z.shiftr (not32 crc) (8 * Z.of_nat k) else 0)) (8 * Z.of_nat (Z.to_nat (Z.of_nat m - 8 * q))) = Z.shiftr (not32 crc) (8 * len)).
  { destruct (Z.eqb_spec q 0) as [-> | Hq].
    - rewrite u32_small by exact R1. rewrite Z.shiftr_shiftr by lia. f_equal. lia.
    - rewrite u32_small by lia. rewrite Z.shiftr_0_l. symmetry. apply shr_zero; [exact Hn|lia]. }
  rewrite E. assert (R2 := shr_range (not32 crc) (8 * len) Hn ltac:(lia)). rewrite N by exact R2. rewrite Z.shiftr_div_pow2 by lia. rewrite N by exact Hc.
  change 256 with (2^8). rewrite <- Z.pow_mul_r by lia. reflexivity.
Qed.
Print Assumptions crc_uninit_software.

(** Hardware, short messages: the tables are not used. *)
Lemma blocks_none fuel z buf k next len c : len < k * 3 -> hw_blocks fuel z buf k next len c = Ok (next, len, c).
Proof. intro H. destruct fuel; cbn [hw_blocks]; replace (k * 3 <=? len) with false by lia; reflexivity. Qed.
Theorem crc_uninit_short : forall crc buf addr len, Forall byte buf -> 0 <= crc < 2^32 -> 0 <= len <= zlen buf -> len < 768 ->
  sc_crc32 zero_hw crc buf addr len = Ok (crc32c crc (firstn (Z.to_nat len) buf)).
Proof.
  intros crc buf addr len F Hc Hl Hs. destruct init_hw_ok as (l & s & _ & H1 & H2). change (firstn (Z.to_nat len) buf) with (zslice buf 0 len). rewrite <- (hw_ok l s) with (addr := addr) by assumption. clear H1 H2.
  cbn [sc_crc32 zero_hw]. unfold crc32_hw. cbv zeta. change (Z.lxor crc 0xffffffff) with (not32 crc).
  destruct (hw_lead_ok buf addr F (Z.to_nat len) 0 (not32 crc)) as (k & m & Hk & ->); [lia|lia|now apply not32_range|]. cbn [bind fst snd].
  unfold CRC32_LONG, CRC32_SHORT. rewrite !blocks_none by lia. cbn [bind]. rewrite !blocks_none by lia. reflexivity.
Qed.
Print Assumptions crc_uninit_short.

Lemma shift_zero c : 0 <= c < 2^32 -> crc_shift (zero_rows 4) c = Ok 0.
Proof. intro H. unfold crc_shift. rewrite !tab_zero by (first [lia|apply land_255_range]). reflexivity. Qed.
Lemma blocks_zero buf k : Forall byte buf -> 0 < k -> k mod 8 = 0 -> forall fuel next len c,
  0 <= next -> 0 <= len <= Z.of_nat fuel -> next + len <= zlen buf -> 0 <= c < 2^32 ->
  let m := len - len mod (k * 3) in
  hw_blocks fuel (zero_rows 4) buf k next len c = Ok (next + m, len - m, if len <? k * 3 then c else feed 0 (zslice buf (next + m - k) k)).
Proof.
  intros F Hk Hk8. induction fuel as [|fuel IH]; intros next len c H1 Hl H2 Hc m; cbn [hw_blocks]; destruct (Z.leb_spec (k * 3) len) as [Hg|Hg].
  - lia.
  - replace (len <? k * 3) with true by lia. unfold m. rewrite Z.mod_small by lia. do 3 f_equal; lia.
  - assert (Hk' : k = 8 * (k / 8)) by (Z.div_mod_to_equations; lia). set (r := k / 8) in *.
    pose proof (hw_inner_ok buf k F (Z.to_nat k) next r c 0 0 ltac:(lia) H1 ltac:(lia) ltac:(lia) Hc ltac:(lia) ltac:(lia)) as E.
    rewrite <- Hk' in E. rewrite E. cbn [bind]. clear E.
    rewrite shift_zero by (apply feed_zslice_range; assumption). cbn [bind]. rewrite Z.lxor_0_l. rewrite shift_zero by (apply feed_zslice_range; [exact F|lia]). cbn [bind]. rewrite Z.lxor_0_l.
    rewrite IH by (try apply feed_zslice_range; try exact F; lia). replace (len <? k * 3) with false by lia.
    assert (Em : (len - k * 3) mod (k * 3) = len mod (k * 3)) by (replace (len - k * 3) with (len + (-1) * (k * 3)) by lia; apply Z_mod_plus_full).
    assert (Hm : next + k + k * 2 + (len - k * 3 - (len - k * 3) mod (k * 3)) = next + m) by (rewrite Em; unfold m; lia).
    rewrite Hm. assert (Hm2 : len - k * 3 - (len - k * 3 - (len - k * 3) mod (k * 3)) = len - m) by (rewrite Em; unfold m; lia). rewrite Hm2.
    destruct (Z.ltb_spec (len - k * 3) (k * 3)) as [Hs|Hs]; [|reflexivity].
    assert (Ms : len mod (k * 3) = len - k * 3) by (rewrite <- Em; apply Z.mod_small; lia). unfold m. rewrite Ms.
    do 3 f_equal. f_equal. lia.
  - replace (len <? k * 3) with true by lia. unfold m. rewrite Z.mod_small by lia. do 3 f_equal; lia.
Qed.
(** Where the part of a message of [len] bytes starts that counts. *)
Definition skipped (len : Z) : Z :=
  let r := len mod 6144 in if r <? 768 then len - r - 2048 else len - r mod 768 - 256.
(** Hardware, 768 bytes or more (aligned): the initial value and the first 512 bytes at least are ignored. *)
Theorem crc_uninit_long : forall crc buf addr len, Forall byte buf -> 0 <= crc < 2^32 -> 768 <= len <= zlen buf -> addr mod 8 = 0 ->
  512 <= skipped len /\ sc_crc32 zero_hw crc buf addr len = Ok (crc32c (2^32 - 1) (zslice buf (skipped len) (len - skipped len))).
Proof.
  intros crc buf addr len F Hc Hl Ha.
  assert (Hm := Z.mod_pos_bound len 6144 ltac:(lia)). assert (Hd := Z.div_mod len 6144 ltac:(lia)).
  set (r1 := len mod 6144) in *. assert (Hm2 := Z.mod_pos_bound r1 768 ltac:(lia)). assert (Hd2 := Z.div_mod r1 768 ltac:(lia)).
  assert (H512 : 512 <= skipped len) by (unfold skipped; fold r1; destruct (Z.ltb_spec r1 768); lia).
  split; [exact H512|]. cbn [sc_crc32 zero_hw]. unfold crc32_hw. cbv zeta. change (Z.lxor crc 0xffffffff) with (not32 crc).
  pose proof (not32_range crc Hc) as Hn.
  assert (L0 : hw_lead buf addr (Z.to_nat len) 0 (not32 crc) = Ok (0, Z.to_nat len, not32 crc)).
  { destruct (Z.to_nat len) as [|n]; [reflexivity|]. cbn [hw_lead]. rewrite Z.add_0_r.
    replace (Z.land addr 7) with 0 by (change 7 with (Z.ones 3); rewrite Z.land_ones by lia; symmetry; exact Ha). reflexivity. }
  rewrite L0. cbn [bind fst snd]. rewrite Z2Nat.id by lia.
  rewrite (blocks_zero buf CRC32_LONG F eq_refl eq_refl) by (assumption || lia). cbn [bind]. unfold CRC32_LONG. change (2048 * 3) with 6144. fold r1.
  set (c1 := if len <? 6144 then not32 crc else _).
  assert (R1 : 0 <= c1 < 2^32) by (unfold c1; destruct (len <? 6144); [exact Hn|apply feed_zslice_range; [exact F|lia]]).
  rewrite (blocks_zero buf CRC32_SHORT F eq_refl eq_refl) by (assumption || lia). cbn [bind]. unfold CRC32_SHORT. change (256 * 3) with 768.
  replace (len - (len - r1)) with r1 by lia. set (r2 := r1 mod 768) in *.
  set (c2 := if r1 <? 768 then c1 else _).
  assert (C2 : c2 = feed 0 (zslice buf (skipped len) (len - r2 - skipped len))).
  { unfold c2, skipped. fold r1 r2. destruct (Z.ltb_spec r1 768).
    - unfold c1. replace (len <? 6144) with false by lia. assert (r2 = r1) by (apply Z.mod_small; lia). do 2 f_equal; lia.
    - do 2 f_equal; lia. }
  assert (R2 : 0 <= c2 < 2^32) by (rewrite C2; apply feed_zslice_range; [exact F|lia]).
  replace (0 + (len - r1) + (r1 - r2)) with (len - r2) by lia. replace (r1 - (r1 - r2)) with r2 by lia.
  assert (Hr : Z.land r2 7 = r2 mod 8) by (change 7 with (Z.ones 3); now rewrite Z.land_ones by lia). rewrite Hr.
  pose proof (Z.mod_pos_bound r2 8 ltac:(lia)) as Hb. pose proof (Z.div_mod r2 8 ltac:(lia)) as Hd3.
  replace (r2 - r2 mod 8) with (8 * (r2 / 8)) by lia.
  rewrite hw_words_ok by (assumption || lia). cbn [bind].
  assert (R4 := feed_zslice_range buf (len - r2) (8 * (r2 / 8)) _ F R2).
  rewrite hw_tail_ok by (assumption || lia). cbn [bind].
  assert (R5 := feed_zslice_range buf (len - r2 + 8 * (r2 / 8)) (Z.of_nat (Z.to_nat (r2 mod 8))) _ F R4).
  rewrite u32_small by exact R5. rewrite crc32c_feed by (now apply Forall_zslice). change (not32 (2^32 - 1)) with 0. unfold not32. do 2 f_equal.
  rewrite C2, <- !feed_app. f_equal.
  assert (S2 : skipped len <= len - r2) by (unfold skipped; fold r1 r2; destruct (Z.ltb_spec r1 768); [assert (r2 = r1) by (apply Z.mod_small; lia); lia|lia]).
  replace (zslice buf (skipped len) (len - skipped len)) with (zslice buf (skipped len) ((len - r2 - skipped len) + (8 * (r2 / 8) + Z.of_nat (Z.to_nat (r2 mod 8))))) by (f_equal; lia).
  rewrite !zslice_split by lia. replace (skipped len + (len - r2 - skipped len)) with (len - r2) by lia. rewrite <- ?app_assoc. reflexivity.
Qed.
Print Assumptions crc_uninit_long.
(** Nine bytes; 800 bytes of which the first 512 differ. *)
Example crc_uninit_ex : Forall byte check_msg /\ sc_crc32 zero_le 0 check_msg 1003 9 = Ok (2^32 - 1) /\ sc_crc32 zero_le 0 check_msg 1003 2 = Ok 0xffff0000 /\
  sc_crc32 zero_hw 0 check_msg 1003 9 = Ok 0xE3069283 /\
  sc_crc32 zero_hw 0 (repeat 1 512 ++ repeat 3 288) 1000 800 = sc_crc32 zero_hw 7 (repeat 2 512 ++ repeat 3 288) 1000 800 /\ skipped 800 = 512.
Proof. split; [repeat (apply Forall_cons; [unfold byte; lia|]); apply Forall_nil|]. vm_example. Qed.
