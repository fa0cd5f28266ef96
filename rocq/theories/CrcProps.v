(** C42-C44, C65, C66: CRC-32C. *)
From Verif Require Import Base CrcModel CrcSpec CrcProofs CrcErrProofs.

(** Bytes `m` in memory followed by anything. *)
Lemma crc_any b : exists t, sc_crc32_init b = Ok t /\ forall crc buf addr len,
  Forall byte buf -> 0 <= crc < 2^32 -> 0 <= len <= zlen buf ->
  sc_crc32 t crc buf addr len = Ok (crc32c crc (firstn (Z.to_nat len) buf)).
Proof.
  destruct b; cbn [sc_crc32_init].
  - destruct init_hw_ok as (l & s & E & Hl & Hs). exists (HwTables (l, s)). rewrite E. split; [reflexivity|].
    intros. cbn [sc_crc32]. now apply hw_ok.
  - destruct init_be_ok as (t & E & Ht). exists (BeTables t). rewrite E. split; [reflexivity|]. intros. cbn [sc_crc32]. now apply be_ok.
  - destruct init_sw_ok as (t & E & _ & _ & Ht). exists (LeTables t). rewrite E. split; [reflexivity|]. intros. cbn [sc_crc32]. now apply sw_ok.
Qed.

(** C42.  After initialisation, both software builds compute CRC-32C, bit by
    bit, of the first [len] bytes, wherever the buffer starts, and touch
    nothing outside the buffer. *)
Theorem crc_software_is_crc32c : forall b, b = LittleEndian \/ b = BigEndian ->
  exists t, sc_crc32_init b = Ok t /\ forall crc buf addr len,
    Forall byte buf -> 0 <= crc < 2^32 -> 0 <= len <= zlen buf ->
    sc_crc32 t crc buf addr len = Ok (crc32c crc (firstn (Z.to_nat len) buf)).
Proof. intros b _. apply crc_any. Qed.
Print Assumptions crc_software_is_crc32c.
Definition check_msg : list Z := [49; 50; 51; 52; 53; 54; 55; 56; 57].
Example crc_software_example :
  Forall byte check_msg /\ crc32c 0 check_msg = 0xE3069283 /\
  (let* t := sc_crc32_init LittleEndian in sc_crc32 t 0 check_msg 1003 9) = Ok 0xE3069283 /\
  (let* t := sc_crc32_init BigEndian in sc_crc32 t 0 check_msg 1003 9) = Ok 0xE3069283.
Proof. split; [repeat (apply Forall_cons; [unfold byte; lia|]); apply Forall_nil|]. split; [vm_compute; reflexivity|]. split; vm_compute; reflexivity. Qed.

(** C43.  In every build, feeding two buffers one after the other is feeding
    their concatenation. *)
Theorem crc_piecewise : forall b t, sc_crc32_init b = Ok t ->
  forall crc m1 m2 addr addr1 addr2, Forall byte m1 -> Forall byte m2 -> 0 <= crc < 2^32 ->
  (let* c := sc_crc32 t crc m1 addr1 (zlen m1) in sc_crc32 t c m2 addr2 (zlen m2)) =
    sc_crc32 t crc (m1 ++ m2) addr (zlen (m1 ++ m2)) /\
  exists c, sc_crc32 t crc (m1 ++ m2) addr (zlen (m1 ++ m2)) = Ok c /\ 0 <= c < 2^32.
Proof.
  intros b t Hi crc m1 m2 addr addr1 addr2 F1 F2 Hc. destruct (crc_any b) as (t' & E & H). rewrite Hi in E. injection E as <-.
  assert (W : forall l : list Z, firstn (Z.to_nat (zlen l)) l = l) by (intro l; unfold zlen; rewrite Nat2Z.id; apply firstn_all).
  assert (L : forall l : list Z, 0 <= zlen l <= zlen l) by (intro l; pose proof (zlen_nonneg l); lia).
  assert (F : Forall byte (m1 ++ m2)) by (apply Forall_app; auto).
  assert (R : forall m c, Forall byte m -> 0 <= c < 2^32 -> 0 <= crc32c c m < 2^32).
  { intros m c Fm H0. rewrite crc32c_feed by exact Fm. now apply not32_range, feed_range, not32_range. }
  rewrite (H _ _ _ _ F1 Hc (L _)). cbn [bind]. rewrite W. rewrite (H _ _ _ _ F2 (R _ _ F1 Hc) (L _)), (H _ _ _ _ F Hc (L _)), !W. split.
  - rewrite !crc32c_feed by assumption. now rewrite not32_invol, feed_app.
  - eexists. split; [reflexivity|]. now apply R.
Qed.
Print Assumptions crc_piecewise.
Example crc_piecewise_example :
  (let* t := sc_crc32_init LittleEndian in
   let* c := sc_crc32 t 0 [49; 50; 51] 7 3 in sc_crc32 t c [52; 53; 54; 55; 56; 57] 64 6) = Ok 0xE3069283.
Proof. vm_compute. reflexivity. Qed.

(** C44.  The three-stream hardware build returns what the software builds
    return. *)
Theorem crc_hardware_agrees : forall b, b = LittleEndian \/ b = BigEndian ->
  exists th ts, sc_crc32_init Hardware = Ok th /\ sc_crc32_init b = Ok ts /\
  forall crc buf addr addr' len, Forall byte buf -> 0 <= crc < 2^32 -> 0 <= len <= zlen buf ->
    sc_crc32 th crc buf addr len = sc_crc32 ts crc buf addr' len /\
    sc_crc32 th crc buf addr len = Ok (crc32c crc (firstn (Z.to_nat len) buf)).
Proof.
  intros b _. destruct (crc_any Hardware) as (th & Eh & Hh). destruct (crc_any b) as (ts & Es & Hs).
  exists th, ts. split; [exact Eh|]. split; [exact Es|]. intros. rewrite Hh, Hs by assumption. auto.
Qed.
Print Assumptions crc_hardware_agrees.
(** One block of 3 x 256 bytes, leading and trailing bytes. *)
Example crc_hardware_example : let buf := map (fun i => Z.land (i * 7 + Z.shiftr i 3) 255) (zseq 801) in
  Forall byte buf /\
  (let* t := sc_crc32_init Hardware in sc_crc32 t 0 check_msg 1003 9) = Ok 0xE3069283 /\
  (let* t := sc_crc32_init Hardware in sc_crc32 t 5 buf 1003 800) = (let* t := sc_crc32_init LittleEndian in sc_crc32 t 5 buf 1003 800).
Proof.
  split; [|split; vm_compute; reflexivity]. apply Forall_forall. intros x Hx. apply in_map_iff in Hx. destruct Hx as (i & <- & _).
  apply land_255_range.
Qed.

(** C65.  In every build the checksum detects every error burst of at most 32
    bits: two messages whose bits differ only inside a window of 32 get
    different checksums. *)
Theorem crc_detects_bursts : forall b t, sc_crc32_init b = Ok t ->
  forall crc m1 m2 addr1 addr2 before w1 w2 after,
    Forall byte m1 -> Forall byte m2 -> 0 <= crc < 2^32 ->
    bits m1 = before ++ w1 ++ after -> bits m2 = before ++ w2 ++ after ->
    length w1 = length w2 -> (length w1 <= 32)%nat -> m1 <> m2 ->
    sc_crc32 t crc m1 addr1 (zlen m1) <> sc_crc32 t crc m2 addr2 (zlen m2).
Proof.
  intros b t Hi crc m1 m2 addr1 addr2 p w1 w2 s F1 F2 Hc B1 B2 Hl H32 Hne Heq.
  destruct (crc_any b) as (t' & E & H). rewrite Hi in E. injection E as <-.
  assert (W : forall l : list Z, firstn (Z.to_nat (zlen l)) l = l) by (intro l; unfold zlen; rewrite Nat2Z.id; apply firstn_all).
  assert (L : forall l : list Z, 0 <= zlen l <= zlen l) by (intro l; pose proof (zlen_nonneg l); lia).
  rewrite (H _ _ _ _ F1 Hc (L _)), (H _ _ _ _ F2 Hc (L _)), !W in Heq. injection Heq as Heq.
  assert (Hm : length m1 = length m2).
  { pose proof (bits_len m1) as L1. pose proof (bits_len m2) as L2. rewrite B1 in L1. rewrite B2 in L2.
    rewrite !app_length in L1, L2. lia. }
  apply crc_eq_diff in Heq; [|exact Hm|exact Hc]. rewrite B1, B2 in Heq. rewrite diff_app in Heq by reflexivity.
  assert (DS : forall l, diff l l = repeat false (length l)).
  { induction l as [|x l IH]; [reflexivity|]. cbn. now rewrite xorb_nilpotent, IH. }
  rewrite diff_app, !DS in Heq by exact Hl. rewrite !fold_left_app, !fold_zeros, stepn_0 in Heq.
  assert (Hz : stepn (length s) (fold_left shift_in (diff w1 w2) 0) = stepn (length s) 0) by (rewrite stepn_0; exact Heq).
  clear Heq. rename Hz into Heq. apply stepn_inj in Heq; [|apply fold_range; lia|lia].
  apply fold_short in Heq; [|now rewrite diff_len by exact Hl].
  apply diff_eq in Heq; [|exact Hl]. subst w2. apply Hne. apply (bits_inj m1 m2 F1 F2). congruence.
Qed.
Print Assumptions crc_detects_bursts.
(** Two messages differing in bits 3-20 of 40. *)
Example crc_bursts_example : let m1 := [0x80; 0xff; 0x11; 7; 9] in let m2 := [0x88; 0x12; 0x03; 7; 9] in
  m1 <> m2 /\ bits m1 = firstn 3 (bits m1) ++ firstn 18 (skipn 3 (bits m1)) ++ skipn 21 (bits m1) /\
  bits m2 = firstn 3 (bits m1) ++ firstn 18 (skipn 3 (bits m2)) ++ skipn 21 (bits m1) /\
  (let* t := sc_crc32_init LittleEndian in sc_crc32 t 0 m1 0 5) <> (let* t := sc_crc32_init LittleEndian in sc_crc32 t 0 m2 0 5).
Proof. split; [discriminate|]. split; [reflexivity|]. split; [reflexivity|]. vm_compute. discriminate. Qed.

(** C66.  In every build the checksum detects every odd number of flipped bits,
    and every one, two or three flipped bits in a message of at most
    2^31 - 1 bits. *)
Theorem crc_detects_flips : forall b t, sc_crc32_init b = Ok t ->
  forall crc m1 m2 addr1 addr2, Forall byte m1 -> Forall byte m2 -> 0 <= crc < 2^32 -> length m1 = length m2 ->
    (Nat.Odd (hamming (bits m1) (bits m2)) \/
     (0 < hamming (bits m1) (bits m2) <= 3)%nat /\ 8 * zlen m1 <= 2^31 - 1) ->
    sc_crc32 t crc m1 addr1 (zlen m1) <> sc_crc32 t crc m2 addr2 (zlen m2).
Proof.
  intros b t Hi crc m1 m2 addr1 addr2 F1 F2 Hc Hm Hh Heq.
  destruct (crc_any b) as (t' & E & H). rewrite Hi in E. injection E as <-.
  assert (W : forall l : list Z, firstn (Z.to_nat (zlen l)) l = l) by (intro l; unfold zlen; rewrite Nat2Z.id; apply firstn_all).
  assert (L : forall l : list Z, 0 <= zlen l <= zlen l) by (intro l; pose proof (zlen_nonneg l); lia).
  rewrite (H _ _ _ _ F1 Hc (L _)), (H _ _ _ _ F2 Hc (L _)), !W in Heq. injection Heq as Heq.
  apply crc_eq_diff in Heq; [|exact Hm|exact Hc].
  assert (Hb : length (bits m1) = length (bits m2)) by (rewrite !bits_len; lia).
  assert (Odd : ~ Nat.Odd (hamming (bits m1) (bits m2))).
  { rewrite <- Nat.odd_spec, <- ones_diff. intro O. pose proof (par_fold (diff (bits m1) (bits m2)) 0 ltac:(lia)) as P.
    rewrite Heq, O in P. discriminate P. }
  destruct Hh as [Hh|[Hh Hlen]]; [contradiction|].
  assert (H2 : hamming (bits m1) (bits m2) = 2%nat).
  { assert (hamming (bits m1) (bits m2) = 1 \/ hamming (bits m1) (bits m2) = 2 \/ hamming (bits m1) (bits m2) = 3)%nat as [X|[X|X]] by lia;
      [exfalso; apply Odd; rewrite X; exists 0%nat; reflexivity|exact X|exfalso; apply Odd; rewrite X; exists 1%nat; reflexivity]. }
  rewrite <- ones_diff in H2. apply (fold_two _ H2); [|exact Heq]. rewrite diff_len, bits_len by exact Hb. unfold zlen, M31 in *. lia.
Qed.
Print Assumptions crc_detects_flips.
(** The length bound is needed: the register step has order 2^31 - 1
    ([zstep_M31]), so two flips exactly that far apart go unnoticed. *)
Example crc_flips_example : hamming (bits [1; 2; 3]) (bits [1; 6; 7]) = 2%nat /\
  hamming (bits [1; 2; 3]) (bits [255; 2; 3]) = 7%nat /\
  crc32c 0 [1; 2; 3] <> crc32c 0 [1; 6; 7].
Proof. split; [reflexivity|]. split; [reflexivity|]. vm_compute. discriminate. Qed.
