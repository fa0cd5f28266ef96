(** Theorems about the helpers of sc.c. *)
From Verif Require Import Base CStr CNum StrSpec StrProofs ScModel ScSpec ScProofs.

(** C45: sc_is_pow2 is exact, and sc_to_pow2 gives the least power of two that
    is not below its argument; above 2^63 there is none in 64 bits and it
    gives 0. *)
Theorem pow2_exact n : 0 <= n < 2^64 ->
  (is_pow2 n = true <-> exists k, 0 <= k /\ n = 2^k) /\
  (n <= 2^63 -> exists k, 0 <= k /\ to_pow2 n = 2^k /\ n <= 2^k /\ forall j, 0 <= j -> n <= 2^j -> 2^k <= 2^j) /\
  (2^63 < n -> to_pow2 n = 0).
Proof.
  intro H. split; [now apply is_pow2_iff|]. split; [intro; apply to_pow2_least; lia|]. intro. apply to_pow2_above. lia.
Qed.
Print Assumptions pow2_exact.
Example pow2_example : 0 <= 2^40 + 1 < 2^64 /\ is_pow2 (2^40 + 1) = false /\ is_pow2 (2^40) = true /\
  to_pow2 (2^40 + 1) = 2^41 /\ to_pow2 (2^40) = 2^40 /\ to_pow2 0 = 1 /\ to_pow2 (2^63 + 1) = 0.
Proof. vm_example; split; try reflexivity; discriminate. Qed.

(** C46: sc_rand_init reads 256 bytes and leaves RC4's key schedule of them (the
    seed being both the start table and the key) and a permutation of the
    seed. *)
Theorem rand_init_is_rc4 seed : seed_ok seed -> let K := fun x => nth (Z.to_nat x) seed 0 in
  exists r, rand_init seed = Ok r /\ has_state r (0, fst (schedule K K 256), snd (schedule K K 256)) /\ from_seed seed r.
Proof. apply rand_init_ok. Qed.
Print Assumptions rand_init_is_rc4.
Definition demo_seed : list Z := map (fun k => Z.of_nat k * 7 mod 256) (seq 3 300).
Lemma demo_seed_ok : seed_ok demo_seed.
Proof.
  split; [vm_compute; discriminate|]. apply Forall_forall. intros x H. apply in_map_iff in H as (k & <- & _).
  apply Z.mod_pos_bound. lia.
Qed.
Example rand_init_example : seed_ok demo_seed /\ exists r, rand_init demo_seed = Ok r /\ firstn 4 (rtab r) <> firstn 4 demo_seed.
Proof. split; [exact demo_seed_ok|]. eexists. split; [vm_compute; reflexivity|]. vm_compute. discriminate. Qed.

(** C46: sc_rand_read stores the next RC4 bytes at the start of the buffer,
    leaves the rest of the buffer alone and keeps the table a permutation of the
    seed; so every byte delivered is a byte of the seed.  A size <= 0 and a NULL
    buffer read nothing. *)
Theorem rand_read_is_rc4 seed r st buf size : has_state r st -> from_seed seed r -> size <= zlen buf ->
  exists r', let n := Z.to_nat size in
    rand_read r (Some buf) size = Ok (r', Some (snd (rc4 n st) ++ skipn n buf)) /\
    has_state r' (fst (rc4 n st)) /\ from_seed seed r' /\ length (snd (rc4 n st)) = n /\
    Forall (fun z => In z (firstn 256 seed)) (snd (rc4 n st)) /\
    rand_read r None size = Ok (r, None) /\
    (size <= 0 -> rand_read r (Some buf) size = Ok (r, Some buf)).
Proof.
  intros H P Hl. destruct (rand_read_ok r st buf size H Hl) as (r' & E & H' & P' & F). exists r'. cbv zeta.
  split; [exact E|]. split; [exact H'|]. split; [unfold from_seed; now rewrite P'|]. split; [apply rc4_length|].
  split; [eapply Forall_impl; [|exact F]; cbv beta; intros z Hz; now apply (Permutation_in z P)|].
  split; [reflexivity|]. intro Hs. unfold rand_read. destruct (Z.leb_spec size 0); [reflexivity|lia].
Qed.
Print Assumptions rand_read_is_rc4.
Example rand_read_example : exists r st, rand_init demo_seed = Ok r /\ has_state r st /\ from_seed demo_seed r /\
  3 <= zlen [1; 2; 3; 4] /\ exists r' a b c, rand_read r (Some [1; 2; 3; 4]) 3 = Ok (r', Some [a; b; c; 4]).
Proof.
  destruct (rand_init_ok demo_seed demo_seed_ok) as (r & E & H & P). exists r. eexists. split; [exact E|].
  split; [exact H|]. split; [exact P|]. split; [vm_compute; discriminate|].
  assert (Hl : 3 <= zlen [1; 2; 3; 4]) by (vm_compute; discriminate).
  destruct (rand_read_ok r _ [1; 2; 3; 4] 3 H Hl) as (r' & E' & _). exists r'.
  pose proof (rc4_length (Z.to_nat 3) (0, fst (schedule (fun x => nth (Z.to_nat x) demo_seed 0) (fun x => nth (Z.to_nat x) demo_seed 0) 256),
    snd (schedule (fun x => nth (Z.to_nat x) demo_seed 0) (fun x => nth (Z.to_nat x) demo_seed 0) 256))) as L.
  destruct (snd (rc4 _ _)) as [|a [|b [|c [|d t]]]]; try discriminate L. exists a, b, c. exact E'.
Qed.

(** C46: the bytes do not depend on how they are asked for.  Filling the buffers
    [bufs] one after the other gives, put together, what one read of the total
    size gives, and the same generator. *)
Theorem rand_read_split r st bufs : has_state r st ->
  exists r' outs, reads r bufs = Ok (r', outs) /\ map (@length Z) outs = map (@length Z) bufs /\
    rand_read r (Some (concat bufs)) (zlen (concat bufs)) = Ok (r', Some (concat outs)).
Proof. intro H. destruct (reads_ok bufs r st H) as (r' & outs & E1 & E2 & _ & _ & E3). eauto. Qed.
Print Assumptions rand_read_split.
Example rand_split_example : exists r r' outs st, rand_init demo_seed = Ok r /\ has_state r st /\
  reads r [[0; 0]; []; [0; 0; 0]] = Ok (r', outs) /\ concat outs <> [0; 0; 0; 0; 0] /\
  rand_read r (Some [0; 0; 0; 0; 0]) 5 = Ok (r', Some (concat outs)).
Proof.
  destruct (rand_init_ok demo_seed demo_seed_ok) as (r & E & H & P).
  assert (E' : rand_init demo_seed = Ok (match rand_init demo_seed with Ok x => x | _ => r end)) by now rewrite E.
  rewrite E in E' at 2. exists r. revert H. revert E. vm_compute (rand_init demo_seed). intros [= <-] H.
  eexists _, _, _. split; [reflexivity|]. split; [exact H|]. split; [vm_compute; reflexivity|].
  split; [vm_compute; discriminate|]. vm_compute. reflexivity.
Qed.

(** C47, as far as it holds: for a string (shorter than 2^31) that starts with a
    decimal number followed by a unit, sc_size_to_bytes gives number times unit
    or, when that exceeds INT64_MAX, -1; for any other string it gives -1.
    Missing from the full statement: negative numbers (below), the unit "bb"
    (below), strings of 2^31 and more characters (below), and one or two
    characters after the number that are not ASCII (below). *)
Theorem size_to_bytes_partial s tl : nonul s -> zlen s < 2^31 ->
  (forall n r, number s n r -> plain_unit r -> 0 <= n -> size_to_bytes (s ++ 0 :: tl) =
     match unit_of r with
     | Some u => if n * u <=? INT64_MAX then Ok (n * u) else Ok (-1)
     | None => Ok (-1)
     end) /\
  (forall n r, number s n r -> plain_unit r -> n < 0 -> match unit_of r with Some u => INT64_MIN <= n * u | None => True end ->
     size_to_bytes (s ++ 0 :: tl) = Ok (match unit_of r with Some u => n * u | None => -1 end)) /\
  ((forall n r, ~ number s n r) -> size_to_bytes (s ++ 0 :: tl) = Ok (-1)).
Proof.
  intros Hs Hlen.
  assert (Hu : forall r, match unit_of r with Some u => 0 < u | None => True end).
  { intro r. assert (Hl : forall c, match unit_letter c with Some u => 0 < u | None => True end)
      by (intro c; unfold unit_letter; repeat (destruct (letter _ c); [lia|]); exact I).
    unfold unit_of. destruct r as [|c [|d [|]]]; [lia|apply Hl| |exact I]. destruct (letter 98 d); [apply Hl|exact I]. }
  split; [|split].
  - intros n r Hn Hpl Hpos. rewrite (size_to_bytes_number s n r tl Hs Hlen Hn Hpl). specialize (Hu r). unfold fits, sized, INT64_MIN in *.
    destruct (unit_of r) as [u|].
    + destruct (Z.leb_spec (- 2^63) n); [|lia]. cbn [andb]. destruct (Z.leb_spec n INT64_MAX); [|].
      * destruct (Z.ltb_spec INT64_MAX (n * u)); destruct (Z.leb_spec (n * u) INT64_MAX); try lia; [reflexivity|].
        destruct (Z.ltb_spec (n * u) (- 2^63)); [nia|reflexivity].
      * destruct (Z.leb_spec (n * u) INT64_MAX); [nia|reflexivity].
    + destruct ((- 2^63 <=? n) && (n <=? INT64_MAX)); reflexivity.
  - intros n r Hn Hpl Hneg Hb. rewrite (size_to_bytes_number s n r tl Hs Hlen Hn Hpl). specialize (Hu r). unfold fits, sized, INT64_MIN, INT64_MAX in *.
    destruct (unit_of r) as [u|].
    + destruct (Z.leb_spec (- 2^63) n); [|nia]. destruct (Z.leb_spec n (2^63 - 1)); [|lia]. cbn [andb].
      destruct (Z.ltb_spec (2^63 - 1) (n * u)); [nia|]. destruct (Z.ltb_spec (n * u) (- 2^63)); [lia|reflexivity].
    + destruct ((- 2^63 <=? n) && (n <=? 2^63 - 1)); reflexivity.
  - apply size_to_bytes_none. exact Hs.
Qed.
Print Assumptions size_to_bytes_partial.
(** "12mB" *)
Example size_to_bytes_example : nonul [49; 50; 109; 66] /\ zlen [49; 50; 109; 66] < 2^31 /\ number [49; 50; 109; 66] 12 [109; 66] /\
  plain_unit [109; 66] /\ size_to_bytes [49; 50; 109; 66; 0] = Ok (12 * 1024^2).
Proof.
  split; [unfold nonul; cbn; lia|]. split; [reflexivity|]. split; [|split; [intros _ c [<- | [<- | []]]; lia|reflexivity]]. exists [], [], [49; 50].
  split; [reflexivity|]. split; [discriminate|]. split; [constructor|]. split; [repeat constructor|].
  split; [intros c r' [= <- _]; reflexivity|]. left. auto.
Qed.
(** "9223372036854775807k" and "xyz" give the error. *)
Example size_to_bytes_errors :
  size_to_bytes [57; 50; 50; 51; 51; 55; 50; 48; 51; 54; 56; 53; 52; 55; 55; 53; 56; 48; 55; 107; 0] = Ok (-1) /\
  size_to_bytes [120; 121; 122; 0] = Ok (-1) /\ size_to_bytes [49; 120; 0] = Ok (-1).
Proof. vm_example. Qed.

(** C47 fails: a negative number times a unit can overflow ("-9223372036854775808k"). *)
Theorem size_to_bytes_overflow_refuted : exists s, nonul s /\ number s (- 2^63) [107] /\ size_to_bytes (s ++ [0]) = UB.
Proof.
  exists [45; 57; 50; 50; 51; 51; 55; 50; 48; 51; 54; 56; 53; 52; 55; 55; 53; 56; 48; 56; 107].
  split; [unfold nonul; cbn; lia|]. split; [|vm_compute; reflexivity].
  exists [], [45], [57; 50; 50; 51; 51; 55; 50; 48; 51; 54; 56; 53; 52; 55; 55; 53; 56; 48; 56].
  split; [reflexivity|]. split; [discriminate|]. split; [constructor|]. split; [repeat constructor|].
  split; [intros c r' [= <- _]; reflexivity|]. right. split; [vm_compute; reflexivity|reflexivity].
Qed.
Print Assumptions size_to_bytes_overflow_refuted.
(** C47 fails: "-5" is neither an error nor positive, "1bb" is accepted, and the
    "1 KB" of the header is an error, as is what sc_bytes_to_size prints. *)
Theorem size_to_bytes_formats_refuted :
  size_to_bytes [45; 53; 0] = Ok (-5) /\
  size_to_bytes [49; 98; 98; 0] = Ok 1 /\
  size_to_bytes [49; 32; 75; 66; 0] = Ok (-1) /\
  exists buf, bytes_to_size (repeat 0 16) 16 1024 = Ok (buf, true) /\ size_to_bytes buf = Ok (-1).
Proof. split; [reflexivity|]. split; [reflexivity|]. split; [reflexivity|]. eexists. split; [vm_compute; reflexivity|]. vm_compute. reflexivity. Qed.
Print Assumptions size_to_bytes_formats_refuted.
(** C47 fails: after the number a byte above 127 (here "1" and an a-umlaut in Latin-1,
    or in UTF-8) is given to tolower as a negative number. *)
Theorem size_to_bytes_ascii_refuted s n c tl : nonul s -> zlen s < 2^31 -> number s n [c] -> INT64_MIN <= n <= INT64_MAX -> 128 <= c ->
  size_to_bytes (s ++ 0 :: tl) = UB.
Proof. intros H1 H2 H3 H4 H5. apply (size_to_bytes_not_ascii s n c tl); auto. unfold fits. lia. Qed.
Print Assumptions size_to_bytes_ascii_refuted.
Example size_to_bytes_ascii_example : size_to_bytes [49; 228; 0] = UB /\ size_to_bytes [49; 195; 164; 0] = UB /\
  number [49; 228] 1 [228].
Proof.
  split; [reflexivity|]. split; [reflexivity|]. exists [], [], [49].
  split; [reflexivity|]. split; [discriminate|]. split; [constructor|]. split; [repeat constructor|].
  split; [intros c r' [= <- _]; reflexivity|]. left. auto.
Qed.
(** C47 fails: a tail of 2^32 characters is taken for none. *)
Theorem size_to_bytes_length_refuted s n r tl :
  nonul s -> number s n r -> zlen r = 2^32 -> INT64_MIN <= n <= INT64_MAX -> size_to_bytes (s ++ 0 :: tl) = Ok n.
Proof. intros H1 H2 H3 H4. apply (size_to_bytes_long s n r tl H1 H2 H3). unfold fits. lia. Qed.
Print Assumptions size_to_bytes_length_refuted.
Example size_to_bytes_length_example : exists s r, nonul s /\ number s 1 r /\ zlen r = 2^32 /\ unit_of r = None.
Proof.
  assert (Hl : forall k, exists s r, nonul s /\ number s 1 r /\ zlen r = Z.of_nat k + 3 /\ unit_of r = None).
  { intro k. exists ([49] ++ 120 :: 120 :: 120 :: repeat 120 k), (120 :: 120 :: 120 :: repeat 120 k). split; [|split; [|split]].
    - apply nonul_app. split; [unfold nonul; cbn; lia|]. do 3 (apply nonul_cons; split; [lia|]). intro H. apply repeat_spec in H. lia.
    - exists [], [], [49]. split; [reflexivity|]. split; [discriminate|]. split; [constructor|]. split; [repeat constructor|].
      split; [intros c r' [= <- _]; reflexivity|]. left. auto.
    - rewrite !zlen_cons, zlen_repeat. lia.
    - reflexivity. }
  destruct (Hl (Z.to_nat (2^32 - 3))) as (s & r & H1 & H2 & H3 & H4). exists s, r. split; [exact H1|]. split; [exact H2|].
  split; [|exact H4]. rewrite Z2Nat.id in H3 by lia. lia.
Qed.

(** C68: sc_bytes_to_size.  There is a text as described by [size_text] such that
    it is stored with its NUL and `buf` returned when it fits; when it does not,
    NULL is returned and the buffer has a NUL-terminated start of the text (or
    is untouched when len = 0). *)
Theorem bytes_to_size_text buf len val : 0 <= len <= zlen buf -> 0 <= val < 2^64 ->
  exists t, size_text val t /\
    (zlen t < len -> bytes_to_size buf len val = Ok (t ++ [0] ++ skipn (length t + 1) buf, true)) /\
    (0 < len <= zlen t -> bytes_to_size buf len val = Ok (firstn (Z.to_nat (len - 1)) t ++ [0] ++ skipn (Z.to_nat len) buf, false)) /\
    (len = 0 -> bytes_to_size buf len val = Ok (buf, false)).
Proof.
  intros Hl Hv. destruct (bytes_to_size_ok buf len val Hl Hv) as (t & buf' & Ht & E & Es). exists t. split; [exact Ht|].
  destruct (snprintf_ok buf len t Hl) as (b2 & E2 & _ & S1 & S2 & S3). rewrite Es in E2. injection E2 as <-.
  pose proof (zlen_nonneg t).
  split; [|split]; intro H1; rewrite E.
  - rewrite <- (S1 H1). do 2 f_equal. destruct (Z.ltb_spec (zlen t) len); [reflexivity|lia].
  - rewrite <- (S2 H1). do 2 f_equal. destruct (Z.ltb_spec (zlen t) len); [lia|reflexivity].
  - rewrite (S3 H1). do 2 f_equal. destruct (Z.ltb_spec (zlen t) len); [lia|reflexivity].
Qed.
Print Assumptions bytes_to_size_text.
(** "1.50 KB", and too small a buffer. *)
Example bytes_to_size_example : 0 <= 10 <= zlen (repeat 7 10) /\
  bytes_to_size (repeat 7 10) 10 1536 = Ok ([49; 46; 53; 48; 32; 75; 66; 0; 7; 7], true) /\
  bytes_to_size (repeat 7 10) 4 1536 = Ok ([49; 46; 53; 0; 7; 7; 7; 7; 7; 7], false).
Proof. split; [vm_compute; split; discriminate|]. split; vm_compute; reflexivity. Qed.
