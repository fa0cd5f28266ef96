(** C122, C123: time/sc_time.c on Windows. *)
From Verif Require Import Base TimeModel WtimeModel.

(** ** Specification *)
(** Nanoseconds of a counter of [freq] counts a second. *)
Definition ns_at (count freq : Z) : Z := count * 1000000000 / freq.
Definition ms_at (count freq : Z) : Z := count * 1000 / freq.

(** C122: the wall clock functions return the whole milliseconds and the nanoseconds of the file time (since
    1601), the nanoseconds until they need more than 64 bits, in the year 2185. *)
Theorem wtime_wall low high : 0 <= low < 2 ^ 32 -> 0 <= high < 2 ^ 32 -> let t := high * 2 ^ 32 + low in
  wtime_ms low high = t * 100 / 1000000 /\ (t * 100 < 2 ^ 64 -> wtime_ns low high = t * 100).
Proof.
  intros Hl Hh t. unfold wtime_ms, wtime_ns, u32, u64. rewrite !(Z.mod_small low), !(Z.mod_small high) by lia. fold t.
  split; [|intro H; rewrite Z.mod_small; lia]. replace 1000000 with (10000 * 100) by lia. rewrite Z.div_mul_cancel_r by lia. reflexivity.
Qed.
Print Assumptions wtime_wall.
Example wtime_wall_ex : let low := 3577643008 in let high := 27111902 in
  wtime_ms low high = 11644473600000 /\ wtime_ns low high = 11644473600000000000.
Proof. split; reflexivity. Qed.

(** C122: as long as the counter times 1000 (1000000000) fits in 63 bits the monotonic functions return its whole
    milliseconds (nanoseconds), ask for the frequency once, and never decrease.  Missing: larger counts, see
    wtime_mono_refuted. *)
Theorem wtime_mono_partial static count freq : 0 < freq < 2 ^ 63 -> (static = 0 \/ static = freq) -> 0 <= count ->
  (count * 1000 < 2 ^ 63 -> wtime_mono_ms static count freq = Ok (ms_at count freq, freq)) /\
  (count * 1000000000 < 2 ^ 63 -> wtime_mono_ns static count freq = Ok (ns_at count freq, freq)) /\
  forall later, count <= later -> ms_at count freq <= ms_at later freq /\ ns_at count freq <= ns_at later freq.
Proof.
  intros Hf Hs Hc. assert (Es : wtime_freq static freq = freq) by (unfold wtime_freq; destruct Hs as [-> | ->]; [reflexivity|]; destruct (Z.eqb_spec freq 0); lia).
  unfold wtime_mono_ms, wtime_mono_ns, s64, ms_at, ns_at, u64. rewrite Es, (proj2 (Z.eqb_neq freq 0)) by lia. split; [|split].
  - intro H. destruct (Z.leb_spec (- 2 ^ 63) (count * 1000)); [|lia]. destruct (Z.ltb_spec (count * 1000) (2 ^ 63)); [|lia]. cbn [andb bind].
    rewrite Z.quot_div_nonneg by lia. rewrite Z.mod_small; [reflexivity|]. split; [apply Z.div_pos; lia|].
    apply Z.le_lt_trans with (count * 1000); [apply Z.div_le_upper_bound; nia|lia].
  - intro H. destruct (Z.leb_spec (- 2 ^ 63) (count * 1000000000)); [|lia]. destruct (Z.ltb_spec (count * 1000000000) (2 ^ 63)); [|lia]. cbn [andb bind].
    rewrite !Z.mod_small by lia. reflexivity.
  - intros later Hl. split; apply Z.div_le_mono; lia.
Qed.
Print Assumptions wtime_mono_partial.
Example wtime_mono_ex : wtime_mono_ms 0 123456789 10000000 = Ok (12345, 10000000) /\ wtime_mono_ns 10000000 123456789 10000000 = Ok (12345678900, 10000000).
Proof. split; reflexivity. Qed.
(** C122, refuted: the counter counts from the start of the system, 10000000 times a second.  Any count from 923 seconds (about 15
    minutes) on overflows in sc_time_mono_ns, which is undefined; and with wrapping arithmetic the clock goes back between
    1844 and 1845 seconds. *)
Theorem wtime_mono_refuted :
  (forall static count, static = 0 \/ static = 10000000 -> 923 * 10000000 <= count -> wtime_mono_ns static count 10000000 = UB) /\
  wtime_mono_ns_wrapped (1845 * 10000000) 10000000 < wtime_mono_ns_wrapped (1844 * 10000000) 10000000.
Proof.
  split; [|vm_compute; reflexivity]. intros static count Hs Hc. unfold wtime_mono_ns.
  assert (Es : wtime_freq static 10000000 = 10000000) by (unfold wtime_freq; destruct Hs as [-> | ->]; reflexivity). rewrite Es. cbn [Z.eqb].
  unfold s64. destruct (Z.ltb_spec (count * 1000000000) (2 ^ 63)); [lia|]. now rewrite Bool.andb_false_r.
Qed.
Print Assumptions wtime_mono_refuted.

(** C123: sc_time_sleep on Windows sleeps the milliseconds asked for.  Missing: 2^32 - 1 and more, see
    wtime_sleep_refuted. *)
Theorem wtime_sleep_partial millis : 0 <= millis < 2 ^ 32 - 1 -> wtime_sleep millis = (Some millis, 0).
Proof.
  intro H. unfold wtime_sleep, u32. rewrite Z.mod_small by lia. cbv zeta. rewrite (proj2 (Z.eqb_neq _ _)) by lia. reflexivity.
Qed.
Print Assumptions wtime_sleep_partial.
Example wtime_sleep_ex : wtime_sleep 4294967294 = (Some 4294967294, 0).
Proof. reflexivity. Qed.
(** C123, refuted: 2^32 - 1 milliseconds never end, 2^32 end at once. *)
Theorem wtime_sleep_refuted : wtime_sleep (2 ^ 32 - 1) = (None, 0) /\ wtime_sleep (2 ^ 32) = (Some 0, 0).
Proof. split; reflexivity. Qed.
Print Assumptions wtime_sleep_refuted.
