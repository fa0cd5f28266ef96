(** C168: clocks and sleeping where long and time_t have 32 bits. *)
From Verif Require Import Base Num TimeModel TimeProps Time32Model.
From Coq Require Import ZifyBool.

(** A timespec of 32-bit fields as clock_gettime returns it. *)
Definition clock32 (ts : Z * Z) : Prop := clock ts /\ fst ts < 2 ^ 31.

(** sc_time_ns, sc_time_mono_ms and sc_time_mono_ns return the time of the clock.  sc_time_ms does so before 2147484 seconds (January 1970),
    and is undefined from then on: see time32_refuted. *)
Theorem time32_partial ts : clock32 ts ->
  time32_ns ts = ns_of ts /\ time32_mono_ns ts = ns_of ts /\ time32_mono_ms ts = ns_of ts / 1000000 /\
  (fst ts < 2147484 -> time32_ms ts = Ok (ns_of ts / 1000000)) /\ (2147484 <= fst ts -> time32_ms ts = UB).
Proof.
  destruct ts as [s n]. unfold clock32, clock, ns_of, time32_ms, time32_ns, time32_mono_ms, time32_mono_ns, s32, u64. cbn [fst snd]. intros [[H1 H2] H3].
  assert (E : (s * 1000000000 + n) / 1000000 = s * 1000 + n / 1000000) by (Z.div_mod_to_equations; lia).
  assert (Hn : 0 <= n / 1000000 < 1000) by (Z.div_mod_to_equations; lia).
  rewrite (Z.mod_small s), (Z.mod_small n), (Z.mod_small (s * 1000000000)), (Z.mod_small (s * 1000)), (Z.mod_small (s * 1000000000 + n)), (Z.mod_small (s * 1000 + n / 1000000)) by lia.
  repeat (split; [lia|]). split; intro H.
  - replace ((- 2 ^ 31 <=? s * 1000) && (s * 1000 <? 2 ^ 31)) with true by lia. cbn [bind]. rewrite Z.quot_div_nonneg by lia.
    rewrite (Z.mod_small (s * 1000)), (Z.mod_small (n / 1000000)), Z.mod_small by lia. now rewrite E.
  - replace ((- 2 ^ 31 <=? s * 1000) && (s * 1000 <? 2 ^ 31)) with false by lia. reflexivity.
Qed.
Print Assumptions time32_partial.
Example time32_partial_ex : clock32 (1700000000, 5000000) /\ time32_ns (1700000000, 5000000) = 1700000000005000000 /\ time32_ms (2147483, 5000000) = Ok 2147483005.
Proof. unfold clock32, clock. cbn. repeat split; lia. Qed.
(** sc_time_ms overflows at any date since 1970-01-26, the clock of sc_perf in a machine up for three seconds. *)
Theorem time32_refuted : (exists ts, clock32 ts /\ ns_of ts < 2 ^ 62 /\ time32_ms ts = UB) /\ (exists ts, clock32 ts /\ ns_of ts = 3 * 10 ^ 9 /\ perf32_nano ts = UB).
Proof. split; [exists (1700000000, 0)|exists (3, 0)]; unfold clock32, clock, ns_of; cbn; repeat split; lia. Qed.
Print Assumptions time32_refuted.
(** The clock of sc_perf: exact below 2^31 nanoseconds, undefined from then on. *)
Theorem perf32_partial ts : clock32 ts -> perf32_nano ts = if ns_of ts <? 2 ^ 31 then Ok (ns_of ts) else UB.
Proof.
  destruct ts as [s n]. unfold clock32, clock, ns_of, perf32_nano, s32, u64. cbn [fst snd]. intros [[H1 H2] H3].
  destruct (Z.ltb_spec (s * 1000000000 + n) (2 ^ 31)) as [H|H].
  - replace ((- 2 ^ 31 <=? s * 1000) && (s * 1000 <? 2 ^ 31)) with true by lia. cbn [bind].
    replace ((- 2 ^ 31 <=? s * 1000 * 1000) && (s * 1000 * 1000 <? 2 ^ 31)) with true by lia. cbn [bind].
    replace ((- 2 ^ 31 <=? s * 1000 * 1000 * 1000) && (s * 1000 * 1000 * 1000 <? 2 ^ 31)) with true by lia. cbn [bind].
    replace ((- 2 ^ 31 <=? n + s * 1000 * 1000 * 1000) && (n + s * 1000 * 1000 * 1000 <? 2 ^ 31)) with true by lia. cbn [bind].
    rewrite Z.mod_small by lia. f_equal. lia.
  - destruct ((- 2 ^ 31 <=? s * 1000) && (s * 1000 <? 2 ^ 31)); [|reflexivity]. cbn [bind].
    destruct ((- 2 ^ 31 <=? s * 1000 * 1000) && (s * 1000 * 1000 <? 2 ^ 31)); [|reflexivity]. cbn [bind].
    destruct ((- 2 ^ 31 <=? s * 1000 * 1000 * 1000) && (s * 1000 * 1000 * 1000 <? 2 ^ 31)); [|reflexivity]. cbn [bind].
    replace ((- 2 ^ 31 <=? n + s * 1000 * 1000 * 1000) && (n + s * 1000 * 1000 * 1000 <? 2 ^ 31)) with false by lia. reflexivity.
Qed.
Print Assumptions perf32_partial.
Example perf32_partial_ex : clock32 (2, 100000000) /\ perf32_nano (2, 100000000) = Ok 2100000000 /\ clock32 (3, 0) /\ perf32_nano (3, 0) = UB.
Proof. unfold clock32, clock. cbn. repeat split; lia. Qed.

(** sc_time_sleep returns 0 only after the time asked for, if that is below 2^31 milliseconds (24 days). *)
Theorem sleep32_partial millis ns d : 0 <= millis < 2 ^ 31 -> Forall nap_ok ns -> time32_sleep millis ns = Ok (0, d) -> millis * 1000000 <= d.
Proof.
  intros Hm Hn E. unfold time32_sleep, s32, to_s32 in E. assert (Hr : 0 <= millis mod 1000 < 1000) by (apply Z.mod_pos_bound; lia).
  replace ((- 2 ^ 31 <=? millis mod 1000 * 1000000) && (millis mod 1000 * 1000000 <? 2 ^ 31)) with true in E by lia. cbn [bind] in E. cbv zeta in E.
  rewrite (Z.mod_small millis (2 ^ 32)) in E by lia. replace (millis <? 2 ^ 31) with true in E by lia. rewrite Z.quot_div_nonneg in E by lia.
  assert (C : clock (millis / 1000, millis mod 1000 * 1000000) /\ ns_of (millis / 1000, millis mod 1000 * 1000000) = millis * 1000000)
    by (unfold clock, ns_of; cbn [fst snd]; Z.div_mod_to_equations; lia).
  destruct C as [C1 C2]. pose proof (sleep_loop_ok ns Hn _ _ _ _ C1 E eq_refl). lia.
Qed.
Print Assumptions sleep32_partial.
Example sleep32_partial_ex : Forall nap_ok [Interrupted 500000000; Whole 7] /\ time32_sleep 2500 [Interrupted 500000000; Whole 7] = Ok (0, 2500000007).
Proof. split; [repeat constructor; cbn; lia|reflexivity]. Qed.
(** 2^32 milliseconds, 49 days: the call sleeps 296 ms and returns 0. *)
Theorem sleep32_refuted : exists ns d, Forall nap_ok ns /\ time32_sleep (2 ^ 32) ns = Ok (0, d) /\ d = 296 * 1000000.
Proof. exists [Whole 0], 296000000. split; [repeat constructor; cbn; lia|]. split; reflexivity. Qed.
Print Assumptions sleep32_refuted.
(** From 2^31 milliseconds on the seconds become negative, and the call fails without sleeping (but for the last second before 2^32). *)
Theorem sleep32_long millis n ns : 2 ^ 31 <= millis <= 2 ^ 32 - 1000 -> time32_sleep millis (n :: ns) = Ok (-1, 0).
Proof.
  intros Hm. unfold time32_sleep, s32, to_s32. assert (Hr : 0 <= millis mod 1000 < 1000) by (apply Z.mod_pos_bound; lia).
  replace ((- 2 ^ 31 <=? millis mod 1000 * 1000000) && (millis mod 1000 * 1000000 <? 2 ^ 31)) with true by lia. cbn [bind]. cbv zeta.
  rewrite (Z.mod_small millis (2 ^ 32)) by lia. replace (millis <? 2 ^ 31) with false by lia. cbn [sleep_loop]. unfold nanosleep. cbn [fst snd].
  assert (Q : Z.quot (millis - 2 ^ 32) 1000 < 0) by (Z.quot_rem_to_equations; lia).
  replace (Z.quot (millis - 2 ^ 32) 1000 <? 0) with true by lia. reflexivity.
Qed.
Print Assumptions sleep32_long.
Example sleep32_long_ex : time32_sleep 2592000000 [Whole 0] = Ok (-1, 0).
Proof. reflexivity. Qed.
