(** Model of time/sc_time.c, POSIX part, and of the clock of perf/sc_perf.c where long and time_t have 32 bits.  A timespec is a pair of
    seconds and nanoseconds, both of 32 bits; the calls of the system are those of TimeModel.v. *)
From Verif Require Import Base TimeModel.

(** A signed 32-bit result; overflow is undefined.
    (time/sc_time.c:66, perf/sc_perf.c:161.) *)
Definition s32 (x : Z) : res Z := if (- 2 ^ 31 <=? x) && (x <? 2 ^ 31) then Ok x else UB.
(** A 64-bit number converted to a signed one of 32 bits, which keeps the lower bits (time/sc_time.c:154). *)
Definition to_s32 (x : Z) : Z := let r := x mod 2 ^ 32 in if r <? 2 ^ 31 then r else r - 2 ^ 32.
(** time/sc_time.c:47-68 [sc_time_ms]: tv_sec * 1000 has the type time_t. *)
Definition time32_ms (ts : Z * Z) : res Z :=
  let* s := s32 (fst ts * 1000) in Ok (u64 (u64 s + u64 (Z.quot (snd ts) 1000000))).
(** time/sc_time.c:70-91 [sc_time_ns]: tv_sec is converted to uint64_t before the product. *)
Definition time32_ns (ts : Z * Z) : Z := u64 (u64 (u64 (fst ts) * 1000000000) + u64 (snd ts)).
(** time/sc_time.c:93-118 [sc_time_mono_ms]: converted before the product. *)
Definition time32_mono_ms (ts : Z * Z) : Z := u64 (u64 (u64 (fst ts) * 1000) + u64 (snd ts) / 1000000).
(** time/sc_time.c:120-143 [sc_time_mono_ns]: converted before the product. *)
Definition time32_mono_ns (ts : Z * Z) : Z := u64 (u64 (u64 (fst ts) * 1000000000) + u64 (snd ts)).
(** time/sc_time.c:145-164 [sc_time_sleep]: (time_t) millis / 1000 converts to 32 bits before the division; the nanoseconds fit a long. *)
Definition time32_sleep (millis : Z) (ns : list nap) : res (Z * Z) :=
  let* n := s32 (millis mod 1000 * 1000000) in
  sleep_loop (Z.quot (to_s32 millis) 1000, n) ns 0.
(** perf/sc_perf.c:151-162 [sy_time_nano]: products and sum have the type long, the result is converted to uint64_t. *)
Definition perf32_nano (ts : Z * Z) : res Z :=
  let* a := s32 (fst ts * 1000) in
  let* a := s32 (a * 1000) in
  let* a := s32 (a * 1000) in
  let* a := s32 (snd ts + a) in Ok (u64 a).
