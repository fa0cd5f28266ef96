(** Model of time/sc_time.c, Windows part. *)
From Verif Require Import Base TimeModel.

(** time/sc_time.c:47-57 [sc_time_ms]; [low], [high]: the two halves of the FILETIME, an unsigned 64 bit number of
    100 ns intervals since 1601. *)
Definition wtime_ms (low high : Z) : Z := (u32 high * 2 ^ 32 + u32 low) / 10000.
(** time/sc_time.c:70-80 [sc_time_ns]: unsigned arithmetic. *)
Definition wtime_ns (low high : Z) : Z := u64 ((u32 high * 2 ^ 32 + u32 low) * 100).
(** The frequency kept in a static variable (time/sc_time.c:97-103, :123-129): asked for only while the variable is
    0; [freq]: what QueryPerformanceFrequency gives. *)
Definition wtime_freq (static freq : Z) : Z := if static =? 0 then freq else static.
(** time/sc_time.c:93-106 [sc_time_mono_ms]: count * 1000 is signed, and so is the division; the result and the static
    variable.  [count], [freq]: what QueryPerformanceCounter and QueryPerformanceFrequency
    give, signed 64 bit numbers; a frequency of 0 fails the assertion (:101; time/sc_time.c:127). *)
Definition wtime_mono_ms (static count freq : Z) : res (Z * Z) :=
  let static := wtime_freq static freq in
  if static =? 0 then UB
  else
    let* x := s64 (count * 1000) in
    Ok (u64 (Z.quot x static), static).
(** time/sc_time.c:120-132 [sc_time_mono_ns]: count * 1000000000 is signed, the division unsigned. *)
Definition wtime_mono_ns (static count freq : Z) : res (Z * Z) :=
  let static := wtime_freq static freq in
  if static =? 0 then UB
  else
    let* x := s64 (count * 1000000000) in
    Ok (u64 x / u64 static, static).
(** The same with the product wrapped to 64 bits as compilers for Windows do
    (time/sc_time.c:132). *)
Definition wtime_mono_ns_wrapped (count freq : Z) : Z := u64 (count * 1000000000) / u64 freq.
(** time/sc_time.c:145-149 [sc_time_sleep]: Sleep takes 32 bits; 0xFFFFFFFF is INFINITE.  The milliseconds slept, None for
    ever, and the result. *)
Definition wtime_sleep (millis : Z) : option Z * Z :=
  let dw := u32 millis in
  ((if dw =? 4294967295 then None else Some dw), 0).
