(** Model of time/sc_time.c, POSIX part.  A timespec is a pair of seconds and
    nanoseconds; clock_gettime succeeds (asserted by the code).  64-bit time_t. *)
From Verif Require Import Base.

(** A signed 64-bit result; overflow is undefined.
    (time/sc_time.c:66.) *)
Definition s64 (x : Z) : res Z := if (- 2 ^ 63 <=? x) && (x <? 2 ^ 63) then Ok x else UB.
(** time/sc_time.c:47-68 [sc_time_ms]: tv_sec * 1000 is signed, the sum unsigned. *)
Definition time_ms (ts : Z * Z) : res Z :=
  let* s := s64 (fst ts * 1000) in Ok (u64 (u64 s + u64 (Z.quot (snd ts) 1000000))).
(** time/sc_time.c:70-91 [sc_time_ns]: unsigned arithmetic. *)
Definition time_ns (ts : Z * Z) : Z := u64 (u64 (u64 (fst ts) * 1000000000) + u64 (snd ts)).
(** time/sc_time.c:93-118 [sc_time_mono_ms]: unsigned arithmetic. *)
Definition time_mono_ms (ts : Z * Z) : Z := u64 (u64 (u64 (fst ts) * 1000) + u64 (snd ts) / 1000000).
(** time/sc_time.c:120-143 [sc_time_mono_ns]: unsigned arithmetic. *)
Definition time_mono_ns (ts : Z * Z) : Z := u64 (u64 (u64 (fst ts) * 1000000000) + u64 (snd ts)).

(** What one nanosleep call does (time/sc_time.c:159): sleeps the whole time and [over]
    nanoseconds more; or is interrupted by a signal after [slept] nanoseconds; or
    fails at once with another error. *)
Inductive nap := Whole (over : Z) | Interrupted (slept : Z) | Failed (err : Z).
(** time/sc_time.c:160. *)
Definition EINTR : Z := 4.
(** nanosleep(&t, &rem), POSIX: EINVAL (22) for a negative or oversized field; else by
    [n]: the result, errno, rem and the nanoseconds spent.  An interruption after
    more than the requested time counts as none left.
    (time/sc_time.c:159.) *)
Definition nanosleep (t : Z * Z) (n : nap) : Z * Z * (Z * Z) * Z :=
  let total := fst t * 1000000000 + snd t in
  if (fst t <? 0) || (snd t <? 0) || (snd t >=? 1000000000) then (-1, 22, (0, 0), 0)
  else match n with
       | Whole over => (0, 0, (0, 0), total + over)
       | Interrupted slept =>
           let left := if slept <? total then total - slept else 0 in
           (-1, EINTR, (left / 1000000000, left mod 1000000000), slept)
       | Failed err => (-1, err, (0, 0), 0)
       end.
(** time/sc_time.c:157-160: the loop over the calls [ns]; [spent] adds up the time.
    Fuel: still asleep after them. *)
Fixpoint sleep_loop (rem : Z * Z) (ns : list nap) (spent : Z) : res (Z * Z) :=
  match ns with
  | [] => Fuel
  | n :: ns =>
      let t := rem in
      let '(rc, errno, rem, d) := nanosleep t n in
      if negb (rc =? 0) && (errno =? EINTR) then sleep_loop rem ns (spent + d) else Ok (rc, spent + d)
  end.
(** time/sc_time.c:145-164 [sc_time_sleep]: the result and the nanoseconds spent.
    (time_t) millis / 1000 divides the signed value. *)
Definition time_sleep (millis : Z) (ns : list nap) : res (Z * Z) :=
  let m := if millis <? 2 ^ 63 then millis else millis - 2 ^ 64 in
  sleep_loop (Z.quot m 1000, millis mod 1000 * 1000000) ns 0.
