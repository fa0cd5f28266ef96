(** The arithmetic of perf/sc_perf.c in IEEE double precision, with the
    operations of Coq's SpecFloat (round to nearest, ties to even). *)
From Verif Require Import Base.
From Coq Require Export SpecFloat.

(** perf/sc_perf.c:61-62: the type double, IEEE binary64. *)
Notation double := spec_float.
(** perf/sc_perf.c:127-132: a uint64_t converted to double. *)
Definition dbl (v : Z) : double := binary_normalize 53 1024 v 0 false.
(** perf/sc_perf.c:128: division of doubles. *)
Definition ddiv : double -> double -> double := SFdiv 53 1024.
(** perf/sc_perf.c:132,213: multiplication of doubles. *)
Definition dmul : double -> double -> double := SFmul 53 1024.
(** perf/sc_perf.c:132: addition of doubles. *)
Definition dadd : double -> double -> double := SFadd 53 1024.

(** perf/sc_perf.c:112-134 one round of [sc_read]: the value and the active
    share of an item after a reading of the value, the time enabled and the time
    running. *)
Definition dread (value active : double) (r : Z * Z * Z) : double * double :=
  let '(v, enabled, run) := r in
  let both := (enabled >? 0) && (run >? 0) in
  let n := if both then ddiv (dbl run) (dbl enabled) else dbl 1 in
  (dadd value (dmul (dbl v) n), if both then n else active).
(** perf/sc_perf.c:136-150: a cleared item. *)
Definition dzero : double := S754_zero false.
(** perf/sc_perf.c:210-214: the numbers printed for an item read once after it
    was cleared. *)
Definition dprinted (r : Z * Z * Z) : double * double :=
  let '(value, active) := dread dzero dzero r in (value, dmul active (dbl 100)).
