(** The table printed by sc_perf_end, perf/sc_perf.c:203-215, as bytes. *)
From Verif Require Import Base CNum PerfDoubleModel.
From Coq Require Import String Ascii List.

(** The bytes of a literal of the source (perf/sc_perf.c:203-214, perf/sc_perf.h:51-115). *)
Definition lit (s : string) : list Z := map (fun c => Z.of_nat (nat_of_ascii c)) (list_ascii_of_string s).
(** A field with a minus flag and the width [w]: the text and blanks up to the width (ISO C 7.21.6.1; perf/sc_perf.c:203, :207, :211). *)
Definition padded (w : Z) (s : list Z) : list Z := s ++ repeat 32 (Z.to_nat (w - zlen s)).
(** n / d rounded to an integer, to the even one if two are as near (perf/sc_perf.c:207, :211, as printf rounds by default). *)
Definition rounded (n d : Z) : Z :=
  let q := n / d in let r := n mod d in
  if 2 * r <? d then q else if d <? 2 * r then q + 1 else if Z.even q then q else q + 1.
(** A finite double that is not negative, in hundredths; printed values and shares are such (perf/sc_perf.c:207, :211-213). *)
Definition cents (x : double) : Z :=
  match x with
  | S754_finite false m e => if 0 <=? e then 100 * (Zpos m * 2 ^ e) else rounded (100 * Zpos m) (2 ^ (- e))
  | _ => 0
  end.
(** "%.2f" (perf/sc_perf.c:207, :211): at most 309 digits before the point. *)
Definition fixed2 (x : double) : list Z :=
  let h := cents x in digits 320 (h / 100) ++ [46; 48 + h mod 100 / 10; 48 + h mod 10].
(** The names of the events, perf/sc_perf.h:51-115. *)
Definition perf_names : list (list Z) :=
  [lit "cpu-clock"; lit "task-clock"; lit "page-faults"; lit "context-switches"; lit "cpu-migrations"; lit "page-fault-minor";
   lit "cpu-cycles"; lit "instructions"; lit "cache-misses"; lit "L1D-read-miss"; lit "L1I-read-miss"].
(** One line, "| %-25s | %-18s | %s  \n" (perf/sc_perf.c:203-204, :207-208, :211-213). *)
Definition table_line (a b c : list Z) : list Z :=
  lit "| " ++ padded 25 a ++ lit " | " ++ padded 18 b ++ lit " | " ++ c ++ lit "  " ++ [10].
(** perf/sc_perf.c:203-215: the table for the time in seconds and the values and percentages of the events. *)
Definition table (seconds : double) (rows : list (double * double)) : list Z :=
  [10] ++ table_line (lit "Event") (lit "Value") (lit "Measurement time") ++
  repeat 45 63 ++ [10] ++
  table_line (lit "time (seconds)") (fixed2 seconds) (lit "(100,00%)") ++
  concat (map (fun r => table_line (fst r) (fixed2 (fst (snd r))) (lit "(" ++ fixed2 (snd (snd r)) ++ lit "%)")) (combine perf_names rows)).
(** perf/sc_perf.c:191-218 [sc_perf_end]: what is printed after [total] nanoseconds when the counters read [rs]. *)
Definition perf_printed (total : Z) (rs : list (Z * Z * Z)) : list Z :=
  table (ddiv (dbl total) (dbl 1000000000)) (map dprinted rs).
