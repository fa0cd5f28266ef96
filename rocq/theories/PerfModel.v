(** Model of perf/sc_perf.c and perf/sc_perf.h.  Doubles are taken as rational
    numbers: rounding (see PerfDoubleModel.v) and the formatting of the printed table are
    not modelled. *)
From Coq Require Import QArith.
From Verif Require Import Base.
Local Open Scope Z_scope.

(** perf/sc_perf.h:44-48 without the name: the event type and configuration. *)
Definition event : Type := Z * Z.
(** perf/sc_perf.h:40-42 [SC_PERF_HW_CACHE]. *)
Definition hw_cache (cache op result : Z) : Z := Z.lor (Z.lor cache (Z.shiftl op 8)) (Z.shiftl result 16).
(** perf/sc_perf.h:51-115 [sc_perf_hw] with the numbers of linux/perf_event.h:
    PERF_TYPE_HARDWARE 0, SOFTWARE 1, HW_CACHE 3. *)
Definition perf_hw : list event :=
  [(1, 0) (* cpu-clock *); (1, 1) (* task-clock *); (1, 2) (* page-faults *); (1, 3) (* context-switches *);
   (1, 4) (* cpu-migrations *); (1, 5) (* page-fault-minor *);
   (0, 0) (* cpu-cycles *); (0, 1) (* instructions *); (0, 3) (* cache-misses *);
   (3, hw_cache 0 0 1) (* L1D-read-miss *); (3, hw_cache 1 0 1) (* L1I-read-miss *)].
(** perf/sc_perf.c:59-64 [struct sc_perf_item]. *)
Record item := mk_item { ev : event; value : Q; active : Q; ifd : Z }.
(** The globals, perf/sc_perf.c:54-57, :66. *)
Record perf := mk_perf { inited : bool; running : bool; total : Z; start : Z; items : list item }.
(** What a call does: opening a counter, disabled at first (perf/sc_perf.c:86-98);
    closing (:200); enabling and disabling all counters (:172, :186); reading one
    (:123); printing the total and for each event the value and active share (:203-214). *)
Inductive pact :=
| POpen (fd : Z) (e : event) | PClose (fd : Z) | PEnable | PDisable | PRead (fd : Z)
| PPrint (total : Z) (rows : list (event * Q * Q)).
(** The zeroed globals at program start (perf/sc_perf.c:54-66). *)
Definition perf0 : perf := mk_perf false false 0 0 (repeat (mk_item (0, 0) 0 0 0) (length perf_hw)).
(** perf/sc_perf.c:136-149 [sc_perf_clear]. *)
Definition perf_clear (p : perf) : perf := mk_perf false false 0 0 (map (fun e => mk_item e 0 0 (-1)) perf_hw).
(** perf/sc_perf.c:79-110 [sc_perf_set]; [fds]: the answers of perf_event_open.  None: abort. *)
Fixpoint perf_set (its : list item) (fds : list Z) : list pact * option (list item) :=
  match its with
  | [] => ([], Some [])
  | i :: its =>
      match fds with
      | [] => ([], None)
      | fd :: fds =>
          if fd =? -1 then ([], None)
          else
            let '(a, r) := perf_set its fds in
            (POpen fd (ev i) :: a,
             match r with Some r => Some (mk_item (ev i) (value i) (active i) fd :: r) | None => None end)
      end
  end.
(** perf/sc_perf.c:151-162 [sy_time_nano]: signed arithmetic, converted to uint64_t.
    [clock]: (tv_sec, tv_nsec), or None if clock_gettime fails. *)
Definition time_nano (ts : Z * Z) : res Z :=
  let x := snd ts + fst ts * 1000 * 1000 * 1000 in
  if (- 2 ^ 63 <=? x) && (x <? 2 ^ 63) then Ok (u64 x) else UB.
(** perf/sc_perf.c:164-176 [sc_perf_start].  [fds]: perf_event_open's answers,
    [enable]: prctl succeeds, [clock]: what clock_gettime gives.  The state None: abort. *)
Definition perf_start (fds : list Z) (enable : bool) (clock : option (Z * Z)) (p : perf) : res (list pact * option perf) :=
  let '(a, p) := (if negb (inited p) then
                    let p := perf_clear p in
                    let '(a, its) := perf_set (items p) fds in
                    (a, match its with Some its => Some (mk_perf true (running p) (total p) (start p) its) | None => None end)
                  else ([], Some p)) in
  match p with
  | None => Ok (a, None)
  | Some p =>
      if negb enable then Ok (a, None)
      else match clock with
           | None => Ok (a ++ [PEnable], None)
           | Some ts =>
               let* t := time_nano ts in
               Ok (a ++ [PEnable], Some (mk_perf (inited p) true (total p) t (items p)))
           end
  end.
(** perf/sc_perf.c:178-190 [sc_perf_pause]. *)
Definition perf_pause (disable : bool) (clock : option (Z * Z)) (p : perf) : res (list pact * option perf) :=
  if negb (inited p) then Ok ([], None)
  else if negb (running p) then Ok ([], Some p)
  else if negb disable then Ok ([], None)
  else match clock with
       | None => Ok ([PDisable], None)
       | Some ts =>
           let* t := time_nano ts in
           Ok ([PDisable], Some (mk_perf (inited p) false (u64 (total p + u64 (t - start p))) (start p) (items p)))
       end.
(** What reading a counter gives: the value and the times it was enabled and running,
    or less than that (None), perf/sc_perf.c:114-124. *)
Definition reading : Type := option (Z * Z * Z).
(** perf/sc_perf.c:112-134 [sc_read].  None: abort. *)
Fixpoint perf_read (its : list item) (rs : list reading) : list pact * option (list item) :=
  match its with
  | [] => ([], Some [])
  | i :: its =>
      match rs with
      | Some (v, enabled, run) :: rs =>
          let both := (enabled >? 0) && (run >? 0) in
          let n := (if both then inject_Z run / inject_Z enabled else 1)%Q in
          let active := if both then n else active i in
          let i := mk_item (ev i) (value i + inject_Z v * n)%Q active (ifd i) in
          let '(a, r) := perf_read its rs in
          (PRead (ifd i) :: a, match r with Some r => Some (i :: r) | None => None end)
      | _ => ([PRead (ifd i)], None)
      end
  end.
(** perf/sc_perf.c:192-217 [sc_perf_end]; the disable and clock arguments are those of
    the pause in it. *)
Definition perf_end (disable : bool) (clock : option (Z * Z)) (rs : list reading) (p : perf) : res (list pact * option perf) :=
  if negb (inited p) then Ok ([], None)
  else
    let* (a, p) := perf_pause disable clock p in
    match p with
    | None => Ok (a, None)
    | Some p =>
        let '(b, its) := perf_read (items p) rs in
        match its with
        | None => Ok (a ++ b, None)
        | Some its =>
            Ok (a ++ b ++ map (fun i => PClose (ifd i)) its ++ [PPrint (total p) (map (fun i => (ev i, value i, (active i * 100)%Q)) its)],
                Some (perf_clear p))
        end
    end.
