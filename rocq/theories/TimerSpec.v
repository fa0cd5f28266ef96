(** Specification of timers over event traces. *)
From Verif Require Import Base TimerModel.

(** The pending timers: id, and (deadline, type, data), the deadline being the
    sum of timestamp and timeout, which may exceed 64 bits. *)
Definition pending : Type := list (Z * (Z * Z * Z)).
Definition remove_id (id : Z) (p : pending) : pending := filter (fun x => negb (fst x =? id)) p.

(** What an observer knows: the timestamp timeouts are relative to ([base]),
    how much later the current poll is ([gap]), and the pending timers. *)
Record view := mk_view { base : Z; gap : Z; pend : pending }.

(** The rules.  [slack] bounds how late a timer may be at the end of a poll,
    depending on how much time the poll covers; [oom] says whether some
    allocation may fail (the table is limited to 5592405 slots per wheel).
    Deadlines wrap at 2^64, and a timer whose deadline is UINT64_MAX is lost. *)
Inductive rule (slack : Z -> Z) (oom : bool) : view -> event -> view -> Prop :=
| R_add_fail b g p to ty d : oom = true \/ 5592405 <= zlen p ->
    rule slack oom (mk_view b g p) (EAdd to ty d INVALID) (mk_view b g p)
| R_add b g p to ty d id : 0 <= to -> id <> INVALID -> ~ In id (map fst p) -> b + to <> INVALID ->
    rule slack oom (mk_view b g p) (EAdd to ty d id) (mk_view b g ((id, (b + to, ty, d)) :: p))
| R_add_lost b g p to ty d id : 0 <= to -> id <> INVALID -> ~ In id (map fst p) -> b + to = INVALID ->
    rule slack oom (mk_view b g p) (EAdd to ty d id) (mk_view b g p)
| R_cancel b g p id : rule slack oom (mk_view b g p) (ECancel id) (mk_view b g (remove_id id p))
| R_poll b g p now : b <= now < INVALID ->
    rule slack oom (mk_view b g p) (EPoll now) (mk_view (if now - b <? 16 then b else now) (now - b) p)
| R_fire b g p id dl ty d : In (id, (dl, ty, d)) p -> dl <> INVALID -> u64 dl <= b ->
    rule slack oom (mk_view b g p) (EFire id (u64 dl) ty d) (mk_view b g (remove_id id p))
| R_done b g p now ret : now = (if g <? 16 then b + g else b) -> ret = (if g <=? 16 then 16 - g else 16) ->
    (forall id dl ty d, In (id, (dl, ty, d)) p -> now < dl + slack g) ->
    rule slack oom (mk_view b g p) (EDone now ret) (mk_view b g p)
| R_clear b g p : rule slack oom (mk_view b g p) EClear (mk_view b g []).

Inductive rules (slack : Z -> Z) (oom : bool) : view -> list event -> view -> Prop :=
| Rs_nil v : rules slack oom v [] v
| Rs_cons v e v' tr v'' : rule slack oom v e v' -> rules slack oom v' tr v'' -> rules slack oom v (e :: tr) v''.

(** Programs: any timeouts, timestamps below UINT64_MAX, polls in order;
    allocations fail only if [oom]. *)
Definition op_ok (oom : bool) (o : op) : Prop :=
  match o with Add timeout _ _ ok => 0 <= timeout < 2^64 /\ (ok = true \/ oom = true) | Cancel _ => True end.
Definition script_ok (oom : bool) (s : list (list op)) : Prop := Forall (Forall (op_ok oom)) s.
Fixpoint tops_ok (oom : bool) (last : Z) (os : list top) : Prop :=
  match os with
  | [] => True
  | TOp o :: r => op_ok oom o /\ tops_ok oom last r
  | TPoll now :: r => last <= now < INVALID /\ tops_ok oom now r
  | TClear :: r => tops_ok oom last r
  end.
(** The same for programs that poll in whole ticks, at least once per turn of
    the wheel. *)
Fixpoint tops_aligned (last : Z) (os : list top) : Prop :=
  match os with
  | [] => True
  | TOp _ :: r | TClear :: r => tops_aligned last r
  | TPoll now :: r => (now - last) mod 16 = 0 /\ now - last <= 256 /\ tops_aligned now r
  end.

(** ** Reading traces *)

(** The clock: the last timestamp the timer was given. *)
Definition clock (start : Z) (tr : list event) : Z :=
  fold_left (fun c e => match e with EPoll now => now | _ => c end) tr start.
(** The timestamp the timer counts from: a poll less than a tick after it
    leaves it alone. *)
Definition epoch (start : Z) (tr : list event) : Z :=
  fold_left (fun b e => match e with EPoll now => if now - b <? 16 then b else now | _ => b end) tr start.
(** Nothing in [tr] ends the timer [id] or reuses its id. *)
Definition quiet (id : Z) (tr : list event) : Prop :=
  forall e, In e tr ->
    match e with
    | EAdd _ _ _ id' | ECancel id' | EFire id' _ _ _ => id' <> id
    | EClear => False
    | _ => True
    end.
(** A run of a program from a fresh timer, and its trace. *)
Definition run (start : Z) (scr : list (list op)) (os : list top) (tr : list event) : Prop :=
  exists w, do_tops (mk_world (timer_init start) [] scr) os = Ok (w, tr).
