(** What the logger promises when several threads call it. *)
From Verif Require Import Base LogModel LogSpec LogConcModel.

(** The level set to [lv]. *)
Definition relevel (l : logger) (lv : Z) : logger :=
  mk_logger (fp l) (current_file l) (prev_file l) (file_size l) lv (inited l) (to_stdout l) (cb l).
(** The state of the machine as one of the one-thread model. *)
Definition world_of (m : machine) : world :=
  mk_world (relevel (r_lg (m_rest m)) (m_lev m)) (r_out (m_rest m)) (r_err (m_rest m))
    (r_calls (m_rest m)) (r_fs (m_rest m)) (m_name m).
(** No thread is in a call and nobody holds the mutex, in world [w]. *)
Definition quiet_machine (w : world) : machine :=
  mk_machine (level (lg w)) (mk_rest (lg w) (out w) (err w) (calls w) (fs w)) None (names w) (fun _ => None).

(** The calls threads may make at the same time. *)
Definition call_ok (c : choice) : Prop :=
  match c with
  | Call _ (Init _) | Call _ (Term _) => False
  | Call t (SetName u m) => u = t /\ op_ok (SetName u m)
  | Call t (Log u lv msg ao af mv ok crc) => u = t /\ op_ok (Log u lv msg ao af mv ok crc)
  | Call _ o => op_ok o
  | Go _ => True
  end.

(** A trace with the points where calls take effect: a whole call at once, or
    for a message the comparison with the level and the output separately. *)
Inductive point :=
| Seen (e : event)
| Whole (t : Z) (o : op) (rc : Z)
| Peek (t : Z) (lv : Z) (pass : bool)
| Emit (t : Z) (o : op) (rc : Z).

(** What is seen of it. *)
Fixpoint seen (l : list point) : list event :=
  match l with
  | [] => []
  | Seen e :: r => e :: seen r
  | _ :: r => seen r
  end.

(** The points, executed one after the other by a single thread, lead from [w] to [w']. *)
Inductive serial : world -> list point -> world -> Prop :=
| serial_nil w : serial w [] w
| serial_seen w e l w' : serial w l w' -> serial w (Seen e :: l) w'
| serial_whole w t o rc w1 l w' :
    step w o = Ok (w1, rc) -> serial w1 l w' -> serial w (Whole t o rc :: l) w'
| serial_peek w t lv l w' :
    serial w l w' -> serial w (Peek t lv (level (lg w) <=? lv) :: l) w'
| serial_emit w t o rc w1 l w' :
    (* the level does not matter any more *)
    step (with_lg w (relevel (lg w) LDEBUG)) o = Ok (w1, rc) ->
    serial (with_lg w1 (relevel (lg w1) (level (lg w)))) l w' ->
    serial w (Emit t o rc :: l) w'.

(** Where a thread is: outside, called, past the level, or done. *)
Inductive phase := Idle | Called (o : op) | Passed (o : op) | Served (rc : Z).

(** The thread of a point. *)
Definition of (p : point) : Z :=
  match p with
  | Seen (Inv t _) | Seen (Ret t _) | Whole t _ _ | Peek t _ _ | Emit t _ _ => t
  end.

(** Calls that take effect at one point between call and return. *)
Inductive at_once : phase -> list point -> phase -> Prop :=
| once_nil p : at_once p [] p
| once_call t o l p : at_once (Called o) l p -> at_once Idle (Seen (Inv t o) :: l) p
| once_whole t o rc l p : at_once (Served rc) l p -> at_once (Called o) (Whole t o rc :: l) p
| once_ret t rc l p : at_once Idle l p -> at_once (Served rc) (Seen (Ret t rc) :: l) p.

(** Calls of which messages take effect at two points: the level, then the output. *)
Inductive in_two : phase -> list point -> phase -> Prop :=
| two_nil p : in_two p [] p
| two_call t o l p : in_two (Called o) l p -> in_two Idle (Seen (Inv t o) :: l) p
| two_whole t o rc l p : (forall u lv msg ao af mv ok crc, o <> Log u lv msg ao af mv ok crc) ->
    in_two (Served rc) l p -> in_two (Called o) (Whole t o rc :: l) p
| two_drop t u lv msg ao af mv ok crc l p :
    in_two (Served 0) l p -> in_two (Called (Log u lv msg ao af mv ok crc)) (Peek t lv false :: l) p
| two_pass t u lv msg ao af mv ok crc l p :
    in_two (Passed (Log u lv msg ao af mv ok crc)) l p ->
    in_two (Called (Log u lv msg ao af mv ok crc)) (Peek t lv true :: l) p
| two_emit t o rc l p : in_two (Served rc) l p -> in_two (Passed o) (Emit t o rc :: l) p
| two_ret t rc l p : in_two Idle l p -> in_two (Served rc) (Seen (Ret t rc) :: l) p.

(** The points of thread [t]. *)
Definition mine (t : Z) (l : list point) : list point := filter (fun p => of p =? t) l.

(** A step on data that other threads may access at the same time: everything
    but the mutex itself, the thread's own name, and an atomic level. *)
Definition touches (atomic : bool) (p : prog) : Prop :=
  match p with
  | Act _ => True
  | Load _ | Store _ _ => atomic = false
  | Done _ | Lock _ | Unlock _ | Rename _ _ => False
  end.
