(** The one-slot mailbox that sc_cond has to be, with calls that act at once at one
    moment between their call and their return (linearizability). *)
From Verif Require Import Base CondModel.

(** A thread is outside, in a call that has not acted yet, or in one that has acted
    and will return. *)
Inductive status := Ready | To_signal (d : Z) | To_wait | Signalled | Received (v : Z).
(** The slot and the threads. *)
Record mail := mk_mail { slot : option Z; stat : nat -> status }.
(** Calls, returns and the moments where the call of a thread acts. *)
Inductive mev := Ev (e : event) | Act (t : nat).
Definition set_stat (f : nat -> status) (t : nat) (x : status) : nat -> status := fun u => if Nat.eqb u t then x else f u.
(** A signal fills the slot, whatever was in it; a wait takes the value out of a
    full slot. *)
Inductive mstep : mail -> mev -> mail -> Prop :=
| m_call_signal s t d : stat s t = Ready -> mstep s (Ev (Call_signal t d)) (mk_mail (slot s) (set_stat (stat s) t (To_signal d)))
| m_call_wait s t : stat s t = Ready -> mstep s (Ev (Call_wait t)) (mk_mail (slot s) (set_stat (stat s) t To_wait))
| m_signal s t d : stat s t = To_signal d -> mstep s (Act t) (mk_mail (Some d) (set_stat (stat s) t Signalled))
| m_wait s t v : stat s t = To_wait -> slot s = Some v -> mstep s (Act t) (mk_mail None (set_stat (stat s) t (Received v)))
| m_ret_signal s t : stat s t = Signalled -> mstep s (Ev (Ret_signal t)) (mk_mail (slot s) (set_stat (stat s) t Ready))
| m_ret_wait s t v : stat s t = Received v -> mstep s (Ev (Ret_wait t v)) (mk_mail (slot s) (set_stat (stat s) t Ready)).
Inductive mrun : mail -> list mev -> mail -> Prop :=
| m_nil s : mrun s [] s
| m_cons s e s1 l s2 : mstep s e s1 -> mrun s1 l s2 -> mrun s (e :: l) s2.
Definition mail_start : mail := mk_mail None (fun _ => Ready).
(** The calls and returns of a run. *)
Fixpoint visible (l : list mev) : list event :=
  match l with [] => [] | Ev e :: l => e :: visible l | Act _ :: l => visible l end.
Definition linearizable (h : list event) : Prop := exists l s, mrun mail_start l s /\ visible l = h.

(** How often [v] was sent and delivered. *)
Definition sends (v : Z) (h : list event) : nat :=
  length (filter (fun e => match e with Call_signal _ d => d =? v | _ => false end) h).
Definition receipts (v : Z) (h : list event) : nat :=
  length (filter (fun e => match e with Ret_wait _ d => d =? v | _ => false end) h).

(** States that can come up, with the calls and returns so far. *)
Definition reachable (s : cond) (h : list event) : Prop := exists n l, exec (cond_start n) l = Some (s, h).
(** The thread holds the mutex here. *)
Definition holding (p : pc) : bool :=
  match p with
  | S_data _ | S_done _ | S_wake _ | S_unlock _ | W_test | W_call | W_load | W_null _ | W_clear _ | W_unlock _ => true
  | _ => false
  end.
(** Steps of the code itself: no new call, no spurious wakeup, and a signal wakes one thread at most. *)
Definition own_step (c : choice) : bool := match c with Run => true | Wake w => Nat.leb (length w) 1 | _ => false end.

(** Objects alive after a list of actions: created and not destroyed; None if
    something is destroyed that is not alive or created twice. *)
Definition obj_eqb (a b : obj) : bool :=
  match a, b with Attr, Attr | Mutex, Mutex | Cond, Cond => true | _, _ => false end.
Fixpoint alive (l : list pact) (now : list obj) : option (list obj) :=
  match l with
  | [] => Some now
  | Create o :: l => if existsb (obj_eqb o) now then None else alive l (now ++ [o])
  | Destroy o :: l => if existsb (obj_eqb o) now then alive l (filter (fun x => negb (obj_eqb o x)) now) else None
  end.
