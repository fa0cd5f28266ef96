(** Model of condition/sc_cond.c, Windows part (:48-101), as threads that interleave at every access to shared state.
    A critical section may be entered again by the thread that holds it; leaving or sleeping by another thread is undefined. *)
From Verif Require Import Base CondModel.

(** struct sc_cond, condition/sc_cond.h:45-57 (Windows), the threads with their places (see [CondModel.pc]), and the critical section: who holds it
    and how often it was entered. *)
Record wcond := mk_wcond { wthreads : nat; wowner : option (nat * nat); wdone : bool; wdata : Z; wpcs : nat -> pc }.
(** EnterCriticalSection by [t], condition/sc_cond.c:72, :86 and at the end of SleepConditionVariableCS, :90; None: it has to wait. *)
Definition enter (o : option (nat * nat)) (t : nat) : option (nat * nat) :=
  match o with
  | None => Some (t, 1%nat)
  | Some (u, n) => if Nat.eqb u t then Some (t, S n) else None
  end.
(** LeaveCriticalSection by [t], condition/sc_cond.c:78, :98 and at the start of SleepConditionVariableCS, :90. *)
Definition leave (o : option (nat * nat)) (t : nat) : res (option (nat * nat)) :=
  match o with
  | Some (u, S n) => if Nat.eqb u t then Ok (match n with O => None | _ => Some (u, n) end) else UB
  | _ => UB
  end.
(** WakeConditionVariable, condition/sc_cond.c:77: wakes one of the blocked threads if there are any. *)
Definition wwake (s : wcond) (w : list nat) : option (nat -> pc) :=
  match w with
  | [] => if existsb (fun u => blocked (wpcs s u)) (seq 0 (wthreads s)) then None else Some (wpcs s)
  | [u] => if Nat.ltb u (wthreads s) && blocked (wpcs s u) then Some (goto (wpcs s) u W_relock) else None
  | _ => None
  end.
(** One step of thread [t], condition/sc_cond.c:70-101; None if it cannot take it.  The places are those of the POSIX functions: S_lock :72, S_data :74,
    S_done :75, S_wake :77, S_unlock :78, W_lock :86, W_test :88, W_call, W_wait and W_relock :90, W_load :94, W_null :95, W_clear :96, W_unlock :98. *)
Definition wstep (s : wcond) (t : nat) (c : choice) : res (option (wcond * list event)) :=
  let go q := goto (wpcs s) t q in
  let move q := Ok (Some (mk_wcond (wthreads s) (wowner s) (wdone s) (wdata s) (go q), [])) in
  let lock q := Ok (match enter (wowner s) t with
                    | Some o => Some (mk_wcond (wthreads s) (Some o) (wdone s) (wdata s) (go q), [])
                    | None => None
                    end) in
  let unlock q e := let* o := leave (wowner s) t in Ok (Some (mk_wcond (wthreads s) o (wdone s) (wdata s) (go q), e)) in
  if negb (Nat.ltb t (wthreads s)) then Ok None else
  match wpcs s t, c with
  | Idle, Start_signal d => Ok (Some (mk_wcond (wthreads s) (wowner s) (wdone s) (wdata s) (go (S_lock d)), [Call_signal t d]))
  | Idle, Start_wait => Ok (Some (mk_wcond (wthreads s) (wowner s) (wdone s) (wdata s) (go W_lock), [Call_wait t]))
  | S_lock d, Run => lock (S_data d)
  | S_data d, Run => Ok (Some (mk_wcond (wthreads s) (wowner s) (wdone s) d (go (S_done d)), []))
  | S_done d, Run => Ok (Some (mk_wcond (wthreads s) (wowner s) true (wdata s) (go (S_wake d)), []))
  | S_wake d, Wake w =>
      Ok (match wwake s w with
          | None => None
          | Some p => Some (mk_wcond (wthreads s) (wowner s) (wdone s) (wdata s) (goto p t (S_unlock d)), [])
          end)
  | S_unlock _, Run => unlock Idle [Ret_signal t]
  | W_lock, Run => lock W_test
  | W_test, Run => if wdone s then move W_load else move W_call
  | W_call, Run => unlock W_wait []
  | W_wait, Spurious => move W_relock
  | W_relock, Run => lock W_test
  | W_load, Run => move (W_null (wdata s))
  | W_null v, Run => Ok (Some (mk_wcond (wthreads s) (wowner s) (wdone s) 0 (go (W_clear v)), []))
  | W_clear v, Run => Ok (Some (mk_wcond (wthreads s) (wowner s) false (wdata s) (go (W_unlock v)), []))
  | W_unlock v, Run => unlock Idle [Ret_wait t v]
  | _, _ => Ok None
  end.
(** A schedule and the calls and returns it produces (condition/sc_cond.c:70-101). *)
Fixpoint wexec (s : wcond) (l : list (nat * choice)) : res (option (wcond * list event)) :=
  match l with
  | [] => Ok (Some (s, []))
  | (t, c) :: l =>
      let* r := wstep s t c in
      match r with
      | None => Ok None
      | Some (s, e) => let* r := wexec s l in Ok (match r with None => None | Some (s, e') => Some (s, e ++ e') end)
      end
  end.
(** After sc_cond_init, condition/sc_cond.c:48-56. *)
Definition wcond_start (n : nat) : wcond := mk_wcond n None false 0 (fun _ => Idle).

(** The critical section is made and deleted (condition/sc_cond.c:52, :64). *)
Inductive wact := CsInit | CsDelete.
(** condition/sc_cond.c:48-56 [sc_cond_init]: what is done, the result and c->init. *)
Definition wcond_init : list wact * Z * bool := ([CsInit], 0, true).
(** condition/sc_cond.c:58-68 [sc_cond_term]. *)
Definition wcond_term (init : bool) : list wact * Z * bool :=
  if negb init then ([], 0, init) else ([CsDelete], 0, false).
(** A user's calls of sc_cond_init (true) and sc_cond_term (false) on one object, with c->init as found first (condition/sc_cond.c:48-68). *)
Fixpoint wcond_life (init : bool) (l : list bool) : list wact * list Z * bool :=
  match l with
  | [] => ([], [], init)
  | b :: l => let '(a, rc, init) := if b then wcond_init else wcond_term init in
              let '(a', rcs, init) := wcond_life init l in (a ++ a', rc :: rcs, init)
  end.
