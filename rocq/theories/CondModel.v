(** Model of condition/sc_cond.c, POSIX part: sc_cond_signal and sc_cond_wait as
    threads that interleave at every access to shared state.  The pthread calls on
    a mutex and condition variable in working order succeed (POSIX; the code
    asserts it).  The Windows part (:50-99) has the same steps. *)
From Verif Require Import Base.

(** Where a thread is.  [Idle]: outside.  S_x d: in sc_cond_signal(c, d),
    condition/sc_cond.c:174-189, before the step x.  W_x: in sc_cond_wait,
    condition/sc_cond.c:191-211; [v] is the local `data`. *)
Inductive pc :=
| Idle
| S_lock (d : Z)      (* :178 pthread_mutex_lock *)
| S_data (d : Z)      (* :180 c->data = data *)
| S_done (d : Z)      (* :181 c->done = true *)
| S_wake (d : Z)      (* :184 pthread_cond_signal *)
| S_unlock (d : Z)    (* :188 pthread_mutex_unlock *)
| W_lock              (* :196 pthread_mutex_lock *)
| W_test              (* :198 while (c->done == false) *)
| W_call              (* :200 pthread_cond_wait: unlock and block, at once *)
| W_wait              (* :200 blocked *)
| W_relock            (* :200 woken, before getting the mutex again *)
| W_load              (* :205 data = c->data *)
| W_null (v : Z)      (* :206 c->data = NULL *)
| W_clear (v : Z)     (* :207 c->done = false *)
| W_unlock (v : Z).   (* :209 pthread_mutex_unlock *)
(** struct sc_cond, condition/sc_cond.h:45-57, the owner of its mutex, and the
    [threads] threads with their places. *)
Record cond := mk_cond { threads : nat; owner : option nat; cdone : bool; cdata : Z; pcs : nat -> pc }.
(** What the scheduler decides for the thread it runs: which call to start, which
    threads pthread_cond_signal wakes, a spurious wakeup, or just to run on.
    (condition/sc_cond.c:174-211.) *)
Inductive choice := Start_signal (d : Z) | Start_wait | Wake (w : list nat) | Spurious | Run.
(** Calls and returns (condition/sc_cond.h:79, :85). *)
Inductive event := Call_signal (t : nat) (d : Z) | Call_wait (t : nat) | Ret_signal (t : nat) | Ret_wait (t : nat) (v : Z).

(** Thread [t] goes to [p] (bookkeeping, no line of its own).
    (condition/sc_cond.c:174-211.) *)
Definition goto (p : nat -> pc) (t : nat) (q : pc) : nat -> pc := fun u => if Nat.eqb u t then q else p u.
(** Blocked in pthread_cond_wait, condition/sc_cond.c:200. *)
Definition blocked (p : pc) : bool := match p with W_wait => true | _ => false end.
(** pthread_cond_signal, condition/sc_cond.c:184: wakes at least one of the blocked threads if there are any
    (POSIX), here any set [w] of them. *)
Definition wake (s : cond) (w : list nat) : option (nat -> pc) :=
  if forallb (fun u => Nat.ltb u (threads s) && blocked (pcs s u)) w &&
     (negb (existsb (fun u => blocked (pcs s u)) (seq 0 (threads s))) || negb (Nat.eqb (length w) 0))
  then Some (fun u => if existsb (Nat.eqb u) w then W_relock else pcs s u) else None.
(** One step of thread [t], condition/sc_cond.c:174-211; None if it cannot take it. *)
Definition step (s : cond) (t : nat) (c : choice) : option (cond * list event) :=
  let go q := goto (pcs s) t q in
  let move q := Some (mk_cond (threads s) (owner s) (cdone s) (cdata s) (go q), []) in
  let lock q := match owner s with
                | None => Some (mk_cond (threads s) (Some t) (cdone s) (cdata s) (go q), [])
                | Some _ => None
                end in
  let unlock q e := Some (mk_cond (threads s) None (cdone s) (cdata s) (go q), e) in
  if negb (Nat.ltb t (threads s)) then None else
  match pcs s t, c with
  | Idle, Start_signal d => Some (mk_cond (threads s) (owner s) (cdone s) (cdata s) (go (S_lock d)), [Call_signal t d])
  | Idle, Start_wait => Some (mk_cond (threads s) (owner s) (cdone s) (cdata s) (go W_lock), [Call_wait t])
  | S_lock d, Run => lock (S_data d)
  | S_data d, Run => Some (mk_cond (threads s) (owner s) (cdone s) d (go (S_done d)), [])
  | S_done d, Run => Some (mk_cond (threads s) (owner s) true (cdata s) (go (S_wake d)), [])
  | S_wake d, Wake w =>
      match wake s w with
      | None => None
      | Some p => Some (mk_cond (threads s) (owner s) (cdone s) (cdata s) (goto p t (S_unlock d)), [])
      end
  | S_unlock _, Run => unlock Idle [Ret_signal t]
  | W_lock, Run => lock W_test
  | W_test, Run => if cdone s then move W_load else move W_call
  | W_call, Run => unlock W_wait []
  | W_wait, Spurious => move W_relock
  | W_relock, Run => lock W_test
  | W_load, Run => move (W_null (cdata s))
  | W_null v, Run => Some (mk_cond (threads s) (owner s) (cdone s) 0 (go (W_clear v)), [])
  | W_clear v, Run => Some (mk_cond (threads s) (owner s) false (cdata s) (go (W_unlock v)), [])
  | W_unlock v, Run => unlock Idle [Ret_wait t v]
  | _, _ => None
  end.
(** A schedule and the calls and returns it produces.
    (condition/sc_cond.c:174-211.) *)
Fixpoint exec (s : cond) (l : list (nat * choice)) : option (cond * list event) :=
  match l with
  | [] => Some (s, [])
  | (t, c) :: l =>
      match step s t c with
      | None => None
      | Some (s, e) => match exec s l with None => None | Some (s, e') => Some (s, e ++ e') end
      end
  end.
(** After sc_cond_init, condition/sc_cond.c:105-139: nothing signalled, nobody inside. *)
Definition cond_start (n : nat) : cond := mk_cond n None false 0 (fun _ => Idle).

(** ** sc_cond_init, sc_cond_term and the mutex wrapper, as resource handling *)

(** The pthread objects created and destroyed, in order.
    (condition/sc_cond.c:105-172, mutex/sc_mutex.c:65-100.) *)
Inductive obj := Attr | Mutex | Cond.
(** What happens to them, condition/sc_cond.c:105-172, mutex/sc_mutex.c:65-100. *)
Inductive pact := Create (o : obj) | Destroy (o : obj).
(** condition/sc_cond.c:105-147 [sc_cond_init].  [ra], [rm], [rc]: results of
    pthread_mutexattr_init, pthread_mutex_init, pthread_cond_init (0 or an error
    number).  The actions that took effect, the result, errno, c->init. *)
Definition cond_init (ra rm rc err : Z) : list pact * Z * Z * bool :=
  if negb (ra =? 0) then ([], -1, ra, false)
  else if negb (rm =? 0) then ([Create Attr; Destroy Attr], -1, rm, false)
  else if negb (rc =? 0) then ([Create Attr; Create Mutex; Destroy Mutex; Destroy Attr], -1, rc, false)
  else ([Create Attr; Create Mutex; Create Cond; Destroy Attr], 0, err, true).
(** condition/sc_cond.c:149-172 [sc_cond_term].  [rm], [rc]: results of the destroy
    calls; one that fails destroys nothing. *)
Definition cond_term (init : bool) (rm rc : Z) : list pact * Z * bool :=
  let errno := 0 in
  if negb init then ([], 0, init)
  else
    let a1 := if rm =? 0 then [Destroy Mutex] else [] in
    let errno := if negb (rm =? 0) then rm else errno in
    let a2 := if rc =? 0 then [Destroy Cond] else [] in
    let errno := if negb (rc =? 0) && (errno =? 0) then rc else errno in
    (a1 ++ a2, errno, false).
(** mutex/sc_mutex.c:65-92 [sc_mutex_init]. *)
Definition mutex_init (ra rm : Z) : list pact * Z :=
  if negb (ra =? 0) then ([], -1)
  else ([Create Attr] ++ (if rm =? 0 then [Create Mutex] else []) ++ [Destroy Attr], if negb (rm =? 0) then -1 else 0).
(** mutex/sc_mutex.c:94-100 [sc_mutex_term]. *)
Definition mutex_term (rm : Z) : list pact * Z :=
  (if rm =? 0 then [Destroy Mutex] else [], if negb (rm =? 0) then -1 else 0).
