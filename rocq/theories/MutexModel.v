(** Model of mutex/sc_mutex.c: sc_mutex_lock and sc_mutex_unlock called by any number of threads.  The pthread
    calls follow POSIX for PTHREAD_MUTEX_NORMAL (set at mutex/sc_mutex.c:78), EnterCriticalSection and LeaveCriticalSection
    their documentation.  sc_mutex_init and sc_mutex_term: CondModel.v. *)
From Verif Require Import Base.

(** Thread [t] calls sc_mutex_lock (mutex/sc_mutex.c:53, :102), the call returns, [t] calls
    sc_mutex_unlock (mutex/sc_mutex.c:58, :112; it returns at once). *)
Inductive mev := Lock (t : nat) | Locked (t : nat) | Unlock (t : nat).
(** struct sc_mutex, mutex/sc_mutex.h:46-52: the thread that holds the mutex, how often, and the threads
    inside sc_mutex_lock. *)
Record mtx := mk_mtx { m_who : option nat; m_deep : Z; m_wait : list nat }.
(** After sc_mutex_init (mutex/sc_mutex.c:41-45, :65-92). *)
Definition mtx_new : mtx := mk_mtx None 0 [].
(** [t] is inside sc_mutex_lock (mutex/sc_mutex.c:53-56, :102-110). *)
Definition m_in (t : nat) (l : list nat) : bool := existsb (Nat.eqb t) l.
(** [t] leaves sc_mutex_lock (mutex/sc_mutex.c:56, :110). *)
Definition m_out (t : nat) (l : list nat) : list nat := filter (fun u => negb (Nat.eqb u t)) l.
(** mutex/sc_mutex.c:53-56, :102-110: the lock call of [t] returns; None if it cannot yet.  A critical section ([win]) may be
    entered again by its owner. *)
Definition m_locked (win : bool) (s : mtx) (t : nat) : option mtx :=
  match m_who s with
  | None => Some (mk_mtx (Some t) 1 (m_out t (m_wait s)))
  | Some u => if win && Nat.eqb u t then Some (mk_mtx (Some t) (m_deep s + 1) (m_out t (m_wait s))) else None
  end.
(** mutex/sc_mutex.c:58-61, :112-120: undefined for a mutex the thread does not hold. *)
Definition m_unlock (s : mtx) (t : nat) : res mtx :=
  match m_who s with
  | Some u => if Nat.eqb u t then Ok (if m_deep s =? 1 then mk_mtx None 0 (m_wait s) else mk_mtx (Some u) (m_deep s - 1) (m_wait s)) else UB
  | None => UB
  end.
(** One event; None if it cannot happen: a thread inside sc_mutex_lock calls nothing
    (mutex/sc_mutex.c:53-61, :102-120). *)
Definition m_step (win : bool) (s : mtx) (e : mev) : option (res mtx) :=
  match e with
  | Lock t => if m_in t (m_wait s) then None else Some (Ok (mk_mtx (m_who s) (m_deep s) (t :: m_wait s)))
  | Locked t => if m_in t (m_wait s) then match m_locked win s t with Some s' => Some (Ok s') | None => None end else None
  | Unlock t => if m_in t (m_wait s) then None else Some (m_unlock s t)
  end.
(** A history of events from [s] (mutex/sc_mutex.c:53-61, :102-120). *)
Fixpoint m_run (win : bool) (s : mtx) (es : list mev) : option (res mtx) :=
  match es with
  | [] => Some (Ok s)
  | e :: r => match m_step win s e with
              | Some (Ok s') => m_run win s' r
              | o => o
              end
  end.
