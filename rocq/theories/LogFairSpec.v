(** Endless runs of the threads of LogConcModel.v and fairness of the scheduler and
    of the mutex. *)
From Verif Require Import Base LogModel LogSpec LogConcModel LogConcSpec.

(** A run: the state at each moment, the choice of the scheduler (or nobody moves) and
    the calls and returns this produces. *)
Record endless := mk_endless { state : nat -> machine; pick : nat -> option choice; says : nat -> list event }.
Definition is_run (atomic : bool) (w0 : world) (r : endless) : Prop :=
  state r 0 = quiet_machine w0 /\
  forall i, match pick r i with
            | None => state r (S i) = state r i /\ says r i = []
            | Some c => call_ok c /\ mstep atomic (state r i) c = Ok (state r (S i), says r i)
            end.
Definition asks (p : prog) : bool := match p with Lock _ => true | _ => false end.
(** A thread in a call that does not wait for the mutex gets to run. *)
Definition fair_scheduler (r : endless) : Prop :=
  forall i t p, m_prog (state r i) t = Some p -> asks p = false -> exists j, (i <= j)%nat /\ pick r j = Some (Go t).
(** A thread that waits for the mutex gets it, if the mutex is free again and again. *)
Definition fair_mutex (r : endless) : Prop :=
  forall i t p, m_prog (state r i) t = Some p -> asks p = true ->
    (forall j, exists k, (j <= k)%nat /\ m_own (state r k) = None) ->
    exists j, (i <= j)%nat /\ pick r j = Some (Go t) /\ m_own (state r j) = None.
