(** Endless runs of the threads of CondModel.v and fairness of the scheduler and of
    the mutex. *)
From Verif Require Import Base CondModel CondSpec.

(** A run: the state at each moment, the thread that moves next with its choice (or
    nobody moves) and the calls and returns this produces. *)
Record endless := mk_endless { state : nat -> cond; mover : nat -> option (nat * choice); says : nat -> list event }.
Definition is_run (r : endless) : Prop :=
  (exists n, state r 0 = cond_start n) /\
  forall i, match mover r i with
            | None => state r (S i) = state r i /\ says r i = []
            | Some (t, c) => step (state r i) t c = Some (state r (S i), says r i)
            end.
Definition moves (r : endless) (i t : nat) : Prop := exists c, mover r i = Some (t, c).
(** A thread that holds the mutex gets to run. *)
Definition fair_scheduler (r : endless) : Prop :=
  forall i t, holding (pcs (state r i) t) = true -> exists j, (i <= j)%nat /\ moves r j t.
(** Wants the mutex. *)
Definition wants (p : pc) : bool := match p with S_lock _ | W_lock | W_relock => true | _ => false end.
(** A thread that wants the mutex gets it, if the mutex is free again and again. *)
Definition fair_mutex (r : endless) : Prop :=
  forall i t, wants (pcs (state r i) t) = true -> (forall j, exists k, (j <= k)%nat /\ owner (state r k) = None) ->
    exists j, (i <= j)%nat /\ moves r j t.
