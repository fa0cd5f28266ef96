(** Which due timers a poll fires, read off a trace: the wheel's hand. *)
From Verif Require Import Base TimerModel TimerSpec.

(** The wheels a poll passes: one per whole tick since the timestamp the timer
    counts from, at most all sixteen. *)
Definition passed (gap : Z) : Z := Z.min (gap / 16) 16.

(** The timestamp the timer counts from, and the hand.  A poll moves the hand
    by the wheels it passes; the rest of the last tick is forgotten. *)
Definition hand_step (s : Z * Z) (e : event) : Z * Z :=
  match e with
  | EPoll now => (if now - fst s <? 16 then fst s else now, (snd s + passed (now - fst s)) mod 16)
  | EClear => (fst s, 0)
  | _ => s
  end.
Definition hand (start : Z) (tr : list event) : Z := snd (fold_left hand_step tr (start, 0)).

(** A timer set with the hand at [h0] to go off after [timeout] is on the wheel
    [timeout / 16] further on; a poll that finds the hand at [h] and passes [n]
    wheels passes it. *)
Definition reached (h0 timeout h n : Z) : Prop := (h0 + timeout / 16 - h) mod 16 < n.
