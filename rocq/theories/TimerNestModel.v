(** Model of programs whose timer callbacks call any function of the timer, also sc_timer_timeout, sc_timer_clear and
    sc_timer_term (timer/sc_timer.c).  TimerModel has callbacks that add and cancel. *)
From Verif Require Import Base TimerModel.

(** A call (timer/sc_timer.h:64-150).  [NPoll dt]: [dt] later on the clock, sc_timer_timeout with the time of the clock. *)
Inductive nop := NOp (o : op) | NPoll (dt : Z) | NClear | NTerm.
(** The timer, the ids given so far, the clock, and what the callbacks still to come do, one list per callback
    (timer/sc_timer.c:164-205). *)
Record nworld := mk_nw { nt : timer; nids : list Z; nclk : Z; nscript : list (list nop) }.

(** timer/sc_timer.c:51-58 [sc_timer_term]. *)
Definition timer_term (t : timer) : timer := mk_timer (ts t) 0 0 [].

Section Callback.
(** The callback (timer/sc_timer.c:190). *)
Variable cb : nworld -> res (nworld * list event).

(** timer/sc_timer.c:183-199 the inner loop: [n] slots left from [i].  The timer is read again after the callback. *)
Fixpoint nscan (n : nat) (w : nworld) (hd base i : Z) : res (nworld * list event) :=
  match n with
  | O => Ok (w, [])
  | S n =>
      let t := nt w in
      let* (to, ty, d) := zload (slots t) (u32 (base + i)) in
      if to <=? ts t then
        let* l := zput (slots t) (u32 (base + i)) (INVALID, ty, d) in
        let fire := EFire (Z.lor (Z.shiftl i 32) hd) to ty d in
        let* (w, e1) := cb (mk_nw (mk_timer (ts t) (head t) (wheel t) l) (nids w) (nclk w) (nscript w)) in
        let* (w, e2) := nscan n w hd (u32 (wheel (nt w) * hd)) (i + 1) in
        Ok (w, fire :: e1 ++ e2)
      else nscan n w hd base (i + 1)
  end.
(** timer/sc_timer.c:179-202 the outer loop: [n] wheels left, from [hd]. *)
Fixpoint nturn (n : nat) (w : nworld) (hd : Z) : res (nworld * list event) :=
  match n with
  | O => Ok (w, [])
  | S n =>
      let* (w, e1) := nscan (Z.to_nat (wheel (nt w))) w hd (u32 (wheel (nt w) * hd)) 0 in
      let* (w, e2) := nturn n w (Z.land (hd + 1) (WHEELS - 1)) in
      Ok (w, e1 ++ e2)
  end.
(** timer/sc_timer.c:164-205 [sc_timer_timeout]. *)
Definition ntimeout (w : nworld) (now : Z) : res (nworld * list event) :=
  let t := nt w in
  let time := u64 (now - ts t) in
  let wheels := u32 (if time / TICK <? WHEELS then time / TICK else WHEELS) in
  let ret := if u64 (TICK - time) <? TICK then u64 (TICK - time) else TICK in
  if wheels =? 0 then Ok (w, [EPoll now; EDone now ret])
  else
    let t' := mk_timer now (Z.land (u32 (head t + wheels)) (WHEELS - 1)) (wheel t) (slots t) in
    let* (w, e) := nturn (Z.to_nat wheels) (mk_nw t' (nids w) (nclk w) (nscript w)) (head t) in
    Ok (w, EPoll now :: e ++ [EDone now ret]).

(** One call, timer/sc_timer.c:51-205. *)
Definition ndo_op (w : nworld) (o : nop) : res (nworld * list event) :=
  match o with
  | NOp o =>
      let* (v, e) := do_op (mk_world (nt w) (nids w) []) o in
      Ok (mk_nw (wt v) (ids v) (nclk w) (nscript w), e)
  | NPoll dt => let now := nclk w + dt in ntimeout (mk_nw (nt w) (nids w) now (nscript w)) now
  | NClear => Ok (mk_nw (timer_clear (nt w)) (nids w) (nclk w) (nscript w), [EClear])
  | NTerm => Ok (mk_nw (timer_term (nt w)) (nids w) (nclk w) (nscript w), [EClear])
  end.
(** Several calls, timer/sc_timer.c:51-205. *)
Fixpoint ndo_ops (w : nworld) (os : list nop) : res (nworld * list event) :=
  match os with
  | [] => Ok (w, [])
  | o :: os =>
      let* (w, e1) := ndo_op w o in
      let* (w, e2) := ndo_ops w os in
      Ok (w, e1 ++ e2)
  end.
End Callback.

(** A callback takes the next entry of the script; [d] bounds the depth (timer/sc_timer.c:190). *)
Fixpoint ncallback (d : nat) (w : nworld) : res (nworld * list event) :=
  match nscript w with
  | [] => Ok (w, [])
  | os :: rest =>
      match d with
      | O => Fuel
      | S d => ndo_ops (ncallback d) (mk_nw (nt w) (nids w) (nclk w) rest) os
      end
  end.
(** A program that starts the timer at [start] (timer/sc_timer.c:44-205).  Every callback uses up an entry, so that
    many levels are enough. *)
Definition nprogram (start : Z) (scr : list (list nop)) (os : list nop) : res (nworld * list event) :=
  ndo_ops (ncallback (length scr)) (mk_nw (timer_init start) [] start scr) os.
