(** Model of signal/sc_signal.c (POSIX part): crash signals that arrive while the handler of another one reports.
    The actions of the handler are those of FatalModel; here they are taken one at a time. *)
From Verif Require Import Base SigModel FatalModel.

(** The process: the dispositions; the handlers running, innermost first, each with its signal and the actions still to do
    (signal/sc_signal.c:425-476); the descriptors closed; what was done, by the handler of which signal, and whether the
    descriptor was open; the signal that ended the process. *)
Record crash := mk_crash {
  cdisp : Z -> action; cstack : list (Z * list fact); closed : list Z; cdone : list (Z * fact * bool); dead : option Z }.
(** A signal arrives, not blocked (SA_NODEFER, empty masks, signal/sc_signal.c:499-507), and the disposition is reset (SA_RESETHAND);
    its handler (:425-476) has its own buffer.  Only the default action and the fatal handler are modelled. *)
Definition arrive (s : sigs) (c : crash) (sig : Z) (junk buf : list Z) (caller : option Z) : res crash :=
  let a := cdisp c sig in
  match hnd a with
  | Default => Ok (mk_crash (cdisp c) (cstack c) (closed c) (cdone c) (Some sig))
  | Fatal =>
      let* l := on_fatal junk buf caller s sig in
      Ok (mk_crash (if resethand a then sigaction true sig (mk_action Default (nodefer a) (resethand a)) (cdisp c) else cdisp c)
            ((sig, l) :: cstack c) (closed c) (cdone c) None)
  | _ => UB
  end.
(** The descriptor an action uses (signal/sc_signal.c:446-466). *)
Definition fact_fd (f : fact) : option Z :=
  match f with
  | Log (Write fd _) | Log (Overrun fd _) | Trace fd | Shut fd => Some fd
  | _ => None
  end.
(** The innermost handler does its next action, or returns (signal/sc_signal.c:446-476).  Killing is a signal that arrives, taken
    only for the default action. *)
Definition go (c : crash) : res crash :=
  match cstack c with
  | [] => Ok c
  | (_, []) :: r => Ok (mk_crash (cdisp c) r (closed c) (cdone c) None)
  | (sig, f :: l) :: r =>
      let ok := match fact_fd f with Some fd => negb (existsb (Z.eqb fd) (closed c)) | None => true end in
      let c' := mk_crash (cdisp c) ((sig, l) :: r) (closed c) (cdone c ++ [(sig, f, ok)]) None in
      match f with
      | Shut fd => Ok (mk_crash (cdisp c) ((sig, l) :: r) (fd :: closed c) (cdone c') None)
      | Set_ g a => Ok (mk_crash (sigaction true g a (cdisp c)) ((sig, l) :: r) (closed c) (cdone c') None)
      | Kill g => match hnd (cdisp c g) with
                  | Default => Ok (mk_crash (cdisp c) ((sig, l) :: r) (closed c) (cdone c') (Some g))
                  | _ => UB
                  end
      | _ => Ok c'
      end
  end.
(** What happens next: the handler goes on, or a signal arrives (signal/sc_signal.c:425-476). *)
Inductive cevent := Go | Crash (sig : Z) (junk buf : list Z) (caller : option Z).
(** The events in turn; a process that has ended does nothing (signal/sc_signal.c:474). *)
Fixpoint crash_run (s : sigs) (c : crash) (l : list cevent) : res crash :=
  match l with
  | [] => Ok c
  | e :: l =>
      match dead c with
      | Some _ => Ok c
      | None =>
          let* c := match e with Go => go c | Crash sig junk buf caller => arrive s c sig junk buf caller end in
          crash_run s c l
      end
  end.
