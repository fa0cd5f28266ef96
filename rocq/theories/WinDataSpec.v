(** Specification of the user data of the Windows poller: histories in which every call of sc_sock_poll_add and sc_sock_poll_del has
    its own data (socket/sc_sock.h:411, :424), and what is to be reported. *)
From Verif Require Import Base SockModel PollModel WinModel WinSpec.

(** The calls of [WinSpec.act], with the user data [d]. *)
Inductive dact := DAdd (a ev d : Z) (o : orac) | DDel (a ev d : Z) (o : orac) | DWait (timeout : Z) | DAnswer (an : answer) (o : Z -> orac) | DBlocked (a ev : Z).
Definition plain (c : dact) : act :=
  match c with DAdd a ev _ o => Add a ev o | DDel a ev _ o => Del a ev o | DWait t => Wait t | DAnswer an o => Answer an o | DBlocked a ev => Blocked a ev end.
Definition dstep (s : wst) (c : dact) : res (wst * out) :=
  match c with
  | DAdd a ev d o => let* r := win_add s a ev d o in Ok (fst (r : wst * Z), Ret (snd r))
  | DDel a ev d o => let* r := win_del s a ev d o in Ok (fst (r : wst * Z), Ret (snd r))
  | DWait t => let* r := wait_begin s t in Ok (fst (r : wst * began), match snd r with Done rc => Ret rc | Polls _ => Began end)
  | DAnswer an o => let* r := wait_end s an o in Ok (fst (r : wst * Z), Ret (snd r))
  | DBlocked a ev => let* s := would_block s a ev in Ok (s, Ret 0)
  end.
Fixpoint drun (s : wst) (l : list dact) : res (wst * list out) :=
  match l with
  | [] => Ok (s, [])
  | c :: l => let* r := dstep s c in let* q := drun (fst (r : wst * out)) l in Ok (fst (q : wst * list out), snd r :: snd q)
  end.

Definition upd (g : Z -> Z) (a v : Z) : Z -> Z := fun b => if b =? a then v else g b.
(** For every structure: the mask asked for (see [WinSpec.abs]), the mask in force (it lags behind while a thread polls), the data to
    be reported, and the data of the last call that was put off. *)
Record dabs := mk_dabs { d_abs : abs; d_force : Z -> Z; d_data : Z -> Z; d_last : Z -> Z }.
(** A call made while no thread polls sets the data if it changes the mask.  Of the calls put off, the last one sets the data when the
    polling ends, if the mask asked for differs from the one in force; taking a structure out takes effect at once. *)
Definition dastep (B : dabs) (c : dact) (r : out) : dabs :=
  let A := d_abs B in
  let A' := astep A (plain c) r in
  match c, r with
  | DAdd a _ d _, Ret 0 | DDel a _ d _, Ret 0 =>
    if a_poll A then mk_dabs A' (if a_mask A' a =? 0 then upd (d_force B) a 0 else d_force B) (d_data B) (upd (d_last B) a d)
    else mk_dabs A' (upd (d_force B) a (a_mask A' a)) (if a_mask A' a =? a_mask A a then d_data B else upd (d_data B) a d) (d_last B)
  | DAnswer _ _, _ => mk_dabs A' (a_mask A) (fun a => if a_mask A a =? d_force B a then d_data B a else d_last B a) (d_last B)
  | _, _ => mk_dabs A' (d_force B) (d_data B) (d_last B)
  end.
Fixpoint daruns (B : dabs) (l : list dact) (r : list out) : dabs :=
  match l, r with c :: l, x :: r => daruns (dastep B c x) l r | _, _ => B end.
Definition dabs0 : dabs := mk_dabs abs0 (fun _ => 0) (fun _ => 0) (fun _ => 0).
(** The histories of [WinSpec.legal]. *)
Fixpoint dlegal (ids : list Z) (A : abs) (s : wst) (l : list dact) : Prop :=
  match l with
  | [] => True
  | c :: l => allowed ids A (plain c) /\ forall s' r, dstep s c = Ok (s', r) -> dlegal ids (astep A (plain c) r) s' l
  end.
