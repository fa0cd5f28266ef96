(** What the socket functions promise about descriptors, on the record of the calls made. *)
From Verif Require Import Base SockModel.

(** The descriptors open after the calls [l], when those in [o] were open before; none if a call
    closes a descriptor that is not open or the system hands out one that is. *)
Fixpoint live (o : list Z) (l : list act) : option (list Z) :=
  match l with
  | [] => Some o
  | Opened f :: r => if existsb (Z.eqb f) o then None else live (f :: o) r
  | Closed f :: r => if existsb (Z.eqb f) o then live (remove Z.eq_dec f o) r else None
  | _ :: r => live o r
  end.
(** Address lists: obtained and freed one by one (a list for the source may be obtained while the
    one for the destination is held); the number still held. *)
Fixpoint held (n : Z) (l : list act) : option Z :=
  match l with
  | [] => Some n
  | Resolved :: r => held (n + 1) r
  | FreeList :: r => if 0 <? n then held (n - 1) r else None
  | _ :: r => held n r
  end.
(** The addresses a socket was asked for, in order. *)
Fixpoint tried (l : list act) : list Z :=
  match l with [] => [] | Tried i :: r => i :: tried r | _ :: r => tried r end.
(** The flags descriptor [f] was last given. *)
Fixpoint flags_of (f : Z) (l : list act) (now : option Z) : option Z :=
  match l with
  | [] => now
  | Flags g fl :: r => flags_of f r (if g =? f then Some fl else now)
  | Opened g :: r => flags_of f r (if g =? f then None else now)
  | _ :: r => flags_of f r now
  end.
(** The addresses of family [fam], or of any other family, with their positions in the list. *)
Fixpoint numbered (own : bool) (fam : Z) (i : Z) (l : list entry) : list (Z * entry) :=
  match l with
  | [] => []
  | p :: r => (if Bool.eqb own (e_family p =? fam) then [(i, p)] else []) ++ numbered own fam (i + 1) r
  end.
(** The order in which addresses are to be tried: those of the family asked for, then the others. *)
Definition candidates (fam : Z) (l : list entry) : list (Z * entry) := numbered true fam 0 l ++ numbered false fam 0 l.
(** The system hands out descriptors that are not negative. *)
Definition handed (a : Z + Z) : Prop := forall f, a = inl f -> 0 <= f.
Definition entries_ok (l : list entry) : Prop := Forall (fun p => handed (e_socket p)) l.
(** The errors a non-blocking connect reports for a connection under way. *)
Definition under_way (e : Z) : Prop := e = EINPROGRESS \/ e = EAGAIN.
(** An address no connection could be started to: no socket, or connect failed outright. *)
Definition refused (block : bool) (p : entry) : Prop :=
  (exists e, e_socket p = inr e) \/ (e_connect p <> 0 /\ (block = true \/ ~ under_way (e_connect p))).
(** The calls that set up the descriptor succeed. *)
Definition setup_ok (p : entry) : Prop :=
  (exists fl, getfl (e_fcntl p) = inl fl) /\ setfl (e_fcntl p) = 0 /\ e_reuse p = 0 /\ e_nodelay p = 0.
(** The mode of a descriptor, from its flags. *)
Definition mode_ok (block : bool) (fl : Z) : Prop := Z.testbit fl 11 = negb block.
