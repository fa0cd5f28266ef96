(** Specification of the Windows poller: histories of calls by any number of threads (each step is one critical section of
    socket/sc_sock.c:1792-2141), and what the calls are supposed to come to. *)
From Verif Require Import Base SockModel PollModel WinModel.

(** ** Histories *)

(** A call of sc_sock_poll_add or sc_sock_poll_del for the structure at address [a] (socket/sc_sock.h:411, :424), the two halves
    of sc_sock_poll_wait (:448; WSAPoll answers in between), and a send or receive that would block.
    The user data of a structure is always the same, [dat a]. *)
Inductive act := Add (a ev : Z) (o : orac) | Del (a ev : Z) (o : orac) | Wait (timeout : Z) | Answer (an : answer) (o : Z -> orac) | Blocked (a ev : Z).
(** What is returned; [Began]: the thread is now inside WSAPoll (socket/sc_sock.c:2051). *)
Inductive out := Ret (rc : Z) | Began.
Definition wstep (dat : Z -> Z) (s : wst) (c : act) : res (wst * out) :=
  match c with
  | Add a ev o => let* r := win_add s a ev (dat a) o in Ok (fst (r : wst * Z), Ret (snd r))
  | Del a ev o => let* r := win_del s a ev (dat a) o in Ok (fst (r : wst * Z), Ret (snd r))
  | Wait t => let* r := wait_begin s t in Ok (fst (r : wst * began), match snd r with Done rc => Ret rc | Polls _ => Began end)
  | Answer an o => let* r := wait_end s an o in Ok (fst (r : wst * Z), Ret (snd r))
  | Blocked a ev => let* s := would_block s a ev in Ok (s, Ret 0)
  end.
Fixpoint wrun (dat : Z -> Z) (s : wst) (l : list act) : res (wst * list out) :=
  match l with
  | [] => Ok (s, [])
  | c :: l => let* r := wstep dat s c in let* q := wrun dat (fst (r : wst * out)) l in Ok (fst (q : wst * list out), snd r :: snd q)
  end.

(** ** What the calls mean *)

(** Masks: bit 0 read, bit 1 write, bit 2 edge-triggered; edge-triggered alone is nothing. *)
Definition wsettle (m : Z) : Z := if m =? 4 then 0 else m.
(** For every structure the mask asked for so far and whether it has a slot of the table; whether a thread is polling;
    the calls since it began. *)
Record abs := mk_abs { a_mask : Z -> Z; a_held : Z -> bool; a_poll : bool; a_subs : Z }.
Definition upd_mask (A : abs) (a m : Z) : abs :=
  mk_abs (fun b => if b =? a then m else a_mask A b)
         (fun b => if b =? a then (if m =? 0 then false else if a_poll A then a_held A a else true) else a_held A b)
         (a_poll A) (a_subs A + 1).
(** A call that returns 0 changes the mask at once; a call that fails changes nothing. *)
Definition astep (A : abs) (c : act) (r : out) : abs :=
  match c, r with
  | Add a ev _, Ret 0 => upd_mask A a (wsettle (Z.lor (a_mask A a) ev))
  | Del a ev _, Ret 0 => upd_mask A a (wsettle (Z.ldiff (a_mask A a) ev))
  | Wait _, Began => mk_abs (a_mask A) (a_held A) true 0
  | Answer _ _, _ => mk_abs (a_mask A) (fun a => negb (a_mask A a =? 0)) false 0
  | _, _ => A
  end.
Fixpoint aruns (A : abs) (l : list act) (r : list out) : abs :=
  match l, r with c :: l, x :: r => aruns (astep A c x) l r | _, _ => A end.
Definition abs0 : abs := mk_abs (fun _ => 0) (fun _ => false) false 0.

(** The calls the theorem is about.  Memory for the second table and the wakeup byte do not fail; WSAPoll does not fail, except
    for a socket closed meanwhile; while a thread polls, a call does not leave a structure without events that has no slot
    (see the refutations for all of these). *)
Definition allowed (ids : list Z) (A : abs) (c : act) : Prop :=
  match c with
  | Add a ev o => In a ids /\ 0 <= ev < 8 /\ m_chunk o = true /\ m_wake o = true /\
      (a_poll A = true -> wsettle (Z.lor (a_mask A a) ev) <> 0 /\ a_subs A < 2 ^ 28)
  | Del a ev o => In a ids /\ 0 <= ev < 8 /\ m_wake o = true /\
      (a_poll A = true -> (wsettle (Z.ldiff (a_mask A a) ev) = 0 -> a_held A a = true) /\ a_subs A < 2 ^ 28)
  | Wait _ => True
  | Answer an o => a_poll A = true /\ (forall i, m_events (o i) = true /\ m_chunk (o i) = true) /\
      (forall e, an = Failed e -> e = WSAENOTSOCK /\ 0 < a_subs A)
  | Blocked a ev => In a ids /\ (ev = 1 \/ ev = 2)
  end.
Fixpoint legal (dat : Z -> Z) (ids : list Z) (A : abs) (s : wst) (l : list act) : Prop :=
  match l with
  | [] => True
  | c :: l => allowed ids A c /\ forall s' r, wstep dat s c = Ok (s', r) -> legal dat ids (astep A c r) s' l
  end.
(** The structures: at most 2^19 - 1, with valid descriptors, as sc_sock_init leaves them (socket/sc_sock.c:244-250). *)
Definition fresh (ids : list Z) (f : Z -> wfd) : Prop :=
  NoDup ids /\ ~ In WAKE ids /\ zlen ids < 2 ^ 19 /\ forall a, In a ids -> f_fd (f a) <> INVALID /\ f_op (f a) = 0 /\ f_pd (f a) = None /\ f_opi (f a) = -1.

(** ** What can be seen *)

(** The slots in use but for the first, as WSAPoll sees them, with the user data that would be reported and the mode. *)
Definition row (p : wpoll) (i : Z) : list (Z * Z * Z * bool) :=
  match ev_block p, data_inner i with
  | Ok ev, Ok q =>
    match zget ev i, cell_get p q with
    | Some e, Ok c => if pf_fd e =? INVALID then [] else [(pf_fd e, pf_ev e, c_data c, Z.testbit (c_edge c) 2)]
    | _, _ => []
    end
  | _, _ => []
  end.
Definition places (from n : Z) : list Z := map (fun k => from + Z.of_nat k) (seq 0 (Z.to_nat n)).
Definition table (s : wst) : list (Z * Z * Z * bool) := flat_map (row (wp s)) (places 1 (w_cap (wp s) - 1)).
(** The row a structure should have. *)
Definition wbit (b : bool) (v : Z) : Z := if b then v else 0.
Definition want_row (f : Z -> wfd) (dat m : Z -> Z) (a : Z) : Z * Z * Z * bool :=
  (f_fd (f a), wbit (Z.testbit (m a) 0) WPOLLIN + wbit (Z.testbit (m a) 1) WPOLLOUT, dat a, Z.testbit (m a) 2).

(** ** Results *)

(** What the revents of a slot mean: bit 0 read, bit 1 write. *)
Definition rbits (r : Z) : Z := (if Z.land r WPOLLIN =? 0 then 0 else 1) + (if Z.land r WPOLLOUT =? 0 then 0 else 2).
(** The events reported for a slot: both if the connection broke; otherwise what the revents mean, less, in edge-triggered mode
    (bit 2 of [edge]), the events that were reported before (bits 0 and 1 of [edge]). *)
Definition reported (r edge : Z) : Z :=
  if negb (Z.land r (Z.lor WPOLLHUP WPOLLERR) =? 0) then 3 else if Z.testbit edge 2 then Z.ldiff (rbits r) edge else rbits r.
Definition report (r edge d : Z) : list (Z * Z) := if (r =? 0) || (reported r edge =? 0) then [] else [(reported r edge, d)].
(** The slot and the cell at a place. *)
Definition at_ (p : wpoll) (i : Z) : option (pfd * cell) :=
  match ev_block p, data_inner i with
  | Ok ev, Ok q => match zget ev i, cell_get p q with Some e, Ok c => Some (e, c) | _, _ => None end
  | _, _ => None
  end.
Definition due_at (p : wpoll) (i : Z) : list (Z * Z) :=
  match at_ p i with Some (e, c) => if pf_fd e =? INVALID then [] else report (pf_rev e) (c_edge c) (c_data c) | None => [] end.
(** The number of slots in use for which WSAPoll has something to say; [rev]: the revents by descriptor. *)
Definition answers (s : wst) (rev : Z -> Z) : Z :=
  zlen (filter (fun i => match at_ (wp s) i with Some (e, _) => negb (pf_fd e =? INVALID) && negb (rev (pf_fd e) =? 0) | None => false end) (places 0 (w_cap (wp s)))).
(** WSAPoll's answer for these revents; anything for the slots not in use. *)
Definition answers_with (s : wst) (rev : Z -> Z) (rv : list Z) : Prop :=
  zlen rv = w_cap (wp s) /\ forall i e c r, at_ (wp s) i = Some (e, c) -> pf_fd e <> INVALID -> zget rv i = Some r -> r = rev (pf_fd e).
(** The edge-triggered state of a structure: mode and the events already reported. *)
Definition edge_of (s : wst) (a : Z) : Z := match f_pd (wf s a) with Some q => match cell_get (wp s) q with Ok c => c_edge c | _ => 0 end | None => 0 end.
(** While these calls are made the structure at [a] stays registered and edge-triggered, and no send or receive on it would block. *)
Fixpoint quiet (dat : Z -> Z) (a : Z) (A : abs) (s : wst) (l : list act) : Prop :=
  Z.testbit (a_mask A a) 2 = true /\
  match l with
  | [] => True
  | c :: l => (forall ev, c <> Blocked a ev) /\ forall s' r, wstep dat s c = Ok (s', r) -> quiet dat a (astep A c r) s' l
  end.
(** The last answer of WSAPoll does not say that the connection [fd] broke. *)
Definition unbroken (fd : Z) (s : wst) : Prop := forall i e c, at_ (wp s) i = Some (e, c) -> pf_fd e = fd -> Z.land (pf_rev e) (Z.lor WPOLLHUP WPOLLERR) = 0.
(** Further calls of sc_sock_poll_wait deliver exactly [l], at most 1024 results each; then nothing is left over. *)
Fixpoint delivers (k : nat) (s : wst) (l : list (Z * Z)) : Prop :=
  (w_rem (wp s) <= 0 -> l = []) /\
  match k with
  | O => True
  | S k => w_rem (wp s) > 0 -> forall t, exists s', wait_begin s t = Ok (s', Done (zlen (w_res (wp s')))) /\ w_res (wp s') = firstn 1024 l /\ delivers k s' (skipn 1024 l)
  end.

(** ** Memory *)

Definition block_eqb (b c : block) : bool :=
  match b, c with BResults, BResults | BEvents, BEvents | BOps, BOps => true | BChunk i, BChunk j => i =? j | _, _ => false end.
(** How often a block was allocated less how often it was freed. *)
Definition net1 (b : block) (m : mact) : Z := match m with Got c => if block_eqb b c then 1 else 0 | Gave c => if block_eqb b c then -1 else 0 end.
Fixpoint net (b : block) (l : list mact) : Z := match l with [] => 0 | m :: l => net1 b m + net b l end.
(** Nothing is freed that is not allocated, nothing is lost by allocating it again, nothing remains. *)
Definition clean (l : list mact) : Prop := forall b, net b l = 0 /\ forall pre suf, l = pre ++ suf -> 0 <= net b pre <= 1.

(** ** The pipe *)

(** The sockets that are open; None: one was closed that was not open. *)
Fixpoint without (x : Z) (l : list Z) : option (list Z) :=
  match l with [] => None | y :: l => if x =? y then Some l else match without x l with Some r => Some (y :: r) | None => None end end.
Fixpoint open_after (l : list sact) (h : list Z) : option (list Z) :=
  match l with
  | [] => Some h
  | Opened x :: l => open_after l (h ++ [x])
  | Closed x :: l => match without x h with Some h => open_after l h | None => None end
  end.
