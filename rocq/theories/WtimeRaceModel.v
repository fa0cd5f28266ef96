(** Model of the first calls of sc_time_mono_ms and sc_time_mono_ns on several threads on Windows (time/sc_time.c:93-106, :120-132): the static
    variable is read and written without a lock.  Where it is not accessed as a whole (a 32 bit program) its halves are. *)
From Verif Require Import Base TimeModel WtimeModel.

(** Where a thread is (time/sc_time.c:97-106, :123-132): before the call; having read the lower half of the variable for the test; about to write
    the variable, or its upper half; having written or found [v]; having read the lower half for the division; with the frequency it divides by. *)
Inductive rpc := RStart | RTest (lo : Z) | RWrite | RWriteHi | RHave (v : Z) | RRead (lo : Z) | RDone (f : Z).
(** The variable and the threads (time/sc_time.c:97, :123). *)
Record rsys := mk_rsys { rvar : Z; rpcs : nat -> rpc }.
(** A thread moves on; [RKeep]: the compiler uses the value it has instead of reading the variable again for the division (time/sc_time.c:106, :132). *)
Inductive rchoice := RGo | RKeep.
(** The lower half of a 64 bit number (time/sc_time.c:97, :123). *)
Definition low (v : Z) : Z := u32 v.
(** The upper half (time/sc_time.c:97, :123). *)
Definition high (v : Z) : Z := u32 (v / 2 ^ 32).
(** The number of two halves (time/sc_time.c:97, :123). *)
Definition join (lo hi : Z) : Z := hi * 2 ^ 32 + lo.
(** After the test, time/sc_time.c:98, :124. *)
Definition rtested (v : Z) : rpc := if v =? 0 then RWrite else RHave v.
(** One step of thread [t] (time/sc_time.c:97-106, :123-132); [whole]: the variable is accessed as a whole; [freq]: what QueryPerformanceFrequency gives,
    the same for all threads.  The lower half is accessed first.  A thread that is done does nothing. *)
Definition rstep (whole : bool) (freq : Z) (s : rsys) (t : nat) (c : rchoice) : rsys :=
  let go v q := mk_rsys v (fun u => if Nat.eqb u t then q else rpcs s u) in
  let v := rvar s in
  match rpcs s t with
  | RStart => go v (if whole then rtested v else RTest (low v))
  | RTest lo => go v (rtested (join lo (high v)))
  | RWrite => if whole then go freq (RHave freq) else go (join (low freq) (high v)) RWriteHi
  | RWriteHi => go (join (low v) (high freq)) (RHave freq)
  | RHave x => match c with
               | RKeep => go v (RDone x)
               | RGo => go v (if whole then RDone v else RRead (low v))
               end
  | RRead lo => go v (RDone (join lo (high v)))
  | RDone _ => s
  end.
(** A schedule (for time/sc_time.c:93-132). *)
Fixpoint rrun (whole : bool) (freq : Z) (s : rsys) (l : list (nat * rchoice)) : rsys :=
  match l with [] => s | (t, c) :: l => rrun whole freq (rstep whole freq s t c) l end.
(** Before the first call (time/sc_time.c:97, :123). *)
Definition rstart : rsys := mk_rsys 0 (fun _ => RStart).
(** The milliseconds of a thread that is done and read [count], time/sc_time.c:106: the division by the frequency it has, UB for 0.  None: not done. *)
Definition rms (s : rsys) (t : nat) (count : Z) : option (res Z) :=
  match rpcs s t with
  | RDone f => Some (if f =? 0 then UB else let* x := s64 (count * 1000) in Ok (u64 (Z.quot x f)))
  | _ => None
  end.
(** The same in nanoseconds, time/sc_time.c:132. *)
Definition rns (s : rsys) (t : nat) (count : Z) : option (res Z) :=
  match rpcs s t with
  | RDone f => Some (if f =? 0 then UB else let* x := s64 (count * 1000000000) in Ok (u64 x / u64 f))
  | _ => None
  end.
