(** What the memory theorems say: which programs are considered, which block
    belongs to which variable, and what a store holds. *)
From Verif Require Import Base MemModel.

(** The block a pointer points into. *)
Definition block (p : ptr) : option Z :=
  match p with PNull => None | PBlk b _ => Some b end.

(** The block a variable has to give back: the one its pointer field points
    into, unless that memory is not its own (a map still using the constant
    table, a buffer over the caller's memory). *)
Definition owned (o : obj) : option Z :=
  match o with
  | ONone => None
  | OArr a => block (a_elems a)
  | OHeap h => block (h_elems h)
  | OQueue q => block (q_elems q)
  | OMap p => if peq (p_mem p) (p_empty p) then None else block (p_mem p)
  | OBuf b => if b_ref b then None else block (b_mem b)
  | OStr s => block (s_ptr s)
  | OTimer t => block (t_list t)
  | OUri u => block u
  end.

(** The blocks owned by a list of variables. *)
Fixpoint owned_all (os : list obj) : list Z :=
  match os with
  | [] => []
  | o :: r => match owned o with Some b => b :: owned_all r | None => owned_all r end
  end.

(** The blocks obtained from the allocator and not given back. *)
Fixpoint unreleased (l : list (Z * (Z * kind))) : list Z :=
  match l with
  | [] => []
  | (b, (_, Alloc)) :: r => b :: unreleased r
  | _ :: r => unreleased r
  end.

(** The program's own memory at the start: distinct blocks, none from the
    allocator, not larger than the address space. *)
Definition start (m : mem) : Prop :=
  NoDup (map fst (live m)) /\
  forall b s k, In (b, (s, k)) (live m) -> b < fresh m /\ k <> Alloc /\ 0 <= s <= ADDR_MAX.

(** [n] bytes at [p] may be read. *)
Definition readable (m : mem) (p : ptr) (n : Z) : Prop :=
  exists b off s k, p = PBlk b off /\ In (b, (s, k)) (live m) /\ 0 <= off /\ off + n <= s.

(** Calls that set up a variable, used as documented. *)
Definition allowed_new (m : mem) (c : creation) : Prop :=
  match c with
  | CArr w | CQueue w _ => 0 < w /\ 8 * w < 2^64
  | CHeap c _ | CBuf c _ => 0 <= c < 2^64
  | CMap w e c lf _ =>
      0 < w /\ 0 <= c <= 2^31 /\
      (* the constant empty table of this map type, of two items *)
      exists b, e = PBlk b w /\ In (b, (2 * w, Const)) (live m)
  | CWrap p len _ =>
      0 <= len /\ exists b off s, p = PBlk b off /\ In (b, (s, User)) (live m) /\
                    0 <= off /\ off + len <= s
  | CWrapOwn len _ _ => 0 < len
  | CStr src len _ => 0 <= len /\ (src = PNull \/ readable m src (len + 1))
  | CStrLen src len _ => 0 <= len < 2^32 /\ (src = PNull \/ readable m src len)
  | CStrFmt rc _ _ => rc < 2^31
  | CTimer => True
  | CUri full parts _ _ _ => 0 < full < 2^60 /\ 0 < parts < 2^60
  end.

(** Calls on a variable, used as documented. *)
Definition allowed_op (m : mem) (o : obj) (c : op) : Prop :=
  match o, c with
  | _, Term => True
  | OArr _, (AAdd _ | AClear | AAll) => True
  | OArr a, (ADel i | ADelUnordered i | AAt i) => 0 <= i < a_size a
  | OArr a, ADelLast => a_size a <> 0
  (* after an add that returned false only clear and term *)
  | OHeap h, (HAdd _ | HPop | HPeek) => h_bad h = false
  | OHeap _, HClear => True
  (* init has succeeded and the queue is not terminated *)
  | OQueue q, (QAddLast _ | QAddFirst _ | QDelLast | QDelFirst) => q_elems q <> PNull
  | OQueue q, QAt i => q_elems q <> PNull /\ 0 <= i
  | OQueue q, QClear => True
  | OMap _, (MPut _ _ _ | MGet _ | MClear | MEach | MDel true _ | MDel false false) => True
  (* a key other than null is found: the map has one *)
  | OMap p, MDel false true => (if p_used p then 1 else 0) < p_size p
  | OBuf b, BReserve len _ => 0 <= len /\ b_cap b + len + 4095 < 2^64
  | OBuf b, BPut src len _ =>
      0 <= len /\ b_cap b + len + 4095 < 2^64 /\ readable m src len /\
      (b_ref b = false -> block src <> block (b_mem b))
  | OBuf b, BShrink len _ => b_ref b = false /\ 0 <= len
  | OBuf _, BAccess _ pos n => 0 <= pos /\ 0 <= n /\ pos + n < 2^64
  | OBuf b, BAt pos n => 0 <= pos /\ 0 <= n /\ pos + n <= b_cap b
  | OBuf _, (BCompact | BLimit _) => True
  | OBuf b, BMove r w _ => 0 <= r <= w /\ w <= b_cap b
  | OStr _, SSet src len _ => 0 <= len /\ (src = PNull \/ readable m src (len + 1))
  | OStr s, SAppend src len _ =>
      0 <= len /\
      (readable m src (len + 1) /\ block src <> block (s_ptr s) \/
       src = PNull /\ s_ptr s = PNull)
  | OStr _, SSetFmt rc _ _ => rc < 2^31
  | OStr s, SCut h n _ _ => 0 <= h /\ 0 <= n /\ h + n <= s_len s
  | OStr _, SReplace (Some n) _ => 0 <= n < 2^32
  | OStr _, (SReplace None _ | SUse) => True
  | OTimer t, TAdd pos (Some seq) _ => 0 <= pos < 16 /\ 0 <= seq < t_wheel t
  | OTimer _, TAdd pos None _ => 0 <= pos < 16
  | OTimer t, TCancel id => 0 <= id /\ id mod 2^32 < 16 /\ id / 2^32 < t_wheel t
  | OTimer t, TVisit head i => 0 <= head < 16 /\ 0 <= i < t_wheel t
  | OTimer _, TClear => True
  | _, _ => False
  end.

(** A step of a program that uses the library as documented. *)
Definition allowed (w : world) (c : call) : Prop :=
  match c with
  | New c => allowed_new (store w) c
  | On i c => exists o, nth_error (vars w) i = Some o /\ allowed_op (store w) o c
  end.

(** The states such programs reach, whatever the allocator answers. *)
Inductive reached (m0 : mem) : world -> Prop :=
| at_start : reached m0 (mk_world [] m0)
| after w c w' : reached m0 w -> allowed w c -> step w c = Ok w' -> reached m0 w'.

(** Terminate variables 0 to [n] - 1. *)
Fixpoint term_all (n : nat) (w : world) : res world :=
  match n with
  | O => Ok w
  | S n' => let* w := term_all n' w in step w (On n' Term)
  end.

(** The allocator refuses every request of the call. *)
Definition refused (c : op) : Prop :=
  match c with
  | AAdd a | HAdd a | QAddLast a | QAddFirst a | MPut _ _ a | BReserve _ a | BShrink _ a
  | BPut _ _ a | SSet _ _ a | SSetFmt _ _ a | SAppend _ _ a | SCut _ _ _ a | SReplace _ a
  | TAdd _ _ a => a = Fail
  | Term => False
  | _ => True
  end.
