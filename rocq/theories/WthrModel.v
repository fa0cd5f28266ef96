(** Model of thread/sc_thread.c, Windows part: the thread object is shared by the thread
    that starts and joins and the thread that runs, whose steps interleave.  Every
    access to a field is a step. *)
From Verif Require Import Base CStr.

(** struct sc_thread, thread/sc_thread.h:41-47; a function is a number; [wret] is None
    while indeterminate: sc_thread_init (thread/sc_thread.c:36-39) does not set it. *)
Record wobj := mk_wobj { wid : Z; wfn : Z; warg : Z; wret : option Z; werr : list Z }.
(** thread/sc_thread.c:36-39 [sc_thread_init]. *)
Definition wthr_init (o : wobj) : wobj := mk_wobj 0 (wfn o) (warg o) (wret o) (werr o).
(** thread/sc_thread.c:49-62 [sc_thread_errstr]: [msg] is what FormatMessage gives, None
    if it fails; at most 63 bytes, padded with NULs. *)
Definition wthr_errstr (o : wobj) (msg : option (list Z)) : res wobj :=
  match msg with
  | None => Ok o
  | Some msg => let* e := memcpy (werr o) 0 (firstn 63 (msg ++ repeat 0 63)) in
                Ok (mk_wobj (wid o) (wfn o) (warg o) (wret o) e)
  end.
(** Where the new thread is in thread/sc_thread.c:64-70 [sc_thread_fn]: t->fn not read;
    read; t->arg read; the function returned; t->ret written and the thread ended. *)
Inductive tpc := T0 | T1 (f : Z) | T2 (f a : Z) | T3 (v : Z) | T4.
(** Calls with the system's answers.  [h]: what _beginthreadex returns (thread/sc_thread.c:79),
    0 if it fails; [w], [c]: whether WaitForSingleObject (:98) and CloseHandle (:104)
    succeed; Join passes a place for the value, Term (:172-175) does not. *)
Inductive wop :=
| WStart (f a h : Z) (msg : option (list Z))
| WJoin (w c : bool) (msg : option (list Z))
| WTerm (w c : bool) (msg : option (list Z)).
(** Where the calling thread is: between calls; after :76; after :77; _beginthreadex
    returned (:79); at :98; at :104; at :110; at :113 (thread/sc_thread.c). *)
Inductive mpc := Idle | Fn | Arg | Store (h : Z) | Waiting | Closing (rc : Z) | Clear (rc : Z) | Out (rc : Z).
(** The process: the object, the threads with their handles, the open handles, the
    calls still to make, the position, the results and values so far, the calls of
    thread functions (thread/sc_thread.c:64-118). *)
Record win := mk_win {
  obj : wobj; kern : list (Z * tpc); hopen : list Z; todo : list wop; pc : mpc;
  outs : list (Z * Z); calls : list (Z * Z) }.

(** The state of the thread with handle [h] (for thread/sc_thread.c:98). *)
Fixpoint thread_at (k : list (Z * tpc)) (h : Z) : option tpc :=
  match k with [] => None | (i, s) :: k => if i =? h then Some s else thread_at k h end.
(** The thread [h] moves on (thread/sc_thread.c:64-70). *)
Definition move (k : list (Z * tpc)) (h : Z) (s : tpc) : list (Z * tpc) :=
  map (fun x => if fst x =? h then (h, s) else x) k.
(** A step of the thread [h], thread/sc_thread.c:64-70 [sc_thread_fn]; [run f a]: what
    function [f] returns on [a]. *)
Definition thread_step (run : Z -> Z -> Z) (h : Z) (w : win) : res win :=
  let o := obj w in
  let to s := mk_win o (move (kern w) h s) (hopen w) (todo w) (pc w) (outs w) (calls w) in
  match thread_at (kern w) h with
  | Some T0 => Ok (to (T1 (wfn o)))
  | Some (T1 f) => Ok (to (T2 f (warg o)))
  | Some (T2 f a) => Ok (mk_win o (move (kern w) h (T3 (run f a))) (hopen w) (todo w) (pc w) (outs w) (calls w ++ [(f, a)]))
  | Some (T3 v) => Ok (mk_win (mk_wobj (wid o) (wfn o) (warg o) (Some v) (werr o)) (move (kern w) h T4) (hopen w) (todo w) (pc w) (outs w) (calls w))
  | Some T4 | None => Ok w
  end.
(** The call returns (thread/sc_thread.c:85, :117). *)
Definition finish (w : win) (o : wobj) (rc v : Z) : win :=
  mk_win o (kern w) (hopen w) (tl (todo w)) Idle (outs w ++ [(rc, v)]) (calls w).
(** A step of the calling thread: thread/sc_thread.c:72-86 [sc_thread_start], :88-118
    [sc_thread_join].  Waiting for a thread that has not ended is no step; a handle that
    is not open is undefined, as is reading an indeterminate t->ret. *)
Definition main_step (w : win) : res win :=
  let o := obj w in
  let go o p := Ok (mk_win o (kern w) (hopen w) (todo w) p (outs w) (calls w)) in
  match todo w with
  | [] => Ok w
  | op :: _ =>
      match pc w, op with
      | Idle, WStart f a h _ => go (mk_wobj (wid o) f (warg o) (wret o) (werr o)) Fn
      | Idle, _ => go o (if wid o =? 0 then Out 0 else Waiting)
      | Fn, WStart f a h _ => go (mk_wobj (wid o) (wfn o) a (wret o) (werr o)) Arg
      | Arg, WStart f a h _ =>
          if h =? 0 then go o (Store 0)
          else Ok (mk_win o ((h, T0) :: kern w) (h :: hopen w) (todo w) (Store h) (outs w) (calls w))
      | Store h, WStart _ _ _ msg =>
          let o := mk_wobj h (wfn o) (warg o) (wret o) (werr o) in
          if h =? 0 then let* o := wthr_errstr o msg in Ok (finish w o (-1) 0)
          else Ok (finish w o 0 0)
      | Waiting, WJoin ok _ msg | Waiting, WTerm ok _ msg =>
          if negb (existsb (Z.eqb (wid o)) (hopen w)) then UB
          else if ok then
            match thread_at (kern w) (wid o) with
            | Some T4 => go o (Closing 0)
            | _ => Ok w
            end
          else let* o := wthr_errstr o msg in go o (Closing (-1))
      | Closing rc, WJoin _ ok msg | Closing rc, WTerm _ ok msg =>
          if ok then
            Ok (mk_win o (filter (fun x => negb ((fst x =? wid o) && match snd x with T4 => true | _ => false end)) (kern w))
                  (filter (fun x => negb (x =? wid o)) (hopen w)) (todo w) (Clear rc) (outs w) (calls w))
          else let* o := wthr_errstr o msg in go o (Clear (-1))
      | Clear rc, _ => go (mk_wobj 0 (wfn o) (warg o) (wret o) (werr o)) (Out rc)
      | Out rc, WJoin _ _ _ => let* v := or_ub (wret o) in Ok (finish w o rc v)
      | Out rc, WTerm _ _ _ => Ok (finish w o rc 0)
      | _, _ => UB
      end
  end.
(** Steps in the order of a schedule: None is the calling thread, [Some h] the thread
    with handle [h] (thread/sc_thread.c:64-118). *)
Fixpoint wthr_run (run : Z -> Z -> Z) (sched : list (option Z)) (w : win) : res win :=
  match sched with
  | [] => Ok w
  | s :: sched =>
      let* w := match s with None => main_step w | Some h => thread_step run h w end in
      wthr_run run sched w
  end.
(** The fields of the object the next step of the calling thread reads or writes besides
    t->id and t->err, which only it uses: (field, written); 0 is fn, 1 arg, 2 ret
    (thread/sc_thread.c:76, :77, :115). *)
Definition main_touch (w : win) : list (Z * bool) :=
  match todo w with
  | [] => []
  | op :: _ => match pc w, op with
               | Idle, WStart _ _ _ _ => [(0, true)]
               | Fn, _ => [(1, true)]
               | Out _, WJoin _ _ _ => [(2, false)]
               | _, _ => []
               end
  end.
(** The same for a thread at [s] (thread/sc_thread.c:68). *)
Definition thread_touch (s : tpc) : list (Z * bool) :=
  match s with T0 => [(0, false)] | T1 _ => [(1, false)] | T3 _ => [(2, true)] | _ => [] end.
