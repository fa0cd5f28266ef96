(** Model of thread/sc_thread.c, POSIX part. *)
From Verif Require Import Base CStr.

(** struct sc_thread, thread/sc_thread.h:53-56; [terr] is the array err[128]. *)
Record thread := mk_thread { tid : Z; terr : list Z }.
(** The threads of the process that were created and not joined yet, with the value
    their function returns (what thread/sc_thread.c:135, :155 act on). *)
Definition world := list (Z * Z).
(** thread/sc_thread.c:36-39 [sc_thread_init]: err is left alone. *)
Definition thr_init (t : thread) : thread := mk_thread 0 (terr t).
(** strncpy(t->err, msg, sizeof(t->err) - 1), thread/sc_thread.c:128, :137, :157: at
    most 127 bytes, padded with NULs; the last byte of err is not written. *)
Definition set_err (t : thread) (msg : list Z) : res thread :=
  let* e := memcpy (terr t) 0 (firstn 127 (msg ++ repeat 0 127)) in Ok (mk_thread (tid t) e).
(** What pthread_create does: a new thread, or an error number; then what t->id
    holds is not specified (POSIX): [junk].
    (thread/sc_thread.c:135.) *)
Inductive create := Created (id : Z) (result : Z) | Refused (rc : Z) (junk : Z).
(** thread/sc_thread.c:121-144 [sc_thread_start].  [ra]: result of pthread_attr_init;
    [msg]: what strerror says. *)
Definition thr_start (w : world) (t : thread) (ra : Z) (c : create) (msg : list Z) : res (world * thread * Z) :=
  if negb (ra =? 0) then let* t := set_err t msg in Ok (w, t, -1)
  else match c with
       | Created id result => Ok ((id, result) :: w, mk_thread id (terr t), 0)
       | Refused rc junk => let* t := set_err (mk_thread junk (terr t)) msg in Ok (w, t, rc)
       end.
(** The thread [id] in the world (for thread/sc_thread.c:155). *)
Fixpoint find_thread (w : world) (id : Z) : option Z :=
  match w with [] => None | (i, r) :: w => if i =? id then Some r else find_thread w id end.
(** The world without [id] (for thread/sc_thread.c:155). *)
Definition without (w : world) (id : Z) : world := filter (fun x => negb (fst x =? id)) w.
(** thread/sc_thread.c:146-168 [sc_thread_join]: the result and *ret.  [rj]: result of
    pthread_join; joining anything but a thread not joined yet is undefined. *)
Definition thr_join (w : world) (t : thread) (rj : Z) (msg : list Z) : res (world * thread * Z * Z) :=
  if tid t =? 0 then Ok (w, t, 0, 0)
  else
    let* r := or_ub (find_thread w (tid t)) in
    if negb (rj =? 0) then let* t := set_err t msg in Ok (w, mk_thread 0 (terr t), rj, 0)
    else Ok (without w (tid t), mk_thread 0 (terr t), 0, r).
(** thread/sc_thread.c:172-175 [sc_thread_term]. *)
Definition thr_term (w : world) (t : thread) (rj : Z) (msg : list Z) : res (world * thread * Z) :=
  let* (w, t, rc, _) := thr_join w t rj msg in Ok (w, t, rc).
(** Calls on one thread object with what the system answers (thread/sc_thread.c:121,
    :146, :172). *)
Inductive top := Start (ra : Z) (c : create) (msg : list Z) | Join (rj : Z) (msg : list Z) | Term (rj : Z) (msg : list Z).
(** One call: the world, the object, the result and *ret (0 if there is none).
    (thread/sc_thread.c:121-175.) *)
Definition thr_do (w : world) (t : thread) (o : top) : res (world * thread * Z * Z) :=
  match o with
  | Start ra c msg => let* (w, t, rc) := thr_start w t ra c msg in Ok (w, t, rc, 0)
  | Join rj msg => thr_join w t rj msg
  | Term rj msg => let* (w, t, rc) := thr_term w t rj msg in Ok (w, t, rc, 0)
  end.
(** A history of calls, with the results.
    (thread/sc_thread.c:121-175.) *)
Fixpoint thr_run (w : world) (t : thread) (l : list top) : res (world * thread * list (Z * Z)) :=
  match l with
  | [] => Ok (w, t, [])
  | o :: l =>
      let* (w, t, rc, v) := thr_do w t o in
      let* (w, t, rs) := thr_run w t l in Ok (w, t, (rc, v) :: rs)
  end.
