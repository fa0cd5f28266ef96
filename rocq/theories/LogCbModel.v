(** Model of logger/sc_log.c: the initialisation of its mutex, and callbacks that call the logger again. *)
From Verif Require Import Base LogModel.

(** The pthread calls made by [log_mutex_init] (logger/sc_log.c:123-134). *)
Inductive mcall := AttrInit | SetNormal | MutexInit | AttrDestroy.
(** logger/sc_log.c:118-137 [sc_log_mutex_init] (POSIX): [ra] and [rm]: what pthread_mutexattr_init and pthread_mutex_init
    return.  The calls and the result.  The results of the two other calls are ignored by the code. *)
Definition log_mutex_init (ra rm : Z) : list mcall * Z :=
  if negb (ra =? 0) then ([AttrInit], ra) else ([AttrInit; SetNormal; MutexInit; AttrDestroy], rm).
(** logger/sc_log.c:173-190 [sc_log_init] with errno [e] before: the logger, the result, errno.  The rest of the
    logger's state as in LogModel. *)
Definition log_init (ra rm e : Z) : logger * Z * Z :=
  let rc := snd (log_mutex_init ra rm) in
  (fst (init rc), rc, if negb (rc =? 0) then rc else e).
(** logger/sc_log.c:87-91, :173-190 the same on Windows: InitializeCriticalSection cannot fail. *)
Definition wlog_init (e : Z) : logger * Z * Z := (fst (init 0), 0, e).

(** What comes of a call: it returns, or waits for the mutex that its own thread holds. *)
(** (logger/sc_log.c:146, :445: PTHREAD_MUTEX_NORMAL, so that locking again waits forever.) *)
Inductive ran := Back (w : world) (rc : Z) | Stuck.
(** Does a call made by a thread that holds the mutex lock it?  logger/sc_log.c:241-247 (set_level, only for a known level),
    :256, :267, :325, :414-421 (log).  sc_log_init and sc_log_term would overwrite or destroy the locked mutex: undefined. *)
Definition locks (atomic : bool) (w : world) (o : op) : res bool :=
  match o with
  | Init _ | Term _ => UB
  | SetName _ _ => Ok false
  | SetLevel s => let* r := find_level s 0 level_names in Ok (match r with Some _ => negb atomic | None => false end)
  | SetStdout _ | SetFile _ _ _ _ _ _ | SetCallback _ => Ok true
  | Log _ lv _ _ _ _ _ _ => Ok (if atomic then negb (lv <? level (lg w)) else true)
  end.
(** The calls a callback makes, in turn (called in logger/sc_log.c:445, POSIX). *)
Fixpoint inside (atomic : bool) (w : world) (l : list op) : res ran :=
  match l with
  | [] => Ok (Back w 0)
  | o :: l =>
      let* b := locks atomic w o in
      if b then Ok Stuck else let* (w, _) := step w o in inside atomic w l
  end.
(** logger/sc_log.c:404-451 [sc_log_log] (POSIX) whose callback makes the calls [body] and returns [crc].  [log] does all up to the
    callback; it adds the callback's result, which the calls do not change. *)
Definition log_cb (atomic : bool) (w : world) (t lv : Z) (msg : list Z) (ao af : answers) (mv ok : bool) (body : list op) (crc : Z) : res ran :=
  let* (w', rc) := log w t lv msg ao af mv ok crc in
  if lv <? level (lg w) then Ok (Back w' rc)
  else
    match cb (lg w) with
    | None => Ok (Back w' rc)
    | Some _ => let* r := inside atomic w' body in
                Ok (match r with Back w _ => Back w rc | Stuck => Stuck end)
    end.
(** logger/sc_log.c:101-110, :404-451: the same on Windows, where a thread may enter its critical section again.  [body arg lv msg]: the
    calls the callback makes.  [fuel] bounds how deep calls of the callback are nested. *)
Fixpoint wlog_cb (fuel : nat) (body : Z -> Z -> list Z -> list op) (w : world) (t lv : Z) (msg : list Z) (ao af : answers) (mv ok : bool) (crc : Z) : res (world * Z) :=
  match fuel with
  | O => Fuel
  | S n =>
      let* (w', rc) := log w t lv msg ao af mv ok crc in
      if lv <? level (lg w) then Ok (w', rc)
      else
        match cb (lg w) with
        | None => Ok (w', rc)
        | Some arg =>
            let* w' := foldM (fun w o =>
              match o with
              | Log t lv msg ao af mv ok crc => let* (w, _) := wlog_cb n body w t lv msg ao af mv ok crc in Ok w
              | _ => let* (w, _) := step w o in Ok w
              end) w' (body arg lv msg) in
            Ok (w', rc)
        end
  end.
