(** Model of logger/sc_log.c called by several threads at once.  A call is a
    program of small steps, each of which is one access to the shared state;
    the steps of different threads interleave in any order.  [atomic] is the
    build with C11 atomics (SC_ATOMIC, sc_log.c:57-69), where the level is read
    and written without the mutex.  The level's relaxed loads and stores are
    single steps of one interleaving: there is only one such variable and every
    other shared datum is accessed under the mutex.  sc_log_init and
    sc_log_term are left out: they must not run concurrently with other calls
    (sc_log.h:87-97).  Not modelled: failure of the mutex calls. *)
From Verif Require Import Base CStr IniModel LogModel.

(** The shared state but the level: struct sc_log (logger/sc_log.c:156-171; the level
    field in [r_lg] is not used) and what the outside has received (see
    [world]). *)
Record rest := mk_rest {
  r_lg : logger; r_out : list Z; r_err : list Z; r_calls : list (Z * Z * list Z); r_fs : files }.

(** What remains of a call: the return, the mutex (logger/sc_log.c:144-152), the level
    (:59-69, :242-247, :414-427), the thread's name (:215), or another step on
    the shared state by a thread whose name is given. *)
Inductive prog :=
| Done (rc : Z)
| Lock (k : prog)
| Unlock (k : prog)
| Load (k : Z -> prog)
| Store (lv : Z) (k : prog)
| Rename (m : list Z) (k : prog)
| Act (a : list Z -> rest -> res (rest * prog)).

(** Assignment of another logger structure, logger/sc_log.c:171. *)
Definition with_r (r : rest) (l : logger) : rest := mk_rest l (r_out r) (r_err r) (r_calls r) (r_fs r).
(** Output to stderr or stdout, logger/sc_log.c:358. *)
Definition print_r (r : rest) (lv : Z) (b : list Z) : rest :=
  if lv =? LERROR then mk_rest (r_lg r) (r_out r) (r_err r ++ b) (r_calls r) (r_fs r)
  else mk_rest (r_lg r) (r_out r ++ b) (r_err r) (r_calls r) (r_fs r).
(** Other contents of the files, logger/sc_log.c:287-291, :376-392. *)
Definition files_r (r : rest) (f : files) : rest := mk_rest (r_lg r) (r_out r) (r_err r) (r_calls r) f.
(** Output appended to the file open at [path], logger/sc_log.c:344, :383. *)
Definition append_r (r : rest) (path b : list Z) : rest :=
  files_r r (put (r_fs r) path (Some (content (r_fs r) path ++ b))).

(** logger/sc_log.c:443-451: the callback, unlock, return. *)
Definition log_call (lv : Z) (msg : list Z) (crc rc1 rc2 : Z) : prog :=
  Act (fun _ r =>
    match cb (r_lg r) with
    | Some arg => Ok (mk_rest (r_lg r) (r_out r) (r_err r) (r_calls r ++ [(arg, lv, msg)]) (r_fs r),
                      Unlock (Done (Z.lor (Z.lor rc1 rc2) crc)))
    | None => Ok (r, Unlock (Done (Z.lor (Z.lor rc1 rc2) 0)))
    end).
(** logger/sc_log.c:392-399: the file is opened again. *)
Definition log_reopen (k : Z -> prog) (cur : list Z) (ok : bool) : prog :=
  Act (fun _ r =>
    let l := r_lg r in
    if ok then
      Ok (with_r (files_r r (put (r_fs r) cur (Some [])))
            (mk_logger (Some cur) (current_file l) (prev_file l) 0 (level l) (inited l) (to_stdout l) (cb l)), k 0)
    else
      Ok (with_r r (mk_logger None (current_file l) (prev_file l) (file_size l) (level l) (inited l)
                      (to_stdout l) (cb l)), k (-1))).
(** logger/sc_log.c:389-390: the full file is closed and renamed. *)
Definition log_rename (k : Z -> prog) (mv ok : bool) : prog :=
  Act (fun _ r =>
    let l := r_lg r in
    let* cur := cstring (current_file l) in
    let* prev := cstring (prev_file l) in
    Ok (files_r r (if mv then rename (r_fs r) cur prev else r_fs r), log_reopen k cur ok)).
(** logger/sc_log.c:383-388: the message goes to the file and is counted. *)
Definition log_body (k : Z -> prog) (path msg : list Z) (a : answers) (mv ok : bool) : prog :=
  Act (fun _ r =>
    let '(b, size) := fprintf msg (mio a) in
    let r := append_r r path b in
    if size <? 0 then Ok (r, k (-1))
    else
      let l := r_lg r in
      let sz := u64 (file_size l + size) in
      let r := with_r r (mk_logger (fp l) (current_file l) (prev_file l) sz (level l) (inited l)
                           (to_stdout l) (cb l)) in
      if FILE_SIZE <? sz then Ok (r, log_rename k mv ok) else Ok (r, k 0)).
(** logger/sc_log.c:437, :376-381: is there a file? The header goes to it. *)
Definition log_to_file (k : Z -> prog) (lv : Z) (msg : list Z) (a : answers) (mv ok : bool) : prog :=
  Act (fun name r =>
    match fp (r_lg r) with
    | None => Ok (r, k 0)
    | Some path =>
        let* (h, rc) := print_header lv name (stamp a) (hio a) in
        let r := append_r r path h in
        if rc <? 0 then Ok (r, k (-1)) else Ok (r, log_body k path msg a mv ok)
    end).
(** logger/sc_log.c:365-370: the message goes to the console. *)
Definition log_say (k : Z -> prog) (lv : Z) (msg : list Z) (a : answers) : prog :=
  Act (fun _ r =>
    let '(b, rc) := fprintf msg (mio a) in
    Ok (print_r r lv b, k (if rc <? 0 then -1 else 0))).
(** logger/sc_log.c:431, :360-363: is the console wanted? The header goes to it. *)
Definition log_to_console (k : Z -> prog) (lv : Z) (msg : list Z) (a : answers) : prog :=
  Act (fun name r =>
    if to_stdout (r_lg r) then
      let* (h, rc) := print_header lv name (stamp a) (hio a) in
      let r := print_r r lv h in
      if rc <? 0 then Ok (r, k (-1)) else Ok (r, log_say k lv msg a)
    else Ok (r, k 0)).
(** logger/sc_log.c:431-451: what sc_log_log does under the mutex once the level has let
    the message pass. *)
Definition log_sinks (lv : Z) (msg : list Z) (ao af : answers) (mv ok : bool) (crc : Z) : prog :=
  log_to_console (fun rc1 => log_to_file (fun rc2 => log_call lv msg crc rc1 rc2) lv msg af mv ok) lv msg ao.

(** logger/sc_log.c:297-302: ftell, and the stream becomes the log file. *)
Definition file_on (path : list Z) (tell : bool) : prog :=
  Act (fun _ r =>
    let l := r_lg r in
    if tell then
      Ok (with_r r (mk_logger (Some path) (current_file l) (prev_file l) (zlen (content (r_fs r) path))
                      (level l) (inited l) (to_stdout l) (cb l)), Unlock (Done 0))
    else Ok (r, Unlock (Done (-1)))).
(** logger/sc_log.c:287-293: fopen and the empty line. *)
Definition file_open (ok : bool) (nl : io) (tell : bool) : prog :=
  Act (fun _ r =>
    let* path := cstring (current_file (r_lg r)) in
    if negb ok then Ok (r, Unlock (Done (-1)))
    else
      let '(b, rc) := fprintf [10] nl in
      Ok (append_r r path b, if rc <? 0 then Unlock (Done (-1)) else file_on path tell)).
(** logger/sc_log.c:277-285: the names are checked and copied. *)
Definition file_names (prev current : option (list Z)) (ok : bool) (nl : io) (tell : bool) : prog :=
  Act (fun _ r =>
    let l := r_lg r in
    match prev, current with
    | Some pm, Some cm =>
        let* np := strlen pm in
        let* nc := if 256 - 1 <=? np then Ok 0 else strlen cm in
        if (256 - 1 <=? np) || (256 - 1 <=? nc) then Ok (r, Unlock (Done (-1)))
        else
          let* bp := bytes_at pm 0 (np + 1) in
          let* p := memcpy (prev_file l) 0 bp in
          let* bc := bytes_at cm 0 (nc + 1) in
          let* c := memcpy (current_file l) 0 bc in
          Ok (with_r r (mk_logger None c p (file_size l) (level l) (inited l) (to_stdout l) (cb l)),
              file_open ok nl tell)
    | _, _ => Ok (r, Unlock (Done 0))
    end).

(** A call by thread [t]: logger/sc_log.c:213-329, :404-451.  The comparison with the
    level names (:218-240) reads no shared state. *)
Definition code (atomic : bool) (o : op) : res prog :=
  match o with
  | SetName _ m => Ok (Rename m (Done 0))
  | SetLevel s =>
      let* x := find_level s 0 level_names in
      Ok (match x with
          | Some i => if atomic then Store i (Done 0) else Lock (Store i (Unlock (Done 0)))
          | None => Done (-1)
          end)
  | SetStdout b => Ok (Lock (Act (fun _ r => Ok (with_r r (set_stdout (r_lg r) b), Unlock (Done 0)))))
  | SetCallback c => Ok (Lock (Act (fun _ r => Ok (with_r r (set_callback (r_lg r) c), Unlock (Done 0)))))
  | SetFile p c ok nl tell _ =>
      Ok (Lock (Act (fun _ r =>
        let* l := close_file (r_lg r) in Ok (with_r r l, file_names p c ok nl tell))))
  | Log _ lv msg ao af mv ok crc =>
      let body := log_sinks lv msg ao af mv ok crc in
      Ok (if atomic then Load (fun cur => if lv <? cur then Done 0 else Lock body)
          else Lock (Load (fun cur => if lv <? cur then Unlock (Done 0) else body)))
  | Init _ | Term _ => UB
  end.

(** The machine: the level, the other shared state, the mutex's owner, each
    thread's name (logger/sc_log.c:72) and the call it is in. *)
Record machine := mk_machine {
  m_lev : Z; m_rest : rest; m_own : option Z; m_name : Z -> list Z; m_prog : Z -> option prog }.

(** Assignment of one thread's entry, logger/sc_log.c:72. *)
Definition upd {A} (f : Z -> A) (t : Z) (v : A) : Z -> A := fun u => if u =? t then v else f u.

(** What can be seen from outside: calls and returns (logger/sc_log.h:87-141). *)
Inductive event := Inv (t : Z) (o : op) | Ret (t : Z) (rc : Z).

(** The scheduler's choice: thread [t] makes a call, or does its next step
    (logger/sc_log.c:144-147: a thread that waits for the mutex does nothing). *)
Inductive choice := Call (t : Z) (o : op) | Go (t : Z).

(** The thread does its next step, see [prog] for the lines in logger/sc_log.c:144-152 and
    :59-69.  Unlocking a mutex of another thread is undefined (POSIX,
    pthread_mutex_unlock). *)
Definition go (m : machine) (t : Z) : res (machine * list event) :=
  match m_prog m t with
  | None => Ok (m, [])
  | Some p =>
      let next lev r own nm k ev := Ok (mk_machine lev r own nm (upd (m_prog m) t k), ev) in
      match p with
      | Done rc => next (m_lev m) (m_rest m) (m_own m) (m_name m) None [Ret t rc]
      | Lock k =>
          match m_own m with
          | None => next (m_lev m) (m_rest m) (Some t) (m_name m) (Some k) []
          | Some _ => Ok (m, [])
          end
      | Unlock k =>
          match m_own m with
          | Some u => if u =? t then next (m_lev m) (m_rest m) None (m_name m) (Some k) [] else UB
          | None => UB
          end
      | Load k => next (m_lev m) (m_rest m) (m_own m) (m_name m) (Some (k (m_lev m))) []
      | Store lv k => next lv (m_rest m) (m_own m) (m_name m) (Some k) []
      | Rename s k =>
          let* b := strncpy (m_name m t) s (32 - 1) in
          next (m_lev m) (m_rest m) (m_own m) (upd (m_name m) t b) (Some k) []
      | Act a =>
          let* (r, k) := a (m_name m t) (m_rest m) in
          next (m_lev m) r (m_own m) (m_name m) (Some k) []
      end
  end.

(** One choice of the scheduler (logger/sc_log.c:213-451).  A thread that is in a call
    cannot make another one. *)
Definition mstep (atomic : bool) (m : machine) (c : choice) : res (machine * list event) :=
  match c with
  | Call t o =>
      match m_prog m t with
      | Some _ => Ok (m, [])
      | None =>
          let* p := code atomic o in
          Ok (mk_machine (m_lev m) (m_rest m) (m_own m) (m_name m) (upd (m_prog m) t (Some p)), [Inv t o])
      end
  | Go t => go m t
  end.

(** A run of the machine (logger/sc_log.c:213-451) with what is seen of it. *)
Fixpoint mrun (atomic : bool) (m : machine) (cs : list choice) : res (machine * list event) :=
  match cs with
  | [] => Ok (m, [])
  | c :: r => let* (m, e) := mstep atomic m c in
              let* (m, es) := mrun atomic m r in Ok (m, e ++ es)
  end.
