(** Model of logger/sc_log.c: the logger, its three kinds of sink and the file
    rotation.  Paths, names and formatted messages are lists of bytes.  The
    calls are taken one at a time: each of them holds the logger mutex while it
    works (sc_log.c:256, :267, :325, :421), so this is the order in which they
    took it.  Not modelled: the failure of the mutex calls themselves, stdio
    buffering (bytes count as written when printf returns), the result of
    fclose in set_file and in the rotation (ignored by the code as well), other
    processes touching the files, and the Windows branch. *)
From Verif Require Import Base CStr CNum IniModel.

(** logger/sc_log.h:43-50: SC_LOG_DEBUG, SC_LOG_INFO, SC_LOG_WARN, SC_LOG_ERROR, SC_LOG_OFF. *)
Definition LDEBUG : Z := 0.
(** logger/sc_log.h:46: SC_LOG_INFO. *)
Definition LINFO : Z := 1.
(** logger/sc_log.h:48: SC_LOG_ERROR. *)
Definition LERROR : Z := 3.
(** logger/sc_log.h:53-63: sc_log_levels; the position is the level.  In ASCII:
    "DEBUG", "INFO", "WARN", "ERROR", "OFF". *)
Definition level_names : list (list Z) := 
  [[68; 69; 66; 85; 71]; [73; 78; 70; 79]; [87; 65; 82; 78]; [69; 82; 82; 79; 82]; [79; 70; 70]].
(** logger/sc_log.h:70: SC_LOG_FILE_SIZE. *)
Definition FILE_SIZE : Z := 2 * 1024 * 1024.

(** logger/sc_log.c:156-169: struct sc_log.  fp is the path the stream was opened
    with; cb/arg is the registered callback's argument. *)
Record logger := mk_logger {
  fp : option (list Z); current_file : list Z; prev_file : list Z; file_size : Z;
  level : Z; inited : bool; to_stdout : bool; cb : option Z }.
(** logger/sc_log.c:171: the static storage starts zeroed; (struct sc_log){0} in :177 and :208. *)
Definition zero_logger : logger := mk_logger None (repeat 0 256) (repeat 0 256) 0 0 false false None.

(** The files (logger/sc_log.c:287, :390-392): contents per path. *)
Definition files := list Z -> option (list Z).
(** Equality of paths, used in logger/sc_log.c:390 (rename onto itself does nothing). *)
Definition same (a b : list Z) : bool := if list_eq_dec Z.eq_dec a b then true else false.
(** Change of one file, for logger/sc_log.c:287-291, :380-392. *)
Definition put (fs : files) (p : list Z) (c : option (list Z)) : files := fun q => if same q p then c else fs q.
(** The bytes in a file; a missing one has none (logger/sc_log.c:287, "a+" creates it). *)
Definition content (fs : files) (p : list Z) : list Z := match fs p with Some c => c | None => [] end.
(** rename(from, to), logger/sc_log.c:390. *)
Definition rename (fs : files) (p q : list Z) : files :=
  if same p q then fs else put (put fs q (fs p)) p None.

(** What the outside has received: stdout, stderr (logger/sc_log.c:358), the
    callback's calls (:445: argument, level, message), the files, and each
    thread's name (:72). *)
Record world := mk_world {
  lg : logger; out : list Z; err : list Z; calls : list (Z * Z * list Z); fs : files; names : Z -> list Z }.
(** logger/sc_log.c:72: thread_local char sc_name[32] = "Thread". *)
Definition first_name : list Z := [84; 104; 114; 101; 97; 100] ++ repeat 0 26.

(** The outcome of one fprintf/vfprintf: success, or failure after some bytes.
    (logger/sc_log.c:291, :344, :366, :383.) *)
Inductive io := Good | Bad (k : nat).
(** fprintf and vfprintf of [b], logger/sc_log.c:291, :344, :366, :383: the bytes that
    reach the stream and the int returned (negative also for outputs above INT_MAX). *)
Definition fprintf (b : list Z) (a : io) : list Z * Z :=
  match a with
  | Good => if zlen b <=? 2147483647 then (b, zlen b) else ([], -1)
  | Bad k => (firstn k b, -1)
  end.

(** logger/sc_log.c:192-211: sc_log_term; [ok]: fclose succeeded. *)
Definition term (l : logger) (ok : bool) : logger * Z :=
  if negb (inited l) then (l, -1)
  else (zero_logger, match fp l with Some _ => if ok then 0 else -1 | None => 0 end).
(** logger/sc_log.c:173-190: sc_log_init; [rc]: the result of the mutex initialisation. *)
Definition init (rc : Z) : logger * Z :=
  (mk_logger None (repeat 0 256) (repeat 0 256) 0 LINFO true true None, rc).

(** logger/sc_log.c:213-216: sc_log_set_thread_name, for thread [t]; [m] starts at name. *)
Definition set_thread_name (ns : Z -> list Z) (t : Z) (m : list Z) : res (Z -> list Z) :=
  let* b := strncpy (ns t) m (32 - 1) in
  Ok (fun u => if u =? t then b else ns u).

(** tolower( *a ) in logger/sc_log.c:227: char is signed, so a byte above 127 is a
    negative argument, which ISO C 7.4p1 leaves undefined. *)
Definition to_lower (c : Z) : res Z := if c <? 128 then Ok (tolower c) else UB.
(** logger/sc_log.c:218-232: sc_strcasecmp; is the result 0? *)
Fixpoint strcasecmp (a b : list Z) : res bool :=
  match a, b with
  | x :: a, y :: b =>
      if (x =? 0) && (y =? 0) then Ok true
      else let* p := to_lower x in let* q := to_lower y in
           if p - q =? 0 then strcasecmp a b else Ok false
  | _, _ => UB
  end.
(** logger/sc_log.c:238-248: the loop over sc_log_levels; [i] is the position. *)
Fixpoint find_level (str : list Z) (i : Z) (ls : list (list Z)) : res (option Z) :=
  match ls with
  | [] => Ok None
  | n :: r => let* eq := strcasecmp str (n ++ [0]) in
              if eq then Ok (Some i) else find_level str (i + 1) r
  end.
(** logger/sc_log.c:234-252: sc_log_set_level. *)
Definition set_level (l : logger) (str : list Z) : res (logger * Z) :=
  let* r := find_level str 0 level_names in
  match r with
  | Some i => Ok (mk_logger (fp l) (current_file l) (prev_file l) (file_size l) i (inited l) (to_stdout l) (cb l), 0)
  | None => Ok (l, -1)
  end.

(** logger/sc_log.c:254-259: sc_log_set_stdout. *)
Definition set_stdout (l : logger) (b : bool) : logger :=
  mk_logger (fp l) (current_file l) (prev_file l) (file_size l) (level l) (inited l) b (cb l).
(** logger/sc_log.c:322-329: sc_log_set_callback; [None]: a NULL callback. *)
Definition set_callback (l : logger) (c : option Z) : logger :=
  mk_logger (fp l) (current_file l) (prev_file l) (file_size l) (level l) (inited l) (to_stdout l) c.

(** logger/sc_log.c:264-275: the start of sc_log_set_file: close and clear the names. *)
Definition close_file (l : logger) : res logger :=
  let* p := zput (prev_file l) 0 0 in
  let* c := zput (current_file l) 0 0 in
  Ok (mk_logger None c p (file_size l) (level l) (inited l) (to_stdout l) (cb l)).
(** logger/sc_log.c:261-320: sc_log_set_file; [ok]: fopen succeeds; [nl]: the newline's
    fprintf; [tell]: ftell succeeds.  [e] is errno before the call, or as set by the
    call that failed; the new errno is returned. *)
Definition set_file (l : logger) (f : files) (prev current : option (list Z)) (ok : bool) (nl : io) (tell : bool) (e : Z)
  : res (logger * files * Z * Z) :=
  let* l := close_file l in
  match prev, current with
  | Some pm, Some cm =>
      let* np := strlen pm in
      let* nc := if 256 - 1 <=? np then Ok 0 else strlen cm in
      if (256 - 1 <=? np) || (256 - 1 <=? nc) then Ok (l, f, -1, e)
      else
        let* bp := bytes_at pm 0 (np + 1) in
        let* p := memcpy (prev_file l) 0 bp in
        let* bc := bytes_at cm 0 (nc + 1) in
        let* c := memcpy (current_file l) 0 bc in
        let l := mk_logger None c p (file_size l) (level l) (inited l) (to_stdout l) (cb l) in
        let* path := cstring c in
        if negb ok then Ok (l, f, -1, e)
        else
          let '(b, rc) := fprintf [10] nl in
          let f := put f path (Some (content f path ++ b)) in
          if rc <? 0 then Ok (l, f, -1, e)
          else if negb tell then Ok (l, f, -1, e)
          else Ok (mk_logger (Some path) c p (zlen (content f path)) (level l) (inited l) (to_stdout l) (cb l), f, 0, 0)
  | _, _ => Ok (l, f, 0, 0)
  end.

(** "%-5s" in logger/sc_log.c:344. *)
Definition pad5 (s : list Z) : list Z := s ++ repeat 32 (5 - length s).
(** logger/sc_log.c:331-353: sc_log_print_header; [stamp] is the date and time text of
    "%d-%02d-%02d %02d:%02d:%02d", none when localtime_r fails; [name] is sc_name.
    The bytes printed and the result. *)
Definition print_header (lv : Z) (name : list Z) (stamp : option (list Z)) (a : io) : res (list Z * Z) :=
  match stamp with
  | None => Ok ([], -1)
  | Some s =>
      let* str := or_ub (zget level_names lv) in
      let* n := cstring name in
      let '(b, rc) := fprintf ([91] ++ s ++ [93; 91] ++ pad5 str ++ [93; 91] ++ n ++ [93; 32]) a in
      Ok (b, if rc <? 0 then -1 else 0)
  end.

(** The outside's answers to the calls made for one sink: localtime_r, the header's
    fprintf and the message's vfprintf (logger/sc_log.c:337, :344, :366/:383). *)
Record answers := mk_answers { stamp : option (list Z); hio : io; mio : io }.

(** logger/sc_log.c:355-371: sc_log_stdout; the bytes printed to the stream and the result. *)
Definition log_stdout (lv : Z) (name msg : list Z) (a : answers) : res (list Z * Z) :=
  let* (h, rc) := print_header lv name (stamp a) (hio a) in
  if rc <? 0 then Ok (h, -1)
  else let '(b, rc) := fprintf msg (mio a) in Ok (h ++ b, if rc <? 0 then -1 else 0).

(** logger/sc_log.c:373-402: sc_log_file for the stream opened at [path]; [mv]: rename
    succeeds; [ok]: the fopen after it succeeds. *)
Definition log_file (l : logger) (f : files) (path : list Z) (lv : Z) (name msg : list Z) (a : answers) (mv ok : bool)
  : res (logger * files * Z) :=
  let* (h, rc) := print_header lv name (stamp a) (hio a) in
  let f := put f path (Some (content f path ++ h)) in
  if rc <? 0 then Ok (l, f, -1)
  else
    let '(b, size) := fprintf msg (mio a) in
    let f := put f path (Some (content f path ++ b)) in
    if size <? 0 then Ok (l, f, -1)
    else
      let sz := u64 (file_size l + size) in
      let l := mk_logger (fp l) (current_file l) (prev_file l) sz (level l) (inited l) (to_stdout l) (cb l) in
      if FILE_SIZE <? sz then
        let* cur := cstring (current_file l) in
        let* prev := cstring (prev_file l) in
        let f := if mv then rename f cur prev else f in
        if ok then
          Ok (mk_logger (Some cur) (current_file l) (prev_file l) 0 (level l) (inited l) (to_stdout l) (cb l),
              put f cur (Some []), rc)
        else Ok (mk_logger None (current_file l) (prev_file l) sz (level l) (inited l) (to_stdout l) (cb l), f, -1)
      else Ok (l, f, rc).

(** logger/sc_log.c:404-451: sc_log_log by thread [t]; [msg] is what the format and its
    arguments expand to, [ao] and [af] the answers for the console and the file,
    [crc] the callback's result. *)
Definition log (w : world) (t lv : Z) (msg : list Z) (ao af : answers) (mv ok : bool) (crc : Z) : res (world * Z) :=
  let l := lg w in
  if lv <? level l then Ok (w, 0)
  else
    let* (w, rc1) :=
      if to_stdout l then
        let* (b, rc) := log_stdout lv (names w t) msg ao in
        Ok (if lv =? LERROR then mk_world l (out w) (err w ++ b) (calls w) (fs w) (names w)
            else mk_world l (out w ++ b) (err w) (calls w) (fs w) (names w), rc)
      else Ok (w, 0) in
    let* (w, rc2) :=
      match fp l with
      | Some path =>
          let* (l, f, rc) := log_file l (fs w) path lv (names w t) msg af mv ok in
          Ok (mk_world l (out w) (err w) (calls w) f (names w), rc)
      | None => Ok (w, 0)
      end in
    let '(w, rc3) :=
      match cb l with
      | Some arg => (mk_world (lg w) (out w) (err w) (calls w ++ [(arg, lv, msg)]) (fs w) (names w), crc)
      | None => (w, 0)
      end in
    Ok (w, Z.lor (Z.lor rc1 rc2) rc3).

(** The calls of the interface (logger/sc_log.h:87-141) with the outside's answers. *)
Inductive op :=
| Init (rc : Z)
| Term (ok : bool)
| SetName (t : Z) (name : list Z)
| SetLevel (str : list Z)
| SetStdout (enable : bool)
| SetFile (prev current : option (list Z)) (ok : bool) (nl : io) (tell : bool) (e : Z)
| SetCallback (c : option Z)
| Log (t lv : Z) (msg : list Z) (ao af : answers) (mv ok : bool) (crc : Z).

(** [l] put back into the world, logger/sc_log.c:171. *)
Definition with_lg (w : world) (l : logger) : world := mk_world l (out w) (err w) (calls w) (fs w) (names w).
(** One call, logger/sc_log.c:173-451. *)
Definition step (w : world) (o : op) : res (world * Z) :=
  match o with
  | Init rc => let '(l, rc) := init rc in Ok (with_lg w l, rc)
  | Term ok => let '(l, rc) := term (lg w) ok in Ok (with_lg w l, rc)
  | SetName t m => let* ns := set_thread_name (names w) t m in
                   Ok (mk_world (lg w) (out w) (err w) (calls w) (fs w) ns, 0)
  | SetLevel s => let* (l, rc) := set_level (lg w) s in Ok (with_lg w l, rc)
  | SetStdout b => Ok (with_lg w (set_stdout (lg w) b), 0)
  | SetFile p c ok nl tell e =>
      let* (l, f, rc, _) := set_file (lg w) (fs w) p c ok nl tell e in
      Ok (mk_world l (out w) (err w) (calls w) f (names w), rc)
  | SetCallback c => Ok (with_lg w (set_callback (lg w) c), 0)
  | Log t lv msg ao af mv ok crc => log w t lv msg ao af mv ok crc
  end.
(** A history of calls.
    (logger/sc_log.c:173-451.) *)
Fixpoint run (w : world) (h : list op) : res (world * list Z) :=
  match h with
  | [] => Ok (w, [])
  | o :: r => let* (w, rc) := step w o in let* (w, rcs) := run w r in Ok (w, rc :: rcs)
  end.
