(** What the logger promises, on histories of calls. *)
From Coq Require Import String Ascii.
From Verif Require Import Base SigSpec StrSpec LogModel.
Local Open Scope list_scope.

(** The names of the levels, as the header lists them. *)
Definition level_table : list (list Z) := [text "DEBUG"; text "INFO"; text "WARN"; text "ERROR"; text "OFF"].
(** Upper case of an ASCII letter. *)
Definition upper (c : Z) : Z := if (97 <=? c) && (c <=? 122) then c - 32 else c.
(** [s] is the name of level [i], in any mixture of cases. *)
Definition names_level (s : list Z) (i : Z) : Prop := 0 <= i /\ zget level_table i = Some (map upper s).
(** [m] starts with the string [s] and its terminator. *)
Definition c_string (m s : list Z) : Prop := nonul s /\ exists rest, m = s ++ 0 :: rest.
(** Characters of the basic set: not negative as a signed char. *)
Definition ascii (s : list Z) : Prop := Forall (fun c => 0 <= c < 128) s.
(** What a caller has configured; the thread names are kept as text. *)
Record config := mk_config { c_init : bool; c_level : Z; c_stdout : bool; c_cb : option Z; c_name : Z -> list Z }.
(** The level named by [s], if any. *)
Definition level_of (s : list Z) : option Z :=
  let fix go i ls := match ls with
                     | [] => None
                     | n :: r => if list_eq_dec Z.eq_dec (map upper s) n then Some i else go (i + 1) r
                     end in go 0 level_table.
(** How a call changes the configuration. *)
Definition configure (c : config) (o : op) : config :=
  match o with
  | Init _ => mk_config true 1 true None (c_name c)
  | Term _ => if c_init c then mk_config false 0 false None (c_name c) else c
  | SetName t m => mk_config (c_init c) (c_level c) (c_stdout c) (c_cb c)
                     (fun u => if u =? t then firstn 31 (before_nul m) else c_name c u)
  | SetLevel m => match level_of (before_nul m) with
                  | Some i => mk_config (c_init c) i (c_stdout c) (c_cb c) (c_name c)
                  | None => c
                  end
  | SetStdout b => mk_config (c_init c) (c_level c) b (c_cb c) (c_name c)
  | SetCallback b => mk_config (c_init c) (c_level c) (c_stdout c) b (c_name c)
  | SetFile _ _ _ _ _ _ | Log _ _ _ _ _ _ _ _ => c
  end.
(** The log calls at or above the level in force, each with the configuration in force. *)
Fixpoint passed (c : config) (h : list op) : list (config * op) :=
  match h with
  | [] => []
  | o :: r => match o with
              | Log _ lv _ _ _ _ _ _ => if c_level c <=? lv then [(c, o)] else []
              | _ => []
              end ++ passed (configure c o) r
  end.

(** The line a sink gets: [date time][LEVEL][thread] message. *)
Definition line (name stamp : list Z) (lv : Z) (msg : list Z) : list Z :=
  text "[" ++ stamp ++ text "][" ++
  nth (Z.to_nat lv) [text "DEBUG"; text "INFO "; text "WARN "; text "ERROR"; text "OFF  "] [] ++
  text "][" ++ name ++ text "] " ++ msg.
(** The callback's calls due. *)
Definition called (x : config * op) : list (Z * Z * list Z) :=
  match x with
  | (c, Log _ lv msg _ _ _ _ _) => match c_cb c with Some arg => [(arg, lv, msg)] | None => [] end
  | _ => []
  end.
(** The console lines due: errors go to stderr, the rest to stdout. *)
Definition printed (to_err : bool) (x : config * op) : list Z :=
  match x with
  | (c, Log t lv msg ao _ _ _ _) =>
      if c_stdout c && Bool.eqb to_err (lv =? 3)
      then match stamp ao with Some s => line (c_name c t) s lv msg | None => [] end else []
  | _ => []
  end.
(** A message as the file gets it: the line, and the message proper. *)
Definition filed (x : config * op) : list (list Z * list Z) :=
  match x with
  | (c, Log t lv msg _ af _ _ _) =>
      match stamp af with Some s => [(line (c_name c t) s lv msg, msg)] | None => [] end
  | _ => []
  end.

(** The calls respect the interface: C strings, levels from the enumeration. *)
Definition op_ok (o : op) : Prop :=
  match o with
  | SetName _ m => exists s, c_string m s
  | SetLevel m => exists s, c_string m s /\ ascii s
  | SetFile p c _ _ _ _ => (forall m, p = Some m -> exists s, c_string m s) /\ (forall m, c = Some m -> exists s, c_string m s)
  | Log _ lv _ _ _ _ _ _ => 0 <= lv <= 4
  | _ => True
  end.
(** Everything asked of the outside for one sink works out (a time stamp has at most 100 bytes, and
    printf has no way to report more than INT_MAX bytes). *)
Definition fine (a : answers) (msg : list Z) : Prop :=
  (exists s, stamp a = Some s /\ zlen s <= 100) /\ hio a = Good /\ mio a = Good /\ zlen msg <= 2147483647.
(** The console works. *)
Definition console_fine (o : op) : Prop := match o with Log _ _ msg ao _ _ _ _ => fine ao msg | _ => True end.
(** The file works, including renaming and reopening; the file stays selected. *)
Definition file_fine (o : op) : Prop :=
  match o with
  | Log _ _ msg _ af mv ok _ => fine af msg /\ mv = true /\ ok = true
  | Init _ | Term _ | SetFile _ _ _ _ _ _ => False
  | _ => True
  end.

(** The program starts: the logger and the threads' names as the C runtime sets them up. *)
Definition start (f : files) : world := mk_world zero_logger [] [] [] f (fun _ => first_name).
(** The configuration then. *)
Definition start_config : config := mk_config false 0 false None (fun _ => text "Thread").

(** The bytes of messages proper, without their headers. *)
Fixpoint bytes (ms : list (list Z * list Z)) : Z := match ms with [] => 0 | (_, m) :: r => zlen m + bytes r end.
(** The lines, one after the other. *)
Definition lines (ms : list (list Z * list Z)) : list Z := flat_map fst ms.
(** The size at which a file is full. *)
Definition max_file : Z := 2097152.
(** A file that had [s] bytes counted when [p] started to go to it is full with the last message of [p], not before. *)
Definition full (s : Z) (p : list (list Z * list Z)) : Prop :=
  exists q m, p = q ++ [m] /\ s + bytes p > max_file /\ (q = [] \/ s + bytes q <= max_file).
(** The messages [ms], cut into the files of a rotation. *)
Definition rotated (s : Z) (ms : list (list Z * list Z)) (closed : list (list (list Z * list Z))) (last : list (list Z * list Z)) : Prop :=
  concat closed ++ last = ms /\
  match closed with [] => True | p :: r => full s p /\ Forall (full 0) r end /\
  (last = [] \/ (match closed with [] => s | _ => 0 end) + bytes last <= max_file).
