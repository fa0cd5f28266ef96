(** Model of signal/sc_signal.c (POSIX part): the signal-safe printf, the log
    function and the shutdown handler.  64-bit long and pointers, 32-bit int. *)
From Verif Require Import Base CStr CNum ScModel.

(** An argument of the va_list: an integer of type (unsigned) int, long or long long
    (w = 1, 2, 3), a string or NULL, a pointer.  Reading an argument with another
    type is undefined (ISO C 7.16.1.1) except that signed and unsigned are
    interchangeable for values both types hold; a missing argument too.  The code
    reads pointers as unsigned long long, which is taken to work. *)
Inductive arg := AInt (w v : Z) | AStr (s : option (list Z)) | APtr (v : Z).
(** Width of the types read in signal/sc_signal.c:76-84 by [w]. *)
Definition bits (w : Z) : Z := if w =? 1 then 32 else 64.
(** signal/sc_signal.c:76-79 [get_uint]. *)
Definition get_uint (w : Z) (args : list arg) : res (Z * list arg) :=
  match args with
  | AInt w' v :: r => if (w =? w') && (0 <=? v) && (v <? 2 ^ bits w) then Ok (v, r) else UB
  | _ => UB
  end.
(** signal/sc_signal.c:81-84 [get_int]. *)
Definition get_int (w : Z) (args : list arg) : res (Z * list arg) :=
  match args with
  | AInt w' v :: r => if (w =? w') && (- 2 ^ (bits w - 1) <=? v) && (v <? 2 ^ (bits w - 1)) then Ok (v, r) else UB
  | _ => UB
  end.
(** signal/sc_signal.c:86, :152, get_uint(va, PSIZE). *)
Definition get_ptr (args : list arg) : res (Z * list arg) :=
  match args with APtr v :: r => Ok (v, r) | _ => UB end.
(** signal/sc_signal.c:113-114, the string argument; "(null)" for NULL. *)
Definition get_str (args : list arg) : res (list Z * list arg) :=
  match args with
  | AStr None :: r => Ok ([40; 110; 117; 108; 108; 41; 0], r)
  | AStr (Some s) :: r => Ok (s, r)
  | _ => UB
  end.
(** signal/sc_signal.c:127-130, :136-139, :154-156: the digit loops,
    do { dst[31 - (len++)] = digit } while (u /= base). *)
Fixpoint put_digits (fuel : nat) (digit : Z -> Z) (base u : Z) (dst : list Z) (len : Z) : res (list Z * Z) :=
  match fuel with
  | O => Fuel
  | S fuel =>
      let* dst := zput dst (31 - len) (digit (u mod base)) in
      let u := u / base in
      if u =? 0 then Ok (dst, len + 1) else put_digits fuel digit base u dst (len + 1)
  end.
(** signal/sc_signal.c:90, :155: arr[u % 16]. *)
Definition hex_digit (d : Z) : Z := if d <? 10 then 48 + d else 87 + d.
(** signal/sc_signal.c:128, :137: (char) ('0' + d). *)
Definition dec_digit (d : Z) : Z := 48 + d.
(** signal/sc_signal.c:148, :160: str = &dst[32 - len], len bytes. *)
Definition digits_text (dst : list Z) (len : Z) : res (list Z) := bytes_at dst (32 - len) len.
(** signal/sc_signal.c:120-148: %u, %d and their l, ll forms; [w] is pos - orig and
    [c] the conversion character.  None is `return -1`.  The array dst is
    uninitialised: [junk]. *)
Definition conv_int (junk : list Z) (w c : Z) (args : list arg) : res (option (list Z * list arg)) :=
  if c =? 117 then
    let* (u, args) := get_uint w args in
    let* (dst, len) := put_digits 64 dec_digit 10 u junk 0 in
    let* s := digits_text dst len in Ok (Some (s, args))
  else if c =? 100 then
    let* (i, args) := get_int w args in
    (* -i overflows for the least value *)
    let* u := (if i <? 0 then if i =? INT64_MIN then UB else Ok (- i) else Ok i) in
    let* (dst, len) := put_digits 64 dec_digit 10 u junk 0 in
    let* (dst, len) := (if i <? 0 then let* dst := zput dst (31 - len) 45 in Ok (dst, len + 1) else Ok (dst, len)) in
    let* s := digits_text dst len in Ok (Some (s, args))
  else Ok None.
(** signal/sc_signal.c:150-160: %p. *)
Definition conv_ptr (junk : list Z) (args : list arg) : res (list Z * list arg) :=
  let* (u, args) := get_ptr args in
  let* (dst, len) := put_digits 64 hex_digit 16 u junk 0 in
  let* dst := zput dst (31 - len) 120 in
  let* dst := zput dst (31 - (len + 1)) 48 in
  let* s := digits_text dst (len + 2) in Ok (s, args).
(** signal/sc_signal.c:110-170: one directive; [l] is the format behind the '%'.  The
    text, the format behind the directive, the arguments left. *)
Definition directive (junk l : list Z) (args : list arg) : res (option (list Z * list Z * list arg)) :=
  let* c := zload l 0 in
  if c =? 115 then
    let* (s, args) := get_str args in
    let* n := strlen s in
    let* s := bytes_at s 0 n in Ok (Some (s, skipn 1 l, args))
  else if (c =? 108) || (c =? 100) || (c =? 117) then
    let* p := (if c =? 108 then let* d := zload l 1 in Ok (if d =? 108 then 2 else 1) else Ok 0) in
    let* c := zload l p in
    let* r := conv_int junk (p + 1) c args in
    match r with
    | None => Ok None
    | Some (s, args) => Ok (Some (s, skipn (Z.to_nat (p + 1)) l, args))
    end
  else if c =? 112 then
    let* (s, args) := conv_ptr junk args in Ok (Some (s, skipn 1 l, args))
  else if c =? 37 then Ok (Some ([37], skipn 1 l, args))
  else Ok None.
(** signal/sc_signal.c:101-186: the loop; [l] is the format from pos on, [out] and
    [cap] are out - buf and out_cap. *)
Fixpoint vsn_loop (fuel : nat) (junk buf : list Z) (out cap : Z) (l : list Z) (args : list arg) : res (list Z * Z) :=
  match fuel with
  | O => Fuel
  | S fuel =>
      let* c := zload l 0 in
      if c =? 0 then let* buf := zput buf out 0 in Ok (buf, i32 out)
      else
        let* d := (if c =? 37 then directive junk (skipn 1 l) args
                   else let* (s, r) := span (fun c => negb (c =? 0) && negb (c =? 37)) l in Ok (Some (s, r, args))) in
        match d with
        | None => Ok (buf, -1)
        | Some (s, r, args) =>
            let len := if zlen s <? cap then zlen s else cap in
            let* x := bytes_at s 0 len in
            let* buf := memcpy buf out x in
            vsn_loop fuel junk buf (out + len) (cap - len) r args
        end
  end.
(** signal/sc_signal.c:88-187 [sc_signal_vsnprintf], :189-199 [sc_signal_snprintf]: the buffer
    and the result. *)
Definition sig_vsnprintf (junk buf : list Z) (sz : Z) (fmt : list Z) (args : list arg) : res (list Z * Z) :=
  vsn_loop (S (length fmt)) junk buf 0 (if sz =? 0 then 0 else sz - 1) fmt args.

(** What the process does in signal/sc_signal.c:385-423, :518-529: write(fd, bytes), _Exit(code), or write with a count
    beyond the buffer (bytes the buffer does not have). *)
Inductive act := Write (fd : Z) (bytes : list Z) | Exit (code : Z) | Overrun (fd count : Z).
(** signal/sc_signal.c:518-529 [sc_signal_log]. *)
Definition sig_log (junk buf : list Z) (fd sz : Z) (fmt : list Z) (args : list arg) : res (list Z * list act) :=
  let* (buf, wr) := sig_vsnprintf junk buf sz fmt args in
  let n := u64 wr in
  Ok (buf, [if n <=? zlen buf then Write fd (firstn (Z.to_nat n) buf) else Overrun fd n]).
(** The globals, signal/sc_signal.c:58, :69, :74, and errno. *)
Record sigs := mk_sigs { log_fd : Z; shutdown_fd : Z; will_shutdown : bool; errno_ : Z }.
(** signal/sc_signal.c:397: "Recv : %s, (%d) \n". *)
Definition T_recv : list Z := [82; 101; 99; 118; 32; 58; 32; 37; 115; 44; 32; 40; 37; 100; 41; 32; 10; 0].
(** signal/sc_signal.c:400: "Forcing shut down! \n". *)
Definition T_force : list Z := [70; 111; 114; 99; 105; 110; 103; 32; 115; 104; 117; 116; 32; 100; 111; 119; 110; 33; 32; 10; 0].
(** signal/sc_signal.c:407-408: "Sending shutdown command. \n". *)
Definition T_send : list Z := [83; 101; 110; 100; 105; 110; 103; 32; 115; 104; 117; 116; 100; 111; 119; 110; 32; 99; 111; 109; 109; 97; 110; 100; 46; 32; 10; 0].
(** signal/sc_signal.c:411-413: "Failed to send shutdown command, shutting down immediately! \n". *)
Definition T_fail : list Z := [70; 97; 105; 108; 101; 100; 32; 116; 111; 32; 115; 101; 110; 100; 32; 115; 104; 117; 116; 100; 111; 119; 110; 32; 99; 111; 109; 109; 97; 110; 100; 44; 32; 115; 104; 117; 116; 116; 105; 110; 103; 32; 100; 111; 119; 110; 32; 105; 109; 109; 101; 100; 105; 97; 116; 101; 108; 121; 33; 32; 10; 0].
(** signal/sc_signal.c:417-418: "No shutdown handler, shutting down! \n". *)
Definition T_none : list Z := [78; 111; 32; 115; 104; 117; 116; 100; 111; 119; 110; 32; 104; 97; 110; 100; 108; 101; 114; 44; 32; 115; 104; 117; 116; 116; 105; 110; 103; 32; 100; 111; 119; 110; 33; 32; 10; 0].
(** signal/sc_signal.c:392: "SIGINT". *)
Definition T_int : list Z := [83; 73; 71; 73; 78; 84; 0].
(** signal/sc_signal.c:394: "SIGTERM". *)
Definition T_term : list Z := [83; 73; 71; 84; 69; 82; 77; 0].
(** signal/sc_signal.c:389: "Shutdown signal". *)
Definition T_other : list Z := [83; 104; 117; 116; 100; 111; 119; 110; 32; 115; 105; 103; 110; 97; 108; 0].
(** signal/sc_signal.c:385-423 [sc_signal_on_shutdown], SIGINT = 2, SIGTERM = 15:
    the actions and, unless the process exited, the state.  [sent]: the write to
    the shutdown descriptor took its byte.  [err]: what the calls in between leave
    in errno.  The results of the log writes are ignored by the code. *)
Definition on_shutdown (junk buf : list Z) (sent : bool) (err : Z) (s : sigs) (sig : Z) : res (list act * option sigs) :=
  let saved := errno_ s in
  let s := mk_sigs (log_fd s) (shutdown_fd s) (will_shutdown s) err in
  let fd := if negb (log_fd s =? -1) then log_fd s else 1 in
  let str := if sig =? 2 then T_int else if sig =? 15 then T_term else T_other in
  let* (buf, a1) := sig_log junk buf fd 4096 T_recv [AStr (Some str); AInt 1 sig] in
  if will_shutdown s then
    let* (_, a2) := sig_log junk buf fd 4096 T_force [] in
    Ok (a1 ++ a2 ++ [Exit 1], None)
  else if negb (shutdown_fd s =? -1) then
    let* (buf, a2) := sig_log junk buf fd 4096 T_send [] in
    let a3 := [Write (shutdown_fd s) [1]] in
    if negb sent then
      let* (_, a4) := sig_log junk buf fd 4096 T_fail [] in
      Ok (a1 ++ a2 ++ a3 ++ a4 ++ [Exit 1], None)
    else
      let s := mk_sigs (log_fd s) (shutdown_fd s) true (errno_ s) in
      Ok (a1 ++ a2 ++ a3, Some (mk_sigs (log_fd s) (shutdown_fd s) (will_shutdown s) saved))
  else
    let* (_, a2) := sig_log junk buf fd 4096 T_none [] in
    Ok (a1 ++ a2 ++ [Exit 0], None).
