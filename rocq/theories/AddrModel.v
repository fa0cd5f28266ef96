(** Model of the address texts (socket/sc_sock.c:765-856) and of the notification of systemd
    (socket/sc_sock.c:147-200). *)
From Verif Require Import Base CStr CNum IniModel SockModel.

(** The struct sockaddr_storage on the stack after getsockname or getpeername (socket/sc_sock.c:817-821, :833-837): bytes, None where nothing was written.
    The first two bytes (the family) are given apart. *)
Definition storage : Type := list (option Z).
(** ntohs of the two bytes after the family, socket/sc_sock.c:796, :803. *)
Definition port (st : storage) : res Z :=
  let* h := zread st 0 in let* l := zread st 1 in Ok (h * 256 + l).
(** "%s" of addr_un->sun_path, socket/sc_sock.c:808: the bytes up to the first NUL. *)
Fixpoint sun_path (st : storage) : res (list Z) :=
  match st with
  | Some b :: r => if b =? 0 then Ok [] else let* t := sun_path r in Ok (b :: t)
  | _ => UB
  end.
(** socket/sc_sock.c:779-813: sc_sock_print_storage; [ntop]: what inet_ntop makes of the address bytes (socket/sc_sock.c:765-777; it
    does not fail for these families with a buffer of INET6_ADDRSTRLEN). *)
Definition print_storage (ntop : Z -> storage -> list Z) (fam : Z) (st : storage) (buf : list Z) (len : Z) : res (list Z) :=
  let* buf := zput buf 0 0 in
  if (fam =? AF_INET) || (fam =? AF_INET6) then
    let* p := port st in
    let* (buf, _) := snprintf buf len (ntop fam st ++ [58] ++ digits 6 p) in Ok buf
  else if fam =? AF_UNIX then
    let* path := sun_path st in
    let* (buf, _) := snprintf buf len path in Ok buf
  else Ok buf.
(** socket/sc_sock.c:815-829 and :831-845: sc_sock_local_str, sc_sock_remote_str; [a]: the answer of getsockname or getpeername.  The
    buffer, and whether it (not NULL) is returned. *)
Definition addr_str (ntop : Z -> storage -> list Z) (a : (Z * storage) + Z) (buf : list Z) (len : Z) : res (list Z * bool) :=
  match a with
  | inr _ => let* buf := zput buf 0 0 in Ok (buf, false)
  | inl (fam, st) => let* buf := print_storage ntop fam st buf len in Ok (buf, true)
  end.
(** "Local(" and "), Remote(" and ") ", socket/sc_sock.c:855. *)
Definition print_parts : list Z * list Z * list Z :=
  ([76; 111; 99; 97; 108; 40], [41; 44; 32; 82; 101; 109; 111; 116; 101; 40], [41; 32]).
(** socket/sc_sock.c:847-856: sc_sock_print; [l0], [r0]: the arrays l and r before. *)
Definition sock_print (ntop : Z -> storage -> list Z) (a b : (Z * storage) + Z) (l0 r0 buf : list Z) (len : Z) : res (list Z) :=
  let* (l, _) := addr_str ntop a l0 128 in
  let* (r, _) := addr_str ntop b r0 128 in
  let* lt := cstring l in
  let* rt := cstring r in
  let '(p1, p2, p3) := print_parts in
  let* (buf, _) := snprintf buf len (p1 ++ lt ++ p2 ++ rt ++ p3) in Ok buf.

(** What sc_sock_notify_systemd sends: descriptor, the bytes of the address after the family up to the length given, and the message.
    (socket/sc_sock.c:180, :195, :197.) *)
Inductive nact := NOpen (fd : Z) | NSend (fd : Z) (name msg : list Z) | NClose (fd : Z).
(** socket/sc_sock.c:147-200: sc_sock_notify_systemd; [msg], [env]: the memory at msg and at the value of NOTIFY_SOCKET, if it is set;
    [sk], [sd]: the answers of socket and sendmsg.  The calls, the result, and errno if the function sets it. *)
Definition notify (msg : list Z) (env : option (list Z)) (sk : Z + Z) (sd : Z + Z) : res (list nact * Z * option Z) :=
  let* m := cstring msg in
  match env with
  | None => Ok ([], -1, Some EINVAL)
  | Some s =>
      let* c0 := zload s 0 in
      let* bad := (if negb (c0 =? 64) && negb (c0 =? 47) then Ok true else let* c1 := zload s 1 in Ok (c1 =? 0)) in
      if bad then Ok ([], -1, Some EINVAL)
      else match sk with
           | inr _ => Ok ([], -1, None)
           | inl fd =>
               let* path := strncpy (repeat 0 (Z.to_nat SUN_PATH)) s (SUN_PATH - 1) in
               let* p0 := zload path 0 in
               let* path := (if p0 =? 64 then zput path 0 0 else Ok path) in
               let* n := strlen s in
               let namelen := u32 (2 + n) in
               let namelen := if 2 + SUN_PATH <? namelen then 2 + SUN_PATH else namelen in
               let* name := bytes_at path 0 (namelen - 2) in
               Ok ([NOpen fd; NSend fd name m; NClose fd], match sd with inl _ => 0 | inr _ => -1 end, None)
           end
  end.
