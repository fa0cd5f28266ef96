(** Model of memory-map/sc_mmap.c, POSIX part; the macOS branch (:242-260) is in MacMapModel.v. *)
From Verif Require Import Base CStr.

(** What a system call answers: a value, or an error number in errno.
    (memory-map/sc_mmap.c:222-321.) *)
Inductive ans := Good (x : Z) | Bad (errno : Z).
(** The system calls made, with the arguments that matter (memory-map/sc_mmap.c:229,
    :263, :273, :286, :302, :304, :321, :334, :347). *)
Inductive sysact :=
| Open (fd : Z) | Close (fd : Z) | Fallocate (fd off len rc : Z)
| Map (fd addr len off : Z) | Unmap (addr len : Z) | Sync (addr len : Z)
| Lock (addr len : Z) | Unlock (addr len : Z).
(** struct sc_mmap, memory-map/sc_mmap.h:63-69. *)
Record mapping := mk_mapping { mfd : Z; page_size : Z; mptr : Z; mlen : Z; merr : list Z }.
(** strncpy(m->err, strerror(e), sizeof(m->err) - 1), memory-map/sc_mmap.c:289, :306, :323. *)
Definition map_err (msg : list Z) (m : mapping) : res mapping :=
  let* e := memcpy (merr m) 0 (firstn 127 (msg ++ repeat 0 127)) in
  Ok (mk_mapping (mfd m) (page_size m) (mptr m) (mlen m) e).
(** EINTR.
    (memory-map/sc_mmap.c:264.) *)
Definition EINTR : Z := 4.
(** memory-map/sc_mmap.c:262-264: posix_fallocate until it answers something else than
    EINTR; [rcs] are its answers (Fuel: not answered yet). *)
Fixpoint fallocate (fd off len : Z) (rcs : list Z) : res (list sysact * Z) :=
  match rcs with
  | [] => Fuel
  | rc :: rcs =>
      if rc =? EINTR then let* (a, rc') := fallocate fd off len rcs in Ok (Fallocate fd off len rc :: a, rc')
      else Ok ([Fallocate fd off len rc], rc)
  end.
(** memory-map/sc_mmap.c:206-292 [sc_mmap_init]: the calls made, the structure and the
    result.  [strerror]: the messages; [sysconf], [open], [stat] (st_size),
    [rcs] (posix_fallocate), [mmap]: the answers; [prot_write]: prot & PROT_WRITE.
    The errno close leaves behind is overwritten (:285-287). *)
Definition mmap_init (strerror : Z -> list Z) (prot_write : bool) (offset len : Z)
    (sysconf open stat : ans) (rcs : list Z) (mmap : ans) (close_errno : Z) : res (list sysact * mapping * Z) :=
  let m := mk_mapping (-1) 0 0 0 (repeat 0 128) in
  let error a e m := let* m := map_err (strerror e) m in Ok (a, m, -1) in
  match sysconf with
  | Bad e => error [] e m
  | Good ps =>
      let m := mk_mapping (mfd m) ps (mptr m) (mlen m) (merr m) in
      match open with
      | Bad e => error [] e m
      | Good fd =>
          let cleanup_fd a e :=
            let saved_errno := e in
            let errno := close_errno in
            let errno := saved_errno in
            error (a ++ [Close fd]) errno m in
          match stat with
          | Bad e => cleanup_fd [Open fd] e
          | Good size =>
              let len := if len =? 0 then u64 (size - offset) else len in
              let* (a, rc) := (if prot_write then fallocate fd offset len rcs else Ok ([], 0)) in
              if negb (rc =? 0) then cleanup_fd (Open fd :: a) rc
              else match mmap with
                   | Bad e => cleanup_fd (Open fd :: a) e
                   | Good p => Ok (Open fd :: a ++ [Map fd p len offset], mk_mapping fd (page_size m) p len (merr m), 0)
                   end
          end
      end
  end.
(** memory-map/sc_mmap.c:294-314 [sc_mmap_term]; [munmap]: its answer. *)
Definition mmap_term (strerror : Z -> list Z) (m : mapping) (munmap : ans) : res (list sysact * mapping * Z) :=
  if mfd m =? -1 then Ok ([], m, 0)
  else
    let a := [Close (mfd m)] in
    let* (a, m, rc) := match munmap with
                       | Good _ => Ok (a ++ [Unmap (mptr m) (mlen m)], m, 0)
                       | Bad e => let* m := map_err (strerror e) m in Ok (a, m, -1)
                       end in
    Ok (a, mk_mapping (-1) (page_size m) 0 0 (merr m), rc).
(** memory-map/sc_mmap.c:316-327 [sc_mmap_msync]: offset & ~(page_size - 1) in size_t. *)
Definition mmap_msync (strerror : Z -> list Z) (m : mapping) (offset len : Z) (msync : ans) : res (list sysact * mapping * Z) :=
  let p := mptr m + Z.land offset (u64 (Z.lnot (page_size m - 1))) in
  match msync with
  | Good _ => Ok ([Sync p len], m, 0)
  | Bad e => let* m := map_err (strerror e) m in Ok ([], m, -1)
  end.
(** memory-map/sc_mmap.c:329-340 [sc_mmap_mlock]; [mlock]: its answer. *)
Definition mmap_mlock (strerror : Z -> list Z) (m : mapping) (offset len : Z) (mlock : ans) : res (list sysact * mapping * Z) :=
  let p := mptr m + offset in
  match mlock with
  | Good _ => Ok ([Lock p len], m, 0)
  | Bad e => let* m := map_err (strerror e) m in Ok ([], m, -1)
  end.
(** memory-map/sc_mmap.c:342-353 [sc_mmap_munlock]; [munlock]: its answer. *)
Definition mmap_munlock (strerror : Z -> list Z) (m : mapping) (offset len : Z) (munlock : ans) : res (list sysact * mapping * Z) :=
  let p := mptr m + offset in
  match munlock with
  | Good _ => Ok ([Unlock p len], m, 0)
  | Bad e => let* m := map_err (strerror e) m in Ok ([], m, -1)
  end.
