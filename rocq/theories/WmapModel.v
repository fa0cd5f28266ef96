(** Model of memory-map/sc_mmap.c, Windows part, for a 64 bit system. *)
From Verif Require Import Base CStr MmapModel.

(** What the system is asked to do (memory-map/sc_mmap.c:79, :108, :113, :114, :128, :141,
    :155, :169, :187, :189): descriptors, mapping objects of a size backed by a handle (-1: the
    paging file), views (address, offset, length). *)
Inductive wact :=
| WOpen (fd : Z) | WClose (fd : Z)
| Create (fm handle : Z) (writable : bool) (size : Z) | Drop (fm : Z)
| View (fm p off len : Z) | Unview (p : Z)
| Flush (p len : Z) | VLock (p len : Z) | VUnlock (p len : Z).
(** memory-map/sc_mmap.c:50-63 [sc_mmap_errstr]: the message for the last error [e]; [msgs]
    is FormatMessage, None if it fails; then err is left alone. *)
Definition wmap_errstr (msgs : Z -> option (list Z)) (e : Z) (m : mapping) : res mapping :=
  match msgs e with
  | None => Ok m
  | Some msg => map_err msg m
  end.
(** The answers to one sc_mmap_init (memory-map/sc_mmap.c:79, :84, :102, :108, :113, :114, :128);
    a failing call sets the last error.  [a_drop], [a_close]: the last error CloseHandle
    and _close leave if they fail. *)
Record answers := mk_answers { a_open : ans; a_stat : ans; a_handle : ans; a_create : ans; a_view : ans; a_drop : option Z; a_close : option Z }.
(** The last error after a call that sets it only if it fails
    (memory-map/sc_mmap.c:114, :128). *)
Definition last_after (e : Z) (x : option Z) : Z := match x with Some e' => e' | None => e end.
(** Two halves of a number, passed as two DWORDs and put together by the system
    (memory-map/sc_mmap.c:94-97, :108, :113). *)
Definition halves (x : Z) : Z := u32 (Z.land (Z.shiftr x 32) 4294967295) * 2 ^ 32 + u32 (Z.land x 4294967295).
(** memory-map/sc_mmap.c:65-134 [sc_mmap_init].  [pw]: prot & PROT_WRITE; [anon]: map_flags
    & MAP_ANONYMOUS; page_size is not set. *)
Definition wmap_init (msgs : Z -> option (list Z)) (pw anon : bool) (offset len : Z) (an : answers)
    : res (list wact * mapping * Z) :=
  let m := mk_mapping (-1) 0 0 0 (repeat 0 128) in
  let error a e := let* m := wmap_errstr msgs e m in Ok (a, m, -1) in
  match a_open an with
  | Bad e => error [] e
  | Good fd =>
      let a := [WOpen fd] in
      let cleanup_fd a e :=
        let saved_err := e in
        let last := last_after e (a_close an) in
        let last := saved_err in
        error (a ++ [WClose fd]) last in
      match a_stat an with
      | Bad e => cleanup_fd a e
      | Good size =>
          let len := if len =? 0 then u64 (size - offset) else len in
          let max_size := u64 (offset + len) in
          match (if anon then Good (-1) else a_handle an) with
          | Bad e => cleanup_fd a e
          | Good h =>
              match a_create an with
              | Bad e => cleanup_fd a e
              | Good fm =>
                  let a := a ++ [Create fm h pw (halves max_size)] in
                  match a_view an with
                  | Bad e => cleanup_fd (a ++ [Drop fm]) (last_after e (a_drop an))
                  | Good p => Ok (a ++ [View fm p (halves offset) len; Drop fm], mk_mapping fd (page_size m) p len (merr m), 0)
                  end
              end
          end
      end
  end.
(** memory-map/sc_mmap.c:178-200 [sc_mmap_term]; [unmap]: the answer of UnmapViewOfFile. *)
Definition wmap_term (msgs : Z -> option (list Z)) (m : mapping) (unmap : ans) : res (list wact * mapping * Z) :=
  if mfd m =? -1 then Ok ([], m, 0)
  else
    let a := [WClose (mfd m)] in
    let* (a, m, rc) := match unmap with
                       | Good _ => Ok (a ++ [Unview (mptr m)], m, 0)
                       | Bad e => let* m := wmap_errstr msgs e m in Ok (a, m, -1)
                       end in
    Ok (a, mk_mapping (-1) (page_size m) 0 0 (merr m), rc).
(** memory-map/sc_mmap.c:136-148 [sc_mmap_msync]; [x]: the answer of FlushViewOfFile. *)
Definition wmap_msync (msgs : Z -> option (list Z)) (m : mapping) (offset len : Z) (x : ans) : res (list wact * mapping * Z) :=
  let p := mptr m + offset in
  match x with
  | Good _ => Ok ([Flush p len], m, 0)
  | Bad e => let* m := wmap_errstr msgs e m in Ok ([], m, -1)
  end.
(** memory-map/sc_mmap.c:150-162 [sc_mmap_mlock]; [x]: the answer of VirtualLock. *)
Definition wmap_mlock (msgs : Z -> option (list Z)) (m : mapping) (offset len : Z) (x : ans) : res (list wact * mapping * Z) :=
  let p := mptr m + offset in
  match x with
  | Good _ => Ok ([VLock p len], m, 0)
  | Bad e => let* m := wmap_errstr msgs e m in Ok ([], m, -1)
  end.
(** memory-map/sc_mmap.c:164-176 [sc_mmap_munlock]; [x]: the answer of VirtualUnlock. *)
Definition wmap_munlock (msgs : Z -> option (list Z)) (m : mapping) (offset len : Z) (x : ans) : res (list wact * mapping * Z) :=
  let p := mptr m + offset in
  match x with
  | Good _ => Ok ([VUnlock p len], m, 0)
  | Bad e => let* m := wmap_errstr msgs e m in Ok ([], m, -1)
  end.
(** Calls on one object, with the answers (memory-map/sc_mmap.c:65, :136, :150, :164, :178). *)
Inductive wcall :=
| MInit (pw anon : bool) (offset len : Z) (an : answers)
| MTerm (x : ans)
| MSync (offset len : Z) (x : ans) | MLock (offset len : Z) (x : ans) | MUnlock (offset len : Z) (x : ans).
(** One call (memory-map/sc_mmap.c:65-200). *)
Definition wmap_do (msgs : Z -> option (list Z)) (m : mapping) (c : wcall) : res (list wact * mapping * Z) :=
  match c with
  | MInit pw anon offset len an => wmap_init msgs pw anon offset len an
  | MTerm x => wmap_term msgs m x
  | MSync offset len x => wmap_msync msgs m offset len x
  | MLock offset len x => wmap_mlock msgs m offset len x
  | MUnlock offset len x => wmap_munlock msgs m offset len x
  end.
(** A history of calls (memory-map/sc_mmap.c:65-200): all that was asked for, and the results. *)
Fixpoint wmap_run (msgs : Z -> option (list Z)) (m : mapping) (l : list wcall) : res (list wact * mapping * list Z) :=
  match l with
  | [] => Ok ([], m, [])
  | c :: l =>
      let* (a, m, rc) := wmap_do msgs m c in
      let* (b, m, rcs) := wmap_run msgs m l in Ok (a ++ b, m, rc :: rcs)
  end.
