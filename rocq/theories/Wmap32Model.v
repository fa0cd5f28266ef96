(** Model of sc_mmap_init of memory-map/sc_mmap.c on Windows with 32 bits: size_t has 32 bits, the size of a file has 64.  The calls
    and their answers are those of WmapModel.v. *)
From Verif Require Import Base CStr MmapModel WmapModel.

(** memory-map/sc_mmap.c:65-134 [sc_mmap_init]; [offset] and [len] are size_t, so are the conversion of st_size, the difference (:89) and
    the sum (:92).  A file larger than the address space can be opened; _stat64 (:84) gives its size in 64 bits. *)
Definition wmap32_init (msgs : Z -> option (list Z)) (pw anon : bool) (offset len : Z) (an : answers)
    : res (list wact * mapping * Z) :=
  let m := mk_mapping (-1) 0 0 0 (repeat 0 128) in
  let error a e := let* m := wmap_errstr msgs e m in Ok (a, m, -1) in
  match a_open an with
  | Bad e => error [] e
  | Good fd =>
      let a := [WOpen fd] in
      let cleanup_fd a e :=
        let saved_err := e in
        let last := last_after e (a_close an) in
        let last := saved_err in
        error (a ++ [WClose fd]) last in
      match a_stat an with
      | Bad e => cleanup_fd a e
      | Good size =>
          let len := if len =? 0 then u32 (u32 size - offset) else len in
          let max_size := u32 (offset + len) in
          match (if anon then Good (-1) else a_handle an) with
          | Bad e => cleanup_fd a e
          | Good h =>
              match a_create an with
              | Bad e => cleanup_fd a e
              | Good fm =>
                  let a := a ++ [Create fm h pw (halves max_size)] in
                  match a_view an with
                  | Bad e => cleanup_fd (a ++ [Drop fm]) (last_after e (a_drop an))
                  | Good p => Ok (a ++ [View fm p (halves offset) len; Drop fm], mk_mapping fd (page_size m) p len (merr m), 0)
                  end
              end
          end
      end
  end.
