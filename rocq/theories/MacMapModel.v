(** Model of sc_mmap_init in memory-map/sc_mmap.c on macOS, where the file is made longer byte by byte (:242-260). *)
From Verif Require Import Base CStr MmapModel.

(** One NUL is written at [pos] (memory-map/sc_mmap.c:256): the file reaches at least to there, and what it did not have before
    reads as NULs. *)
Definition put_nul (file : list Z) (pos : Z) : list Z :=
  firstn (Z.to_nat pos) (file ++ repeat 0 (Z.to_nat (pos - zlen file))) ++ [0] ++ skipn (Z.to_nat (pos + 1)) file.
(** memory-map/sc_mmap.c:246-260: the loop from [pos] on; [an]: what lseek and write answer round by round (Fuel: not answered yet),
    [errno]: its value before, which a write of no bytes leaves as it is.  The contents of the file, the places written to, and the
    error if the loop gives up. *)
Fixpoint mac_grow (block len pos : Z) (an : list (ans * ans)) (errno : Z) (file w : list Z) : res (list Z * list Z * option Z) :=
  if pos <? u64 (len + block - 1) then
    match an with
    | [] => Fuel
    | (lseek, write) :: an =>
        let pos := if len <=? pos then u64 (len - 1) else pos in
        match lseek with
        | Bad e => Ok (file, w, Some e)
        | Good _ =>
            match write with
            | Bad e => Ok (file, w, Some e)
            | Good n =>
                if n =? 1 then mac_grow block len (u64 (pos + block)) an errno (put_nul file pos) (w ++ [pos])
                else Ok (file, w, Some errno)
            end
        end
    end
  else Ok (file, w, None).
(** memory-map/sc_mmap.c:243-244: the place of the first write, in off_t; undefined if it leaves off_t or the block size is 0. *)
Definition mac_first (size block : Z) : res Z :=
  if block =? 0 then UB
  else let p := Z.quot size block * block + block - 1 in if (p <? - 2 ^ 63) || (2 ^ 63 <=? p) then UB else Ok (u64 p).
(** memory-map/sc_mmap.c:206-292 [sc_mmap_init] with __APPLE__: the calls made (lseek and write apart), the places written to, the
    file, the structure and the result.  [stat]: st_size, [block]: st_blksize; the others as in [mmap_init]. *)
Definition mac_init (strerror : Z -> list Z) (prot_write : bool) (offset len : Z) (sysconf open stat : ans) (block : Z)
    (an : list (ans * ans)) (errno : Z) (mmap : ans) (close_errno : Z) (file : list Z) : res (list sysact * list Z * list Z * mapping * Z) :=
  let m := mk_mapping (-1) 0 0 0 (repeat 0 128) in
  let error a w file e m := let* m := map_err (strerror e) m in Ok (a, w, file, m, -1) in
  match sysconf with
  | Bad e => error [] [] file e m
  | Good ps =>
      let m := mk_mapping (mfd m) ps (mptr m) (mlen m) (merr m) in
      match open with
      | Bad e => error [] [] file e m
      | Good fd =>
          let cleanup_fd w file e :=
            let saved_errno := e in
            let errno := close_errno in
            let errno := saved_errno in
            error [Open fd; Close fd] w file errno m in
          match stat with
          | Bad e => cleanup_fd [] file e
          | Good size =>
              let len := if len =? 0 then u64 (size - offset) else len in
              let* (file, w, r) := (if prot_write then let* pos := mac_first size block in mac_grow block len pos an errno file []
                                    else Ok (file, [], None)) in
              match r with
              | Some e => cleanup_fd w file e
              | None =>
                  match mmap with
                  | Bad e => cleanup_fd w file e
                  | Good p => Ok ([Open fd; Map fd p len offset], w, file, mk_mapping fd (page_size m) p len (merr m), 0)
                  end
              end
          end
      end
  end.
