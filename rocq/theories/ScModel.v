(** Model of sc/sc.c. *)
From Verif Require Import Base CStr CNum.

(** sc/sc.h:43-47 struct sc_rand. *)
Record rand := mk_rand { ri : Z; rj : Z; rtab : list Z }.
(** sc/sc.c:52-55: one iteration of the loop; unsigned char arithmetic wraps. *)
Definition mix (seed : list Z) (r : rand) (i : Z) : res rand :=
  let* a := zload (rtab r) i in
  let* b := zload seed i in
  let j := u8 (rj r + (a + b)) in
  let* t := zload (rtab r) j in
  let* m := zput (rtab r) j a in
  let* m := zput m i t in
  Ok (mk_rand (ri r) j m).
(** sc/sc.c:43-57 [sc_rand_init]; [seed] is the memory behind `init`. *)
Definition rand_init (seed : list Z) : res rand :=
  let* m := bytes_at seed 0 256 in
  foldM (mix seed) (mk_rand 0 0 m) (map Z.of_nat (seq 0 256)).
(** sc/sc.c:69-75: one byte. *)
Definition rand_byte (r : rand) : res (rand * Z) :=
  let i := u8 (ri r + 1) in
  let* t := zload (rtab r) i in
  let j := u8 (rj r + t) in
  let* x := zload (rtab r) j in
  let* m := zput (rtab r) i x in
  let* m := zput m j t in
  let* y := zload m i in
  let* z := zload m (u8 (t + y)) in
  Ok (mk_rand i j m, z).
(** sc/sc.c:68-76: the do-while loop for [n] bytes written at offset [p]. *)
Fixpoint rand_loop (n : nat) (r : rand) (buf : list Z) (p : Z) : res (rand * list Z) :=
  match n with
  | O => Ok (r, buf)
  | S n =>
      let* (r, z) := rand_byte r in
      let* buf := zput buf p z in
      rand_loop n r buf (p + 1)
  end.
(** sc/sc.c:59-77 [sc_rand_read]; [buf] = None for NULL. *)
Definition rand_read (r : rand) (buf : option (list Z)) (size : Z) : res (rand * option (list Z)) :=
  match buf with
  | None => Ok (r, None)
  | Some m =>
      if size <=? 0 then Ok (r, Some m)
      else let* (r, m) := rand_loop (Z.to_nat size) r m 0 in Ok (r, Some m)
  end.

(** sc/sc.c:79-82 [sc_is_pow2]. *)
Definition is_pow2 (num : Z) : bool := negb (num =? 0) && (Z.land num (u64 (num - 1)) =? 0).
(** sc/sc.c:84-99 [sc_to_pow2]. *)
Definition to_pow2 (size : Z) : Z :=
  if size =? 0 then 1
  else
    let size := u64 (size - 1) in
    let size := fold_left (fun v i => Z.lor v (Z.shiftr v i)) [1; 2; 4; 8; 16; 32] size in
    u64 (size + 1).

(** sc/sc.c:103 the unit names. *)
Definition suffixes : list (list Z) := [[75; 66]; [77; 66]; [71; 66]; [84; 66]; [80; 66]; [69; 66]].
(** sc/sc.c:115-118: the loop over i = 40, 30, ..., 0: (n, count). *)
Fixpoint scale (is : list Z) (val n count : Z) : Z * Z :=
  match is with
  | [] => (n, count)
  | i :: is => if Z.shiftr 0xfffcccccccccccc i <? val then scale is val (n + 1) (Z.shiftr count 10) else (n, count)
  end.
(** sc/sc.c:120 "%.02lf" of (double) count / 1024, in hundredths.  count is
    below 2^53, so the quotient is exact; the C library rounds it to nearest,
    ties to even. *)
Definition hundredths (count : Z) : Z :=
  let q := 100 * count / 1024 in
  let r := 100 * count mod 1024 in
  if (512 <? r) || ((r =? 512) && Z.odd q) then q + 1 else q.
(** sc/sc.c:108 "%d B". *)
Definition small_text (val : Z) : list Z := digits 20 val ++ [32; 66].
(** sc/sc.c:120 "%.02lf %s", [h] hundredths. *)
Definition large_text (h : Z) (suffix : list Z) : list Z :=
  digits 20 (h / 100) ++ [46; 48 + h / 10 mod 10; 48 + h mod 10; 32] ++ suffix.
(** sc/sc.c:101-126 [sc_bytes_to_size]: the buffer afterwards and whether `buf`
    (not NULL) is returned. *)
Definition bytes_to_size (buf : list Z) (len val : Z) : res (list Z * bool) :=
  if val <? 1024 then
    let* (buf, wr) := snprintf buf len (small_text val) in
    Ok (buf, negb ((wr <=? 0) || (len <=? wr)))
  else
    let '(n, count) := scale [40; 30; 20; 10; 0] val 0 val in
    let* s := zload suffixes n in
    let* (buf, wr) := snprintf buf len (large_text (hundredths count) s) in
    Ok (buf, negb ((wr <=? 0) || (len <=? wr))).

(** sc/sc.c:168, :171, ..., :183: (val > INT64_MAX / u) ? -1 : val * u; signed overflow is
    UB. *)
Definition times (val u : Z) : res Z :=
  if INT64_MAX / u <? val then Ok (-1)
  else if (INT64_MIN <=? val * u) && (val * u <=? INT64_MAX) then Ok (val * u) else UB.
(** (int) of a 64-bit difference, sc/sc.c:148. *)
Definition i32 (x : Z) : Z := (x + 2^31) mod 2^32 - 2^31.
(** tolower(parse_end[i]) in sc/sc.c:156, :164: char is signed, so a byte above 127 is a
    negative argument, which ISO C 7.4p1 leaves undefined. *)
Definition char_lower (c : Z) : res Z := if c <? 128 then Ok (tolower c) else UB.
(** sc/sc.c:128-190 [sc_size_to_bytes]; [s] is the memory from `buf` on. *)
Definition size_to_bytes (s : list Z) : res Z :=
  let* len := strlen s in
  let* (val, erange, pe) := strtoll s in
  if erange || (pe =? 0) then Ok (-1)
  else
    let count := i32 (len - pe) in
    if count =? 0 then Ok val
    else
      let unit :=
        (let* c := zload s pe in
         let* c := char_lower c in
         if c =? 98 then Ok val
         else if c =? 107 then times val (2^10)
         else if c =? 109 then times val (2^20)
         else if c =? 103 then times val (2^30)
         else if c =? 116 then times val (2^40)
         else if c =? 112 then times val (2^50)
         else if c =? 101 then times val (2^60)
         else Ok (-1)) in
      if count =? 1 then unit
      else if count =? 2 then
        let* c := zload s (pe + 1) in
        let* c := char_lower c in
        if negb (c =? 98) then Ok (-1) else unit
      else Ok (-1).
