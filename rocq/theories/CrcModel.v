(** Model of crc32/sc_crc32.c.  The buffer is a list of bytes whose first byte
    is at address [addr]; `next` is an offset.  Reads outside the buffer and
    misaligned 64-bit loads are UB.  The lookup tables are values produced by
    the init functions. *)
From Verif Require Import Base.

(** crc32/sc_crc32.c:38 POLY. *)
Definition POLY : Z := 0x82f63b78.
(** crc32/sc_crc32.c:284 one bit: crc & 1 ? (crc >> 1) ^ POLY : crc >> 1. *)
Definition crc_bit (crc : Z) : Z :=
  if Z.land crc 1 =? 0 then Z.shiftr crc 1 else Z.lxor (Z.shiftr crc 1) POLY.
(** crc32/sc_crc32.c:282-293 an entry of table 0. *)
Definition byte_entry (n : Z) : Z :=
  let crc := n in
  let crc := crc_bit crc in
  let crc := crc_bit crc in
  let crc := crc_bit crc in
  let crc := crc_bit crc in
  let crc := crc_bit crc in
  let crc := crc_bit crc in
  let crc := crc_bit crc in
  crc_bit crc.
(** The counter of the loops `for (n = 0; n < 256; n++)`.
    (crc32/sc_crc32.c:282, :294.) *)
Definition zseq (n : nat) : list Z := map Z.of_nat (seq 0 n).
(** crc32/sc_crc32.c:282-293 crc32c_table_le[0]. *)
Definition table0 : list Z := map byte_entry (zseq 256).
(** crc32/sc_crc32.c:297: one step of the inner loop. *)
Definition next_entry (crc : Z) : res Z :=
  let* e := zload table0 (Z.land crc 255) in Ok (Z.lxor e (Z.shiftr crc 8)).
(** crc32/sc_crc32.c:295-299 the entries of tables k, k+1, ... for one n. *)
Fixpoint entries (k : nat) (crc : Z) : res (list Z) :=
  match k with
  | O => Ok []
  | S k => let* crc := next_entry crc in let* l := entries k crc in Ok (crc :: l)
  end.
(** One line of entries per value of a list; UB if any is.
    (The loops filling tables, crc32/sc_crc32.c:142-147, :282-300, :363-383.) *)
Fixpoint mapM {A B} (f : A -> res B) (l : list A) : res (list B) :=
  match l with
  | [] => Ok []
  | x :: l => let* y := f x in let* ys := mapM f l in Ok (y :: ys)
  end.
(** crc32/sc_crc32.c:280-301 [crc32_init_sw_le].  The table is indexed
    [n][k] here, [k][n] in the code. *)
Definition init_sw : res (list (list Z)) :=
  mapM (fun n => let* e := zload table0 n in let* l := entries 7 e in Ok (e :: l)) (zseq 256).
(** crc32c_table_le[k][n].
    (crc32/sc_crc32.c:277.) *)
Definition tab (t : list (list Z)) (k n : Z) : res Z := let* r := zload t n in zload r k.

(** crc32/sc_crc32.c:312, :333: one byte. *)
Definition sw_byte (t : list (list Z)) (buf : list Z) (next crc : Z) : res Z :=
  let* b := zload buf next in
  let* e := tab t 0 (Z.land (Z.lxor crc b) 255) in
  Ok (Z.lxor e (Z.shiftr crc 8)).
(** crc32/sc_crc32.c:311-314 while (len && (next & 7) != 0): (next, len, crc). *)
Fixpoint sw_lead (t : list (list Z)) (buf : list Z) (addr : Z) (len : nat) (next crc : Z) : res (Z * nat * Z) :=
  match len with
  | O => Ok (next, O, crc)
  | S l =>
      if Z.land (addr + next) 7 =? 0 then Ok (next, len, crc)
      else let* crc := sw_byte t buf next crc in sw_lead t buf addr l (next + 1) crc
  end.
(** A 64-bit load; [le] = byte order of the machine.
    (crc32/sc_crc32.c:318, :397.) *)
Fixpoint le64 (l : list Z) : Z := match l with [] => 0 | b :: l => b + 256 * le64 l end.
(** The load of crc32/sc_crc32.c:203-205, :231-233, :254, :318, :398 at [next]. *)
Definition load64 (le : bool) (buf : list Z) (next : Z) : res Z :=
  if (0 <=? next) && (next + 8 <=? zlen buf)
  then let l := zslice buf next 8 in Ok (le64 (if le then l else rev l)) else UB.
(** crc32/sc_crc32.c:318 *(uint64_t const * ) next: aligned or UB. *)
Definition load64_aligned (le : bool) (buf : list Z) (addr next : Z) : res Z :=
  if Z.land (addr + next) 7 =? 0 then load64 le buf next else UB.
(** crc32/sc_crc32.c:318-326 one quadword. *)
Definition sw_word (t : list (list Z)) (buf : list Z) (addr next crcw : Z) : res Z :=
  let* w := load64_aligned true buf addr next in
  let crcw := Z.lxor crcw w in
  let* a7 := tab t 7 (Z.land crcw 255) in
  let* a6 := tab t 6 (Z.land (Z.shiftr crcw 8) 255) in
  let* a5 := tab t 5 (Z.land (Z.shiftr crcw 16) 255) in
  let* a4 := tab t 4 (Z.land (Z.shiftr crcw 24) 255) in
  let* a3 := tab t 3 (Z.land (Z.shiftr crcw 32) 255) in
  let* a2 := tab t 2 (Z.land (Z.shiftr crcw 40) 255) in
  let* a1 := tab t 1 (Z.land (Z.shiftr crcw 48) 255) in
  let* a0 := tab t 0 (Z.shiftr crcw 56) in
  Ok (Z.lxor (Z.lxor (Z.lxor (Z.lxor (Z.lxor (Z.lxor (Z.lxor a7 a6) a5) a4) a3) a2) a1) a0).
(** crc32/sc_crc32.c:315-331 the quadword loop (entered when len >= 8, repeated
    while len >= 8): (next, len, crcw). *)
Fixpoint sw_words (fuel : nat) (t : list (list Z)) (buf : list Z) (addr next len crcw : Z) : res (Z * Z * Z) :=
  if len <? 8 then Ok (next, len, crcw)
  else match fuel with
       | O => Fuel
       | S fuel =>
           let* crcw := sw_word t buf addr next crcw in
           sw_words fuel t buf addr (next + 8) (len - 8) crcw
       end.
(** crc32/sc_crc32.c:332-335 the trailing bytes. *)
Fixpoint sw_tail (t : list (list Z)) (buf : list Z) (len : nat) (next crc : Z) : res Z :=
  match len with
  | O => Ok crc
  | S l => let* crc := sw_byte t buf next crc in sw_tail t buf l (next + 1) crc
  end.
(** ~crc on uint32_t.
    (crc32/sc_crc32.c:310, :336, :391, :417.) *)
Definition not32 (c : Z) : Z := Z.lxor c 0xffffffff.
(** crc32/sc_crc32.c:306-337 [crc32_sw_le]. *)
Definition crc32_sw_le (t : list (list Z)) (crc : Z) (buf : list Z) (addr len : Z) : res Z :=
  let* (next, n, crc) := sw_lead t buf addr (Z.to_nat len) 0 (not32 crc) in
  let* (next, len, crcw) := sw_words n t buf addr next (Z.of_nat n) crc in
  let* crc := sw_tail t buf (Z.to_nat len) next (u32 crcw) in
  Ok (not32 crc).

(** ** Big endian *)

(** crc32/sc_crc32.c:348-353 [swap]. *)
Definition swap (x : Z) : Z :=
  let x := Z.lor (Z.land (u64 (Z.shiftl x 8)) 0xff00ff00ff00ff00) (Z.land (Z.shiftr x 8) 0xff00ff00ff00ff) in
  let x := Z.lor (Z.land (u64 (Z.shiftl x 16)) 0xffff0000ffff0000) (Z.land (Z.shiftr x 16) 0xffff0000ffff) in
  Z.lor (u64 (Z.shiftl x 32)) (Z.shiftr x 32).
(** crc32/sc_crc32.c:361-383 [crc32_init_sw_be]: crc32c_table_be (indexed
    [n][k] here); crc32c_table_be_byte is the same as table 0. *)
Definition init_sw_be : res (list (list Z)) :=
  let* t := init_sw in Ok (map (map swap) t).
(** crc32/sc_crc32.c:393, :414: one byte. *)
Definition be_byte (buf : list Z) (next crc : Z) : res Z :=
  let* b := zload buf next in
  let* e := zload table0 (Z.land (Z.lxor crc b) 255) in
  Ok (Z.lxor e (Z.shiftr crc 8)).
(** crc32/sc_crc32.c:392-395. *)
Fixpoint be_lead (buf : list Z) (addr : Z) (len : nat) (next crc : Z) : res (Z * nat * Z) :=
  match len with
  | O => Ok (next, O, crc)
  | S l =>
      if Z.land (addr + next) 7 =? 0 then Ok (next, len, crc)
      else let* crc := be_byte buf next crc in be_lead buf addr l (next + 1) crc
  end.
(** crc32/sc_crc32.c:399-407 one quadword. *)
Definition be_word (t : list (list Z)) (buf : list Z) (addr next crcw : Z) : res Z :=
  let* w := load64_aligned false buf addr next in
  let crcw := Z.lxor crcw w in
  let* a0 := tab t 0 (Z.land crcw 255) in
  let* a1 := tab t 1 (Z.land (Z.shiftr crcw 8) 255) in
  let* a2 := tab t 2 (Z.land (Z.shiftr crcw 16) 255) in
  let* a3 := tab t 3 (Z.land (Z.shiftr crcw 24) 255) in
  let* a4 := tab t 4 (Z.land (Z.shiftr crcw 32) 255) in
  let* a5 := tab t 5 (Z.land (Z.shiftr crcw 40) 255) in
  let* a6 := tab t 6 (Z.land (Z.shiftr crcw 48) 255) in
  let* a7 := tab t 7 (Z.shiftr crcw 56) in
  Ok (Z.lxor (Z.lxor (Z.lxor (Z.lxor (Z.lxor (Z.lxor (Z.lxor a0 a1) a2) a3) a4) a5) a6) a7).
(** crc32/sc_crc32.c:398-410. *)
Fixpoint be_words (fuel : nat) (t : list (list Z)) (buf : list Z) (addr next len crcw : Z) : res (Z * Z * Z) :=
  if len <? 8 then Ok (next, len, crcw)
  else match fuel with
       | O => Fuel
       | S fuel =>
           let* crcw := be_word t buf addr next crcw in
           be_words fuel t buf addr (next + 8) (len - 8) crcw
       end.
(** crc32/sc_crc32.c:413-416. *)
Fixpoint be_tail (buf : list Z) (len : nat) (next crc : Z) : res Z :=
  match len with
  | O => Ok crc
  | S l => let* crc := be_byte buf next crc in be_tail buf l (next + 1) crc
  end.
(** crc32/sc_crc32.c:387-418 [crc32_sw_be]. *)
Definition crc32_sw_be (t : list (list Z)) (crc : Z) (buf : list Z) (addr len : Z) : res Z :=
  let* (next, n, crc) := be_lead buf addr (Z.to_nat len) 0 (not32 crc) in
  let* (next, len, crc) :=
    (if Z.of_nat n <? 8 then Ok (next, Z.of_nat n, crc)
     else let* (next, len, crcw) := be_words n t buf addr next (Z.of_nat n) (swap crc) in
          Ok (next, len, u32 (swap crcw))) in
  let* crc := be_tail buf (Z.to_nat len) next crc in
  Ok (not32 crc).

(** ** Hardware instructions *)

(** The CRC32 instruction used at crc32/sc_crc32.c:185, 207-209, 235-237, 256,
    263, after its definition in the Intel SDM (vol. 2A, CRC32): bit-reflected
    operands, shifted, xored, divided modulo 2 by 11EDC6F41H, reflected. *)
Fixpoint reflect (n : nat) (x : Z) : Z :=
  match n with
  | O => 0
  | S n => Z.lor (Z.shiftl (Z.land x 1) (Z.of_nat n)) (reflect n (Z.shiftr x 1))
  end.
(** Remainder of a polynomial of degree below 32 + n.
    (For the instruction used at crc32/sc_crc32.c:46-56.) *)
Fixpoint mod2 (n : nat) (p : Z) : Z :=
  match n with
  | O => p
  | S n => mod2 n (if Z.testbit p (32 + Z.of_nat n) then Z.lxor p (Z.shiftl 0x11EDC6F41 (Z.of_nat n)) else p)
  end.
(** The CRC32 instruction behind crc32/sc_crc32.c:46-60 on an [n]-bit operand: the Intel SDM defines it by bit reflections and a remainder modulo 2. *)
Definition crc32_insn (n : nat) (crc v : Z) : Z :=
  let temp1 := reflect n v in
  let temp2 := reflect 32 crc in
  let temp3 := Z.shiftl temp1 32 in
  let temp4 := Z.shiftl temp2 (Z.of_nat n) in
  reflect 32 (mod2 n (Z.lxor temp3 temp4)).
(** _mm_crc32_u8, crc32/sc_crc32.c:52-56 and x86intrin.h, used at :185, :263. *)
Definition mm_crc32_u8 (crc v : Z) : Z := crc32_insn 8 (u32 crc) v.
(** _mm_crc32_u64, crc32/sc_crc32.c:46-50 and x86intrin.h, used at :207-209, :235-237, :256. *)
Definition mm_crc32_u64 (crc v : Z) : Z := crc32_insn 64 (u32 crc) v.

(** crc32/sc_crc32.c:66-80 [gf2_matrix_times]. *)
Fixpoint times_loop (mat : list Z) (vec sum : Z) : res Z :=
  if vec =? 0 then Ok sum
  else match mat with
       | [] => UB
       | m :: mat => times_loop mat (Z.shiftr vec 1) (if Z.land vec 1 =? 0 then sum else Z.lxor sum m)
       end.
(** crc32/sc_crc32.c:66-80 [gf2_matrix_times]. *)
Definition matrix_times (mat : list Z) (vec : Z) : res Z := times_loop mat vec 0.
(** crc32/sc_crc32.c:84-89 [gf2_matrix_square]; the result is the new array. *)
Definition matrix_square (mat : list Z) : res (list Z) :=
  mapM (fun n => let* m := zload mat n in matrix_times mat m) (zseq 32).
(** crc32/sc_crc32.c:102-107 the operator for one zero bit. *)
Definition one_bit_op : list Z := POLY :: map (fun n => Z.shiftl 1 n) (zseq 31).
(** crc32/sc_crc32.c:118-131 the do-while loop and the final copy. *)
Fixpoint zeros_loop (fuel : nat) (odd : list Z) (len : Z) : res (list Z) :=
  match fuel with
  | O => Fuel
  | S fuel =>
      let* even := matrix_square odd in
      let len := Z.shiftr len 1 in
      if len =? 0 then Ok even
      else
        let* odd := matrix_square even in
        let len := Z.shiftr len 1 in
        if len =? 0 then Ok odd else zeros_loop fuel odd len
  end.
(** crc32/sc_crc32.c:96-132 [crc32_zeros_op]. *)
Definition zeros_op (len : Z) : res (list Z) :=
  let* even := matrix_square one_bit_op in
  let* odd := matrix_square even in
  zeros_loop 64 odd len.
(** crc32/sc_crc32.c:136-148 [crc32_zeros], indexed [n][k]. *)
Definition zeros_tables (len : Z) : res (list (list Z)) :=
  let* op := zeros_op len in
  mapM (fun n =>
    let* z0 := matrix_times op n in
    let* z1 := matrix_times op (Z.shiftl n 8) in
    let* z2 := matrix_times op (Z.shiftl n 16) in
    let* z3 := matrix_times op (Z.shiftl n 24) in
    Ok [z0; z1; z2; z3]) (zseq 256).
(** crc32/sc_crc32.c:151-155 [crc32_shift]. *)
Definition crc_shift (z : list (list Z)) (crc : Z) : res Z :=
  let* z0 := tab z 0 (Z.land (Z.shiftr crc 0) 255) in
  let* z1 := tab z 1 (Z.land (Z.shiftr crc 8) 255) in
  let* z2 := tab z 2 (Z.land (Z.shiftr crc 16) 255) in
  let* z3 := tab z 3 (Z.land (Z.shiftr crc 24) 255) in
  Ok (Z.lxor (Z.lxor (Z.lxor z0 z1) z2) z3).
(** crc32/sc_crc32.c:161-162. *)
Definition CRC32_LONG : Z := 2048.
(** crc32/sc_crc32.c:162. *)
Definition CRC32_SHORT : Z := 256.
(** crc32/sc_crc32.c:167-171 [crc32_init_hw]: (crc32c_long, crc32c_short). *)
Definition init_hw : res (list (list Z) * list (list Z)) :=
  let* l := zeros_tables CRC32_LONG in
  let* s := zeros_tables CRC32_SHORT in
  Ok (l, s).

(** crc32/sc_crc32.c:184-188. *)
Fixpoint hw_lead (buf : list Z) (addr : Z) (len : nat) (next crc0 : Z) : res (Z * nat * Z) :=
  match len with
  | O => Ok (next, O, crc0)
  | S l =>
      if Z.land (addr + next) 7 =? 0 then Ok (next, len, crc0)
      else let* b := zload buf next in hw_lead buf addr l (next + 1) (mm_crc32_u8 crc0 b)
  end.
(** crc32/sc_crc32.c:200-212 and :228-240 the inner do-while loop for blocks of
    [k] bytes: (next, crc0, crc1, crc2). *)
Fixpoint hw_inner (fuel : nat) (buf : list Z) (k next e crc0 crc1 crc2 : Z) : res (Z * Z * Z * Z) :=
  match fuel with
  | O => Fuel
  | S fuel =>
      let* a := load64 true buf next in
      let* b := load64 true buf (next + k) in
      let* c := load64 true buf (next + k * 2) in
      let crc0 := mm_crc32_u64 crc0 a in
      let crc1 := mm_crc32_u64 crc1 b in
      let crc2 := mm_crc32_u64 crc2 c in
      let next := next + 8 in
      if next <? e then hw_inner fuel buf k next e crc0 crc1 crc2 else Ok (next, crc0, crc1, crc2)
  end.
(** crc32/sc_crc32.c:195-219 and :223-247 the outer loop: (next, len, crc0). *)
Fixpoint hw_blocks (fuel : nat) (z : list (list Z)) (buf : list Z) (k next len crc0 : Z) : res (Z * Z * Z) :=
  if k * 3 <=? len then
    match fuel with
    | O => Fuel
    | S fuel =>
        let* (next, crc0, crc1, crc2) := hw_inner (Z.to_nat k) buf k next (next + k) crc0 0 0 in
        let* s := crc_shift z crc0 in
        let crc0 := Z.lxor s crc1 in
        let* s := crc_shift z crc0 in
        let crc0 := Z.lxor s crc2 in
        hw_blocks fuel z buf k (next + k * 2) (len - k * 3) crc0
    end
  else Ok (next, len, crc0).
(** crc32/sc_crc32.c:252-258 the remaining quadwords. *)
Fixpoint hw_words (fuel : nat) (buf : list Z) (next e crc0 : Z) : res (Z * Z) :=
  if next <? e then
    match fuel with
    | O => Fuel
    | S fuel => let* a := load64 true buf next in hw_words fuel buf (next + 8) e (mm_crc32_u64 crc0 a)
    end
  else Ok (next, crc0).
(** crc32/sc_crc32.c:262-266 the trailing bytes. *)
Fixpoint hw_tail (buf : list Z) (len : nat) (next crc0 : Z) : res Z :=
  match len with
  | O => Ok crc0
  | S l => let* b := zload buf next in hw_tail buf l (next + 1) (mm_crc32_u8 crc0 b)
  end.
(** crc32/sc_crc32.c:173-270 [crc32_hw].  Loop bounds: [n] is the length after
    the leading bytes. *)
Definition crc32_hw (tables : list (list Z) * list (list Z)) (crc : Z) (buf : list Z) (addr len : Z) : res Z :=
  let crc0 := Z.lxor crc 0xffffffff in
  let* (next, n, crc0) := hw_lead buf addr (Z.to_nat len) 0 crc0 in
  let* (next, len, crc0) := hw_blocks n (fst tables) buf CRC32_LONG next (Z.of_nat n) crc0 in
  let* (next, len, crc0) := hw_blocks n (snd tables) buf CRC32_SHORT next len crc0 in
  let* (next, crc0) := hw_words n buf next (next + (len - Z.land len 7)) crc0 in
  let* crc0 := hw_tail buf (Z.to_nat (Z.land len 7)) next crc0 in
  Ok (Z.lxor (u32 crc0) 0xffffffff).

(** ** The entry points *)

(** crc32/sc_crc32.c:425, :427: the three builds, chosen by HAVE_CRC32C and
    HAVE_BIG_ENDIAN. *)
Inductive build := Hardware | BigEndian | LittleEndian.
(** The static tables of the build.
    (crc32/sc_crc32.c:164-165, :277, :357-358.) *)
Inductive tables := HwTables (t : list (list Z) * list (list Z)) | BeTables (t : list (list Z)) | LeTables (t : list (list Z)).
(** crc32/sc_crc32.c:436-447 [sc_crc32_init]. *)
Definition sc_crc32_init (b : build) : res tables :=
  match b with
  | Hardware => let* t := init_hw in Ok (HwTables t)
  | BigEndian => let* t := init_sw_be in Ok (BeTables t)
  | LittleEndian => let* t := init_sw in Ok (LeTables t)
  end.
(** crc32/sc_crc32.c:423-434 [sc_crc32]. *)
Definition sc_crc32 (t : tables) (crc : Z) (buf : list Z) (addr len : Z) : res Z :=
  match t with
  | HwTables t => crc32_hw t crc buf addr len
  | BeTables t => crc32_sw_be t crc buf addr len
  | LeTables t => crc32_sw_le t crc buf addr len
  end.
