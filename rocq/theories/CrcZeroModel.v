(** Model of sc_crc32 in a program that has not called sc_crc32_init: the static tables are zero
    (ISO C 6.7.9p10; crc32/sc_crc32.c:164-165, :277).  Not for the big-endian build, whose byte table
    CrcModel.v keeps as a constant. *)
From Verif Require Import Base CrcModel.

(** crc32/sc_crc32.c:277 (8 entries a row here) and :164-165 (4 entries a row), before initialisation. *)
Definition zero_rows (k : nat) : list (list Z) := repeat (repeat 0 k) 256.
(** crc32/sc_crc32.c:277: crc32c_table_le. *)
Definition zero_le : tables := LeTables (zero_rows 8).
(** crc32/sc_crc32.c:164-165: crc32c_long and crc32c_short. *)
Definition zero_hw : tables := HwTables (zero_rows 4, zero_rows 4).
