(** CRC-32C, from its definition (RFC 3720 appendix B.4 / Castagnoli): a shift
    register fed with the message bits. *)
From Verif Require Import Base.

(** The generator polynomial 1EDC6F41, least significant bit first. *)
Definition castagnoli : Z := 0x82f63b78.
(** Shift one message bit into the register. *)
Definition shift_in (c : Z) (b : bool) : Z :=
  Z.lxor (Z.shiftr c 1) (if xorb (Z.odd c) b then castagnoli else 0).
(** Message bits: bytes in order, least significant bit first. *)
Definition byte_bits (b : Z) : list bool := map (fun i => Z.testbit b (Z.of_nat i)) (seq 0 8).
Definition bits (msg : list Z) : list bool := flat_map byte_bits msg.
(** The CRC of [msg] continued from [init]: register and result inverted. *)
Definition crc32c (init : Z) (msg : list Z) : Z :=
  Z.lxor (fold_left shift_in (bits msg) (Z.lxor init 0xffffffff)) 0xffffffff.

Definition byte (b : Z) : Prop := 0 <= b < 256.

(** ** Transmission errors *)

(** The number of positions at which two bit strings differ. *)
Fixpoint hamming (a b : list bool) : nat :=
  match a, b with
  | x :: a, y :: b => (if xorb x y then 1 else 0) + hamming a b
  | _, _ => 0
  end.
