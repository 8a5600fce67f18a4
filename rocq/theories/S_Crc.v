(** * S_Crc: the Modbus CRC-16, bit by bit (specification for C22, C23, C29). *)
From Verif Require Import Py.

(** the bits of a byte string in transmission order (least significant bit of each byte first) *)
Definition byte_bits (b : Z) : list bool :=
  map (Z.testbit b) [0; 1; 2; 3; 4; 5; 6; 7].
Definition all_bits (d : bytes) : list bool := concat (map byte_bits d).

(** one bit through the shift register: reflected polynomial 0xA001 *)
Definition shift_bit (reg : Z) (b : bool) : Z :=
  let feedback := xorb (Z.odd reg) b in
  let shifted := reg / 2 in
  if feedback then Z.lxor shifted 0xA001 else shifted.

(** Modbus CRC-16 register after the data, starting from all ones *)
Definition crc16 (d : bytes) : Z := fold_left shift_bit (all_bits d) 0xFFFF.

(** the two CRC bytes of a frame: low byte first *)
Definition crc_bytes (d : bytes) : bytes := [crc16 d mod 256; crc16 d / 256].

(** a frame is accepted iff it is some data followed by its CRC *)
Definition frame_ok (f : bytes) : Prop := exists d, f = d ++ crc_bytes d.

(** number of bit positions in which two frames differ *)
Fixpoint bit_diff (a b : list bool) : nat :=
  match a, b with
  | x :: a', y :: b' => ((if xorb x y then 1 else 0) + bit_diff a' b')%nat
  | _, _ => 0%nat
  end.
