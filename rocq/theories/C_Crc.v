(** * C_Crc: properties C22, C23 (modbus/client.py computeCRC, checkCRC). *)
From Verif Require Import Py M_Crc S_Crc P_Crc.

(** ** C22: the table-driven checksum is the bit-by-bit Modbus CRC-16, low byte first. *)
Theorem C22_crc_is_modbus_crc16 :
  forall d, Forall is_byte d ->
  computeCRC d = crc16 d mod 256 * 256 + crc16 d / 256 /\ be_bytes 2 (computeCRC d) = crc_bytes d.
Proof. intros d H. split; [now apply computeCRC_spec|now apply crc_bytes_spec]. Qed.
Print Assumptions C22_crc_is_modbus_crc16.

(** the check accepts exactly the frames that end in the CRC-16 of what precedes *)
Theorem C22_check_accepts_valid_frames_only :
  forall d x y, Forall is_byte d -> is_byte x -> is_byte y ->
  (checkCRC d (be_int [x; y]) = true <-> frame_ok (d ++ [x; y])).
Proof. exact checkCRC_frame. Qed.
Print Assumptions C22_check_accepts_valid_frames_only.

(** the check value of CRC-16/MODBUS: "123456789" gives 0x4B37 *)
Example C22_ex : crc16 [49;50;51;52;53;54;55;56;57] = 0x4B37 /\ computeCRC [49;50;51;52;53;54;55;56;57] = 0x374B.
Proof. vm_compute. auto. Qed.

(** ** C23: error detection. *)
Theorem C23_one_altered_byte_detected :
  forall p x x' s,
  Forall is_byte (p ++ [x] ++ s) -> Forall is_byte (p ++ [x'] ++ s) -> (2 <= length (p ++ [x] ++ s))%nat ->
  frame_ok (p ++ [x] ++ s) -> x <> x' -> ~ frame_ok (p ++ [x'] ++ s).
Proof. exact one_byte_detected. Qed.
Print Assumptions C23_one_altered_byte_detected.

Theorem C23_two_adjacent_altered_bytes_detected :
  forall p x y x' y' s,
  Forall is_byte (p ++ [x; y] ++ s) -> Forall is_byte (p ++ [x'; y'] ++ s) ->
  frame_ok (p ++ [x; y] ++ s) -> [x; y] <> [x'; y'] -> ~ frame_ok (p ++ [x'; y'] ++ s).
Proof. exact adjacent_bytes_detected. Qed.
Print Assumptions C23_two_adjacent_altered_bytes_detected.

(** every error burst confined to 16 consecutive bits, at any bit position *)
Theorem C23_burst_of_16_bits_detected :
  forall f g p w w' s,
  Forall is_byte f -> Forall is_byte g -> (2 <= length f)%nat ->
  frame_ok f -> all_bits f = p ++ w ++ s -> all_bits g = p ++ w' ++ s ->
  length w = length w' -> (length w <= 16)%nat -> w <> w' -> ~ frame_ok g.
Proof. exact burst_detected. Qed.
Print Assumptions C23_burst_of_16_bits_detected.

Theorem C23_odd_number_of_bits_detected :
  forall f g,
  Forall is_byte f -> Forall is_byte g -> length f = length g -> (2 <= length f)%nat ->
  frame_ok f -> Nat.odd (bit_diff (all_bits f) (all_bits g)) = true -> ~ frame_ok g.
Proof. exact odd_bits_detected. Qed.
Print Assumptions C23_odd_number_of_bits_detected.

(** a valid read response frame *)
Example C23_ex : frame_ok [1; 3; 2; 0; 7; 0xf9; 0x86] /\
  Nat.odd (bit_diff (all_bits [1; 3; 2; 0; 7; 0xf9; 0x86]) (all_bits [1; 3; 2; 1; 1; 0xf9; 0x86])) = true.
Proof. split; [exists [1; 3; 2; 0; 7]|]; vm_compute; reflexivity. Qed.
