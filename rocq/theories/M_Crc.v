(** * M_Crc: model of sunspec/core/modbus/client.py:1062-1110 (CRC-16). *)
From Verif Require Import Py.

(** one iteration of the inner loop of __generate_crc16_table, client.py:1070-1074;
    state is (byte, crc) *)
Definition table_bit (st : Z * Z) : Z * Z :=
  let '(byte, crc) := st in
  let crc' := if negb (Z.land (Z.lxor byte crc) 1 =? 0)
              then Z.lxor (Z.shiftr crc 1) 0xa001
              else Z.shiftr crc 1 in
  (Z.shiftr byte 1, crc').

Fixpoint iter {A} (n : nat) (f : A -> A) (x : A) : A :=
  match n with O => x | S k => iter k f (f x) end.

(** client.py:1067-1076: table entry for [byte] *)
Definition table_entry (byte : Z) : Z := snd (iter 8 table_bit (byte, 0)).

Definition zrange (n : nat) : list Z := map Z.of_nat (seq 0 n).

(** client.py:1062-1078 *)
Definition crc16_table : list Z := map table_entry (zrange 256).

(** client.py:1098-1099, one byte *)
Definition crc_step (crc a : Z) : Z :=
  let idx := znth (Z.land (Z.lxor crc a) 0xff) crc16_table in
  Z.lxor (Z.land (Z.shiftr crc 8) 0xff) idx.

(** client.py:1080-1101 *)
Definition computeCRC (data : bytes) : Z :=
  let crc := fold_left crc_step data 0xffff in
  Z.lor (Z.land (Z.shiftl crc 8) 0xff00) (Z.land (Z.shiftr crc 8) 0x00ff).

(** client.py:1103-1110 *)
Definition checkCRC (data : bytes) (check : Z) : bool := computeCRC data =? check.
