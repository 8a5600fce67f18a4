(** * S_Modbus: Modbus frames, device memory and conforming devices (specification, C24-C33). *)
From Verif Require Import Py M_Wire S_Crc.

(** 16-bit number, high byte first *)
Definition word (v : Z) : bytes := [v / 256; v mod 256].
Definition with_crc (b : bytes) : bytes := b ++ crc_bytes b.

(** Modbus RTU frames *)
Definition read_frame (slave op addr count : Z) : bytes :=
  with_crc ([slave; op] ++ word addr ++ word count).
Definition write_frame (slave addr : Z) (data : bytes) : bytes :=
  with_crc ([slave; 16] ++ word addr ++ word (zlen data / 2) ++ [zlen data] ++ data).

(** a register memory; the content of [n] registers from [addr] *)
Definition memory := Z -> Z.
Definition mem_ok (m : memory) : Prop := forall a, 0 <= m a < 65536.
Fixpoint regs (m : memory) (addr : Z) (n : nat) : bytes :=
  match n with O => [] | S k => word (m addr) ++ regs m (addr + 1) k end.
(** storing register data (two bytes each) from [addr] on *)
Fixpoint store (m : memory) (addr : Z) (data : bytes) : memory :=
  match data with
  | hi :: lo :: r => store (fun a => if a =? addr then hi * 256 + lo else m a) (addr + 1) r
  | _ => m
  end.

(** requests [(addr, count)] that are contiguous, in order, cover exactly the [n] registers from
    [a] on, and carry between 1 and [lim] registers each *)
Inductive covers (lim : Z) : Z -> Z -> list (Z * Z) -> Prop :=
| covers_nil a : covers lim a 0 []
| covers_cons a c n l : 1 <= c <= lim -> 0 <= n -> covers lim (a + c) n l -> covers lim a (c + n) ((a, c) :: l).

(** the answers of a conforming slave *)
Definition read_reply (slave op : Z) (m : memory) (addr count : Z) : bytes :=
  with_crc ([slave; op; 2 * count] ++ regs m addr (Z.to_nat count)).
Definition write_reply (slave addr count : Z) : bytes :=
  with_crc ([slave; 16] ++ word addr ++ word count).

(** [dev] is a serial line with a conforming slave on it: whatever its state, it answers a read of
    1..125 registers inside the address space with their content, however the bytes of the
    answer are spread over time and whatever noise follows. *)
Definition serves_reads {D} (dev : sdev D) (mem : D -> memory) (slave op : Z) : Prop :=
  forall s addr count, 1 <= count <= 125 -> 0 <= addr -> addr + count <= 65536 ->
  exists s' noise sched fin, Forall is_byte noise /\
    dev s (read_frame slave op addr count)
      = (s', Some (mkWire (read_reply slave op (mem s) addr count ++ noise) sched fin)) /\
    (forall a, mem s' a = mem s a).
(** ... and it stores writes of up to [lim] registers *)
Definition serves_writes {D} (dev : sdev D) (mem : D -> memory) (slave lim : Z) : Prop :=
  forall s addr data, Forall is_byte data -> zlen data mod 2 = 0 -> 1 <= zlen data / 2 <= lim ->
  0 <= addr -> addr + zlen data / 2 <= 65536 ->
  exists s' noise sched fin, Forall is_byte noise /\
    dev s (write_frame slave addr data)
      = (s', Some (mkWire (write_reply slave addr (zlen data / 2) ++ noise) sched fin)) /\
    (forall a, mem s' a = store (mem s) addr data a).

(** ** The outcome of one RTU exchange as a function of the bytes the slave sends.
    [fin] says how the stream ends if the client waits for more. *)
Definition starved {A} (fin : wend) : res A :=
  match fin with WEmpty => Raise EModbusTimeout | WRaise e => Raise e end.
Definition is_exception (stream : bytes) : bool := Z.testbit (znth 1 stream) 7.
Definition read_frame_len (stream : bytes) : Z := if is_exception stream then 5 else 5 + znth 2 stream.
Definition write_frame_len (stream : bytes) : Z := if is_exception stream then 5 else 8.

(** the relation between the stream and the outcome of a read *)
Inductive read_outcome (stream : bytes) (fin : wend) : res bytes -> Prop :=
| RO_short : zlen stream < 5 -> read_outcome stream fin (starved fin)
| RO_truncated : 5 <= zlen stream -> zlen stream < read_frame_len stream -> read_outcome stream fin (starved fin)
| RO_crc : 5 <= zlen stream -> read_frame_len stream <= zlen stream ->
    ~ frame_ok (ztake (read_frame_len stream) stream) -> read_outcome stream fin (Raise EModbusClient)
| RO_exception : 5 <= zlen stream -> frame_ok (ztake 5 stream) -> is_exception stream = true ->
    znth 2 stream <> 0 -> read_outcome stream fin (Raise (EModbusException (znth 2 stream)))
| RO_exception0 : 5 <= zlen stream -> frame_ok (ztake 5 stream) -> is_exception stream = true ->
    znth 2 stream = 0 -> read_outcome stream fin (Ok [])
| RO_data : 5 <= zlen stream -> read_frame_len stream <= zlen stream ->
    frame_ok (ztake (read_frame_len stream) stream) -> is_exception stream = false ->
    read_outcome stream fin (Ok (slice 3 (3 + znth 2 stream) stream)).

(** ... and of a write of [count] registers at [addr] *)
Inductive write_outcome (slave addr count : Z) (stream : bytes) (fin : wend) : res unit -> Prop :=
| WO_short : zlen stream < 5 -> write_outcome slave addr count stream fin (starved fin)
| WO_truncated : 5 <= zlen stream -> zlen stream < write_frame_len stream ->
    write_outcome slave addr count stream fin (starved fin)
| WO_crc : 5 <= zlen stream -> write_frame_len stream <= zlen stream ->
    ~ frame_ok (ztake (write_frame_len stream) stream) ->
    write_outcome slave addr count stream fin (Raise EModbusClient)
| WO_exception : 5 <= zlen stream -> frame_ok (ztake 5 stream) -> is_exception stream = true ->
    znth 2 stream <> 0 -> write_outcome slave addr count stream fin (Raise (EModbusException (znth 2 stream)))
| WO_exception0 : 5 <= zlen stream -> frame_ok (ztake 5 stream) -> is_exception stream = true ->
    znth 2 stream = 0 -> write_outcome slave addr count stream fin (Raise EStruct)
| WO_mismatch : 8 <= zlen stream -> frame_ok (ztake 8 stream) -> is_exception stream = false ->
    ztake 8 stream <> write_reply slave addr count ->
    write_outcome slave addr count stream fin (Raise EModbusClient)
| WO_done : 8 <= zlen stream -> ztake 8 stream = write_reply slave addr count ->
    write_outcome slave addr count stream fin (Ok tt).
