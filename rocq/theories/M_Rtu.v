(** * M_Rtu: model of sunspec/core/modbus/client.py:224-448, class ModbusClientRTU.

    Python 3 branch; integer arguments (int() on them is the identity); [data] of a write is a
    bytes object; [trace] says whether a trace function is set (what it prints is not modelled).  Text [resp] of the code holds one character per received
    byte and is modelled by the bytes themselves. *)
From Verif Require Import Py M_Crc M_Wire.

Definition FUNC_READ_HOLDING : Z := 3.      (* client.py:43 *)
Definition FUNC_READ_INPUT : Z := 4.        (* client.py:44 *)
Definition FUNC_WRITE_MULTIPLE : Z := 16.   (* client.py:45 *)
Definition REQ_COUNT_MAX : Z := 125.        (* client.py:41 *)

(** struct.pack('>BBHH', slave, op, addr, count) + struct.pack('>H', computeCRC), client.py:230-231 *)
Definition rtu_read_req (slave op addr count : Z) : res bytes :=
  let! b1 := pack_int 1 false slave in
  let! b2 := pack_int 1 false op in
  let! b3 := pack_int 2 false addr in
  let! b4 := pack_int 2 false count in
  let req := b1 ++ b2 ++ b3 ++ b4 in
  let! c := pack_int 2 false (computeCRC req) in
  Ok (req ++ c).

(** struct.pack('>BBHHB', ...) + data + CRC, client.py:341-349 *)
Definition rtu_write_req (slave addr : Z) (data : bytes) : res bytes :=
  let len_data := zlen data in
  let! b1 := pack_int 1 false slave in
  let! b2 := pack_int 1 false FUNC_WRITE_MULTIPLE in
  let! b3 := pack_int 2 false addr in
  let! b4 := pack_int 2 false (len_data / 2) in
  let! b5 := pack_int 1 false len_data in
  let req := (b1 ++ b2 ++ b3 ++ b4 ++ b5) ++ data in
  let! c := pack_int 2 false (computeCRC req) in
  Ok (req ++ c).

(** The receive loop, client.py:245-264 (read) and 370-388 (write).  [total resp] is the full
    length of a normal response whose first bytes are [resp]: [resp[2] + 5] resp. [8].
    Result: response, exception code (None if not set), remaining input. *)
Fixpoint rtu_recv (fuel : nat) (total : bytes -> Z) (resp : bytes) (remaining : Z) (found : bool)
    (exc : option Z) (w : wire) : res (bytes * option Z * wire) :=
  match fuel with
  | O => Raise EFuel
  | S fuel' =>
    if 0 <? remaining then
      let! (c, w') := wread remaining w in
      let len_read := zlen c in
      if 0 <? len_read then
        let resp' := resp ++ c in
        let remaining' := remaining - len_read in
        if negb found && (5 <=? zlen resp') then
          if Z.land (znth 1 resp') 0x80 =? 0
          then rtu_recv fuel' total resp' (total resp' - zlen resp') true exc w'
          else rtu_recv fuel' total resp' remaining' found (Some (znth 2 resp')) w'
        else rtu_recv fuel' total resp' remaining' found exc w'
      else Raise EModbusTimeout
    else Ok (resp, exc, w)
  end.

(** Enough for any response: at most 5 + 255 bytes are read, one or more per iteration
    (see P_Rtu: the loop never runs out). *)
Definition recv_fuel : nat := 310.

Definition read_total (resp : bytes) : Z := znth 2 resp + 5.   (* client.py:259 *)
Definition write_total (resp : bytes) : Z := 8.                (* client.py:383 *)

(** CRC check of a complete response, client.py:272-274, 397-399 *)
Definition rtu_crc_ok (resp : bytes) : bool :=
  let n := zlen resp in
  let crc := Z.lor (Z.shiftl (znth (n - 2) resp) 8) (znth (n - 1) resp) in
  checkCRC (ztake (n - 2) resp) crc.

(** [if except_code: raise ModbusClientException], client.py:276-277, 401-402; code 0 is false *)
Definition exc_raise (exc : option Z) : option exn :=
  match exc with Some c => if c =? 0 then None else Some (EModbusException c) | None => None end.

Section Rtu.
  Context {D : Type}.
  Variable dev : sdev D.
  Variable trace : bool.

  (** ModbusClientRTU._read from the reception of the response on, client.py:245-279 *)
  Definition rtu_read_response (w : wire) : res bytes :=
    let! (resp, exc, _) := rtu_recv recv_fuel read_total [] 5 false None w in
    if negb (rtu_crc_ok resp) then Raise EModbusClient else
    match exc_raise exc with
    | Some e => Raise e
    | None => Ok (slice 3 (zlen resp - 2) resp)
    end.

  (** ModbusClientRTU._read, client.py:224-279.  flushInput (239) discards what an earlier
      response left behind; it is assumed not to raise. *)
  Definition rtu_read1 (slave addr count op : Z) (s : D) : D * res bytes :=
    match rtu_read_req slave op addr count with
    | Raise e => (s, Raise e)
    | Ok req =>
      (* client.py:233-237: [for c in req: ord(c)] over bytes, a TypeError in Python 3 *)
      if trace then (s, Raise EType) else
      match dev s req with
      | (s', None) => (s', Raise EModbusClient)
      | (s', Some w) => (s', rtu_read_response w)
      end
    end.

  (** ModbusClientRTU.read, loop of client.py:310-333.  Result None: the bare [return]. *)
  Fixpoint rtu_read_loop (fuel : nat) (slave addr count op max_count read_offset : Z) (resp : bytes) (s : D)
      : D * res (option bytes) :=
    match fuel with
    | O => (s, Raise EFuel)
    | S fuel' =>
      if 0 <? count then
        let read_count := if max_count <? count then max_count else count in
        match rtu_read1 slave (addr + read_offset) read_count op s with
        | (s', Raise e) => (s', Raise e)
        | (s', Ok []) => (s', Ok None)
        | (s', Ok data) =>
          rtu_read_loop fuel' slave addr (count - read_count) op max_count (read_offset + read_count) (resp ++ data) s'
        end
      else (s, Ok (Some resp))
    end.
  (** client.py:281-333; [is_open] is [self.serial is not None] *)
  Definition rtu_read (is_open : bool) (slave addr count op max_count : Z) (s : D) : D * res (option bytes) :=
    if is_open then rtu_read_loop (S (Z.to_nat count)) slave addr count op max_count 0 [] s
    else (s, Raise EModbusClient).

  (** ModbusClientRTU._write after the request was sent, client.py:370-408 *)
  Definition rtu_write_response (slave addr count : Z) (w : wire) : res unit :=
    let! (resp, exc, _) := rtu_recv recv_fuel write_total [] 5 false None w in
    if negb (rtu_crc_ok resp) then Raise EModbusClient else
    match exc_raise exc with
    | Some e => Raise e
    | None =>
      (* struct.unpack('>BBHHH', resp) needs exactly 8 bytes, client.py:406 *)
      if negb (zlen resp =? 8) then Raise EStruct else
      if negb (znth 0 resp =? slave) || negb (znth 1 resp =? FUNC_WRITE_MULTIPLE)
         || negb (be_int (slice 2 4 resp) =? addr) || negb (be_int (slice 4 6 resp) =? count)
      then Raise EModbusClient else Ok tt
    end.

  (** ModbusClientRTU._write, client.py:335-408; here tracing works: the request was turned into text (350-354) *)
  Definition rtu_write1 (slave addr : Z) (data : bytes) (s : D) : D * res unit :=
    match rtu_write_req slave addr data with
    | Raise e => (s, Raise e)
    | Ok req =>
      match dev s req with
      | (s', None) => (s', Raise EModbusClient)
      | (s', Some w) => (s', rtu_write_response slave addr (zlen data / 2) w)
      end
    end.

  (** ModbusClientRTU.write, loop of client.py:431-446, for max_count >= 0.  [count2] is twice the remaining count (the
      code holds len(data)/2 as a float: a half appears only for odd-length data, in the last
      chunk); [write_offset] is therefore always an integer when it is used. *)
  Fixpoint rtu_write_loop (fuel : nat) (slave addr count2 max_count write_offset : Z) (data : bytes) (s : D)
      : D * res unit :=
    match fuel with
    | O => (s, Raise EFuel)
    | S fuel' =>
      if 0 <? count2 then
        let write_count2 := if 2 * max_count <? count2 then 2 * max_count else count2 in
        let start := 2 * write_offset in
        let stop := 2 * write_offset + write_count2 in
        match rtu_write1 slave (addr + write_offset) (slice start stop data) s with
        | (s', Raise e) => (s', Raise e)
        | (s', Ok _) =>
          rtu_write_loop fuel' slave addr (count2 - write_count2) max_count (write_offset + write_count2 / 2) data s'
        end
      else (s, Ok tt)
    end.
  (** client.py:410-448 *)
  Definition rtu_write (is_open : bool) (slave addr : Z) (data : bytes) (max_count : Z) (s : D) : D * res unit :=
    if is_open then rtu_write_loop (S (length data)) slave addr (zlen data) max_count 0 data s
    else (s, Raise EModbusClient).
End Rtu.
