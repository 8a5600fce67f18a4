(** * M_Line: ModbusClientRTU (modbus/client.py:224-448) on a serial port with an input buffer.

    M_Rtu gives every request the input that follows it; here the port keeps what was not read, as pyserial and the
    operating system do, and flushInput is a step of its own. *)
From Verif Require Import Py M_Crc M_Wire M_Rtu.

(** the port: the device behind it and the bytes that arrived and have not been read *)
Record port (D : Type) := mkPort { po_dev : D; po_rx : bytes }.
Arguments mkPort {D}. Arguments po_dev {D}. Arguments po_rx {D}.
(** serial.flushInput() *)
Definition flush_input {D} (p : port D) : port D := mkPort (po_dev p) [].
(** serial.write(req): the answer arrives behind what is in the buffer *)
Definition port_write {D} (dev : sdev D) (req : bytes) (p : port D) : port D * option wire :=
  match dev (po_dev p) req with
  | (d, None) => (mkPort d (po_rx p), None)
  | (d, Some w) => (mkPort d [], Some (mkWire (po_rx p ++ w_bytes w) (w_sched w) (w_end w)))
  end.
Definition with_rx {D} (p : port D) (w : wire) : port D := mkPort (po_dev p) (w_bytes w).

Section Line.
  Context {D : Type}.
  Variable dev : sdev D.
  Variable trace : bool.
  (** what is left in the buffer after the receive loop; after a timeout everything was read *)
  Definition rest_of (r : res (bytes * option Z * wire)) : bytes := match r with Ok (_, _, w) => w_bytes w | Raise _ => [] end.

  (** ModbusClientRTU._read, client.py:224-279 *)
  Definition line_read1 (slave addr count op : Z) (p : port D) : port D * res bytes :=
    match rtu_read_req slave op addr count with
    | Raise e => (p, Raise e)
    | Ok req =>
      if trace then (p, Raise EType) else
      match port_write dev req (flush_input p) with
      | (p', None) => (p', Raise EModbusClient)
      | (p', Some w) =>
        let got := rtu_recv recv_fuel read_total [] 5 false None w in
        (mkPort (po_dev p') (rest_of got),
         let! (resp, exc, _) := got in
         if negb (rtu_crc_ok resp) then Raise EModbusClient else
         match exc_raise exc with Some e => Raise e | None => Ok (slice 3 (zlen resp - 2) resp) end)
      end
    end.
  (** ModbusClientRTU.read, client.py:310-333 *)
  Fixpoint line_read_loop (fuel : nat) (slave addr count op max_count read_offset : Z) (resp : bytes) (p : port D)
      : port D * res (option bytes) :=
    match fuel with
    | O => (p, Raise EFuel)
    | S fuel' =>
      if 0 <? count then
        let read_count := if max_count <? count then max_count else count in
        match line_read1 slave (addr + read_offset) read_count op p with
        | (p', Raise e) => (p', Raise e)
        | (p', Ok []) => (p', Ok None)
        | (p', Ok data) => line_read_loop fuel' slave addr (count - read_count) op max_count (read_offset + read_count) (resp ++ data) p'
        end
      else (p, Ok (Some resp))
    end.
  Definition line_read (is_open : bool) (slave addr count op max_count : Z) (p : port D) : port D * res (option bytes) :=
    if is_open then line_read_loop (S (Z.to_nat count)) slave addr count op max_count 0 [] p else (p, Raise EModbusClient).

  (** ModbusClientRTU._write, client.py:335-408 *)
  Definition line_write1 (slave addr : Z) (data : bytes) (p : port D) : port D * res unit :=
    match rtu_write_req slave addr data with
    | Raise e => (p, Raise e)
    | Ok req =>
      match port_write dev req (flush_input p) with
      | (p', None) => (p', Raise EModbusClient)
      | (p', Some w) =>
        let got := rtu_recv recv_fuel write_total [] 5 false None w in
        (mkPort (po_dev p') (rest_of got),
         let! (resp, exc, _) := got in
         if negb (rtu_crc_ok resp) then Raise EModbusClient else
         match exc_raise exc with
         | Some e => Raise e
         | None =>
           if negb (zlen resp =? 8) then Raise EStruct else
           if negb (znth 0 resp =? slave) || negb (znth 1 resp =? FUNC_WRITE_MULTIPLE)
              || negb (be_int (slice 2 4 resp) =? addr) || negb (be_int (slice 4 6 resp) =? zlen data / 2)
           then Raise EModbusClient else Ok tt
         end)
      end
    end.
  (** ModbusClientRTU.write, client.py:431-446 *)
  Fixpoint line_write_loop (fuel : nat) (slave addr count2 max_count write_offset : Z) (data : bytes) (p : port D) : port D * res unit :=
    match fuel with
    | O => (p, Raise EFuel)
    | S fuel' =>
      if 0 <? count2 then
        let write_count2 := if 2 * max_count <? count2 then 2 * max_count else count2 in
        match line_write1 slave (addr + write_offset) (slice (2 * write_offset) (2 * write_offset + write_count2) data) p with
        | (p', Raise e) => (p', Raise e)
        | (p', Ok _) => line_write_loop fuel' slave addr (count2 - write_count2) max_count (write_offset + write_count2 / 2) data p'
        end
      else (p, Ok tt)
    end.
  Definition line_write (is_open : bool) (slave addr : Z) (data : bytes) (max_count : Z) (p : port D) : port D * res unit :=
    if is_open then line_write_loop (S (length data)) slave addr (zlen data) max_count 0 data p else (p, Raise EModbusClient).
End Line.
