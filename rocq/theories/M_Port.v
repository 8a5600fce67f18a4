(** * M_Port: serial requests on a port whose operations can fail (sunspec/core/modbus/client.py:224-448).

    M_Rtu leaves out that [self.serial.flushInput()] (client.py:239, 356 — before the request is sent, outside the try) can
    raise.  Here the port has both operations; the rest of a request is that of M_Rtu. *)
From Verif Require Import Py M_Wire M_Rtu M_Util M_Float M_Suns M_Point M_Mbmap M_Device M_Client M_Scan.

(** a serial port: flushInput, which returns or raises, and the exchange of a request (M_Wire: serial.write may fail, and
    serial.read may run into a timeout or raise) *)
Record port (D : Type) : Type := mkPort { pt_flush : D -> D * option exn; pt_send : sdev D }.
Arguments pt_flush {D}. Arguments pt_send {D}.

Section Port.
  Context {D : Type} (p : port D).

  (** ModbusClientRTU._read, client.py:224-279 (no trace function) *)
  Definition port_read1 (slave addr count op : Z) (s : D) : D * res bytes :=
    match rtu_read_req slave op addr count with
    | Raise e => (s, Raise e)
    | Ok req =>
      match pt_flush p s with
      | (s1, Some e) => (s1, Raise e)
      | (s1, None) =>
        match pt_send p s1 req with
        | (s2, None) => (s2, Raise EModbusClient)
        | (s2, Some w) => (s2, rtu_read_response w)
        end
      end
    end.
  (** ModbusClientRTU.read, client.py:310-333 *)
  Fixpoint port_read_loop (fuel : nat) (slave addr count op max_count read_offset : Z) (resp : bytes) (s : D)
      : D * res (option bytes) :=
    match fuel with
    | O => (s, Raise EFuel)
    | S fuel' =>
      if 0 <? count then
        let read_count := if max_count <? count then max_count else count in
        match port_read1 slave (addr + read_offset) read_count op s with
        | (s', Raise e) => (s', Raise e)
        | (s', Ok []) => (s', Ok None)
        | (s', Ok data) =>
          port_read_loop fuel' slave addr (count - read_count) op max_count (read_offset + read_count) (resp ++ data) s'
        end
      else (s, Ok (Some resp))
    end.
  Definition port_read (slave addr count op max_count : Z) (s : D) : D * res (option bytes) :=
    port_read_loop (S (Z.to_nat count)) slave addr count op max_count 0 [] s.

  (** ModbusClientRTU._write, client.py:335-408 *)
  Definition port_write1 (slave addr : Z) (data : bytes) (s : D) : D * res unit :=
    match rtu_write_req slave addr data with
    | Raise e => (s, Raise e)
    | Ok req =>
      match pt_flush p s with
      | (s1, Some e) => (s1, Raise e)
      | (s1, None) =>
        match pt_send p s1 req with
        | (s2, None) => (s2, Raise EModbusClient)
        | (s2, Some w) => (s2, rtu_write_response slave addr (zlen data / 2) w)
        end
      end
    end.
  (** ModbusClientRTU.write, client.py:431-446 (see M_Rtu.rtu_write_loop) *)
  Fixpoint port_write_loop (fuel : nat) (slave addr count2 max_count write_offset : Z) (data : bytes) (s : D)
      : D * res unit :=
    match fuel with
    | O => (s, Raise EFuel)
    | S fuel' =>
      if 0 <? count2 then
        let write_count2 := if 2 * max_count <? count2 then 2 * max_count else count2 in
        let start := 2 * write_offset in
        let stop := 2 * write_offset + write_count2 in
        match port_write1 slave (addr + write_offset) (slice start stop data) s with
        | (s', Raise e) => (s', Raise e)
        | (s', Ok _) =>
          port_write_loop fuel' slave addr (count2 - write_count2) max_count (write_offset + write_count2 / 2) data s'
        end
      else (s, Ok tt)
    end.
  Definition port_write (slave addr : Z) (data : bytes) (max_count : Z) (s : D) : D * res unit :=
    port_write_loop (S (length data)) slave addr (zlen data) max_count 0 data s.
End Port.

(** the Modbus device of a ClientDevice on this port (modbus/client.py:496-541) *)
Definition port_dev {D} (p : port D) (slave : Z) : mdev D :=
  mkDev D (fun s a n => port_read p slave a n FUNC_READ_HOLDING REQ_COUNT_MAX s)
          (fun s a d => port_write p slave a d REQ_COUNT_MAX s).
Definition port_client {D} (p : port D) (slave : Z) : sclient D := mkScl D (port_dev p slave) None.
