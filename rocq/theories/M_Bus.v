(** * M_Bus: devices on serial ports: the client registry (M_Registry) together with the requests the devices make
    (sunspec/core/modbus/client.py:144-191, 224-448, 495-552).

    A port is its name; what is attached to it is an environment state and a function answering requests (M_Wire), which
    may depend on the timeout set for the port (in ms; only whole ms are modelled).  A closed pyserial port raises an
    OSError (serial.PortNotOpenError) from flushInput. *)
From Verif Require Import Py M_Wire M_Rtu M_Registry.

(** timeout set by ModbusClientRTU.__init__, client.py:149 *)
Definition DEFAULT_TIMEOUT : Z := 500.

Section Bus.
  Context {D : Type}.
  Variable dev : str -> Z -> sdev D.

  (** [bus_timeout]: timeout of the serial object of each client *)
  Record bus := mkBus { bus_reg : rstate; bus_ports : str -> D; bus_timeout : nat -> Z }.

  (** ModbusClientDeviceRTU(slave_id, name, baudrate, parity, timeout), client.py:495-511 *)
  Definition bus_open (slave : Z) (name : str) (baud : option Z) (parity : option str) (timeout : option Z) (can_open : bool) (b : bus) : bus * res nat :=
    match dev_open slave name baud parity can_open (bus_reg b) with
    | (s, Raise e) => (mkBus s (bus_ports b) (bus_timeout b), Raise e)
    | (s, Ok d) =>
      let c := match nth_error (r_devices s) d with Some dv => d_client dv | None => O end in
      let t0 := if (c <? length (r_clients (bus_reg b)))%nat then bus_timeout b c else DEFAULT_TIMEOUT in
      let t := match timeout with Some t => t | None => t0 end in
      (mkBus s (bus_ports b) (fun x => if (x =? c)%nat then t else bus_timeout b x), Ok d)
    end.
  (** ModbusClientDeviceRTU.close *)
  Definition bus_close (d : nat) (b : bus) : bus := mkBus (dev_close d (bus_reg b)) (bus_ports b) (bus_timeout b).

  (** read and write on a client whose port is closed: the attribute serial is still set (client.py:185-191), so the first
      request is packed and flushInput raises (client.py:231-239, 344-361) *)
  Definition closed_read (slave a n : Z) : res (option bytes) :=
    if 0 <? n then
      match rtu_read_req slave FUNC_READ_HOLDING a (if REQ_COUNT_MAX <? n then REQ_COUNT_MAX else n) with Raise e => Raise e | Ok _ => Raise EOS end
    else Ok (Some []).
  Definition closed_write (slave a : Z) (data : bytes) : res unit :=
    if 0 <? zlen data then
      match rtu_write_req slave a (ztake (2 * REQ_COUNT_MAX) data) with Raise e => Raise e | Ok _ => Raise EOS end
    else Ok tt.

  Definition set_port (b : bus) (name : str) (p : D) : bus :=
    mkBus (bus_reg b) (fun x => if eqb_list x name then p else bus_ports b x) (bus_timeout b).
  (** ModbusClientDeviceRTU.read, client.py:519-536 (no trace function); no device object: AttributeError (not reachable) *)
  Definition bus_read (d : nat) (a n : Z) (b : bus) : bus * res (option bytes) :=
    match nth_error (r_devices (bus_reg b)) d with
    | None => (b, Raise EAttr)
    | Some dv =>
      let k := get_client (bus_reg b) (d_client dv) in
      if c_open k then
        let '(p, r) := rtu_read (dev (c_name k) (bus_timeout b (d_client dv))) false true (d_slave dv) a n FUNC_READ_HOLDING REQ_COUNT_MAX (bus_ports b (c_name k)) in
        (set_port b (c_name k) p, r)
      else (b, closed_read (d_slave dv) a n)
    end.
  (** ModbusClientDeviceRTU.write, client.py:538-552 *)
  Definition bus_write (d : nat) (a : Z) (data : bytes) (b : bus) : bus * res unit :=
    match nth_error (r_devices (bus_reg b)) d with
    | None => (b, Raise EAttr)
    | Some dv =>
      let k := get_client (bus_reg b) (d_client dv) in
      if c_open k then
        let '(p, r) := rtu_write (dev (c_name k) (bus_timeout b (d_client dv))) true (d_slave dv) a data REQ_COUNT_MAX (bus_ports b (c_name k)) in
        (set_port b (c_name k) p, r)
      else (b, closed_write (d_slave dv) a data)
    end.
End Bus.
Arguments bus : clear implicits.
Arguments mkBus {D}. Arguments bus_reg {D}. Arguments bus_ports {D}. Arguments bus_timeout {D}.
