(** * M_Registry: model of the serial client registry of sunspec/core/modbus/client.py:60-86,
    144-222, 495-517.

    Opening the operating system's port succeeds or raises as the environment decides (argument
    [can_open]); closing one is assumed not to raise, and closing twice is harmless (pyserial).
    Timeouts are not modelled. *)
From Verif Require Import Py.

(** a ModbusClientRTU object, client.py:144-151; [c_open] is the state of its serial object;
    [c_devs] is the dict [devices], slave id to device object *)
Record rclient := mkRC { c_name : str; c_baud : Z; c_parity : str; c_open : bool; c_devs : list (Z * nat) }.

(** a ModbusClientDeviceRTU object, client.py:495-507: slave id, port name and client object *)
Record rdevice := mkRD { d_slave : Z; d_name : str; d_client : nat }.

(** all objects ever created (an object is its position), and the dict modbus_rtu_clients *)
Record rstate := mkRS { r_clients : list rclient; r_devices : list rdevice; r_registry : list (str * nat) }.
Definition rstate0 : rstate := mkRS [] [] [].

Definition get_client (s : rstate) (c : nat) : rclient := nth c (r_clients s) (mkRC [] 0 [] false []).
Fixpoint upd {A} (l : list A) (i : nat) (x : A) : list A :=
  match l, i with
  | [], _ => []
  | _ :: r, O => x :: r
  | y :: r, S i' => y :: upd r i' x
  end.
Definition set_client (s : rstate) (c : nat) (k : rclient) : rstate :=
  mkRS (upd (r_clients s) c k) (r_devices s) (r_registry s).

(** del d[k] *)
Definition ddel {A} (k : str) (d : list (str * A)) : list (str * A) :=
  filter (fun p => negb (eqb_list k (fst p))) d.
Fixpoint zset {A} (k : Z) (v : A) (d : list (Z * A)) : list (Z * A) :=
  match d with
  | [] => [(k, v)]
  | (k', v') :: r => if k =? k' then (k', v) :: r else (k', v') :: zset k v r
  end.
Definition zdel {A} (k : Z) (d : list (Z * A)) : list (Z * A) := filter (fun p => negb (k =? fst p)) d.

Definition PARITY_NONE : str := [78].   (* 'N', client.py *)

(** modbus_rtu_client(name, baudrate, parity), client.py:60-79 with ModbusClientRTU.__init__ *)
Definition rtu_client (name : str) (baud : option Z) (parity : option str) (can_open : bool) (s : rstate)
  : rstate * res nat :=
  match dget name (r_registry s) with
  | Some c =>
    let k := get_client s c in
    if match baud with Some b => negb (c_baud k =? b) | None => false end then (s, Raise EModbusClient)
    else if match parity with Some p => negb (eqb_list (c_parity k) p) | None => false end then (s, Raise EModbusClient)
    else (s, Ok c)
  | None =>
    let b := match baud with Some b => b | None => 9600 end in
    let p := match parity with Some p => p | None => PARITY_NONE end in
    if can_open then
      let c := length (r_clients s) in
      (mkRS (r_clients s ++ [mkRC name b p true []]) (r_devices s) (dset name c (r_registry s)), Ok c)
    else (s, Raise EModbusClient)
  end.

(** ModbusClientDeviceRTU(slave_id, name, baudrate, parity), client.py:495-507; the result is the
    device object *)
Definition dev_open (slave : Z) (name : str) (baud : option Z) (parity : option str) (can_open : bool) (s : rstate)
  : rstate * res nat :=
  match rtu_client name baud parity can_open s with
  | (s1, Raise e) => (s1, Raise e)
  | (s1, Ok c) =>
    let d := length (r_devices s1) in
    let k := get_client s1 c in
    let s2 := set_client s1 c (mkRC (c_name k) (c_baud k) (c_parity k) (c_open k) (zset slave d (c_devs k))) in
    (mkRS (r_clients s2) (r_devices s2 ++ [mkRD slave name c]) (r_registry s2), Ok d)
  end.

(** ModbusClientDeviceRTU.close (client.py:513-517) and ModbusClientRTU.remove_device (207-222) *)
Definition dev_close (d : nat) (s : rstate) : rstate :=
  match nth_error (r_devices s) d with
  | None => s        (* no such object *)
  | Some dv =>
    let c := d_client dv in
    let k := get_client s c in
    let devs := zdel (d_slave dv) (c_devs k) in
    if (length devs =? 0)%nat then
      let s1 := set_client s c (mkRC (c_name k) (c_baud k) (c_parity k) false devs) in
      mkRS (r_clients s1) (r_devices s1) (ddel (c_name k) (r_registry s1))
    else set_client s c (mkRC (c_name k) (c_baud k) (c_parity k) (c_open k) devs)
  end.
