(** * M_RThreads: serial devices opened and closed by several threads, sunspec/core/modbus/client.py:60-86, 144-222,
    495-517, with the calls cut into the steps between which another thread can run.

    A step is one operation on an object that threads share: the dict modbus_rtu_clients, the dict [devices] of a client, or
    the operating system's port.  Everything else a call does is on its own variables, or reads attributes that are never
    assigned after the constructor (name, baudrate, parity, slave_id), and is counted to the step before it.

    Objects: a ModbusClientRTU object is identified by the name of its port and its number among the client objects ever made
    for that name; a device object by the thread that made it and its number among the devices of that thread.  The dict
    modbus_rtu_clients is kept as its entry for each name: operations on one key of a dict do not change what it holds for
    another.  As in M_Registry, the environment says whether the operating system opens the port ([can_open]), closing a port
    does not raise, and timeouts are not modelled. *)
From Verif Require Import Py.
From Verif Require M_Registry.

(** a ModbusClientRTU object, client.py:144-151; its name is that of the port it is kept under *)
Record qclient := mkQC { q_baud : Z; q_parity : str; q_open : bool; q_devs : list (Z * (nat * nat)) }.
(** what there is for one port name: all clients ever made for it, and the entry of modbus_rtu_clients (client.py:49) *)
Record qport := mkQP { q_clients : list qclient; q_reg : option nat }.
Definition qport0 : qport := mkQP [] None.
(** a ModbusClientDeviceRTU object, client.py:495-507: slave id, port name and client object *)
Record qdev := mkQD { qd_slave : Z; qd_name : str; qd_client : nat }.

(** what a thread does next: make a device, or close the [k]-th device it has made *)
Inductive act :=
| AOpen (slave : Z) (name : str) (baud : option Z) (parity : option str) (can_open : bool)
| AClose (k : nat).
(** where a thread is inside a call *)
Inductive qpc :=
| QIdle                                                              (* between calls *)
| QNew (slave : Z) (name : str) (baud : option Z) (parity : option str) (can_open : bool)
                                                                     (* modbus_rtu_clients.get gave None, client.py:64-75 *)
| QSet (slave : Z) (name : str) (c : nat)                            (* before modbus_rtu_clients[name] = client, client.py:77 *)
| QAdd (slave : Z) (name : str) (c : nat)                            (* before self.client.add_device, client.py:506 *)
| QDel (d : qdev)                                                    (* before del self.devices[slave_id], client.py:217 *)
| QLen (d : qdev)                                                    (* before len(self.devices) == 0, client.py:220 *)
| QShut (d : qdev)                                                   (* before self.close(), client.py:221 *)
| QGet (d : qdev)                                                    (* before modbus_rtu_clients.get(name), client.py:85 *)
| QUnreg (d : qdev).                                                 (* before del modbus_rtu_clients[name], client.py:86 *)
(** a thread: the calls it has still to make, where it is, the devices it has made, what its calls returned or raised
    (a device for a constructor, None for close) *)
Record qthread := mkQT { t_prog : list act; t_pc : qpc; t_devs : list qdev; t_out : list (res (option nat)) }.

Definition at_pc (t : qthread) (pc : qpc) : qthread := mkQT (t_prog t) pc (t_devs t) (t_out t).
Definition started (t : qthread) : qthread := mkQT (tl (t_prog t)) (t_pc t) (t_devs t) (t_out t).
Definition returns (t : qthread) (r : res (option nat)) : qthread := mkQT (t_prog t) QIdle (t_devs t) (t_out t ++ [r]).
Definition made (t : qthread) (d : qdev) : qthread := mkQT (t_prog t) (t_pc t) (t_devs t ++ [d]) (t_out t).
Definition cl (p : qport) (c : nat) : qclient := nth c (q_clients p) (mkQC 0 [] false []).
Definition put_cl (p : qport) (c : nat) (k : qclient) : qport := mkQP (M_Registry.upd (q_clients p) c k) (q_reg p).
Definition reg (p : qport) (r : option nat) : qport := mkQP (q_clients p) r.
Definition devs (k : qclient) (l : list (Z * (nat * nat))) : qclient := mkQC (q_baud k) (q_parity k) (q_open k) l.
(** slave in devices *)
Definition has (slave : Z) (l : list (Z * (nat * nat))) : bool := existsb (fun p => slave =? fst p) l.

(** the next step of thread [i]: what it does to the ports, and the thread after it *)
Definition tstep (i : nat) (t : qthread) (P : str -> qport) : option (str * qport) * qthread :=
  match t_pc t with
  | QIdle =>
    match t_prog t with
    | [] => (None, t)
    | AOpen slave name baud parity can :: _ =>      (* client.py:64-69; the client's settings never change *)
      match q_reg (P name) with
      | None => (None, at_pc (started t) (QNew slave name baud parity can))
      | Some c =>
        let k := cl (P name) c in
        if match baud with Some b => negb (q_baud k =? b) | None => false end then (None, returns (started t) (Raise EModbusClient))
        else if match parity with Some p => negb (eqb_list (q_parity k) p) | None => false end
        then (None, returns (started t) (Raise EModbusClient))
        else (None, at_pc (started t) (QAdd slave name c))
      end
    | AClose j :: _ =>                              (* client.py:512-517, 216: the device objects are true *)
      match nth_error (t_devs t) j with
      | None => (None, returns (started t) (Ok None))       (* no such object: nothing to call *)
      | Some d => (None, at_pc (started t) (if has (qd_slave d) (q_devs (cl (P (qd_name d)) (qd_client d))) then QDel d else QLen d))
      end
    end
  | QNew slave name baud parity can =>              (* client.py:71-76, 144-191 *)
    if can then
      let p := P name in
      let k := mkQC (match baud with Some b => b | None => 9600 end) (match parity with Some q => q | None => M_Registry.PARITY_NONE end) true [] in
      (Some (name, mkQP (q_clients p ++ [k]) (q_reg p)), at_pc t (QSet slave name (length (q_clients p))))
    else (None, returns t (Raise EModbusClient))
  | QSet slave name c => (Some (name, reg (P name) (Some c)), at_pc t (QAdd slave name c))
  | QAdd slave name c =>                            (* client.py:193-205, 506 *)
    let k := cl (P name) c in
    (Some (name, put_cl (P name) c (devs k (M_Registry.zset slave (i, length (t_devs t)) (q_devs k)))),
     returns (made t (mkQD slave name c)) (Ok (Some (length (t_devs t)))))
  | QDel d =>
    let k := cl (P (qd_name d)) (qd_client d) in
    if has (qd_slave d) (q_devs k)
    then (Some (qd_name d, put_cl (P (qd_name d)) (qd_client d) (devs k (M_Registry.zdel (qd_slave d) (q_devs k)))), at_pc t (QLen d))
    else (None, returns t (Raise EKey))
  | QLen d =>
    if (length (q_devs (cl (P (qd_name d)) (qd_client d))) =? 0)%nat then (None, at_pc t (QShut d)) else (None, returns t (Ok None))
  | QShut d =>                                      (* client.py:183-191 *)
    let k := cl (P (qd_name d)) (qd_client d) in
    (Some (qd_name d, put_cl (P (qd_name d)) (qd_client d) (mkQC (q_baud k) (q_parity k) false (q_devs k))), at_pc t (QGet d))
  | QGet d =>
    match q_reg (P (qd_name d)) with
    | Some _ => (None, at_pc t (QUnreg d))
    | None => (None, returns t (Ok None))
    end
  | QUnreg d =>
    match q_reg (P (qd_name d)) with
    | Some _ => (Some (qd_name d, reg (P (qd_name d)) None), returns t (Ok None))
    | None => (None, returns t (Raise EKey))
    end
  end.

(** the program: the ports and the threads *)
Record qworld := mkQW { w_ports : str -> qport; w_threads : list qthread }.
Definition setp (x : option (str * qport)) (P : str -> qport) : str -> qport :=
  match x with None => P | Some (n, p) => fun m => if eqb_list n m then p else P m end.
(** thread [i] gets a turn *)
Definition qstep (i : nat) (w : qworld) : qworld :=
  match nth_error (w_threads w) i with
  | None => w
  | Some t => let '(x, t') := tstep i t (w_ports w) in mkQW (setp x (w_ports w)) (M_Registry.upd (w_threads w) i t')
  end.
Definition qsched (sched : list nat) (w : qworld) : qworld := fold_left (fun w i => qstep i w) sched w.
(** threads with these programs, nothing opened yet *)
Definition qworld0 (progs : list (list act)) : qworld := mkQW (fun _ => qport0) (map (fun p => mkQT p QIdle [] []) progs).
