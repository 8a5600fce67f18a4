(** * M_Construct: creating a ClientDevice (sunspec/core/client.py:144-178) and its Modbus device
    (modbus/client.py:495-511, 674-697, 1000-1012), and connecting a TCP device with or without TLS
    (modbus/client.py:702-730).

    Timeouts are in milliseconds.  The attributes type, name, pathlist, slave_id, ctx, trace_func and max_count are stored
    as given and not modelled here.  Files are looked up in an abstract file system. *)
From Coq Require Import String.
From Verif Require Import Py M_Xml M_Path M_Suns M_Float M_Mbmap M_Files M_Registry M_Client M_Device M_Scan.

(** ** serial ports: the registry of M_Registry and the timeout of each client's serial object (ModbusClientRTU.timeout,
    modbus/client.py:148-149, .5 s; writeTimeout always has the same value) *)
Record pstate := mkPT { pt_reg : rstate; pt_timeout : nat -> Z }.
Definition RTU_DEFAULT_TIMEOUT : Z := 500.
Definition pstate0 : pstate := mkPT rstate0 (fun _ => RTU_DEFAULT_TIMEOUT).

(** ModbusClientDeviceRTU.__init__, modbus/client.py:495-511.  pyserial refuses a negative timeout (ValueError). *)
Definition rtu_construct (slave : Z) (name : str) (baud : option Z) (parity : option str) (timeout : option Z) (can_open : bool)
  (s : pstate) : pstate * res nat :=
  match dev_open slave name baud parity can_open (pt_reg s) with
  | (r1, Raise e) => (mkPT r1 (pt_timeout s), Raise e)
  | (r1, Ok d) =>
    let c := match nth_error (r_devices r1) d with Some dv => d_client dv | None => O end in
    match timeout with
    | None => (mkPT r1 (pt_timeout s), Ok d)
    | Some t => if t <? 0 then (mkPT r1 (pt_timeout s), Raise EValue)
                else (mkPT r1 (fun k => if (k =? c)%nat then t else pt_timeout s k), Ok d)
    end
  end.

(** ** TCP devices *)
(** ModbusClientDeviceTCP.__init__, modbus/client.py:674-693 *)
Record tcpdev := mkTD { td_slave : Z; td_ipaddr : str; td_ipport : Z; td_timeout : Z;
  td_tls : bool; td_cafile : option str; td_certfile : option str; td_keyfile : option str; td_tls_verify : bool }.
Definition TCP_DEFAULT_PORT : Z := 502.
Definition TCP_DEFAULT_TIMEOUT : Z := 2000.
Definition tcp_construct (slave : Z) (ipaddr : str) (ipport timeout : option Z) (tls : bool) (cafile certfile keyfile : option str)
  (insecure : bool) : tcpdev :=
  mkTD slave ipaddr (match ipport with Some p => p | None => TCP_DEFAULT_PORT end)
    (match timeout with Some t => t | None => TCP_DEFAULT_TIMEOUT end) tls cafile certfile keyfile (negb insecure).

(** what connecting depends on: whether the CA file and the client certificate can be loaded, whether there is a server at
    an address and port, whether its certificate is signed by the CA (the system's CAs without a CA file) and whether it is
    issued for a host name *)
Record network := mkNet {
  n_ca_loads : option str -> bool;
  n_cert_loads : str -> option str -> bool;
  n_accepts : str -> Z -> bool;
  n_trusted : option str -> str -> Z -> bool;
  n_named : str -> Z -> bool }.
(** what an attempt did: the timeout set on the socket, whether TLS was set up (and then check_hostname), the address
    connected to, and the result *)
Record attempt := mkAt { at_timeout : Z; at_tls : option bool; at_target : option (str * Z); at_result : res unit }.
(** ModbusClientDeviceTCP.connect, modbus/client.py:702-730: every exception becomes ModbusClientError.
    ssl.create_default_context(SERVER_AUTH) requires a valid certificate (verify_mode CERT_REQUIRED), whatever
    check_hostname is; load_cert_chain(certfile=None) is a TypeError.  The handshake takes place in connect(). *)
Definition tcp_connect_attempt (N : network) (d : tcpdev) (timeout : option Z) : attempt :=
  let t := match timeout with Some t => t | None => td_timeout d end in
  if t <? 0 then mkAt t None None (Raise EModbusClient)             (* settimeout: ValueError *)
  else if td_tls d then
    if negb (n_ca_loads N (td_cafile d)) then mkAt t None None (Raise EModbusClient)
    else match td_certfile d with
         | None => mkAt t None None (Raise EModbusClient)
         | Some cert =>
           if negb (n_cert_loads N cert (td_keyfile d)) then mkAt t None None (Raise EModbusClient)
           else
             let check_hostname := td_tls_verify d in
             mkAt t (Some check_hostname) (Some (td_ipaddr d, td_ipport d))
               (if n_accepts N (td_ipaddr d) (td_ipport d) && n_trusted N (td_cafile d) (td_ipaddr d) (td_ipport d) &&
                   (negb check_hostname || n_named N (td_ipaddr d) (td_ipport d))
                then Ok tt else Raise EModbusClient)
         end
  else mkAt t None (Some (td_ipaddr d, td_ipport d))
         (if n_accepts N (td_ipaddr d) (td_ipport d) then Ok tt else Raise EModbusClient).

(** ** ClientDevice.__init__, client.py:144-172 *)
(** the value of device_type: one of the constants of client.py:34-36, or anything else *)
Inductive dtype := DRtu | DTcp | DMapped | DOther.
(** the attribute modbus_device *)
Inductive mbdev := MNone | MRtu (d : nat) | MTcp (d : tcpdev) | MMap (m : mbmap).
Record cargs := mkArgs { a_slave : Z; a_name : option str; a_pathlist : option (list str); a_baud : option Z; a_parity : option str;
  a_ipaddr : str; a_ipport : option Z; a_tls : bool; a_cafile : option str; a_certfile : option str; a_keyfile : option str;
  a_insecure : bool; a_timeout : option Z }.
(** ModbusClientDeviceMapped.__init__, modbus/client.py:1000-1012 *)
Definition mapped_construct (E : pyenv) (fs : fsys) (parse : bytes -> res xml) (name : str) (pathlist : option (list str)) : res mbmap :=
  let! m0 := new_map V_HOLDING 40000 in
  match map_from_file E fs parse m0 name pathlist with (m, Ok _) => Ok m | (_, Raise e) => Raise e end.
(** A serial port without a name: name=None is looked up and opened like any other name; the environment decides. *)
Definition client_construct (E : pyenv) (fs : fsys) (parse : bytes -> res xml) (t : dtype) (a : cargs) (can_open : bool) (s : pstate)
  : pstate * res mbdev :=
  let wrapped r := match r with Ok x => Ok x | Raise e => Raise (wrap_modbus e) end in
  match t with
  | DRtu => let '(s', r) := rtu_construct (a_slave a) (match a_name a with Some n => n | None => [] end) (a_baud a) (a_parity a) (a_timeout a) can_open s in
            (s', wrapped (let! d := r in Ok (MRtu d)))
  | DTcp => (s, Ok (MTcp (tcp_construct (a_slave a) (a_ipaddr a) (a_ipport a) (a_timeout a) (a_tls a) (a_cafile a) (a_certfile a) (a_keyfile a) (a_insecure a))))
  | DMapped => match a_name a with
               | None => (s, Raise ESunSpecClient)
               | Some n => (s, wrapped (let! m := mapped_construct E fs parse n (a_pathlist a) in Ok (MMap m)))
               end
  | DOther => (s, Ok MNone)
  end.
(** ClientDevice.close, client.py:174-177, for the serial ports *)
Definition client_close (m : mbdev) (s : pstate) : pstate :=
  match m with MRtu d => mkPT (dev_close d (pt_reg s)) (pt_timeout s) | _ => s end.
(** read and write without a modbus_device, client.py:192-198, 211-217 *)
Definition no_device {D} : mdev D := mkDev D (fun s _ _ => (s, Raise ESunSpecClient)) (fun s _ _ => (s, Raise ESunSpecClient)).
Definition no_client {D} : sclient D := mkScl D no_device None.
