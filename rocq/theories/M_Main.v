(** * M_Main: the program scripts/suns.py from its options to its last line of output (scripts/suns.py:38-116).

    The options are given as optparse leaves them (the parsing of the command line is not modelled; -b may be a text there, which
    pyserial converts: here it is a number).  The time in the timestamp line and the texts of error messages are not modelled.  Where
    an exception is not caught, Python prints a traceback and the process ends with status 1. *)
From Coq Require Import String.
From Verif Require Import Py M_Xml M_Util M_Float M_Suns M_Point M_Mbmap M_Path M_Files M_Device M_Client M_Wire M_Tcp M_Rtu M_Registry M_Construct M_Scan M_Wrapper M_Report.

(** What the library itself prints is not among these outputs: the map that a failing ModbusMap.read prints is in M_Output, ET.dump of a
    duplicate point definition (device.py:1179) is not modelled. *)
(** what is printed: the line with the time (suns.py:85), a line of the report, "Error: ..." (suns.py:81), "Unknown -t option: ..."
    (suns.py:77) *)
Inductive output := OTime | OLine (s : str) | OError (e : exn) | OUnknown (t : str).
(** how the process ends *)
Inductive ending := Finished | Exit1 | Traceback (e : exn).

(** optparse, suns.py:42-65 *)
Record options := mkOpts { o_t : str; o_a : Z; o_i : str; o_P : Z; o_p : str; o_b : Z; o_T : Z; o_m : option str }.
Definition default_options : options := mkOpts (lit "tcp"%string) 1 (lit "localhost"%string) 502 (lit "/dev/ttyUSB0"%string) 9600 2000 None.

(** the keyword arguments of the three calls, suns.py:70, 72, 74 *)
Definition tcp_args (o : options) : cargs := mkArgs (o_a o) None None None None (o_i o) (Some (o_P o)) false None None None false (Some (o_T o)).
Definition rtu_args (o : options) : cargs := mkArgs (o_a o) (Some (o_p o)) None (Some (o_b o)) None [] None false None None None false (Some (o_T o)).
Definition mapped_args (o : options) : cargs := mkArgs (o_a o) (o_m o) None None None [] None false None None None false None.

Section Main.
  Context (E : pyenv) (lfuel fuel : nat) (types : Z -> res modeltype) (inherited : list str).

  (** an exception in the try statement, suns.py:80-82 *)
  Definition caught (e : exn) : list output * ending :=
    if is_sunspec_client_error e then ([OError e], Exit1) else ([], Traceback e).

  (** the scan and the named attributes (client.py:817-848), then suns.py:84-116.  sd.read() looks up the method in the object first:
      a model may have replaced it, or the attribute device it uses. *)
  Definition run_device {D} (c : sclient D) (s : D) : list output * ending :=
    let '(s1, cd, r) := scan c lfuel types None fuel s new_cdevice in
    match wrapper_init types inherited [] (let! _ := r in Ok (cd_models cd)) with
    | (_, Raise e) => caught e
    | ((_, w), Ok _) =>
      match getattr_w inherited w (lit "read"%string), dget (lit "device"%string) (wd_dict w) with
      | Some (WMethod _), Some WDevice =>
        match device_read_points (scl_dev c) s1 (cd_models cd) with
        | (_, _, Raise e) => ([OTime], Traceback e)
        | (_, ms, Ok _) =>
          let '(ls, x) := report E ms in
          (OTime :: map OLine ls, match x with Ok _ => Finished | Raise e => Traceback e end)
        end
      | Some (WMethod _), _ => ([OTime], Traceback EAttr)
      | _, _ => ([OTime], Traceback EType)
      end
    end.

  (** the surroundings: what answers on a serial port with a given baud rate, parity and timeout and at a TCP address and port with
      a given timeout, and its state; whether a port can be opened; the files and the XML parser *)
  Context {D1 D2 : Type} (ports : str -> Z -> str -> Z -> sdev D1 * D1) (can_open : str -> bool) (hosts : str -> Z -> Z -> server D2 * D2)
          (fs : fsys) (parse : bytes -> res xml).

  (** suns.py:67-82, then the rest *)
  Definition suns_main (o : options) : list output * ending :=
    let construct t a := snd (client_construct E fs parse t a (can_open (o_p o)) pstate0) in
    if eqb_list (o_t o) (lit "tcp"%string) then
      match construct DTcp (tcp_args o) with
      | Ok (MTcp d) => let '(srv, s) := hosts (td_ipaddr d) (td_ipport d) (td_timeout d) in run_device (tcp_client srv false (td_slave d)) (SNone, s)
      | Ok _ => ([], Finished)
      | Raise e => caught e
      end
    else if eqb_list (o_t o) (lit "rtu"%string) then
      match client_construct E fs parse DRtu (rtu_args o) (can_open (o_p o)) pstate0 with
      | (p, Ok (MRtu d)) =>
        match nth_error (r_devices (pt_reg p)) d with
        | Some dv => let k := get_client (pt_reg p) (d_client dv) in
                     let '(dev, s) := ports (c_name k) (c_baud k) (c_parity k) (pt_timeout p (d_client dv)) in
                     run_device (rtu_client dev false true (d_slave dv)) s
        | None => ([], Finished)
        end
      | (_, Ok _) => ([], Finished)
      | (_, Raise e) => caught e
      end
    else if eqb_list (o_t o) (lit "mapped"%string) then
      match construct DMapped (mapped_args o) with
      | Ok (MMap m) => run_device map_client m
      | Ok _ => ([], Finished)
      | Raise e => caught e
      end
    else ([OUnknown (o_t o)], Exit1).
End Main.
