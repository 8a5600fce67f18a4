(** * M_Scan: ClientDevice.scan (sunspec/core/client.py:229-307) and Device.add_model (device.py:98-111).

    [D] is the state of the Modbus device and its transport.  The texts of error messages and the delays are
    not modelled. *)
From Coq Require Import String.
From Verif Require Import Py M_Util M_Mbmap M_Device M_Client M_Wire M_Tcp M_Rtu.

(** ClientDevice.base_addr_list, client.py:154 *)
Definition BASE_ADDRS : list Z := [40000; 0; 50000].
(** b'SunS' *)
Definition SUNS : bytes := lit "SunS"%string.
(** suns.SUNS_END_MODEL_ID, suns.py:85 *)
Definition END_MODEL_ID : Z := 0xffff.

(** the attributes base_addr and models_list.  (The dictionary [models] is determined by models_list: the
    models with a given id, in order; see [models_of].) *)
Record cdevice : Type := mkCD { cd_base : option Z; cd_models : list model }.
Definition new_cdevice : cdevice := mkCD None [].
(** Device.models[id] as built by add_model, device.py:98-111 *)
Definition models_of (cd : cdevice) (id : Z) : list model := filter (fun m => md_id m =? id) (cd_models cd).

(** [scl_connect]: connect and disconnect of a TCP device (client.py:237-240, 306-307); None for RTU and
    mapped devices *)
Record sclient (D : Type) : Type := mkScl {
  scl_dev : mdev D;
  scl_connect : option ((D -> D * res unit) * (D -> D)) }.
Arguments scl_dev {D}. Arguments scl_connect {D}.

Definition with_error (m : model) (e : exn) : model :=
  mkModel (md_id m) (md_index m) (md_type m) (md_addr m) (md_len m) (md_exposed m) (md_blocks m) (md_reads m) (Some e).

Section Scan.
  Context {D : Type} (c : sclient D).
  Variable lfuel : nat.                           (* for the loop in Model.load *)
  Variable types : Z -> res modeltype.            (* model_type_get *)
  Variable progress : option (list Z -> bool).    (* the callback; it may depend on its earlier calls *)

  (** the loop over the base addresses, client.py:245-263 *)
  Fixpoint find_base (s : D) (l : list Z) : D * res (option (Z * bytes)) :=
    match l with
    | [] => (s, Ok None)
    | a :: r =>
      match cl_read (scl_dev c) s a 3 with
      | (s', Raise e) => if is_sunspec_client_error e then find_base s' r else (s', Raise e)
      | (s', Ok None) => (s', Raise EType)       (* None[:4] *)
      | (s', Ok (Some d)) => if eqb_list (py_slice 0 4 d) SUNS then (s', Ok (Some (a, d))) else find_base s' r
      end
    end.

  (** [if data and len(data) == 2], client.py:272, 291 *)
  Definition two_bytes (o : option bytes) : option bytes :=
    match o with Some [x; y] => Some [x; y] | _ => None end.

  (** the while loop, client.py:268-298.  [hist]: ids reported to the callback so far. *)
  Fixpoint scan_loop (fuel : nat) (s : D) (id addr : Z) (hist : list Z) (models : list model) : D * list model * res unit :=
    match fuel with
    | O => (s, models, Raise EFuel)
    | S k =>
      if id =? END_MODEL_ID then (s, models, Ok tt)
      else
        match cl_read (scl_dev c) s (addr + 1) 1 with
        | (s1, Raise e) => (s1, models, Raise e)
        | (s1, Ok o) =>
          match two_bytes o with
          | None => (s1, models, Ok tt)
          | Some d =>
            let hist' := hist ++ [id] in
            if (match progress with Some f => negb (f hist') | None => false end) then (s1, models, Raise ESunSpecClient)
            else
              match data_to_u16 d with
              | Raise e => (s1, models, Raise e)
              | Ok len =>
                match model_load lfuel types (new_model id (addr + 2) len) with
                | (_, Raise EFuel) => (s1, models, Raise EFuel)
                | (m, r) =>
                  let models' := models ++ [match r with Ok _ => m | Raise e => with_error m e end] in
                  let addr' := addr + (len + 2) in
                  match cl_read (scl_dev c) s1 addr' 1 with
                  | (s2, Raise e) => (s2, models', Raise e)
                  | (s2, Ok o2) =>
                    match two_bytes o2 with
                    | None => (s2, models', Ok tt)
                    | Some d2 =>
                      match data_to_u16 d2 with
                      | Raise e => (s2, models', Raise e)
                      | Ok id' => scan_loop k s2 id' addr' hist' models'
                      end
                    end
                  end
                end
              end
          end
        end
    end.

  (** client.py:244-304, after the connection was made.  If base_addr is already set the variable [data] has no
      value (client.py:265). *)
  Definition scan_body (fuel : nat) (s : D) (cd : cdevice) : D * cdevice * res unit :=
    match cd_base cd with
    | Some _ => (s, cd, Raise EUnbound)
    | None =>
      match find_base s BASE_ADDRS with
      | (s1, Raise e) => (s1, cd, Raise e)
      | (s1, Ok None) => (s1, cd, Raise ESunSpecClient)
      | (s1, Ok (Some (a, d))) =>
        match data_to_u16 (py_slice 4 6 d) with
        | Raise e => (s1, mkCD (Some a) (cd_models cd), Raise e)
        | Ok id =>
          let '(s2, models, r) := scan_loop fuel s1 id (a + 2) [] (cd_models cd) in
          (s2, mkCD (Some a) models, r)
        end
      end
    end.
  (** ClientDevice.scan, client.py:229-307; the exception of a failing connect is not caught *)
  Definition scan (fuel : nat) (s : D) (cd : cdevice) : D * cdevice * res unit :=
    match scl_connect c with
    | None => scan_body fuel s cd
    | Some (conn, disc) =>
      match conn s with
      | (s1, Raise e) => (s1, cd, Raise e)
      | (s1, Ok _) =>
        match scan_body fuel s1 cd with
        | (s2, cd', Ok _) => (disc s2, cd', Ok tt)
        | r => r
        end
      end
    end.
End Scan.

(** ** The Modbus devices a ClientDevice can have (client.py:156-163) *)
(** ModbusClientDeviceRTU, modbus/client.py:496-541: read and write of the RTU client with the slave id of the
    device, function code 3 and the request limit 125 (REQ_COUNT_MAX) *)
Definition rtu_client {D} (dev : sdev D) (trace is_open : bool) (slave : Z) : sclient D :=
  mkScl D (mkDev D (fun s a n => rtu_read dev trace is_open slave a n FUNC_READ_HOLDING REQ_COUNT_MAX s)
                   (fun s a d => rtu_write dev is_open slave a d REQ_COUNT_MAX s)) None.
(** ModbusClientDeviceTCP: M_Tcp *)
Definition tcp_dev {D} (srv : server D) (trace : bool) (slave : Z) : mdev (tcp (D := D)) :=
  mkDev tcp (fun s a n => match tcp_read srv slave REQ_COUNT_MAX trace a n FUNC_READ_HOLDING s with
                          | (s', Ok d) => (s', Ok (Some d))
                          | (s', Raise e) => (s', Raise e)
                          end)
            (fun s a d => tcp_write srv slave REQ_COUNT_MAX trace a d s).
Definition tcp_client {D} (srv : server D) (trace : bool) (slave : Z) : sclient (tcp (D := D)) :=
  mkScl tcp (tcp_dev srv trace slave) (Some (tcp_connect srv, tcp_disconnect)).
(** ModbusClientDeviceMapped, modbus/client.py:998-1053: read passes op=None on to ModbusMap.read *)
Definition map_client : sclient mbmap :=
  mkScl mbmap (mkDev mbmap (fun m a n => (m, match map_read m a n 0 with Ok d => Ok (Some d) | Raise e => Raise e end))
                           map_write) None.
