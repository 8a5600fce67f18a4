(** * M_Client: reading and writing the points of a model (sunspec/core/client.py:177-227, 343-441, 500-506).

    The Modbus device (RTU, TCP or mapped) is any state [D] with a read and a write operation; a
    read can return None (ModbusClientRTU.read and ModbusClientDeviceTCP.read do so for an empty
    answer). *)
From Verif Require Import Py M_Util M_Float M_Suns M_Point M_Mbmap M_Device.

Record mdev (D : Type) : Type := mkDev {
  dv_read : D -> Z -> Z -> D * res (option bytes);
  dv_write : D -> Z -> bytes -> D * res unit }.
Arguments dv_read {D}. Arguments dv_write {D}.

(** [except modbus.ModbusClientError: raise SunSpecClientError] *)
Definition wrap_modbus (e : exn) : exn := if is_modbus_client_error e then ESunSpecClient else e.
(** [except SunSpecError: raise SunSpecClientError], client.py:405-411 *)
Definition wrap_both (e : exn) : exn := if is_sunspec_error e then ESunSpecClient else wrap_modbus e.

Section Client.
  Context {D : Type} (dv : mdev D).

  (** ClientDevice.read, client.py:177-198 (a modbus device is set) *)
  Definition cl_read (s : D) (a n : Z) : D * res (option bytes) :=
    match dv_read dv s a n with
    | (s', Raise e) => (s', Raise (wrap_modbus e))
    | r => r
    end.
  (** ClientDevice.write, client.py:200-218 *)
  Definition cl_write (s : D) (a : Z) (d : bytes) : D * res unit :=
    match dv_write dv s a d with
    | (s', Raise e) => (s', Raise (wrap_modbus e))
    | r => r
    end.

  (** the requests of client.py:354-363; bytes + None is a TypeError *)
  Fixpoint read_chunks (s : D) (starts : list Z) (e : Z) (data : bytes) : D * res bytes :=
    match starts with
    | [] => (s, Ok data)
    | a :: rest =>
      let n := match rest with a' :: _ => a' - a | [] => e - a end in
      match cl_read s a n with
      | (s', Raise x) => (s', Raise x)
      | (s', Ok None) => (s', Raise EType)
      | (s', Ok (Some d)) => read_chunks s' rest e (data ++ d)
      end
    end.
  (** client.py:350-363: None and b'' are both false *)
  Definition read_model_data (s : D) (m : model) : D * res bytes :=
    match md_reads m with
    | [_] => match cl_read s (md_addr m) (md_len m) with
             | (s', Raise x) => (s', Raise x)
             | (s', Ok None) => (s', Ok [])
             | (s', Ok (Some d)) => (s', Ok d)
             end
    | starts => read_chunks s starts (md_addr m + md_len m) []
    end.
End Client.

(** data[byte_offset:byte_offset + len * 2], client.py:374-379, 387-393 *)
Definition point_data (maddr : Z) (data : bytes) (p : point) : bytes :=
  let o := 2 * (p_addr p - maddr) in py_slice o (o + 2 * pt_len (p_type p)) data.
Definition with_values (p : point) (base sf : value) : point :=
  mkP (p_type p) (p_addr p) (p_link p) (p_impl p) base sf (p_dirty p).
Definition set_dirty (p : point) (d : bool) : point :=
  mkP (p_type p) (p_addr p) (p_link p) (p_impl p) (p_base p) (p_sf p) d.

(** a scale factor point, client.py:373-382.  (data_to is never None: M_Suns.data_to is total.) *)
Definition read_sf_point (maddr : Z) (data : bytes) (p : point) : res point :=
  let! v := data_to (pt_type (p_type p)) (point_data maddr data p) in
  Ok (with_values p (if is_impl (pt_type (p_type p)) v then v else VNone) (p_sf p)).

(** point.sf_point.value_base, if there is an sf_point *)
Definition link_value (own fixed : list point) (k : sflink) : option value :=
  match k with
  | SfNone => None
  | SfConst z => Some (VInt z)
  | SfOwn id => option_map p_base (find_point id own)
  | SfFixed id => option_map p_base (find_point id fixed)
  end.
(** any other point, client.py:386-401 *)
Definition read_point (own fixed : list point) (maddr : Z) (data : bytes) (p : point) : res point :=
  let! v := data_to (pt_type (p_type p)) (point_data maddr data p) in
  Ok (if is_impl (pt_type (p_type p)) v
      then with_values p v (match link_value own fixed (p_link p) with Some x => x | None => p_sf p end)
      else with_values p VNone VNone).

(** a loop over objects that stops at the first exception and keeps what was updated before it *)
Fixpoint map_until {A} (f : A -> res A) (l : list A) : list A * res unit :=
  match l with
  | [] => ([], Ok tt)
  | x :: r => match f x with
              | Raise e => (l, Raise e)
              | Ok y => let '(r', e) := map_until f r in (y :: r', e)
              end
  end.

(** one round of the loop over blocks, client.py:371-403; [fixed] is None for blocks[0] itself *)
Definition read_block (fixed : option (list point)) (maddr : Z) (data : bytes) (b : block) : block * res unit :=
  let '(sfs, r1) := map_until (read_sf_point maddr data) (b_sfs b) in
  match r1 with
  | Raise e => (mkB (b_addr b) (b_len b) (b_type b) (b_index b) (b_points b) sfs, Raise e)
  | Ok _ =>
    let fx := match fixed with Some f => f | None => sfs end in
    let '(pts, r2) := map_until (read_point sfs fx maddr data) (b_points b) in
    (mkB (b_addr b) (b_len b) (b_type b) (b_index b) pts sfs, r2)
  end.
Fixpoint read_blocks (fixed : option (list point)) (maddr : Z) (data : bytes) (l : list block) : list block * res unit :=
  match l with
  | [] => ([], Ok tt)
  | b :: r =>
    match read_block fixed maddr data b with
    | (b', Raise e) => (b' :: r, Raise e)
    | (b', Ok _) =>
      let fx := match fixed with Some f => f | None => b_sfs b' end in
      let '(r', e) := read_blocks (Some fx) maddr data r in (b' :: r', e)
    end
  end.
Definition with_blocks (m : model) (l : list block) : model :=
  mkModel (md_id m) (md_index m) (md_type m) (md_addr m) (md_len m) (md_exposed m) l (md_reads m) (md_error m).

Section Client2.
  Context {D : Type} (dv : mdev D).

  (** ClientModel.read_points, client.py:343-411 *)
  Definition read_points (s : D) (m : model) : D * model * res unit :=
    match md_type m with
    | None => (s, m, Ok tt)
    | Some _ =>
      match read_model_data dv s m with
      | (s', Raise e) => (s', m, Raise (wrap_both e))
      | (s', Ok []) => (s', m, Ok tt)
      | (s', Ok data) =>
        if negb (zlen data =? 2 * md_len m) then (s', m, Raise ESunSpecClient)
        else let '(bs, r) := read_blocks None (md_addr m) data (md_blocks m) in
             (s', with_blocks m bs, match r with Ok _ => Ok tt | Raise e => Raise (wrap_both e) end)
      end
    end.

  (** the loop over the points of a block, client.py:422-437.  State: start address of the pending data
      (None if there is none), address following it, the data. *)
  Fixpoint write_pts (s : D) (addr : option Z) (next : Z) (data : bytes) (l : list point)
    : D * list point * res (option Z * Z * bytes) :=
    match l with
    | [] => (s, [], Ok (addr, next, data))
    | p :: r =>
      if p_dirty p then
        let n := pt_len (p_type p) in
        match to_data (pt_type (p_type p)) (p_base p) (n * 2) with
        | Raise e => (s, l, Raise e)
        | Ok d =>
          let continue_ s1 addr1 data1 :=
            let '(s2, r', e) := write_pts s1 (Some addr1) (p_addr p + n) (data1 ++ d) r in
            (s2, set_dirty p false :: r', e) in
          match addr with
          | None => continue_ s (p_addr p) []
          | Some a =>
            if p_addr p =? next then continue_ s a data
            else match cl_write dv s a data with
                 | (s1, Raise e) => (s1, l, Raise e)
                 | (s1, Ok _) => continue_ s1 (p_addr p) []
                 end
          end
        end
      else let '(s2, r', e) := write_pts s addr next data r in (s2, p :: r', e)
    end.
  Definition with_points (b : block) (l : list point) : block :=
    mkB (b_addr b) (b_len b) (b_type b) (b_index b) l (b_sfs b).
  (** ClientModel.write_points, client.py:413-441: the pending data is written at the end of each block *)
  Fixpoint write_blocks (s : D) (l : list block) : D * list block * res unit :=
    match l with
    | [] => (s, [], Ok tt)
    | b :: r =>
      match write_pts s None 0 [] (b_points b) with
      | (s1, pts, Raise e) => (s1, with_points b pts :: r, Raise e)
      | (s1, pts, Ok (addr, _, data)) =>
        match (match addr with Some a => cl_write dv s1 a data | None => (s1, Ok tt) end) with
        | (s2, Raise e) => (s2, with_points b pts :: r, Raise e)
        | (s2, Ok _) => let '(s3, r', e) := write_blocks s2 r in (s3, with_points b pts :: r', e)
        end
      end
    end.
  Definition write_points (s : D) (m : model) : D * model * res unit :=
    let '(s', bs, r) := write_blocks s (md_blocks m) in (s', with_blocks m bs, r).

  (** ClientPoint.write, client.py:500-506 *)
  Definition point_write (s : D) (p : point) : D * point * res unit :=
    match to_data (pt_type (p_type p)) (p_base p) (pt_len (p_type p) * 2) with
    | Raise e => (s, p, Raise e)
    | Ok d => match cl_write dv s (p_addr p) d with
              | (s', Raise e) => (s', p, Raise e)
              | (s', Ok _) => (s', set_dirty p false, Ok tt)
              end
    end.

  (** ClientDevice.read_points, client.py:220-226 *)
  Fixpoint device_read_points (s : D) (l : list model) : D * list model * res unit :=
    match l with
    | [] => (s, [], Ok tt)
    | m :: r =>
      match read_points s m with
      | (s', m', Raise e) => (s', m' :: r, Raise e)
      | (s', m', Ok _) => let '(s2, r', e) := device_read_points s' r in (s2, m' :: r', e)
      end
    end.
End Client2.

(** [point.value = v], device.py:518-527 *)
Definition point_set (E : pyenv) (v : value) (p : point) : res point :=
  let! b := value_setter E (pt_type (p_type p)) (p_sf p) v in
  Ok (mkP (p_type p) (p_addr p) (p_link p) (p_impl p) b (p_sf p) true).
