(** * S_Format: the published XML formats of the documents the library writes (specification, C108).

    Names and attributes are spelled out here; nothing refers to the constants of the model. *)
From Coq Require Import String Permutation.
From Verif Require Import Py M_Util M_Float M_Suns M_Xml M_Mbmap M_Device M_Client S_Codec S_Device S_Pics S_Mbmap.
From Verif Require M_Pics M_Data.

(** the text of a value: numbers in decimal, text as it is *)
Definition value_text (E : pyenv) (v : value) : str :=
  match v with VNone => [] | VInt z => str_of_int z | VStr s => s | VFlt f => float_repr E f end.
(** [t] is the text [s] without the NULs at its end *)
Definition without_nuls (s t : str) : Prop := ~ ends_in_nul t /\ exists n, s = t ++ repeat 0 n.

(** ** PICS: <device v="1"> <model id= len= [index=]> <block [index=] [type="repeating"]> <point id= [impl="false"] [access="rw"]> *)
Definition pics_point (E : pyenv) (p : point) (e : xml) : Prop :=
  match p_base p with
  | VNone => e = XE (lit "point") [(lit "id", p_id p); (lit "impl", lit "false")] None None []
  | v => exists t, without_nuls (value_text E v) t /\
      e = XE (lit "point") ((lit "id", p_id p) :: if eqb_list (pt_access (p_type p)) (lit "r") then [] else [(lit "access", lit "rw")]) (Some t) None []
  end%string.
(** the points and scale factor points of the block, in the order of its definition *)
Definition in_order (b : block) (ps : list point) : Prop :=
  Permutation ps (all_points b) /\ map p_type ps = filter (fun t => plain t || scale t) (bt_points (b_type b)).
Definition pics_block (E : pyenv) (b : block) (e : xml) : Prop :=
  exists ps es, in_order b ps /\ Forall2 (pics_point E) ps es /\
    e = XE (lit "block") ((if 1 <? b_index b then [(lit "index", str_of_int (b_index b))] else []) ++
                          (match bt_type (b_type b) with Repeating => [(lit "type", lit "repeating")] | Fixed => [] end)) None None es.
Definition pics_model (E : pyenv) (single : bool) (m : model) (e : xml) : Prop :=
  exists es, Forall2 (pics_block E) (filter (fun b => negb single || (b_index b <=? 1)) (md_blocks m)) es /\
    e = XE (lit "model") ([(lit "id", str_of_int (md_id m)); (lit "len", str_of_int (md_len m))] ++
          match md_index m with BInt 1 => [] | BInt z => [(lit "index", str_of_int z)] | BStr s => [(lit "index", s)] end) None None es.
Definition pics_device (E : pyenv) (single : bool) (ms : list model) (e : xml) : Prop :=
  exists es, Forall2 (pics_model E single) ms es /\ e = XE (lit "device") [(lit "v", lit "1")] None None es.

(** ** Modbus maps: <mbmap addr= func= [ns=] [lid=] [mapid=] [time=]> <regs offset= len=>, the registers in hexadecimal *)
Fixpoint given {A B} (l : list (A * option B)) : list (A * B) :=
  match l with [] => [] | (k, Some v) :: r => (k, v) :: given r | (_, None) :: r => given r end.
Definition map_regs (g : mregs) (e : xml) : Prop :=
  exists o n d t, g_offset g = NI o /\ g_count g = NI n /\ g_data g = Some d /\ hex_text t d /\
    e = XE (lit "regs") [(lit "offset", str_of_int o); (lit "len", str_of_int n)] (Some t) None [].
Definition map_doc (m : mbmap) (e : xml) : Prop :=
  exists es, Forall2 map_regs (m_regs m) es /\
    e = XE (lit "mbmap") (given [(lit "addr", Some (match m_base m with BInt z => str_of_int z | BStr s => s end));
                                 (lit "func", Some (if m_func m =? 4 then lit "input" else lit "holding"));
                                 (lit "ns", m_ns m); (lit "lid", m_lid m); (lit "mapid", m_mapid m); (lit "time", m_time m)]) None None es.

(** ** Data records: <sunSpecData [v=]> <d [lid=] [ns=] [id=] [if=] [man=] [mod=] [sn=] [t=] [cid=]> <m id= [x=] [ns=]> <p id= [index=] [sf=] [t=]>
    for records whose attributes are texts, numbers for the index and the scale factor, or None *)
Definition text_attr (v : value) : Prop := match v with VNone => True | VStr s => s <> [] | _ => False end.
Definition int_attr (v : value) : Prop := match v with VNone | VInt _ => True | _ => False end.
Definition some_value (v : value) : option value := match v with VNone => None | _ => Some v end.
Definition sdx_point (E : pyenv) (p : M_Data.pdata) (e : M_Data.elem) : Prop :=
  e = M_Data.DE (lit "p") (given
        [(lit "id", Some (VStr (value_text E (M_Data.pd_point_id p))));
         (lit "index", match M_Data.pd_index p with VInt z => if z =? 0 then None else Some (VStr (str_of_int z)) | _ => None end);
         (lit "sf", match M_Data.pd_sf p with VInt z => Some (VStr (str_of_int z)) | _ => None end);
         (lit "t", some_value (M_Data.pd_time p))])
        (match M_Data.pd_value p with VNone => VNone | v => VStr (value_text E v) end) [].
Definition sdx_model (E : pyenv) (m : M_Data.mdata) (e : M_Data.elem) : Prop :=
  exists es, Forall2 (sdx_point E) (M_Data.md_points m) es /\
    e = M_Data.DE (lit "m") (given [(lit "id", Some (VStr (value_text E (M_Data.md_model_id m))));
          (lit "x", match M_Data.md_index m with VInt z => if 1 <? z then Some (VInt z) else None | _ => None end);
          (lit "ns", some_value (M_Data.md_namespace m))]) VNone es.
Definition sdx_device (E : pyenv) (d : M_Data.ddata) (e : M_Data.elem) : Prop :=
  exists es, Forall2 (sdx_model E) (M_Data.dd_models d) es /\
    e = M_Data.DE (lit "d") (given
        [(lit "lid", some_value (M_Data.dd_logger_id d)); (lit "ns", some_value (M_Data.dd_namespace d)); (lit "id", some_value (M_Data.dd_device_id d));
         (lit "if", some_value (M_Data.dd_ifc d)); (lit "man", some_value (M_Data.dd_man d)); (lit "mod", some_value (M_Data.dd_mod d));
         (lit "sn", some_value (M_Data.dd_sn d)); (lit "t", some_value (M_Data.dd_timestamp d)); (lit "cid", some_value (M_Data.dd_cid d))]) VNone es.
Definition sdx_doc (E : pyenv) (s : M_Data.sdata) (e : M_Data.elem) : Prop :=
  exists es, Forall2 (sdx_device E) (M_Data.sd_devices s) es /\
    e = M_Data.DE (lit "sunSpecData") (given [(lit "v", some_value (M_Data.sd_version s))]) VNone es.
Definition text_points (p : M_Data.pdata) : Prop :=
  M_Data.pd_point_id p <> VNone /\ int_attr (M_Data.pd_index p) /\ int_attr (M_Data.pd_sf p) /\ text_attr (M_Data.pd_time p).
Definition text_models (m : M_Data.mdata) : Prop :=
  M_Data.md_model_id m <> VNone /\ int_attr (M_Data.md_index m) /\ text_attr (M_Data.md_namespace m) /\ Forall text_points (M_Data.md_points m).
Definition text_record (s : M_Data.sdata) : Prop :=
  text_attr (M_Data.sd_version s) /\
  Forall (fun d => Forall text_attr [M_Data.dd_logger_id d; M_Data.dd_namespace d; M_Data.dd_device_id d; M_Data.dd_ifc d; M_Data.dd_man d; M_Data.dd_mod d;
                                        M_Data.dd_sn d; M_Data.dd_timestamp d; M_Data.dd_cid d] /\ Forall text_models (M_Data.dd_models d)) (M_Data.sd_devices s).
