(** * M_Data: model of sunspec/core/data.py (SunSpec data exchange records).

    Objects are records; every attribute is a Python object of type [value] (callers may store text, numbers or None).
    The calendar functions of [timestamp_add] (145-149) are an argument here and modelled in M_Time.  [to_xml_str]
    is modelled here up to the element that is serialized; the text of documents (ET.tostring, ET.fromstring) is in M_XmlText
    and M_DataText. *)
From Coq Require Import String.
From Verif Require Import Py M_Util M_Float M_Suns M_Point.

(** XML elements as ElementTree stores them: attribute values are arbitrary objects, checked only when the tree is
    serialized.  (Tails play no role in data.py.) *)
Inductive elem : Type := DE (tag : str) (attrs : list (str * value)) (text : value) (children : list elem).
Definition e_tag (e : elem) : str := match e with DE t _ _ _ => t end.
Definition e_attrs (e : elem) : list (str * value) := match e with DE _ a _ _ => a end.
Definition e_text (e : elem) : value := match e with DE _ _ t _ => t end.
Definition e_children (e : elem) : list elem := match e with DE _ _ _ c => c end.
(** element.attrib.get(k); None when missing *)
Definition e_get (k : str) (e : elem) : value := match dget k (e_attrs e) with Some v => v | None => VNone end.

(** data.py:36-57 *)
Definition SDX_SUNSPEC_DATA := lit "sunSpecData"%string.
Definition SDX_SUNSPEC_DATA_VERSION := lit "v"%string.
Definition SDX_DEVICE := lit "d"%string.
Definition SDX_DEVICE_LOGGER_ID := lit "lid"%string.
Definition SDX_DEVICE_NAMESPACE := lit "ns"%string.
Definition SDX_DEVICE_ID := lit "id"%string.
Definition SDX_DEVICE_IFC := lit "if"%string.
Definition SDX_DEVICE_MAN := lit "man"%string.
Definition SDX_DEVICE_MOD := lit "mod"%string.
Definition SDX_DEVICE_SN := lit "sn"%string.
Definition SDX_DEVICE_TIME := lit "t"%string.
Definition SDX_DEVICE_CORRELATION_ID := lit "cid"%string.
Definition SDX_MODEL := lit "m"%string.
Definition SDX_MODEL_ID := lit "id"%string.
Definition SDX_MODEL_NAMESPACE := lit "ns"%string.
Definition SDX_MODEL_INDEX := lit "x"%string.
Definition SDX_POINT := lit "p"%string.
Definition SDX_POINT_ID := lit "id"%string.
Definition SDX_POINT_INDEX := lit "index"%string.
Definition SDX_POINT_SF := lit "sf"%string.
Definition SDX_POINT_TIME := lit "t"%string.

(** the attributes of the objects; data.py:262-270 *)
Record pdata := mkPD { pd_point_id : value; pd_value : value; pd_index : value; pd_sf : value;
                       pd_units : value; pd_desc : value; pd_time : value }.
(** data.py:215-220 *)
Record mdata := mkMD { md_model_id : value; md_namespace : value; md_index : value; md_points : list pdata }.
(** data.py:197-208; [dd_time] is the attribute from_xml sets at 160 (None stands for an attribute never set) *)
Record ddata := mkDD { dd_logger_id : value; dd_namespace : value; dd_device_id : value; dd_ifc : value; dd_man : value;
                       dd_mod : value; dd_sn : value; dd_timestamp : value; dd_time : value; dd_cid : value;
                       dd_models : list mdata }.
(** data.py:129-133 (root is the element last read or written; it is not modelled as state) *)
Record sdata := mkSD { sd_version : value; sd_devices : list ddata }.

Definition new_sdata : sdata := mkSD VNone [].

(** PointData.__init__, data.py:262-270 *)
Definition point_init (point_id v index sf units desc time : value) : pdata := mkPD point_id v index sf units desc time.
Definition new_pdata : pdata := point_init VNone VNone VNone VNone VNone VNone VNone.
(** ModelData.__init__, data.py:215-220: the second parameter is index, the third namespace *)
Definition model_init (E : pyenv) (model_id index namespace : value) : mdata :=
  mkMD (VStr (suns_to_str E model_id)) namespace index [].
(** DeviceData.__init__, data.py:197-211.  [fmt] is time.strftime('%Y-%m-%dT%H:%M:%SZ', time.gmtime(t)). *)
Definition device_init (fmt : value -> res str)
  (logger_id man mod_ sn timestamp cid device_id ifc namespace : value) : res ddata :=
  let! ts := (if is_none timestamp then Ok VNone else let! s := fmt timestamp in Ok (VStr s)) in
  Ok (mkDD logger_id namespace device_id ifc man mod_ sn ts VNone cid []).

(** SunSpecData.device_add, data.py:65-69 *)
Definition device_add (fmt : value -> res str) (s : sdata)
  (logger_id man mod_ sn timestamp cid device_id ifc namespace : value) : res sdata :=
  let! d := device_init fmt logger_id man mod_ sn timestamp cid device_id ifc namespace in
  Ok (mkSD (sd_version s) (sd_devices s ++ [d])).
Definition with_models (d : ddata) (ms : list mdata) : ddata :=
  mkDD (dd_logger_id d) (dd_namespace d) (dd_device_id d) (dd_ifc d) (dd_man d) (dd_mod d) (dd_sn d) (dd_timestamp d)
       (dd_time d) (dd_cid d) ms.
(** DeviceData.model_add, data.py:139-143: ModelData(model_id, namespace, index) *)
Definition model_add (E : pyenv) (d : ddata) (model_id index namespace : value) : ddata :=
  with_models d (dd_models d ++ [model_init E model_id namespace index]).
(** ModelData.point_add, data.py:222-226 *)
Definition point_add (m : mdata) (point_id v index sf units desc time : value) : mdata :=
  mkMD (md_model_id m) (md_namespace m) (md_index m) (md_points m ++ [point_init point_id v index sf units desc time]).

(** ** Writing *)
(** [if x: attr[k] = v]: appended, the keys used are distinct *)
Definition attr_if (b : bool) (k : str) (v : value) : list (str * value) := if b then [(k, v)] else [].

(** PointData.to_xml, data.py:289-302 *)
Definition point_to_xml (E : pyenv) (p : pdata) : elem :=
  DE SDX_POINT
     ((SDX_POINT_ID, VStr (suns_to_str E (pd_point_id p)))
      :: attr_if (sf_truthy (pd_index p)) SDX_POINT_INDEX (VStr (suns_to_str E (pd_index p)))
      ++ attr_if (negb (is_none (pd_sf p))) SDX_POINT_SF (VStr (suns_to_str E (pd_sf p)))
      ++ attr_if (sf_truthy (pd_time p)) SDX_POINT_TIME (pd_time p))
     (if is_none (pd_value p) then VNone else VStr (suns_to_str E (pd_value p))) [].

(** self.index > 1, data.py:249 (None has been replaced by -233) *)
Definition index_gt_1 (v : value) : res bool :=
  match v with
  | VNone => Ok false
  | VInt z => Ok (1 <? z)
  | VFlt f => Ok (SFltb (f64_of false 1 0) f)
  | VStr _ => Raise EType
  end.
(** ModelData.to_xml, data.py:243-258; line 252 restores None, so the object is unchanged *)
Definition model_to_xml (E : pyenv) (m : mdata) : res elem :=
  let! gt := index_gt_1 (md_index m) in
  Ok (DE SDX_MODEL
         ((SDX_MODEL_ID, VStr (suns_to_str E (md_model_id m)))
          :: attr_if gt SDX_MODEL_INDEX (md_index m)
          ++ attr_if (sf_truthy (md_namespace m)) SDX_MODEL_NAMESPACE (md_namespace m))
         VNone (map (point_to_xml E) (md_points m))).

Fixpoint mapM {A B} (f : A -> res B) (l : list A) : res (list B) :=
  match l with
  | [] => Ok []
  | x :: r => let! y := f x in let! ys := mapM f r in Ok (y :: ys)
  end.

(** DeviceData.to_xml, data.py:170-195 *)
Definition device_to_xml (E : pyenv) (d : ddata) : res elem :=
  let! ms := mapM (model_to_xml E) (dd_models d) in
  let put v k := attr_if (sf_truthy v) k v in
  Ok (DE SDX_DEVICE
         (put (dd_logger_id d) SDX_DEVICE_LOGGER_ID ++ put (dd_namespace d) SDX_DEVICE_NAMESPACE
          ++ put (dd_device_id d) SDX_DEVICE_ID ++ put (dd_ifc d) SDX_DEVICE_IFC ++ put (dd_man d) SDX_DEVICE_MAN
          ++ put (dd_mod d) SDX_DEVICE_MOD ++ put (dd_sn d) SDX_DEVICE_SN ++ put (dd_timestamp d) SDX_DEVICE_TIME
          ++ put (dd_cid d) SDX_DEVICE_CORRELATION_ID)
         VNone ms).

(** SunSpecData.to_xml, data.py:91-104: the element it builds (with a parent, it is also appended there) *)
Definition sdata_to_xml (E : pyenv) (s : sdata) : res elem :=
  let! ds := mapM (device_to_xml E) (sd_devices s) in
  Ok (DE SDX_SUNSPEC_DATA (attr_if (sf_truthy (sd_version s)) SDX_SUNSPEC_DATA_VERSION (sd_version s)) VNone ds).

(** ET.tostring raises TypeError unless every attribute value is text (texts and tags are text here) *)
Definition is_text (v : value) : bool := match v with VStr _ => true | _ => false end.
Fixpoint serializable (e : elem) : bool :=
  match e with DE _ attrs _ children => forallb (fun kv => is_text (snd kv)) attrs && forallb serializable children end.
(** SunSpecData.to_xml_str, data.py:106-127, up to the serialized element *)
Definition to_xml_str (E : pyenv) (s : sdata) : res elem :=
  let! e := sdata_to_xml E s in
  if serializable e then Ok e else Raise EType.

(** ** Reading *)
(** int(x) for an attribute value *)
Definition int_of (v : value) : res value :=
  match v with
  | VStr s => let! z := int_of_str s in Ok (VInt z)
  | VInt z => Ok (VInt z)
  | VFlt f => let! z := int_trunc f in Ok (VInt z)
  | VNone => Raise EType
  end.
(** if x is not None: x = int(x) *)
Definition opt_int (v : value) : res value := if is_none v then Ok VNone else int_of v.

(** PointData.from_xml, data.py:273-287; units and desc keep their values *)
Definition point_from_xml (p : pdata) (e : elem) : res pdata :=
  let! index := opt_int (e_get SDX_POINT_INDEX e) in
  let! sf := opt_int (e_get SDX_POINT_SF e) in
  Ok (mkPD (e_get SDX_POINT_ID e) (e_text e) index sf (pd_units p) (pd_desc p) (e_get SDX_POINT_TIME e)).

(** the loop over the children, with the check of the tag: data.py:236-241, 163-168, 83-88 *)
Definition read_child {A} (tag : str) (rd : elem -> res A) (e : elem) : res A :=
  if eqb_list (e_tag e) tag then rd e else Raise ESunSpecData.

(** ModelData.from_xml, data.py:228-241 *)
Definition model_from_xml (m : mdata) (e : elem) : res mdata :=
  let! index := opt_int (e_get SDX_MODEL_INDEX e) in
  let! ps := mapM (read_child SDX_POINT (point_from_xml new_pdata)) (e_children e) in
  Ok (mkMD (e_get SDX_MODEL_ID e) (e_get SDX_MODEL_NAMESPACE e) index (md_points m ++ ps)).
(** ModelData() *)
Definition new_mdata (E : pyenv) : mdata := model_init E VNone VNone VNone.

(** DeviceData.from_xml, data.py:151-168 *)
Definition device_from_xml (E : pyenv) (d : ddata) (e : elem) : res ddata :=
  let! ms := mapM (read_child SDX_MODEL (model_from_xml (new_mdata E))) (e_children e) in
  Ok (mkDD (e_get SDX_DEVICE_LOGGER_ID e) (e_get SDX_DEVICE_NAMESPACE e) (e_get SDX_DEVICE_ID e) (e_get SDX_DEVICE_IFC e)
           (e_get SDX_DEVICE_MAN e) (e_get SDX_DEVICE_MOD e) (e_get SDX_DEVICE_SN e)
           (dd_timestamp d) (e_get SDX_DEVICE_TIME e) (e_get SDX_DEVICE_CORRELATION_ID e) (dd_models d ++ ms)).
(** DeviceData() *)
Definition new_ddata : ddata := mkDD VNone VNone VNone VNone VNone VNone VNone VNone VNone VNone [].

(** SunSpecData.from_xml(element), data.py:71-89 *)
Definition sdata_from_xml (E : pyenv) (s : sdata) (e : elem) : res sdata :=
  if eqb_list (e_tag e) SDX_SUNSPEC_DATA then
    let! ds := mapM (read_child SDX_DEVICE (device_from_xml E new_ddata)) (e_children e) in
    Ok (mkSD (e_get SDX_SUNSPEC_DATA_VERSION e) (sd_devices s ++ ds))
  else Raise ESunSpecData.
(** SunSpecData(element), data.py:129-135 *)
Definition sdata_new (E : pyenv) (e : elem) : res sdata := sdata_from_xml E new_sdata e.
