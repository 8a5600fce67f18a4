(** * S_Data: what a data record keeps when it is written to XML and read back.  Specification of C62 and C63,
    independent of the XML code. *)
From Coq Require Import String.
From Verif Require Import Py M_Suns M_Data.

(** ** Records a caller builds *)
(** None or a text *)
Definition text_or_none (v : value) : Prop := v = VNone \/ exists s, v = VStr s.
(** None or a non-empty text *)
Definition label (v : value) : Prop := v = VNone \/ exists s, v = VStr s /\ s <> [].
Definition int_or_none (v : value) : Prop := v = VNone \/ exists z, v = VInt z.
(** None or a number greater than 1 *)
Definition later_index (v : value) : Prop := v = VNone \/ exists z, v = VInt z /\ 1 < z.
(** None or a number other than 0 *)
Definition nonzero_index (v : value) : Prop := v = VNone \/ exists z, v = VInt z /\ z <> 0.

Definition typed_point (p : pdata) : Prop :=
  int_or_none (pd_index p) /\ int_or_none (pd_sf p) /\ text_or_none (pd_time p).
Definition typed_model (m : mdata) : Prop :=
  int_or_none (md_index m) /\ text_or_none (md_namespace m) /\ Forall typed_point (md_points m).
Definition typed_device (d : ddata) : Prop :=
  Forall text_or_none [dd_logger_id d; dd_namespace d; dd_device_id d; dd_ifc d; dd_man d; dd_mod d; dd_sn d;
                       dd_timestamp d; dd_cid d] /\ Forall typed_model (dd_models d).
Definition typed_record (s : sdata) : Prop := text_or_none (sd_version s) /\ Forall typed_device (sd_devices s).

(** ** What comes back *)
(** an empty text comes back as None *)
Definition kept_label (v v' : value) : Prop :=
  (forall s, v = VStr s -> s <> [] -> v' = VStr s) /\ ((v = VNone \/ v = VStr []) -> v' = VNone).
Definition kept_model_index (v v' : value) : Prop :=
  (forall z, v = VInt z -> 1 < z -> v' = VInt z) /\ ((v = VNone \/ exists z, v = VInt z /\ z <= 1) -> v' = VNone).
Definition kept_point_index (v v' : value) : Prop :=
  (forall z, v = VInt z -> z <> 0 -> v' = VInt z) /\ ((v = VNone \/ v = VInt 0) -> v' = VNone).
(** a value comes back as its text *)
Definition kept_value (E : pyenv) (v v' : value) : Prop :=
  (v = VNone -> v' = VNone) /\ (v <> VNone -> v' = VStr (suns_to_str E v)).

Definition kept_point (E : pyenv) (p p' : pdata) : Prop :=
  pd_point_id p' = VStr (suns_to_str E (pd_point_id p)) /\ kept_point_index (pd_index p) (pd_index p') /\
  pd_sf p' = pd_sf p /\ kept_label (pd_time p) (pd_time p') /\ kept_value E (pd_value p) (pd_value p') /\
  pd_units p' = VNone /\ pd_desc p' = VNone.
Definition kept_model (E : pyenv) (m m' : mdata) : Prop :=
  md_model_id m' = VStr (suns_to_str E (md_model_id m)) /\ kept_label (md_namespace m) (md_namespace m') /\
  kept_model_index (md_index m) (md_index m') /\ Forall2 (kept_point E) (md_points m) (md_points m').
Definition kept_device (E : pyenv) (d d' : ddata) : Prop :=
  kept_label (dd_logger_id d) (dd_logger_id d') /\ kept_label (dd_namespace d) (dd_namespace d') /\
  kept_label (dd_device_id d) (dd_device_id d') /\ kept_label (dd_ifc d) (dd_ifc d') /\
  kept_label (dd_man d) (dd_man d') /\ kept_label (dd_mod d) (dd_mod d') /\ kept_label (dd_sn d) (dd_sn d') /\
  kept_label (dd_cid d) (dd_cid d') /\
  dd_timestamp d' = VNone /\ kept_label (dd_timestamp d) (dd_time d') /\
  Forall2 (kept_model E) (dd_models d) (dd_models d').
Definition kept_record (E : pyenv) (s s' : sdata) : Prop :=
  kept_label (sd_version s) (sd_version s') /\ Forall2 (kept_device E) (sd_devices s) (sd_devices s').

(** ** Equality of records, as far as XML records go: ids, indices, scale factors, times, values (their texts); not units
    and descriptions, which the format leaves out, and not device timestamps, which are in [same_timestamps]. *)
Definition value_text (E : pyenv) (v : value) : option str := match v with VNone => None | _ => Some (suns_to_str E v) end.
Definition same_point (E : pyenv) (p p' : pdata) : Prop :=
  value_text E (pd_point_id p') = value_text E (pd_point_id p) /\ pd_index p' = pd_index p /\ pd_sf p' = pd_sf p /\
  pd_time p' = pd_time p /\ value_text E (pd_value p') = value_text E (pd_value p).
Definition same_model (E : pyenv) (m m' : mdata) : Prop :=
  value_text E (md_model_id m') = value_text E (md_model_id m) /\ md_namespace m' = md_namespace m /\
  md_index m' = md_index m /\ Forall2 (same_point E) (md_points m) (md_points m').
Definition same_device (E : pyenv) (d d' : ddata) : Prop :=
  dd_logger_id d' = dd_logger_id d /\ dd_namespace d' = dd_namespace d /\ dd_device_id d' = dd_device_id d /\
  dd_ifc d' = dd_ifc d /\ dd_man d' = dd_man d /\ dd_mod d' = dd_mod d /\ dd_sn d' = dd_sn d /\ dd_cid d' = dd_cid d /\
  Forall2 (same_model E) (dd_models d) (dd_models d').
Definition same_record (E : pyenv) (s s' : sdata) : Prop :=
  sd_version s' = sd_version s /\ Forall2 (same_device E) (sd_devices s) (sd_devices s').
Definition same_timestamps (s s' : sdata) : Prop := map dd_timestamp (sd_devices s') = map dd_timestamp (sd_devices s).

(** ** Records that lose nothing but timestamps *)
Definition plain_point (p : pdata) : Prop :=
  pd_point_id p <> VNone /\ nonzero_index (pd_index p) /\ int_or_none (pd_sf p) /\ label (pd_time p).
Definition plain_model (m : mdata) : Prop :=
  md_model_id m <> VNone /\ later_index (md_index m) /\ label (md_namespace m) /\ Forall plain_point (md_points m).
Definition plain_device (d : ddata) : Prop :=
  Forall label [dd_logger_id d; dd_namespace d; dd_device_id d; dd_ifc d; dd_man d; dd_mod d; dd_sn d;
                dd_timestamp d; dd_cid d] /\ Forall plain_model (dd_models d).
Definition plain_record (s : sdata) : Prop := label (sd_version s) /\ Forall plain_device (sd_devices s).

(** no model carries an index greater than 1 *)
Definition no_later_index (s : sdata) : Prop :=
  Forall (fun d => Forall (fun m => forall z, md_index m = VInt z -> z <= 1) (dd_models d)) (sd_devices s).
