(** * S_PicsEq: comparing a device with the one loaded from its PICS document (specification, C92). *)
From Verif Require Import Py M_Float M_Suns M_Mbmap M_Device M_Client S_Device S_Codec S_Pics S_NotEq.

(** the definitions come from one directory of model types: one object per definition *)
Definition one_object_each (types : Z -> res modeltype) : Prop :=
  forall i j t u, types i = Ok t -> types j = Ok u -> mt_oid t = mt_oid u -> t = u.
(** the model has its definition *)
Definition has_definition (types : Z -> res modeltype) (m : model) : Prop := exists t, types (md_id m) = Ok t /\ md_type m = Some t.
(** what the scale factor point of [p] holds (None without one) *)
Definition scale_factor (b : block) (fixed : list point) (p : point) : value :=
  match link_value (b_sfs b) fixed (p_link p) with Some v => v | None => VNone end.
(** every point without a value nevertheless remembers the scale factor its scale factor point holds *)
Definition unset_scaled (m : model) : Prop :=
  forall b p, In b (md_blocks m) -> In p (b_points b) -> p_base p = VNone -> same_value (p_sf p) (scale_factor b (fixed_sfs (md_blocks m)) p).
