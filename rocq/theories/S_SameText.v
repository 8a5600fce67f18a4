(** * S_SameText: the values of a device, for comparing with its text (specification, C122). *)
From Coq Require Import String.
From Verif Require Import Py M_Util M_Float M_Suns M_Point M_Device M_Client.

(** value and scale factor (None: the point has none) of the points of a block *)
Definition point_values (own fixed : list point) (p : point) : value * option value := (p_base p, link_value own fixed (p_link p)).
Definition block_values (fixed : list point) (b : block) : list (value * option value) := map (point_values (b_sfs b) fixed) (b_points b).
(** those of a model, block by block, the fixed block first *)
Definition model_values (m : model) : list (list (value * option value)) :=
  match md_blocks m with
  | [] => []
  | f :: r => (if md_exposed m then block_values (b_sfs f) f else []) :: map (block_values (b_sfs f)) r
  end.
(** the values of one point at two times: both whole numbers, both floats or both texts, as for the values of one type, if there are any *)
Definition same_kind (v w : value) : Prop :=
  match v, w with
  | VNone, _ | _, VNone => True
  | VInt _, VInt _ | VFlt _, VFlt _ | VStr _, VStr _ => True
  | _, _ => False
  end.
Definition is_number (v : value) : Prop := match v with VStr _ => False | _ => True end.
(** a float that a Python program can have; a text that is not that of None *)
Definition proper (v : value) : Prop :=
  match v with VFlt f => SpecFloat.valid_binary 53 1024 f = true | VStr s => s <> lit "None"%string | _ => True end.
(** the values of one point of two devices: of one kind; both with a scale factor, which is a number, or both without *)
Definition comparable (x y : value * option value) : Prop :=
  same_kind (fst x) (fst y) /\ proper (fst x) /\ proper (fst y) /\
  match snd x, snd y with
  | None, None => True
  | Some a, Some b => same_kind a b /\ proper a /\ proper b /\ is_number a /\ is_number b
  | _, _ => False
  end.
