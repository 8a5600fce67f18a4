(** * M_TypeText: the text of model definitions: __str__ of ModelType, BlockType and PointType (sunspec/core/device.py:1105-1112,
    1216-1221, 1442-1445). *)
From Coq Require Import String.
From Verif Require Import Py M_Suns M_Mbmap M_Device M_Smdx.

(** str() of an attribute that may be None *)
Definition none_str : str := lit "None"%string.
Definition opt_str (o : option str) : str := match o with Some s => s | None => none_str end.
Definition opt_int_str (o : option Z) : str := match o with Some z => str_of_int z | None => none_str end.
(** the len of a block type is the attribute's text, or 0 *)
Definition base_str (b : mbase) : str := match b with BInt z => str_of_int z | BStr s => s end.
(** PointType.__str__, device.py:1442-1445 *)
Definition pointtype_str (t : pointtype) : str :=
  lit "PointType: id = "%string ++ pt_id t ++ lit " offset = "%string ++ str_of_int (pt_offset t) ++ lit " type = "%string ++ ptype_name (pt_type t) ++
  lit " len = "%string ++ str_of_int (pt_len t) ++ lit " sf = "%string ++ opt_str (pt_sf t) ++ lit " access = "%string ++ pt_access t ++
  lit " mandatory = "%string ++ pt_mandatory t.
(** BlockType.__str__, device.py:1216-1221 *)
Definition blocktype_str (b : blocktype) : str :=
  lit "BlockType: type = "%string ++ btype_name (bt_type b) ++ lit " len = "%string ++ base_str (bt_len b) ++ [10] ++
  flat_map (fun t => lit "  "%string ++ pointtype_str t ++ [10]) (bt_points b).
(** ModelType.__str__, device.py:1105-1112; a block type object is true *)
Definition modeltype_str (t : modeltype) : str :=
  lit "ModelType: id = "%string ++ opt_int_str (mt_id t) ++ lit " len = "%string ++ opt_int_str (mt_len t) ++ [10] ++
  blocktype_str (mt_fixed t) ++ match mt_rep t with Some b => blocktype_str b | None => [] end.
