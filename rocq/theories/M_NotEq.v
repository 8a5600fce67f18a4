(** * M_NotEq: comparing devices, sunspec/core/device.py:238-256, 383-403, 578-600, 853-875, 1063-1104, 1185-1214,
    1414-1440.

    The comparison functions return False or a description of the first difference; a description is never empty, so a
    result is [true] (a description) or [false].  The texts of the descriptions and the prints at device.py:596-599 are
    not modelled.

    Identity of objects: a ModelType is identified by [mt_oid]; its block types by their kind (there is one of each kind);
    the point types of a block type by their id; a Symbol by the model type and its position.  So the functions that need the
    identity of a part of a model type take the [mt_oid] of the model types both sides belong to. *)
From Coq Require Import String.
From Verif Require Import Py M_Util M_Float M_Suns M_Mbmap M_Device M_Smdx.

(** ** != of the values a point can have (Python 3: ints and floats are compared exactly, nan is unequal to everything) *)
(** m1 * 2^e1 = m2 * 2^e2 *)
Definition same_number (m1 e1 m2 e2 : Z) : bool :=
  let e := Z.min e1 e2 in m1 * 2 ^ (e1 - e) =? m2 * 2 ^ (e2 - e).
(** mantissa and exponent of a finite number *)
Definition value_number (v : value) : option (Z * Z) :=
  match v with
  | VInt z => Some (z, 0)
  | VFlt (S754_zero _) => Some (0, 0)
  | VFlt (S754_finite s m e) => Some (if s then Zneg m else Zpos m, e)
  | _ => None
  end.
Definition value_ne (a b : value) : bool :=
  match a, b with
  | VNone, VNone => false
  | VStr s, VStr t => negb (eqb_list s t)
  | VFlt (S754_infinity s), VFlt (S754_infinity t) => negb (Bool.eqb s t)
  | _, _ => match value_number a, value_number b with
            | Some (m1, e1), Some (m2, e2) => negb (same_number m1 e1 m2 e2)
            | _, _ => true
            end
  end.

(** ** Types *)
(** two attributes of point types: compared only if both are set, device.py:1433-1438 *)
Definition attr_ne (a b : option str) : bool :=
  match a, b with Some x, Some y => negb (eqb_list x y) | _, _ => false end.
(** lists of symbols: the same objects *)
Definition symbols_ne (oa ob : Z) (a b : list nat) : bool :=
  match a, b with
  | [], [] => false
  | _, _ => negb ((oa =? ob) && (fix same (a b : list nat) := match a, b with
                                  | [], [] => true
                                  | x :: a', y :: b' => Nat.eqb x y && same a' b'
                                  | _, _ => false
                                  end) a b)
  end.
(** PointType.not_equal, device.py:1414-1440.  [same]: the point types belong to the same BlockType object.  The
    functions and the default value of a point type are those of its type.  All PointType objects have the same number of
    attributes, so the test at 1429-1430 is left out. *)
Definition pointtype_not_equal (oa ob : Z) (same : bool) (a : pointtype) (b : option pointtype) : bool :=
  match b with
  | None => true
  | Some b =>
    if same && eqb_list (pt_id a) (pt_id b) then false
    else negb (eqb_list (pt_id a) (pt_id b)) || negb (pt_offset a =? pt_offset b) || negb (ptype_eqb (pt_type a) (pt_type b)) ||
         negb (pt_len a =? pt_len b) || negb (eqb_list (pt_mandatory a) (pt_mandatory b)) ||
         negb (eqb_list (pt_access a) (pt_access b)) || attr_ne (pt_units a) (pt_units b) || attr_ne (pt_sf a) (pt_sf b) ||
         attr_ne (pt_label a) (pt_label b) || attr_ne (pt_description a) (pt_description b) || attr_ne (pt_notes a) (pt_notes b) ||
         symbols_ne oa ob (pt_symbols a) (pt_symbols b)
  end.
Definition base_eqb (a b : mbase) : bool :=
  match a, b with BInt x, BInt y => x =? y | BStr x, BStr y => eqb_list x y | _, _ => false end.
(** BlockType.not_equal, device.py:1185-1214 *)
Definition blocktype_not_equal (oa ob : Z) (a : blocktype) (b : option blocktype) : bool :=
  match b with
  | None => true
  | Some b =>
    if (oa =? ob) && btype_eqb (bt_type a) (bt_type b) then false
    else negb (btype_eqb (bt_type a) (bt_type b)) || negb (base_eqb (bt_len a) (bt_len b)) ||
         negb (Nat.eqb (length (bt_points a)) (length (bt_points b))) ||
         existsb (fun p => pointtype_not_equal oa ob false p (find_pt (pt_id p) (bt_points b))) (bt_points a)
  end.
Definition optz_eqb (a b : option Z) : bool :=
  match a, b with None, None => true | Some x, Some y => x =? y | _, _ => false end.
(** ModelType.not_equal, device.py:1063-1104; fixed_block is never None after loading *)
Definition modeltype_not_equal (a : modeltype) (b : option modeltype) : bool :=
  match b with
  | None => true
  | Some b =>
    if mt_oid a =? mt_oid b then false
    else negb (optz_eqb (mt_id a) (mt_id b)) || negb (optz_eqb (mt_len a) (mt_len b)) || negb (opt_eqb (mt_label a) (mt_label b)) ||
         negb (opt_eqb (mt_description a) (mt_description b)) || negb (opt_eqb (mt_notes a) (mt_notes b)) ||
         blocktype_not_equal (mt_oid a) (mt_oid b) (mt_fixed a) (Some (mt_fixed b)) ||
         match mt_rep a with
         | Some r => blocktype_not_equal (mt_oid a) (mt_oid b) r (mt_rep b)
         | None => match mt_rep b with None => false | Some _ => true end
         end
  end.

(** ** Instances *)
(** Point.not_equal, device.py:578-600; a missing point is None *)
Definition point_not_equal (oa ob : Z) (same : bool) (p : point) (q : option point) : res bool :=
  match q with
  | None => Raise EAttr
  | Some q =>
    if pointtype_not_equal oa ob same (p_type p) (Some (p_type q)) then Ok true
    else Ok (((negb (is_none (p_base p)) || negb (is_none (p_base q))) && value_ne (p_base p) (p_base q)) ||
             ((negb (is_none (p_sf p)) || negb (is_none (p_sf q))) && value_ne (p_sf p) (p_sf q)))
  end.
(** the first description found, or an exception *)
Fixpoint first_difference {A} (f : A -> res bool) (l : list A) : res bool :=
  match l with
  | [] => Ok false
  | x :: r => let! d := f x in if d then Ok true else first_difference f r
  end.
(** Block.not_equal, device.py:383-403 *)
Definition block_not_equal (oa ob : Z) (a b : block) : res bool :=
  if blocktype_not_equal oa ob (b_type a) (Some (b_type b)) then Ok true
  else let same := (oa =? ob) && btype_eqb (bt_type (b_type a)) (bt_type (b_type b)) in
       first_difference (fun p => point_not_equal oa ob same p (find_point (p_id p) (b_points b))) (b_points a).
(** Model.not_equal, device.py:853-875; a model whose definition was not found has no type *)
Definition model_not_equal (a b : model) : res bool :=
  match md_type a with
  | None => Raise EAttr
  | Some ta =>
    if negb (Nat.eqb (length (md_blocks a)) (length (md_blocks b))) then Ok true
    else if modeltype_not_equal ta (md_type b) then Ok true
    else let ob := match md_type b with Some tb => mt_oid tb | None => 0 end in
         first_difference (fun bc => block_not_equal (mt_oid ta) ob (fst bc) (snd bc)) (combine (md_blocks a) (md_blocks b))
  end.
(** Device.not_equal, device.py:238-256, of devices with these models *)
Definition device_not_equal (a b : list model) : res bool :=
  if negb (Nat.eqb (length a) (length b)) then Ok true
  else first_difference (fun mn => model_not_equal (fst mn) (snd mn)) (combine a b).
