(** * S_NotEq: when devices and type definitions are the same (specification, C57, C58). *)
From Coq Require Import String QArith Qpower.
From Verif Require Import Py M_Float M_Suns M_Mbmap M_Device M_Smdx S_Device S_Pics.
Open Scope Z_scope.

(** the number a value denotes *)
Inductive number_is : value -> Q -> Prop :=
| num_int z : number_is (VInt z) (inject_Z z)
| num_zero s : number_is (VFlt (S754_zero s)) 0%Q
| num_pos m e : number_is (VFlt (S754_finite false m e)) (inject_Z (Zpos m) * Qpower 2 e)%Q
| num_neg m e : number_is (VFlt (S754_finite true m e)) (inject_Z (Zneg m) * Qpower 2 e)%Q.
(** the same value; not-a-number is not the same as anything *)
Inductive same_value : value -> value -> Prop :=
| same_none : same_value VNone VNone
| same_text s : same_value (VStr s) (VStr s)
| same_inf s : same_value (VFlt (S754_infinity s)) (VFlt (S754_infinity s))
| same_num a b x y : number_is a x -> number_is b y -> (x == y)%Q -> same_value a b.

(** attributes that are compared only if both are present *)
Definition agree (a b : option str) : Prop := forall x y, a = Some x -> b = Some y -> x = y.
(** point types with the same attributes, as far as both have them.  [oa], [ob]: the model type objects they belong to;
    Symbol objects of different model types are different objects, so then neither may have symbols. *)
Definition same_pointtype (oa ob : Z) (a b : pointtype) : Prop :=
  pt_id a = pt_id b /\ pt_offset a = pt_offset b /\ pt_type a = pt_type b /\ pt_len a = pt_len b /\
  pt_mandatory a = pt_mandatory b /\ pt_access a = pt_access b /\
  agree (pt_units a) (pt_units b) /\ agree (pt_sf a) (pt_sf b) /\ agree (pt_label a) (pt_label b) /\
  agree (pt_description a) (pt_description b) /\ agree (pt_notes a) (pt_notes b) /\
  pt_symbols a = pt_symbols b /\ (oa = ob \/ pt_symbols a = []).
(** block types: kind, length and the same points (in any order); the name is not compared *)
Definition same_blocktype (oa ob : Z) (a b : blocktype) : Prop :=
  bt_type a = bt_type b /\ bt_len a = bt_len b /\ length (bt_points a) = length (bt_points b) /\
  forall p, In p (bt_points a) -> exists q, In q (bt_points b) /\ same_pointtype oa ob p q.
Definition same_rep (oa ob : Z) (a b : option blocktype) : Prop :=
  match a, b with None, None => True | Some r, Some s => same_blocktype oa ob r s | _, _ => False end.
Definition same_modeltype (a b : modeltype) : Prop :=
  mt_id a = mt_id b /\ mt_len a = mt_len b /\ mt_label a = mt_label b /\ mt_description a = mt_description b /\
  mt_notes a = mt_notes b /\ same_blocktype (mt_oid a) (mt_oid b) (mt_fixed a) (mt_fixed b) /\
  same_rep (mt_oid a) (mt_oid b) (mt_rep a) (mt_rep b).

(** points with the same values *)
Definition same_values (p q : point) : Prop := same_value (p_base p) (p_base q) /\ same_value (p_sf p) (p_sf q).
Definition block_values (a b : block) : Prop :=
  forall p, In p (b_points a) -> exists q, In q (b_points b) /\ p_id q = p_id p /\ same_values p q.
(** models of the same type, with the same number of blocks of the same types, with the same values *)
Definition equal_models (m n : model) : Prop :=
  exists t u, md_type m = Some t /\ md_type n = Some u /\ same_modeltype t u /\
  Forall2 (fun a b => same_blocktype (mt_oid t) (mt_oid u) (b_type a) (b_type b) /\ block_values a b) (md_blocks m) (md_blocks n).
Definition equal_devices (a b : list model) : Prop := Forall2 equal_models a b.

(** ** Which devices *)
(** a model type as loaded: kinds of its blocks, distinct point ids *)
Definition typed (t : modeltype) (m : model) : Prop :=
  md_type m = Some t /\ block_types_ok t /\
  Forall (fun b => (b_type b = mt_fixed t \/ mt_rep t = Some (b_type b)) /\ complete b) (md_blocks m).
(** all models have their types, and model types with the same identity are the same *)
Definition loaded_device (a : list model) : Prop := Forall (fun m => exists t, typed t m) a.
Definition coherent (a b : list model) : Prop :=
  forall m n t u, In m a -> In n b -> md_type m = Some t -> md_type n = Some u -> mt_oid t = mt_oid u -> t = u.
(** no value is not-a-number *)
Definition is_nan (v : value) : Prop := v = VFlt S754_nan.
Definition no_nans (a : list model) : Prop :=
  forall m b p, In m a -> In b (md_blocks m) -> In p (b_points b) -> ~ is_nan (p_base p) /\ ~ is_nan (p_sf p).
