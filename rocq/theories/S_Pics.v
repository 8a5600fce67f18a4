(** * S_Pics: what PICS documents should preserve (specification, C53-C56). *)
From Coq Require Import String.
From Verif Require Import Py M_Float M_Suns M_Mbmap M_Device M_Client S_Codec S_Device.

(** values of a point that have a text: ints for the integer types, text that does not end in NUL for the text types, and
    floats whose text denotes them *)
Definition storable (E : pyenv) (t : ptype) (v : value) : Prop :=
  match v with
  | VNone => True
  | VInt _ => int_type t = true
  | VStr s => (t = Tstring \/ t = Tipv6addr \/ t = Teui48) /\ s <> [] /\ ~ ends_in_nul s
  | VFlt f => t = Tfloat32 /\ float_repr E f <> [] /\ ~ ends_in_nul (float_repr E f) /\ float_parse E (float_repr E f) = Some f
  end.
(** a point is unset or has an implemented, storable value *)
Definition settled (E : pyenv) (p : point) : Prop :=
  storable E (pt_type (p_type p)) (p_base p) /\ (p_base p = VNone \/ is_impl (pt_type (p_type p)) (p_base p) = true).

(** the same point, block or model of another device: types and scale factor links agree, addresses and values may not *)
Definition same_point (p q : point) : Prop := p_type q = p_type p /\ p_link q = p_link p.
Definition same_block (b c : block) : Prop :=
  b_type c = b_type b /\ b_len c = b_len b /\ b_index c = b_index b /\
  Forall2 same_point (b_points b) (b_points c) /\ Forall2 same_point (b_sfs b) (b_sfs c).

(** [b] has exactly the points of its type *)
Definition complete (b : block) : Prop :=
  NoDup (map pt_id (bt_points (b_type b))) /\
  map p_type (b_points b) = filter plain (bt_points (b_type b)) /\
  map p_type (b_sfs b) = filter scale (bt_points (b_type b)).

(** the scale factor of a point is that of its scale factor point *)
Definition scaled (own fixed : list point) (p : point) : Prop :=
  match link_value own fixed (p_link p) with Some v => p_sf p = v | None => p_sf p = VNone end.

(** [q] has the value of [p]: the same base value, implemented if [p] has a value, and then with the same scale factor; [q] always
    has the scale factor of its scale factor point *)
Definition restored (own fixed : list point) (p q : point) : Prop :=
  same_point p q /\ p_base q = p_base p /\ (p_base p <> VNone -> p_impl q = true) /\ (p_base p <> VNone -> p_sf q = p_sf p) /\ scaled own fixed q.
Definition restored_block (fixed : list point) (b c : block) : Prop :=
  same_block b c /\ Forall2 (restored (b_sfs b) fixed) (b_points b) (b_points c) /\ Forall2 (fun p q => p_base q = p_base p) (b_sfs b) (b_sfs c).

(** a model as it is after loading its definition and reading its points: its blocks are those of a loaded model, every
    point is settled, and points with a value have the scale factor of their scale factor point *)
Definition has_values (E : pyenv) (fixed : list point) (b : block) : Prop :=
  Forall (settled E) (all_points b) /\ Forall (fun p => p_base p <> VNone -> scaled (b_sfs b) fixed p) (b_points b).
Definition block_types_ok (t : modeltype) : Prop :=
  bt_type (mt_fixed t) = Fixed /\ NoDup (map pt_id (bt_points (mt_fixed t))) /\
  forall r, mt_rep t = Some r -> bt_type r = Repeating /\ NoDup (map pt_id (bt_points r)).
Inductive instance_of (E : pyenv) (fuel : nat) (types : Z -> res modeltype) (m : model) : Prop :=
| known a len m0 t : types (md_id m) = Ok t -> block_types_ok t ->
    model_load fuel types (new_model (md_id m) a len) = (m0, Ok tt) -> md_len m = md_len m0 ->
    Forall2 same_block (md_blocks m0) (md_blocks m) ->
    Forall (has_values E (fixed_sfs (md_blocks m))) (md_blocks m) -> instance_of E fuel types m
| unknown e : types (md_id m) = Raise e -> e <> EFuel -> md_blocks m = [] -> instance_of E fuel types m.

(** what a point of the first repeating block has, the point at that position in every other repeating block has too *)
Definition no_gaps (m : model) : Prop :=
  forall b0 b1 rest b, md_blocks m = b0 :: b1 :: rest -> In b rest ->
    Forall2 (fun p q => p_base q = VNone -> p_base p = VNone) (all_points b1) (all_points b).

(** the loaded device has the same models, in order, with the same values *)
Definition index_text (i : mbase) : str := match i with BInt z => str_of_int z | BStr s => s end.
Definition restored_model (m n : model) : Prop :=
  md_id n = md_id m /\ md_len n = md_len m /\ index_text (md_index n) = index_text (md_index m) /\
  Forall2 (restored_block (fixed_sfs (md_blocks m))) (md_blocks m) (md_blocks n).
(** models one after the other from [a] on, each after its id and length registers *)
Fixpoint placed (a : Z) (l : list model) : Prop :=
  match l with [] => True | m :: r => md_addr m = a + 2 /\ placed (a + 2 + md_len m) r end.
