(** * S_Device: what loading a model should give (specification, C40-C43). *)
From Verif Require Import Py M_Suns M_Mbmap M_Device.

(** the length used: the one reported by the device, or the model definition's if that is 0 *)
Definition used_length (mt : modeltype) (len L : Z) : Prop :=
  (len <> 0 /\ L = len) \/ (len = 0 /\ mt_len mt = Some L).
(** the length of the fixed block: as defined, except for the legacy common model *)
Definition fixed_length (mt : modeltype) (id L F : Z) : Prop :=
  (id = 1 /\ L = 65 /\ F = 65) \/ (~ (id = 1 /\ L = 65) /\ base_int (bt_len (mt_fixed mt)) = Ok F).

(** [p] is a fresh point of type [t] in a block at [a] *)
Definition instance (a : Z) (t : pointtype) (p : point) : Prop :=
  p_type p = t /\ p_addr p = a + pt_offset t /\ p_impl p = true /\ p_base p = VNone /\ p_sf p = VNone /\ p_dirty p = false.
Definition plain (t : pointtype) : bool := match pt_type t with Tpad | Tsunssf => false | _ => true end.
Definition scale (t : pointtype) : bool := match pt_type t with Tsunssf => true | _ => false end.
(** [b] is a fresh block of type [bt]: the points of the type, in order, without pads *)
Definition block_of (bt : blocktype) (a len index : Z) (b : block) : Prop :=
  b_type b = bt /\ b_addr b = a /\ b_len b = len /\ b_index b = index /\
  Forall2 (instance a) (filter plain (bt_points bt)) (b_points b) /\
  Forall2 (instance a) (filter scale (bt_points bt)) (b_sfs b).

(** links of scale factors: constants first, then the own block, then (repeating blocks) the fixed
    block *)
Definition has_sf (id : str) (b : block) : Prop := exists q, In q (b_sfs b) /\ pt_id (p_type q) = id.
Inductive linked (fixed b : block) (p : point) : sflink -> Prop :=
| link_none : pt_sf (p_type p) = None -> linked fixed b p SfNone
| link_const s z : pt_sf (p_type p) = Some s -> int_of_str s = Ok z -> linked fixed b p (SfConst z)
| link_own s : pt_sf (p_type p) = Some s -> (forall z, int_of_str s <> Ok z) -> has_sf s b -> linked fixed b p (SfOwn s)
| link_fixed s : pt_sf (p_type p) = Some s -> (forall z, int_of_str s <> Ok z) -> ~ has_sf s b -> 0 < b_index b ->
    has_sf s fixed -> linked fixed b p (SfFixed s).

(** points laid out in ascending order without overlap inside a block of [len] registers *)
Fixpoint ordered_from (lo len : Z) (l : list pointtype) : Prop :=
  match l with
  | [] => lo <= len
  | t :: l' => match pt_type t with
               | Tpad => ordered_from lo len l'
               | _ => lo <= pt_offset t /\ 0 <= pt_len t /\ ordered_from (pt_offset t + pt_len t) len l'
               end
  end.

(** the read requests: from each start to the next, the last one to the end of the model *)
Fixpoint chunks (starts : list Z) (e : Z) : list (Z * Z) :=
  match starts with
  | [] => []
  | s :: rest => (s, match rest with s' :: _ => s' - s | [] => e - s end) :: chunks rest e
  end.
Definition point_in_chunk (p : point) (c : Z * Z) : Prop :=
  fst c <= p_addr p /\ p_addr p + pt_len (p_type p) <= fst c + snd c.
Definition all_points (b : block) : list point := b_points b ++ b_sfs b.
