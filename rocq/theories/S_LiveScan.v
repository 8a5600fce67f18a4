(** * S_LiveScan: scanning and reading a device whose measurements change meanwhile (specification, C107). *)
From Verif Require Import Py M_Suns M_Mbmap M_Device S_Device M_Client S_Client M_Scan S_Scan S_Stack S_Live.

(** the device always has the same map: the entries [l] from [b] to [e], no marker at the addresses tried before [b].
    Everything outside of the marker, the ids and the lengths may change. *)
Definition constant_map {D} (mem : D -> memory) (b : Z) (l : list (Z * Z * Z)) (e : Z) : Prop :=
  forall t, sunspec_map (mem t) b l e /\ first_marker (mem t) b.
(** no point of the definition has more than 125 registers *)
Definition short_points (types : Z -> res modeltype) (x : Z * Z * Z) : Prop :=
  let '(id, _, _) := x in forall mt, types id = Ok mt ->
  Forall (fun t => pt_type t <> Tpad -> pt_len t <= 125) (bt_points (mt_fixed mt)) /\
  (forall rt, mt_rep mt = Some rt -> Forall (fun t => pt_type t <> Tpad -> pt_len t <= 125) (bt_points rt)).
(** [m'] is [m] after reading: the registers of every point are those of one of [mems]; a model of at most 125 registers
    is decoded from one of [mems] altogether *)
Definition values_held (mems : list memory) (m m' : model) : Prop :=
  match md_type m with
  | None => m' = m
  | Some _ => exists mm, model_read mm m m' /\
      (forall b p, In b (md_blocks m) -> In p (all_points b) -> held mems mm (p_addr p) (pt_len (p_type p))) /\
      (md_len m <= 125 -> In mm mems)
  end.
