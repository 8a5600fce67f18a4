(** * S_TypeText: what the text of a model definition should tell (specification, C119). *)
From Coq Require Import String.
From Verif Require Import Py M_Suns M_Mbmap M_Device M_Client.

(** ** the layout of a definition *)
Record told_ptype := mkTPT { tq_id : str; tq_offset : Z; tq_type : ptype; tq_len : Z; tq_sf : option str; tq_access : str; tq_mandatory : str }.
(** the length of a block as text *)
Record told_btype := mkTBT { tq_kind : btype; tq_blen : str; tq_points : list told_ptype }.
Record told_mtype := mkTMT { tq_mid : option Z; tq_mlen : option Z; tq_fixed : told_btype; tq_rep : option told_btype }.
Definition tell_ptype (t : pointtype) : told_ptype := mkTPT (pt_id t) (pt_offset t) (pt_type t) (pt_len t) (pt_sf t) (pt_access t) (pt_mandatory t).
Definition tell_btype (b : blocktype) : told_btype :=
  mkTBT (bt_type b) (match bt_len b with BInt z => str_of_int z | BStr s => s end) (map tell_ptype (bt_points b)).
Definition tell_mtype (t : modeltype) : told_mtype := mkTMT (mt_id t) (mt_len t) (tell_btype (mt_fixed t)) (option_map tell_btype (mt_rep t)).
(** names without blanks and line feeds; no scale factor point is called None *)
Definition word (s : str) : Prop := ~ In 32 s /\ ~ In 10 s.
Definition words_pt (t : told_ptype) : Prop :=
  word (tq_id t) /\ word (tq_access t) /\ word (tq_mandatory t) /\ (forall s, tq_sf t = Some s -> word s /\ s <> lit "None"%string).
Definition words_bt (b : told_btype) : Prop := ~ In 10 (tq_blen b) /\ Forall words_pt (tq_points b).
Definition words_mt (t : told_mtype) : Prop := words_bt (tq_fixed t) /\ forall b, tq_rep t = Some b -> words_bt b.

(** ** what a program sees of a model *)
(** of each point: its id, address, whether it is implemented, its value, scale factor and modified mark; block by block *)
Definition seen_point (p : point) := (p_id p, p_addr p, p_impl p, (p_base p, p_sf p, p_dirty p)).
Definition seen (m : model) := (md_id m, md_addr m, md_len m, map (fun b => (b_addr b, b_index b, map seen_point (b_points b), map seen_point (b_sfs b))) (md_blocks m)).
