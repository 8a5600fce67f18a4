(** * S_Access: access settings of points and of map registers *)
From Coq Require Import String.
From Verif Require Import Py M_Util M_Suns M_Point M_Device M_Client M_Mbmap S_Client.

(** a point the definition says can only be read (access="r", the default) *)
Definition read_only (p : point) : Prop := pt_access (p_type p) = lit "r"%string.

(** the same points with other access settings *)
Definition regrant_type (f : pointtype -> str) (t : pointtype) : pointtype :=
  mkPT (pt_id t) (pt_offset t) (pt_type t) (pt_len t) (pt_mandatory t) (f t) (pt_units t) (pt_sf t) (pt_label t) (pt_description t)
       (pt_notes t) (pt_symbols t).
Definition regrant_point (f : pointtype -> str) (p : point) : point :=
  mkP (regrant_type f (p_type p)) (p_addr p) (p_link p) (p_impl p) (p_base p) (p_sf p) (p_dirty p).
Definition regrant_block (f : pointtype -> str) (b : block) : block :=
  mkB (b_addr b) (b_len b) (b_type b) (b_index b) (map (regrant_point f) (b_points b)) (b_sfs b).
Definition regrant (f : pointtype -> str) (m : model) : model :=
  mkModel (md_id m) (md_index m) (md_type m) (md_addr m) (md_len m) (md_exposed m) (map (regrant_block f) (md_blocks m)) (md_reads m)
          (md_error m).

(** a register block of a map marked read-only, and the same map with other marks *)
Definition read_only_regs (g : mregs) : Prop := g_access g = lit "r"%string.
Definition remark_regs (f : mregs -> str) (g : mregs) : mregs := mkRegs (g_offset g) (g_count g) (g_data g) (f g).

(** a device, with the write requests it gets (whatever it answers) *)
Definition recording {D} (dv : mdev D) : mdev (D * list (Z * bytes)) :=
  mkDev _ (fun s a n => let '(s', r) := dv_read dv (fst s) a n in ((s', snd s), r))
          (fun s a d => let '(s', r) := dv_write dv (fst s) a d in ((s', snd s ++ [(a, d)]), r)).
