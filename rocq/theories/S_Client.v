(** * S_Client: device memory, and what reading and writing points should do (specification, C44-C47). *)
From Verif Require Import Py M_Suns M_Mbmap M_Device S_Device S_Codec M_Client.

(** ** Device memory: a byte for every byte address; register a has bytes 2a and 2a+1 *)
Definition memory := Z -> Z.
Definition zseq (a : Z) (n : nat) : list Z := map (fun i => a + Z.of_nat i) (seq 0 n).
(** the bytes of n registers from a on *)
Definition mem_bytes (mem : memory) (a n : Z) : bytes := map mem (zseq (2 * a) (Z.to_nat (2 * n))).
(** memory after storing bytes from register a on *)
Definition mem_store (mem : memory) (a : Z) (d : bytes) : memory :=
  fun x => if (2 * a <=? x) && (x <? 2 * a + zlen d) then znth (x - 2 * a) d else mem x.

(** a device (with its transport) that behaves as a memory for registers lo .. hi-1: [rel s mem]
    says that in state [s] it holds [mem]; a write stores at most [wmax] registers *)
Record implements {D} (dv : mdev D) (rel : D -> memory -> Prop) (lo hi wmax : Z) : Prop := {
  impl_read : forall s mem a n, rel s mem -> lo <= a -> 0 <= n -> a + n <= hi ->
    exists s', dv_read dv s a n = (s', Ok (Some (mem_bytes mem a n))) /\ rel s' mem;
  impl_write : forall s mem a d, rel s mem -> lo <= a -> a + zlen d / 2 <= hi -> zlen d mod 2 = 0 -> 0 < zlen d -> zlen d <= 2 * wmax -> Forall is_byte d ->
    exists s', dv_write dv s a d = (s', Ok tt) /\ rel s' (mem_store mem a d);
  impl_ext : forall s mem mem', rel s mem -> (forall x, mem x = mem' x) -> rel s mem' }.

(** the memory itself is such a device *)
Definition mem_dev : mdev memory :=
  mkDev memory (fun mem a n => (mem, Ok (Some (mem_bytes mem a n)))) (fun mem a d => (mem_store mem a d, Ok tt)).
Definition mem_eq (m m' : memory) : Prop := forall x, m x = m' x.

(** a device that records the writes it is sent *)
Definition log_dev : mdev (list (Z * bytes)) :=
  mkDev _ (fun s a n => (s, Raise EModbusClient)) (fun s a d => (s ++ [(a, d)], Ok tt)).
(** the bytes a write sends and where they go *)
Definition cells (w : Z * bytes) : list (Z * Z) := combine (zseq (2 * fst w) (length (snd w))) (snd w).

(** ** Loaded models *)
(** the registers of a point are as many as its type needs (texts: at least one) *)
Definition size_ok (t : pointtype) : Prop :=
  match pt_type t with
  | Tstring => 0 < pt_len t
  | ty => 2 * pt_len t = type_bytes ty
  end.
Definition good_def (mt : modeltype) (F : Z) : Prop :=
  ordered_from 0 F (bt_points (mt_fixed mt)) /\
  (forall rt R, mt_rep mt = Some rt -> base_int (bt_len rt) = Ok R -> ordered_from 0 R (bt_points rt)) /\
  Forall size_ok (filter (fun t => negb (is_pad (pt_type t))) (bt_points (mt_fixed mt))) /\
  (forall rt, mt_rep mt = Some rt -> Forall size_ok (filter (fun t => negb (is_pad (pt_type t))) (bt_points rt))).

(** a model as loaded, without the values it has got since *)
Definition erase_point (p : point) : point := mkP (p_type p) (p_addr p) (p_link p) true VNone VNone false.
Definition erase_block (b : block) : block :=
  mkB (b_addr b) (b_len b) (b_type b) (b_index b) (map erase_point (b_points b)) (map erase_point (b_sfs b)).
Definition erase (m : model) : model := with_blocks m (map erase_block (md_blocks m)).

(** [m] was loaded at [addr] with [L] registers from a definition with ordered points *)
Definition loaded (addr L : Z) (m : model) : Prop :=
  exists fuel types id len mt F, types id = Ok mt /\ used_length mt len L /\ fixed_length mt id L F /\ good_def mt F /\
    model_load fuel types (new_model id addr len) = (erase m, Ok tt).

(** ** Reading *)
Definition regs_of (mem : memory) (p : point) : bytes := mem_bytes mem (p_addr p) (pt_len (p_type p)).
(** [v] is what the registers of [p] decode to *)
Definition decodes (mem : memory) (p : point) (v : value) : Prop := data_to (pt_type (p_type p)) (regs_of mem p) = Ok v.
Definition implemented (p : point) (v : value) : bool := is_impl (pt_type (p_type p)) v.
Definition same_point (p p' : point) : Prop :=
  p_type p' = p_type p /\ p_addr p' = p_addr p /\ p_link p' = p_link p /\ p_dirty p' = p_dirty p /\ p_impl p' = p_impl p.
(** a scale factor point after reading *)
Definition sf_read (mem : memory) (q q' : point) : Prop :=
  same_point q q' /\ exists v, decodes mem q v /\ p_base q' = (if implemented q v then v else VNone).
(** the scale factor a point refers to: a constant, or the value now read for the scale factor point *)
Inductive scale_value (fixed b : block) : sflink -> value -> Prop :=
| sv_const z : scale_value fixed b (SfConst z) (VInt z)
| sv_own id q : In q (b_sfs b) -> pt_id (p_type q) = id -> scale_value fixed b (SfOwn id) (p_base q)
| sv_fixed id q : In q (b_sfs fixed) -> pt_id (p_type q) = id -> scale_value fixed b (SfFixed id) (p_base q).
Definition point_read (mem : memory) (fixed b' : block) (p p' : point) : Prop :=
  same_point p p' /\ exists v, decodes mem p v /\
    if implemented p v
    then p_base p' = v /\ (p_link p = SfNone /\ p_sf p' = p_sf p \/ scale_value fixed b' (p_link p) (p_sf p'))
    else p_base p' = VNone /\ p_sf p' = VNone.
Definition block_read (mem : memory) (fixed : block) (b b' : block) : Prop :=
  b_addr b' = b_addr b /\ b_len b' = b_len b /\ b_type b' = b_type b /\ b_index b' = b_index b /\
  Forall2 (sf_read mem) (b_sfs b) (b_sfs b') /\ Forall2 (point_read mem fixed b') (b_points b) (b_points b').
(** the whole model: [fixed] is the fixed block after reading *)
Definition model_read (mem : memory) (m m' : model) : Prop :=
  exists fixed, hd_error (md_blocks m') = Some fixed /\ Forall2 (block_read mem fixed) (md_blocks m) (md_blocks m') /\
  m' = with_blocks m (md_blocks m').

(** ** Writing *)
Definition points_of (m : model) : list point := flat_map b_points (md_blocks m).
Definition modified (m : model) : list point := filter p_dirty (points_of m).
(** the registers a point's value is stored in *)
Definition encoding (p : point) (d : bytes) : Prop :=
  to_data (pt_type (p_type p)) (p_base p) (2 * pt_len (p_type p)) = Ok d /\ zlen d = 2 * pt_len (p_type p).
(** the model with no point marked *)
Definition clean_block (b : block) : block :=
  mkB (b_addr b) (b_len b) (b_type b) (b_index b) (map (fun p => set_dirty p false) (b_points b)) (b_sfs b).
Definition clean (m : model) : model := with_blocks m (map clean_block (md_blocks m)).
Definition covers (p : point) (x : Z) : Prop := 2 * p_addr p <= x < 2 * (p_addr p + pt_len (p_type p)).
(** values that decode to themselves: neither altered nor taken for unimplemented *)
Definition storable (p : point) : Prop :=
  exists d, encoding p d /\ data_to (pt_type (p_type p)) d = Ok (p_base p) /\ implemented p (p_base p) = true.

(** ** Assigning values *)
(** [p'] is [p], or [p] with a value assigned to it; points that are unimplemented in the device and
    refer to a scale factor are left out (see C46_unimplemented_scaled_refuted) *)
Definition assigned_point (p p' : point) : Prop :=
  p' = p \/ (exists v, p' = mkP (p_type p) (p_addr p) (p_link p) (p_impl p) v (p_sf p) true) /\ (p_base p <> VNone \/ p_link p = SfNone).
Definition assigned_block (b b' : block) : Prop :=
  exists l, b' = with_points b l /\ Forall2 assigned_point (b_points b) l.
Definition assigned (m m' : model) : Prop :=
  exists l, m' = with_blocks m l /\ Forall2 assigned_block (md_blocks m) l.

(** ** Requests of a read, and what the device answers to them *)
Inductive answers {D} (dv : mdev D) : D -> list (Z * Z) -> list bytes -> D -> Prop :=
| ans_nil s : answers dv s [] [] s
| ans_cons s a n d s1 rs ds s2 : dv_read dv s a n = (s1, Ok (Some d)) -> answers dv s1 rs ds s2 -> answers dv s ((a, n) :: rs) (d :: ds) s2.

(** ** Marks after a write that failed: the marks of the first [k] modified points are gone, all other
    points are as before *)
Fixpoint unmark (k : nat) (l : list point) : list point :=
  match l with
  | [] => []
  | p :: r => if p_dirty p then match k with O => l | S k' => set_dirty p false :: unmark k' r end else p :: unmark k r
  end.
