(** * C111: read-only points and registers *)
From Coq Require Import String.
From Verif Require Import Py P_List M_Util M_Float M_Suns M_Point M_Device M_Client M_Mbmap S_Client S_Access P_Client P_Client3 P_Client4 P_Access C_Client.
Open Scope Z_scope.

(** Writing a model stores nothing in the registers of a read-only point, as long as the program assigns nothing to it: the
    modified points are all read-write. *)
Theorem C111_unassigned_partial :
  forall D (dv : mdev D) rel lo hi wmax, implements dv rel lo hi wmax ->
  forall s mem addr L m, rel s mem -> loaded addr L m -> lo <= addr -> addr + L <= hi -> L <= wmax ->
  (forall p, In p (modified m) -> exists d, encoding p d) ->
  (forall p, In p (modified m) -> ~ read_only p) ->
  exists s' mem', write_points dv s m = (s', clean m, Ok tt) /\ rel s' mem' /\
    (forall p x, In p (points_of m) -> read_only p -> covers p x -> mem' x = mem x).
Proof.
  intros D dv rel lo hi wmax HI s mem addr L m HR HL HLO HHI HW HE HA. apply loaded_placed in HL.
  destruct (write_points_spec dv rel lo hi wmax HI mem addr L m s HL HR HLO HHI HW) as (s' & mem' & W1 & W2 & W3 & W4).
  { rewrite Forall_forall. exact HE. }
  exists s', mem'. split; [exact W1|]. split; [exact W2|]. intros p x HP HRO HC. apply W4. intros q HQ HCq.
  assert (HQM : In q (points_of m)) by (apply filter_In in HQ; tauto).
  destruct (ForallOrdPairs_In (pl_order _ _ _ HL) p q HP HQM) as [E|[E|E]]; [|unfold before, covers in *; lia..].
  subst q. exact (HA p HQ HRO).
Qed.
Print Assumptions C111_unassigned_partial.

(** Nor is any of these registers part of a request, whatever the device answers and wherever the write fails: every byte
    sent belongs to a modified point, and none to a read-only one. *)
Lemma zseq_In n a x : In x (zseq a n) -> a <= x < a + Z.of_nat n.
Proof. unfold zseq. rewrite in_map_iff. intros (i & <- & H). apply in_seq in H. lia. Qed.
Lemma pcells_covered l ds : Forall2 encoding l ds -> forall c b, In (c, b) (flat_map cells (combine (map p_addr l) ds)) ->
  exists p, In p l /\ covers p c.
Proof.
  induction 1 as [|p d l ds HE _ IH]; intros c b; cbn [map combine flat_map]; [intros []|]. rewrite in_app_iff. intros [H|H].
  - exists p. split; [now left|]. apply in_combine_l in H. cbn [fst snd] in H. apply zseq_In in H. destruct HE as [_ HE].
    unfold covers. unfold zlen in HE. lia.
  - destruct (IH _ _ H) as (q & HQ & HC). exists q. split; [now right|exact HC].
Qed.
Theorem C111_never_sent_partial :
  forall D (dv : mdev D) s m addr L, loaded addr L m ->
  (forall p, In p (modified m) -> exists d, encoding p d) ->
  exists s' x m' r, write_points (recording dv) (s, []) m = ((s', x), m', r) /\ write_points dv s m = (s', m', r) /\
    forall w c b, In w x -> In (c, b) (cells w) -> (exists p, In p (modified m) /\ covers p c) /\
      ((forall p, In p (modified m) -> ~ read_only p) -> forall p, In p (points_of m) -> read_only p -> ~ covers p c).
Proof.
  intros D dv s m addr L HL HE. apply loaded_placed in HL.
  destruct (write_points_recorded dv s m) as (x & rest & m2 & r2 & H1 & H2 & _).
  destruct (write_points dv s m) as [[s' m'] r]. cbn [fst snd] in H1. exists s', x, m', r. split; [exact H1|]. split; [reflexivity|].
  intros w c b HW HC.
  assert (HMOD : exists p, In p (modified m) /\ covers p c).
  { destruct (C45_writes_sent m) as (ds & log & E1 & E2 & E3).
    - rewrite Forall_forall. intros p HP HD. apply HE. apply filter_In. auto.
    - rewrite Forall_forall. intros p HP HD. apply in_flat_map in HP as (b0 & B1 & B2).
      destruct (pl_range _ _ _ HL b0 p B1) as (_ & _ & _ & SZ); [apply in_or_app; now left|]. now apply size_pos.
    - rewrite E1 in H2. apply pair_equal_spec in H2 as [H2 _]. apply pair_equal_spec in H2 as [-> _].
      apply (pcells_covered _ _ E2 c b). rewrite <- E3. apply in_flat_map. exists w. split; [apply in_or_app; now left|exact HC]. }
  split; [exact HMOD|]. intros HA p HP HRO HCp. destruct HMOD as (q & HQ & HCq).
  assert (HQM : In q (points_of m)) by (apply filter_In in HQ; tauto).
  destruct (ForallOrdPairs_In (pl_order _ _ _ HL) p q HP HQM) as [E|[E|E]]; [|unfold before, covers in *; lia..].
  subst q. exact (HA p HQ HRO).
Qed.
Print Assumptions C111_never_sent_partial.

(** But the access setting itself plays no role: with any other settings assigning and writing do the same. *)
Lemma write_pts_regrant D (dv : mdev D) f l : forall s a n d,
  write_pts dv s a n d (map (regrant_point f) l) =
  let '(s', l', r) := write_pts dv s a n d l in (s', map (regrant_point f) l', r).
Proof.
  induction l as [|p l IH]; intros s a n d; [reflexivity|]. cbn [map write_pts].
  change (p_dirty (regrant_point f p)) with (p_dirty p). change (p_addr (regrant_point f p)) with (p_addr p).
  change (p_base (regrant_point f p)) with (p_base p).
  change (pt_type (p_type (regrant_point f p))) with (pt_type (p_type p)).
  change (pt_len (p_type (regrant_point f p))) with (pt_len (p_type p)).
  change (set_dirty (regrant_point f p) false) with (regrant_point f (set_dirty p false)).
  destruct (p_dirty p).
  - destruct (to_data _ _ _) as [d'|e]; [|reflexivity]. cbv zeta. destruct a as [a|].
    + destruct (p_addr p =? n).
      * rewrite IH. destruct (write_pts dv s _ _ _ l) as [[s2 l2] r2]. reflexivity.
      * destruct (cl_write dv s a d) as [s1 [u|e]]; [|reflexivity]. rewrite IH. destruct (write_pts dv s1 _ _ _ l) as [[s2 l2] r2]. reflexivity.
    + rewrite IH. destruct (write_pts dv s _ _ _ l) as [[s2 l2] r2]. reflexivity.
  - rewrite IH. destruct (write_pts dv s _ _ _ l) as [[s2 l2] r2]. reflexivity.
Qed.
Lemma write_blocks_regrant D (dv : mdev D) f l : forall s,
  write_blocks dv s (map (regrant_block f) l) =
  let '(s', l', r) := write_blocks dv s l in (s', map (regrant_block f) l', r).
Proof.
  induction l as [|b l IH]; intros s; [reflexivity|]. cbn [map write_blocks].
  change (b_points (regrant_block f b)) with (map (regrant_point f) (b_points b)). rewrite write_pts_regrant.
  destruct (write_pts dv s None 0 [] (b_points b)) as [[s1 pts] [[[a n] d]|e]]; [|reflexivity].
  destruct (match a with Some a0 => cl_write dv s1 a0 d | None => (s1, Ok tt) end) as [s2 [u|e]]; [|reflexivity].
  rewrite IH. destruct (write_blocks dv s2 l) as [[s3 l3] r3]. reflexivity.
Qed.
Theorem C111_access_ignored_refuted (f : pointtype -> str) :
  (forall E v p, point_set E v (regrant_point f p) =
     match point_set E v p with Ok p' => Ok (regrant_point f p') | Raise e => Raise e end) /\
  (forall D (dv : mdev D) s m,
     write_points dv s (regrant f m) = let '(s', m', r) := write_points dv s m in (s', regrant f m', r)).
Proof.
  split.
  - intros E v p. unfold point_set. change (pt_type (p_type (regrant_point f p))) with (pt_type (p_type p)).
    change (p_sf (regrant_point f p)) with (p_sf p). destruct (value_setter E (pt_type (p_type p)) (p_sf p) v); reflexivity.
  - intros D dv s m. unfold write_points. cbn [regrant md_blocks]. rewrite write_blocks_regrant.
    destruct (write_blocks dv s (md_blocks m)) as [[s' bs] r]. reflexivity.
Qed.
Print Assumptions C111_access_ignored_refuted.

(** So a value assigned to a read-only point is sent to the device, without any error. *)
Definition ro_type : pointtype :=
  mkPT (lit "W"%string) 0 Tuint16 1 (lit "false"%string) (lit "r"%string) None None None None None [].
Definition ro_mt : modeltype := mkMT 1 (Some 100) (Some 1) None None None None
  (mkBT Fixed (BStr (lit "1"%string)) (Some (lit "fixed"%string)) [ro_type]) None [].
Definition ro_model : model := fst (model_load 10 (fun _ => Ok ro_mt) (new_model 100 40004 1)).
Lemma ro_loaded : loaded 40004 1 ro_model.
Proof.
  exists 10%nat, (fun _ => Ok ro_mt), 100, 1, ro_mt, 1. split; [reflexivity|]. split; [left; split; [discriminate|reflexivity]|].
  split; [right; split; [intros [H _]; discriminate|reflexivity]|]. split.
  - unfold good_def. split; [cbn; lia|]. split; [intros rt R ER; discriminate|]. split; [repeat constructor|intros rt ER; discriminate].
  - vm_compute. reflexivity.
Qed.
Theorem C111_read_only_written_refuted : forall E, exists m p p' b m',
  loaded 40004 1 m /\ md_blocks m = [b] /\ b_points b = [p] /\ read_only p /\
  point_set E (VInt 258) p = Ok p' /\
  write_points log_dev [] (with_blocks m [with_points b [p']]) = ([(40004, [1; 2])], m', Ok tt).
Proof.
  intros E. exists ro_model. eexists _, _, _, _. split; [exact ro_loaded|]. split; [reflexivity|]. split; [reflexivity|].
  split; [reflexivity|]. split; [reflexivity|]. vm_compute. reflexivity.
Qed.
Print Assumptions C111_read_only_written_refuted.
(** the hypotheses of C111_unassigned_partial: a model with a read-only and a read-write point, the second one assigned *)
Definition rw_type : pointtype :=
  mkPT (lit "Lim"%string) 1 Tuint16 1 (lit "false"%string) (lit "rw"%string) None None None None None [].
Definition rw_mt : modeltype := mkMT 1 (Some 100) (Some 2) None None None None
  (mkBT Fixed (BStr (lit "2"%string)) (Some (lit "fixed"%string)) [ro_type; rw_type]) None [].
Definition rw_set (p : point) : point :=
  if eqb_list (pt_access (p_type p)) (lit "rw"%string)
  then mkP (p_type p) (p_addr p) (p_link p) (p_impl p) (VInt 7) (p_sf p) true else p.
Definition rw_model : model :=
  let m := fst (model_load 10 (fun _ => Ok rw_mt) (new_model 100 40004 2)) in
  with_blocks m (map (fun b => with_points b (map rw_set (b_points b))) (md_blocks m)).
Example C111_unassigned_case : loaded 40004 2 rw_model /\
  (exists p q, points_of rw_model = [p; q] /\ modified rw_model = [q] /\ read_only p /\ ~ read_only q /\ encoding q [0; 7]).
Proof.
  split.
  - exists 10%nat, (fun _ => Ok rw_mt), 100, 2, rw_mt, 2. split; [reflexivity|]. split; [left; split; [discriminate|reflexivity]|].
    split; [right; split; [intros [H _]; discriminate|reflexivity]|]. split.
    + unfold good_def. split; [cbn; lia|]. split; [intros rt R ER; discriminate|]. split; [repeat constructor; cbn; lia|intros rt ER; discriminate].
    + vm_compute. reflexivity.
  - eexists _, _. split; [reflexivity|]. split; [reflexivity|]. split; [reflexivity|]. split; [discriminate|]. split; reflexivity.
Qed.

(** The same holds for register blocks of a Modbus map: the mark plays no role, so a block marked read-only can be written. *)
Lemma write_regs_remark f l : forall o r d data,
  (let '(l', x) := write_regs (map (remark_regs f) l) o r d data in (map (remark_regs (fun _ => [])) l', x)) =
  (let '(l', x) := write_regs l o r d data in (map (remark_regs (fun _ => [])) l', x)).
Proof.
  assert (HM : forall l0, map (remark_regs (fun _ => [])) (map (remark_regs f) l0) = map (remark_regs (fun _ => [])) l0)
    by (intros l0; rewrite map_map; reflexivity).
  induction l as [|g l IH]; intros o r d data; [reflexivity|]. cbn [map write_regs].
  change (regs_end (remark_regs f g)) with (regs_end g). change (g_offset (remark_regs f g)) with (g_offset g).
  destruct (num_ltb (NI 0) r).
  2: { cbn [map]. rewrite HM. reflexivity. }
  destruct (num_leb (g_offset g) o && num_ltb o (regs_end g)).
  - destruct (num_index d) as [st|e]; [|cbn [map]; rewrite HM; reflexivity]. cbv zeta. unfold regs_write.
    change (regs_end (remark_regs f g)) with (regs_end g). change (g_offset (remark_regs f g)) with (g_offset g).
    change (g_data (remark_regs f g)) with (g_data g). change (g_count (remark_regs f g)) with (g_count g).
    match goal with |- context [if ?c then _ else Raise EModbusMap] => destruct c end; [|cbn [map]; rewrite HM; reflexivity].
    destruct (g_data g) as [dd|]; [|cbn [map]; rewrite HM; reflexivity].
    match goal with |- context [let! a := ?x in _] => destruct x as [aa|e] end; cbn [bind]; [|cbn [map]; rewrite HM; reflexivity].
    match goal with |- context [write_regs (map _ l) ?a ?b ?c ?e] => specialize (IH a b c e);
      destruct (write_regs (map (remark_regs f) l) a b c e) as [l1 x1]; destruct (write_regs l a b c e) as [l2 x2] end.
    apply pair_equal_spec in IH as [IH ->]. cbn [map]. rewrite IH. reflexivity.
  - specialize (IH o r d data). destruct (write_regs (map (remark_regs f) l) o r d data) as [l1 x1]; destruct (write_regs l o r d data) as [l2 x2].
    apply pair_equal_spec in IH as [IH ->]. cbn [map]. rewrite IH. reflexivity.
Qed.
Theorem C111_map_access_ignored_refuted f m addr data :
  let w := map_write m addr data in let w' := map_write (with_regs m (map (remark_regs f) (m_regs m))) addr data in
  snd w' = snd w /\
  map (fun g => (g_offset g, g_count g, g_data g)) (m_regs (fst w')) = map (fun g => (g_offset g, g_count g, g_data g)) (m_regs (fst w)).
Proof.
  cbv zeta. unfold map_write. destruct (negb (zlen data mod 2 =? 0)).
  { cbn [fst snd m_regs with_regs]. split; [reflexivity|]. rewrite map_map. reflexivity. }
  change (m_base (with_regs m (map (remark_regs f) (m_regs m)))) with (m_base m).
  destruct (base_int (m_base m)) as [b|e].
  2: { cbn [fst snd m_regs with_regs]. split; [reflexivity|]. rewrite map_map. reflexivity. }
  change (m_regs (with_regs m (map (remark_regs f) (m_regs m)))) with (map (remark_regs f) (m_regs m)).
  pose proof (write_regs_remark f (m_regs m) (NI (addr - b)) (NF (zlen data)) (NI 0) data) as H.
  destruct (write_regs (map (remark_regs f) (m_regs m)) _ _ _ _) as [l1 x1]. destruct (write_regs (m_regs m) _ _ _ _) as [l2 x2].
  apply pair_equal_spec in H as [H ->]. cbn [fst snd m_regs with_regs]. split; [reflexivity|].
  assert (HQ : forall l, map (fun g => (g_offset g, g_count g, g_data g)) l =
                         map (fun g => (g_offset g, g_count g, g_data g)) (map (remark_regs (fun _ => [])) l))
    by (intros l; rewrite map_map; reflexivity).
  rewrite (HQ l1), (HQ l2), H. reflexivity.
Qed.
Print Assumptions C111_map_access_ignored_refuted.
Definition ro_map : mbmap := mkMap 3 (BInt 40000) None None None None [mkRegs (NI 0) (NI 2) (Some [1; 2; 3; 4]) (lit "r"%string)].
Theorem C111_map_read_only_written_refuted : exists m',
  Forall read_only_regs (m_regs ro_map) /\ map_write ro_map 40001 [9; 9] = (m', Ok tt) /\ map_read m' 40000 2 3 = Ok [1; 2; 9; 9].
Proof. eexists. split; [repeat constructor|]. split; [vm_compute; reflexivity|]. vm_compute. reflexivity. Qed.
Print Assumptions C111_map_read_only_written_refuted.
