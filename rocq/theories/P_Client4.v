(** * P_Client4: writing and reading back; failed writes. *)
From Coq Require Import Sorted.
From Verif Require Import Py P_List M_Util M_Float M_Suns S_Codec P_Codec P_Types M_Mbmap M_Device S_Device P_Device C_Device M_Client S_Client P_Client P_Client2 P_Client3.

(** ** the model stays loaded *)
Lemma erase_same p p' : p_type p' = p_type p -> p_addr p' = p_addr p -> p_link p' = p_link p -> erase_point p' = erase_point p.
Proof. intros H1 H2 H3. unfold erase_point. now rewrite H1, H2, H3. Qed.
Lemma map_erase (R : point -> point -> Prop) l l' : (forall p p', R p p' -> erase_point p' = erase_point p) -> Forall2 R l l' -> map erase_point l' = map erase_point l.
Proof. intros HR. induction 1 as [|p p' l l' H1 H2 IH]; [reflexivity|]. cbn. now rewrite (HR _ _ H1), IH. Qed.
Lemma erase_blocks m l : Forall2 (fun b b' => erase_block b' = erase_block b) (md_blocks m) l -> erase (with_blocks m l) = erase m.
Proof.
  intros H. unfold erase, with_blocks. cbn. f_equal. induction H as [|b b' l l' H1 H2 IH]; [reflexivity|]. cbn. now rewrite H1, IH.
Qed.
Lemma loaded_erase addr L m m' : erase m' = erase m -> loaded addr L m -> loaded addr L m'.
Proof. intros E (fuel & types & id & len & mt & F & H1 & H2 & H3 & H4 & H5). exists fuel, types, id, len, mt, F. rewrite E. auto 10. Qed.
Lemma erase_block_read mem fixed b b' : block_read mem fixed b b' -> erase_block b' = erase_block b.
Proof.
  intros (H1 & H2 & H3 & H4 & H5 & H6). unfold erase_block. rewrite H1, H2, H3, H4. f_equal.
  - eapply map_erase; [|exact H6]. intros p p' ((A & B & C & _) & _). now apply erase_same.
  - eapply map_erase; [|exact H5]. intros p p' ((A & B & C & _) & _). now apply erase_same.
Qed.
Lemma erase_assigned_block b b' : assigned_block b b' -> erase_block b' = erase_block b.
Proof.
  intros (l & -> & H). unfold erase_block, with_points. cbn [b_addr b_len b_type b_index b_points b_sfs]. f_equal.
  eapply map_erase; [|exact H]. intros p p' [->|((v & ->) & _)]; [reflexivity|]. now apply erase_same.
Qed.
Lemma erase_clean_block b : erase_block (clean_block b) = erase_block b.
Proof. unfold erase_block, clean_block. cbn. f_equal. rewrite map_map. apply map_ext. intros p. now apply erase_same. Qed.
Lemma Forall2_refl_map {A} (f : A -> A) (R : A -> A -> Prop) l : (forall x, R x (f x)) -> Forall2 R l (map f l).
Proof. intros H. induction l; constructor; auto. Qed.
Lemma erase_clean m : erase (clean m) = erase m.
Proof. apply erase_blocks. apply Forall2_refl_map. exact erase_clean_block. Qed.

(** ** reading back *)
Lemma to_data_none t n d : to_data t VNone n <> Ok d.
Proof. destruct t; discriminate. Qed.
Lemma set_dirty_false_id p : p_dirty p = false -> set_dirty p false = p.
Proof. destruct p. cbn. intros ->. reflexivity. Qed.
Lemma reread_point own fx addr L mem mem' p0 p1 p2 :
  fits addr L p0 -> read_point own fx addr (mem_bytes mem addr L) p0 = Ok p1 -> assigned_point p1 p2 ->
  (p_dirty p2 = true -> storable p2 /\ exists d, encoding p2 d /\ regs_of mem' p2 = d) ->
  (p_dirty p2 = false -> regs_of mem' p2 = regs_of mem p2) ->
  read_point own fx addr (mem_bytes mem' addr L) (set_dirty p2 false) = Ok (set_dirty p2 false).
Proof.
  intros HF H1 HA HD HN. unfold read_point in H1. rewrite (point_data_regs _ _ _ _ HF) in H1.
  apply bind_ok in H1 as (v & EV & H1). apply Ok_inj in H1.
  assert (T1 : p_type p1 = p_type p0 /\ p_addr p1 = p_addr p0 /\ p_link p1 = p_link p0) by (subst p1; destruct (is_impl _ _); auto).
  assert (T2 : p_type p2 = p_type p1 /\ p_addr p2 = p_addr p1 /\ p_link p2 = p_link p1 /\ p_sf p2 = p_sf p1) by (destruct HA as [->|((w & ->) & _)]; auto).
  destruct T1 as (T1a & T1b & T1c), T2 as (T2a & T2b & T2c & T2d).
  assert (HF2 : fits addr L (set_dirty p2 false)) by (unfold fits, set_dirty in *; cbn [p_addr p_type]; rewrite T2a, T2b, T1a, T1b; exact HF).
  unfold read_point. rewrite (point_data_regs _ _ _ _ HF2). change (p_type (set_dirty p2 false)) with (p_type p2). change (p_link (set_dirty p2 false)) with (p_link p2).
  change (p_sf (set_dirty p2 false)) with (p_sf p2). change (regs_of mem' (set_dirty p2 false)) with (regs_of mem' p2).
  destruct (p_dirty p2) eqn:ED.
  - destruct (HD eq_refl) as ((d & HE & HT & HI) & d' & HE' & HR). clear HD HN.
    assert (HR2 : regs_of mem' p2 = d) by (destruct HE as [E1 _], HE' as [E2 _]; congruence). rewrite HR2, HT. cbn [bind]. unfold implemented in HI. rewrite HI. f_equal.
    unfold with_values, set_dirty. cbn [p_type p_addr p_link p_impl p_dirty]. f_equal.
    destruct (link_value own fx (p_link p2)) as [x|] eqn:EL; [|reflexivity].
    assert (HB : p_base p1 <> VNone).
    { destruct HA as [->|(_ & [HB|HB])]; [|exact HB|].
      - intros EB. destruct HE as [E1 _]. rewrite EB in E1. now apply to_data_none in E1.
      - rewrite T2c, HB in EL. discriminate. }
    rewrite T2d. subst p1. destruct (is_impl (pt_type (p_type p0)) v); [|exfalso; now apply HB].
    unfold with_values. cbn [p_sf]. rewrite T2c in EL. cbn [p_link with_values] in EL. unfold with_values in EL. cbn [p_link] in EL. rewrite EL. reflexivity.
  - rewrite (HN eq_refl). clear HD HN. assert (p2 = p1) by (destruct HA as [->|((w & ->) & _)]; [reflexivity|discriminate]). subst p2.
    rewrite set_dirty_false_id by exact ED.
    assert (ER : regs_of mem p1 = regs_of mem p0) by (unfold regs_of; now rewrite T1a, T1b). rewrite ER, T1a, EV. cbn [bind]. f_equal. rewrite T1c.
    rewrite <- H1. destruct (is_impl (pt_type (p_type p0)) v); [|reflexivity].
    unfold with_values. cbn [p_type p_addr p_link p_impl p_dirty p_sf]. f_equal. destruct (link_value own fx (p_link p0)); reflexivity.
Qed.
Lemma reread_sf addr L mem mem' q0 q1 : fits addr L q0 -> read_sf_point addr (mem_bytes mem addr L) q0 = Ok q1 ->
  regs_of mem' q1 = regs_of mem q1 -> read_sf_point addr (mem_bytes mem' addr L) q1 = Ok q1.
Proof.
  intros HF H1 HR. unfold read_sf_point in H1. rewrite (point_data_regs _ _ _ _ HF) in H1. apply bind_ok in H1 as (v & EV & H1). apply Ok_inj in H1.
  assert (T1 : p_type q1 = p_type q0 /\ p_addr q1 = p_addr q0) by (subst q1; auto). destruct T1 as (T1a & T1b).
  assert (HF2 : fits addr L q1) by (unfold fits in *; now rewrite T1a, T1b).
  unfold read_sf_point. rewrite (point_data_regs _ _ _ _ HF2), HR. assert (ER : regs_of mem q1 = regs_of mem q0) by (unfold regs_of; now rewrite T1a, T1b).
  rewrite ER, T1a, EV. cbn [bind]. f_equal. rewrite <- H1. reflexivity.
Qed.

(** one block: [b0] read from [mem] gives [b1]; [b2] has values assigned; reading it from [mem'] *)
Definition stored (mem mem' : memory) (b2 : block) : Prop :=
  Forall (fun p => (p_dirty p = true -> storable p /\ exists d, encoding p d /\ regs_of mem' p = d) /\ (p_dirty p = false -> regs_of mem' p = regs_of mem p)) (b_points b2) /\
  Forall (fun q => regs_of mem' q = regs_of mem q) (b_sfs b2).
Lemma Forall2_self {A} (R : A -> A -> Prop) l : Forall (fun x => R x x) l -> Forall2 R l l.
Proof. induction 1; constructor; auto. Qed.
Lemma reread_block fx addr L mem mem' b0 b1 b2 : bfits addr L b0 ->
  read_block fx addr (mem_bytes mem addr L) b0 = (b1, Ok tt) -> assigned_block b1 b2 -> stored mem mem' b2 ->
  read_block fx addr (mem_bytes mem' addr L) (clean_block b2) = (clean_block b2, Ok tt) /\ b_sfs b2 = b_sfs b1.
Proof.
  intros HF H1 (l & -> & HA) (HS1 & HS2). unfold bfits, all_points in HF. apply Forall_app in HF as [HF1 HF2].
  unfold read_block in H1. destruct (map_until (read_sf_point addr (mem_bytes mem addr L)) (b_sfs b0)) as [sfs r1] eqn:E1.
  destruct r1 as [u|e]; [destruct u|apply pair_equal_spec in H1 as [_ H1]; discriminate].
  destruct (map_until _ (b_points b0)) as [pts r2] eqn:E2. apply pair_equal_spec in H1 as [H1 ->]. subst b1.
  unfold with_points in *. cbn [b_points b_sfs] in *. split; [|reflexivity].
  unfold clean_block. cbn [b_addr b_len b_type b_index b_points b_sfs]. unfold read_block. cbn [b_addr b_len b_type b_index b_points b_sfs].
  apply map_until_inv in E1. apply map_until_inv in E2.
  assert (R1 : map_until (read_sf_point addr (mem_bytes mem' addr L)) sfs = (sfs, Ok tt)).
  { apply map_until_of. apply Forall2_self. clear - E1 HF2 HS2. revert HF2 HS2. induction E1 as [|x y l l' A B IH]; intros G1 G2; [constructor|].
    inversion G1; subst. inversion G2; subst. constructor; [eapply reread_sf; eauto|auto]. }
  rewrite R1.
  assert (R2 : map_until (read_point sfs (match fx with Some f => f | None => sfs end) addr (mem_bytes mem' addr L)) (map (fun p => set_dirty p false) l) = (map (fun p => set_dirty p false) l, Ok tt)).
  { apply map_until_of. apply Forall2_self. clear - E2 HF1 HA HS1. revert l HF1 HA HS1. induction E2 as [|x y k k' A B IH]; intros l G1 G2 G3; inversion G2; subst; [constructor|].
    inversion G1; subst. inversion G3 as [|? ? [X1 X2] X3]; subst. cbn [map]. constructor; [|auto].
    eapply reread_point; [eassumption|exact A|eassumption|exact X1|exact X2]. }
  rewrite R2. reflexivity.
Qed.
Lemma reread_blocks addr L mem mem' l0 : forall fx l1 l2, Forall (bfits addr L) l0 ->
  read_blocks fx addr (mem_bytes mem addr L) l0 = (l1, Ok tt) -> Forall2 assigned_block l1 l2 -> Forall (stored mem mem') l2 ->
  read_blocks fx addr (mem_bytes mem' addr L) (map clean_block l2) = (map clean_block l2, Ok tt).
Proof.
  induction l0 as [|b0 l0 IH]; intros fx l1 l2 HF H1 HA HS; cbn [read_blocks] in H1.
  - apply pair_equal_spec in H1 as [<- _]. inversion HA; subst. reflexivity.
  - inversion HF as [|? ? F1 F2]; subst. destruct (read_block fx addr (mem_bytes mem addr L) b0) as [b1 [u|e]] eqn:EB; [destruct u|apply pair_equal_spec in H1 as [_ H1]; discriminate].
    destruct (read_blocks _ _ _ l0) as [l1' r] eqn:ER. apply pair_equal_spec in H1 as [<- ->]. inversion HA as [|? b2 ? l2' A1 A2]; subst.
    inversion HS as [|? ? S1 S2]; subst. destruct (reread_block _ _ _ _ _ _ _ _ F1 EB A1 S1) as [B1 B2].
    cbn [map read_blocks]. rewrite B1.
    assert (EX : (match fx with Some f => f | None => b_sfs (clean_block b2) end) = (match fx with Some f => f | None => b_sfs b1 end)) by (destruct fx; [reflexivity|]; unfold clean_block; cbn [b_sfs]; exact B2).
    rewrite EX. now rewrite (IH _ _ _ F2 ER A2 S2).
Qed.
Lemma model_read_erase mem m m' : model_read mem m m' -> erase m' = erase m.
Proof.
  intros (fixed & _ & H & E). rewrite E. apply erase_blocks. revert H. generalize (md_blocks m) (md_blocks m').
  induction 1; constructor; auto. eapply erase_block_read; eauto.
Qed.
Lemma assigned_erase m m' : assigned m m' -> erase m' = erase m.
Proof.
  intros (l & -> & H). apply erase_blocks. revert H. generalize (md_blocks m). induction 1; constructor; auto. now apply erase_assigned_block.
Qed.
Lemma roundtrip {D} (dv : mdev D) rel lo hi wmax (HI : implements dv rel lo hi wmax) mem addr L m0 s0 m1 s1 m2 :
  loaded addr L m0 -> rel s0 mem -> lo <= addr -> addr + L <= hi -> 0 < L -> L <= wmax ->
  read_points dv s0 m0 = (s1, m1, Ok tt) -> assigned m1 m2 -> Forall storable (modified m2) ->
  exists s2 s3, write_points dv s1 m2 = (s2, clean m2, Ok tt) /\ read_points dv s2 (clean m2) = (s3, clean m2, Ok tt).
Proof.
  intros HL0 HR HLO HHI HL HW HREAD HA HST. pose proof (loaded_placed _ _ _ HL0) as HP0.
  destruct (read_points_placed dv rel lo hi wmax HI mem addr L m0 s0 HP0 HR HLO HHI HL) as (s1' & bs & E1 & HR1 & E2).
  rewrite E1 in HREAD. apply pair_equal_spec in HREAD as [HREAD _]. apply pair_equal_spec in HREAD as [-> <-].
  destruct (read_blocks_spec mem addr L m0 HP0) as (bs' & E2' & fixed & F1 & F2). rewrite E2 in E2'. apply pair_equal_spec in E2' as [<- _].
  assert (ER : erase (with_blocks m0 bs) = erase m0) by (apply (model_read_erase mem); exists fixed; auto).
  pose proof HA as HA'. destruct HA' as (l & -> & HAL). cbn [md_blocks with_blocks] in HAL.
  assert (HL2 : loaded addr L (with_blocks (with_blocks m0 bs) l)) by (eapply loaded_erase; [|exact HL0]; rewrite (assigned_erase _ _ HA); exact ER).
  pose proof (loaded_placed _ _ _ HL2) as HP2.
  assert (HST' : Forall storable (filter p_dirty (flat_map b_points l))) by exact HST.
  destruct (write_points_spec dv rel lo hi wmax HI mem addr L _ s1 HP2 HR1 HLO HHI HW) as (s2 & mem' & W1 & W2 & W3 & W4).
  { eapply Forall_impl; [|exact HST]. intros p (d & H & _). exists d. exact H. }
  set (m2 := with_blocks (with_blocks m0 bs) l) in *.
  assert (HL3 : loaded addr L (clean m2)) by (eapply loaded_erase; [apply erase_clean|exact HL2]).
  destruct (read_points_placed dv rel lo hi wmax HI mem' addr L (clean m2) s2 (loaded_placed _ _ _ HL3) W2 HLO HHI HL) as (s3 & bs3 & E3 & _ & E4).
  exists s2, s3. split; [exact W1|]. rewrite E3. do 2 f_equal.
  change (md_blocks (clean m2)) with (map clean_block l) in E4.
  rewrite (reread_blocks addr L mem mem' (md_blocks m0) None bs l) in E4; [|..].
  - apply pair_equal_spec in E4 as [<- _]. reflexivity.
  - pose proof (pl_range _ _ _ HP0) as HRG. rewrite Forall_forall. intros b HB. unfold bfits. rewrite Forall_forall. intros p HPP. exact (HRG b p HB HPP).
  - exact E2.
  - exact HAL.
  - rewrite Forall_forall. intros b HB. unfold stored. rewrite !Forall_forall. split.
    + intros p HPP. assert (HPM : In p (points_of m2)) by (apply in_flat_map; eauto). split; intros ED.
      * assert (HM : In p (modified m2)) by (apply filter_In; auto). split; [|exact (W3 p HM)]. rewrite Forall_forall in HST. now apply HST.
      * unfold regs_of. apply mem_bytes_ext. intros x HX. apply W4. intros q HQ HC. apply filter_In in HQ as [HQ EQ].
        destruct (ForallOrdPairs_In (pl_order _ _ _ HP2) p q HPM HQ) as [E|[E|E]]; [congruence|..]; unfold before, covers in *; lia.
    + intros q HQ. unfold regs_of. apply mem_bytes_ext. intros x HX. apply W4. intros p HPP HC. apply filter_In in HPP as [HPP _].
      apply in_flat_map in HPP as (c & C1 & C2). pose proof (pl_sf_apart _ _ _ HP2 c b p q C1 HB C2 HQ) as HAP. unfold apart, before, covers in *. lia.
Qed.

(** ** answers of the wrong length *)
Lemma answers_chunks {D} (dv : mdev D) e starts : forall s data ds s', answers dv s (chunks starts e) ds s' ->
  read_chunks dv s starts e data = (s', Ok (data ++ concat ds)).
Proof.
  induction starts as [|a rest IH]; intros s data ds s' H; cbn [chunks read_chunks] in *.
  - inversion H; subst. cbn. now rewrite app_nil_r.
  - inversion H as [|? ? ? d ? ? ds' ? E1 E2]; subst. unfold cl_read. rewrite E1. rewrite (IH _ (data ++ d) _ _ E2). cbn [concat]. now rewrite app_assoc.
Qed.
Lemma answers_model {D} (dv : mdev D) addr L m s ds s' : placed addr L m -> answers dv s (chunks (md_reads m) (addr + L)) ds s' ->
  read_model_data dv s m = (s', Ok (concat ds)).
Proof.
  intros HP H. unfold read_model_data. destruct (pl_reads _ _ _ HP) as [more ER]. rewrite ER in *. rewrite (pl_addr _ _ _ HP), (pl_len _ _ _ HP).
  destruct more as [|y more].
  - cbn [chunks] in H. inversion H as [|? ? ? d ? ? ds' ? E1 E2]; subst. inversion E2; subst. replace (addr + L - addr) with L in E1 by lia.
    unfold cl_read. rewrite E1. cbn. now rewrite app_nil_r.
  - apply (answers_chunks dv (addr + L) (addr :: y :: more) s []) in H. exact H.
Qed.

(** ** a request that fails *)
Lemma failing_chunks {D} (dv : mdev D) e starts : forall s data rs a n rest ds s1 s2 x, chunks starts e = rs ++ (a, n) :: rest -> answers dv s rs ds s1 -> dv_read dv s1 a n = (s2, Raise x) ->
  read_chunks dv s starts e data = (s2, Raise (wrap_modbus x)).
Proof.
  induction starts as [|b l IH]; intros s data rs a n rest ds s1 s2 x HC HA HX; cbn [chunks] in HC; [destruct rs; discriminate|].
  cbn [read_chunks]. destruct rs as [|[c k] rs]; cbn [app] in HC.
  - inversion HA; subst. unfold cl_read.
    match type of HC with ?y :: _ = _ => assert (EY : y = (a, n)) by congruence end. apply pair_equal_spec in EY as [-> ->]. now rewrite HX.
  - inversion HA as [|? ? ? d s0 ? ds' ? E1 E2]; subst. match type of HC with ?y :: _ = _ => assert (EY : y = (c, k)) by congruence end. apply pair_equal_spec in EY as [-> ->].
    unfold cl_read. rewrite E1. eapply (IH s0 (data ++ d) rs a n rest ds' s1 s2 x); [congruence|exact E2|exact HX].
Qed.
Lemma failing_model {D} (dv : mdev D) addr L m s rs a n rest ds s1 s2 x : placed addr L m -> chunks (md_reads m) (addr + L) = rs ++ (a, n) :: rest ->
  answers dv s rs ds s1 -> dv_read dv s1 a n = (s2, Raise x) -> read_model_data dv s m = (s2, Raise (wrap_modbus x)).
Proof.
  intros HP HC HA HX. unfold read_model_data. destruct (pl_reads _ _ _ HP) as [more ER]. rewrite ER in *. rewrite (pl_addr _ _ _ HP), (pl_len _ _ _ HP).
  destruct more as [|y more]; [|eapply failing_chunks; eauto]. cbn [chunks] in HC. destruct rs as [|[c k] rs]; cbn [app] in HC; [|destruct rs; discriminate].
  inversion HA; subst. assert (EY : (addr, addr + L - addr) = (a, n)) by congruence. apply pair_equal_spec in EY as [<- <-]. replace (addr + L - addr) with L in HX by lia.
  unfold cl_read. now rewrite HX.
Qed.

(** ** failed writes *)
Lemma unmark_all l : unmark (length (filter p_dirty l)) l = map (fun p => set_dirty p false) l.
Proof.
  induction l as [|p l IH]; [reflexivity|]. cbn [filter map unmark]. destruct (p_dirty p) eqn:E; cbn [length]; rewrite IH; [reflexivity|]. f_equal. now rewrite set_dirty_false_id.
Qed.
Lemma unmark_0 l : unmark 0 l = l.
Proof. induction l as [|p l IH]; [reflexivity|]. cbn. destruct (p_dirty p); [reflexivity|]. now rewrite IH. Qed.
Lemma unmark_app_l k l l' : (k <= length (filter p_dirty l))%nat -> unmark k (l ++ l') = unmark k l ++ l'.
Proof.
  revert k. induction l as [|p l IH]; intros k H; cbn [app]; [cbn in H; assert (k = 0)%nat by lia; subst; apply unmark_0|].
  cbn [filter unmark] in *. destruct (p_dirty p); cbn [length] in *.
  - destruct k; [reflexivity|]. cbn [app]. f_equal. apply IH. lia.
  - cbn [app]. f_equal. apply IH. lia.
Qed.
Lemma unmark_app_r k l l' : unmark (length (filter p_dirty l) + k) (l ++ l') = map (fun p => set_dirty p false) l ++ unmark k l'.
Proof.
  induction l as [|p l IH]; [reflexivity|]. cbn [app filter map unmark]. destruct (p_dirty p) eqn:E; cbn [length Nat.add]; rewrite IH; [reflexivity|].
  cbn [app]. f_equal. now rewrite set_dirty_false_id.
Qed.
Lemma write_pts_marks {D} (dv : mdev D) l : forall s addr next data s' pts r, write_pts dv s addr next data l = (s', pts, r) ->
  match r with
  | Ok _ => pts = map (fun p => set_dirty p false) l
  | Raise _ => exists k, (k <= length (filter p_dirty l))%nat /\ pts = unmark k l
  end.
Proof.
  induction l as [|p l IH]; intros s addr next data s' pts r H; cbn [write_pts] in H.
  - apply pair_equal_spec in H as [H <-]. apply pair_equal_spec in H as [_ <-]. reflexivity.
  - assert (HC : forall s1 a1 n1 d1 s2 pts' r', p_dirty p = true ->
        (let '(s2, r', e) := write_pts dv s1 a1 n1 d1 l in (s2, set_dirty p false :: r', e)) = (s2, pts', r') ->
        match r' with Ok _ => pts' = map (fun p => set_dirty p false) (p :: l) | Raise _ => exists k, (k <= length (filter p_dirty (p :: l)))%nat /\ pts' = unmark k (p :: l) end).
    { intros s1 a1 n1 d1 s2 pts' r' ED HH. destruct (write_pts dv s1 a1 n1 d1 l) as [[x y] z] eqn:EW. apply pair_equal_spec in HH as [HH <-]. apply pair_equal_spec in HH as [_ <-].
      apply IH in EW. destruct z; [cbn [map]; now rewrite EW|]. destruct EW as (k & K1 & ->). exists (S k). cbn [filter unmark]. rewrite ED. cbn [length]. split; [lia|reflexivity]. }
    destruct (p_dirty p) eqn:ED.
    + destruct (to_data _ _ _) as [d|e].
      2:{ apply pair_equal_spec in H as [H <-]. apply pair_equal_spec in H as [_ <-]. exists 0%nat. split; [lia|]. now rewrite unmark_0. }
      destruct addr as [a|]; [destruct (p_addr p =? next)|]; [exact (HC _ _ _ _ _ _ _ eq_refl H)| |exact (HC _ _ _ _ _ _ _ eq_refl H)].
      destruct (cl_write dv s a data) as [s1 [u|e]]; [exact (HC _ _ _ _ _ _ _ eq_refl H)|].
      apply pair_equal_spec in H as [H <-]. apply pair_equal_spec in H as [_ <-]. exists 0%nat. split; [lia|]. now rewrite unmark_0.
    + destruct (write_pts dv s addr next data l) as [[x y] z] eqn:EW. apply pair_equal_spec in H as [H <-]. apply pair_equal_spec in H as [_ <-].
      apply IH in EW. destruct z.
      * cbn [map]. rewrite EW. f_equal. now rewrite set_dirty_false_id.
      * destruct EW as (k & K1 & ->). exists k. cbn [filter unmark]. rewrite ED. auto.
Qed.
Lemma write_blocks_marks {D} (dv : mdev D) bs : forall s s' bs' e, write_blocks dv s bs = (s', bs', Raise e) ->
  exists k, flat_map b_points bs' = unmark k (flat_map b_points bs) /\
    Forall2 (fun b b' => b' = with_points b (b_points b')) bs bs'.
Proof.
  induction bs as [|b bs IH]; intros s s' bs' e H; cbn [write_blocks] in H; [apply pair_equal_spec in H as [_ H]; discriminate|].
  assert (HID : Forall2 (fun b b' : block => b' = with_points b (b_points b')) bs bs) by (apply Forall2_self, Forall_forall; intros [] _; reflexivity).
  destruct (write_pts dv s None 0 [] (b_points b)) as [[s1 pts] r1] eqn:EW. apply write_pts_marks in EW. destruct r1 as [[[addr nx] data]|x].
  - subst pts. set (W := match addr with Some a => cl_write dv s1 a data | None => (s1, Ok tt) end) in H. destruct W as [s2 [u|e2]].
    + destruct (write_blocks dv s2 bs) as [[s3 r'] e'] eqn:EB. apply pair_equal_spec in H as [H ->]. apply pair_equal_spec in H as [_ <-].
      apply IH in EB as (k & K1 & K2). exists (length (filter p_dirty (b_points b)) + k)%nat. cbn [flat_map]. rewrite unmark_app_r, K1.
      unfold with_points at 1. cbn [b_points]. split; [reflexivity|]. constructor; [reflexivity|exact K2].
    + apply pair_equal_spec in H as [H _]. apply pair_equal_spec in H as [_ <-]. exists (length (filter p_dirty (b_points b)) + 0)%nat. cbn [flat_map]. rewrite unmark_app_r, unmark_0.
      split; [reflexivity|]. constructor; [reflexivity|exact HID].
  - destruct EW as (k & HK & ->). apply pair_equal_spec in H as [H _]. apply pair_equal_spec in H as [_ <-]. exists k. cbn [flat_map]. rewrite unmark_app_l by exact HK.
    split; [reflexivity|]. constructor; [reflexivity|exact HID].
Qed.
