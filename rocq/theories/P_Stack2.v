(** * P_Stack2: from the scan to values and back, on any device that implements a memory. *)
From Verif Require Import Py P_List M_Mbmap M_Device S_Device C_Device M_Client S_Client P_Client P_Client2 P_Client3 P_Client4 M_Scan S_Scan P_Scan S_Stack.

Lemma instance_erase a t p : instance a t p -> erase_point p = p.
Proof. intros (H1 & H2 & H3 & H4 & H5 & H6). destruct p. cbn in *. subst. reflexivity. Qed.
Lemma instances_erase a l l' : Forall2 (instance a) l l' -> map erase_point l' = l'.
Proof. induction 1 as [|t p l l' H1 H2 IH]; [reflexivity|]. cbn [map]. rewrite IH. f_equal. eapply instance_erase; eauto. Qed.
Lemma block_of_erase bt a len i b : block_of bt a len i b -> erase_block b = b.
Proof.
  intros (H1 & H2 & H3 & H4 & H5 & H6). unfold erase_block. rewrite (instances_erase _ _ _ H5), (instances_erase _ _ _ H6). now destruct b.
Qed.
Lemma fresh_erase fuel types id addr len m : model_load fuel types (new_model id addr len) = (m, Ok tt) -> erase m = m.
Proof.
  intros H. apply C40_model_layout in H as (mt & L & F & b & reps & H1 & H2 & H3 & H4 & H5 & H6 & H7 & H8 & H9 & H10).
  assert (HB : map erase_block (md_blocks m) = md_blocks m).
  { rewrite H8. cbn [map]. rewrite (block_of_erase _ _ _ _ _ H9). f_equal. destruct (mt_rep mt) as [rt|]; [|destruct H10 as [-> _]; reflexivity].
    destruct H10 as (R & _ & _ & H10). assert (HA : forall c, In c reps -> erase_block c = c).
    { intros c HC. apply In_nth_error in HC as (n & HC). eapply block_of_erase. exact (H10 n c HC). }
    clear - HA. induction reps as [|c reps IH]; [reflexivity|]. cbn [map]. rewrite IH, HA; auto with datatypes. }
  unfold erase. rewrite HB. now destruct m.
Qed.
Lemma fresh_clean m : erase m = m -> Forall (fun p => p_dirty p = false) (points_of m).
Proof.
  intros H. rewrite Forall_forall. intros p HP. unfold points_of in HP. apply in_flat_map in HP as (b & HB & HP).
  rewrite <- H in HB. unfold erase in HB. cbn [md_blocks with_blocks] in HB. apply in_map_iff in HB as (b0 & <- & _). cbn [erase_block b_points] in HP.
  apply in_map_iff in HP as (p0 & <- & _). reflexivity.
Qed.
Lemma readable_loaded lfuel types id addr len m : readable lfuel types (id, addr, len) -> model_for lfuel types (id, addr, len) m ->
  md_type m = None \/ (0 < len /\ loaded addr len m /\ erase m = m).
Proof.
  intros HR (H1 & H2 & H3 & H4). unfold readable in HR. destruct HR as [(e & HE)|(HL & HOK & mt & F & ET & HF & HG)].
  - left. unfold model_load in H4. cbn [md_id new_model] in H4. rewrite HE in H4. destruct H4 as (_ & _ & H4). rewrite H4. reflexivity.
  - right. destruct (model_load lfuel types (new_model id addr len)) as [m' r] eqn:E. cbn [snd] in HOK. subst r. subst m'.
    pose proof (fresh_erase _ _ _ _ _ _ E) as HE. split; [exact HL|]. split; [|exact HE]. exists lfuel, types, id, len, mt, F.
    split; [exact ET|]. split; [left; split; [lia|reflexivity]|]. split; [exact HF|]. split; [exact HG|]. rewrite HE. exact E.
Qed.

(** ranges of the entries of a chain *)
Lemma chain_entries mem a l e : byte_memory mem -> model_chain mem a l e ->
  Forall (fun x => let '(id, addr, len) := x in a + 2 <= addr /\ 0 <= len /\ addr + len <= e) l /\
  ForallOrdPairs (fun x y => let '(_, addr, len) := x in let '(_, addr', _) := y in addr + len <= addr') l.
Proof.
  intros HB H. induction H as [a E|a l e N H IH]; [split; constructor|].
  assert (HR : 0 <= reg mem (a + 1)) by (unfold reg; pose proof (HB (2 * (a + 1))); pose proof (HB (2 * (a + 1) + 1)); unfold is_byte in *; lia).
  pose proof (chain_le _ _ _ _ HB H) as HE. destruct IH as [I1 I2]. split.
  - constructor; [lia|]. eapply Forall_impl; [|exact I1]. intros [[id addr] len] (A & B & C). lia.
  - constructor; [|exact I2]. eapply Forall_impl; [|exact I1]. intros [[id addr] len] (A & B & C). lia.
Qed.

Section Stack.
  Context {D : Type} (dv : mdev D) (rel : D -> memory -> Prop) (lo hi wmax : Z) (HI : implements dv rel lo hi wmax).

  (** reading again, from a memory that is the same where the model is *)
  Lemma reread mem mem' addr L m0 m1 s : loaded addr L m0 -> erase m0 = m0 -> model_read mem m0 m1 -> 0 < L -> lo <= addr -> addr + L <= hi ->
    read_blocks None addr (mem_bytes mem addr L) (md_blocks m0) = (md_blocks m1, Ok tt) ->
    (forall x, 2 * addr <= x < 2 * (addr + L) -> mem' x = mem x) -> rel s mem' ->
    exists s', read_points dv s m1 = (s', m1, Ok tt) /\ rel s' mem'.
  Proof.
    intros HL0 HE0 HM HL HLO HHI HRB HX HR. pose proof (loaded_placed _ _ _ HL0) as HP0. pose proof (model_read_erase _ _ _ HM) as HER.
    assert (HL1 : loaded addr L m1) by (eapply loaded_erase; eauto). pose proof (loaded_placed _ _ _ HL1) as HP1.
    assert (HND : Forall (fun p => p_dirty p = false) (points_of m1)).
    { destruct HM as (fixed & _ & HF & _). pose proof (fresh_clean _ HE0) as HD. unfold points_of in *. revert HF HD. generalize (md_blocks m0) (md_blocks m1).
      induction 1 as [|b b' l l' HB HBS IH]; intros HD; [constructor|]. cbn [flat_map] in *. apply Forall_app in HD as [D1 D2]. apply Forall_app. split; [|auto].
      destruct HB as (_ & _ & _ & _ & _ & HB). clear - HB D1. revert HB D1. generalize (b_points b) (b_points b'). induction 1 as [|p p' l l' HP HPS IH]; intros HD; [constructor|].
      inversion HD; subst. constructor; [|auto]. destruct HP as ((_ & _ & _ & E & _) & _). congruence. }
    destruct (read_points_placed dv rel lo hi wmax HI mem' addr L m1 s HP1 HR HLO HHI HL) as (s' & bs & E1 & R1 & E2).
    exists s'. split; [|exact R1]. rewrite E1. do 2 f_equal.
    assert (HC : map clean_block (md_blocks m1) = md_blocks m1).
    { clear - HND. unfold points_of in HND. induction (md_blocks m1) as [|b l IH]; [reflexivity|]. cbn [flat_map map] in *. apply Forall_app in HND as [D1 D2].
      rewrite IH by exact D2. f_equal. unfold clean_block. destruct b as [x1 x2 x3 x4 pts sfs]. cbn [b_points b_addr b_len b_type b_index b_sfs] in *. f_equal.
      clear - D1. induction pts as [|p l IH]; [reflexivity|]. inversion D1; subst. cbn [map]. rewrite IH by assumption. now rewrite set_dirty_false_id. }
    assert (ER : read_blocks None addr (mem_bytes mem' addr L) (map clean_block (md_blocks m1)) = (map clean_block (md_blocks m1), Ok tt)).
    { eapply (reread_blocks addr L mem mem' (md_blocks m0) None (md_blocks m1) (md_blocks m1)).
      - pose proof (pl_range _ _ _ HP0) as HRG. rewrite Forall_forall. intros b HB. unfold bfits. rewrite Forall_forall. intros p HPP. exact (HRG b p HB HPP).
      - exact HRB.
      - apply Forall2_self. rewrite Forall_forall. intros b _. exists (b_points b). split; [now destruct b|]. apply Forall2_self. rewrite Forall_forall. intros p _. now left.
      - rewrite Forall_forall. intros b HB. unfold stored. rewrite !Forall_forall. split.
        + intros p HPP. split; intros ED.
          * exfalso. rewrite Forall_forall in HND. rewrite HND in ED; [discriminate|]. apply in_flat_map; eauto.
          * unfold regs_of. apply mem_bytes_ext. intros x HXX. apply HX. destruct (pl_range _ _ _ HP1 b p HB ltac:(apply in_or_app; now left)). lia.
        + intros q HQ. unfold regs_of. apply mem_bytes_ext. intros x HXX. apply HX. destruct (pl_range _ _ _ HP1 b q HB ltac:(apply in_or_app; now right)). lia. }
    rewrite HC in ER. rewrite ER in E2. apply pair_equal_spec in E2 as [<- _]. now destruct m1.
  Qed.

  (** one model: what a later read needs *)
  Definition just_read (mem : memory) (x : Z * Z * Z) (m m' : model) : Prop :=
    let '(_, addr, len) := x in
    match md_type m with
    | None => m' = m
    | Some _ => 0 < len /\ loaded addr len m /\ erase m = m /\ model_read mem m m' /\ read_blocks None addr (mem_bytes mem addr len) (md_blocks m) = (md_blocks m', Ok tt)
    end.
  Inductive all_read (mem : memory) : list (Z * Z * Z) -> list model -> list model -> Prop :=
  | ar_nil : all_read mem [] [] []
  | ar_cons x m m' l ms ms' : just_read mem x m m' -> all_read mem l ms ms' -> all_read mem (x :: l) (m :: ms) (m' :: ms').

  Lemma device_read lfuel types mem l ms : Forall2 (model_for lfuel types) l ms -> Forall (readable lfuel types) l ->
    Forall (fun x => let '(id, addr, len) := x in lo <= addr /\ addr + len <= hi) l ->
    forall s, rel s mem -> exists s' ms', device_read_points dv s ms = (s', ms', Ok tt) /\ rel s' mem /\ all_read mem l ms ms'.
  Proof.
    induction 1 as [|x m l ms HM HMS IH]; intros HR HB s HS.
    - exists s, []. split; [reflexivity|]. split; [exact HS|constructor].
    - inversion HR as [|? ? R1 R2]; subst. inversion HB as [|? ? B1 B2]; subst. destruct x as [[id addr] len]. cbn [device_read_points].
      destruct (readable_loaded _ _ _ _ _ _ R1 HM) as [HN|(HL & HLD & HE)].
      + unfold read_points. rewrite HN. destruct (IH R2 B2 s HS) as (s' & ms' & E & HS' & HA). rewrite E. exists s', (m :: ms').
        split; [reflexivity|]. split; [exact HS'|]. constructor; [|exact HA]. unfold just_read. now rewrite HN.
      + destruct B1 as [B1 B1'].
        destruct (read_points_placed dv rel lo hi wmax HI mem addr len m s (loaded_placed _ _ _ HLD) HS B1 B1' HL) as (s1 & bs & E1 & HR1 & EB).
        rewrite E1. destruct (IH R2 B2 s1 HR1) as (s' & ms' & E & HS' & HA). rewrite E. exists s', (with_blocks m bs :: ms').
        split; [reflexivity|]. split; [exact HS'|]. constructor; [|exact HA]. unfold just_read. pose proof (pl_type _ _ _ (loaded_placed _ _ _ HLD)) as HT.
        destruct (md_type m); [|congruence]. split; [exact HL|]. split; [exact HLD|]. split; [exact HE|]. split; [|exact EB].
        destruct (read_blocks_spec mem addr len m (loaded_placed _ _ _ HLD)) as (bs' & EB' & fixed & F1 & F2). rewrite EB in EB'. apply pair_equal_spec in EB' as [<- _].
        exists fixed. split; [exact F1|]. split; [exact F2|reflexivity].
  Qed.
  Lemma all_read_values mem l ms ms' : all_read mem l ms ms' -> Forall2 (values_read mem) ms ms'.
  Proof.
    induction 1 as [|[[id addr] len] m m' l ms ms' H1 H2 IH]; constructor; [|exact IH]. unfold just_read, values_read in *.
    destruct (md_type m); [|exact H1]. now destruct H1 as (_ & _ & _ & H1 & _).
  Qed.

  (** models elsewhere read the same again *)
  Lemma device_reread mem mem' l ms ms' : all_read mem l ms ms' ->
    Forall (fun x => let '(id, addr, len) := x in lo <= addr /\ addr + len <= hi /\ forall x, 2 * addr <= x < 2 * (addr + len) -> mem' x = mem x) l ->
    forall s, rel s mem' -> exists s', device_read_points dv s ms' = (s', ms', Ok tt) /\ rel s' mem'.
  Proof.
    induction 1 as [|[[id addr] len] m m' l ms ms' H1 H2 IH]; intros HB s HS; [exists s; split; [reflexivity|exact HS]|].
    inversion HB as [|? ? B1 B2]; subst. cbn [device_read_points]. unfold just_read in H1. destruct (md_type m) eqn:ET.
    - destruct H1 as (A1 & A2 & A3 & A4 & A5). destruct B1 as (B1 & B1' & BX).
      destruct (reread mem mem' addr len m m' s A2 A3 A4 A1 B1 B1' A5 BX HS) as (s1 & E1 & R1). rewrite E1.
      destruct (IH B2 s1 R1) as (s2 & E2 & R2). rewrite E2. exists s2. auto.
    - subst m'. unfold read_points. rewrite ET. destruct (IH B2 s HS) as (s2 & E2 & R2). rewrite E2. exists s2. auto.
  Qed.
  Lemma device_read_app s l1 l2 s1 s2 : device_read_points dv s l1 = (s1, l1, Ok tt) -> device_read_points dv s1 l2 = (s2, l2, Ok tt) ->
    device_read_points dv s (l1 ++ l2) = (s2, l1 ++ l2, Ok tt).
  Proof.
    revert s. induction l1 as [|m l1 IH]; intros s H1 H2; cbn [device_read_points app] in *.
    - apply pair_equal_spec in H1 as [H1 _]. apply pair_equal_spec in H1 as [-> _]. exact H2.
    - destruct (read_points dv s m) as [[s' m'] [u|e]]; [|discriminate]. destruct (device_read_points dv s' l1) as [[s3 l3] r] eqn:E3.
      apply pair_equal_spec in H1 as [H1 ->]. apply pair_equal_spec in H1 as [-> H1]. assert (m' = m) by congruence. assert (l3 = l1) by congruence. subst m' l3.
      now rewrite (IH s' E3 H2).
  Qed.
  Lemma all_read_split mem pre m1 post : forall l ms, all_read mem l ms (pre ++ m1 :: post) ->
    exists la x lb msa m0 msb, l = la ++ x :: lb /\ ms = msa ++ m0 :: msb /\ all_read mem la msa pre /\ just_read mem x m0 m1 /\ all_read mem lb msb post.
  Proof.
    induction pre as [|p pre IH]; intros l ms H; cbn [app] in H.
    - inversion H as [|x m m' l' ms0 ms' H1 H2]; subst. exists [], x, l', [], m, ms0. repeat split; auto. constructor.
    - inversion H as [|x m m' l' ms0 ms' H1 H2]; subst. destruct (IH _ _ H2) as (la & y & lb & msa & m0 & msb & -> & -> & A & B & C).
      exists (x :: la), y, lb, (m :: msa), m0, msb. repeat split; auto. now constructor.
  Qed.

  (** write one model, read everything again *)
  Lemma write_and_reread mem l ms pre m1 post m2 s : all_read mem l ms (pre ++ m1 :: post) -> md_type m1 <> None ->
    Forall (fun x => let '(id, addr, len) := x in lo <= addr /\ addr + len <= hi) l ->
    ForallOrdPairs (fun x y => let '(_, addr, len) := x in let '(_, addr', _) := y in addr + len <= addr') l ->
    Forall (fun x => let '(_, _, len) := x in 0 <= len) l ->
    md_len m1 <= wmax -> assigned m1 m2 -> Forall storable (modified m2) -> rel s mem ->
    exists s1 s2, write_points dv s m2 = (s1, clean m2, Ok tt) /\
      device_read_points dv s1 (pre ++ clean m2 :: post) = (s2, pre ++ clean m2 :: post, Ok tt).
  Proof.
    intros HA HT HB HO HN HW HAS HST HS.
    destruct (all_read_split _ _ _ _ _ _ HA) as (la & [[id addr] len] & lb & msa & m0 & msb & -> & -> & A & B & C). unfold just_read in B.
    destruct (md_type m0) eqn:ET0; [|subst m1; congruence]. destruct B as (B1 & B2 & B3 & B4 & B5).
    apply Forall_app in HB as [HB1 HB2]. inversion HB2 as [|? ? HB3 HB4]; subst. destruct HB3 as [HLO HHI].
    apply Forall_app in HN as [HN1 HN2]. inversion HN2 as [|? ? HN3 HN4]; subst.
    assert (HL1 : loaded addr len m1) by (eapply loaded_erase; [eapply model_read_erase; eauto|exact B2]).
    assert (HL2 : loaded addr len m2) by (eapply loaded_erase; [eapply assigned_erase; eauto|exact HL1]).
    pose proof (loaded_placed _ _ _ HL2) as HP2. assert (HLEN : len <= wmax) by (rewrite <- (pl_len _ _ _ (loaded_placed _ _ _ HL1)); exact HW).
    destruct (write_points_spec dv rel lo hi wmax HI mem addr len m2 s HP2 HS HLO HHI HLEN) as (s1 & mem' & W1 & W2 & W3 & W4).
    { eapply Forall_impl; [|exact HST]. intros p (d & H & _). exists d. exact H. }
    (* outside the model nothing changes *)
    assert (HOUT : forall x, ~ (2 * addr <= x < 2 * (addr + len)) -> mem' x = mem x).
    { intros x HX. apply W4. intros p HP HC. apply filter_In in HP as [HP _]. apply in_flat_map in HP as (b & HBB & HP).
      destruct (pl_range _ _ _ HP2 b p HBB ltac:(apply in_or_app; now left)) as (P1 & P2 & P3 & _). unfold covers in HC. lia. }
    assert (HOA : Forall (fun x => let '(_, addr', len') := x in addr' + len' <= addr) la).
    { clear - HO. induction la as [|x la IH]; [constructor|]. cbn [app] in HO. inversion HO as [|? ? H1 H2]; subst. constructor; [|auto].
      apply Forall_app in H1 as [_ H1]. inversion H1; subst. destruct x as [[? ?] ?]. assumption. }
    assert (HOB : Forall (fun x => let '(_, addr', _) := x in addr + len <= addr') lb).
    { clear - HO. induction la as [|x la IH]; cbn [app] in HO; inversion HO as [|? ? H1 H2]; subst; [|auto]. exact H1. }
    destruct (device_reread mem mem' la msa pre A) with (s := s1) as (s2 & E2 & R2); [|exact W2|].
    { rewrite Forall_forall in *. intros [[i a] n] HIN. specialize (HB1 _ HIN). specialize (HOA _ HIN). specialize (HN1 _ HIN). cbv beta iota in *. split; [lia|]. split; [lia|].
      intros x HX. apply HOUT. lia. }
    (* the model itself *)
    destruct HAS as (bl & -> & HAL). set (m2 := with_blocks m1 bl) in *.
    assert (HL3 : loaded addr len (clean m2)) by (eapply loaded_erase; [apply erase_clean|exact HL2]).
    destruct (read_points_placed dv rel lo hi wmax HI mem' addr len (clean m2) s2 (loaded_placed _ _ _ HL3) R2 HLO HHI B1) as (s3 & bs3 & E3 & R3 & E4).
    change (md_blocks (clean m2)) with (map clean_block bl) in E4. pose proof (loaded_placed _ _ _ B2) as HP0.
    rewrite (reread_blocks addr len mem mem' (md_blocks m0) None (md_blocks m1) bl) in E4; [|..].
    - apply pair_equal_spec in E4 as [<- _].
      destruct (device_reread mem mem' lb msb post C) with (s := s3) as (s4 & E5 & R5); [|exact R3|].
      { rewrite Forall_forall in *. intros [[i a] n] HIN. specialize (HB4 _ HIN). specialize (HOB _ HIN). specialize (HN4 _ HIN). cbv beta iota in *. split; [lia|]. split; [lia|].
        intros x HX. apply HOUT. lia. }
      exists s1, s4. split; [exact W1|]. eapply device_read_app; [exact E2|]. cbn [device_read_points]. rewrite E3, E5. reflexivity.
    - pose proof (pl_range _ _ _ HP0) as HRG. rewrite Forall_forall. intros b HBB. unfold bfits. rewrite Forall_forall. intros p HPP. exact (HRG b p HBB HPP).
    - exact B5.
    - exact HAL.
    - rewrite Forall_forall. intros b HBB. unfold stored. rewrite !Forall_forall. split.
      + intros p HPP. assert (HPM : In p (points_of m2)) by (apply in_flat_map; eauto). split; intros ED.
        * assert (HM : In p (modified m2)) by (apply filter_In; auto). split; [|exact (W3 p HM)]. rewrite Forall_forall in HST. now apply HST.
        * unfold regs_of. apply mem_bytes_ext. intros x HX. apply W4. intros q HQ HC. apply filter_In in HQ as [HQ EQ].
          destruct (ForallOrdPairs_In (pl_order _ _ _ HP2) p q HPM HQ) as [E|[E|E]]; [congruence|..]; unfold before, covers in *; lia.
      + intros q HQ. unfold regs_of. apply mem_bytes_ext. intros x HX. apply W4. intros p HPP HC. apply filter_In in HPP as [HPP _].
        apply in_flat_map in HPP as (c & C1 & C2). pose proof (pl_sf_apart _ _ _ HP2 c b p q C1 HBB C2 HQ) as HAP. unfold apart, before, covers in *. lia.
  Qed.

  Lemma missed_all mem pre s : rel s mem -> Forall (fun a => lo <= a /\ a + 3 <= hi /\ mem_bytes mem a 2 <> [83; 117; 110; 83]) pre ->
    exists s', all_missed dv s pre s' /\ rel s' mem.
  Proof.
    intros HR HF. revert s HR. induction HF as [|a pre (H1 & H2 & H3) _ IH]; intros s HR; [exists s; split; [constructor|exact HR]|].
    destruct (impl_read _ _ _ _ _ HI s mem a 3 HR H1 ltac:(lia) ltac:(lia)) as (s1 & E1 & R1). destruct (IH s1 R1) as (s2 & A2 & R2).
    exists s2. split; [|exact R2]. econstructor; [|exact A2]. right. exists (mem_bytes mem a 3). split; [exact E1|].
    replace 3 with (2 + 1) by lia. rewrite mem_bytes_app by lia. rewrite ztake_app_l by (rewrite zlen_mem_bytes; lia).
    rewrite ztake_all by (rewrite zlen_mem_bytes; lia). exact H3.
  Qed.
End Stack.

(** ** from the map of a device to values and back *)
Section EndToEnd.
  Context {D : Type} (c : sclient D) (rel : D -> memory -> Prop) (lo hi wmax : Z) (HI : implements (scl_dev c) rel lo hi wmax).
  Hypothesis opening : forall s mem, rel s mem -> exists s0, opens c s s0 /\ rel s0 mem.
  Hypothesis closing : forall s s' mem, rel s mem -> closes c s s' -> rel s' mem.
  Variables (lfuel : nat) (types : Z -> res modeltype) (progress : option (list Z -> bool)).
  Hypothesis HLE : loads_end lfuel types.
  Hypothesis HPR : forall f h, progress = Some f -> f h = true.

  Lemma end_to_end mem b l e fuel s : rel s mem -> byte_memory mem -> sunspec_map mem b l e ->
    (exists pre post, [40000; 0; 50000] = pre ++ b :: post /\ Forall (fun a => lo <= a /\ a + 3 <= hi /\ mem_bytes mem a 2 <> [83; 117; 110; 83]) pre) ->
    lo <= b -> e < hi -> Forall (readable lfuel types) l -> (length l < fuel)%nat ->
    exists s1 ms s2 ms', scan c lfuel types progress fuel s new_cdevice = (s1, mkCD (Some b) ms, Ok tt) /\
      Forall2 (model_for lfuel types) l ms /\ device_read_points (scl_dev c) s1 ms = (s2, ms', Ok tt) /\ Forall2 (values_read mem) ms ms' /\ rel s2 mem /\
      forall pre m1 post m2, ms' = pre ++ m1 :: post -> md_type m1 <> None -> md_len m1 <= wmax -> assigned m1 m2 -> Forall storable (modified m2) ->
      exists s3 s4, write_points (scl_dev c) s2 m2 = (s3, clean m2, Ok tt) /\
        device_read_points (scl_dev c) s3 (pre ++ clean m2 :: post) = (s4, pre ++ clean m2 :: post, Ok tt).
  Proof.
    intros HR HB HM (pre & post & EB & HPRE) HLO HHI HRD HF.
    destruct (opening s mem HR) as (s0 & HO & R0). destruct (missed_all (scl_dev c) rel lo hi wmax HI mem pre s0 R0 HPRE) as (sa & HA & RA).
    destruct (scan_map c lfuel types progress rel lo hi wmax mem b l e pre post HI HLE HPR HB HM EB HLO HHI fuel s s0 sa new_cdevice HF eq_refl HO HA RA)
      as (sb & s1 & ms & E1 & HMS & RB & HC). cbn [cd_models new_cdevice app] in E1.
    pose proof (closing sb s1 mem RB HC) as R1. destruct HM as [_ HCH]. destruct (chain_entries mem (b + 2) l e HB HCH) as [CE1 CE2].
    assert (HBD : Forall (fun x => let '(id, addr, len) := x in lo <= addr /\ addr + len <= hi) l).
    { eapply Forall_impl; [|exact CE1]. intros [[i a] n] (X1 & X2 & X3). lia. }
    destruct (device_read (scl_dev c) rel lo hi wmax HI lfuel types mem l ms HMS HRD HBD s1 R1) as (s2 & ms' & E2 & R2 & HAR).
    exists s1, ms, s2, ms'. split; [exact E1|]. split; [exact HMS|]. split; [exact E2|]. split; [eapply all_read_values; eauto|]. split; [exact R2|].
    intros pre' m1 post' m2 -> HT HW HAS HST.
    eapply (write_and_reread (scl_dev c) rel lo hi wmax HI mem l ms pre' m1 post' m2 s2); eauto.
    eapply Forall_impl; [|exact CE1]. intros [[i a] n] (X1 & X2 & X3). lia.
  Qed.
End EndToEnd.
