(** * P_LiveScan: proofs for C107. *)
From Coq Require Import ZifyBool String.
From Verif Require Import Py P_List M_Util P_Codec M_Suns M_Mbmap M_Device S_Device P_Device C_Device C_Chunks M_Client S_Client P_Client P_Client2 M_Scan S_Scan P_Scan S_Stack P_Stack2 S_Live P_Live S_LiveScan.

(** the registers that make up the SunSpec map at [b] with the entries [l] up to [e]: the marker, the ids and the lengths *)
Inductive header (b : Z) (l : list (Z * Z * Z)) (e : Z) : Z -> Prop :=
| h_marker a : a = b \/ a = b + 1 -> header b l e a
| h_entry id addr len a : In (id, addr, len) l -> a = addr - 2 \/ a = addr - 1 -> header b l e a
| h_end : header b l e e.
(** [mem] has the map of [mem0]; everything else may differ *)
Definition keeps_map (mem0 : memory) (b : Z) (l : list (Z * Z * Z)) (e : Z) (mem : memory) : Prop :=
  forall a, header b l e a -> mem (2 * a) = mem0 (2 * a) /\ mem (2 * a + 1) = mem0 (2 * a + 1).
Lemma keeps_reg mem0 b l e mem a : keeps_map mem0 b l e mem -> header b l e a -> mem_bytes mem a 1 = mem_bytes mem0 a 1.
Proof. intros HK HH. destruct (HK a HH) as [E1 E2]. rewrite !mem_bytes_reg. now rewrite E1, E2. Qed.

Lemma cons_eq {A} (x y : A) l l' : x :: l = y :: l' -> x = y /\ l = l'.
Proof. intros H. split; congruence. Qed.
Lemma chain_regs mem a l e : model_chain mem a l e -> reg mem e = 65535 /\ forall id addr len, In (id, addr, len) l -> reg mem (addr - 2) = id /\ reg mem (addr - 1) = len.
Proof.
  induction 1 as [a E|a l e N H [IH1 IH2]]; [split; [exact E|intros ? ? ? []]|]. split; [exact IH1|]. intros id addr len [HI|HI]; [|now apply IH2].
  apply pair_equal_spec in HI as [HI <-]. apply pair_equal_spec in HI as [<- <-]. split; f_equal; lia.
Qed.
Lemma reg_bytes mem mem' a : byte_memory mem -> byte_memory mem' -> reg mem a = reg mem' a -> mem (2 * a) = mem' (2 * a) /\ mem (2 * a + 1) = mem' (2 * a + 1).
Proof.
  intros H1 H2. unfold reg. pose proof (H1 (2 * a)). pose proof (H1 (2 * a + 1)). pose proof (H2 (2 * a)). pose proof (H2 (2 * a + 1)). unfold is_byte in *. lia.
Qed.
Lemma same_map_keeps mem0 mem b l e : byte_memory mem0 -> byte_memory mem -> sunspec_map mem0 b l e -> sunspec_map mem b l e -> keeps_map mem0 b l e mem.
Proof.
  intros B0 B (S0 & C0) (S1 & C1) a HH. destruct (chain_regs _ _ _ _ C0) as [E0 R0]. destruct (chain_regs _ _ _ _ C1) as [E1 R1].
  apply reg_bytes; [exact B|exact B0|]. destruct HH as [a HA|id addr len a HI HA|].
  - assert (E2R : forall mm, mem_bytes mm b 2 = [mm (2 * b); mm (2 * b + 1)] ++ [mm (2 * (b + 1)); mm (2 * (b + 1) + 1)]).
    { intros mm. rewrite <- !mem_bytes_reg. exact (mem_bytes_app mm b 1 1 ltac:(lia) ltac:(lia)). }
    rewrite E2R in S0, S1. cbn [app] in S0, S1. unfold reg. destruct HA as [-> | ->]; congruence.
  - destruct (R0 _ _ _ HI), (R1 _ _ _ HI). destruct HA as [-> | ->]; congruence.
  - congruence.
Qed.
Lemma first_marker_pre mem b pre post : [40000; 0; 50000] = pre ++ b :: post -> first_marker mem b -> Forall (fun a => mem_bytes mem a 2 <> [83; 117; 110; 83]) pre.
Proof.
  intros E (pre' & post' & E' & HF). enough (pre = pre') by (subst; assumption). clear HF. 
  destruct pre as [|x1 [|x2 [|x3 pre]]]; destruct pre' as [|y1 [|y2 [|y3 pre']]]; cbn [app] in *; try congruence.
  all: exfalso; repeat match goal with H : _ :: _ = _ :: _ |- _ => apply cons_eq in H as [? H] end; subst; try discriminate.
  all: try (destruct pre; discriminate). all: try (destruct pre'; discriminate).
Qed.

Section Scan.
  Context {D : Type} (c : sclient D) (lfuel : nat) (types : Z -> res modeltype) (progress : option (list Z -> bool)).
  Variables (ok : D -> Prop) (cur : D -> memory).
  (** short reads return the registers of the moment *)
  Hypothesis HRD : forall s a n, ok s -> 0 <= a -> 1 <= n <= 3 -> a + n <= 65536 ->
    exists s', dv_read (scl_dev c) s a n = (s', Ok (Some (mem_bytes (cur s) a n))) /\ ok s'.
  Hypothesis HLE : loads_end lfuel types.
  Hypothesis HP : forall f h, progress = Some f -> f h = true.
  Variables (mem : memory) (b0 : Z) (l0 : list (Z * Z * Z)) (e0 : Z).
  Hypothesis HKEEP : forall s, ok s -> keeps_map mem b0 l0 e0 (cur s).
  Hypothesis HB : byte_memory mem.
  Hypothesis HHI : e0 < 65536.

  Lemma cl_read_reg s a : ok s -> 0 <= a -> a < 65536 -> header b0 l0 e0 a ->
    exists s', cl_read (scl_dev c) s a 1 = (s', Ok (Some [mem (2 * a); mem (2 * a + 1)])) /\ ok s'.
  Proof.
    intros HO Ha Ha2 HH. destruct (HRD s a 1 HO Ha ltac:(lia) ltac:(lia)) as (s' & E & HO'). exists s'. unfold cl_read. rewrite E.
    rewrite (keeps_reg _ _ _ _ _ _ (HKEEP s HO) HH), mem_bytes_reg. auto.
  Qed.
  Lemma live_scan_loop a l e : model_chain mem a l e -> 0 <= a -> e = e0 -> incl l l0 ->
    forall fuel s hist models, (length l < fuel)%nat -> ok s ->
    exists s' ms, scan_loop c lfuel types progress fuel s (reg mem a) a hist models = (s', models ++ ms, Ok tt) /\
      Forall2 (model_for lfuel types) l ms /\ ok s'.
  Proof.
    intros HC. induction HC as [a E|a l e N HC IH]; intros HLO HEE HIN fuel s hist models HF HR.
    - destruct fuel as [|fuel]; [cbn in HF; lia|]. exists s, []. cbn [scan_loop]. rewrite E, app_nil_r.
      split; [reflexivity|]. split; [constructor|exact HR].
    - destruct fuel as [|fuel]; [cbn in HF; lia|]. cbn [List.length] in HF. cbn [scan_loop].
      destruct (Z.eqb_spec (reg mem a) END_MODEL_ID) as [EE|_]; [contradiction|].
      pose proof (chain_le _ _ _ _ HB HC) as HE. pose proof (reg_range mem (a + 1) HB) as HL.
      assert (HH1 : header b0 l0 e0 (a + 1)) by (eapply h_entry; [apply HIN; left; reflexivity|right; lia]).
      destruct (cl_read_reg s (a + 1) HR ltac:(lia) ltac:(lia) HH1) as (s1 & -> & HR1).
      cbn [two_bytes].
      replace (match progress with Some f => negb (f (hist ++ [reg mem a])) | None => false end) with false.
      2:{ destruct progress as [f|] eqn:EP; [|reflexivity]. now rewrite (HP f). }
      rewrite u16_pair. fold (reg mem (a + 1)).
      set (len := reg mem (a + 1)) in *. set (id := reg mem a) in *.
      pose proof (proj2 HLE id (a + 2) len HL) as HNF. pose proof (model_load_keeps lfuel types (new_model id (a + 2) len)) as HK.
      destruct (model_load lfuel types (new_model id (a + 2) len)) as [m r] eqn:EM. cbn [snd fst] in HNF, HK.
      set (m1 := match r with Ok _ => m | Raise e0 => with_error m e0 end).
      assert (HM : model_for lfuel types (id, a + 2, len) m1).
      { unfold model_for. rewrite EM. destruct HK as (K1 & K2 & K3). cbn [md_id md_addr md_len new_model] in K1, K2, K3.
        unfold m1. destruct r; cbn [with_error md_id md_addr md_len md_error md_blocks md_type]; auto 10. }
      assert (EA : a + (len + 2) = a + 2 + len) by lia.
      assert (HH2 : header b0 l0 e0 (a + 2 + len)).
      { clear - HC HIN HEE. inversion HC; subst.
        - constructor 3.
        - eapply h_entry; [apply HIN; right; left; reflexivity|left; lia]. }
      destruct (cl_read_reg s1 (a + 2 + len) HR1 ltac:(lia) ltac:(lia) HH2) as (s2 & E2 & HR2).
      destruct (IH ltac:(lia) HEE ltac:(intros x Hx; apply HIN; now right) fuel s2 (hist ++ [id]) (models ++ [m1]) ltac:(lia) HR2) as (s' & ms & E3 & F3 & R3).
      exists s', (m1 :: ms). split; [|split; [constructor; assumption|exact R3]].
      assert (EU : data_to_u16 [mem (2 * (a + 2 + len)); mem (2 * (a + 2 + len) + 1)] = Ok (reg mem (a + 2 + len))) by apply u16_pair.
      destruct r as [u|x].
      + rewrite EA, E2. cbn [two_bytes]. rewrite EU. unfold m1 in E3. etransitivity; [exact E3|]. now rewrite <- app_assoc.
      + destruct x; try (rewrite EA, E2; cbn [two_bytes]; rewrite EU; unfold m1 in E3; etransitivity; [exact E3|]; now rewrite <- app_assoc).
        congruence.
  Qed.
  Lemma live_missed pre : Forall (fun a => 0 <= a /\ a + 3 <= 65536) pre -> (forall s, ok s -> Forall (fun a => mem_bytes (cur s) a 2 <> [83; 117; 110; 83]) pre) ->
    forall s, ok s -> exists s', all_missed (scl_dev c) s pre s' /\ ok s'.
  Proof.
    induction pre as [|a pre IH]; intros HF HM s HO; [exists s; split; [constructor|exact HO]|]. inversion HF as [|? ? F1 F2]; subst.
    destruct (HRD s a 3 HO ltac:(lia) ltac:(lia) ltac:(lia)) as (s1 & E & HO1).
    destruct (IH F2) with (s := s1) as (s2 & HA & HO2); [|exact HO1|].
    - intros s3 HO3. pose proof (HM s3 HO3) as HX. now inversion HX.
    - exists s2. split; [|exact HO2]. econstructor; [|exact HA]. right. exists (mem_bytes (cur s) a 3). split; [exact E|].
      pose proof (HM s HO) as HX. inversion HX; subst. rewrite mem_bytes_3. rewrite ztake_app_exact; [assumption|]. now rewrite mem_bytes_len by lia.
  Qed.
  Lemma live_scan pre post : sunspec_map mem b0 l0 e0 -> [40000; 0; 50000] = pre ++ b0 :: post -> 
    (forall s, ok s -> Forall (fun a => mem_bytes (cur s) a 2 <> [83; 117; 110; 83]) pre) ->
    forall fuel s s0, (length l0 < fuel)%nat -> opens c s s0 -> ok s0 ->
    exists s2 s' ms, scan c lfuel types progress fuel s new_cdevice = (s', mkCD (Some b0) ms, Ok tt) /\
      Forall2 (model_for lfuel types) l0 ms /\ ok s2 /\ closes c s2 s'.
  Proof.
    intros (HS & HC) EB HPRE fuel s s0 HF HO HOK.
    assert (HA : Forall (fun a => 0 <= a /\ a + 3 <= 65536) (pre ++ b0 :: post)) by (rewrite <- EB; repeat constructor; lia).
    apply Forall_app in HA as [HA1 HA2]. inversion HA2 as [|? ? A1 A2]; subst.
    destruct (live_missed pre HA1 HPRE s0 HOK) as (s1 & HM & HO1).
    destruct (HRD s1 b0 3 HO1 ltac:(lia) ltac:(lia) ltac:(lia)) as (s2 & E2 & R2).
    assert (HID : header b0 l0 e0 (b0 + 2)).
    { clear - HC. inversion HC; subst.
      - constructor 3.
      - eapply h_entry; [left; reflexivity|left; lia]. }
    assert (EM : mem_bytes (cur s1) b0 3 = mem_bytes mem b0 3).
    { pose proof (HKEEP s1 HO1) as HK. rewrite !(mem_bytes_3 _ b0). rewrite (keeps_reg _ _ _ _ _ _ HK HID). f_equal.
      assert (E2R : forall mm, mem_bytes mm b0 2 = mem_bytes mm b0 1 ++ mem_bytes mm (b0 + 1) 1) by (intros mm; exact (mem_bytes_app mm b0 1 1 ltac:(lia) ltac:(lia))).
      rewrite !E2R.
      rewrite (keeps_reg _ _ _ _ _ b0 HK) by (constructor 1; now left). rewrite (keeps_reg _ _ _ _ _ (b0 + 1) HK) by (constructor 1; now right). reflexivity. }
    rewrite EM in E2.
    assert (ET : ztake 4 (mem_bytes mem b0 3) = [83; 117; 110; 83]).
    { rewrite mem_bytes_3, HS. reflexivity. }
    destruct (live_scan_loop (b0 + 2) l0 e0 HC ltac:(lia) eq_refl (fun x H => H) fuel s2 [] [] HF R2) as (s3 & ms & E3 & F3 & R3).
    assert (EBODY : scan_body c lfuel types progress fuel s0 new_cdevice = (s3, mkCD (Some b0) ms, Ok tt)).
    { unfold scan_body. cbn [cd_base cd_models new_cdevice]. change BASE_ADDRS with [40000; 0; 50000]. rewrite EB. rewrite (find_base_missed c s0 pre s1) by exact HM.
      rewrite (find_base_hit c s1 b0 s2 _ post E2 ET).
      replace (py_slice 4 6 (mem_bytes mem b0 3)) with (mem_bytes mem (b0 + 2) 1).
      2:{ rewrite mem_bytes_3, HS, mem_bytes_reg. reflexivity. }
      rewrite mem_bytes_reg, u16_pair. fold (reg mem (b0 + 2)). rewrite E3. reflexivity. }
    unfold scan, opens, closes in *. destruct (scl_connect c) as [[conn disc]|].
    - rewrite HO, EBODY. exists s3, (disc s3), ms. auto.
    - subst s0. exists s3, s3, ms. auto.
  Qed.
End Scan.

Section Read.
  Context {D : Type} (dv : mdev D) (ok : D -> Prop) (mom : D -> list memory -> D -> Prop).
  Hypothesis mom_nil : forall s, mom s [] s.
  Hypothesis mom_app : forall s ms s1 ms' s2, mom s ms s1 -> mom s1 ms' s2 -> mom s (ms ++ ms') s2.
  Hypothesis mom_read : forall s a n, ok s -> 0 <= a -> 0 <= n -> a + n <= 65536 ->
    exists s' ms d, dv_read dv s a n = (s', Ok (Some d)) /\ ok s' /\ mom s ms s' /\ zlen d = 2 * n /\
    (0 < n -> exists m1 rest d2, ms = m1 :: rest /\ d = mem_bytes m1 a (Z.min n 125) ++ d2 /\ (n <= 125 -> rest = [])).

  Lemma values_held_incl ms ms' m m' : incl ms ms' -> values_held ms m m' -> values_held ms' m m'.
  Proof.
    intros HI. unfold values_held. destruct (md_type m); [|auto]. intros (mm & H1 & H2 & H3). exists mm. split; [exact H1|]. split; [|auto].
    intros b p HB HPP. destruct (H2 b p HB HPP) as (mt & T1 & T2). exists mt. auto.
  Qed.
  Lemma readable_planned lfuel types id addr len m : readable lfuel types (id, addr, len) -> short_points types (id, addr, len) -> model_for lfuel types (id, addr, len) m ->
    md_type m = None \/ (0 < len /\ loaded addr len m /\ planned addr len (erase m)).
  Proof.
    intros HR HS HM. destruct (readable_loaded _ _ _ _ _ _ HR HM) as [HN|(HL & HLD & HE)]; [now left|].
    unfold readable in HR. destruct HR as [(e & HX)|(_ & HOK & mt & F & ET & HF & HG)].
    - left. destruct HM as (_ & _ & _ & H4). unfold model_load in H4. cbn [md_id new_model] in H4. rewrite HX in H4. destruct H4 as (_ & _ & H4). rewrite H4. reflexivity.
    - right. split; [exact HL|]. split; [exact HLD|]. destruct HM as (_ & _ & _ & H4). destruct (model_load lfuel types (new_model id addr len)) as [m' r] eqn:E. cbn [snd] in HOK. subst r m'.
      rewrite HE. exists lfuel, types, id, len, mt, F. destruct HG as (G1 & G2 & _). destruct (HS mt ET) as [S1 S2].
      split; [exact E|]. split; [exact ET|]. split; [left; split; [lia|reflexivity]|]. auto 10.
  Qed.
  Lemma live_device lfuel types l ms : Forall2 (model_for lfuel types) l ms -> Forall (readable lfuel types) l -> Forall (short_points types) l ->
    Forall (fun x => let '(id, addr, len) := x in 0 <= addr /\ addr + len <= 65536) l ->
    forall s, ok s -> exists s' ms' mems, device_read_points dv s ms = (s', ms', Ok tt) /\ mom s mems s' /\ Forall2 (values_held mems) ms ms'.
  Proof.
    induction 1 as [|x m l ms HM HMS IH]; intros HR HSP HB s HS.
    - exists s, [], []. split; [reflexivity|]. split; [apply mom_nil|constructor].
    - inversion HR as [|? ? R1 R2]; subst. inversion HB as [|? ? B1 B2]; subst. inversion HSP as [|? ? P1 P2]; subst. destruct x as [[id addr] len]. cbn [device_read_points].
      destruct (readable_planned _ _ _ _ _ _ R1 P1 HM) as [HN|(HL & HLD & HPL)].
      + unfold read_points. rewrite HN. destruct (IH R2 P2 B2 s HS) as (s' & ms' & mems & E & HS' & HA). rewrite E. exists s', (m :: ms'), mems.
        split; [reflexivity|]. split; [exact HS'|]. constructor; [|exact HA]. unfold values_held. now rewrite HN.
      + destruct B1 as [B1 B1'].
        destruct (live_model dv ok mom 0 65536 mom_app mom_read m addr len s HLD HPL HS B1 B1' HL) as (s1 & m' & mm & mems1 & E1 & HOK1 & HM1 & HMR & HH & HX).
        rewrite E1. destruct (IH R2 P2 B2 s1 HOK1) as (s' & ms' & mems & E & HS' & HA). rewrite E. exists s', (m' :: ms'), (mems1 ++ mems).
        split; [reflexivity|]. split; [eapply mom_app; eauto|]. constructor.
        * apply (values_held_incl mems1); [apply incl_appl, incl_refl|]. unfold values_held. pose proof (pl_type _ _ _ (loaded_placed _ _ _ HLD)) as HT.
          destruct (md_type m); [|congruence]. exists mm. split; [exact HMR|]. split; [exact HH|]. rewrite (pl_len _ _ _ (loaded_placed _ _ _ HLD)). intros G. rewrite (HX G). now left.
        * clear - HA. induction HA; constructor; [|assumption]. eapply values_held_incl; [|exact H]. apply incl_appr, incl_refl.
  Qed.
End Read.
