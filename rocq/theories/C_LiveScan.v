(** * C_LiveScan: property C107 (scanning and reading a device whose measurements change meanwhile). *)
From Coq Require Import String.
From Verif Require Import Py P_List M_Util M_Suns M_Mbmap M_Device S_Device P_Device C_Device C_Chunks M_Client S_Client P_Client P_Client2 P_Client3 P_Client4 M_Wire M_Rtu P_Rtu M_Tcp S_Tcp P_Tcp M_Scan S_Scan P_Scan S_Stack P_Stack P_Stack2 S_Live P_Live S_LiveScan P_LiveScan C_Live.
From Verif Require S_Modbus C_Rtu C_Tcp C_Stack C_Scan.

Lemma byte_view_bytes m : S_Modbus.mem_ok m -> byte_memory (byte_view m).
Proof.
  intros HM x. unfold byte_view, is_byte. pose proof (HM (x / 2)) as H. destruct (Z.even x); [|pose proof (Z.mod_pos_bound (m (x / 2)) 256); lia].
  split; [apply Z.div_pos; lia|]. apply Z.div_lt_upper_bound; lia.
Qed.
Lemma scan_addresses mem b l e : byte_memory mem -> 0 <= b -> sunspec_map mem b l e -> e < 65536 ->
  Forall (fun x => let '(id, addr, len) := x in 0 <= addr /\ addr + len <= 65536) l.
Proof.
  intros HB Hb (_ & HC) HE. destruct (chain_entries _ _ _ _ HB HC) as [H _]. eapply Forall_impl; [|exact H]. intros [[id addr] len] (H1 & H2 & H3). lia.
Qed.

(** ** Serial line: the scan finds the models of the map; reading the device then succeeds, and every value read was held
    by the device at one moment of this reading. *)
Theorem C107_rtu_scan_and_read :
  forall D (dev : sdev D) (mem : D -> S_Modbus.memory) slave, live_reads dev mem slave 3 -> (forall t, S_Modbus.mem_ok (mem t)) -> is_byte slave ->
  forall lfuel types, loads_end lfuel types ->
  forall b l e, constant_map (fun t => byte_view (mem t)) b l e -> e < 65536 -> Forall (readable lfuel types) l -> Forall (short_points types) l ->
  forall s fuel, (length l < fuel)%nat ->
  exists s1 ms s2 ms' ts,
    scan (rtu_client dev false true slave) lfuel types None fuel s new_cdevice = (s1, mkCD (Some b) ms, Ok tt) /\
    Forall2 (model_for lfuel types) l ms /\
    device_read_points (scl_dev (rtu_client dev false true slave)) s1 ms = (s2, ms', Ok tt) /\
    moments dev s1 ts s2 /\ Forall2 (values_held (map (fun t => byte_view (mem t)) ts)) ms ms'.
Proof.
  intros D dev mem slave HL HM HS lfuel types HLE b l e HCM HE HR HSP s fuel HF.
  destruct (HCM s) as [HMAP HFM]. destruct (C_Stack.first_marker_range _ _ HFM) as (Hb & pre & post & EB & _).
  assert (HB : forall t, byte_memory (byte_view (mem t))) by (intros t; apply byte_view_bytes, HM).
  destruct (live_scan (rtu_client dev false true slave) lfuel types None (fun _ => True) (fun t => byte_view (mem t))) with (mem := byte_view (mem s)) (b0 := b) (l0 := l) (e0 := e) (pre := pre) (post := post) (fuel := fuel) (s := s) (s0 := s)
    as (s0 & s1 & ms & E1 & F1 & _ & C1); try assumption; try exact I; try reflexivity.
  - intros t a n _ Ha Hn Han. destruct (rtu_live dev mem slave HL HM HS t a n Ha ltac:(lia) Han) as (s' & mems & d & E & _ & (ts & HT & EM) & HD & HX).
    exists s'. split; [|exact I]. rewrite E. do 2 f_equal. destruct (HX ltac:(lia)) as (m1 & rest & d2 & -> & ED & HRS). rewrite (HRS ltac:(lia)) in EM. symmetry in EM.
    apply one_of in EM as (t1 & -> & <-). inversion HT; subst. rewrite Z.min_l in * by lia. rewrite zlen_app, zlen_mem_bytes in HD by lia.
    destruct d2 as [|x d2]; [now rewrite app_nil_r|]. rewrite zlen_cons in HD. pose proof (zlen_nonneg d2). lia.
  - discriminate.
  - intros t _. apply same_map_keeps; auto. apply HCM.
  - apply HB.
  - intros t _. eapply first_marker_pre; [exact EB|apply HCM].
  - unfold closes in C1. cbn [scl_connect rtu_client] in C1. subst s1.
    destruct (live_device (scl_dev (rtu_client dev false true slave)) (fun _ => True) (rtu_mom dev mem)) with (lfuel := lfuel) (types := types) (l := l) (ms := ms) (s := s0)
      as (s2 & ms' & mems & E2 & (ts & HT & ->) & HV); try assumption; try exact I.
    + intros t. exists []. split; [constructor|reflexivity].
    + apply rtu_mom_app.
    + intros t a n _. apply (rtu_live dev mem slave HL HM HS).
    + eapply scan_addresses; [apply (HB s)|exact Hb|exact HMAP|exact HE].
    + exists s0, ms, s2, ms', ts. auto.
Qed.
Print Assumptions C107_rtu_scan_and_read.
(** ** TCP, from an open connection with nothing unread or from none: the same *)
Theorem C107_tcp_scan_and_read :
  forall D (srv : server D) (mem : D -> S_Modbus.memory) slave, tcp_live_reads srv mem slave 3 -> tcp_live_accepts srv -> (forall t, S_Modbus.mem_ok (mem t)) -> is_byte slave ->
  forall lfuel types, loads_end lfuel types ->
  forall b l e, constant_map (fun t => byte_view (mem t)) b l e -> e < 65536 -> Forall (readable lfuel types) l -> Forall (short_points types) l ->
  forall k s fuel, k = SConn [] \/ k = SNone -> (length l < fuel)%nat ->
  exists s1 ms s2 ms' ts,
    scan (tcp_client srv false slave) lfuel types None fuel (k, s) new_cdevice = (s1, mkCD (Some b) ms, Ok tt) /\
    Forall2 (model_for lfuel types) l ms /\
    device_read_points (scl_dev (tcp_client srv false slave)) s1 ms = (s2, ms', Ok tt) /\
    tcp_moments srv (snd s1) ts (snd s2) /\ Forall2 (values_held (map (fun t => byte_view (mem t)) ts)) ms ms'.
Proof.
  intros D srv mem slave HL HA HM HS lfuel types HLE b l e HCM HE HR HSP k s fuel HK HF.
  destruct (HCM s) as [HMAP HFM]. destruct (C_Stack.first_marker_range _ _ HFM) as (Hb & pre & post & EB & _).
  assert (HB : forall t, byte_memory (byte_view (mem t))) by (intros t; apply byte_view_bytes, HM).
  destruct (HA s) as (sc & EC).
  destruct (live_scan (tcp_client srv false slave) lfuel types None (fun st => fst st = SConn []) (fun st => byte_view (mem (snd st)))) with (mem := byte_view (mem s)) (b0 := b) (l0 := l) (e0 := e) (pre := pre) (post := post) (fuel := fuel) (s := (k, s)) (s0 := (SConn [], sc) : tcp (D := D))
    as (s0 & s1 & ms & E1 & F1 & _ & C1); try assumption; try reflexivity.
  - intros [k0 t] a n Hk Ha Hn Han. cbn [fst snd] in *. subst k0. cbn [scl_dev tcp_client tcp_dev dv_read]. change FUNC_READ_HOLDING with 3. change REQ_COUNT_MAX with 125.
    unfold tcp_read, with_connection. cbn [fst].
    destruct (tcp_live_loop srv mem slave HL HS (S (Z.to_nat n)) n a 0 [] t ltac:(lia) ltac:(lia) ltac:(lia) ltac:(lia)) as (s' & ts & d & E & Hm & HD & _ & HX). rewrite E.
    exists (SConn [], s'). split; [|reflexivity]. cbn [app]. do 3 f_equal. destruct (HX ltac:(lia)) as (rest & d2 & -> & -> & _). rewrite Z.add_0_r in *. rewrite Z.min_l in * by lia. rewrite zlen_app, zlen_mem_bytes in HD by lia.
    destruct d2 as [|x d2]; [now rewrite app_nil_r|]. rewrite zlen_cons in HD. pose proof (zlen_nonneg d2). lia.
  - discriminate.
  - intros t _. apply same_map_keeps; auto. apply HCM.
  - apply HB.
  - intros t _. eapply first_marker_pre; [exact EB|apply HCM].
  - unfold opens. cbn [scl_connect tcp_client]. unfold tcp_connect. cbn [snd]. now rewrite EC.
  - assert (HR1 : tcp_ready s1) by (unfold closes in C1; cbn [scl_connect tcp_client] in C1; subst s1; right; reflexivity).
    destruct (live_device (scl_dev (tcp_client srv false slave)) tcp_ready (tcp_mom srv mem)) with (lfuel := lfuel) (types := types) (l := l) (ms := ms) (s := s1)
      as (s2 & ms' & mems & E2 & (ts & HT & ->) & HV); try assumption.
    + intros t. exists []. split; [constructor|reflexivity].
    + apply tcp_mom_app.
    + intros t a n. apply (tcp_live srv mem slave HL HA HS).
    + eapply scan_addresses; [apply (HB s)|exact Hb|exact HMAP|exact HE].
    + exists s1, ms, s2, ms', ts. auto.
Qed.
Print Assumptions C107_tcp_scan_and_read.

(** ** A device with the map of two models, whose measurements change with every request *)
Definition scan_mem (t : bool) : S_Modbus.memory := fun a =>
  if a =? 40000 then 21365 else if a =? 40001 then 28243 else if a =? 40002 then 100 else if a =? 40003 then 156 else
  if a =? 40160 then 7 else if a =? 40161 then 2 else if a =? 40164 then 65535 else live_mem t a.
Definition scan_dev : sdev bool := fun t req => (negb t, snd (C_Rtu.ex_dev (scan_mem t) req)).
Definition scan_srv : server bool := mkServer bool (fun t => (t, true)) (fun t req => (negb t, snd (srv_send C_Tcp.ex_srv (scan_mem t) req))).
Definition scan_list : list (Z * Z * Z) := [(100, 40004, 156); (7, 40162, 2)].
Lemma scan_mem_ok t : S_Modbus.mem_ok (scan_mem t).
Proof. intros a. unfold scan_mem. repeat match goal with |- context [if ?c then _ else _] => destruct c; [lia|] end. apply live_mem_ok. Qed.
Lemma scan_dev_reads slave : live_reads scan_dev scan_mem slave 3.
Proof.
  intros s addr count H1 H2 H3. destruct (C_Rtu.C26_ex slave 3 ltac:(lia) (scan_mem s) addr count H1 H2 H3) as (s' & noise & sched & fin & A & B & _).
  exists (negb s), noise, sched, fin. split; [exact A|]. unfold scan_dev. rewrite B. reflexivity.
Qed.
Lemma scan_srv_reads slave : tcp_live_reads scan_srv scan_mem slave 3 /\ tcp_live_accepts scan_srv.
Proof.
  split; [|intros s; exists s; reflexivity]. intros s addr count H1 H2 H3. destruct (C_Tcp.C32_ex slave 3 ltac:(lia)) as [HS _].
  destruct (HS (scan_mem s) addr count H1 H2 H3) as (s' & sched & fin & A & _). exists (negb s), sched, fin. unfold scan_srv. cbn [srv_send]. rewrite A. reflexivity.
Qed.
Lemma scan_map : constant_map (fun t => byte_view (scan_mem t)) 40000 scan_list 40164.
Proof.
  intros t. split.
  - split; [destruct t; vm_compute; reflexivity|].
    assert (R : reg (byte_view (scan_mem t)) 40002 = 100 /\ reg (byte_view (scan_mem t)) 40003 = 156 /\ reg (byte_view (scan_mem t)) 40160 = 7 /\
      reg (byte_view (scan_mem t)) 40161 = 2 /\ reg (byte_view (scan_mem t)) 40164 = 65535) by (destruct t; vm_compute; auto 10).
    destruct R as (R1 & R2 & R3 & R4 & R5). revert R1 R2 R3 R4 R5. generalize (byte_view (scan_mem t)). intros m R1 R2 R3 R4 R5.
    assert (C2 : model_chain m 40164 [] 40164) by (constructor; exact R5).
    assert (C1 : model_chain m 40160 [(7, 40162, 2)] 40164).
    { rewrite <- R3, <- R4. apply (chain_model m 40160 [] 40164); [rewrite R3; lia|]. change (40160 + 1) with 40161. rewrite R4. exact C2. }
    unfold scan_list. rewrite <- R1 at 1. rewrite <- R2. apply (chain_model m 40002); [rewrite R1; lia|]. change (40002 + 1) with 40003. rewrite R2. exact C1.
  - exists [], [0; 50000]. split; [reflexivity|constructor].
Qed.
Lemma scan_readable : Forall (readable (Z.to_nat 65537) live_types) scan_list /\ Forall (short_points live_types) scan_list.
Proof.
  split; (constructor; [|constructor; [|constructor]]).
  - right. split; [lia|]. split; [vm_compute; reflexivity|]. exists live_mt, 6. split; [reflexivity|]. split; [right; split; [intros [H _]; discriminate|reflexivity]|].
    unfold good_def. split; [cbn; lia|]. split.
    + intros rt R ER EB. cbn in ER. apply Some_inj in ER. subst rt. vm_compute in EB. apply Ok_inj in EB. subst R. cbn. lia.
    + split; [repeat constructor|]. intros rt ER. cbn in ER. apply Some_inj in ER. subst rt. repeat constructor.
  - left. exists ESunSpec. reflexivity.
  - intros mt E. apply Ok_inj in E. subst mt. split; [repeat constructor; cbn; intros; lia|]. intros rt ER. cbn in ER. apply Some_inj in ER. subst rt. repeat constructor; cbn; intros; lia.
  - intros mt E. discriminate.
Qed.
Lemma live_loads_end : loads_end (Z.to_nat 65537) live_types.
Proof.
  apply C_Scan.C48_loads_end; [|intros id t H; unfold live_types in H; destruct (id =? 100); [|discriminate]; apply Ok_inj in H; subst t; split; intros ? [= <-]; vm_compute; discriminate|lia]. split.
  - intros id. unfold live_types. destruct (id =? 100); discriminate.
  - intros id mt rb r E ER EL. unfold live_types in E. destruct (id =? 100); [|discriminate]. apply Ok_inj in E. subst mt. cbn [mt_rep live_mt] in ER. apply Some_inj in ER. subst rb.
    vm_compute in EL. apply Ok_inj in EL. lia.
Qed.
Example C107_rtu_ex : forall s, exists s1 ms s2 ms' ts,
  scan (rtu_client scan_dev false true 1) (Z.to_nat 65537) live_types None 3 s new_cdevice = (s1, mkCD (Some 40000) ms, Ok tt) /\
  Forall2 (model_for (Z.to_nat 65537) live_types) scan_list ms /\
  device_read_points (scl_dev (rtu_client scan_dev false true 1)) s1 ms = (s2, ms', Ok tt) /\
  moments scan_dev s1 ts s2 /\ Forall2 (values_held (map (fun t => byte_view (scan_mem t)) ts)) ms ms'.
Proof.
  intros s. apply (C107_rtu_scan_and_read bool scan_dev scan_mem 1 (scan_dev_reads 1) scan_mem_ok ltac:(unfold is_byte; lia) _ _ live_loads_end 40000 scan_list 40164 scan_map).
  - lia.
  - apply scan_readable.
  - apply scan_readable.
  - cbn [scan_list List.length]. lia.
Qed.
Example C107_tcp_ex : forall s, exists s1 ms s2 ms' ts,
  scan (tcp_client scan_srv false 1) (Z.to_nat 65537) live_types None 3 (SNone, s) new_cdevice = (s1, mkCD (Some 40000) ms, Ok tt) /\
  Forall2 (model_for (Z.to_nat 65537) live_types) scan_list ms /\
  device_read_points (scl_dev (tcp_client scan_srv false 1)) s1 ms = (s2, ms', Ok tt) /\
  tcp_moments scan_srv (snd s1) ts (snd s2) /\ Forall2 (values_held (map (fun t => byte_view (scan_mem t)) ts)) ms ms'.
Proof.
  intros s. destruct (scan_srv_reads 1) as [L1 L2]. apply (C107_tcp_scan_and_read bool scan_srv scan_mem 1 L1 L2 scan_mem_ok ltac:(unfold is_byte; lia) _ _ live_loads_end 40000 scan_list 40164 scan_map).
  - lia.
  - apply scan_readable.
  - apply scan_readable.
  - now right.
  - cbn [scan_list List.length]. lia.
Qed.
(** what the scan and the reading of this device give: the models, and the values of the long one read at two moments *)
Example C107_ex_values :
  let '(s1, cd, r1) := scan (rtu_client scan_dev false true 1) 10 live_types None 10 false new_cdevice in
  let '(s2, ms, r2) := device_read_points (scl_dev (rtu_client scan_dev false true 1)) s1 (cd_models cd) in
  (cd_base cd, r1, r2, map md_id ms, map quantities ms) = (Some 40000, Ok tt, Ok tt, [100; 7], [[Some 10000; Some 10000; Some 1000]; []]).
Proof. vm_compute. reflexivity. Qed.
