(** * C_Scan: properties C48-C51 and C70-C72 (ClientDevice.scan). *)
From Coq Require Import String.
From Verif Require C_Client P_Tcp.
From Verif Require Import Py P_List M_Util M_Suns M_Mbmap M_Device C_Device M_Client S_Client M_Wire S_Modbus M_Rtu M_Tcp S_Tcp M_Scan S_Scan P_Scan P_Scan2 P_Scan3.

(** ** C48: scanning a device with a SunSpec map adds a model for every entry of the map, in order.
    [opens]/[closes]: connection of a TCP device; the first addresses tried may have failed. *)
Theorem C48_scan_finds_models :
  forall D (c : sclient D) rel lo hi wmax, implements (scl_dev c) rel lo hi wmax ->
  forall lfuel types progress, loads_end lfuel types -> (forall f h, progress = Some f -> f h = true) ->
  forall mem b l e pre post, byte_memory mem -> sunspec_map mem b l e -> [40000; 0; 50000] = pre ++ b :: post -> lo <= b -> e < hi ->
  forall fuel s s0 s1 cd, (length l < fuel)%nat -> cd_base cd = None -> opens c s s0 -> all_missed (scl_dev c) s0 pre s1 -> rel s1 mem ->
  exists s2 s' ms, scan c lfuel types progress fuel s cd = (s', mkCD (Some b) (cd_models cd ++ ms), Ok tt) /\
    Forall2 (model_for lfuel types) l ms /\ rel s2 mem /\ closes c s2 s'.
Proof. intros. eapply scan_map; eauto. Qed.
Print Assumptions C48_scan_finds_models.
(** the entries are determined by the registers: there is one reading of them *)
Theorem C48_chain_unique :
  forall mem a l e, model_chain mem a l e -> forall l' e', model_chain mem a l' e' -> l' = l /\ e' = e.
Proof.
  intros mem a l e H. induction H as [a E|a l e N H IH]; intros l' e' H'.
  - inversion H' as [? E'|? ? ? N' H1]; subst; [auto|contradiction].
  - inversion H' as [? E'|? ? ? N' H1]; subst; [contradiction|]. destruct (IH _ _ H1) as [-> ->]. auto.
Qed.
Print Assumptions C48_chain_unique.
(** a device with 20 registers from 40000 on: marker, model 100 (9 registers, known), model 7 (2 registers, unknown), end *)
Definition scan_image : bytes := [83; 117; 110; 83;  0; 100; 0; 9;  1; 44;  255; 255; 255; 156;  0; 0;  255; 254;  0; 3;   0; 7;  0; 0; 0; 9;
  0; 7; 0; 2; 1; 2; 3; 4;  255; 255; 0; 0].
Definition scan_dev (base : Z) : mdev bytes := mkDev bytes
  (fun s a n => if (base <=? a) && (a + n <=? base + zlen s / 2) then (s, Ok (Some (slice (2 * (a - base)) (2 * (a - base) + 2 * n) s)))
                else (s, Raise (EModbusException 2)))
  (fun s a d => (s, Raise (EModbusException 1))).
Definition scan_mem (base : Z) : memory := mem_store (fun _ => 0) base scan_image.
Example C48_ex :
  let '(s, cd, r) := scan (mkScl _ (scan_dev 50000) None) 10 ex_types None 10 scan_image new_cdevice in
  r = Ok tt /\ s = scan_image /\ cd_base cd = Some 50000 /\
  map (fun m => (md_id m, md_addr m, md_len m, md_error m, length (md_blocks m))) (cd_models cd)
    = [(100, 50004, 9, None, 2%nat); (7, 50015, 2, Some ESunSpec, 0%nat)].
Proof. vm_compute. auto 10. Qed.
Example C48_ex_hyp : sunspec_map (scan_mem 50000) 50000 [(100, 50004, 9); (7, 50015, 2)] 50017 /\ byte_memory (scan_mem 50000) /\
  implements mem_dev mem_eq 0 65536 125 /\ loads_end (Z.to_nat 65537) ex_types.
Proof.
  split; [|split; [|split]].
  - split; [reflexivity|]. assert (E1 : reg (scan_mem 50000) 50002 = 100) by reflexivity. assert (E2 : reg (scan_mem 50000) 50003 = 9) by reflexivity.
    assert (E3 : reg (scan_mem 50000) 50013 = 7) by reflexivity. assert (E4 : reg (scan_mem 50000) 50014 = 2) by reflexivity.
    replace ((100, 50004, 9)) with (reg (scan_mem 50000) 50002, 50002 + 2, reg (scan_mem 50000) (50002 + 1)) by (rewrite E1; reflexivity).
    change (50000 + 2) with 50002. apply chain_model; [rewrite E1; discriminate|]. change (50002 + 1) with 50003. rewrite E2. change (50002 + 2 + 9) with 50013.
    replace ((7, 50015, 2)) with (reg (scan_mem 50000) 50013, 50013 + 2, reg (scan_mem 50000) (50013 + 1)) by (rewrite E3; reflexivity).
    apply chain_model; [rewrite E3; discriminate|]. change (50013 + 1) with 50014. rewrite E4. change (50013 + 2 + 2) with 50017.
    apply chain_end. reflexivity.
  - intros x. unfold scan_mem, mem_store. destruct (_ && _) eqn:E; [|unfold is_byte; lia].
    apply P_Rtu.znth_byte. repeat constructor; unfold is_byte; lia.
  - apply C_Client.mem_dev_implements.
  - apply loads_bounded; [|intros id t H; unfold ex_types in H; destruct (id =? 100); [|discriminate]; apply Ok_inj in H; subst t; split; intros ? [= <-]; vm_compute; discriminate|lia].
    split; [intros id; unfold ex_types; destruct (id =? 100); discriminate|]. intros id mt rb r H1 H2 H3. unfold ex_types in H1. destruct (id =? 100); [|discriminate].
    apply Ok_inj in H1. subst mt. apply Some_inj in H2. subst rb. vm_compute in H3. apply Ok_inj in H3. lia.
Qed.
(** the definitions for which this holds: no empty repeating blocks, no negative length, at most 65535 registers *)
Theorem C48_loads_end :
  forall types lfuel, good_types types ->
  (forall id t, types id = Ok t -> (forall L, mt_len t = Some L -> L <= 65535) /\ (forall F, base_int (bt_len (mt_fixed t)) = Ok F -> 0 <= F)) ->
  65537 <= Z.of_nat lfuel -> loads_end lfuel types.
Proof. exact loads_bounded. Qed.
Print Assumptions C48_loads_end.

(** ** C49: scanning ends, whatever an RTU or TCP device (or line, or network) answers.  The definitions in use must
    not have repeating blocks of length 0 (C41).  [byte_line], [byte_server]: what arrives are bytes. *)
Theorem C49_rtu_scan_terminates :
  forall types, good_types types -> exists n, forall D (dev : sdev D) trace is_open slave progress lfuel fuel s cd, byte_line dev ->
  (n <= lfuel)%nat -> (n <= fuel)%nat -> snd (scan (rtu_client dev trace is_open slave) lfuel types progress fuel s cd) <> Raise EFuel.
Proof.
  intros types HT. destruct (loads_uniform types HT) as [n0 Hn]. exists (Nat.max n0 (Z.to_nat 65538)).
  intros D dev trace is_open slave progress lfuel fuel s cd HB H1 H2.
  assert (H3 : 65537 < Z.of_nat fuel) by lia. assert (H4 : (n0 <= lfuel)%nat) by lia. clear H1 H2.
  unfold scan. cbn [scl_connect rtu_client].
  destruct (scan_body _ lfuel types progress fuel s cd) as [[s' cd'] r] eqn:E. cbn [snd].
  eapply scan_body_ends in E; [exact E|apply rtu_well_behaved; exact HB|intros; apply Hn; assumption|exact I|exact H3].
Qed.
Print Assumptions C49_rtu_scan_terminates.
Theorem C49_tcp_scan_terminates :
  forall types, good_types types -> exists n, forall D (srv : server D) trace slave progress lfuel fuel st cd, byte_server srv ->
  (n <= lfuel)%nat -> (n <= fuel)%nat -> snd (scan (tcp_client srv trace slave) lfuel types progress fuel st cd) <> Raise EFuel.
Proof.
  intros types HT. destruct (loads_uniform types HT) as [n0 Hn]. exists (Nat.max n0 (Z.to_nat 65538)).
  intros D srv trace slave progress lfuel fuel st cd HB H1 H2.
  assert (H3 : 65537 < Z.of_nat fuel) by lia. assert (H4 : (n0 <= lfuel)%nat) by lia. clear H1 H2.
  unfold scan. cbn [scl_connect tcp_client]. unfold tcp_connect. destruct (srv_connect srv (snd st)) as [d' []]; [|discriminate].
  change (mkScl tcp (tcp_dev srv trace slave) (Some (tcp_connect srv, tcp_disconnect))) with (tcp_client srv trace slave).
  destruct (scan_body _ lfuel types progress fuel _ cd) as [[s' cd'] r] eqn:E.
  eapply scan_body_ends in E; [|apply tcp_well_behaved; exact HB|intros; apply Hn; assumption|constructor|exact H3].
  destruct r; [discriminate|exact E].
Qed.
Print Assumptions C49_tcp_scan_terminates.
(** a device that reports one model after the other for ever: the scan ends with struct.error when the address
    leaves the address space *)
Definition endless : mdev unit := mkDev unit
  (fun s a n => if 65535 <? a then (s, Raise EStruct) else (s, Ok (Some (if n =? 3 then [83; 117; 110; 83; 0; 1] else if Z.even a then [0; 1] else [255; 0])))) (fun s _ _ => (s, Ok tt)).
Example C49_ex : good_types ex_types /\
  let '(s, cd, r) := scan (mkScl _ endless None) 10 (fun _ => Raise ESunSpec) None 500 tt new_cdevice in
  r = Raise EStruct /\ length (cd_models cd) = 1%nat.
Proof.
  split.
  - split; [intros id; unfold ex_types; destruct (id =? 100); discriminate|]. intros id mt rb r H1 H2 H3. unfold ex_types in H1. destruct (id =? 100); [|discriminate].
    apply Ok_inj in H1. subst mt. apply Some_inj in H2. subst rb. vm_compute in H3. apply Ok_inj in H3. lia.
  - vm_compute. auto.
Qed.

(** ** C50: the first base address with the marker.  If scan settles on [b], the addresses before it failed (with a
    Modbus error or other data) and the answer at [b] starts with SunS; and conversely. *)
Theorem C50_first_marker_partial :
  forall D (c : sclient D) lfuel types progress fuel s s0 cd b, cd_base cd = None -> opens c s s0 ->
  cd_base (snd (fst (scan c lfuel types progress fuel s cd))) = Some b <->
  exists pre post s1 s2 d, [40000; 0; 50000] = pre ++ b :: post /\ all_missed (scl_dev c) s0 pre s1 /\
    dv_read (scl_dev c) s1 b 3 = (s2, Ok (Some d)) /\ ztake 4 d = [83; 117; 110; 83].
Proof.
  intros D c lfuel types progress fuel s s0 cd b HN HO.
  assert (ES : cd_base (snd (fst (scan c lfuel types progress fuel s cd))) = cd_base (snd (fst (scan_body c lfuel types progress fuel s0 cd)))).
  { unfold scan, opens in *. destruct (scl_connect c) as [[conn disc]|].
    - rewrite HO. destruct (scan_body c lfuel types progress fuel s0 cd) as [[s2 cd'] []]; reflexivity.
    - subst s0. reflexivity. }
  rewrite ES. unfold scan_body. rewrite HN. split.
  - destruct (find_base c s0 BASE_ADDRS) as [s1 [[[a d]|]|x]] eqn:E; [|cbn [fst snd]; congruence|cbn [fst snd]; congruence].
    intros H. assert (a = b) as ->.
    { destruct (data_to_u16 _); [|cbn [fst snd cd_base] in H; congruence]. destruct (scan_loop _ _ _ _ _ _ _ _ _ _) as [[s2 ms] r]. cbn [fst snd cd_base] in H. congruence. }
    apply find_base_sound in E as (pre & post & s2 & E1 & E2 & E3 & E4). exists pre, post, s2, s1, d. auto.
  - intros (pre & post & s1 & s2 & d & E1 & E2 & E3 & E4). unfold BASE_ADDRS. rewrite E1, (find_base_missed c s0 pre s1) by exact E2. rewrite (find_base_hit c s1 b s2 d post E3 E4).
    destruct (data_to_u16 _); [|reflexivity]. destruct (scan_loop _ _ _ _ _ _ _ _ _ _) as [[s3 ms] r]. reflexivity.
Qed.
Print Assumptions C50_first_marker_partial.
(** if there is no map at any of the addresses: SunSpecClientError, and nothing is added *)
Theorem C50_no_map_partial :
  forall D (c : sclient D) lfuel types progress fuel s s0 s1 cd, cd_base cd = None -> opens c s s0 ->
  all_missed (scl_dev c) s0 [40000; 0; 50000] s1 ->
  scan c lfuel types progress fuel s cd = (s1, cd, Raise ESunSpecClient).
Proof.
  intros D c lfuel types progress fuel s s0 s1 cd HN HO HM. apply find_base_none in HM. fold BASE_ADDRS in HM.
  assert (E : scan_body c lfuel types progress fuel s0 cd = (s1, cd, Raise ESunSpecClient)) by (unfold scan_body; now rewrite HN, HM).
  unfold scan, opens in *. destruct (scl_connect c) as [[conn disc]|]; [now rewrite HO, E|]. now subst s0.
Qed.
Print Assumptions C50_no_map_partial.
(** refuted for mapped devices: a map file whose registers start at 50000 is not found, the error for address
    40000 (ModbusMapError) ends the scan *)
Definition map_50000 : mbmap := mkMap 3 (BInt 50000) None None None None [mkRegs (NI 0) (NI (zlen scan_image / 2)) (Some scan_image) ACCESS_R].
Theorem C50_mapped_device_refuted :
  map_read map_50000 50000 2 0 = Ok [83; 117; 110; 83] /\
  scan map_client 10 ex_types None 10 map_50000 new_cdevice = (map_50000, new_cdevice, Raise EModbusMap).
Proof. vm_compute. auto. Qed.
Print Assumptions C50_mapped_device_refuted.
(** refuted for an RTU device that answers at 40000 with an empty (but valid) response: TypeError *)
Theorem C50_empty_answer_refuted :
  let dev : sdev unit := fun s req => (s, Some (mkWire (if eqb_list req (read_frame 1 3 40000 3) then with_crc [1; 3; 0] else with_crc ([1; 3; 6; 83; 117; 110; 83; 255; 255])) [] WEmpty)) in
  scan (rtu_client dev false true 1) 10 ex_types None 10 tt new_cdevice = (tt, new_cdevice, Raise EType) /\
  rtu_read dev false true 1 0 3 3 125 tt = (tt, Ok (Some [83; 117; 110; 83; 255; 255])).
Proof. vm_compute. auto. Qed.
Print Assumptions C50_empty_answer_refuted.

(** ** C51: refuted: every scan after a successful one raises UnboundLocalError *)
Theorem C51_second_scan_refuted :
  forall D (c : sclient D) lfuel types progress fuel s cd s' cd', scan c lfuel types progress fuel s cd = (s', cd', Ok tt) ->
  forall lfuel' types' progress' fuel' s1 s2, opens c s1 s2 ->
  scan c lfuel' types' progress' fuel' s1 cd' = (s2, cd', Raise EUnbound).
Proof.
  intros D c lfuel types progress fuel s cd s' cd' H lfuel' types' progress' fuel' s1 s2 HO.
  assert (HB : exists b, cd_base cd' = Some b).
  { assert (HX : forall s s' cd', scan_body c lfuel types progress fuel s cd = (s', cd', Ok tt) -> exists b, cd_base cd' = Some b).
    { clear. intros s s' cd' H. unfold scan_body in H. destruct (cd_base cd); [discriminate|].
      destruct (find_base c s BASE_ADDRS) as [s1 [[[a d]|]|x]]; try discriminate. destruct (data_to_u16 _); [|discriminate].
      destruct (scan_loop _ _ _ _ _ _ _ _ _ _) as [[s2 ms] r]. apply pair_equal_spec in H as [H _]. apply pair_equal_spec in H as [_ <-]. exists a. reflexivity. }
    unfold scan in H. destruct (scl_connect c) as [[conn disc]|]; [|eapply HX; exact H].
    destruct (conn s) as [s3 []]; [|discriminate]. destruct (scan_body c lfuel types progress fuel s3 cd) as [[s4 cd4] [u|]] eqn:E; [|discriminate].
    apply pair_equal_spec in H as [H _]. apply pair_equal_spec in H as [_ <-]. destruct u. eapply HX; exact E. }
  destruct HB as [b HB]. unfold scan, opens in *. destruct (scl_connect c) as [[conn disc]|].
  - rewrite HO. unfold scan_body. now rewrite HB.
  - subst s2. unfold scan_body. now rewrite HB.
Qed.
Print Assumptions C51_second_scan_refuted.
(** a scan that found no map leaves the device as it was, so that scanning it again works as the first time *)
Theorem C51_rescan_after_no_map_partial :
  forall D (c : sclient D) lfuel types progress fuel s cd s' cd' r, scan c lfuel types progress fuel s cd = (s', cd', r) ->
  cd_base cd' = None -> cd' = cd.
Proof.
  intros D c lfuel types progress fuel s cd s' cd' r H HB.
  assert (HX : forall s s' cd' r, scan_body c lfuel types progress fuel s cd = (s', cd', r) -> cd_base cd' = None -> cd' = cd).
  { clear. intros s s' cd' r H HB. unfold scan_body in H. destruct (cd_base cd); [congruence|].
    destruct (find_base c s BASE_ADDRS) as [s1 [[[a d]|]|x]]; try congruence. destruct (data_to_u16 _); [|apply pair_equal_spec in H as [H _]; apply pair_equal_spec in H as [_ <-]; discriminate].
    destruct (scan_loop _ _ _ _ _ _ _ _ _ _) as [[s2 ms] r2]. apply pair_equal_spec in H as [H _]. apply pair_equal_spec in H as [_ <-]. discriminate. }
  unfold scan in H. destruct (scl_connect c) as [[conn disc]|]; [|eapply HX; eauto].
  destruct (conn s) as [s3 []]; [|congruence]. destruct (scan_body c lfuel types progress fuel s3 cd) as [[s4 cd4] []] eqn:E; apply pair_equal_spec in H as [H _]; apply pair_equal_spec in H as [_ <-]; eapply HX; eauto.
Qed.
Print Assumptions C51_rescan_after_no_map_partial.
Example C51_ex :
  let c := mkScl _ (scan_dev 40000) None in
  let '(s, cd, r) := scan c 10 ex_types None 10 scan_image new_cdevice in
  r = Ok tt /\ scan c 10 ex_types None 10 s cd = (s, cd, Raise EUnbound).
Proof. vm_compute. auto. Qed.

(** ** C70: refuted: scanning does not leave the TCP connection as it was.  A failing scan leaves the connection it made
    open ... *)
Theorem C70_failed_scan_stays_connected_refuted :
  forall D (srv : server D) trace slave lfuel types progress fuel st cd st' cd' e, snd (srv_connect srv (snd st)) = true ->
  scan (tcp_client srv trace slave) lfuel types progress fuel st cd = (st', cd', Raise e) -> connected (fst st') = true.
Proof.
  intros D srv trace slave lfuel types progress fuel st cd st' cd' e HC H.
  unfold scan in H. cbn [scl_connect tcp_client] in H. unfold tcp_connect in H. destruct (srv_connect srv (snd st)) as [d' b]. cbn [snd] in HC. subst b.
  fold (tcp_client srv trace slave) in H.
  assert (HI : forall s a n s' r, connected (fst s) = true -> dv_read (scl_dev (tcp_client srv trace slave)) s a n = (s', r) -> connected (fst s') = true).
  { intros s a n s' r HS E. cbn [scl_dev tcp_client tcp_dev dv_read] in E.
    destruct (tcp_read srv slave REQ_COUNT_MAX trace a n FUNC_READ_HOLDING s) as [s2 r2] eqn:E2. apply P_Tcp.tcp_read_sock in E2.
    destruct (fst s); try discriminate. destruct r2; apply pair_equal_spec in E as [<- _]; exact E2. }
  pose proof (scan_body_inv (tcp_client srv trace slave) (fun s => connected (fst s) = true) lfuel types progress HI fuel (SConn [], d') cd eq_refl) as HB.
  change (mkScl tcp (tcp_dev srv trace slave) (Some (tcp_connect srv, tcp_disconnect))) with (tcp_client srv trace slave) in H.
  destruct (scan_body (tcp_client srv trace slave) lfuel types progress fuel (SConn [], d') cd) as [[s2 cd2] [u|x]]; [discriminate|].
  apply pair_equal_spec in H as [H _]. apply pair_equal_spec in H as [<- _]. exact HB.
Qed.
Print Assumptions C70_failed_scan_stays_connected_refuted.
(** ... and a successful one always ends unconnected, also if the program had connected before *)
Theorem C70_successful_scan_disconnects_refuted :
  forall D (srv : server D) trace slave lfuel types progress fuel st cd st' cd',
  scan (tcp_client srv trace slave) lfuel types progress fuel st cd = (st', cd', Ok tt) -> fst st' = SNone.
Proof.
  intros D srv trace slave lfuel types progress fuel st cd st' cd' H. unfold scan in H. cbn [scl_connect tcp_client] in H.
  destruct (tcp_connect srv st) as [s1 []]; [|discriminate]. destruct (scan_body _ _ _ _ _ _ _) as [[s2 cd2] []]; [|discriminate].
  apply pair_equal_spec in H as [H _]. apply pair_equal_spec in H as [<- _]. reflexivity.
Qed.
Print Assumptions C70_successful_scan_disconnects_refuted.
(** a refused connection is reported as ModbusClientError, not as SunSpecClientError, and makes later reads fail (C35) *)
Theorem C70_connect_error_refuted :
  forall D (srv : server D) trace slave lfuel types progress fuel k d d' cd, srv_connect srv d = (d', false) ->
  scan (tcp_client srv trace slave) lfuel types progress fuel (k, d) cd = ((SDead, d'), cd, Raise EModbusClient).
Proof. intros D srv trace slave lfuel types progress fuel k d d' cd HC. unfold scan. cbn [scl_connect tcp_client]. unfold tcp_connect. cbn [snd]. now rewrite HC. Qed.
Print Assumptions C70_connect_error_refuted.
(** a server that answers the requests for register 40000.. with SunS, an empty map, or closes the connection after that *)
Definition tiny_srv (closing : bool) : server unit := {|
  srv_connect := fun s => (s, true);
  srv_send := fun s req => (s, Some (mkWire (if closing then [] else mbap ([1; 3; 6; 83; 117; 110; 83; 255; 255])) [] WEmpty)) |}.
Example C70_ex :
  scan (tcp_client (tiny_srv true) false 1) 10 ex_types None 10 (SNone, tt) new_cdevice = ((SConn [], tt), new_cdevice, Raise ESunSpecClient) /\
  scan (tcp_client (tiny_srv false) false 1) 10 ex_types None 10 (SConn [], tt) new_cdevice = ((SNone, tt), mkCD (Some 40000) [], Ok tt).
Proof. vm_compute. auto. Qed.

(** ** C71: the callback is given the ids of the models in order; if it refuses one, the scan ends with
    SunSpecClientError and the device has the models before that one. *)
Theorem C71_callback_stops_scan :
  forall D (c : sclient D) rel lo hi wmax, implements (scl_dev c) rel lo hi wmax ->
  forall lfuel types f, loads_end lfuel types ->
  forall mem b l x l2 e pre post, byte_memory mem -> sunspec_map mem b (l ++ x :: l2) e -> [40000; 0; 50000] = pre ++ b :: post -> lo <= b -> e < hi ->
  (forall k, (0 < k <= length l)%nat -> f (ids (firstn k l)) = true) -> f (ids (l ++ [x])) = false ->
  forall fuel s s0 s1 cd, (length l < fuel)%nat -> cd_base cd = None -> opens c s s0 -> all_missed (scl_dev c) s0 pre s1 -> rel s1 mem ->
  exists s2 ms, scan c lfuel types (Some f) fuel s cd = (s2, mkCD (Some b) (cd_models cd ++ ms), Raise ESunSpecClient) /\
    Forall2 (model_for lfuel types) l ms /\ rel s2 mem.
Proof.
  intros D c rel lo hi wmax HI lfuel types f HLE mem b l x l2 e pre post HB (HS & HC) EB HLO HHI HF1 HF2 fuel s s0 s1 cd HF HN HO HM HR.
  pose proof (chain_le _ _ _ _ HB HC) as HE.
  destruct (impl_read _ _ _ _ _ HI s1 mem b 3 HR HLO ltac:(lia) ltac:(lia)) as (s2 & E2 & R2).
  assert (ET : ztake 4 (mem_bytes mem b 3) = [83; 117; 110; 83]) by (rewrite mem_bytes_3, HS; reflexivity).
  destruct (scan_loop_stop c lfuel types f rel lo hi wmax HI HLE mem (b + 2) l e x l2 HB HC ltac:(lia) HHI fuel s2 [] (cd_models cd) HF R2 HF1 HF2) as (s3 & ms & E3 & F3 & R3).
  assert (EBODY : scan_body c lfuel types (Some f) fuel s0 cd = (s3, mkCD (Some b) (cd_models cd ++ ms), Raise ESunSpecClient)).
  { unfold scan_body. rewrite HN. unfold BASE_ADDRS. rewrite EB. rewrite (find_base_missed c s0 pre s1) by exact HM.
    rewrite (find_base_hit c s1 b s2 _ post E2 ET).
    replace (py_slice 4 6 (mem_bytes mem b 3)) with (mem_bytes mem (b + 2) 1) by (rewrite mem_bytes_3, HS, mem_bytes_reg; reflexivity).
    rewrite mem_bytes_reg, u16_pair. fold (reg mem (b + 2)). rewrite E3. reflexivity. }
  exists s3, ms. split; [|split; [exact F3|exact R3]]. unfold scan, opens in *. destruct (scl_connect c) as [[conn disc]|]; [now rewrite HO, EBODY|]. now subst s0.
Qed.
Print Assumptions C71_callback_stops_scan.
Example C71_ex :
  let '(s, cd, r) := scan (mkScl _ (scan_dev 0) None) 10 ex_types (Some (fun h => negb (eqb_list h [100; 7]))) 10 scan_image new_cdevice in
  r = Raise ESunSpecClient /\ map md_id (cd_models cd) = [100].
Proof. vm_compute. auto. Qed.

(** ** C72: scanning and reading points send no write to the device. *)
Theorem C72_scan_does_not_write :
  forall D (c : sclient D) lfuel types progress fuel s cd,
  scan (log_client c) lfuel types progress fuel (s, []) cd
  = let '(s', cd', r) := scan c lfuel types progress fuel s cd in ((s', []), cd', r).
Proof. intros. apply log_scan. Qed.
Print Assumptions C72_scan_does_not_write.
Theorem C72_read_does_not_write :
  forall D (dv : mdev D) s models,
  device_read_points (with_write_log dv) (s, []) models = let '(s', models', r) := device_read_points dv s models in ((s', []), models', r).
Proof. intros. apply log_device_read_points. Qed.
Print Assumptions C72_read_does_not_write.
(** the log does record writes *)
Example C72_ex : snd (fst (dv_write (with_write_log (scan_dev 0)) (scan_image, []) 3 [0; 1])) = [(3, [0; 1])].
Proof. reflexivity. Qed.
