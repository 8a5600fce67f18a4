(** * C_Stack: properties C73, C74: scanning, reading and writing through each kind of Modbus device.

    The device side is only described by its protocol: [serves_reads]/[serves_writes] (S_Modbus, RTU),
    [tcp_serves_reads]/[tcp_serves_writes]/[tcp_accepts] (S_Tcp), [map_holds] (S_Stack, a mapped device). *)
From Coq Require Import String ZifyBool.
From Verif Require C_Scale C_Scan C_Client C_Device C_Rtu C_Tcp C_Mbmap.
From Verif Require Import Py P_List M_Util M_Suns M_Wire M_Rtu M_Tcp S_Tcp M_Mbmap S_Mbmap M_Device M_Client S_Client M_Scan S_Scan S_Stack P_Stack P_Stack2.

Lemma first_marker_range mem b : first_marker mem b -> 0 <= b /\ exists pre post, [40000; 0; 50000] = pre ++ b :: post /\
  Forall (fun a => 0 <= a /\ a + 3 <= 65536 /\ mem_bytes mem a 2 <> [83; 117; 110; 83]) pre.
Proof.
  intros (pre & post & E & HF). assert (HA : Forall (fun a => 0 <= a <= 50000) (pre ++ b :: post)) by (rewrite <- E; repeat constructor; lia).
  apply Forall_app in HA as [H1 H2]. inversion H2; subst. split; [lia|]. exists pre, post. split; [exact E|].
  rewrite Forall_forall in *. intros a Ha. specialize (H1 a Ha). specialize (HF a Ha). cbv beta in *. repeat split; try lia. exact HF.
Qed.

(** the connection frames of the three clients *)
Lemma rtu_opening {D} (dev : sdev D) slave (rel : D -> memory -> Prop) s mem : rel s mem -> exists s0, opens (rtu_client dev false true slave) s s0 /\ rel s0 mem.
Proof. intros H. exists s. split; [reflexivity|exact H]. Qed.
Lemma rtu_closing {D} (dev : sdev D) slave (rel : D -> memory -> Prop) s s' mem : rel s mem -> closes (rtu_client dev false true slave) s s' -> rel s' mem.
Proof. intros H E. unfold closes in E. cbn in E. now subst. Qed.
Lemma tcp_opening {D} (srv : server D) (regs : D -> S_Modbus.memory) slave s mem : tcp_accepts srv regs -> tcp_rel regs s mem ->
  exists s0, opens (tcp_client srv false slave) s s0 /\ tcp_rel regs s0 mem.
Proof.
  intros HA [_ HR]. destruct (HA (snd s)) as (s1 & E & Hm). exists (SConn [], s1). split; [unfold opens; cbn [scl_connect tcp_client]; unfold tcp_connect; now rewrite E|].
  split; [now left|]. intros x. cbn [snd]. rewrite HR. unfold byte_view. now rewrite Hm.
Qed.
Lemma tcp_closing {D} (srv : server D) (regs : D -> S_Modbus.memory) slave s s' mem : tcp_rel regs s mem -> closes (tcp_client srv false slave) s s' -> tcp_rel regs s' mem.
Proof. intros [_ HR] E. unfold closes in E. cbn [scl_connect tcp_client] in E. subst s'. split; [now right|exact HR]. Qed.

(** ** C73: scan finds a model for every entry of the device's register map, and reading then gives every point
    the value that its registers decode to.  [bytes_of]: the registers as bytes. *)
Theorem C73_rtu_scan_and_read :
  forall D (dev : sdev D) (regs : D -> S_Modbus.memory) slave lim,
  S_Modbus.serves_reads dev regs slave 3 -> S_Modbus.serves_writes dev regs slave lim -> (forall s, S_Modbus.mem_ok (regs s)) -> is_byte slave -> lim <= 125 ->
  forall lfuel types, loads_end lfuel types ->
  forall s b l e fuel, let mem := byte_view (regs s) in
  byte_memory mem -> sunspec_map mem b l e -> first_marker mem b -> e < 65536 -> Forall (readable lfuel types) l -> (length l < fuel)%nat ->
  exists s1 ms s2 ms',
    scan (rtu_client dev false true slave) lfuel types None fuel s new_cdevice = (s1, mkCD (Some b) ms, Ok tt) /\
    Forall2 (model_for lfuel types) l ms /\
    device_read_points (scl_dev (rtu_client dev false true slave)) s1 ms = (s2, ms', Ok tt) /\
    Forall2 (values_read mem) ms ms'.
Proof.
  intros D dev regs slave lim H1 H2 H3 H4 H5 lfuel types HLE s b l e fuel mem HB HM HF HE HR HN. destruct (first_marker_range _ _ HF) as [Hb HPRE].
  destruct (end_to_end (rtu_client dev false true slave) (rtu_rel regs) 0 65536 lim (rtu_implements_small dev regs slave lim H1 H2 H3 H4 H5)
    (rtu_opening dev slave _) (rtu_closing dev slave _) lfuel types None HLE ltac:(discriminate) mem b l e fuel s (fun x => eq_refl) HB HM HPRE Hb HE HR HN)
    as (s1 & ms & s2 & ms' & A & B & C & E & _). exists s1, ms, s2, ms'. auto.
Qed.
Print Assumptions C73_rtu_scan_and_read.
(** on TCP, from an open connection with nothing unread or from none *)
Theorem C73_tcp_scan_and_read :
  forall D (srv : server D) (regs : D -> S_Modbus.memory) slave lim,
  tcp_serves_reads srv regs slave 3 -> tcp_serves_writes srv regs slave lim -> tcp_accepts srv regs -> is_byte slave -> lim <= 125 ->
  forall lfuel types, loads_end lfuel types ->
  forall k s b l e fuel, let mem := byte_view (regs s) in k = SConn [] \/ k = SNone ->
  byte_memory mem -> sunspec_map mem b l e -> first_marker mem b -> e < 65536 -> Forall (readable lfuel types) l -> (length l < fuel)%nat ->
  exists s1 ms s2 ms',
    scan (tcp_client srv false slave) lfuel types None fuel (k, s) new_cdevice = (s1, mkCD (Some b) ms, Ok tt) /\
    Forall2 (model_for lfuel types) l ms /\
    device_read_points (scl_dev (tcp_client srv false slave)) s1 ms = (s2, ms', Ok tt) /\
    Forall2 (values_read mem) ms ms'.
Proof.
  intros D srv regs slave lim H1 H2 H3 H4 H5 lfuel types HLE k s b l e fuel mem HK HB HM HF HE HR HN. destruct (first_marker_range _ _ HF) as [Hb HPRE].
  destruct (end_to_end (tcp_client srv false slave) (tcp_rel regs) 0 65536 lim (tcp_implements srv regs slave lim H1 H2 H3 H4 H5)
    (fun s mem => tcp_opening srv regs slave s mem H3) (tcp_closing srv regs slave) lfuel types None HLE ltac:(discriminate) mem b l e fuel (k, s) (conj HK (fun x => eq_refl)) HB HM HPRE Hb HE HR HN)
    as (s1 & ms & s2 & ms' & A & B & C & E & _). exists s1, ms, s2, ms'. auto.
Qed.
Print Assumptions C73_tcp_scan_and_read.
(** a mapped device whose map has the registers from 40000 to the end of its SunSpec map (elsewhere: C50_mapped_device_refuted) *)
Theorem C73_mapped_scan_and_read :
  forall lfuel types, loads_end lfuel types ->
  forall m mem l e fuel, map_holds 40000 (e + 1) m mem ->
  byte_memory mem -> sunspec_map mem 40000 l e -> Forall (readable lfuel types) l -> (length l < fuel)%nat ->
  exists m1 ms m2 ms',
    scan map_client lfuel types None fuel m new_cdevice = (m1, mkCD (Some 40000) ms, Ok tt) /\
    Forall2 (model_for lfuel types) l ms /\
    device_read_points (scl_dev map_client) m1 ms = (m2, ms', Ok tt) /\
    Forall2 (values_read mem) ms ms'.
Proof.
  intros lfuel types HLE m mem l e fuel HH HB HM HR HN.
  destruct (end_to_end map_client (map_holds 40000 (e + 1)) 40000 (e + 1) 0 (map_implements _ _ _)
    (fun s mem H => ex_intro _ s (conj eq_refl H)) (fun s s' mem H E => eq_ind_r (fun x => map_holds 40000 (e + 1) x mem) H E) lfuel types None HLE ltac:(discriminate)
    mem 40000 l e fuel m HH HB HM (ex_intro _ [] (ex_intro _ [0; 50000] (conj eq_refl (Forall_nil _)))) ltac:(lia) ltac:(lia) HR HN)
    as (s1 & ms & s2 & ms' & A & B & C & E & _). exists s1, ms, s2, ms'. auto.
Qed.
Print Assumptions C73_mapped_scan_and_read.

(** ** C74: values written through one model read back, and every other model keeps its values: after scan and read,
    assign values to points of the model [m1], write it, and read the whole device again. *)
Theorem C74_rtu_write_isolated :
  forall D (dev : sdev D) (regs : D -> S_Modbus.memory) slave lim,
  S_Modbus.serves_reads dev regs slave 3 -> S_Modbus.serves_writes dev regs slave lim -> (forall s, S_Modbus.mem_ok (regs s)) -> is_byte slave -> lim <= 127 ->
  forall lfuel types, loads_end lfuel types ->
  forall s b l e fuel, let mem := byte_view (regs s) in
  byte_memory mem -> sunspec_map mem b l e -> first_marker mem b -> e < 65536 -> Forall (readable lfuel types) l -> (length l < fuel)%nat ->
  forall s1 cd s2 pre m1 post m2,
    scan (rtu_client dev false true slave) lfuel types None fuel s new_cdevice = (s1, cd, Ok tt) ->
    device_read_points (scl_dev (rtu_client dev false true slave)) s1 (cd_models cd) = (s2, pre ++ m1 :: post, Ok tt) ->
    md_type m1 <> None -> 125 <= lim \/ md_len m1 <= lim -> assigned m1 m2 -> Forall storable (modified m2) ->
  exists s3 s4, write_points (scl_dev (rtu_client dev false true slave)) s2 m2 = (s3, clean m2, Ok tt) /\
    device_read_points (scl_dev (rtu_client dev false true slave)) s3 (pre ++ clean m2 :: post) = (s4, pre ++ clean m2 :: post, Ok tt).
Proof.
  intros D dev regs slave lim H1 H2 H3 H4 H5 lfuel types HLE s b l e fuel mem HB HM HF HE HR HN s1 cd s2 pre m1 post m2 ES ER HT HL HAS HST. destruct (first_marker_range _ _ HF) as [Hb HPRE].
  assert (HI : exists wmax, md_len m1 <= wmax /\ implements (scl_dev (rtu_client dev false true slave)) (rtu_rel regs) 0 65536 wmax).
  { destruct (Z_le_gt_dec 125 lim) as [G|G].
    - exists (md_len m1). split; [lia|]. apply (rtu_implements dev regs slave lim); auto.
    - exists lim. split; [lia|]. apply (rtu_implements_small dev regs slave lim); auto. lia. }
  destruct HI as (wmax & HW & HI).
  destruct (end_to_end (rtu_client dev false true slave) (rtu_rel regs) 0 65536 wmax HI
    (rtu_opening dev slave _) (rtu_closing dev slave _) lfuel types None HLE ltac:(discriminate) mem b l e fuel s (fun x => eq_refl) HB HM HPRE Hb HE HR HN)
    as (s1' & ms & s2' & ms' & A & B & C & E & _ & F). rewrite A in ES. apply pair_equal_spec in ES as [ES _]. apply pair_equal_spec in ES as [<- <-]. cbn [cd_models] in ER.
  rewrite C in ER. apply pair_equal_spec in ER as [ER _]. apply pair_equal_spec in ER as [<- EM]. eapply F; eauto.
Qed.
Print Assumptions C74_rtu_write_isolated.
Theorem C74_tcp_write_isolated :
  forall D (srv : server D) (regs : D -> S_Modbus.memory) slave lim,
  tcp_serves_reads srv regs slave 3 -> tcp_serves_writes srv regs slave lim -> tcp_accepts srv regs -> is_byte slave -> lim <= 125 ->
  forall lfuel types, loads_end lfuel types ->
  forall k s b l e fuel, let mem := byte_view (regs s) in k = SConn [] \/ k = SNone ->
  byte_memory mem -> sunspec_map mem b l e -> first_marker mem b -> e < 65536 -> Forall (readable lfuel types) l -> (length l < fuel)%nat ->
  forall s1 cd s2 pre m1 post m2,
    scan (tcp_client srv false slave) lfuel types None fuel (k, s) new_cdevice = (s1, cd, Ok tt) ->
    device_read_points (scl_dev (tcp_client srv false slave)) s1 (cd_models cd) = (s2, pre ++ m1 :: post, Ok tt) ->
    md_type m1 <> None -> md_len m1 <= lim -> assigned m1 m2 -> Forall storable (modified m2) ->
  exists s3 s4, write_points (scl_dev (tcp_client srv false slave)) s2 m2 = (s3, clean m2, Ok tt) /\
    device_read_points (scl_dev (tcp_client srv false slave)) s3 (pre ++ clean m2 :: post) = (s4, pre ++ clean m2 :: post, Ok tt).
Proof.
  intros D srv regs slave lim H1 H2 H3 H4 H5 lfuel types HLE k s b l e fuel mem HK HB HM HF HE HR HN s1 cd s2 pre m1 post m2 ES ER HT HL HAS HST. destruct (first_marker_range _ _ HF) as [Hb HPRE].
  destruct (end_to_end (tcp_client srv false slave) (tcp_rel regs) 0 65536 lim (tcp_implements srv regs slave lim H1 H2 H3 H4 H5)
    (fun s mem => tcp_opening srv regs slave s mem H3) (tcp_closing srv regs slave) lfuel types None HLE ltac:(discriminate) mem b l e fuel (k, s) (conj HK (fun x => eq_refl)) HB HM HPRE Hb HE HR HN)
    as (s1' & ms & s2' & ms' & A & B & C & E & _ & F). rewrite A in ES. apply pair_equal_spec in ES as [ES _]. apply pair_equal_spec in ES as [<- <-]. cbn [cd_models] in ER.
  rewrite C in ER. apply pair_equal_spec in ER as [ER _]. apply pair_equal_spec in ER as [<- EM]. eapply F; eauto.
Qed.
Print Assumptions C74_tcp_write_isolated.
Theorem C74_mapped_write_isolated :
  forall lfuel types, loads_end lfuel types ->
  forall m mem l e fuel, map_holds 40000 (e + 1) m mem ->
  byte_memory mem -> sunspec_map mem 40000 l e -> Forall (readable lfuel types) l -> (length l < fuel)%nat ->
  forall m1 cd m2 pre md1 post md2,
    scan map_client lfuel types None fuel m new_cdevice = (m1, cd, Ok tt) ->
    device_read_points (scl_dev map_client) m1 (cd_models cd) = (m2, pre ++ md1 :: post, Ok tt) ->
    md_type md1 <> None -> assigned md1 md2 -> Forall storable (modified md2) ->
  exists m3 m4, write_points (scl_dev map_client) m2 md2 = (m3, clean md2, Ok tt) /\
    device_read_points (scl_dev map_client) m3 (pre ++ clean md2 :: post) = (m4, pre ++ clean md2 :: post, Ok tt).
Proof.
  intros lfuel types HLE m mem l e fuel HH HB HM HR HN s1 cd s2 pre m1 post m2 ES ER HT HAS HST.
  destruct (end_to_end map_client (map_holds 40000 (e + 1)) 40000 (e + 1) (md_len m1) (map_implements _ _ _)
    (fun s mem H => ex_intro _ s (conj eq_refl H)) (fun s s' mem H E => eq_ind_r (fun x => map_holds 40000 (e + 1) x mem) H E) lfuel types None HLE ltac:(discriminate)
    mem 40000 l e fuel m HH HB HM (ex_intro _ [] (ex_intro _ [0; 50000] (conj eq_refl (Forall_nil _)))) ltac:(lia) ltac:(lia) HR HN)
    as (s1' & ms & s2' & ms' & A & B & C & E & _ & F). rewrite A in ES. apply pair_equal_spec in ES as [ES _]. apply pair_equal_spec in ES as [<- <-]. cbn [cd_models] in ER.
  rewrite C in ER. apply pair_equal_spec in ER as [ER _]. apply pair_equal_spec in ER as [<- EM]. eapply F; eauto. lia.
Qed.
Print Assumptions C74_mapped_write_isolated.

(** ** a device at 50000 with two models (100: 9 registers, 7: unknown) meets the hypotheses; on all three transports
    the same values are read and written back *)
Definition ex_regs : S_Modbus.memory := S_Modbus.store (fun _ => 0) 50000 C_Scan.scan_image.
Lemma ex_view x : byte_view ex_regs x = C_Scan.scan_mem 50000 x.
Proof.
  unfold ex_regs, C_Scan.scan_mem. rewrite store_view; [|reflexivity|repeat constructor; unfold is_byte; lia].
  unfold mem_store. destruct (_ && _); [reflexivity|]. unfold byte_view. destruct (Z.even x); reflexivity.
Qed.
Lemma chain_ext mem mem' a l e : (forall x, mem' x = mem x) -> model_chain mem a l e -> model_chain mem' a l e.
Proof.
  intros HX H. assert (HR : forall a, reg mem' a = reg mem a) by (intros; unfold reg; now rewrite !HX).
  induction H as [a E|a l e N H IH]; [constructor; now rewrite HR|].
  rewrite <- !HR. constructor; rewrite HR; [exact N|]. exact IH.
Qed.
Example C73_ex_hyp : let mem := byte_view ex_regs in
  byte_memory mem /\ sunspec_map mem 50000 [(100, 50004, 9); (7, 50015, 2)] 50017 /\ first_marker mem 50000 /\
  Forall (readable 10 C_Device.ex_types) [(100, 50004, 9); (7, 50015, 2)].
Proof.
  intros mem. destruct C_Scan.C48_ex_hyp as ((HS1 & HS2) & HB & _). split; [intros x; unfold mem; rewrite ex_view; apply HB|]. split; [|split].
  - split; [etransitivity; [|exact HS1]; apply map_ext; intros; apply ex_view|]. eapply chain_ext; [intros; apply ex_view|exact HS2].
  - exists [40000; 0], []. split; [reflexivity|]. constructor; [|constructor; [|constructor]]; vm_compute; discriminate.
  - constructor; [|constructor; [|constructor]].
    + right. split; [lia|]. split; [vm_compute; reflexivity|].
      destruct C_Client.ex_loaded as (f & tys & id & len & mt & F & _). clear.
      exists C_Device.ex_mt, 6. split; [reflexivity|]. split; [right; split; [intros [H _]; discriminate|reflexivity]|].
      unfold good_def. split; [cbn; lia|]. split.
      * intros rt R ER EB. cbn in ER. apply Some_inj in ER. subst rt. vm_compute in EB. apply Ok_inj in EB. subst R. cbn. lia.
      * split; [repeat constructor|]. intros rt ER. cbn in ER. apply Some_inj in ER. subst rt. repeat constructor.
    + left. exists ESunSpec. reflexivity.
Qed.
(** scan, read, set A := 5 and C := 1 in model 100 (A has the scale factor -2), write, read *)
Definition session {D} (c : sclient D) (s : D) :=
  let '(s1, cd, r1) := scan c 10 C_Device.ex_types None 10 s new_cdevice in
  let '(s2, ms, r2) := device_read_points (scl_dev c) s1 (cd_models cd) in
  match ms with
  | m1 :: rest =>
    let m2 := C_Client.assign C_Scale.env_ex [Some (VInt 5); None; Some (VInt 1)] m1 in
    let '(s3, m3, r3) := write_points (scl_dev c) s2 m2 in
    let '(s4, ms4, r4) := device_read_points (scl_dev c) s3 (m3 :: rest) in
    (cd_base cd, [r1; r2; r3; r4], map C_Client.summary (points_of m1), map md_id ms4, map C_Client.summary (flat_map points_of ms4))
  | [] => (None, [], [], [], [])
  end.
Definition session_result (b : Z) := (Some b, [Ok tt; Ok tt; Ok tt; Ok tt],
  [(lit "A", VInt 300, VInt (-2)); (lit "B", VInt (-100), VInt (-2)); (lit "C", VInt 3, VNone); (lit "V", VInt 7, VInt (-2)); (lit "W", VInt 9, VNone)]%string, [100; 7],
  [(lit "A", VInt 500, VInt (-2)); (lit "B", VInt (-100), VInt (-2)); (lit "C", VInt 1, VNone); (lit "V", VInt 7, VInt (-2)); (lit "W", VInt 9, VNone)]%string).
Example C74_ex_rtu : session (rtu_client C_Rtu.ex_dev false true 1) ex_regs = session_result 50000.
Proof. vm_compute. reflexivity. Qed.
Example C74_ex_tcp : session (tcp_client C_Tcp.ex_srv false 1) (SNone, ex_regs) = session_result 50000.
Proof. vm_compute. reflexivity. Qed.
Definition ex_map : mbmap := mkMap 3 (BInt 40000) None None None None [mkRegs (NI 0) (NI (zlen C_Scan.scan_image / 2)) (Some C_Scan.scan_image) ACCESS_R].
Example C74_ex_mapped : session map_client ex_map = session_result 40000.
Proof. vm_compute. reflexivity. Qed.
Example C73_ex_map_holds : map_holds 40000 40019 ex_map (C_Scan.scan_mem 40000).
Proof.
  split.
  - split; [split; [repeat constructor|repeat constructor; vm_compute; discriminate]|]. constructor; [|constructor].
    exists 0, 19, C_Scan.scan_image. do 3 (split; [reflexivity|]). split; [lia|]. split; [reflexivity|]. repeat constructor; unfold is_byte; lia.
  - exists 40000. split; [reflexivity|]. intros a Ha.
    assert (HA : forall n : nat, (n < 19)%nat -> register (m_regs ex_map) (40000 + Z.of_nat n - 40000) = Some [C_Scan.scan_mem 40000 (2 * (40000 + Z.of_nat n)); C_Scan.scan_mem 40000 (2 * (40000 + Z.of_nat n) + 1)]).
    { do 19 (destruct n as [|n]; [intros _; vm_compute; reflexivity|]). lia. }
    specialize (HA (Z.to_nat (a - 40000)) ltac:(lia)). replace (40000 + Z.of_nat (Z.to_nat (a - 40000))) with a in HA by lia. exact HA.
Qed.
