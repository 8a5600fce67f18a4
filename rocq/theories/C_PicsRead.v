(** * C_PicsRead: property C90: what is read from a device survives saving it as a PICS document and loading it again. *)
From Coq Require Import String.
From Verif Require C_Scan C_Client C_Device C_Rtu C_Tcp C_Stack S_Modbus M_Rtu.
From Verif Require Import Py P_List M_Float M_Suns M_Point M_Mbmap M_Device S_Device S_Codec M_Wire M_Tcp S_Tcp M_Client S_Client M_Scan S_Scan S_Stack M_Pics S_Pics S_PicsRead P_PicsModel P_PicsRead C_Pics.

(** [ms]: models found by a scan; [ms']: the same after reading *)
Theorem C90_archive_partial :
  forall E lfuel types, float_texts E -> loads_end lfuel types -> (forall id t, types id = Ok t -> block_types_ok t) ->
  forall mem l ms ms', byte_memory mem -> Forall (readable lfuel types) l -> Forall2 (model_for lfuel types) l ms -> Forall2 (values_read mem) ms ms' ->
  Forall no_gaps ms' -> Forall (values_defined E) ms' ->
  forall base a, exists e d', device_to_pics E false (mkDevice base ms') = Ok e /\ device_from_pics E lfuel types (new_device a) e = (d', Ok tt) /\
    Forall2 restored_model ms' (d_models d').
Proof.
  intros E lfuel types HE HLE HB mem l ms ms' HM HR HF HV HG HD base a.
  pose proof (entries_instances E lfuel types mem HE HM HLE HB l ms ms' HR HF HV) as HI.
  destruct (models_to_pics_ok E false ms') as [es HES]; [intros m b p Hm Hb Hp; rewrite Forall_forall in HD; exact (HD m Hm b p Hb Hp)|].
  assert (HX : exists e, device_to_pics E false (mkDevice base ms') = Ok e) by (unfold device_to_pics; cbn [d_models]; rewrite HES; cbn [bind]; eauto).
  destruct HX as [e HX]. destruct (C54_roundtrip_partial E lfuel types (mkDevice base ms') e a HI HG HX) as (d' & D1 & _ & D2 & _).
  exists e, d'. auto.
Qed.
Print Assumptions C90_archive_partial.
(** models with at most one repeating block: without condition on the values, with either kind of document *)
Theorem C90_archive_one_repeat :
  forall E lfuel types, float_texts E -> loads_end lfuel types -> (forall id t, types id = Ok t -> block_types_ok t) ->
  forall mem l ms ms', byte_memory mem -> Forall (readable lfuel types) l -> Forall2 (model_for lfuel types) l ms -> Forall2 (values_read mem) ms ms' ->
  Forall one_repeat ms' -> Forall (values_defined E) ms' ->
  forall base a single, exists e d', device_to_pics E single (mkDevice base ms') = Ok e /\ device_from_pics E lfuel types (new_device a) e = (d', Ok tt) /\
    Forall2 restored_model ms' (d_models d').
Proof.
  intros E lfuel types HE HLE HB mem l ms ms' HM HR HF HV HG HD base a single.
  pose proof (entries_instances E lfuel types mem HE HM HLE HB l ms ms' HR HF HV) as HI.
  destruct (models_to_pics_ok E single ms') as [es HES]; [intros m b p Hm Hb Hp; rewrite Forall_forall in HD; exact (HD m Hm b p Hb Hp)|].
  assert (HX : exists e, device_to_pics E single (mkDevice base ms') = Ok e) by (unfold device_to_pics; cbn [d_models]; rewrite HES; cbn [bind]; eauto).
  destruct HX as [e HX]. destruct (C53_roundtrip E lfuel types single (mkDevice base ms') e a HI HG HX) as (d' & D1 & _ & D2 & _).
  exists e, d'. auto.
Qed.
Print Assumptions C90_archive_one_repeat.

(** through each kind of device: scan, read, save, load *)
Theorem C90_rtu_archive_partial :
  forall E D (dev : sdev D) (regs : D -> S_Modbus.memory) slave lim, float_texts E ->
  S_Modbus.serves_reads dev regs slave 3 -> S_Modbus.serves_writes dev regs slave lim -> (forall s, S_Modbus.mem_ok (regs s)) -> is_byte slave -> lim <= 125 ->
  forall lfuel types, loads_end lfuel types -> (forall id t, types id = Ok t -> block_types_ok t) ->
  forall s b l e fuel, let mem := byte_view (regs s) in
  byte_memory mem -> sunspec_map mem b l e -> first_marker mem b -> e < 65536 -> Forall (readable lfuel types) l -> (length l < fuel)%nat ->
  exists s1 ms s2 ms',
    scan (rtu_client dev false true slave) lfuel types None fuel s new_cdevice = (s1, mkCD (Some b) ms, Ok tt) /\
    device_read_points (scl_dev (rtu_client dev false true slave)) s1 ms = (s2, ms', Ok tt) /\ Forall2 (values_read mem) ms ms' /\
    (Forall no_gaps ms' -> Forall (values_defined E) ms' ->
     forall a, exists x d', device_to_pics E false (mkDevice (BInt b) ms') = Ok x /\ device_from_pics E lfuel types (new_device a) x = (d', Ok tt) /\
       Forall2 restored_model ms' (d_models d')).
Proof.
  intros E D dev regs slave lim HE H1 H2 H3 H4 H5 lfuel types HLE HB s b l e fuel mem HM HS HF HE2 HR HN.
  destruct (C_Stack.C73_rtu_scan_and_read D dev regs slave lim H1 H2 H3 H4 H5 lfuel types HLE s b l e fuel HM HS HF HE2 HR HN) as (s1 & ms & s2 & ms' & A & B & C & F).
  exists s1, ms, s2, ms'. split; [exact A|]. split; [exact C|]. split; [exact F|]. intros HG HD a.
  exact (C90_archive_partial E lfuel types HE HLE HB mem l ms ms' HM HR B F HG HD (BInt b) a).
Qed.
Print Assumptions C90_rtu_archive_partial.
Theorem C90_tcp_archive_partial :
  forall E D (srv : server D) (regs : D -> S_Modbus.memory) slave lim, float_texts E ->
  tcp_serves_reads srv regs slave 3 -> tcp_serves_writes srv regs slave lim -> tcp_accepts srv regs -> is_byte slave -> lim <= 125 ->
  forall lfuel types, loads_end lfuel types -> (forall id t, types id = Ok t -> block_types_ok t) ->
  forall k s b l e fuel, let mem := byte_view (regs s) in k = SConn [] \/ k = SNone ->
  byte_memory mem -> sunspec_map mem b l e -> first_marker mem b -> e < 65536 -> Forall (readable lfuel types) l -> (length l < fuel)%nat ->
  exists s1 ms s2 ms',
    scan (tcp_client srv false slave) lfuel types None fuel (k, s) new_cdevice = (s1, mkCD (Some b) ms, Ok tt) /\
    device_read_points (scl_dev (tcp_client srv false slave)) s1 ms = (s2, ms', Ok tt) /\ Forall2 (values_read mem) ms ms' /\
    (Forall no_gaps ms' -> Forall (values_defined E) ms' ->
     forall a, exists x d', device_to_pics E false (mkDevice (BInt b) ms') = Ok x /\ device_from_pics E lfuel types (new_device a) x = (d', Ok tt) /\
       Forall2 restored_model ms' (d_models d')).
Proof.
  intros E D srv regs slave lim HE H1 H2 H3 H4 H5 lfuel types HLE HB k s b l e fuel mem HK HM HS HF HE2 HR HN.
  destruct (C_Stack.C73_tcp_scan_and_read D srv regs slave lim H1 H2 H3 H4 H5 lfuel types HLE k s b l e fuel HK HM HS HF HE2 HR HN) as (s1 & ms & s2 & ms' & A & B & C & F).
  exists s1, ms, s2, ms'. split; [exact A|]. split; [exact C|]. split; [exact F|]. intros HG HD a.
  exact (C90_archive_partial E lfuel types HE HLE HB mem l ms ms' HM HR B F HG HD (BInt b) a).
Qed.
Print Assumptions C90_tcp_archive_partial.

(** REFUTED in general: two repeating blocks whose point W is implemented (5) in the first and not in the second.  After reading, W of the second
    is None; after saving and loading it is 5. *)
Definition gap_image : bytes := [1; 44;  255; 255; 255; 156;  0; 0;  255; 254;  0; 3;   0; 7;  0; 0; 0; 5;  0; 8;  0; 0; 0; 0].
Definition gap_mem : memory := mem_store (fun _ => 0) 50004 gap_image.
Theorem C90_gap_refuted : exists m m' e d' n,
  model_load 10 C_Device.ex_types (new_model 100 50004 12) = (m, Ok tt) /\ read_points mem_dev gap_mem m = (gap_mem, m', Ok tt) /\
  device_to_pics ex_env false (mkDevice (BInt 50000) [m']) = Ok e /\ device_from_pics ex_env 10 C_Device.ex_types (new_device 0) e = (d', Ok tt) /\
  d_models d' = [n] /\ In (2, lit "W"%string, VNone, VNone) (point_values m') /\ In (2, lit "W"%string, VInt 5, VNone) (point_values n).
Proof.
  exists (fst (model_load 10 C_Device.ex_types (new_model 100 50004 12))), (snd (fst (read_points mem_dev gap_mem (fst (model_load 10 C_Device.ex_types (new_model 100 50004 12)))))).
  do 3 eexists. split; [vm_compute; reflexivity|]. split; [|split; [vm_compute; reflexivity|]].
  - destruct (read_points _ _ _) as [[s m] r] eqn:E. cbn [fst snd]. assert (HS : s = gap_mem).
    { assert (HX := f_equal (fun x => fst (fst x)) E). cbn [fst] in HX. rewrite <- HX. reflexivity. }
    assert (HX := f_equal snd E). cbn [snd] in HX. rewrite <- HX, HS. f_equal.
  - split; [vm_compute; reflexivity|]. split; [reflexivity|]. split; vm_compute; tauto.
Qed.
Print Assumptions C90_gap_refuted.

(** ** the hypotheses can be met *)
(** texts of floats: sign, mantissa and exponent *)
Definition text_env : pyenv := {|
  float_repr := fun f => match f with
    | S754_finite s m e => [if s then 45 else 43; Zpos m; e; 1] | S754_zero s => [if s then 45 else 43; 2]
    | S754_infinity s => [if s then 45 else 43; 3] | S754_nan => [4] end;
  float_parse := fun t => match t with
    | [s; m; e; _] => Some (S754_finite (s =? 45) (Z.to_pos m) e) | [s; k] => Some (if k =? 2 then S754_zero (s =? 45) else S754_infinity (s =? 45)) | _ => None end;
  pow10 := pow10 ex_env |}.
Example C90_float_texts : float_texts text_env.
Proof.
  intros f _ HF. destruct f as [s|s| |s m e]; [| |congruence|]; (split; [discriminate|]; split; [|destruct s; reflexivity]);
    intros (r & H); (destruct r as [|a [|b [|c [|d [|g r]]]]]; cbn in H; discriminate H).
Qed.
Example C90_ex_hyp : forall id t, C_Device.ex_types id = Ok t -> block_types_ok t.
Proof.
  intros id t H. unfold C_Device.ex_types in H. destruct (id =? 100); [|discriminate]. apply Ok_inj in H. subst t.
  split; [reflexivity|]. split; [cbn; repeat constructor; cbn; intuition discriminate|]. intros r Hr. apply Some_inj in Hr. subst r. split; [reflexivity|]. cbn. repeat constructor; cbn; intuition discriminate.
Qed.
(** scan and read over serial, save and load: the device of C73_ex_hyp *)
Definition archive_session {D} (c : sclient D) (s : D) :=
  let '(s1, cd, r1) := scan c 10 C_Device.ex_types None 10 s new_cdevice in
  let '(s2, ms, r2) := device_read_points (scl_dev c) s1 (cd_models cd) in
  match device_to_pics text_env false (mkDevice (BInt 50000) ms) with
  | Ok x => let '(d', r3) := device_from_pics text_env 10 C_Device.ex_types (new_device 0) x in
            ([r1; r2; r3], map md_id (d_models d'), flat_map point_values (d_models d'))
  | Raise _ => ([], [], [])
  end.
Example C90_ex : archive_session (rtu_client C_Rtu.ex_dev false true 1) C_Stack.ex_regs =
  ([Ok tt; Ok tt; Ok tt], [100; 7], [(0, lit "A", VInt 300, VInt (-2)); (0, lit "B", VInt (-100), VInt (-2)); (0, lit "C", VInt 3, VNone);
    (0, lit "A_SF", VInt (-2), VNone); (1, lit "V", VInt 7, VInt (-2)); (1, lit "W", VInt 9, VNone)]%string).
Proof. vm_compute. reflexivity. Qed.
