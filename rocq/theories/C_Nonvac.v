(** * C_Nonvac: the end-to-end theorems applied to concrete devices, with every hypothesis discharged.
    The device: model 100 (C_Device.ex_mt: a fixed and a repeating block, with scale factors) at 40000, held as 16-bit registers
    by a serial device, by a TCP server and by a Modbus map (C_Main). *)
From Coq Require Import String.
From Verif Require C_Report C_Scale C_Scan C_Client C_Device C_Rtu C_Tcp C_Mbmap C_PicsRead C_PicsEq S_PicsRead S_PicsEq S_Pics S_NotEq M_Pics M_NotEq C_Fault C_TcpFault C_Torn C_FloatText M_FloatText M_Files M_DataText M_XmlText S_XmlText.
From Verif Require Import Py P_List M_Xml M_Util M_Float M_Suns M_Point M_Mbmap S_Mbmap M_Path M_Files S_Files M_Registry M_Wire M_Rtu M_Tcp S_Tcp M_Device M_Client S_Client S_Device
  M_Construct M_Scan S_Scan S_Stack P_Stack P_Stack2 C_Stack M_Session S_Session P_Session C_Session C_Main M_Wrapper S_Script C_Script.
From Verif Require S_Modbus.

Lemma store_ok : forall n data m a, (length data <= n)%nat -> S_Modbus.mem_ok m -> Forall is_byte data -> S_Modbus.mem_ok (S_Modbus.store m a data).
Proof.
  induction n as [|n IH]; intros [|h [|l data]] m a HL HM HB; cbn [S_Modbus.store]; try exact HM; cbn [length] in HL; [lia|].
  inversion HB as [|? ? H1 HB']; subst. inversion HB' as [|? ? H2 HB'']; subst. apply IH; [lia| |assumption].
  intros x. unfold is_byte in *. destruct (x =? a); [lia|apply HM].
Qed.
Lemma norm_id m : S_Modbus.mem_ok m -> forall a, norm m a = m a.
Proof. intros H a. unfold norm. apply Z.mod_small, H. Qed.
Lemma norm_dev_writes slave : S_Modbus.serves_writes norm_dev norm slave 123.
Proof.
  intros m addr data H1 H2 H3 H4 H5. destruct (C_Rtu.C27_ex slave (norm m) addr data H1 H2 H3 H4 H5) as (s' & noise & sched & fin & A & B & C).
  exists s', noise, sched, fin. split; [exact A|]. split; [exact B|]. intros a. rewrite norm_id; [apply C|]. intros x. rewrite C. now apply (store_ok (length data)); [|apply norm_ok|].
Qed.
Lemma norm_srv_writes slave : tcp_serves_writes norm_srv norm slave 123.
Proof.
  intros m addr data H1 H2 H3 H4 H5. destruct (C_Tcp.C33_ex slave (norm m) addr data H1 H2 H3 H4 H5) as (s' & sched & fin & A & C).
  exists s', sched, fin. split; [exact A|]. intros a. rewrite norm_id; [apply C|]. intros x. rewrite C. now apply (store_ok (length data)); [|apply norm_ok|].
Qed.
Definition LF : nat := Z.to_nat 65537.
Lemma main_fits : 40013 < 65536. Proof. lia. Qed.
Lemma main_slave : is_byte 1. Proof. unfold is_byte. lia. Qed.
Definition main_hyp := C105_ex_hyp.
Lemma main_holds : map_holds 40000 40014 main_loaded main_mem.
Proof.
  split.
  - split; [split; [repeat constructor|repeat constructor; vm_compute; discriminate]|]. constructor; [|constructor].
    exists 0, 15, main_image. do 3 (split; [vm_compute; reflexivity|]). split; [lia|]. split; [reflexivity|]. repeat constructor; unfold is_byte; lia.
  - exists 40000. split; [vm_compute; reflexivity|]. intros a Ha.
    assert (HA : forall n : nat, (n < 14)%nat -> register (m_regs main_loaded) (40000 + Z.of_nat n - 40000) = Some [main_mem (2 * (40000 + Z.of_nat n)); main_mem (2 * (40000 + Z.of_nat n) + 1)]).
    { do 14 (destruct n as [|n]; [intros _; vm_compute; reflexivity|]). lia. }
    specialize (HA (Z.to_nat (a - 40000)) ltac:(lia)). replace (40000 + Z.of_nat (Z.to_nat (a - 40000))) with a in HA by lia. exact HA.
Qed.

(** ** C73, C74: scan, read, assign, write, read on a serial device *)
Notation rtu := (rtu_client norm_dev false true 1).
Notation net := (tcp_client norm_srv false 1).
Example C73_ex_rtu : exists s1 ms s2 ms', scan rtu LF C_Device.ex_types None 10 main_regs new_cdevice = (s1, mkCD (Some 40000) ms, Ok tt) /\
  Forall2 (model_for LF C_Device.ex_types) [(100, 40004, 9)] ms /\
  device_read_points (scl_dev rtu) s1 ms = (s2, ms', Ok tt) /\ Forall2 (values_read main_mem) ms ms'.
Proof.
  destruct main_hyp as (H1 & H2 & H3 & H4 & H5 & _).
  apply (C73_rtu_scan_and_read _ norm_dev norm 1 123 (norm_dev_serves 1) (norm_dev_writes 1) norm_ok main_slave ltac:(lia) LF C_Device.ex_types H1 main_regs 40000 _ 40013 10 H2 H3 H4 main_fits H5).
  cbn [length]. lia.
Qed.
Example C73_ex_tcp : exists s1 ms s2 ms', scan net LF C_Device.ex_types None 10 (SNone, main_regs) new_cdevice = (s1, mkCD (Some 40000) ms, Ok tt) /\
  Forall2 (model_for LF C_Device.ex_types) [(100, 40004, 9)] ms /\
  device_read_points (scl_dev net) s1 ms = (s2, ms', Ok tt) /\ Forall2 (values_read main_mem) ms ms'.
Proof.
  destruct main_hyp as (H1 & H2 & H3 & H4 & H5 & _).
  apply (C73_tcp_scan_and_read _ norm_srv norm 1 123 (proj1 (norm_srv_serves 1)) (norm_srv_writes 1) (proj2 (norm_srv_serves 1)) main_slave ltac:(lia) LF C_Device.ex_types H1 SNone main_regs 40000 _ 40013 10
    (or_intror eq_refl) H2 H3 H4 main_fits H5).
  cbn [length]. lia.
Qed.
Example C73_ex_mapped : exists m1 ms m2 ms', scan map_client LF C_Device.ex_types None 10 main_loaded new_cdevice = (m1, mkCD (Some 40000) ms, Ok tt) /\
  Forall2 (model_for LF C_Device.ex_types) [(100, 40004, 9)] ms /\
  device_read_points (scl_dev map_client) m1 ms = (m2, ms', Ok tt) /\ Forall2 (values_read main_mem) ms ms'.
Proof.
  destruct main_hyp as (H1 & H2 & H3 & H4 & H5 & _).
  apply (C73_mapped_scan_and_read LF C_Device.ex_types H1 main_loaded main_mem _ 40013 10 main_holds H2 H3 H5). cbn [length]. lia.
Qed.

(** ** C95 (and C74): what a script reads, assigns and finds again *)
(** the model as read, the same over the three transports *)
Definition scanned {D} (c : sclient D) (s : D) := scan c LF C_Device.ex_types None 10 s new_cdevice.
Definition was_read {D} (c : sclient D) (s : D) := device_read_points (scl_dev c) (fst (fst (scanned c s))) (cd_models (snd (fst (scanned c s)))).
Definition main_m1 : model := match snd (fst (was_read ideal_client (main_mem, []))) with m :: _ => m | [] => new_model 0 0 0 end.
Lemma read_eq {D} (c : sclient D) s : snd (scanned c s) = Ok tt -> snd (was_read c s) = Ok tt -> snd (fst (was_read c s)) = [main_m1] ->
  scan c LF C_Device.ex_types None 10 s new_cdevice = (fst (fst (scanned c s)), snd (fst (scanned c s)), Ok tt) /\
  device_read_points (scl_dev c) (fst (fst (scanned c s))) (cd_models (snd (fst (scanned c s)))) = (fst (fst (was_read c s)), [] ++ main_m1 :: [], Ok tt).
Proof.
  intros H1 H2 H3. split.
  - change (scan c LF C_Device.ex_types None 10 s new_cdevice) with (scanned c s). destruct (scanned c s) as [[a b] r]. cbn [fst snd] in *. now subst r.
  - change (device_read_points (scl_dev c) (fst (fst (scanned c s))) (cd_models (snd (fst (scanned c s))))) with (was_read c s).
    destruct (was_read c s) as [[a b] r]. cbn [fst snd app] in *. now subst r b.
Qed.
Lemma read_rtu : snd (scanned rtu main_regs) = Ok tt /\ snd (was_read rtu main_regs) = Ok tt /\ snd (fst (was_read rtu main_regs)) = [main_m1].
Proof. split; [|split]; vm_compute; reflexivity. Qed.
Lemma read_tcp : snd (scanned net (SNone, main_regs)) = Ok tt /\ snd (was_read net (SNone, main_regs)) = Ok tt /\ snd (fst (was_read net (SNone, main_regs))) = [main_m1].
Proof. split; [|split]; vm_compute; reflexivity. Qed.
Lemma read_map : snd (scanned map_client main_loaded) = Ok tt /\ snd (was_read map_client main_loaded) = Ok tt /\ snd (fst (was_read map_client main_loaded)) = [main_m1].
Proof. split; [|split]; vm_compute; reflexivity. Qed.
Definition main_ops : list (nat * str * value) := [(0%nat, lit "C"%string, VInt 9); (1%nat, lit "W"%string, VInt 77); (0%nat, lit "C"%string, VInt 5); (0%nat, lit "A"%string, VInt 4)].
Definition accept_b (m : model) (op : nat * str * value) : bool :=
  let '(i, id, v) := op in
  match nth_error (md_blocks m) i with
  | Some b => match find_point id (b_points b) with
              | Some p => match value_setter C_Scale.env_ex (pt_type (p_type p)) (p_sf p) v with
                          | Ok x => match to_data (pt_type (p_type p)) x (2 * pt_len (p_type p)) with
                                    | Ok d => (zlen d =? 2 * pt_len (p_type p)) &&
                                              match data_to (pt_type (p_type p)) d, x, p_base p with
                                              | Ok (VInt y), VInt z, VInt _ => (y =? z) && is_impl (pt_type (p_type p)) x
                                              | _, _, _ => false
                                              end
                                    | Raise _ => false
                                    end
                          | Raise _ => false
                          end
              | None => false
              end
  | None => false
  end.
Lemma accept_ok m op : accept_b m op = true -> accepted C_Scale.env_ex m op.
Proof.
  destruct op as [[i id] v]. unfold accept_b, accepted. destruct (nth_error (md_blocks m) i) as [b|] eqn:EB; [|discriminate].
  destruct (find_point id (b_points b)) as [p|] eqn:EF; [|discriminate]. destruct (value_setter _ _ _ v) as [x|] eqn:EV; [|discriminate].
  destruct (to_data _ x _) as [d|] eqn:ED; [|discriminate]. intros H. apply andb_prop in H as [H1 H2]. destruct (data_to _ d) as [[| y | |]|] eqn:EDT; try discriminate H2.
  destruct x as [| z | |]; try discriminate H2. destruct (p_base p) as [| w | |] eqn:EPB; try discriminate H2. apply andb_prop in H2 as [H2 H3]. apply Z.eqb_eq in H1, H2. subst y.
  exists p, (VInt z). split; [|split; [exact EV|split; [|left; congruence]]].
  - unfold attribute. exists b. assert (HY : forall l, find_point id l = Some p -> exists a c, l = a ++ p :: c /\ p_id p = id /\ Forall (fun q => p_id q <> id) a).
    { clear. induction l as [|q l IH]; intros H; [discriminate|]. unfold find_point in *. cbn [find] in H. destruct (eqb_list (p_id q) id) eqn:E.
      - apply Some_inj in H. subst q. apply eqb_list_eq in E. exists [], l. auto.
      - apply eqb_list_neq in E. destruct (IH H) as (a & c & -> & H1 & H2). exists (q :: a), c. auto. }
    destruct (HY _ EF) as (a & c & H4 & H5 & H6). exists a, c. auto.
  - exists d. unfold encoding, implemented. cbn [p_type p_base]. auto.
Qed.
Lemma main_accepted : Forall (accepted C_Scale.env_ex main_m1) main_ops.
Proof. rewrite Forall_forall. intros op HO. apply accept_ok. revert op HO. apply forallb_forall. vm_compute. reflexivity. Qed.
Lemma main_m1_facts : md_type main_m1 <> None /\ md_len main_m1 <= 123.
Proof. split; vm_compute; discriminate. Qed.
Lemma small_list : (length [(100, 40004, 9)%Z] < 10)%nat. Proof. cbn [length]. lia. Qed.
Definition script_works {D} (c : sclient D) (s : D) : Prop :=
  exists m2 s3 m3 s4, script_sets C_Scale.env_ex main_m1 main_ops = Ok m2 /\ write_points (scl_dev c) (fst (fst (was_read c s))) m2 = (s3, m3, Ok tt) /\
    device_read_points (scl_dev c) s3 ([] ++ m3 :: []) = (s4, [] ++ m3 :: [], Ok tt) /\ shows C_Scale.env_ex main_m1 main_ops m3.
Example C95_ex_rtu : script_works rtu main_regs.
Proof.
  destruct main_hyp as (H1 & H2 & H3 & H4 & H5 & _). destruct read_rtu as (R1 & R2 & R3). destruct (read_eq rtu main_regs R1 R2 R3) as [R4 R5]. destruct main_m1_facts as [F1 F2].
  exact (C95_rtu_script _ norm_dev norm 1 123 (norm_dev_serves 1) (norm_dev_writes 1) norm_ok main_slave ltac:(lia) LF C_Device.ex_types H1 main_regs 40000 _ 40013 10 H2 H3 H4 main_fits H5 small_list
    _ _ _ [] main_m1 [] C_Scale.env_ex main_ops R4 R5 F1 (or_intror F2) main_accepted).
Qed.
Example C95_ex_tcp : script_works net (SNone, main_regs).
Proof.
  destruct main_hyp as (H1 & H2 & H3 & H4 & H5 & _). destruct read_tcp as (R1 & R2 & R3). destruct (read_eq net (SNone, main_regs) R1 R2 R3) as [R4 R5]. destruct main_m1_facts as [F1 F2].
  exact (C95_tcp_script _ norm_srv norm 1 123 (proj1 (norm_srv_serves 1)) (norm_srv_writes 1) (proj2 (norm_srv_serves 1)) main_slave ltac:(lia) LF C_Device.ex_types H1 SNone main_regs 40000 _ 40013 10
    (or_intror eq_refl) H2 H3 H4 main_fits H5 small_list _ _ _ [] main_m1 [] C_Scale.env_ex main_ops R4 R5 F1 F2 main_accepted).
Qed.
Example C95_ex_mapped : script_works map_client main_loaded.
Proof.
  destruct main_hyp as (H1 & H2 & H3 & H4 & H5 & _). destruct read_map as (R1 & R2 & R3). destruct (read_eq map_client main_loaded R1 R2 R3) as [R4 R5]. destruct main_m1_facts as [F1 F2].
  exact (C95_mapped_script LF C_Device.ex_types H1 main_loaded main_mem _ 40013 10 main_holds H2 H3 H5 small_list _ _ _ [] main_m1 [] C_Scale.env_ex main_ops R4 R5 F1 main_accepted).
Qed.

(** C74: the same with the points set directly *)
Definition main_m2 : model := match script_sets C_Scale.env_ex main_m1 main_ops with Ok m => m | Raise _ => main_m1 end.
Definition storable_b (p : point) : bool :=
  match to_data (pt_type (p_type p)) (p_base p) (2 * pt_len (p_type p)) with
  | Ok d => (zlen d =? 2 * pt_len (p_type p)) && match data_to (pt_type (p_type p)) d, p_base p with Ok (VInt y), VInt z => (y =? z) && is_impl (pt_type (p_type p)) (VInt z) | _, _ => false end
  | Raise _ => false
  end.
Lemma storable_ok p : storable_b p = true -> storable p.
Proof.
  unfold storable_b, storable, encoding, implemented. destruct (to_data _ _ _) as [d|] eqn:E; [|discriminate]. intros H. apply andb_prop in H as [H1 H2].
  destruct (data_to _ d) as [[|y| |]|] eqn:ED; try discriminate H2. destruct (p_base p) as [|z| |] eqn:EP; try discriminate H2. apply andb_prop in H2 as [H2 H3]. apply Z.eqb_eq in H1, H2. subst y.
  exists d. auto.
Qed.
Lemma main_assigned : assigned main_m1 main_m2 /\ Forall storable (modified main_m2) /\ length (modified main_m2) = 3%nat.
Proof.
  split; [|split; [|vm_compute; reflexivity]].
  - exists (md_blocks main_m2). split; [vm_compute; reflexivity|].
    assert (H : exists l1 l2, md_blocks main_m1 = l1 /\ md_blocks main_m2 = l2 /\ Forall2 assigned_block l1 l2); [|destruct H as (l1 & l2 & -> & -> & H); exact H].
    eexists. eexists. split; [vm_compute; reflexivity|]. split; [vm_compute; reflexivity|].
    repeat (apply Forall2_cons; [match goal with |- assigned_block _ ?b => exists (b_points b) end; split; [reflexivity|]; cbn [b_points];
      repeat (apply Forall2_cons; [first [left; reflexivity|right; split; [eexists; reflexivity|left; discriminate]]|]); apply Forall2_nil|]).
    apply Forall2_nil.
  - rewrite Forall_forall. intros p HP. apply storable_ok. revert p HP. apply forallb_forall. vm_compute. reflexivity.
Qed.
Definition write_works {D} (c : sclient D) (s : D) : Prop :=
  exists s3 s4, write_points (scl_dev c) (fst (fst (was_read c s))) main_m2 = (s3, clean main_m2, Ok tt) /\
    device_read_points (scl_dev c) s3 ([] ++ clean main_m2 :: []) = (s4, [] ++ clean main_m2 :: [], Ok tt).
Example C74_ex_rtu_full : write_works rtu main_regs.
Proof.
  destruct main_hyp as (H1 & H2 & H3 & H4 & H5 & _). destruct read_rtu as (R1 & R2 & R3). destruct (read_eq rtu main_regs R1 R2 R3) as [R4 R5]. destruct main_m1_facts as [F1 F2]. destruct main_assigned as (A1 & A2 & _).
  exact (C74_rtu_write_isolated _ norm_dev norm 1 123 (norm_dev_serves 1) (norm_dev_writes 1) norm_ok main_slave ltac:(lia) LF C_Device.ex_types H1 main_regs 40000 _ 40013 10 H2 H3 H4 main_fits H5 small_list
    _ _ _ [] main_m1 [] main_m2 R4 R5 F1 (or_intror F2) A1 A2).
Qed.
Example C74_ex_tcp_full : write_works net (SNone, main_regs).
Proof.
  destruct main_hyp as (H1 & H2 & H3 & H4 & H5 & _). destruct read_tcp as (R1 & R2 & R3). destruct (read_eq net (SNone, main_regs) R1 R2 R3) as [R4 R5]. destruct main_m1_facts as [F1 F2]. destruct main_assigned as (A1 & A2 & _).
  exact (C74_tcp_write_isolated _ norm_srv norm 1 123 (proj1 (norm_srv_serves 1)) (norm_srv_writes 1) (proj2 (norm_srv_serves 1)) main_slave ltac:(lia) LF C_Device.ex_types H1 SNone main_regs 40000 _ 40013 10
    (or_intror eq_refl) H2 H3 H4 main_fits H5 small_list _ _ _ [] main_m1 [] main_m2 R4 R5 F1 F2 A1 A2).
Qed.
Example C74_ex_mapped_full : write_works map_client main_loaded.
Proof.
  destruct main_hyp as (H1 & H2 & H3 & H4 & H5 & _). destruct read_map as (R1 & R2 & R3). destruct (read_eq map_client main_loaded R1 R2 R3) as [R4 R5]. destruct main_m1_facts as [F1 F2]. destruct main_assigned as (A1 & A2 & _).
  exact (C74_mapped_write_isolated LF C_Device.ex_types H1 main_loaded main_mem _ 40013 10 main_holds H2 H3 H5 small_list _ _ _ [] main_m1 [] main_m2 R4 R5 F1 A1 A2).
Qed.

(** ** C90, C92: archiving what was read *)
Definition main_t1 : list model := [main_m1].
Lemma main_no_gaps : Forall S_Pics.no_gaps [main_m1].
Proof.
  constructor; [|constructor]. assert (H : exists l, md_blocks main_m1 = l /\ length l = 2%nat) by (eexists; split; vm_compute; reflexivity).
  destruct H as (l & H1 & H2). intros b0 b1 rest b HB Hb. rewrite H1 in HB. rewrite HB in H2. cbn [length] in H2. destruct rest; [destruct Hb|discriminate].
Qed.
Definition def_b (m : model) : bool := forallb (fun b => forallb (fun p => match value_getter C_PicsRead.text_env (p_base p) (p_sf p) with Ok _ => true | Raise _ => false end) (all_points b)) (md_blocks m).
Lemma def_ok m : def_b m = true -> S_PicsRead.values_defined C_PicsRead.text_env m.
Proof.
  intros H b p HB HP. unfold def_b in H. rewrite forallb_forall in H. specialize (H b HB).
  rewrite forallb_forall in H. specialize (H p HP). destruct (value_getter _ _ _) as [v|]; [now exists v|discriminate].
Qed.
Lemma main_defined : Forall (S_PicsRead.values_defined C_PicsRead.text_env) [main_m1].
Proof. constructor; [|constructor]. apply def_ok. vm_compute. reflexivity. Qed.
Definition archived {D} (c : sclient D) (s : D) : Prop := exists s1 ms s2 ms',
  scan c LF C_Device.ex_types None 10 s new_cdevice = (s1, mkCD (Some 40000) ms, Ok tt) /\
  device_read_points (scl_dev c) s1 ms = (s2, ms', Ok tt) /\ Forall2 (values_read main_mem) ms ms' /\
  forall a, exists x d', M_Pics.device_to_pics C_PicsRead.text_env false (M_Pics.mkDevice (BInt 40000) ms') = Ok x /\
    M_Pics.device_from_pics C_PicsRead.text_env LF C_Device.ex_types (M_Pics.new_device a) x = (d', Ok tt) /\ Forall2 S_Pics.restored_model ms' (M_Pics.d_models d').
Example C90_ex_rtu : archived rtu main_regs.
Proof.
  destruct main_hyp as (H1 & H2 & H3 & H4 & H5 & _). destruct read_rtu as (R1 & R2 & R3). destruct (read_eq rtu main_regs R1 R2 R3) as [R4 R5].
  destruct (C_PicsRead.C90_rtu_archive_partial C_PicsRead.text_env _ norm_dev norm 1 123 C_PicsRead.C90_float_texts (norm_dev_serves 1) (norm_dev_writes 1) norm_ok main_slave ltac:(lia)
    LF C_Device.ex_types H1 C_PicsRead.C90_ex_hyp main_regs 40000 _ 40013 10 H2 H3 H4 main_fits H5 small_list) as (s1 & ms & s2 & ms' & A1 & A2 & A3 & A4).
  exists s1, ms, s2, ms'. do 3 (split; [assumption|]).
  assert (HM : ms' = [main_m1]).
  { rewrite A1 in R4. apply pair_equal_spec in R4 as [R4 _]. apply pair_equal_spec in R4 as [R4 R4']. rewrite <- R4, <- R4' in R5. cbn [cd_models] in R5. rewrite A2 in R5.
    apply pair_equal_spec in R5 as [R5 _]. apply pair_equal_spec in R5 as [_ R5]. exact R5. }
  rewrite HM in *. exact (A4 main_no_gaps main_defined).
Qed.
Example C90_ex_tcp : archived net (SNone, main_regs).
Proof.
  destruct main_hyp as (H1 & H2 & H3 & H4 & H5 & _). destruct read_tcp as (R1 & R2 & R3). destruct (read_eq net (SNone, main_regs) R1 R2 R3) as [R4 R5].
  destruct (C_PicsRead.C90_tcp_archive_partial C_PicsRead.text_env _ norm_srv norm 1 123 C_PicsRead.C90_float_texts (proj1 (norm_srv_serves 1)) (norm_srv_writes 1) (proj2 (norm_srv_serves 1)) main_slave ltac:(lia)
    LF C_Device.ex_types H1 C_PicsRead.C90_ex_hyp SNone main_regs 40000 _ 40013 10 (or_intror eq_refl) H2 H3 H4 main_fits H5 small_list) as (s1 & ms & s2 & ms' & A1 & A2 & A3 & A4).
  exists s1, ms, s2, ms'. do 3 (split; [assumption|]).
  assert (HM : ms' = [main_m1]).
  { rewrite A1 in R4. apply pair_equal_spec in R4 as [R4 _]. apply pair_equal_spec in R4 as [R4 R4']. rewrite <- R4, <- R4' in R5. cbn [cd_models] in R5. rewrite A2 in R5.
    apply pair_equal_spec in R5 as [R5 _]. apply pair_equal_spec in R5 as [_ R5]. exact R5. }
  rewrite HM in *. exact (A4 main_no_gaps main_defined).
Qed.
Definition ints_b (m : model) : bool := forallb (fun b => forallb (fun p => match p_base p, p_sf p with VFlt _, _ => false | _, VFlt _ => false | _, _ => true end) (b_points b)) (md_blocks m).
Lemma ints_ok m : ints_b m = true -> S_NotEq.no_nans [m].
Proof.
  intros H m0 b p [<-|[]] HB HP. unfold ints_b in H. rewrite forallb_forall in H. specialize (H b HB). rewrite forallb_forall in H. specialize (H p HP).
  split; intros HN; unfold S_NotEq.is_nan in HN; rewrite HN in H; [discriminate|]. destruct (p_base p); discriminate.
Qed.
Lemma main_no_nans : S_NotEq.no_nans [main_m1].
Proof. apply ints_ok. vm_compute. reflexivity. Qed.
Example C92_ex_archive : forall base a, exists e d' diff, M_Pics.device_to_pics C_PicsRead.text_env false (M_Pics.mkDevice base [main_m1]) = Ok e /\
  M_Pics.device_from_pics C_PicsRead.text_env LF C_Device.ex_types (M_Pics.new_device a) e = (d', Ok tt) /\
  M_NotEq.device_not_equal [main_m1] (M_Pics.d_models d') = Ok diff /\ (diff = false <-> Forall S_PicsEq.unset_scaled [main_m1]).
Proof.
  destruct main_hyp as (H1 & H2 & H3 & H4 & H5 & _). destruct C73_ex_rtu as (s1 & ms & s2 & ms' & A1 & A2 & A3 & A4). destruct read_rtu as (R1 & R2 & R3). destruct (read_eq rtu main_regs R1 R2 R3) as [R4 R5].
  assert (HM : ms' = [main_m1]).
  { rewrite A1 in R4. apply pair_equal_spec in R4 as [R4 _]. apply pair_equal_spec in R4 as [R4 R4']. rewrite <- R4, <- R4' in R5. cbn [cd_models] in R5. rewrite A3 in R5.
    apply pair_equal_spec in R5 as [R5 _]. apply pair_equal_spec in R5 as [_ R5]. exact R5. }
  rewrite HM in *.
  apply (C_PicsEq.C92_archive_partial C_PicsRead.text_env LF C_Device.ex_types C_PicsRead.C90_float_texts H1 C_PicsRead.C90_ex_hyp C_PicsEq.C92_one_object main_mem _ ms [main_m1] H2 H5 A2 A4 main_no_gaps main_defined).
  - constructor; [|constructor]. exists C_Device.ex_mt. split; vm_compute; reflexivity.
  - exact main_no_nans.
Qed.

(** ** C116: the same with Python's own texts of floats, through a file *)
Definition py0 : pyenv := M_FloatText.py_env (pow10 C_PicsRead.text_env).
Definition defp_b (m : model) : bool := forallb (fun b => forallb (fun p => match value_getter py0 (p_base p) (p_sf p) with Ok _ => true | Raise _ => false end) (all_points b)) (md_blocks m).
Lemma defp_ok m : defp_b m = true -> S_PicsRead.values_defined py0 m.
Proof.
  intros H b p HB HP. unfold defp_b in H. rewrite forallb_forall in H. specialize (H b HB).
  rewrite forallb_forall in H. specialize (H p HP). destruct (value_getter _ _ _) as [v|]; [now exists v|discriminate].
Qed.
Definition plain_b (s : str) : bool := forallb (fun c => (32 <=? c) && (c <=? 126)) s.
Definition clean_b (m : model) : bool := match M_Device.md_index m with BStr s => plain_b s | _ => true end &&
  forallb (fun b => forallb (fun p => plain_b (pt_id (p_type p)) && match p_base p with VStr _ => false | _ => true end) (b_points b ++ b_sfs b)) (md_blocks m).
Lemma plain_ok s : plain_b s = true -> Forall S_XmlText.xml_char s.
Proof. intros H. apply Forall_forall. intros c Hc. unfold plain_b in H. rewrite forallb_forall in H. specialize (H c Hc). unfold S_XmlText.xml_char. lia. Qed.
Lemma clean_ok m : clean_b m = true -> S_XmlText.clean_model m.
Proof.
  intros H. unfold clean_b in H. apply andb_prop in H as [H1 H2]. split.
  - intros s E. rewrite E in H1. now apply plain_ok.
  - intros b p HB HP. rewrite forallb_forall in H2. specialize (H2 b HB). rewrite forallb_forall in H2. specialize (H2 p (proj2 (in_app_iff _ _ _) HP)).
    apply andb_prop in H2 as [H2 H3]. split; [now apply plain_ok|]. intros s E. rewrite E in H3. discriminate.
Qed.
Example C116_ex_archive : forall base a, exists e, M_Pics.device_to_pics py0 false (M_Pics.mkDevice base [main_m1]) = Ok e /\
  forall pretty fs name, fs name = Some (M_Path.FFile (M_XmlText.tostring (M_DataText.pics_document pretty e)) None) ->
  exists d', M_Files.device_from_file py0 LF C_Device.ex_types fs M_XmlText.fromstring (M_Pics.new_device a) name None None = (d', Ok tt) /\ Forall2 S_Pics.restored_model [main_m1] (M_Pics.d_models d').
Proof.
  destruct main_hyp as (H1 & H2 & H3 & H4 & H5 & _). destruct C73_ex_rtu as (s1 & ms & s2 & ms' & A1 & A2 & A3 & A4). destruct read_rtu as (R1 & R2 & R3). destruct (read_eq rtu main_regs R1 R2 R3) as [R4 R5].
  assert (HM : ms' = [main_m1]).
  { rewrite A1 in R4. apply pair_equal_spec in R4 as [R4 _]. apply pair_equal_spec in R4 as [R4 R4']. rewrite <- R4, <- R4' in R5. cbn [cd_models] in R5. rewrite A3 in R5.
    apply pair_equal_spec in R5 as [R5 _]. apply pair_equal_spec in R5 as [_ R5]. exact R5. }
  rewrite HM in *.
  apply (C_FloatText.C116_archive_gapless _ LF C_Device.ex_types H1 C_PicsRead.C90_ex_hyp main_mem _ ms [main_m1] H2 H5 A2 A4 main_no_gaps).
  - constructor; [|constructor]. apply defp_ok. vm_compute. reflexivity.
  - constructor; [|constructor]. apply clean_ok. vm_compute. reflexivity.
Qed.

(** ** C97: a program that scans, reads, assigns, writes (C_Session.ex_next) on the three transports at once *)
Lemma within_ok lo hi w q : within_b lo hi w q = true -> within lo hi w q.
Proof.
  destruct q as [a n|a d]; cbn [within_b within]; intros H; repeat (apply andb_prop in H as [H ?]).
  - lia.
  - do 4 (split; [lia|]). rewrite Forall_forall. intros x Hx. match goal with HF : forallb _ d = true |- _ => rewrite forallb_forall in HF; specialize (HF x Hx) end. unfold is_byte. lia.
Qed.
Example C97_ex_full : exists s1' k' s2' m' cd' results,
  program rtu C_Scale.env_ex 10 10 C_Device.ex_types 20 (ex_next 40000) main_regs new_cdevice [] = (s1', cd', results) /\
  program net C_Scale.env_ex 10 10 C_Device.ex_types 20 (ex_next 40000) (SNone, main_regs) new_cdevice [] = ((k', s2'), cd', results) /\
  program map_client C_Scale.env_ex 10 10 C_Device.ex_types 20 (ex_next 40000) main_loaded new_cdevice [] = (m', cd', results) /\
  results = ex_results.
Proof.
  pose (run := program ideal_client C_Scale.env_ex 10 10 C_Device.ex_types 20 (ex_next 40000) (main_mem, []) new_cdevice []).
  assert (E1 : program ideal_client C_Scale.env_ex 10 10 C_Device.ex_types 20 (ex_next 40000) (main_mem, []) new_cdevice [] = ((fst (fst (fst run)), snd (fst (fst run))), snd (fst run), snd run)).
  { change (program ideal_client C_Scale.env_ex 10 10 C_Device.ex_types 20 (ex_next 40000) (main_mem, []) new_cdevice []) with run. destruct run as [[[a b] c0] d0]. reflexivity. }
  assert (HW : Forall (within 40000 40014 123) (snd (fst (fst run)))).
  { rewrite Forall_forall. intros q Hq. apply within_ok. revert q Hq. apply forallb_forall. vm_compute. reflexivity. }
  destruct (C97_same_on_every_transport _ norm_dev norm 1 _ norm_srv norm 1 123 (norm_dev_serves 1) (norm_dev_writes 1) norm_ok main_slave (proj1 (norm_srv_serves 1)) (norm_srv_writes 1) (proj2 (norm_srv_serves 1)) main_slave ltac:(lia)
    40000 40014 ltac:(lia) ltac:(lia) C_Scale.env_ex 10%nat 10%nat C_Device.ex_types (ex_next 40000) 20%nat main_regs SNone main_regs main_loaded main_mem new_cdevice (or_intror eq_refl) (fun x => eq_refl) (fun x => eq_refl) main_holds
    _ _ _ _ E1 HW) as (s1' & k' & s2' & m' & A1 & A2 & A3 & _).
  exists s1', k', s2', m', (snd (fst run)), (snd run). do 3 (split; [assumption|]). vm_compute. reflexivity.
Qed.

(** ** C49: a line that answers every request with the same bytes, and a server that does; the scan ends *)
Definition parrot : sdev nat := fun s _ => (S s, Some (mkWire [1; 3; 6; 83; 117; 110; 83; 0; 1; 9; 9] [3; 1] WEmpty)).
Definition parrot_srv : server nat := mkServer _ (fun s => (s, true)) (fun s _ => (S s, Some (mkWire [0; 0; 0; 0; 0; 9; 1; 3; 6; 83; 117; 110; 83; 0; 1] [3; 1] WEmpty))).
Example C49_ex_lines : byte_line parrot /\ byte_server parrot_srv.
Proof.
  split; intros s req s' w H; apply (f_equal snd) in H; cbn [parrot parrot_srv srv_send snd] in H; apply Some_inj in H; subst w;
    (split; [repeat constructor; unfold is_byte; lia|discriminate]).
Qed.
Example C49_ex_ends : exists n, forall fuel, (n <= fuel)%nat -> snd (scan (rtu_client parrot false true 1) fuel C_Device.ex_types None fuel O new_cdevice) <> Raise EFuel /\
  snd (scan (tcp_client parrot_srv false 1) fuel C_Device.ex_types None fuel (SNone, O) new_cdevice) <> Raise EFuel.
Proof.
  destruct C_Scan.C49_ex as [HG _]. destruct (C_Scan.C49_rtu_scan_terminates _ HG) as (n1 & H1). destruct (C_Scan.C49_tcp_scan_terminates _ HG) as (n2 & H2).
  exists (n1 + n2)%nat. intros fuel HF. split; [apply H1; [apply C49_ex_lines|lia|lia]|]. apply H2; try lia; apply C49_ex_lines.
Qed.
