(** * C_Script: property C95: scripts of assignments through the wrapper of a model, from scanning to reading back.

    Specification: S_Script ([attribute], [accepted], [last_assigned], [untouched], [shows]); device side as in C73, C74. *)
From Coq Require Import String Reals.
From Verif Require C_Scale C_Scan C_Client C_Device C_Rtu C_Tcp C_Assign.
From Verif Require Import Py P_List M_Util M_Float M_Suns M_Point M_Wire M_Rtu M_Tcp S_Tcp M_Mbmap S_Mbmap M_Device S_Device C_Device S_Codec S_Scale S_Assign
  M_Client S_Client P_Client P_Client2 P_Client3 P_Client4 M_Scan S_Scan S_Stack P_Stack P_Stack2 C_Stack M_Wrapper S_Script P_Script.

(** *** what is known about a model that was just read *)
Record freshly_read (m : model) : Prop := {
  fr_exposed : md_exposed m = true;
  fr_clean : Forall (fun p => p_dirty p = false) (points_of m);
  fr_size : forall p, In p (points_of m) -> size_ok (p_type p);
  fr_sf : forall p, In p (points_of m) -> p_link p = SfNone -> p_sf p = VNone }.
Lemma loaded_exposed lfuel types id addr len m : model_load lfuel types (new_model id addr len) = (m, Ok tt) -> md_exposed m = true.
Proof.
  unfold model_load, new_model. cbn [md_id md_len md_addr md_blocks md_reads md_exposed md_error md_index]. intros H. destruct (types id) as [mt|]; [|discriminate].
  destruct (if len =? 0 then mt_len mt else Some len) as [n|]; [|discriminate]. destruct (base_int (bt_len (mt_fixed mt))) as [bl|]; [|discriminate].
  destruct (load_loop _ _ _ _ _ _ _ _ _ _) as [[bs rs] r]. apply pair_equal_spec in H as [H ->]. subst m. reflexivity.
Qed.
Lemma model_read_fresh lfuel types mem x m m1 : model_for lfuel types x m -> readable lfuel types x -> values_read mem m m1 -> md_type m1 <> None -> freshly_read m1.
Proof.
  destruct x as [[id addr] len]. intros HM HR HV HT. destruct (readable_loaded _ _ _ _ _ _ HR HM) as [HN|(HL & HLD & HE)].
  { unfold values_read in HV. rewrite HN in HV. subst m1. contradiction. }
  pose proof (pl_type _ _ _ (loaded_placed _ _ _ HLD)) as HTM. unfold values_read in HV. destruct (md_type m) as [mt|] eqn:EMT; [|congruence]. clear HTM.
  pose proof (loaded_placed _ _ _ (loaded_erase _ _ _ _ (model_read_erase _ _ _ HV) HLD)) as HP1.
  assert (HEX : md_exposed m = true).
  { destruct HM as (_ & _ & _ & HM). destruct HR as [(e & HR)|(_ & HOK & _)].
    - unfold model_load in HM. cbn [md_id new_model] in HM. rewrite HR in HM. destruct HM as (_ & _ & HM). cbn [md_type] in HM. congruence.
    - destruct (model_load lfuel types (new_model id addr len)) as [m' r] eqn:EL. cbn [snd] in HOK. subst r m'. eapply loaded_exposed; eauto. }
  pose proof (fresh_clean _ HE) as HD.
  assert (HPT : forall p1, In p1 (points_of m1) -> p_dirty p1 = false /\ (p_link p1 = SfNone -> p_sf p1 = VNone)).
  { assert (HSF : forall p, In p (points_of m) -> p_sf p = VNone /\ p_dirty p = false).
    { intros p HP. rewrite Forall_forall in HD. split; [|now apply HD]. unfold points_of in HP. apply in_flat_map in HP as (b & HB & HP).
      rewrite <- HE in HB. unfold erase in HB. cbn [md_blocks with_blocks] in HB. apply in_map_iff in HB as (b0 & <- & _). cbn [erase_block b_points] in HP.
      apply in_map_iff in HP as (p0 & <- & _). reflexivity. }
    destruct HV as (fixed & _ & HF & _). intros p1 HP1'. apply in_flat_map in HP1' as (b1 & HB1 & HP1').
    assert (HX : forall l l', Forall2 (block_read mem fixed) l l' -> In b1 l' -> exists b, In b l /\ block_read mem fixed b b1).
    { clear. induction 1 as [|b b' l l' H1 H2 IH]; intros HI; [destruct HI|]. destruct HI as [<-|HI]; [exists b; split; [now left|exact H1]|]. destruct (IH HI) as (c & C1 & C2). exists c. split; [now right|exact C2]. }
    destruct (HX _ _ HF HB1) as (b & HB & (_ & _ & _ & _ & _ & HBP)).
    assert (HY : forall l l', Forall2 (point_read mem fixed b1) l l' -> In p1 l' -> exists p, In p l /\ point_read mem fixed b1 p p1).
    { clear. induction 1 as [|p p' l l' H1 H2 IH]; intros HI; [destruct HI|]. destruct HI as [<-|HI]; [exists p; split; [now left|exact H1]|]. destruct (IH HI) as (c & C1 & C2). exists c. split; [now right|exact C2]. }
    destruct (HY _ _ HBP HP1') as (p & HP & ((T1 & T2 & T3 & T4 & T5) & v & _ & HV)).
    destruct (HSF p) as [S1 S2]; [apply in_flat_map; eauto|]. split; [congruence|]. intros HL1.
    destruct (implemented p v); [|tauto]. destruct HV as [_ [[_ HV]|HV]]; [congruence|]. rewrite <- T3, HL1 in HV. inversion HV. }
  destruct HV as (fixed & HV1 & HV2 & HV3). split.
  - rewrite HV3. cbn [md_exposed with_blocks]. exact HEX.
  - rewrite Forall_forall. intros p HP. apply (HPT p HP).
  - intros p HP. apply in_flat_map in HP as (b & HB & HP). apply (pl_range _ _ _ HP1 b p HB). unfold all_points. apply in_or_app. now left.
  - intros p HP. apply (HPT p HP).
Qed.
Lemma device_read_fresh lfuel types mem l ms : Forall2 (model_for lfuel types) l ms -> Forall (readable lfuel types) l -> forall ms' pre m1 post,
  Forall2 (values_read mem) ms ms' -> ms' = pre ++ m1 :: post -> md_type m1 <> None -> freshly_read m1.
Proof.
  induction 1 as [|x m l ms HM HMS IH]; intros HR ms' pre m1 post HV EM HT; [inversion HV; subst; destruct pre; discriminate|].
  inversion HR as [|? ? R1 R2]. subst. destruct pre as [|y pre]; cbn [app] in HV; inversion HV as [|? m' ? ms1 V1 V2]; subst.
  - eapply model_read_fresh; eauto.
  - eapply IH; eauto.
Qed.
Lemma clean_fine m : Forall (fun p => p_dirty p = false) (points_of m) -> Forall fine (points_of m).
Proof. apply Forall_impl. intros p H1 H2. congruence. Qed.

(** *** the script on a freshly read model *)
Lemma script_on_fresh E m1 ops : freshly_read m1 -> Forall (accepted E m1) ops ->
  exists m2, script_sets E m1 ops = Ok m2 /\ assigned m1 m2 /\ Forall storable (modified m2) /\ shows E m1 ops (clean m2).
Proof.
  intros HF HA. pose proof (fr_exposed _ HF) as HE. destruct (script_succeeds E ops m1 HE HA (clean_fine _ (fr_clean _ HF))) as (m2 & E2 & F2).
  exists m2. split; [exact E2|]. split; [|split; [now apply fine_modified|now apply script_values]].
  eapply (script_assigned E m1 HE ops m1 m2); [apply assigned_refl|exact E2|]. now apply accepted_settable with (E := E).
Qed.

(** ** C95: a script assigns values through the wrapper of one model (to the model itself and to its repeating blocks);
    write() then succeeds, and after reading the whole device again every attribute of this model shows what was assigned to
    it last, or else what it showed before, and the points of all other models are as they were. *)
Theorem C95_rtu_script :
  forall D (dev : sdev D) (regs : D -> S_Modbus.memory) slave lim,
  S_Modbus.serves_reads dev regs slave 3 -> S_Modbus.serves_writes dev regs slave lim -> (forall s, S_Modbus.mem_ok (regs s)) -> is_byte slave -> lim <= 125 ->
  forall lfuel types, loads_end lfuel types ->
  forall s b l e fuel, let mem := byte_view (regs s) in
  byte_memory mem -> sunspec_map mem b l e -> first_marker mem b -> e < 65536 -> Forall (readable lfuel types) l -> (length l < fuel)%nat ->
  forall s1 cd s2 pre m1 post E ops,
    scan (rtu_client dev false true slave) lfuel types None fuel s new_cdevice = (s1, cd, Ok tt) ->
    device_read_points (scl_dev (rtu_client dev false true slave)) s1 (cd_models cd) = (s2, pre ++ m1 :: post, Ok tt) ->
    md_type m1 <> None -> 125 <= lim \/ md_len m1 <= lim -> Forall (accepted E m1) ops ->
  exists m2 s3 m3 s4, script_sets E m1 ops = Ok m2 /\ write_points (scl_dev (rtu_client dev false true slave)) s2 m2 = (s3, m3, Ok tt) /\
    device_read_points (scl_dev (rtu_client dev false true slave)) s3 (pre ++ m3 :: post) = (s4, pre ++ m3 :: post, Ok tt) /\
    shows E m1 ops m3.
Proof.
  intros D dev regs slave lim H1 H2 H3 H4 H5 lfuel types HLE s b l e fuel mem HB HM HF HE HR HN s1 cd s2 pre m1 post E ops ES ER HT HL HA.
  destruct (C73_rtu_scan_and_read D dev regs slave lim H1 H2 H3 H4 H5 lfuel types HLE s b l e fuel HB HM HF HE HR HN) as (s1' & ms & s2' & ms' & A1 & A2 & A3 & A4).
  pose proof ES as ES'. rewrite A1 in ES'. apply pair_equal_spec in ES' as [ES' _]. apply pair_equal_spec in ES' as [<- <-]. cbn [cd_models] in *.
  rewrite A3 in ER. apply pair_equal_spec in ER as [ER' _]. apply pair_equal_spec in ER' as [<- EM].
  pose proof (device_read_fresh _ _ _ _ _ A2 HR _ _ _ _ A4 EM HT) as HFR. destruct (script_on_fresh E m1 ops HFR HA) as (m2 & E2 & S1 & S2 & S3).
  subst ms'. destruct (C74_rtu_write_isolated D dev regs slave lim H1 H2 H3 H4 ltac:(lia) lfuel types HLE s b l e fuel HB HM HF HE HR HN _ _ _ pre m1 post m2 ES A3 HT HL S1 S2) as (s3 & s4 & W1 & W2).
  exists m2, s3, (clean m2), s4. auto.
Qed.
Print Assumptions C95_rtu_script.
Theorem C95_tcp_script :
  forall D (srv : server D) (regs : D -> S_Modbus.memory) slave lim,
  tcp_serves_reads srv regs slave 3 -> tcp_serves_writes srv regs slave lim -> tcp_accepts srv regs -> is_byte slave -> lim <= 125 ->
  forall lfuel types, loads_end lfuel types ->
  forall k s b l e fuel, let mem := byte_view (regs s) in k = SConn [] \/ k = SNone ->
  byte_memory mem -> sunspec_map mem b l e -> first_marker mem b -> e < 65536 -> Forall (readable lfuel types) l -> (length l < fuel)%nat ->
  forall s1 cd s2 pre m1 post E ops,
    scan (tcp_client srv false slave) lfuel types None fuel (k, s) new_cdevice = (s1, cd, Ok tt) ->
    device_read_points (scl_dev (tcp_client srv false slave)) s1 (cd_models cd) = (s2, pre ++ m1 :: post, Ok tt) ->
    md_type m1 <> None -> md_len m1 <= lim -> Forall (accepted E m1) ops ->
  exists m2 s3 m3 s4, script_sets E m1 ops = Ok m2 /\ write_points (scl_dev (tcp_client srv false slave)) s2 m2 = (s3, m3, Ok tt) /\
    device_read_points (scl_dev (tcp_client srv false slave)) s3 (pre ++ m3 :: post) = (s4, pre ++ m3 :: post, Ok tt) /\
    shows E m1 ops m3.
Proof.
  intros D srv regs slave lim H1 H2 H3 H4 H5 lfuel types HLE k s b l e fuel mem HK HB HM HF HE HR HN s1 cd s2 pre m1 post E ops ES ER HT HL HA.
  destruct (C73_tcp_scan_and_read D srv regs slave lim H1 H2 H3 H4 H5 lfuel types HLE k s b l e fuel HK HB HM HF HE HR HN) as (s1' & ms & s2' & ms' & A1 & A2 & A3 & A4).
  pose proof ES as ES'. rewrite A1 in ES'. apply pair_equal_spec in ES' as [ES' _]. apply pair_equal_spec in ES' as [<- <-]. cbn [cd_models] in *.
  rewrite A3 in ER. apply pair_equal_spec in ER as [ER' _]. apply pair_equal_spec in ER' as [<- EM].
  pose proof (device_read_fresh _ _ _ _ _ A2 HR _ _ _ _ A4 EM HT) as HFR. destruct (script_on_fresh E m1 ops HFR HA) as (m2 & E2 & S1 & S2 & S3).
  subst ms'. destruct (C74_tcp_write_isolated D srv regs slave lim H1 H2 H3 H4 ltac:(lia) lfuel types HLE k s b l e fuel HK HB HM HF HE HR HN _ _ _ pre m1 post m2 ES A3 HT HL S1 S2) as (s3 & s4 & W1 & W2).
  exists m2, s3, (clean m2), s4. auto.
Qed.
Print Assumptions C95_tcp_script.
Theorem C95_mapped_script :
  forall lfuel types, loads_end lfuel types ->
  forall m mem l e fuel, map_holds 40000 (e + 1) m mem ->
  byte_memory mem -> sunspec_map mem 40000 l e -> Forall (readable lfuel types) l -> (length l < fuel)%nat ->
  forall s1 cd s2 pre m1 post E ops,
    scan map_client lfuel types None fuel m new_cdevice = (s1, cd, Ok tt) ->
    device_read_points (scl_dev map_client) s1 (cd_models cd) = (s2, pre ++ m1 :: post, Ok tt) ->
    md_type m1 <> None -> Forall (accepted E m1) ops ->
  exists m2 s3 m3 s4, script_sets E m1 ops = Ok m2 /\ write_points (scl_dev map_client) s2 m2 = (s3, m3, Ok tt) /\
    device_read_points (scl_dev map_client) s3 (pre ++ m3 :: post) = (s4, pre ++ m3 :: post, Ok tt) /\
    shows E m1 ops m3.
Proof.
  intros lfuel types HLE m mem l e fuel HH HB HM HR HN s1 cd s2 pre m1 post E ops ES ER HT HA.
  destruct (C73_mapped_scan_and_read lfuel types HLE m mem l e fuel HH HB HM HR HN) as (s1' & ms & s2' & ms' & A1 & A2 & A3 & A4).
  pose proof ES as ES'. rewrite A1 in ES'. apply pair_equal_spec in ES' as [ES' _]. apply pair_equal_spec in ES' as [<- <-]. cbn [cd_models] in *.
  rewrite A3 in ER. apply pair_equal_spec in ER as [ER' _]. apply pair_equal_spec in ER' as [<- EM].
  pose proof (device_read_fresh _ _ _ _ _ A2 HR _ _ _ _ A4 EM HT) as HFR. destruct (script_on_fresh E m1 ops HFR HA) as (m2 & E2 & S1 & S2 & S3).
  subst ms'. destruct (C74_mapped_write_isolated lfuel types HLE m mem l e fuel HH HB HM HR HN _ _ _ pre m1 post m2 ES A3 HT S1 S2) as (s3 & s4 & W1 & W2).
  exists m2, s3, (clean m2), s4. auto.
Qed.
Print Assumptions C95_mapped_script.

(** ** which assignments are accepted, and what the attribute shows afterwards.  Integers, to a point without scale
    factor: whatever the registers can hold and is not the code for "not implemented" reads back exactly. *)
Theorem C95_integers_read_back :
  forall E p z, int_type (pt_type (p_type p)) = true -> pt_type (p_type p) <> Tuint64 -> pt_type (p_type p) <> Tacc64 -> size_ok (p_type p) ->
  p_link p = SfNone -> p_sf p = VNone ->
  in_range (type_bytes (pt_type (p_type p))) (signed_type (pt_type (p_type p))) z -> z <> unimpl_int (pt_type (p_type p)) ->
  (forall m i id, attribute m i id p -> accepted E m (i, id, VInt z)) /\
  (forall b, value_setter E (pt_type (p_type p)) (p_sf p) (VInt z) = Ok b -> value_getter E b (p_sf p) = Ok (VInt z)).
Proof.
  intros E p z HT N1 N2 HS HL HSF HR HU.
  assert (HSET : value_setter E (pt_type (p_type p)) (p_sf p) (VInt z) = Ok (VInt z)).
  { rewrite HSF. apply C_Assign.C87_assign_int_point; [left; reflexivity| |exists z; split; [constructor|reflexivity]].
    unfold holds_int, holds_text. destruct (pt_type (p_type p)); cbn [int_type] in HT; try discriminate HT; (split; [intros X; cbn [In] in X; decompose [or False] X; congruence|congruence]). }
  split.
  - intros m i id HA. exists p, (VInt z). split; [exact HA|]. split; [exact HSET|]. split; [|right; exact HL].
    eapply C_Client.C46_integers_storable with (z := z); cbn [p_type p_base]; auto.
  - intros b HB. rewrite HSET in HB. apply Ok_inj in HB. subst b. rewrite HSF. reflexivity.
Qed.
Print Assumptions C95_integers_read_back.
(** Scaled points: assigning the value that a register value n stands for (|n| <= 2^50) stores n and reads back exactly. *)
Theorem C95_scaled_read_back :
  forall E p sf f n v, int_type (pt_type (p_type p)) = true -> pt_type (p_type p) <> Tuint64 -> pt_type (p_type p) <> Tacc64 -> size_ok (p_type p) ->
  p_base p <> VNone -> p_sf p = VInt sf -> sf <> 0 -> pow10 E sf = Ok f -> good_scale f ->
  in_range (type_bytes (pt_type (p_type p))) (signed_type (pt_type (p_type p))) n -> n <> unimpl_int (pt_type (p_type p)) -> Z.abs n <= 2 ^ 50 ->
  value_getter E (VInt n) (VInt sf) = Ok v ->
  (forall m i id, attribute m i id p -> accepted E m (i, id, v)) /\
  (forall b, value_setter E (pt_type (p_type p)) (p_sf p) v = Ok b -> b = VInt n /\ value_getter E b (p_sf p) = Ok v).
Proof.
  intros E p sf f n v HT N1 N2 HS HB HSF NZ HP HG HR HU HA HV. destruct (C_Scale.C11_reassign_keeps_registers E sf f n (pt_type (p_type p)) NZ HP HG HA) as (w & W1 & W2).
  rewrite HV in W1. apply Ok_inj in W1. subst w. split.
  - intros m i id HAT. exists p, (VInt n). split; [exact HAT|]. rewrite HSF. split; [exact W2|]. split; [|left; exact HB].
    eapply C_Client.C46_integers_storable with (z := n); cbn [p_type p_base]; auto.
  - intros b HBB. rewrite HSF in *. rewrite W2 in HBB. apply Ok_inj in HBB. subst b. split; [reflexivity|exact HV].
Qed.
Print Assumptions C95_scaled_read_back.
(** An assignment to a name that is no point is ignored; one to a repeating block that does not exist is an IndexError. *)
Theorem C95_no_such_attribute :
  forall E m i id v, md_exposed m = true -> md_blocks m <> [] -> (forall p, ~ attribute m i id p) ->
  match nth_error (md_blocks m) i with
  | Some _ => script_set E m i id v = Ok m /\ script_get E m i id = Ok VNone
  | None => script_set E m i id v = Raise EIndex /\ script_get E m i id = Raise EIndex
  end.
Proof.
  intros E m i id v HE HNE HN. destruct (nth_error (md_blocks m) i) as [b|] eqn:EB.
  - assert (HF : forall q, In q (b_points b) -> p_id q <> id).
    { intros q HQ HID. assert (HX : exists p, attribute m i id p); [|destruct HX as (p & HX); exact (HN p HX)].
      assert (HY : forall l, In q l -> exists a p c, l = a ++ p :: c /\ p_id p = id /\ Forall (fun q => p_id q <> id) a).
      { clear - HID. induction l as [|x l IH]; intros H; [destruct H|]. destruct (eqb_list (p_id x) id) eqn:E.
        - apply eqb_list_eq in E. exists [], x, l. auto.
        - apply eqb_list_neq in E. destruct H as [->|H]; [contradiction|]. destruct (IH H) as (a & p & c & -> & H1 & H2). exists (x :: a), p, c. auto. }
      destruct (HY _ HQ) as (a & p & c & H1 & H2 & H3). exists p, b, a, c. auto. }
    assert (HS : set_in E (b_points b) id v = Ok (b_points b)).
    { clear - HF. induction (b_points b) as [|q l IH]; [reflexivity|]. cbn [set_in]. assert (HQ := HF q (or_introl eq_refl)). apply eqb_list_neq in HQ. rewrite HQ, IH; [reflexivity|].
      intros x HX. apply HF. now right. }
    assert (HG : get_in E (b_points b) id = Ok VNone).
    { unfold get_in, find_point. destruct (find _ _) as [q|] eqn:EF; [|reflexivity]. apply find_some in EF as [F1 F2]. apply eqb_list_eq in F2. exfalso. exact (HF q F1 F2). }
    assert (HSP : set_points b (b_points b) = b) by now destruct b.
    destruct m as [a1 a2 a3 a4 a5 ex bl a6 a7]. cbn [md_exposed md_blocks] in *. subst ex. destruct i as [|k]; cbn [script_set script_get]; unfold wmodel_set, model_points; cbn [md_exposed md_blocks].
    + destruct bl as [|b0 r]; [discriminate|]. cbn [nth_error] in EB. apply Some_inj in EB. subst b0. rewrite HS. cbn [bind]. rewrite HSP. auto.
    + destruct bl as [|b0 r]; [discriminate|]. cbn [nth_error tl] in *. rewrite EB. split; [|exact HG].
      assert (HSB : set_block E r k id v = Ok r).
      { clear - EB HS HSP. revert k EB. induction r as [|x r IH]; intros [|k] EB; try discriminate; cbn [nth_error set_block] in *.
        - apply Some_inj in EB. subst x. rewrite HS. cbn [bind]. now rewrite HSP.
        - now rewrite (IH k EB). }
      rewrite HSB. reflexivity.
  - destruct i as [|k]; [destruct (md_blocks m); [congruence|discriminate]|]. destruct (md_blocks m) as [|b0 r] eqn:EBL; [congruence|]. cbn [nth_error] in EB. cbn [script_set script_get]. rewrite EBL. cbn [tl]. rewrite EB.
    split; [|reflexivity]. assert (HSB : set_block E r k id v = Raise EIndex); [|now rewrite HSB].
    clear - EB. revert k EB. induction r as [|x r IH]; intros [|k] EB; try discriminate; cbn [nth_error set_block] in *; try reflexivity. now rewrite (IH k EB).
Qed.
Print Assumptions C95_no_such_attribute.

(** ** a case that meets the hypotheses: the device of C74_ex_rtu (model 100 at 50004); a script sets C := 1 (no scale factor),
    A := 5 (scale factor -2), then A := 3, and V := 2 in the repeating block 1 (scale factor -2) *)
Definition ex_read : res (list model) :=
  let '(s1, cd, r1) := scan (rtu_client C_Rtu.ex_dev false true 1) 10 C_Device.ex_types None 10 C_Stack.ex_regs new_cdevice in
  let '(s2, ms, r2) := device_read_points (scl_dev (rtu_client C_Rtu.ex_dev false true 1)) s1 (cd_models cd) in
  match r1, r2 with Ok _, Ok _ => Ok ms | _, _ => Raise EIndex end.
Definition ex_m1 : model := Eval vm_compute in match ex_read with Ok (m :: _) => m | _ => new_model 0 0 0 end.
Definition ex_ops : list (nat * str * value) :=
  [(0%nat, lit "C"%string, VInt 1); (0%nat, lit "A"%string, VInt 5); (0%nat, lit "A"%string, VInt 3); (1%nat, lit "V"%string, VInt 2)].
Definition ex_accept (op : nat * str * value) : bool :=
  let '(i, id, v) := op in
  match nth_error (md_blocks ex_m1) i with
  | Some b => match find_point id (b_points b) with
              | Some p => match value_setter C_Scale.env_ex (pt_type (p_type p)) (p_sf p) v with
                          | Ok x => match to_data (pt_type (p_type p)) x (2 * pt_len (p_type p)) with
                                    | Ok d => (zlen d =? 2 * pt_len (p_type p)) &&
                                              match data_to (pt_type (p_type p)) d, x, p_base p with
                                              | Ok (VInt y), VInt z, VInt _ => (y =? z) && is_impl (pt_type (p_type p)) x
                                              | _, _, _ => false
                                              end
                                    | Raise _ => false
                                    end
                          | Raise _ => false
                          end
              | None => false
              end
  | None => false
  end.
Lemma ex_accept_ok op : ex_accept op = true -> accepted C_Scale.env_ex ex_m1 op.
Proof.
  destruct op as [[i id] v]. unfold ex_accept, accepted. destruct (nth_error (md_blocks ex_m1) i) as [b|] eqn:EB; [|discriminate].
  destruct (find_point id (b_points b)) as [p|] eqn:EF; [|discriminate]. destruct (value_setter _ _ _ v) as [x|] eqn:EV; [|discriminate].
  destruct (to_data _ x _) as [d|] eqn:ED; [|discriminate]. intros H. apply andb_prop in H as [H1 H2]. destruct (data_to _ d) as [[| y | |]|] eqn:EDT; try discriminate H2.
  destruct x as [| z | |]; try discriminate H2. destruct (p_base p) as [| w | |] eqn:EPB; try discriminate H2. apply andb_prop in H2 as [H2 H3]. apply Z.eqb_eq in H1, H2. subst y.
  exists p, (VInt z). split; [|split; [exact EV|split; [|left; congruence]]].
  - unfold attribute. exists b. assert (HY : forall l, find_point id l = Some p -> exists a c, l = a ++ p :: c /\ p_id p = id /\ Forall (fun q => p_id q <> id) a).
    { clear. induction l as [|q l IH]; intros H; [discriminate|]. unfold find_point in *. cbn [find] in H. destruct (eqb_list (p_id q) id) eqn:E.
      - apply Some_inj in H. subst q. apply eqb_list_eq in E. exists [], l. auto.
      - apply eqb_list_neq in E. destruct (IH H) as (a & c & -> & H1 & H2). exists (q :: a), c. auto. }
    destruct (HY _ EF) as (a & c & H4 & H5 & H6). exists a, c. auto.
  - exists d. unfold encoding, implemented. cbn [p_type p_base]. auto.
Qed.
Example C95_ex_hyp : match ex_read with Ok (m :: _) => m | _ => new_model 0 0 0 end = ex_m1 /\ md_type ex_m1 <> None /\ md_len ex_m1 <= 125 /\
  Forall (accepted C_Scale.env_ex ex_m1) ex_ops.
Proof.
  split; [vm_compute; reflexivity|]. split; [discriminate|]. split; [vm_compute; discriminate|].
  rewrite Forall_forall. intros op HO. apply ex_accept_ok. revert op HO. apply forallb_forall. vm_compute. reflexivity.
Qed.
(** before and after: A (3.0), C (3), V (0.07); then A = 3.0, C = 1, V = 2.0, B and W as before *)
Definition ex_show (m : model) : list (res value) :=
  [script_get C_Scale.env_ex m 0 (lit "A"%string); script_get C_Scale.env_ex m 0 (lit "B"%string); script_get C_Scale.env_ex m 0 (lit "C"%string);
   script_get C_Scale.env_ex m 1 (lit "V"%string); script_get C_Scale.env_ex m 1 (lit "W"%string); script_get C_Scale.env_ex m 2 (lit "V"%string); script_get C_Scale.env_ex m 0 (lit "nosuch"%string)].
Example C95_ex : exists m2, script_sets C_Scale.env_ex ex_m1 ex_ops = Ok m2 /\
  map (fun p => (p_id p, p_base p)) (modified m2) = [(lit "A", VInt 300); (lit "C", VInt 1); (lit "V", VInt 200)]%string /\
  nth 2 (ex_show m2) (Raise EIndex) = Ok (VInt 1) /\ nth 1 (ex_show m2) (Raise EIndex) = nth 1 (ex_show ex_m1) (Raise EIndex) /\
  nth 5 (ex_show m2) (Raise EIndex) = Raise EIndex /\ nth 6 (ex_show m2) (Raise EIndex) = Ok VNone.
Proof. eexists. split; [vm_compute; reflexivity|]. repeat split; vm_compute; reflexivity. Qed.
