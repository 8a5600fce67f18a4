(** * C_Torn: property C86 (reads and writes of a model that fail). *)
From Verif Require Import Py P_List M_Util M_Float M_Suns S_Codec P_Codec M_Mbmap M_Device S_Device P_Device M_Client S_Client P_Client P_Client2 P_Client3 P_Client4 S_Torn P_Torn M_Wire M_Rtu M_Scan S_Stack P_Stack S_Fault P_Fault.
From Verif Require S_Modbus C_Scale C_Client C_Fault.

Lemma chunks_answers {D} (dv : mdev D) e starts : forall s data s' data', read_chunks dv s starts e data = (s', Ok data') ->
  exists ds, answers dv s (chunks starts e) ds s' /\ data' = data ++ concat ds.
Proof.
  induction starts as [|a rest IH]; intros s data s' data' H; cbn [chunks read_chunks] in *.
  - apply pair_equal_spec in H as [<- E]. apply Ok_inj in E. exists []. split; [constructor|]. now rewrite app_nil_r.
  - unfold cl_read in H. destruct (dv_read dv s a _) as [s1 [[d|]|x]] eqn:E1; try (apply pair_equal_spec in H as [_ H]; discriminate).
    destruct (IH _ _ _ _ H) as (ds & HA & ->). exists (d :: ds). split; [econstructor; eauto|]. cbn [concat]. now rewrite app_assoc.
Qed.
(** ** Reading a model is all or nothing: either no value changes, or the read succeeds and all values are decoded from one
    complete set of answers, whatever the device does *)
Theorem C86_read_all_or_nothing :
  forall D (dv : mdev D) s addr L m s' m' r, loaded addr L m -> 0 < L -> read_points dv s m = (s', m', r) ->
  m' = m \/
  r = Ok tt /\ exists ds mem, answers dv s (chunks (md_reads m) (addr + L)) ds s' /\ concat ds = mem_bytes mem addr L /\ model_read mem m m'.
Proof.
  intros D dv s addr L m s' m' r HL HL0 H. apply loaded_placed in HL. unfold read_points in H. pose proof (pl_type _ _ _ HL) as HT.
  destruct (md_type m) as [mt|]; [|congruence]. destruct (read_model_data dv s m) as [s1 [data|e]] eqn:ED.
  2:{ apply pair_equal_spec in H as [H _]. apply pair_equal_spec in H as [_ <-]. now left. }
  destruct data as [|x0 data0]; [apply pair_equal_spec in H as [H _]; apply pair_equal_spec in H as [_ <-]; now left|].
  set (data := x0 :: data0) in *. destruct (Z.eqb_spec (zlen data) (2 * md_len m)) as [EL|NL]; cbn [negb] in H.
  2:{ apply pair_equal_spec in H as [H _]. apply pair_equal_spec in H as [_ <-]. now left. }
  right. rewrite (pl_len _ _ _ HL) in EL. rewrite (pl_addr _ _ _ HL) in H.
  pose (mem := fun x => znth (x - 2 * addr) data).
  assert (EM : mem_bytes mem addr L = data).
  { unfold mem_bytes, mem. clear - EL. replace (Z.to_nat (2 * L)) with (length data) by (unfold zlen in EL; lia). generalize (2 * addr). intros b.
    unfold zseq. rewrite map_map. clear EL. apply (nth_ext _ _ 0 0); [now rewrite map_length, seq_length|]. intros n Hn. rewrite map_length, seq_length in Hn.
    rewrite (nth_indep _ 0 ((fun i => znth (b + Z.of_nat i - b) data) O)) by (now rewrite map_length, seq_length).
    rewrite (map_nth (fun i => znth (b + Z.of_nat i - b) data)). rewrite seq_nth by exact Hn. unfold znth. f_equal. lia. }
  destruct (read_blocks_spec mem addr L m HL) as (l' & E1 & fixed & F1 & F2). rewrite EM in E1. rewrite E1 in H.
  apply pair_equal_spec in H as [H <-]. apply pair_equal_spec in H as [<- <-]. split; [reflexivity|].
  assert (HA : exists ds, answers dv s (chunks (md_reads m) (addr + L)) ds s1 /\ concat ds = data).
  { unfold read_model_data in ED. destruct (pl_reads _ _ _ HL) as [more ER]. rewrite ER in ED |- *. rewrite (pl_addr _ _ _ HL), (pl_len _ _ _ HL) in ED.
    destruct more as [|y more].
    - unfold cl_read in ED. destruct (dv_read dv s addr L) as [s2 [[d|]|x]] eqn:E2; try (apply pair_equal_spec in ED as [_ ED]; discriminate).
      apply pair_equal_spec in ED as [<- ED]. apply Ok_inj in ED. subst d. exists [data]. split; [|cbn [concat]; now rewrite app_nil_r].
      cbn [chunks]. econstructor; [|constructor]. replace (addr + L - addr) with L by lia. exact E2.
    - apply chunks_answers in ED as (ds & HA & EC). exists ds. split; [exact HA|]. now rewrite EC. }
  destruct HA as (ds & HA & EC). exists ds, mem. split; [exact HA|]. split; [now rewrite EC, EM|]. exists fixed. split; [exact F1|]. split; [exact F2|reflexivity].
Qed.
Print Assumptions C86_read_all_or_nothing.
(** ** A write that fails, wherever, only leaves old values and new values of modified points behind: every byte the device
    holds afterwards is the old one or the byte a modified point's value has there *)
Theorem C86_failed_write :
  forall D (dv : mdev D) (mem : D -> memory), stores_some dv mem ->
  forall s m s' m' r, (forall p, In p (modified m) -> 0 < pt_len (p_type p) /\ exists d, encoding p d) -> write_points dv s m = (s', m', r) ->
  forall x, mem s' x = mem s x \/ new_byte m x (mem s' x).
Proof.
  intros D dv mem HP s m s' m' r HE H x.
  destruct (write_blocks_log (fold_right Z.min 0 (map p_addr (points_of m))) (fold_right Z.max 0 (map (fun p => p_addr p + pt_len (p_type p)) (points_of m))) (md_blocks m)) with (lg := @nil (Z * bytes)) as (ds & lg & W1 & W2 & W3 & W4).
  { fold (points_of m). rewrite Forall_forall. intros p HI HD. assert (HM : In p (modified m)) by (apply filter_In; auto). destruct (HE p HM) as [HE1 HE2]. split; [exact HE2|]. unfold okp. split; [|split; [exact HE1|]].
    - clear - HI. induction (points_of m) as [|q l IH]; [destruct HI|]. cbn [map fold_right]. destruct HI as [->|HI]; [lia|]. specialize (IH HI). lia.
    - clear - HI. induction (points_of m) as [|q l IH]; [destruct HI|]. cbn [map fold_right]. destruct HI as [->|HI]; [lia|]. specialize (IH HI). lia. }
  { constructor. }
  fold (points_of m) in W2, W3. fold (modified m) in W2, W3. cbn [app] in W1.
  destruct (write_blocks_exec dv _ _ _ _ W1) as (ws & EW & HX). cbn [app] in EW. subst ws.
  unfold write_points in H. destruct (write_blocks dv s (md_blocks m)) as [[s1 bs] r1] eqn:EB. apply pair_equal_spec in H as [H _]. apply pair_equal_spec in H as [<- _].
  specialize (HX _ _ _ _ EB). destruct (executed_bytes dv mem HP _ _ _ _ HX) with (x := x) as [E|E].
  - eapply Forall_impl; [|exact W4]. intros [a d] (_ & _ & H1 & _ & H2). cbn [fst snd] in *. auto.
  - now left.
  - right. rewrite W3 in E. apply (pcells_new _ _ _ _ W2 E).
Qed.
Print Assumptions C86_failed_write.
(** the serial devices of C83 are such devices, whatever goes wrong on the line *)
Theorem C86_rtu_stores_prefix :
  forall D (dev : sdev D) (mem : D -> S_Modbus.memory) slave, unreliable dev mem slave ->
  stores_prefix (scl_dev (rtu_client dev false true slave)) (fun s => byte_view (mem s)).
Proof.
  intros D dev mem slave HU s a d s' r HE HB H. cbn [scl_dev rtu_client dv_write] in H.
  destruct (write_unreliable dev mem slave HU REQ_COUNT_MAX a d s s' r ltac:(unfold REQ_COUNT_MAX; lia) HB HE H) as (k & K1 & K2 & _ & K4 & K5).
  exists (2 * k). split; [lia|]. split.
  - intros x. rewrite <- store_view.
    + unfold byte_view. now rewrite K4.
    + rewrite zlen_ztake by lia. rewrite Z.min_l by lia. rewrite Z.mul_comm. apply Z.mod_mul. lia.
    + apply Forall_ztake. exact HB.
  - intros HR. specialize (K5 HR). pose proof (Z.div_mod (zlen d) 2 ltac:(lia)). lia.
Qed.
Print Assumptions C86_rtu_stores_prefix.
(** so for the points of a model on a serial line on which exchanges fail *)
Theorem C86_rtu_failed_write :
  forall D (dev : sdev D) (mem : D -> S_Modbus.memory) slave, unreliable dev mem slave ->
  forall s m s' m' r, (forall p, In p (modified m) -> 0 < pt_len (p_type p) /\ exists d, encoding p d) ->
  write_points (scl_dev (rtu_client dev false true slave)) s m = (s', m', r) ->
  forall x, byte_view (mem s') x = byte_view (mem s) x \/ new_byte m x (byte_view (mem s') x).
Proof. intros D dev mem slave HU s m s' m' r HE H. apply (C86_failed_write D _ _ (prefix_some _ _ (C86_rtu_stores_prefix D dev mem slave HU)) s m s' m' r HE H). Qed.
Print Assumptions C86_rtu_failed_write.
(** two modified points that are not adjacent, and a line that fails after the first request *)
Definition ex_m : model := C_Client.assign C_Scale.env_ex [Some (VInt 77); None; Some (VInt 5)] C_Client.ex_model.
Example C86_ex :
  let '(s', m', r) := write_points (scl_dev (rtu_client C_Fault.faulty_dev false true 1)) (fun _ => 9, 1%nat) ex_m in
  r = Raise ESunSpecClient /\ length (modified ex_m) = 2%nat /\ map p_addr (modified ex_m) = [40004; 40009] /\
  map (fst s') [40003; 40004; 40005; 40009; 40010] = [9; 77; 9; 9; 9].
Proof. vm_compute. auto. Qed.
