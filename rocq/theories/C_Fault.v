(** * C_Fault: properties C83 (interrupted writes) and C84 (several slaves on one line). *)
From Verif Require Import Py P_List M_Crc M_Wire M_Rtu S_Crc P_Crc S_Modbus P_Rtu P_Stack S_Fault P_Fault.
From Verif Require C_Rtu.

(** ** C83: whatever goes wrong during a write of any length, the slave holds the new values of a prefix of the registers,
    made of whole requests, and its other registers are unchanged; all of them are written if the write succeeds *)
Theorem C83_interrupted_write :
  forall D (dev : sdev D) (mem : D -> memory) slave, unreliable dev mem slave ->
  forall max_count addr data s s' r, 1 <= max_count -> Forall is_byte data -> zlen data mod 2 = 0 ->
  rtu_write dev true slave addr data max_count s = (s', r) ->
  exists k, 0 <= k /\ 2 * k <= zlen data /\ (k = zlen data / 2 \/ k mod max_count = 0) /\
    (forall a, mem s' a = store (mem s) addr (ztake (2 * k) data) a) /\ (r = Ok tt -> k = zlen data / 2).
Proof. intros D dev mem slave HU max_count addr data s s' r. apply write_unreliable. exact HU. Qed.
Print Assumptions C83_interrupted_write.
(** after any number of failed attempts, a write that succeeds leaves the slave as if it had succeeded at once *)
Theorem C83_retry :
  forall D (dev : sdev D) (mem : D -> memory) slave, unreliable dev mem slave ->
  forall max_count addr data s s1 s2, 1 <= max_count -> Forall is_byte data -> zlen data mod 2 = 0 ->
  failures (rtu_write dev true slave addr data max_count) s s1 ->
  rtu_write dev true slave addr data max_count s1 = (s2, Ok tt) ->
  forall a, mem s2 a = store (mem s) addr data a.
Proof.
  intros D dev mem slave HU mc addr data s s1 s2 Hm HB HE HF HW.
  destruct (write_unreliable dev mem slave HU mc addr data s1 s2 (Ok tt) Hm HB HE HW) as (k & _ & _ & _ & K4 & K5). specialize (K5 eq_refl). subst k.
  assert (EH : 2 * (zlen data / 2) = zlen data) by (pose proof (Z.div_mod (zlen data) 2 ltac:(lia)); lia).
  rewrite EH in K4. rewrite ztake_all in K4 by lia. clear HW.
  assert (HX : forall a, store (mem s1) addr data a = store (mem s) addr data a).
  { clear K4. induction HF as [s|s s1 e s2' EO _ IH]; [reflexivity|].
    destruct (write_unreliable dev mem slave HU mc addr data s s1 (Raise e) Hm HB HE EO) as (j & J1 & J2 & _ & J4 & _).
    intros a. rewrite IH. rewrite (store_ext _ (store (mem s) addr (ztake (2 * j) data))) by exact J4.
    pose proof (ztake_zdrop (2 * j) data) as EZ. set (d1 := ztake (2 * j) data) in *. set (d2 := zdrop (2 * j) data) in *.
    rewrite <- EZ. apply store_over. unfold d1. rewrite zlen_ztake by lia. rewrite Z.min_l by exact J2. rewrite Z.mul_comm. apply Z.mod_mul. lia. }
  intros a. rewrite K4. apply HX.
Qed.
Print Assumptions C83_retry.
(** the requests up to a moment are executed and answered; then the line is dead *)
Definition faulty_dev : sdev (memory * nat) := fun st req =>
  match snd st with
  | O => (st, Some (mkWire [] [] WEmpty))
  | S n => let '(m', w) := C_Rtu.ex_dev (fst st) req in ((m', n), w)
  end.
Example C83_ex_unreliable : forall slave, unreliable faulty_dev fst slave.
Proof.
  intros slave [m n] addr data s' w Hs Ha Hl HB H. unfold faulty_dev in H. cbn [fst snd] in H. destruct n as [|n].
  - apply pair_equal_spec in H as [<- <-]. split; [now left|]. intros stream sched fin E. apply Some_inj in E.
    assert (stream = []) as -> by congruence. split; [constructor|]. discriminate.
  - unfold write_frame, with_crc, word in H. cbn [app C_Rtu.ex_dev] in H. change (16 =? 16) with true in H. cbv iota in H.
    rewrite !C_Rtu.be_int_word2 in H. rewrite ztake_app_exact in H by reflexivity. apply pair_equal_spec in H as [<- <-]. cbn [fst].
    split; [now right|]. intros stream sched fin E. apply Some_inj in E. assert (stream = write_reply slave addr (zlen data / 2)) as -> by congruence.
    split; [|reflexivity]. pose proof (zlen_nonneg data). apply with_crc_bytes. repeat (apply Forall_app; split); auto using word_bytes.
    + constructor; [exact Hs|]. constructor; [unfold is_byte; lia|constructor].
    + apply word_bytes. split; [apply Z.div_pos; lia|apply Z.div_lt_upper_bound; lia].
Qed.
(** refuted: a value of several registers can be left half written, as requests are cut after 125 registers wherever that
    is: here 63 values of 32 bits, of which the last is torn *)
Theorem C83_value_torn_refuted :
  let data := concat (repeat [0; 1; 0; 2] 63) in
  let w := rtu_write faulty_dev true 1 100 data REQ_COUNT_MAX (fun _ => 7, 1%nat) in
  snd w = Raise EModbusTimeout /\ map (fst (fst w)) [222; 223; 224; 225] = [1; 2; 1; 7].
Proof. vm_compute. auto. Qed.
Print Assumptions C83_value_torn_refuted.
(** a write of no more than max_count registers is all or nothing *)
Theorem C83_one_request_atomic_partial :
  forall D (dev : sdev D) (mem : D -> memory) slave, unreliable dev mem slave ->
  forall max_count addr data s s' r, 1 <= max_count -> Forall is_byte data -> zlen data mod 2 = 0 -> zlen data / 2 <= max_count ->
  rtu_write dev true slave addr data max_count s = (s', r) ->
  (forall a, mem s' a = mem s a) \/ (forall a, mem s' a = store (mem s) addr data a).
Proof.
  intros D dev mem slave HU mc addr data s s' r Hm HB HE HL HW.
  destruct (write_unreliable dev mem slave HU mc addr data s s' r Hm HB HE HW) as (k & K1 & K2 & K3 & K4 & _).
  assert (EH : 2 * (zlen data / 2) = zlen data) by (pose proof (Z.div_mod (zlen data) 2 ltac:(lia)); lia).
  assert (HK : k = 0 \/ k = zlen data / 2).
  { destruct K3 as [K3|K3]; [now right|]. apply Z.mod_divide in K3; [|lia]. destruct K3 as [q Hq]. destruct (Z.eq_dec q 0); [left; nia|right].
    assert (1 <= q) by nia. nia. }
  destruct HK as [->| ->]; [left|right]; intros a; rewrite K4.
  - reflexivity.
  - rewrite EH, ztake_all by lia. reflexivity.
Qed.
Print Assumptions C83_one_request_atomic_partial.
Example C83_ex :
  let data := concat (map (fun i => [0; Z.of_nat i]) (seq 0 200)) in
  let w := rtu_write faulty_dev true 1 100 data 100 (fun _ => 999, 1%nat) in
  snd w = Raise EModbusTimeout /\ map (fst (fst w)) [99; 100; 199; 200; 299] = [999; 0; 99; 999; 999].
Proof. vm_compute. auto. Qed.

(** ** C84 *)
(** an operation through the client; None is anything but the normal result *)
Definition bus_do {D} (dev : sdev D) (op max_count : Z) (o : bus_op) (s : D) : D * option bus_res :=
  match o with
  | BRead sl a n => match rtu_read dev false true sl a n op max_count s with (s', Ok (Some d)) => (s', Some (RData d)) | (s', _) => (s', None) end
  | BWrite sl a d => match rtu_write dev true sl a d max_count s with (s', Ok _) => (s', Some RDone) | (s', _) => (s', None) end
  end.
Fixpoint bus_run {D} (dev : sdev D) (op max_count : Z) (os : list bus_op) (s : D) : D * list (option bus_res) :=
  match os with
  | [] => (s, [])
  | o :: os => let '(s1, r) := bus_do dev op max_count o s in let '(s2, rs) := bus_run dev op max_count os s1 in (s2, r :: rs)
  end.
(** whatever several programs do on the line, in whatever order: every read of a slave returns what was last written to
    that slave, and no slave is changed by what is sent to another *)
Theorem C84_shared_line :
  forall D (dev : sdev D) (mem : D -> Z -> memory) slaves op lim, shared_line dev mem slaves op lim -> lim <= 127 -> 0 <= op < 128 ->
  forall max_count os s, 1 <= max_count <= 125 -> max_count <= lim -> Forall (bus_ok slaves) os ->
  exists s', bus_run dev op max_count os s = (s', map Some (snd (bus_spec_run os (mem s)))) /\
    forall sl, In sl slaves -> forall a, mem s' sl a = fst (bus_spec_run os (mem s)) sl a.
Proof.
  intros D dev mem slaves op lim HS HL HO mc os s Hm Hml HOK.
  assert (EXT : forall os m m', (forall sl, In sl slaves -> forall a, m sl a = m' sl a) -> Forall (bus_ok slaves) os ->
            snd (bus_spec_run os m) = snd (bus_spec_run os m') /\ forall sl, In sl slaves -> forall a, fst (bus_spec_run os m) sl a = fst (bus_spec_run os m') sl a).
  { clear. induction os as [|o os IH]; intros m m' HE HF; [split; [reflexivity|exact HE]|]. inversion HF as [|? ? HO HF']; subst.
    destruct o as [sl a n|sl a d].
    - cbn [bus_spec_run bus_spec bus_ok] in *. specialize (IH m m' HE HF') as [I1 I2]. destruct (bus_spec_run os m) as [m1 r1], (bus_spec_run os m') as [m2 r2]. cbn [fst snd] in *. subst r2.
      split; [|exact I2]. do 2 f_equal. apply regs_ext. intros b. apply HE. tauto.
    - set (u := fst (bus_spec (BWrite sl a d) m)). set (u' := fst (bus_spec (BWrite sl a d) m')).
      change (bus_spec_run (BWrite sl a d :: os) m) with (let '(m2, rs) := bus_spec_run os u in (m2, RDone :: rs)).
      change (bus_spec_run (BWrite sl a d :: os) m') with (let '(m2, rs) := bus_spec_run os u' in (m2, RDone :: rs)).
      destruct (IH u u') as [I1 I2]; [|exact HF'|].
      { intros x Hx b. unfold u, u'. cbn [bus_spec fst bus_ok] in *. destruct (x =? sl); [|now apply HE]. apply store_ext. intros c. apply HE. tauto. }
      destruct (bus_spec_run os u) as [m1 r1], (bus_spec_run os u') as [m2 r2]. cbn [fst snd] in *. subst r2. auto. }
  revert s. induction HOK as [|o os HOK1 HOK IH]; intros s; [exists s; split; [reflexivity|auto]|].
  assert (STEP : exists s1, bus_do dev op mc o s = (s1, Some (snd (bus_spec o (mem s)))) /\ forall sl, In sl slaves -> forall a, mem s1 sl a = fst (bus_spec o (mem s)) sl a).
  { destruct o as [sl a n|sl a d]; cbn [bus_ok bus_do bus_spec] in *.
    - destruct HOK1 as (HI & Hn & Ha & Han). destruct (HS sl HI) as (HB & HR & HW & HM & HK).
      destruct (C_Rtu.C26_read_returns_device_memory D dev (fun s => mem s sl) sl op HR HM HB HO mc a n s Hm Hn Ha Han) as (s' & reqs & E & _ & HX).
      unfold rtu_read in E. apply rtu_read_loop_unlog in E.
      assert (E' : rtu_read dev false true sl a n op mc s = (s', Ok (Some (regs (mem s sl) a (Z.to_nat n))))) by (unfold rtu_read; exact E).
      rewrite E'. exists s'. split; [reflexivity|]. cbn [fst]. intros other HO' b. destruct (Z.eq_dec other sl) as [->|NE]; [apply HX|].
      pose proof (read_keeps dev sl (fun s' => mem s' other b = mem s other b) ltac:(intros st body HP; rewrite <- HP; apply HK; auto) false true a n op mc s eq_refl) as K.
      rewrite E' in K. exact K.
    - destruct HOK1 as (HI & HD & HE & Ha & Had). destruct (HS sl HI) as (HB & HR & HW & HM & HK).
      destruct (C_Rtu.C27_write_stores_the_data D dev (fun s => mem s sl) sl lim HW HB HL mc a d s ltac:(lia) HD HE Ha Had) as (s' & reqs & E & _ & HX).
      unfold rtu_write in E. apply rtu_write_loop_unlog in E.
      assert (E' : rtu_write dev true sl a d mc s = (s', Ok tt)) by (unfold rtu_write; exact E).
      rewrite E'. exists s'. split; [reflexivity|]. cbn [fst]. intros other HO' b. destruct (Z.eqb_spec other sl) as [->|NE]; [apply HX|].
      pose proof (write_keeps dev sl (fun s' => mem s' other b = mem s other b) ltac:(intros st body HP; rewrite <- HP; apply HK; auto) true a d mc s eq_refl) as K.
      rewrite E' in K. exact K. }
  destruct STEP as (s1 & E1 & HM1). destruct (IH s1) as (s2 & E2 & HM2). exists s2.
  cbn [bus_run bus_spec_run]. rewrite E1, E2. destruct (bus_spec o (mem s)) as [m1 r1]. cbn [fst snd] in *.
  destruct (EXT os (mem s1) m1 HM1 HOK) as [X1 X2]. destruct (bus_spec_run os m1) as [m2 rs]. cbn [fst snd] in *. rewrite X1.
  split; [reflexivity|]. intros sl HI a. rewrite HM2 by exact HI. apply X2, HI.
Qed.
Print Assumptions C84_shared_line.
(** a line with two slaves *)
Definition cap (m : memory) : memory := fun a => m a mod 65536.
Definition two_slaves : sdev memories := fun st req =>
  match req with
  | sl :: op :: a1 :: a0 :: c1 :: c0 :: rest =>
    let addr := be_int [a1; a0] in let count := be_int [c1; c0] in
    if op =? 16
    then match rest with
         | n :: d => ((fun x => if x =? sl then store (st sl) addr (ztake n d) else st x), Some (mkWire (write_reply sl addr count) [3; 1] WEmpty))
         | [] => (st, None)
         end
    else (st, Some (mkWire (read_reply sl op (cap (st sl)) addr count) [2; 1] WEmpty))
  | _ => (st, None)
  end.
Lemma cap_store m addr d : zlen d mod 2 = 0 -> Forall is_byte d -> forall a, cap (store m addr d) a = store (cap m) addr d a.
Proof.
  intros HE. revert m addr. revert d HE. apply (two_ind (fun d => forall m addr, Forall is_byte d -> forall a, cap (store m addr d) a = store (cap m) addr d a)).
  - reflexivity.
  - intros h l r IH m addr HB a. inversion HB as [|? ? Hh HB']; subst. inversion HB' as [|? ? Hl HBr]; subst. cbn [store].
    rewrite IH by exact HBr. apply store_ext. intros b. unfold cap. destruct (b =? addr); [|reflexivity]. unfold is_byte in *. apply Z.mod_small. lia.
Qed.
Example C84_ex_line : shared_line two_slaves (fun st sl => cap (st sl)) [1; 7] 3 123.
Proof.
  intros sl HI. split; [unfold is_byte; destruct HI as [<-|[<-|[]]]; lia|]. split; [|split; [|split]].
  - intros st addr count Hc Ha Hac. exists st, [], [2; 1], WEmpty. split; [constructor|]. split; [|reflexivity].
    unfold read_frame, with_crc. generalize (crc_bytes ([sl; 3] ++ word addr ++ word count)). intros cc. unfold word. cbn [app two_slaves].
    change (3 =? 16) with false. cbv iota. rewrite !C_Rtu.be_int_word2, app_nil_r. reflexivity.
  - intros st addr data HB HE Hc Ha Hac. exists (fun x => if x =? sl then store (st sl) addr data else st x), [], [3; 1], WEmpty. split; [constructor|]. split.
    + unfold write_frame, with_crc. generalize (crc_bytes ([sl; 16] ++ word addr ++ word (zlen data / 2) ++ [zlen data] ++ data)). intros cc.
      unfold word. cbn [app two_slaves]. change (16 =? 16) with true. cbv iota. rewrite !C_Rtu.be_int_word2.
      rewrite (ztake_app_exact (zlen data) data cc eq_refl), app_nil_r. reflexivity.
    + intros a. rewrite Z.eqb_refl. now apply cap_store.
  - intros st a. unfold cap. apply Z.mod_pos_bound. lia.
  - intros st body other _ NE a. destruct body as [|o [|a1 [|a0 [|c1 [|c0 rest]]]]]; try reflexivity. cbn [two_slaves].
    destruct (o =? 16); [|reflexivity]. destruct rest as [|n d]; [reflexivity|]. cbn [fst]. destruct (Z.eqb_spec other sl); [contradiction|reflexivity].
Qed.
Example C84_ex :
  snd (bus_run two_slaves 3 125 [BWrite 1 10 [1; 2]; BWrite 7 10 [3; 4]; BRead 1 10 1; BRead 7 10 1] (fun _ _ => 0)) =
  [Some RDone; Some RDone; Some (RData [1; 2]); Some (RData [3; 4])].
Proof. vm_compute. reflexivity. Qed.
