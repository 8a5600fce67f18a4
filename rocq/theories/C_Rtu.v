(** * C_Rtu: properties C24-C30, C67, C68 (modbus/client.py ModbusClientRTU). *)
From Verif Require Import Py P_List M_Crc S_Crc P_Crc M_Wire M_Rtu S_Modbus P_Rtu.

(** ** C24: whatever the device answers, every request put on the line is a Modbus frame for
    arguments that fit, has a valid CRC, asks for at most [max_count] registers, and lies in the
    requested range. *)
Theorem C24_read_requests_well_formed :
  forall D (dev : sdev D) trace is_open slave addr count op max_count s s' sent r, 0 < max_count ->
  rtu_read (logged dev) trace is_open slave addr count op max_count (s, []) = ((s', sent), r) ->
  exists reqs, sent = map (fun q => read_frame slave op (fst q) (snd q)) reqs /\
    Forall (fun q => is_byte slave /\ is_byte op /\ 0 <= fst q < 65536 /\ 1 <= snd q <= max_count /\
                     snd q < 65536 /\ addr <= fst q /\ fst q + snd q <= addr + count) reqs.
Proof.
  intros D dev trace is_open slave addr count op max_count s s' sent r Hm H. unfold rtu_read in H.
  destruct is_open; [|exists []; cbn [map]; split; [congruence|constructor]].
  apply rtu_read_loop_log in H; [|exact Hm]. destruct H as (reqs & -> & HF). exists reqs. split; [reflexivity|].
  eapply Forall_impl; [|exact HF]. cbn. intros q ((Q1 & Q2 & Q3 & Q4) & Q5 & Q6 & Q7).
  rewrite Z.add_0_r in *. repeat split; try apply Q1; try apply Q2; lia.
Qed.
Print Assumptions C24_read_requests_well_formed.

Theorem C24_write_requests_well_formed :
  forall D (dev : sdev D) is_open slave addr data max_count s s' sent r, 0 < max_count -> Forall is_byte data ->
  rtu_write (logged dev) is_open slave addr data max_count (s, []) = ((s', sent), r) ->
  exists reqs, sent = map (fun q => write_frame slave (fst q) (snd q)) reqs /\
    Forall (fun q => is_byte slave /\ 0 <= fst q < 65536 /\ zlen (snd q) < 256 /\ zlen (snd q) <= 2 * max_count) reqs.
Proof.
  intros D dev is_open slave addr data max_count s s' sent r Hm HB H. unfold rtu_write in H.
  destruct is_open; [|exists []; cbn [map]; split; [congruence|constructor]].
  apply rtu_write_loop_log in H; auto. destruct H as (reqs & -> & HF). exists reqs. split; [reflexivity|].
  eapply Forall_impl; [|exact HF]. cbn. intros q ((Q1 & Q2 & Q3) & Q4). auto.
Qed.
Print Assumptions C24_write_requests_well_formed.

(** arguments that do not fit their field: struct.error, and nothing is sent *)
Theorem C24_bad_arguments_rejected_before_sending :
  forall D (dev : sdev D) slave addr count op s,
  ~ (is_byte slave /\ is_byte op /\ 0 <= addr < 65536 /\ 0 <= count < 65536) -> 0 < count ->
  forall max_count, count <= max_count ->
  rtu_read (logged dev) false true slave addr count op max_count (s, []) = ((s, []), Raise EStruct).
Proof.
  intros D dev slave addr count op s Hbad Hc mc Hmc. unfold rtu_read. cbn [rtu_read_loop].
  destruct (Z.ltb_spec 0 count); [|lia]. destruct (Z.ltb_spec mc count); [lia|]. rewrite Z.add_0_r.
  unfold rtu_read1. rewrite rtu_read_req_bad by exact Hbad. reflexivity.
Qed.
Print Assumptions C24_bad_arguments_rejected_before_sending.
Theorem C24_bad_write_arguments_rejected_before_sending :
  forall D (dev : sdev D) slave addr data s max_count,
  ~ (is_byte slave /\ 0 <= addr < 65536 /\ zlen data < 256) -> 0 < zlen data <= 2 * max_count ->
  rtu_write (logged dev) true slave addr data max_count (s, []) = ((s, []), Raise EStruct).
Proof.
  intros D dev slave addr data s mc Hbad Hc. unfold rtu_write. cbn [rtu_write_loop].
  destruct (Z.ltb_spec 0 (zlen data)); [|lia]. destruct (Z.ltb_spec (2 * mc) (zlen data)); [lia|].
  rewrite Z.add_0_r. rewrite slice_full by lia.
  unfold rtu_write1. rewrite rtu_write_req_bad by exact Hbad. reflexivity.
Qed.
Print Assumptions C24_bad_write_arguments_rejected_before_sending.

(** the frame of the Modbus specification's example: read holding registers 0x6B..0x6D of slave 17 *)
Example C24_ex : read_frame 17 3 0x6B 3 = [0x11; 0x03; 0x00; 0x6B; 0x00; 0x03; 0x76; 0x87].
Proof. vm_compute. reflexivity. Qed.

(** ** C25: only the bytes count, not how the port delivers them. *)
Theorem C25_read_independent_of_delivery :
  forall D (d1 d2 : sdev D) trace is_open slave addr count op max_count s, same_streams d1 d2 ->
  rtu_read d1 trace is_open slave addr count op max_count s = rtu_read d2 trace is_open slave addr count op max_count s.
Proof. intros. now apply rtu_read_same. Qed.
Print Assumptions C25_read_independent_of_delivery.
Theorem C25_write_independent_of_delivery :
  forall D (d1 d2 : sdev D) is_open slave addr data max_count s, same_streams d1 d2 ->
  rtu_write d1 is_open slave addr data max_count s = rtu_write d2 is_open slave addr data max_count s.
Proof. intros. now apply rtu_write_same. Qed.
Print Assumptions C25_write_independent_of_delivery.
(** bytes following a complete response do not influence the result *)
Theorem C25_one_response_consumed :
  forall stream extra sched sched' fin fin',
  Forall is_byte stream -> Forall is_byte extra -> 5 <= zlen stream -> read_frame_len stream <= zlen stream ->
  rtu_read_response (mkWire (stream ++ extra) sched fin) = rtu_read_response (mkWire stream sched' fin').
Proof. exact rtu_read_trailing. Qed.
Print Assumptions C25_one_response_consumed.

(** two different deliveries of the same reply *)
Example C25_ex :
  same_streams (fun (s : unit) (_ : bytes) => (s, Some (mkWire [1;3;2;0;7;0xf9;0x86] [1;1;1;1;1;1;1] WEmpty)))
               (fun s _ => (s, Some (mkWire [1;3;2;0;7;0xf9;0x86] [] WEmpty))) /\
  rtu_read (fun (s : unit) (_ : bytes) => (s, Some (mkWire [1;3;2;0;7;0xf9;0x86] [1;2;1] WEmpty)))
     false true 1 40000 1 3 125 tt = (tt, Ok (Some [0; 7])).
Proof.
  split; [|vm_compute; reflexivity]. intros s req. cbn. repeat split; auto.
  repeat constructor; unfold is_byte; lia.
Qed.

(** ** C26: reading from a conforming device. *)
Theorem C26_read_returns_device_memory :
  forall D (dev : sdev D) (mem : D -> memory) slave op,
  serves_reads dev mem slave op -> (forall s, mem_ok (mem s)) -> is_byte slave -> 0 <= op < 128 ->
  forall max_count addr count s, 1 <= max_count <= 125 -> 0 <= count -> 0 <= addr -> addr + count <= 65536 ->
  exists s' reqs,
    rtu_read (logged dev) false true slave addr count op max_count (s, [])
      = ((s', map (fun r => read_frame slave op (fst r) (snd r)) reqs), Ok (Some (regs (mem s) addr (Z.to_nat count)))) /\
    covers max_count addr count reqs /\ (forall a, mem s' a = mem s a).
Proof.
  intros D dev mem slave op H1 H2 H3 H4 mc addr count s Hmc Hc Ha Hac. unfold rtu_read.
  destruct (rtu_read_loop_conforming dev mem slave op H1 H2 H3 H4 (S (Z.to_nat count)) mc Hmc count addr 0 [] s []
    ltac:(lia) Hc ltac:(lia) ltac:(lia)) as (s' & reqs & E & Hcov & Hm).
  rewrite Z.add_0_r in *. exists s', reqs. auto.
Qed.
Print Assumptions C26_read_returns_device_memory.

(** ** C27: writing to a conforming device that accepts [lim] registers per request. *)
Theorem C27_write_stores_the_data :
  forall D (dev : sdev D) (mem : D -> memory) slave lim,
  serves_writes dev mem slave lim -> is_byte slave -> lim <= 127 ->
  forall max_count addr data s, 1 <= max_count <= lim -> Forall is_byte data -> zlen data mod 2 = 0 ->
  0 <= addr -> addr + zlen data / 2 <= 65536 ->
  exists s' reqs,
    rtu_write (logged dev) true slave addr data max_count (s, [])
      = ((s', write_requests slave addr data reqs), Ok tt) /\
    covers max_count addr (zlen data / 2) reqs /\ (forall a, mem s' a = store (mem s) addr data a).
Proof.
  intros D dev mem slave lim H1 H2 H3 mc addr data s Hmc HB HE Ha Hac. unfold rtu_write.
  destruct (rtu_write_loop_conforming dev mem slave lim H1 H2 H3 (S (length data)) mc Hmc 0 addr data s [] HB HE
    ltac:(lia) ltac:(pose proof (zlen_nonneg data); lia) ltac:(unfold zlen; lia) Ha Hac) as (s' & reqs & E & Hcov & Hm).
  rewrite Z.mul_0_r, Z.sub_0_r, Z.add_0_r in *. exists s', reqs. split; [exact E|]. split; [exact Hcov|].
  intros a. rewrite Hm. now rewrite zdrop_neg by lia.
Qed.
Print Assumptions C27_write_stores_the_data.
(** what [store] means: the written registers read back, all others are unchanged *)
Theorem C27_store_is_exact :
  forall m addr data, zlen data mod 2 = 0 -> Forall is_byte data ->
  regs (store m addr data) addr (Z.to_nat (zlen data / 2)) = data /\
  forall a, a < addr \/ addr + zlen data / 2 <= a -> store m addr data a = m a.
Proof. intros. split; [now apply regs_store|now apply store_outside]. Qed.
Print Assumptions C27_store_is_exact.

(** a conforming device, so that the hypotheses above can be met *)
Definition ex_dev : sdev memory := fun m req =>
  match req with
  | sl :: op :: a1 :: a0 :: c1 :: c0 :: rest =>
    let addr := be_int [a1; a0] in let count := be_int [c1; c0] in
    if op =? 16
    then match rest with
         | n :: d => (store m addr (ztake n d), Some (mkWire (write_reply sl addr count) [3; 1] WEmpty))
         | [] => (m, None)
         end
    else (m, Some (mkWire (read_reply sl op m addr count) [2; 1] WEmpty))
  | _ => (m, None)
  end.
Lemma be_int_word2 v : be_int [v / 256; v mod 256] = v.
Proof. exact (be_int_word v). Qed.
Example C26_ex : forall slave op, op <> 16 -> serves_reads ex_dev (fun m => m) slave op.
Proof.
  intros slave op Hop m addr count Hc Ha Hac. exists m, [], [2; 1], WEmpty. split; [constructor|]. split; [|auto].
  unfold read_frame, with_crc. generalize (crc_bytes ([slave; op] ++ word addr ++ word count)). intros cc.
  unfold word. cbn [app ex_dev]. destruct (Z.eqb_spec op 16); [contradiction|].
  rewrite !be_int_word2, app_nil_r. reflexivity.
Qed.
Example C27_ex : forall slave, serves_writes ex_dev (fun m => m) slave 123.
Proof.
  intros slave m addr data HB HE Hc Ha Hac.
  exists (store m addr data), [], [3; 1], WEmpty. split; [constructor|]. split; [|auto].
  unfold write_frame, with_crc.
  generalize (crc_bytes ([slave; 16] ++ word addr ++ word (zlen data / 2) ++ [zlen data] ++ data)). intros cc.
  unfold word. cbn [app ex_dev]. change (16 =? 16) with true. cbn [app].
  rewrite !be_int_word2. rewrite (ztake_app_exact (zlen data) data cc eq_refl), app_nil_r. reflexivity.
Qed.
(** 300 registers take three requests *)
Example C26_ex_run :
  snd (rtu_read ex_dev false true 1 0 300 3 125 (fun a => a)) = Ok (Some (regs (fun a => a) 0 300)) /\
  covers 125 0 300 [(0, 125); (125, 125); (250, 50)].
Proof.
  split; [vm_compute; reflexivity|].
  apply (covers_cons 125 0 125 175); [lia|lia|]. apply (covers_cons 125 125 125 50); [lia|lia|].
  apply (covers_cons 125 250 50 0); [lia|lia|]. constructor.
Qed.

(** ** C28: failures.  The outcome of an exchange as a function of the received bytes is the
    relation [read_outcome] / [write_outcome] of S_Modbus; the cases one by one: *)
Theorem C28_read_outcome :
  forall stream sched fin, Forall is_byte stream ->
  forall r, rtu_read_response (mkWire stream sched fin) = r <-> read_outcome stream fin r.
Proof.
  intros stream sched fin HB r. split; [intros <-; now apply rtu_read_response_spec|].
  intros H. eapply read_outcome_det; eauto using rtu_read_response_spec.
Qed.
Print Assumptions C28_read_outcome.
Theorem C28_write_outcome :
  forall slave addr count stream sched fin, Forall is_byte stream ->
  is_byte slave -> 0 <= addr < 65536 -> 0 <= count < 65536 ->
  forall r, rtu_write_response slave addr count (mkWire stream sched fin) = r <-> write_outcome slave addr count stream fin r.
Proof.
  intros slave addr count stream sched fin HB Hs Ha Hc r. split; [intros <-; now apply rtu_write_response_spec|].
  intros H. eapply write_outcome_det; [exact HB|exact Ha|exact Hc|now apply rtu_write_response_spec|exact H].
Qed.
Print Assumptions C28_write_outcome.
(** silence or a truncated response: ModbusClientTimeout *)
Theorem C28_truncated_response_times_out :
  forall stream sched, Forall is_byte stream ->
  (zlen stream < 5 \/ zlen stream < read_frame_len stream) ->
  rtu_read_response (mkWire stream sched WEmpty) = Raise EModbusTimeout.
Proof.
  intros stream sched HB H. apply C28_read_outcome; [exact HB|]. change (@Raise bytes EModbusTimeout) with (@starved bytes WEmpty).
  destruct (Z_lt_le_dec (zlen stream) 5); [now apply RO_short|]. apply RO_truncated; lia.
Qed.
Print Assumptions C28_truncated_response_times_out.
Theorem C28_exception_response_raised :
  forall slave op code sched fin, is_byte slave -> 0 <= op < 128 -> 0 < code < 256 ->
  rtu_read_response (mkWire (with_crc [slave; op + 128; code]) sched fin) = Raise (EModbusException code).
Proof.
  intros slave op code sched fin Hs Ho Hc.
  assert (HB : Forall is_byte (with_crc [slave; op + 128; code])).
  { apply with_crc_bytes. repeat constructor; try apply Hs; unfold is_byte in *; lia. }
  apply C28_read_outcome; [exact HB|].
  set (f := with_crc [slave; op + 128; code]) in *.
  assert (E2 : znth 2 f = code) by reflexivity.
  assert (E1 : znth 1 f = op + 128) by reflexivity.
  assert (EL : zlen f = 5) by reflexivity.
  rewrite <- E2. apply RO_exception; try lia.
  - rewrite ztake_all by lia. apply frame_ok_with_crc.
  - unfold is_exception. rewrite E1.
    assert (H : 0 <= op < 128) by exact Ho. clear - H.
    rewrite Z.add_nocarry_lxor.
    + rewrite Z.lxor_spec. replace (Z.testbit op 7) with false; [reflexivity|].
      destruct (Z.eq_dec op 0) as [->|]; [reflexivity|]. symmetry. apply Z.bits_above_log2; [lia|].
      apply Z.log2_lt_pow2; lia.
    + apply Z.bits_inj'. intros n Hn. rewrite Z.land_spec, Z.bits_0. change 128 with (2 ^ 7).
      destruct (Z.eq_dec n 7) as [->|].
      * replace (Z.testbit op 7) with false; [reflexivity|].
        destruct (Z.eq_dec op 0) as [->|]; [reflexivity|]. symmetry. apply Z.bits_above_log2; [lia|].
        apply Z.log2_lt_pow2; lia.
      * rewrite Z.pow2_bits_false by lia. apply andb_false_r.
Qed.
Print Assumptions C28_exception_response_raised.
Example C28_ex :
  rtu_read_response (mkWire [] [] WEmpty) = Raise EModbusTimeout /\
  rtu_read_response (mkWire (with_crc [1; 0x83; 2]) [1] WEmpty) = Raise (EModbusException 2) /\
  rtu_read_response (mkWire [1; 3; 2; 0; 7; 0xf9; 0x87] [] WEmpty) = Raise EModbusClient.
Proof. vm_compute. auto. Qed.
(** not covered by the English claim but observable: an exception response with code 0 is no
    error for a read (which then returns None) and a struct.error for a write *)
Theorem C28_exception_code_zero :
  rtu_read_response (mkWire (with_crc [1; 0x83; 0]) [] WEmpty) = Ok [] /\
  rtu_write_response 1 0 1 (mkWire (with_crc [1; 0x90; 0]) [] WEmpty) = Raise EStruct.
Proof. vm_compute. auto. Qed.
Print Assumptions C28_exception_code_zero.

(** ** C29: a valid response of any kind in which the slave id, or one byte or two adjacent bytes of the
    payload or CRC are altered, is reported as an error, whatever follows it. *)
Theorem C29_corrupted_response_raises :
  forall p x y x' y' s sched fin extra,
  let f := p ++ [x; y] ++ s in let g := p ++ [x'; y'] ++ s in
  Forall is_byte (f ++ extra) -> Forall is_byte (g ++ extra) -> frame_ok f ->
  zlen f = read_frame_len f -> [x; y] <> [x'; y'] ->
  (p = [] /\ y = y' \/ 3 <= zlen p) ->
  rtu_read_response (mkWire (g ++ extra) sched fin) = Raise EModbusClient.
Proof. exact corrupted_read. Qed.
Print Assumptions C29_corrupted_response_raises.
Example C29_ex : frame_ok [1; 3; 2; 0; 7; 0xf9; 0x86] /\
  zlen [1; 3; 2; 0; 7; 0xf9; 0x86] = read_frame_len [1; 3; 2; 0; 7; 0xf9; 0x86].
Proof. split; [exists [1; 3; 2; 0; 7]|]; vm_compute; reflexivity. Qed.

(** ** C30: writes are accepted only if the reply echoes slave, function, address and count ... *)
Theorem C30_write_reply_checked :
  forall slave addr count stream sched fin, Forall is_byte stream ->
  is_byte slave -> 0 <= addr < 65536 -> 0 <= count < 65536 ->
  rtu_write_response slave addr count (mkWire stream sched fin) = Ok tt ->
  ztake 8 stream = write_reply slave addr count.
Proof.
  intros slave addr count stream sched fin HB Hs Ha Hc H.
  apply C28_write_outcome in H; auto. inversion H; auto; destruct fin; discriminate.
Qed.
Print Assumptions C30_write_reply_checked.
(** ... but reads accept the answer of another slave, to another function, with any amount of data:
    slave 1 is asked for two registers, and slave 9's one-register answer to function 4 is returned. *)
Theorem C30_read_reply_refuted :
  exists dev : sdev unit,
    (forall req, snd (dev tt req) = Some (mkWire (with_crc [9; 4; 2; 0xAB; 0xCD]) [] WEmpty)) /\
    rtu_read dev false true 1 40000 1 3 125 tt = (tt, Ok (Some [0xAB; 0xCD])) /\
    rtu_read dev false true 1 40000 2 3 125 tt = (tt, Ok (Some [0xAB; 0xCD])).
Proof.
  exists (fun s _ => (s, Some (mkWire (with_crc [9; 4; 2; 0xAB; 0xCD]) [] WEmpty))).
  split; [reflexivity|]. vm_compute. auto.
Qed.
Print Assumptions C30_read_reply_refuted.

(** ** C67: with the default limit of 125 registers per request a write exceeds the 123 registers
    Modbus allows, so a device that enforces the standard refuses it ... *)
Theorem C67_default_write_limit_refuted :
  exists data, zlen data = 2 * 124 /\ Forall is_byte data /\
  forall D (dev : sdev D) s,
    exists s' r rest, rtu_write (logged dev) true 1 0 data REQ_COUNT_MAX (s, []) = ((s', [write_frame 1 0 data] ++ rest), r).
Proof.
  exists (repeat 7 248). split; [reflexivity|]. split; [apply Forall_forall; intros x Hx; apply repeat_spec in Hx; subst; unfold is_byte; lia|].
  intros D dev s. unfold rtu_write.
  assert (HF : Forall is_byte (repeat 7 248)) by (apply Forall_forall; intros x Hx; apply repeat_spec in Hx; subst; unfold is_byte; lia).
  set (d := repeat 7 248) in *. assert (EL : zlen d = 248) by reflexivity. rewrite EL.
  generalize (length d) as fuel. intros fuel. clearbody d.
  cbn [rtu_write_loop]. change (0 <? 248) with true. cbv iota. change (2 * REQ_COUNT_MAX <? 248) with false. cbv iota.
  rewrite slice_full by lia. change (0 + 0) with 0.
  destruct (rtu_write1 (logged dev) 1 0 d (s, [])) as [[s1 lg1] r1] eqn:E1.
  apply rtu_write1_log in E1; [|exact HF].
  destruct E1 as [(_ & Hbad & _)|[_ ->]].
  { exfalso. apply Hbad. unfold write_args_ok, is_byte. lia. }
  destruct r1 as [u|e]; [|eexists _, _, []; reflexivity].
  destruct fuel as [|fuel]; cbn [rtu_write_loop]; [eexists _, _, []; reflexivity|].
  change (0 <? 248 - 248) with false. cbv iota. eexists _, _, []; reflexivity.
Qed.
Print Assumptions C67_default_write_limit_refuted.
(** ... while limits up to 123 are respected: C24 bounds every request by max_count. *)
Theorem C67_limit_respected_partial :
  forall D (dev : sdev D) is_open slave addr data max_count s s' sent r, 0 < max_count <= 123 -> Forall is_byte data ->
  rtu_write (logged dev) is_open slave addr data max_count (s, []) = ((s', sent), r) ->
  exists reqs, sent = map (fun q => write_frame slave (fst q) (snd q)) reqs /\ Forall (fun q => zlen (snd q) / 2 <= 123) reqs.
Proof.
  intros D dev is_open slave addr data mc s s' sent r Hm HB H.
  apply C24_write_requests_well_formed in H as (reqs & -> & HF); [|lia|exact HB].
  exists reqs. split; [reflexivity|]. eapply Forall_impl; [|exact HF]. cbv beta. intros q (_ & _ & _ & Hq).
  apply Z.div_le_upper_bound; lia.
Qed.
Print Assumptions C67_limit_respected_partial.

(** ** C68: supplying a trace function does not change results: refuted for reads, which then raise
    TypeError and send nothing; writes are unaffected by construction (rtu_write takes no trace). *)
Theorem C68_trace_breaks_reads_refuted :
  forall D (dev : sdev D) slave addr count op s, is_byte slave -> is_byte op -> 0 <= addr < 65536 -> 0 < count <= 125 ->
  rtu_read (logged dev) true true slave addr count op 125 (s, []) = ((s, []), Raise EType).
Proof.
  intros D dev slave addr count op s Hs Ho Ha Hc. unfold rtu_read. cbn [rtu_read_loop].
  destruct (Z.ltb_spec 0 count); [|lia]. destruct (Z.ltb_spec 125 count); [lia|]. rewrite Z.add_0_r.
  unfold rtu_read1. rewrite rtu_read_req_ok by (repeat split; unfold is_byte in *; lia). reflexivity.
Qed.
Print Assumptions C68_trace_breaks_reads_refuted.
