(** * C_Port: C101, failures of the serial port. *)
From Verif Require Import Py P_List M_Wire M_Crc M_Rtu M_Util M_Float M_Suns M_Point M_Mbmap M_Device M_Client M_Scan S_Modbus P_Rtu M_Port S_Port P_Port.

(** The ports of this file do everything the serial devices of the other properties do: they only add that discarding old
    input can raise. *)
Theorem C101_faultless_port :
  forall D (dev : sdev D) slave, port_dev (mkPort D (fun s => (s, None)) dev) slave = scl_dev (rtu_client dev false true slave).
Proof. reflexivity. Qed.
Print Assumptions C101_faultless_port.

(** Every error of a read or write of the device is SunSpecClientError, or an exception of the port itself; a write can also end
    with struct.error if the slave answers with the undefined Modbus exception 0. *)
Theorem C101_read_errors :
  forall D (p : port D) slave addr count s s' e, port_bytes p -> is_byte slave -> 0 <= addr -> addr + count <= 65536 -> count < 65536 ->
  cl_read (port_dev p slave) s addr count = (s', Raise e) -> e = ESunSpecClient \/ port_raises p e.
Proof.
  intros D p slave addr count s s' e HP Hs Ha Hac Hc H. unfold cl_read, port_dev, dv_read, port_read in H.
  destruct (port_read_loop _ _ _ _ _ _ _ _ _ _) as [s1 [o|x]] eqn:E; [discriminate|].
  apply pair_equal_spec in H as [_ H]. injection H as <-. apply wrap_err.
  eapply port_read_loop_err in E; eauto; unfold is_byte, FUNC_READ_HOLDING, REQ_COUNT_MAX in *; lia.
Qed.
Print Assumptions C101_read_errors.
Theorem C101_write_errors :
  forall D (p : port D) slave addr data s s' e, port_bytes p -> is_byte slave -> Forall is_byte data -> zlen data mod 2 = 0 ->
  0 <= addr -> addr + zlen data / 2 <= 65536 ->
  cl_write (port_dev p slave) s addr data = (s', Raise e) ->
  e = ESunSpecClient \/ port_raises p e \/ (e = EStruct /\ ~ codes_defined p).
Proof.
  intros D p slave addr data s s' e HP Hs Hd He Ha Hac H. unfold cl_write, port_dev, dv_write, port_write in H.
  destruct (port_write_loop _ _ _ _ _ _ _ _ _) as [s1 [o|x]] eqn:E; [discriminate|].
  apply pair_equal_spec in H as [_ H]. injection H as <-.
  apply (wrap_err (P := fun e => port_raises p e \/ (e = EStruct /\ ~ codes_defined p))).
  eapply port_write_loop_err in E; eauto; unfold is_byte, REQ_COUNT_MAX in *; try lia.
  unfold zlen. lia.
Qed.
Print Assumptions C101_write_errors.

(** If only sending can fail — a response may still be late, cut short, corrupted, or a Modbus exception, at every moment — every
    error is SunSpecClientError. *)
Theorem C101_failures_reported_partial :
  forall D (p : port D) slave, only_sending_fails p -> codes_defined p -> port_bytes p -> is_byte slave ->
  (forall addr count s s' e, 0 <= addr -> addr + count <= 65536 -> count < 65536 ->
     cl_read (port_dev p slave) s addr count = (s', Raise e) -> e = ESunSpecClient) /\
  (forall addr data s s' e, Forall is_byte data -> zlen data mod 2 = 0 -> 0 <= addr -> addr + zlen data / 2 <= 65536 ->
     cl_write (port_dev p slave) s addr data = (s', Raise e) -> e = ESunSpecClient).
Proof.
  intros D p slave HF HC HP Hs. split; intros.
  - edestruct C101_read_errors as [|X]; eauto. now apply HF in X.
  - edestruct C101_write_errors as [|[X|[_ X]]]; eauto; [now apply HF in X|contradiction].
Qed.
Print Assumptions C101_failures_reported_partial.

(** Whatever the port raises before the request is sent comes out of read, write and scan unchanged (unless it is a
    ModbusClientError) ... *)
Theorem C101_flush_failure_escapes_refuted :
  forall D (p : port D) slave s s' e, is_byte slave -> pt_flush p s = (s', Some e) -> is_modbus_client_error e = false ->
  (forall addr count, 0 <= addr < 65536 -> 0 < count <= 125 -> cl_read (port_dev p slave) s addr count = (s', Raise e)) /\
  (forall addr data, 0 <= addr < 65536 -> Forall is_byte data -> 0 < zlen data <= 250 -> cl_write (port_dev p slave) s addr data = (s', Raise e)) /\
  (forall lfuel types progress fuel models, is_sunspec_client_error e = false ->
     scan (port_client p slave) lfuel types progress fuel s (mkCD None models) = (s', mkCD None models, Raise e)).
Proof.
  intros D p slave s s' e Hs HF He.
  assert (HR : forall addr count, 0 <= addr < 65536 -> 0 < count <= 125 -> cl_read (port_dev p slave) s addr count = (s', Raise e)).
  { intros addr count Ha Hc. unfold cl_read, port_dev, dv_read, port_read. cbn [port_read_loop].
    rewrite (proj2 (Z.ltb_lt 0 count)) by lia. unfold REQ_COUNT_MAX. rewrite (proj2 (Z.ltb_ge 125 count)) by lia.
    unfold port_read1. rewrite rtu_read_req_ok by (unfold read_args_ok, is_byte, FUNC_READ_HOLDING in *; lia).
    rewrite HF. unfold wrap_modbus. now rewrite He. }
  split; [exact HR|]. split.
  - intros addr data Ha Hd Hl. unfold cl_write, port_dev, dv_write, port_write. cbn [port_write_loop].
    rewrite (proj2 (Z.ltb_lt 0 (zlen data))) by lia. unfold REQ_COUNT_MAX. rewrite (proj2 (Z.ltb_ge (2 * 125) (zlen data))) by lia.
    unfold port_write1.
    rewrite slice_full by lia.
    rewrite rtu_write_req_ok by (auto; unfold write_args_ok, is_byte in *; lia).
    rewrite HF. unfold wrap_modbus. now rewrite He.
  - intros lfuel types progress fuel models Hc. unfold scan, scan_body. cbn [scl_connect port_client cd_base find_base BASE_ADDRS].
    cbn [scl_dev]. rewrite HR by lia. rewrite Hc. reflexivity.
Qed.
Print Assumptions C101_flush_failure_escapes_refuted.
(** ... and so does what it raises while a response is awaited *)
Theorem C101_read_failure_escapes_refuted :
  forall D (p : port D) slave s s1 s' stream sched e addr count, is_byte slave -> 0 <= addr < 65536 -> 0 < count <= 125 ->
  pt_flush p s = (s1, None) -> pt_send p s1 (read_frame slave 3 addr count) = (s', Some (mkWire stream sched (WRaise e))) ->
  Forall is_byte stream -> zlen stream < 5 -> is_modbus_client_error e = false ->
  cl_read (port_dev p slave) s addr count = (s', Raise e).
Proof.
  intros D p slave s s1 s' stream sched e addr count Hs Ha Hc HF HS HB Hl He.
  unfold cl_read, port_dev, dv_read, port_read. cbn [port_read_loop].
  rewrite (proj2 (Z.ltb_lt 0 count)) by lia. unfold REQ_COUNT_MAX. rewrite (proj2 (Z.ltb_ge 125 count)) by lia.
  unfold port_read1. rewrite rtu_read_req_ok by (unfold read_args_ok, is_byte, FUNC_READ_HOLDING in *; lia).
  rewrite HF. replace (addr + 0) with addr by lia. unfold FUNC_READ_HOLDING. rewrite HS.
  replace (rtu_read_response _) with (@Raise bytes e).
  - unfold wrap_modbus. now rewrite He.
  - symmetry. apply (read_outcome_det stream (WRaise e)); [exact HB|now apply rtu_read_response_spec|].
    change (@Raise bytes e) with (@starved bytes (WRaise e)). now apply RO_short.
Qed.
Print Assumptions C101_read_failure_escapes_refuted.
(** the undefined exception code: struct.error *)
Theorem C101_undefined_code_refuted :
  exists p : port unit, only_sending_fails p /\ port_bytes p /\ cl_write (port_dev p 1) tt 0 [0; 7] = (tt, Raise EStruct).
Proof.
  exists (mkPort unit (fun s => (s, None)) (fun s _ => (s, Some (mkWire (with_crc [1; 0x90; 0]) [] WEmpty)))). split; [|split].
  - intros e [(s & s' & H)|(s & req & s' & w & H & E)]; [discriminate|]. apply pair_equal_spec in H as [_ H]. injection H as <-. discriminate.
  - intros s req s' w H. apply pair_equal_spec in H as [_ H]. injection H as <-. apply with_crc_bytes. repeat constructor; unfold is_byte; lia.
  - vm_compute. reflexivity.
Qed.
Print Assumptions C101_undefined_code_refuted.

(** a cable that is unplugged: nothing more arrives and reading raises OSError (pyserial's SerialException is one); a port that
    cannot be flushed; and one that only times out and therefore behaves as documented *)
Definition unplugged : port unit := mkPort unit (fun s => (s, None)) (fun s _ => (s, Some (mkWire [1; 3] [] (WRaise EOS)))).
Definition gone : port unit := mkPort unit (fun s => (s, Some EOS)) (fun s _ => (s, None)).
Definition silent : port unit := mkPort unit (fun s => (s, None)) (fun s _ => (s, Some (mkWire [1; 3] [] WEmpty))).
Example C101_ex :
  cl_read (port_dev unplugged 1) tt 40000 2 = (tt, Raise EOS) /\ port_raises unplugged EOS /\
  cl_write (port_dev gone 1) tt 40000 [0; 7] = (tt, Raise EOS) /\ port_raises gone EOS /\
  only_sending_fails silent /\ codes_defined silent /\ port_bytes silent /\
  cl_read (port_dev silent 1) tt 40000 2 = (tt, Raise ESunSpecClient).
Proof.
  repeat split; try (vm_compute; reflexivity).
  - right. exists tt, [], tt, (mkWire [1; 3] [] (WRaise EOS)). split; reflexivity.
  - left. exists tt, tt. reflexivity.
  - intros e [(s & s' & H)|(s & req & s' & w & H & E)]; [discriminate|]. apply pair_equal_spec in H as [_ H]. injection H as <-. discriminate.
  - intros s req s' w H Hl. apply pair_equal_spec in H as [_ H]. injection H as <-. unfold zlen in Hl. cbn in Hl. lia.
  - intros s req s' w H. apply pair_equal_spec in H as [_ H]. injection H as <-. repeat constructor; unfold is_byte; lia.
Qed.
