(** * C_Tcp: properties C31-C37 and the TCP part of C30, C67, C68 (ModbusClientDeviceTCP). *)
From Verif Require Import Py P_List M_Wire M_Rtu S_Modbus P_Rtu M_Tcp S_Tcp P_Tcp.

(** ** C31: the result does not depend on how recv splits the stream ... *)
Theorem C31_read_independent_of_segmentation :
  forall D (s1 s2 : server D) slave max_count trace addr count op st, tcp_same_streams s1 s2 ->
  tcp_read s1 slave max_count trace addr count op st = tcp_read s2 slave max_count trace addr count op st.
Proof. intros. now apply tcp_read_same. Qed.
Print Assumptions C31_read_independent_of_segmentation.
Theorem C31_write_independent_of_segmentation :
  forall D (s1 s2 : server D) slave max_count trace addr data st, tcp_same_streams s1 s2 ->
  tcp_write s1 slave max_count trace addr data st = tcp_write s2 slave max_count trace addr data st.
Proof. intros. now apply tcp_write_same. Qed.
Print Assumptions C31_write_independent_of_segmentation.
(** ... and the bytes of exactly one response (as announced by its header, at least nine) are taken
    from the stream; an incomplete one is an error *)
Theorem C31_one_response_consumed :
  forall D (st : tcp (D := D)) closed stream sched fin,
  (tcp_complete stream -> tcp_receive closed (mkWire stream sched fin) st
     = ((SConn (zdrop (tcp_frame_len stream) stream), snd st), Ok (ztake (tcp_frame_len stream) stream))) /\
  (~ tcp_complete stream ->
     tcp_receive closed (mkWire stream sched fin) st = ((SConn [], snd st), Raise (tcp_starved closed fin))).
Proof. exact tcp_receive_spec. Qed.
Print Assumptions C31_one_response_consumed.
Example C31_ex : tcp_complete (mbap [1; 3; 2; 0; 7] ++ [9; 9]) /\ tcp_frame_len (mbap [1; 3; 2; 0; 7] ++ [9; 9]) = 11.
Proof. vm_compute. repeat split; discriminate. Qed.

(** ** C32: reading from a conforming server, on an open connection ... *)
Theorem C32_read_returns_device_memory_connected :
  forall D (srv : server D) (mem : D -> memory) slave op,
  tcp_serves_reads srv mem slave op -> is_byte slave -> 0 <= op < 128 ->
  forall max_count addr count s, 1 <= max_count <= 125 -> 0 <= count -> 0 <= addr -> addr + count <= 65536 ->
  exists s' reqs,
    tcp_read (tcp_logged srv) slave max_count false addr count op (SConn [], (s, []))
      = ((SConn [], (s', map (fun r => tcp_read_frame slave op (fst r) (snd r)) reqs)),
         Ok (regs (mem s) addr (Z.to_nat count))) /\
    covers max_count addr count reqs /\ (forall a, mem s' a = mem s a).
Proof.
  intros D srv mem slave op H1 H2 H3 mc addr count s Hmc Hc Ha Hac. unfold tcp_read, with_connection. cbn [fst].
  destruct (tcp_read_loop_conforming srv mem slave op H1 H2 H3 (S (Z.to_nat count)) mc Hmc count addr 0 [] s []
    ltac:(lia) Hc ltac:(lia) ltac:(lia)) as (s' & reqs & E & Hcov & Hm).
  rewrite Z.add_0_r in *. exists s', reqs. auto.
Qed.
Print Assumptions C32_read_returns_device_memory_connected.
(** ... and with the connection opened for the request and closed afterwards *)
Theorem C32_read_returns_device_memory_unconnected :
  forall D (srv : server D) (mem : D -> memory) slave op,
  tcp_serves_reads srv mem slave op -> tcp_accepts srv mem -> is_byte slave -> 0 <= op < 128 ->
  forall max_count addr count s, 1 <= max_count <= 125 -> 0 <= count -> 0 <= addr -> addr + count <= 65536 ->
  exists s' reqs,
    tcp_read (tcp_logged srv) slave max_count false addr count op (SNone, (s, []))
      = ((SNone, (s', map (fun r => tcp_read_frame slave op (fst r) (snd r)) reqs)),
         Ok (regs (mem s) addr (Z.to_nat count))) /\
    covers max_count addr count reqs /\ (forall a, mem s' a = mem s a).
Proof.
  intros D srv mem slave op H1 HA H2 H3 mc addr count s Hmc Hc Ha Hac.
  destruct (HA s) as (s1 & Econn & Hm1).
  destruct (C32_read_returns_device_memory_connected D srv mem slave op H1 H2 H3 mc addr count s1 Hmc Hc Ha Hac)
    as (s' & reqs & E & Hcov & Hm).
  exists s', reqs. split; [|split; [exact Hcov|intros a; rewrite Hm; apply Hm1]].
  unfold tcp_read, with_connection in *. cbn [fst] in *. unfold tcp_connect, tcp_logged. cbn [srv_connect snd fst].
  rewrite Econn. fold (tcp_logged srv). rewrite E. unfold tcp_disconnect. cbn [snd].
  now rewrite (regs_ext (mem s1) (mem s)) by exact Hm1.
Qed.
Print Assumptions C32_read_returns_device_memory_unconnected.

(** a conforming server *)
Definition ex_srv : server memory := {|
  srv_connect := fun m => (m, true);
  srv_send := fun m req =>
    match req with
    | _ :: _ :: _ :: _ :: _ :: _ :: sl :: op :: a1 :: a0 :: c1 :: c0 :: rest =>
      let addr := be_int [a1; a0] in let count := be_int [c1; c0] in
      if op =? 16
      then match rest with
           | n :: d => (store m addr (ztake n d), Some (mkWire (tcp_write_reply sl addr count) [3; 1] WEmpty))
           | [] => (m, None)
           end
      else (m, Some (mkWire (tcp_read_reply sl op m addr count) [2; 1] WEmpty))
    | _ => (m, None)
    end |}.
Example C32_ex : forall slave op, op <> 16 -> tcp_serves_reads ex_srv (fun m => m) slave op /\ tcp_accepts ex_srv (fun m => m).
Proof.
  intros slave op Hop. split.
  - intros m addr count Hc Ha Hac. exists m, [2; 1], WEmpty. split; [|auto].
    unfold tcp_read_frame, mbap, word. cbn [app ex_srv srv_send]. destruct (Z.eqb_spec op 16); [contradiction|].
    replace (be_int [addr / 256; addr mod 256]) with addr by (symmetry; exact (be_int_word addr)).
    replace (be_int [count / 256; count mod 256]) with count by (symmetry; exact (be_int_word count)). reflexivity.
  - intros m. exists m. auto.
Qed.
Example C33_ex : forall slave, tcp_serves_writes ex_srv (fun m => m) slave 123.
Proof.
  intros slave m addr data HB HE Hc Ha Hac. exists (store m addr data), [3; 1], WEmpty. split; [|auto].
  unfold tcp_write_frame, mbap, word. cbn [app ex_srv srv_send]. change (16 =? 16) with true. cbv iota.
  replace (be_int [addr / 256; addr mod 256]) with addr by (symmetry; exact (be_int_word addr)).
  replace (be_int [zlen data / 2 / 256; (zlen data / 2) mod 256]) with (zlen data / 2) by (symmetry; exact (be_int_word _)).
  rewrite ztake_all by lia. reflexivity.
Qed.

(** ** C33: refuted: writing more than max_count registers raises UnboundLocalError and sends
    nothing, whatever the server ... *)
Theorem C33_long_write_refuted :
  forall D (srv : server D) slave max_count trace addr data p s, 0 <= max_count -> 2 * max_count < zlen data ->
  tcp_write srv slave max_count trace addr data (SConn p, s) = ((SConn p, s), Raise EUnbound).
Proof.
  intros D srv slave mc trace addr data p s Hm H. unfold tcp_write, with_connection. cbn [fst].
  apply tcp_write_too_long; lia.
Qed.
Print Assumptions C33_long_write_refuted.
(** ... what fits one request is stored exactly *)
Theorem C33_short_write_partial :
  forall D (srv : server D) (mem : D -> memory) slave lim,
  tcp_serves_writes srv mem slave lim -> is_byte slave -> lim <= 127 ->
  forall max_count addr data s, 1 <= max_count <= lim -> Forall is_byte data -> zlen data mod 2 = 0 ->
  zlen data / 2 <= max_count -> 0 <= addr -> addr + zlen data / 2 <= 65536 ->
  exists s' reqs,
    tcp_write (tcp_logged srv) slave max_count false addr data (SConn [], (s, [])) = ((SConn [], (s', reqs)), Ok tt) /\
    reqs = (if zlen data =? 0 then [] else [tcp_write_frame slave addr data]) /\
    (forall a, mem s' a = store (mem s) addr data a).
Proof.
  intros D srv mem slave lim H1 H2 H3 mc addr data s Hmc HB HE Hfit Ha Hac.
  assert (EH : zlen data = 2 * (zlen data / 2)) by (rewrite (Z.div_mod (zlen data) 2) at 1 by lia; lia).
  unfold tcp_write, with_connection. cbn [fst tcp_write_loop].
  destruct (Z.ltb_spec 0 (zlen data)) as [Hpos|Hz].
  - destruct (Z.ltb_spec (2 * mc) (zlen data)); [lia|]. rewrite Z.add_0_r.
    rewrite slice_full by lia.
    destruct (tcp_write1_conforming srv mem slave lim H1 H2 H3 s [] addr data HB HE ltac:(lia) Ha Hac) as (s' & -> & Hm).
    exists s', [tcp_write_frame slave addr data]. split; [|split; [|exact Hm]].
    + destruct (length data) eqn:EL; [unfold zlen in Hpos; lia|]. cbn [tcp_write_loop].
      rewrite Z.sub_diag. reflexivity.
    + destruct (Z.eqb_spec (zlen data) 0); [lia|reflexivity].
  - assert (data = []) as -> by (apply zlen_zero_nil; lia). exists s, []. auto.
Qed.
Print Assumptions C33_short_write_partial.

(** ** C34: histories.  The operations a user can perform on the device object. *)
Inductive tcp_op :=
| OConnect | ODisconnect | ORead (addr count op : Z) | OWrite (addr : Z) (data : bytes).
Section Histories.
  Context {D : Type}.
  Variables (srv : server D) (slave max_count : Z) (trace : bool).
  Definition tcp_step (o : tcp_op) (st : tcp (D := D)) : tcp (D := D) :=
    match o with
    | OConnect => fst (tcp_connect srv st)
    | ODisconnect => tcp_disconnect st
    | ORead addr count op => fst (tcp_read srv slave max_count trace addr count op st)
    | OWrite addr data => fst (tcp_write srv slave max_count trace addr data st)
    end.
  Definition tcp_history (l : list tcp_op) (st : tcp) : tcp := fold_left (fun s o => tcp_step o s) l st.
End Histories.
(** after any history, a read or write leaves the device connected iff it was connected before *)
Theorem C34_requests_preserve_connection :
  forall D (srv : server D) slave max_count trace l st o,
  (forall addr count op, o = ORead addr count op ->
     connected (fst (tcp_step srv slave max_count trace o (tcp_history srv slave max_count trace l st)))
     = connected (fst (tcp_history srv slave max_count trace l st))) /\
  (forall addr data, o = OWrite addr data ->
     connected (fst (tcp_step srv slave max_count trace o (tcp_history srv slave max_count trace l st)))
     = connected (fst (tcp_history srv slave max_count trace l st))).
Proof.
  intros D srv slave mc trace l st o. generalize (tcp_history srv slave mc trace l st). intros st1. split.
  - intros addr count op ->. cbn [tcp_step].
    destruct (tcp_read srv slave mc trace addr count op st1) as [st2 r] eqn:E. apply tcp_read_sock in E. cbn [fst].
    destruct (fst st1); cbn [connected]; [destruct E as [->|[-> _]]; reflexivity|now rewrite E|exact E].
  - intros addr data ->. cbn [tcp_step].
    destruct (tcp_write srv slave mc trace addr data st1) as [st2 r] eqn:E. apply tcp_write_sock in E. cbn [fst].
    destruct (fst st1); cbn [connected]; [destruct E as [->|[-> _]]; reflexivity|now rewrite E|exact E].
Qed.
Print Assumptions C34_requests_preserve_connection.
(** a request on an unconnected device that could connect closes its connection again (the socket
    attribute is None), however the exchange ends *)
Theorem C34_temporary_connection_closed :
  forall D (srv : server D) slave max_count trace d d', srv_connect srv d = (d', true) ->
  (forall addr count op, fst (fst (tcp_read srv slave max_count trace addr count op (SNone, d))) = SNone) /\
  (forall addr data, fst (fst (tcp_write srv slave max_count trace addr data (SNone, d))) = SNone).
Proof.
  intros D srv slave mc trace d d' HC. split.
  - intros addr count op. destruct (tcp_read srv slave mc trace addr count op (SNone, d)) as [st2 r] eqn:E.
    apply tcp_read_sock in E. cbn [fst snd] in *. rewrite HC in E. destruct E as [E|(_ & _ & E)]; [exact E|discriminate].
  - intros addr data. destruct (tcp_write srv slave mc trace addr data (SNone, d)) as [st2 r] eqn:E.
    apply tcp_write_sock in E. cbn [fst snd] in *. rewrite HC in E. destruct E as [E|(_ & _ & E)]; [exact E|discriminate].
Qed.
Print Assumptions C34_temporary_connection_closed.
Example C34_ex : (* the server breaks the connection during the read *)
  tcp_read {| srv_connect := fun s : unit => (s, true);
              srv_send := fun s _ => (s, Some (mkWire [0; 0; 0; 0; 0] [1; 1] WEmpty)) |} 1 125 false 40000 2 3 (SNone, tt)
  = ((SNone, tt), Raise EModbusClient).
Proof. vm_compute. reflexivity. Qed.

(** ** C35: refuted.  If the connection attempt of a read or write fails, every later read and
    write (without an explicit connect or disconnect) fails without contacting the server, no
    matter how many there are and whether the server has become reachable. *)
Definition is_request (o : tcp_op) : bool := match o with ORead _ _ _ | OWrite _ _ => true | _ => false end.
Theorem C35_failed_connection_is_final_refuted :
  forall D (srv : server D) slave max_count trace d d', srv_connect srv d = (d', false) ->
  forall addr count op,
  tcp_read srv slave max_count trace addr count op (SNone, d) = ((SDead, d'), Raise EModbusClient) /\
  forall later, forallb is_request later = true ->
    tcp_history srv slave max_count trace later (SDead, d') = (SDead, d') /\
    forall addr' count' op', 0 < count' -> exists e,
      snd (tcp_read srv slave max_count trace addr' count' op' (tcp_history srv slave max_count trace later (SDead, d'))) = Raise e.
Proof.
  intros D srv slave mc trace d d' HC addr count op. split.
  { unfold tcp_read, with_connection, tcp_connect. cbn [fst snd]. now rewrite HC. }
  intros later HL.
  assert (EH : tcp_history srv slave mc trace later (SDead, d') = (SDead, d')).
  { induction later as [|o l IH]; [reflexivity|]. cbn [forallb] in HL. apply andb_true_iff in HL as [Ho HL].
    unfold tcp_history in *. cbn [fold_left]. replace (tcp_step srv slave mc trace o (SDead, d')) with ((SDead, d') : tcp (D := D)); [now apply IH|].
    destruct o as [| |a c p|a dt]; try discriminate; cbn [tcp_step].
    - destruct (tcp_read srv slave mc trace a c p (SDead, d')) as [st r] eqn:E. apply tcp_read_dead_sock in E. now subst.
    - destruct (tcp_write srv slave mc trace a dt (SDead, d')) as [st r] eqn:E. apply tcp_write_dead_sock in E. now subst. }
  split; [exact EH|]. intros a c p Hc. rewrite EH.
  destruct (tcp_read_dead srv slave mc trace a c p d' Hc) as [e E]. exists e. now rewrite E.
Qed.
Print Assumptions C35_failed_connection_is_final_refuted.
(** after disconnect() (or connect()) the device works again as from the start *)
Theorem C35_retry_after_disconnect_partial :
  forall D (srv : server D) slave max_count trace addr count op d,
  tcp_read srv slave max_count trace addr count op (tcp_disconnect (SDead, d))
  = tcp_read srv slave max_count trace addr count op (SNone, d).
Proof. reflexivity. Qed.
Print Assumptions C35_retry_after_disconnect_partial.
Example C35_ex : (* a server that is unreachable only once *)
  let srv := {| srv_connect := fun n : Z => (n + 1, 0 <? n);
                srv_send := fun n _ => (n, Some (mkWire (mbap [1; 3; 2; 0; 7]) [] WEmpty)) |} in
  let st := fst (tcp_read srv 1 125 false 40000 1 3 (SNone, 0)) in
  snd (tcp_read srv 1 125 false 40000 1 3 st) = Raise EModbusClient /\
  snd (tcp_read srv 1 125 false 40000 1 3 (SNone, snd st)) = Ok [0; 7].
Proof. vm_compute. auto. Qed.

(** ** C36: refuted.  All requests carry transaction id 0 and replies are not matched: the first
    request times out, its reply arrives late and is returned as the data of the second. *)
Definition late_srv : server (list bytes) := {|
  srv_connect := fun q => (q, true);
  (* answers request n with the reply to request n-1 (late), then its own is still on its way *)
  srv_send := fun q req =>
    match req with
    | _ :: _ :: _ :: _ :: _ :: _ :: sl :: op :: a1 :: a0 :: _ =>
      ([mbap [sl; op; 2; a1; a0]], Some (mkWire (concat q) [] (WRaise ESockTimeout)))
    | _ => (q, None)
    end |}.
Theorem C36_late_reply_refuted :
  let '(st1, r1) := tcp_read late_srv 1 125 false 100 1 3 (SConn [], []) in
  r1 = Raise ESockTimeout /\
  (* the registers of this server hold their own address: register 200 is reported to hold 100 *)
  snd (tcp_read late_srv 1 125 false 200 1 3 st1) = Ok (word 100) /\ word 100 <> word 200.
Proof. vm_compute. repeat split; discriminate. Qed.
Print Assumptions C36_late_reply_refuted.
(** as long as no request fails, nothing of another reply is left behind: C32_..._connected
    returns to the state it starts from, so any sequence of reads returns the memory. *)
(* the reads (address, count) of a list one after the other on the same connection, with their results *)
Fixpoint tcp_reads {D} (srv : server D) (slave max_count op : Z) (l : list (Z * Z)) (st : tcp (D := D)) : tcp (D := D) * list (res bytes) :=
  match l with
  | [] => (st, [])
  | r :: l' =>
    let '(st1, v) := tcp_read srv slave max_count false (fst r) (snd r) op st in
    let '(st2, vs) := tcp_reads srv slave max_count op l' st1 in (st2, v :: vs)
  end.
Theorem C36_no_failures_partial :
  forall D (srv : server D) (mem : D -> memory) slave op,
  tcp_serves_reads srv mem slave op -> is_byte slave -> 0 <= op < 128 ->
  forall max_count, 1 <= max_count <= 125 ->
  forall l s, Forall (fun r => 0 <= snd r /\ 0 <= fst r /\ fst r + snd r <= 65536) l ->
  exists s', tcp_reads (tcp_logged srv) slave max_count op l (SConn [], s)
    = ((SConn [], s'), map (fun r => Ok (regs (mem (fst s)) (fst r) (Z.to_nat (snd r)))) l).
Proof.
  intros D srv mem slave op HS Hsl Hop mc Hmc l.
  induction l as [|[a c] l IH]; intros [s lg] HF.
  - exists (s, lg). reflexivity.
  - inversion HF as [|? ? (H1 & H2 & H3) HF']; subst. cbn [fst snd] in *. cbn [tcp_reads fst snd map].
    destruct (tcp_read_loop_conforming srv mem slave op HS Hsl Hop (S (Z.to_nat c)) mc Hmc c a 0 [] s lg
      ltac:(lia) H1 ltac:(lia) ltac:(lia)) as (s1 & reqs1 & E1 & _ & Hm).
    assert (E2 : tcp_read (tcp_logged srv) slave mc false a c op (SConn [], (s, lg)) =
      ((SConn [], (s1, lg ++ map (fun r => tcp_read_frame slave op (fst r) (snd r)) reqs1)),
        Ok (regs (mem s) a (Z.to_nat c)))).
    { unfold tcp_read, with_connection. cbn [fst]. rewrite E1, Z.add_0_r. reflexivity. }
    rewrite E2.
    destruct (IH (s1, lg ++ map (fun r => tcp_read_frame slave op (fst r) (snd r)) reqs1) HF') as (s' & ->).
    exists s'. cbn [fst]. do 2 f_equal. apply map_ext. intros r. now rewrite (regs_ext (mem s1) (mem s)) by exact Hm.
Qed.
Print Assumptions C36_no_failures_partial.

(** ** C37: refuted: a timeout while waiting for the answer escapes as socket.timeout ... *)
Theorem C37_timeout_escapes_refuted :
  exists srv : server unit,
    tcp_read srv 1 125 false 40000 1 3 (SNone, tt) = ((SNone, tt), Raise ESockTimeout) /\
    is_modbus_client_error ESockTimeout = false.
Proof.
  exists {| srv_connect := fun s => (s, true); srv_send := fun s _ => (s, Some (mkWire [] [] (WRaise ESockTimeout))) |}.
  vm_compute. auto.
Qed.
Print Assumptions C37_timeout_escapes_refuted.
(** ... all other failures of the network (connection refused, sending fails, connection closed by
    the peer at any point) and all exception responses are ModbusClientErrors *)
Theorem C37_other_failures_partial :
  forall D (srv : server D) slave max_count addr count op st st' e,
  (forall d req d' w, srv_send srv d req = (d', Some w) -> w_end w = WEmpty) ->
  is_byte slave -> is_byte op -> 0 < max_count -> 0 <= addr -> addr + count <= 65536 -> count < 65536 ->
  tcp_read srv slave max_count false addr count op st = (st', Raise e) -> is_modbus_client_error e = true.
Proof.
  intros D srv slave mc addr count op st st' e HE Hs Ho Hm Ha Hac Hc H.
  unfold tcp_read, with_connection in H.
  destruct (fst st).
  - unfold tcp_connect in H. destruct (srv_connect srv (snd st)) as [d' []].
    + destruct (tcp_read_loop _ _ _ _ _ _ _ _ _ _ _) as [st2 r2] eqn:E. injection H as <- ->.
      eapply tcp_read_loop_errors in E; eauto; lia.
    + injection H as <- <-. reflexivity.
  - eapply tcp_read_loop_errors in H; eauto; lia.
  - eapply tcp_read_loop_errors in H; eauto; lia.
Qed.
Print Assumptions C37_other_failures_partial.

(** ** TCP parts of C30 and C68 *)
(** any answer is accepted as the reply to a TCP write: here that of another unit to a read *)
Theorem C30_tcp_write_reply_refuted :
  tcp_write {| srv_connect := fun s : unit => (s, true);
               srv_send := fun s _ => (s, Some (mkWire (mbap [9; 3; 2; 1; 2]) [] WEmpty)) |} 1 125 false 40000 [0; 1] (SNone, tt)
  = ((SNone, tt), Ok tt).
Proof. vm_compute. reflexivity. Qed.
Print Assumptions C30_tcp_write_reply_refuted.
Theorem C68_trace_breaks_tcp_refuted :
  forall D (srv : server D) slave p d addr count op, is_byte slave -> is_byte op -> 0 <= addr < 65536 -> 0 < count <= 125 ->
  tcp_read srv slave 125 true addr count op (SConn p, d) = ((SConn p, d), Raise EType).
Proof.
  intros D srv slave p d addr count op Hs Ho Ha Hc. unfold tcp_read, with_connection. cbn [fst tcp_read_loop].
  destruct (Z.ltb_spec 0 count); [|lia]. destruct (Z.ltb_spec 125 count); [lia|]. rewrite Z.add_0_r.
  unfold tcp_read1. rewrite tcp_read_req_ok by (unfold read_args_ok, is_byte in *; lia). reflexivity.
Qed.
Print Assumptions C68_trace_breaks_tcp_refuted.
