(** * P_Stack: the Modbus devices implement a memory. *)
From Coq Require Import ZifyBool.
From Verif Require Import Py P_List M_Wire S_Modbus M_Rtu P_Rtu M_Tcp S_Tcp P_Tcp M_Mbmap S_Mbmap P_Mbmap M_Device S_Device M_Client M_Scan S_Scan S_Stack.
From Verif Require C_Rtu C_Tcp C_Mbmap S_Client P_Client C_Client P_Scan.

Lemma byte_view_even m a : byte_view m (2 * a) = m a / 256.
Proof. unfold byte_view. rewrite Z.even_mul. cbn [Z.even orb]. rewrite (Z.mul_comm 2 a), Z.div_mul by lia. reflexivity. Qed.
Lemma byte_view_odd m a : byte_view m (2 * a + 1) = m a mod 256.
Proof.
  unfold byte_view. rewrite Z.even_add, Z.even_mul. cbn [Z.even orb Bool.eqb].
  replace ((2 * a + 1) / 2) with a; [reflexivity|]. apply (Z.div_unique _ _ a 1); lia.
Qed.
Lemma even_odd x : exists a, x = 2 * a \/ x = 2 * a + 1.
Proof. exists (x / 2). pose proof (Z.div_mod x 2 ltac:(lia)). pose proof (Z.mod_pos_bound x 2 ltac:(lia)). lia. Qed.
Lemma zseq_cons a n : S_Client.zseq a (S n) = a :: S_Client.zseq (a + 1) n.
Proof.
  unfold S_Client.zseq. cbn [seq map]. f_equal; [lia|]. rewrite <- seq_shift, map_map. apply map_ext. intros i. lia.
Qed.
Lemma regs_bytes_view m : forall n a, regs m a n = S_Client.mem_bytes (byte_view m) a (Z.of_nat n).
Proof.
  induction n as [|n IH]; intros a; [reflexivity|]. cbn [regs]. rewrite IH. unfold S_Client.mem_bytes.
  replace (Z.to_nat (2 * Z.of_nat (S n))) with (S (S (Z.to_nat (2 * Z.of_nat n)))) by lia. rewrite !zseq_cons. cbn [map].
  rewrite byte_view_even, byte_view_odd. replace (2 * a + 1 + 1) with (2 * (a + 1)) by lia. reflexivity.
Qed.
Lemma store_view d : forall m a, zlen d mod 2 = 0 -> Forall is_byte d ->
  forall x, byte_view (store m a d) x = S_Client.mem_store (byte_view m) a d x.
Proof.
  intros m a HE. revert m a.
  refine (two_ind (fun d => forall m a, Forall is_byte d -> forall x, byte_view (store m a d) x = S_Client.mem_store (byte_view m) a d x) _ _ d HE); clear d HE.
  - intros m a _ x. unfold S_Client.mem_store; cbn [store]; rewrite zlen_nil; replace ((2 * a <=? x) && (x <? 2 * a + 0)) with false by lia; reflexivity.
  - intros h l d IH m a HB x. cbn [store]. inversion HB as [|? ? Hh HB1]; subst. inversion HB1 as [|? ? Hl HB2]; subst. unfold is_byte in Hh, Hl.
    rewrite IH by exact HB2.
    unfold S_Client.mem_store. rewrite !zlen_cons. pose proof (zlen_nonneg d) as HN.
    destruct (even_odd x) as [y [-> | ->]].
    + destruct (Z.eq_dec y a) as [->|NE].
      * replace ((2 * (a + 1) <=? 2 * a) && _) with false by lia. rewrite byte_view_even, Z.eqb_refl.
        replace ((2 * a <=? 2 * a) && (2 * a <? 2 * a + (1 + (1 + zlen d)))) with true by lia.
        rewrite Z.sub_diag. change (znth 0 (h :: l :: d)) with h. rewrite Z.div_add_l by lia. rewrite (Z.div_small l) by lia. lia.
      * rewrite !byte_view_even. destruct (Z.eqb_spec y a); [contradiction|].
        destruct ((2 * (a + 1) <=? 2 * y) && (2 * y <? 2 * (a + 1) + zlen d)) eqn:E1.
        -- replace ((2 * a <=? 2 * y) && (2 * y <? 2 * a + (1 + (1 + zlen d)))) with true by lia.
           unfold znth. replace (Z.to_nat (2 * y - 2 * a)) with (S (S (Z.to_nat (2 * y - 2 * (a + 1))))) by lia. reflexivity.
        -- replace ((2 * a <=? 2 * y) && (2 * y <? 2 * a + (1 + (1 + zlen d)))) with false by lia. reflexivity.
    + destruct (Z.eq_dec y a) as [->|NE].
      * replace ((2 * (a + 1) <=? 2 * a + 1) && _) with false by lia. rewrite byte_view_odd, Z.eqb_refl.
        replace ((2 * a <=? 2 * a + 1) && (2 * a + 1 <? 2 * a + (1 + (1 + zlen d)))) with true by lia.
        replace (2 * a + 1 - 2 * a) with 1 by lia. change (znth 1 (h :: l :: d)) with l.
        rewrite Z.add_comm, Z.mod_add by lia. rewrite Z.mod_small by lia. reflexivity.
      * rewrite !byte_view_odd. destruct (Z.eqb_spec y a); [contradiction|].
        destruct ((2 * (a + 1) <=? 2 * y + 1) && (2 * y + 1 <? 2 * (a + 1) + zlen d)) eqn:E1.
        -- replace ((2 * a <=? 2 * y + 1) && (2 * y + 1 <? 2 * a + (1 + (1 + zlen d)))) with true by lia.
           unfold znth. replace (Z.to_nat (2 * y + 1 - 2 * a)) with (S (S (Z.to_nat (2 * y + 1 - 2 * (a + 1))))) by lia. reflexivity.
        -- replace ((2 * a <=? 2 * y + 1) && (2 * y + 1 <? 2 * a + (1 + (1 + zlen d)))) with false by lia. reflexivity.
Qed.
Lemma mem_store_ext m m' a d : (forall x, m x = m' x) -> forall x, S_Client.mem_store m a d x = S_Client.mem_store m' a d x.
Proof. intros H x. unfold S_Client.mem_store. destruct (_ && _); auto. Qed.

(** ** recorded requests do not matter *)
Section Log.
  Context {D : Type} (dev : sdev D).
  Lemma rtu_read1_log trace slave addr count op s lg : exists lg',
    rtu_read1 (logged dev) trace slave addr count op (s, lg) = let '(s', r) := rtu_read1 dev trace slave addr count op s in ((s', lg'), r).
  Proof.
    unfold rtu_read1. destruct (rtu_read_req _ _ _ _); [|eauto]. destruct trace; [eauto|]. unfold logged. cbn [fst snd].
    destruct (dev s a) as [d' [w|]]; eauto.
  Qed.
  Lemma rtu_read_loop_unlog trace slave addr op max_count fuel : forall count off resp s lg s' lg' r,
    rtu_read_loop (logged dev) trace fuel slave addr count op max_count off resp (s, lg) = ((s', lg'), r) ->
    rtu_read_loop dev trace fuel slave addr count op max_count off resp s = (s', r).
  Proof.
    induction fuel as [|fuel IH]; intros count off resp s lg s' lg' r H; cbn [rtu_read_loop] in *; [congruence|].
    destruct (0 <? count); [|congruence]. destruct (rtu_read1_log trace slave (addr + off) (if max_count <? count then max_count else count) op s lg) as [lg1 E].
    rewrite E in H. destruct (rtu_read1 dev trace slave _ _ op s) as [s1 [[|b bs]|e]]; [congruence| |congruence]. eapply IH; exact H.
  Qed.
  Lemma rtu_write_loop_unlog slave addr max_count data fuel : forall count off s lg s' lg' r,
    rtu_write_loop (logged dev) fuel slave addr count max_count off data (s, lg) = ((s', lg'), r) ->
    rtu_write_loop dev fuel slave addr count max_count off data s = (s', r).
  Proof.
    induction fuel as [|fuel IH]; intros count off s lg s' lg' r H; cbn [rtu_write_loop] in *; [congruence|].
    destruct (0 <? count); [|congruence]. unfold rtu_write1 in *. destruct (rtu_write_req _ _ _) as [req|e]; [|congruence]. unfold logged in H at 1. cbn [fst snd] in H.
    destruct (dev s req) as [s1 [w|]]; [|congruence]. destruct (rtu_write_response _ _ _ w); [|congruence]. eapply IH; exact H.
  Qed.
End Log.

(** ** RTU *)
Definition rtu_rel {D} (mem : D -> memory) (s : D) (bm : S_Client.memory) : Prop := forall x, bm x = byte_view (mem s) x.
Lemma rtu_implements {D} (dev : sdev D) (mem : D -> memory) slave lim wmax :
  serves_reads dev mem slave 3 -> serves_writes dev mem slave lim -> (forall s, mem_ok (mem s)) -> is_byte slave -> lim <= 127 -> 125 <= lim ->
  S_Client.implements (scl_dev (rtu_client dev false true slave)) (rtu_rel mem) 0 65536 wmax.
Proof.
  intros HR HW HM HS HL1 HL2. split.
  - intros s bm a n HREL Ha Hn Han.
    destruct (C_Rtu.C26_read_returns_device_memory D dev mem slave 3 HR HM HS ltac:(lia) 125 a n s ltac:(lia) Hn Ha Han) as (s' & reqs & E & _ & Hm).
    unfold rtu_read in E. apply rtu_read_loop_unlog in E. exists s'. split.
    + cbn [scl_dev rtu_client dv_read]. unfold rtu_read. change FUNC_READ_HOLDING with 3. change REQ_COUNT_MAX with 125. cbv iota. etransitivity; [exact E|]. do 3 f_equal. rewrite regs_bytes_view, Z2Nat.id by lia.
      unfold S_Client.mem_bytes. apply map_ext. intros x. symmetry. apply HREL.
    + intros x. rewrite HREL. unfold byte_view. now rewrite Hm.
  - intros s bm a d HREL Ha Had HE H0 _ HB.
    destruct (C_Rtu.C27_write_stores_the_data D dev mem slave lim HW HS HL1 125 a d s ltac:(lia) HB HE Ha Had) as (s' & reqs & E & _ & Hm).
    unfold rtu_write in E. apply rtu_write_loop_unlog in E. exists s'. split.
    + cbn [scl_dev rtu_client dv_write]. unfold rtu_write. exact E.
    + intros x. rewrite (mem_store_ext bm (byte_view (mem s))) by exact HREL. rewrite <- store_view by assumption. unfold byte_view. now rewrite Hm.
  - intros s m m' H1 H2 x. rewrite <- H2. apply H1.
Qed.
(** a slave that accepts fewer registers per request: writes that fit one *)
Lemma rtu_implements_small {D} (dev : sdev D) (mem : D -> memory) slave lim :
  serves_reads dev mem slave 3 -> serves_writes dev mem slave lim -> (forall s, mem_ok (mem s)) -> is_byte slave -> lim <= 125 ->
  S_Client.implements (scl_dev (rtu_client dev false true slave)) (rtu_rel mem) 0 65536 lim.
Proof.
  intros HR HW HM HS HL1. split.
  - intros s bm a n HREL Ha Hn Han.
    destruct (C_Rtu.C26_read_returns_device_memory D dev mem slave 3 HR HM HS ltac:(lia) 125 a n s ltac:(lia) Hn Ha Han) as (s' & reqs & E & _ & Hm).
    unfold rtu_read in E. apply rtu_read_loop_unlog in E. exists s'. split.
    + cbn [scl_dev rtu_client dv_read]. unfold rtu_read. change FUNC_READ_HOLDING with 3. change REQ_COUNT_MAX with 125. cbv iota. etransitivity; [exact E|]. do 3 f_equal. rewrite regs_bytes_view, Z2Nat.id by lia.
      unfold S_Client.mem_bytes. apply map_ext. intros x. symmetry. apply HREL.
    + intros x. rewrite HREL. unfold byte_view. now rewrite Hm.
  - intros s bm a d HREL Ha Had HE H0 Hlen HB.
    destruct (C_Rtu.C27_write_stores_the_data D dev mem slave lim HW HS ltac:(lia) lim a d s ltac:(lia) HB HE Ha Had) as (s' & reqs & E & _ & Hm).
    unfold rtu_write in E. apply rtu_write_loop_unlog in E. exists s'. split.
    + cbn [scl_dev rtu_client dv_write]. unfold rtu_write. rewrite <- E. cbn [rtu_write_loop]. change (2 * REQ_COUNT_MAX) with 250.
      destruct (Z.ltb_spec 0 (zlen d)); [|lia]. destruct (Z.ltb_spec 250 (zlen d)); [lia|]. destruct (Z.ltb_spec (2 * lim) (zlen d)); [lia|].
      destruct (rtu_write1 _ _ _ _ _) as [s1 [u|x]]; [|reflexivity]. rewrite Z.sub_diag. destruct d as [|h t]; [rewrite zlen_nil in *; lia|].
      cbn [length rtu_write_loop]. reflexivity.
    + intros x. rewrite (mem_store_ext bm (byte_view (mem s))) by exact HREL. rewrite <- store_view by assumption. unfold byte_view. now rewrite Hm.
  - intros s m m' H1 H2 x. rewrite <- H2. apply H1.
Qed.

(** ** TCP *)
Section TcpLog.
  Context {D : Type} (srv : server D) (slave max_count : Z) (trace : bool).
  Definition unlog {A} (x : tcp (D := D * list bytes) * A) : tcp (D := D) * A := ((fst (fst x), fst (snd (fst x))), snd x).
  Definition un (st : tcp (D := D * list bytes)) : tcp (D := D) := (fst st, fst (snd st)).
  Lemma tcp_send_unlog req st : tcp_send srv req (un st) = unlog (tcp_send (tcp_logged srv) req st).
  Proof.
    destruct st as [[| |p] [d lg]]; try reflexivity. unfold tcp_send, un, tcp_logged. cbn [fst snd srv_send].
    destruct (srv_send srv d req) as [d' [w|]]; reflexivity.
  Qed.
  Lemma tcp_receive_unlog closed w st : tcp_receive closed w (un st) = unlog (tcp_receive closed w st).
  Proof. unfold tcp_receive. destruct (tcp_recv _ _ _ _ _) as [[resp w']|e]; reflexivity. Qed.
  Lemma tcp_read1_unlog addr count op st : tcp_read1 srv slave trace addr count op (un st) = unlog (tcp_read1 (tcp_logged srv) slave trace addr count op st).
  Proof.
    unfold tcp_read1. destruct (tcp_read_req _ _ _ _) as [req|e]; [|reflexivity]. destruct trace; [reflexivity|]. rewrite tcp_send_unlog.
    destruct (tcp_send (tcp_logged srv) req st) as [st1 [w|e]]; [|reflexivity]. unfold unlog at 1. cbn [fst snd]. fold (un st1). rewrite tcp_receive_unlog.
    destruct (tcp_receive EModbusClient w st1) as [st2 [r|e]]; [|reflexivity]. unfold unlog at 1. cbn [fst snd]. destruct (tcp_exception r); reflexivity.
  Qed.
  Lemma tcp_write1_unlog addr data st : tcp_write1 srv slave trace addr data (un st) = unlog (tcp_write1 (tcp_logged srv) slave trace addr data st).
  Proof.
    unfold tcp_write1. destruct (tcp_write_req _ _ _) as [req|e]; [|reflexivity]. destruct trace; [reflexivity|]. rewrite tcp_send_unlog.
    destruct (tcp_send (tcp_logged srv) req st) as [st1 [w|e]]; [|reflexivity]. unfold unlog at 1. cbn [fst snd]. fold (un st1). rewrite tcp_receive_unlog.
    destruct (tcp_receive EModbusTimeout w st1) as [st2 [r|e]]; [|reflexivity]. unfold unlog at 1. cbn [fst snd]. destruct (tcp_exception r); reflexivity.
  Qed.
  Lemma tcp_read_loop_unlog fuel : forall addr count op off resp st,
    tcp_read_loop srv slave max_count trace fuel addr count op off resp (un st) = unlog (tcp_read_loop (tcp_logged srv) slave max_count trace fuel addr count op off resp st).
  Proof.
    induction fuel as [|fuel IH]; intros addr count op off resp st; cbn [tcp_read_loop]; [reflexivity|]. destruct (0 <? count); [|reflexivity].
    rewrite tcp_read1_unlog. destruct (tcp_read1 (tcp_logged srv) _ _ _ _ _ st) as [st1 [[|b bs]|e]]; [reflexivity| |reflexivity].
    unfold unlog at 1. cbn [fst snd]. apply IH.
  Qed.
  Lemma tcp_write_loop_unlog fuel : forall addr count2 off bounds data st,
    tcp_write_loop srv slave max_count trace fuel addr count2 off bounds data (un st) = unlog (tcp_write_loop (tcp_logged srv) slave max_count trace fuel addr count2 off bounds data st).
  Proof.
    induction fuel as [|fuel IH]; intros addr count2 off bounds data st; cbn [tcp_write_loop]; [reflexivity|]. destruct (0 <? count2); [|reflexivity].
    destruct (if 2 * max_count <? count2 then _ else _) as [wc [[start stop]|]]; [|reflexivity].
    rewrite tcp_write1_unlog. destruct (tcp_write1 (tcp_logged srv) _ _ _ _ st) as [st1 [u|e]]; [|reflexivity].
    unfold unlog at 1. cbn [fst snd]. apply IH.
  Qed.
  Lemma with_connection_unlog {A} (body : tcp -> tcp * res A) (body' : tcp -> tcp * res A) st :
    (forall st, body (un st) = unlog (body' st)) -> with_connection srv body (un st) = unlog (with_connection (tcp_logged srv) body' st).
  Proof.
    intros H. unfold with_connection. change (fst (un st)) with (fst st). destruct (fst st); [|apply H|apply H].
    unfold tcp_connect, un, tcp_logged. cbn [fst snd srv_connect]. destruct (srv_connect srv (fst (snd st))) as [d' [|]]; [|reflexivity].
    change (SConn [], d') with (un (SConn [], (d', snd (snd st)))). rewrite H. destruct (body' _) as [st2 r]. reflexivity.
  Qed.
  Lemma tcp_read_unlog addr count op st : tcp_read srv slave max_count trace addr count op (un st) = unlog (tcp_read (tcp_logged srv) slave max_count trace addr count op st).
  Proof. apply with_connection_unlog. intros. apply tcp_read_loop_unlog. Qed.
  Lemma tcp_write_unlog addr data st : tcp_write srv slave max_count trace addr data (un st) = unlog (tcp_write (tcp_logged srv) slave max_count trace addr data st).
  Proof. apply with_connection_unlog. intros. apply tcp_write_loop_unlog. Qed.
End TcpLog.

(** the connection is open with nothing unread, or there is none *)
Definition tcp_rel {D} (mem : D -> memory) (st : tcp (D := D)) (bm : S_Client.memory) : Prop :=
  (fst st = SConn [] \/ fst st = SNone) /\ forall x, bm x = byte_view (mem (snd st)) x.
Lemma tcp_write_short {D} (srv : server D) (mem : D -> memory) slave lim :
  tcp_serves_writes srv mem slave lim -> tcp_accepts srv mem -> is_byte slave -> lim <= 125 ->
  forall addr data k s, Forall is_byte data -> zlen data mod 2 = 0 -> 0 < zlen data -> zlen data / 2 <= lim -> 0 <= addr -> addr + zlen data / 2 <= 65536 ->
  k = SConn [] \/ k = SNone ->
  exists s', tcp_write srv slave 125 false addr data (k, s) = ((k, s'), Ok tt) /\ (forall a, mem s' a = store (mem s) addr data a).
Proof.
  intros HW HA HS HL addr data k s HB HE H0 Hl Ha Had Hk.
  assert (EH : zlen data = 2 * (zlen data / 2)) by (rewrite (Z.div_mod (zlen data) 2) at 1 by lia; lia).
  assert (EL : forall s, tcp_write_loop srv slave 125 false (S (length data)) addr (zlen data) 0 None data (SConn [], s)
                 = tcp_write_loop srv slave (zlen data / 2) false (S (length data)) addr (zlen data) 0 None data (SConn [], s)).
  { intros s0. cbn [tcp_write_loop]. destruct (Z.ltb_spec 0 (zlen data)); [|lia]. destruct (Z.ltb_spec (2 * 125) (zlen data)); [lia|].
    destruct (Z.ltb_spec (2 * (zlen data / 2)) (zlen data)); [lia|].
    destruct (tcp_write1 _ _ _ _ _ _) as [s1 [u|x]]; [|reflexivity]. rewrite Z.sub_diag. destruct data as [|h t]; [rewrite zlen_nil in *; lia|].
    cbn [length tcp_write_loop]. reflexivity. }
  assert (EC : forall s, exists s', tcp_write_loop srv slave 125 false (S (length data)) addr (zlen data) 0 None data (SConn [], s) = ((SConn [], s'), Ok tt)
                 /\ (forall a, mem s' a = store (mem s) addr data a)).
  { intros s0. destruct (C_Tcp.C33_short_write_partial D srv mem slave lim HW HS ltac:(lia) (zlen data / 2) addr data s0 ltac:(lia) HB HE ltac:(lia) Ha Had)
      as (s' & reqs & E & _ & Hm). exists s'. split; [|exact Hm]. rewrite EL.
    change (SConn [], s0) with (un (D := D) (SConn [], (s0, []))). rewrite tcp_write_loop_unlog. unfold tcp_write, with_connection in E. cbn [fst] in E. now rewrite E. }
  unfold tcp_write, with_connection. destruct Hk as [-> | ->]; cbn [fst]; [apply EC|].
  destruct (HA s) as (s1 & Econn & Hm1). unfold tcp_connect. cbn [snd]. rewrite Econn. destruct (EC s1) as (s' & E & Hm). rewrite E. exists s'. split; [reflexivity|].
  intros a. rewrite Hm. now apply store_ext.
Qed.
Lemma tcp_implements {D} (srv : server D) (mem : D -> memory) slave lim :
  tcp_serves_reads srv mem slave 3 -> tcp_serves_writes srv mem slave lim -> tcp_accepts srv mem -> is_byte slave -> lim <= 125 ->
  S_Client.implements (scl_dev (tcp_client srv false slave)) (tcp_rel mem) 0 65536 lim.
Proof.
  intros HR HW HA HS HL. split.
  - intros [k s] bm a n [Hk HREL] Ha Hn Han. cbn [fst snd] in *.
    assert (EE : exists s', tcp_read srv slave 125 false a n 3 (k, s) = ((k, s'), Ok (regs (mem s) a (Z.to_nat n))) /\ (forall x, mem s' x = mem s x)).
    { change (k, s) with (un (D := D) (k, (s, []))). rewrite tcp_read_unlog. destruct Hk as [-> | ->].
      - destruct (C_Tcp.C32_read_returns_device_memory_connected D srv mem slave 3 HR HS ltac:(lia) 125 a n s ltac:(lia) Hn Ha Han) as (s' & reqs & E & _ & Hm).
        rewrite E. exists s'. split; [reflexivity|exact Hm].
      - destruct (C_Tcp.C32_read_returns_device_memory_unconnected D srv mem slave 3 HR HA HS ltac:(lia) 125 a n s ltac:(lia) Hn Ha Han) as (s' & reqs & E & _ & Hm).
        rewrite E. exists s'. split; [reflexivity|exact Hm]. }
    destruct EE as (s' & E & Hm). exists (k, s'). split.
    + cbn [scl_dev tcp_client tcp_dev dv_read]. change FUNC_READ_HOLDING with 3. change REQ_COUNT_MAX with 125. rewrite E. do 3 f_equal.
      rewrite regs_bytes_view, Z2Nat.id by lia. unfold S_Client.mem_bytes. apply map_ext. intros x. symmetry. apply HREL.
    + split; [exact Hk|]. cbn [snd]. intros x. rewrite HREL. unfold byte_view. now rewrite Hm.
  - intros [k s] bm a d [Hk HREL] Ha Had HE H0 Hlen HB. cbn [fst snd] in *.
    destruct (tcp_write_short srv mem slave lim HW HA HS HL a d k s HB HE H0 ltac:(apply Z.div_le_upper_bound; lia) Ha Had Hk) as (s' & E & Hm).
    exists (k, s'). split; [exact E|]. split; [exact Hk|]. cbn [snd]. intros x.
    rewrite (mem_store_ext bm (byte_view (mem s))) by exact HREL. rewrite <- store_view by assumption. unfold byte_view. now rewrite Hm.
  - intros st m m' [Hk H1] H2. split; [exact Hk|]. intros x. rewrite <- H2. apply H1.
Qed.

(** ** mapped devices *)
Lemma map_registers l b mem : forall n a, (forall x, a <= x < a + Z.of_nat n -> register l (x - b) = Some [mem (2 * x); mem (2 * x + 1)]) ->
  registers l (a - b) n = Some (S_Client.mem_bytes mem a (Z.of_nat n)).
Proof.
  induction n as [|n IH]; intros a H; [reflexivity|]. cbn [registers]. rewrite H by lia. replace (a - b + 1) with (a + 1 - b) by lia.
  rewrite IH by (intros x HX; apply H; lia). f_equal. unfold S_Client.mem_bytes.
  replace (Z.to_nat (2 * Z.of_nat (S n))) with (S (S (Z.to_nat (2 * Z.of_nat n)))) by lia. rewrite !zseq_cons. cbn [map app].
  replace (2 * a + 1 + 1) with (2 * (a + 1)) by lia. reflexivity.
Qed.
Lemma slice2 (d : bytes) i : 0 <= i -> 2 * i + 2 <= zlen d -> slice (2 * i) (2 * i + 2) d = [znth (2 * i) d; znth (2 * i + 1) d].
Proof.
  intros H1 H2. unfold slice, znth. replace (2 * i + 2 - 2 * i) with 2 by lia. unfold ztake, zdrop. replace (Z.to_nat (2 * i + 1)) with (S (Z.to_nat (2 * i))) by lia.
  assert (H3 : (Z.to_nat (2 * i) + 2 <= length d)%nat) by (unfold zlen in H2; lia). revert H3. generalize (Z.to_nat (2 * i)). clear. intros n. revert d.
  induction n as [|n IH]; intros d H; destruct d as [|x [|y d]]; cbn [length] in H; try lia; cbn [skipn nth]; [reflexivity|rewrite IH; [reflexivity|cbn [length]; lia]].
Qed.
Lemma map_implements lo hi wmax : S_Client.implements (scl_dev map_client) (map_holds lo hi) lo hi wmax.
Proof.
  split.
  - intros m mem a n (HW & b & HB & HR) Ha Hn Han. exists m. split; [|split; [exact HW|exists b; auto]]. cbn [scl_dev map_client dv_read].
    rewrite (C_Mbmap.C15_read_exact m b a n 0 HW HB Hn (or_introl eq_refl)). rewrite (map_registers _ b mem) by (intros x HX; apply HR; lia). now rewrite Z2Nat.id by lia.
  - intros m mem a d (HW & b & HB & HR) Ha Had HE H0 _ HD. cbn [scl_dev map_client dv_write].
    destruct (C_Mbmap.C16_write_exact m b a d HW HB HD HE) as (m' & E & HW' & HB' & _ & HR').
    pose proof (Z.div_pos (zlen d) 2 ltac:(lia) ltac:(lia)) as HP. assert (EH : zlen d = 2 * (zlen d / 2)) by (rewrite (Z.div_mod (zlen d) 2) at 1 by lia; lia).
    assert (EK : Z.of_nat (available (m_regs m) (a - b) (Z.to_nat (zlen d / 2))) = zlen d / 2).
    { rewrite C_Mbmap.available_full; [now rewrite Z2Nat.id by lia|]. intros y Hy. replace y with (y + b - b) by lia. rewrite HR by lia. discriminate. }
    rewrite EK in E, HR'. rewrite Z.eqb_refl in E. exists m'. split; [exact E|]. split; [exact HW'|]. exists b. split; [now rewrite HB'|].
    intros x HX. rewrite HR'. unfold S_Client.mem_store.
    destruct ((a - b <=? x - b) && (x - b <? a - b + zlen d / 2)) eqn:EC.
    + replace ((2 * a <=? 2 * x) && (2 * x <? 2 * a + zlen d)) with true by lia. replace ((2 * a <=? 2 * x + 1) && (2 * x + 1 <? 2 * a + zlen d)) with true by lia.
      replace (x - b - (a - b)) with (x - a) by lia. rewrite slice2 by lia. now replace (2 * x - 2 * a) with (2 * (x - a)) by lia; replace (2 * x + 1 - 2 * a) with (2 * (x - a) + 1) by lia.
    + replace ((2 * a <=? 2 * x) && (2 * x <? 2 * a + zlen d)) with false by lia. replace ((2 * a <=? 2 * x + 1) && (2 * x + 1 <? 2 * a + zlen d)) with false by lia. apply HR. lia.
  - intros m mem mem' (HW & b & HB & HR) HE. split; [exact HW|]. exists b. split; [exact HB|]. intros a Ha. rewrite <- !HE. auto.
Qed.
