(** * P_TcpFault: writes over failing connections (proofs, C94). *)
From Verif Require Import Py P_List M_Wire M_Rtu S_Modbus P_Rtu M_Tcp S_Tcp P_Tcp S_TcpFault.

Lemma tcp_write_req_bad slave addr data : ~ write_args_ok slave addr data -> exists e, tcp_write_req slave addr data = Raise e.
Proof.
  intros H. unfold tcp_write_req. pose proof (zlen_nonneg data). unfold bind at 1.
  destruct (pack_int 2 false (TCP_WRITE_MULT_REQ_LEN + zlen data)) as [b0|e]; [|eauto].
  destruct (byte_dec slave) as [Hs|Hs]; [rewrite (pack_byte slave) by assumption|rewrite (pack_byte_bad slave) by assumption; cbn [bind]; eauto]. cbn [bind].
  rewrite (pack_byte FUNC_WRITE_MULTIPLE) by (unfold is_byte, FUNC_WRITE_MULTIPLE; lia). cbn [bind].
  unfold bind at 1. destruct (word_dec addr) as [Ha|Ha]; [|rewrite (pack_word_bad addr) by assumption; eauto]. rewrite (pack_word addr) by assumption.
  unfold bind at 1. destruct (pack_int 2 false (zlen data / 2)) as [b4|e]; [|eauto].
  destruct (byte_dec (zlen data)) as [Hd|Hd]; [|rewrite (pack_byte_bad _ Hd); cbn [bind]; eauto].
  exfalso. apply H. unfold write_args_ok, is_byte in *. lia.
Qed.
Section Fault.
  Context {D : Type}.
  Variables (srv : server D) (mem : D -> memory) (slave max_count : Z) (trace : bool).
  Hypothesis HU : tcp_unreliable srv mem slave.
  Definition unchanged (s s' : tcp (D := D)) : Prop := forall a, mem (snd s') a = mem (snd s) a.
  Definition stored (addr : Z) (data : bytes) (s s' : tcp (D := D)) : Prop := forall a, mem (snd s') a = store (mem (snd s)) addr data a.

  Lemma write1_effect addr data st st' r : Forall is_byte data -> tcp_write1 srv slave trace addr data st = (st', r) -> unchanged st st' \/ stored addr data st st'.
  Proof.
    intros HB H. unfold tcp_write1 in H.
    destruct (tcp_write_req slave addr data) as [req|e] eqn:ER; [|apply pair_equal_spec in H as [<- _]; left; now intros a].
    assert (HA : write_args_ok slave addr data).
    { destruct (byte_dec slave) as [Hs|Hs]; [destruct (word_dec addr) as [Ha|Ha]; [destruct (byte_dec (zlen data)) as [Hd|Hd]|]|]; try (destruct (tcp_write_req_bad slave addr data) as [e Hx]; [unfold write_args_ok, is_byte in *; pose proof (zlen_nonneg data); lia|congruence]).
      unfold write_args_ok, is_byte in *. lia. }
    rewrite tcp_write_req_ok in ER by exact HA. apply Ok_inj in ER. subst req. destruct trace; [apply pair_equal_spec in H as [<- _]; left; now intros a|].
    destruct st as [k d]. unfold tcp_send in H. cbn [fst snd] in H. destruct k as [| |p]; try (apply pair_equal_spec in H as [<- _]; left; now intros a).
    destruct (srv_send srv d (tcp_write_frame slave addr data)) as [d' w] eqn:ES. destruct HA as (A1 & A2 & A3).
    pose proof (proj2 HU d addr data d' w A1 A2 A3 HB ES) as HE. destruct w as [w|].
    - destruct (tcp_receive_conn EModbusTimeout (mkWire (p ++ w_bytes w) (w_sched w) (w_end w)) (SConn p, d')) as (p2 & r2 & E2 & _). rewrite E2 in H.
      assert (HS : snd st' = d') by (destruct r2 as [resp|]; [destruct (tcp_exception resp)|]; apply pair_equal_spec in H as [<- _]; reflexivity).
      unfold unchanged, stored. rewrite HS. exact HE.
    - apply pair_equal_spec in H as [<- _]. exact HE.
  Qed.
  Lemma write1_success addr data s st' : answers_own srv mem slave -> Forall is_byte data -> tcp_write1 srv slave trace addr data (SConn [], s) = (st', Ok tt) -> stored addr data (SConn [], s) st'.
  Proof.
    intros HO HB H. unfold tcp_write1 in H.
    destruct (tcp_write_req slave addr data) as [req|e] eqn:ER; [|apply pair_equal_spec in H as [_ H]; discriminate].
    assert (HA : write_args_ok slave addr data).
    { destruct (byte_dec slave) as [Hs|Hs]; [destruct (word_dec addr) as [Ha|Ha]; [destruct (byte_dec (zlen data)) as [Hd|Hd]|]|]; try (destruct (tcp_write_req_bad slave addr data) as [e Hx]; [unfold write_args_ok, is_byte in *; pose proof (zlen_nonneg data); lia|congruence]).
      unfold write_args_ok, is_byte in *. lia. }
    rewrite tcp_write_req_ok in ER by exact HA. apply Ok_inj in ER. subst req. destruct trace; [apply pair_equal_spec in H as [_ H]; discriminate|].
    unfold tcp_send in H. cbn [fst snd] in H. destruct (srv_send srv s (tcp_write_frame slave addr data)) as [d' w] eqn:ES. destruct HA as (A1 & A2 & A3).
    destruct w as [w|]; [|apply pair_equal_spec in H as [_ H]; discriminate]. destruct w as [b sched fin]. destruct (HO _ _ _ _ _ _ _ A1 A2 A3 HB ES) as [HBY HE]. cbn [w_bytes w_sched w_end app] in H.
    destruct (tcp_receive_spec D (SConn [], d') EModbusTimeout b sched fin) as [R1 R2]. destruct (tcp_complete_dec b) as [HC|HC]; [|rewrite (R2 HC) in H; apply pair_equal_spec in H as [_ H]; discriminate].
    rewrite (R1 HC) in H. cbn [snd] in H. destruct (tcp_exception (ztake (tcp_frame_len b) b)) as [e|] eqn:EX; [apply pair_equal_spec in H as [_ H]; discriminate|].
    apply pair_equal_spec in H as [<- _]. unfold stored. cbn [snd]. apply HE; [exact HC|]. intros [F1 F2].
    assert (HZ : forall i, 0 <= i < 9 -> znth i (ztake (tcp_frame_len b) b) = znth i b).
    { intros i Hi. assert (HF : 9 <= tcp_frame_len b) by (unfold tcp_frame_len; lia). generalize (tcp_frame_len b) HF. clear -Hi. intros k Hk. unfold znth, ztake.
      assert (HN : forall n j, (j < n)%nat -> nth j (firstn n b) 0 = nth j b 0).
      { clear. induction b as [|x b IH]; intros [|n] [|j] H; cbn [firstn nth]; try reflexivity; try lia. apply IH. lia. }
      apply HN. lia. }
    unfold tcp_exception in EX. change (TCP_HDR_LEN + 1) with 7 in EX. change (TCP_HDR_LEN + 2) with 8 in EX. rewrite !HZ in EX by lia.
    assert (HX : is_byte (znth 7 b)).
    { rewrite Forall_forall in HBY. apply HBY. unfold znth. apply nth_In. destruct HC as [C1 _]. unfold zlen in C1. lia. }
    assert (HL : Z.land (znth 7 b) 128 =? 0 = false).
    { apply Z.eqb_neq. intros HQ. assert (HT : Z.testbit (Z.land (znth 7 b) 128) 7 = false) by (rewrite HQ; reflexivity).
      rewrite Z.land_spec in HT. change (Z.testbit 128 7) with true in HT. rewrite andb_true_r in HT.
      assert (HD : znth 7 b / 2 ^ 7 = 1) by (unfold is_byte in HX; symmetry; apply (Z.div_unique _ _ _ (znth 7 b - 128)); lia).
      rewrite Z.testbit_odd, Z.shiftr_div_pow2, HD in HT by lia. discriminate. }
    rewrite HL in EX. unfold exc_raise in EX. destruct (Z.eqb_spec (znth 8 b) 0); [contradiction|discriminate].
  Qed.
  Lemma slice_all (data : bytes) : slice 0 (zlen data) data = data.
  Proof. unfold slice. rewrite Z.sub_0_r. change (zdrop 0 data) with data. apply ztake_all. lia. Qed.
  Lemma write_loop_once fuel addr data st st' r : zlen data mod 2 = 0 -> (2 <= fuel)%nat -> tcp_write_loop srv slave max_count trace fuel addr (zlen data) 0 None data st = (st', r) ->
    (data = [] /\ st' = st /\ r = Ok tt) \/ (st' = st /\ r = Raise EUnbound) \/ tcp_write1 srv slave trace addr data st = (st', r).
  Proof.
    intros HE HF H. destruct fuel as [|[|fuel]]; [lia|lia|]. destruct data as [|x data0] eqn:ED.
    { cbn [tcp_write_loop] in H. apply pair_equal_spec in H as [<- <-]. left. auto. }
    rewrite <- ED in *. assert (HL : 0 < zlen data) by (rewrite ED; unfold zlen; cbn [length]; lia). right. clear ED x data0.
    destruct (Z.ltb_spec (2 * max_count) (zlen data)) as [HM|HM].
    - left. rewrite (tcp_write_too_long srv slave max_count trace addr data (S fuel) 0 st HM HL) in H. apply pair_equal_spec in H as [<- <-]. auto.
    - right. cbn [tcp_write_loop] in H. destruct (Z.ltb_spec 0 (zlen data)); [|lia]. destruct (Z.ltb_spec (2 * max_count) (zlen data)); [lia|].
      change (2 * 0 + zlen data) with (zlen data) in H. change (2 * 0) with 0 in H. rewrite slice_all, Z.add_0_r in H. destruct (tcp_write1 srv slave trace addr data st) as [st1 [u|e]]; [|exact H].
      rewrite Z.sub_diag in H. destruct fuel; cbn [tcp_write_loop] in H; change (0 <? 0) with false in H; cbv iota in H; destruct u; exact H.
  Qed.
  Lemma store_nil (m : memory) addr : forall a, store m addr [] a = m a.
  Proof. reflexivity. Qed.
  Lemma body_effect addr data st st' r : Forall is_byte data -> zlen data mod 2 = 0 -> tcp_write_loop srv slave max_count trace (S (length data)) addr (zlen data) 0 None data st = (st', r) ->
    unchanged st st' \/ stored addr data st st'.
  Proof.
    intros HB HE H. destruct data as [|x [|y l]] eqn:ED.
    - cbn [length tcp_write_loop] in H. apply pair_equal_spec in H as [<- _]. left. now intros a.
    - discriminate HE.
    - rewrite <- ED in *. apply write_loop_once in H; [|exact HE|rewrite ED; cbn [length]; lia].
      destruct H as [(_ & -> & _)|[(-> & _)|H]]; [left; now intros a|left; now intros a|]. eapply write1_effect; eassumption.
  Qed.
  Lemma body_success addr data s st' : answers_own srv mem slave -> Forall is_byte data -> zlen data mod 2 = 0 ->
    tcp_write_loop srv slave max_count trace (S (length data)) addr (zlen data) 0 None data (SConn [], s) = (st', Ok tt) -> stored addr data (SConn [], s) st'.
  Proof.
    intros HO HB HE H. destruct data as [|x [|y l]] eqn:ED.
    - cbn [length tcp_write_loop] in H. apply pair_equal_spec in H as [<- _]. intros a. reflexivity.
    - discriminate HE.
    - rewrite <- ED in *. apply write_loop_once in H; [|exact HE|rewrite ED; cbn [length]; lia].
      destruct H as [(-> & -> & _)|[(_ & H)|H]]; [intros a; reflexivity|discriminate|]. eapply write1_success; eassumption.
  Qed.
  Lemma tcp_write_effect addr data st st' r : Forall is_byte data -> zlen data mod 2 = 0 -> tcp_write srv slave max_count trace addr data st = (st', r) ->
    unchanged st st' \/ stored addr data st st'.
  Proof.
    intros HB HE H. unfold tcp_write, with_connection in H. destruct st as [k s]. cbn [fst] in H. destruct k; try (eapply body_effect; eassumption).
    unfold tcp_connect in H. cbn [snd] in H. destruct (srv_connect srv s) as [s1 ok] eqn:EC. pose proof (proj1 HU _ _ _ EC) as HC.
    destruct ok; [|apply pair_equal_spec in H as [<- _]; left; exact HC].
    destruct (tcp_write_loop _ _ _ _ _ _ _ _ _ _ _) as [st2 r2] eqn:EL in H. apply pair_equal_spec in H as [<- _]. unfold tcp_disconnect, unchanged, stored. cbn [snd].
    destruct (body_effect _ _ _ _ _ HB HE EL) as [E|E]; [left|right]; intros a; rewrite (E a); cbn [snd]; [apply HC|]. apply store_ext. exact HC.
  Qed.
  Lemma tcp_write_success addr data k s st' : answers_own srv mem slave -> Forall is_byte data -> zlen data mod 2 = 0 -> k = SNone \/ k = SConn [] ->
    tcp_write srv slave max_count trace addr data (k, s) = (st', Ok tt) -> stored addr data (k, s) st'.
  Proof.
    intros HO HB HE [-> | ->] H; unfold tcp_write, with_connection in H; cbn [fst] in H; [|eapply body_success; eassumption].
    unfold tcp_connect in H. cbn [snd] in H. destruct (srv_connect srv s) as [s1 ok] eqn:EC. pose proof (proj1 HU _ _ _ EC) as HC.
    destruct ok; [|apply pair_equal_spec in H as [_ H]; discriminate].
    destruct (tcp_write_loop _ _ _ _ _ _ _ _ _ _ _) as [st2 r2] eqn:EL in H. apply pair_equal_spec in H as [<- ->].
    pose proof (body_success _ _ _ _ HO HB HE EL) as E. intros a. unfold tcp_disconnect. cbn [snd]. rewrite (E a). cbn [snd]. apply store_ext. exact HC.
  Qed.
End Fault.
