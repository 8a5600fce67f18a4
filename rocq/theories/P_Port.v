(** * P_Port: proofs about serial ports that fail. *)
From Verif Require Import Py P_List M_Wire M_Crc M_Rtu M_Util M_Float M_Suns M_Point M_Mbmap M_Device M_Client M_Scan S_Modbus P_Rtu M_Port S_Port.

Lemma starved_err {A} fin e : @starved A fin = Raise e -> is_modbus_client_error e = true \/ fin = WRaise e.
Proof. destruct fin as [|x]; cbn; intros H; injection H as <-; auto. Qed.

Lemma read_response_err w e : Forall is_byte (w_bytes w) -> rtu_read_response w = Raise e ->
  is_modbus_client_error e = true \/ w_end w = WRaise e.
Proof.
  destruct w as [b sched fin]. cbn [w_bytes w_end]. intros HB H.
  pose proof (rtu_read_response_spec b sched fin HB) as HO. rewrite H in HO.
  inversion HO as [? E|? ? E| | | | ]; subst; auto; try (symmetry in E; eapply starved_err; eauto); try discriminate.
  all: try (eapply starved_err; eassumption).
Qed.

Lemma write_response_err slave addr count w e : Forall is_byte (w_bytes w) -> is_byte slave -> 0 <= addr < 65536 -> 0 <= count < 65536 ->
  rtu_write_response slave addr count w = Raise e ->
  is_modbus_client_error e = true \/ w_end w = WRaise e \/
  (e = EStruct /\ 5 <= zlen (w_bytes w) /\ is_exception (w_bytes w) = true /\ znth 2 (w_bytes w) = 0).
Proof.
  destruct w as [b sched fin]. cbn [w_bytes w_end]. intros HB Hs Ha Hc H.
  pose proof (rtu_write_response_spec slave addr count b sched fin HB Hs Ha Hc) as HO. rewrite H in HO.
  inversion HO; subst; auto; try discriminate.
  all: try match goal with E : starved _ = _ |- _ => apply starved_err in E as [|]; auto end.
  right. right. auto.
Qed.

Section P.
  Context {D : Type} (p : port D).
  Hypothesis HP : port_bytes p.

  Lemma port_read1_err slave addr count op s s' e : is_byte slave -> is_byte op -> 0 <= addr < 65536 -> 0 <= count < 65536 ->
    port_read1 p slave addr count op s = (s', Raise e) -> is_modbus_client_error e = true \/ port_raises p e.
  Proof.
    intros Hs Ho Ha Hc H. unfold port_read1 in H. rewrite rtu_read_req_ok in H by (unfold read_args_ok; auto).
    destruct (pt_flush p s) as [s1 [x|]] eqn:F.
    - apply pair_equal_spec in H as [_ H]. injection H as <-. right. left. eauto.
    - destruct (pt_send p s1 _) as [s2 [w|]] eqn:S.
      + apply pair_equal_spec in H as [_ H]. apply read_response_err in H as [|H]; [auto| |eapply HP; eauto].
        right. right. exists s1. eauto.
      + apply pair_equal_spec in H as [_ H]. injection H as <-. auto.
  Qed.

  Lemma port_read_loop_err fuel : forall slave addr count op mc off resp s s' e, is_byte slave -> is_byte op -> 0 < mc ->
    0 <= addr -> 0 <= off -> addr + off + count <= 65536 -> count < 65536 -> (Z.to_nat count < fuel)%nat ->
    port_read_loop p fuel slave addr count op mc off resp s = (s', Raise e) -> is_modbus_client_error e = true \/ port_raises p e.
  Proof.
    induction fuel as [|k IH]; intros slave addr count op mc off resp s s' e Hs Ho Hm Ha Hoff Hac Hc Hf H; [lia|].
    cbn [port_read_loop] in H. destruct (0 <? count) eqn:E; [|discriminate]. apply Z.ltb_lt in E.
    set (rc := if mc <? count then mc else count) in *.
    assert (HR : 0 < rc <= count) by (unfold rc; destruct (Z.ltb_spec mc count); lia).
    destruct (port_read1 p slave (addr + off) rc op s) as [s1 [d|x]] eqn:R.
    - destruct d as [|b d]; [discriminate|]. eapply IH in H; eauto; lia.
    - apply pair_equal_spec in H as [_ H]. injection H as <-. eapply port_read1_err in R; eauto; lia.
  Qed.

  Lemma port_write1_err slave addr data s s' e : is_byte slave -> Forall is_byte data -> 0 <= addr < 65536 -> zlen data < 256 ->
    port_write1 p slave addr data s = (s', Raise e) ->
    is_modbus_client_error e = true \/ port_raises p e \/ (e = EStruct /\ ~ codes_defined p).
  Proof.
    intros Hs Hd Ha Hl H. unfold port_write1 in H. pose proof (zlen_nonneg data).
    rewrite rtu_write_req_ok in H by (auto; unfold write_args_ok; auto).
    destruct (pt_flush p s) as [s1 [x|]] eqn:F.
    - apply pair_equal_spec in H as [_ H]. injection H as <-. right. left. left. eauto.
    - destruct (pt_send p s1 _) as [s2 [w|]] eqn:S.
      + apply pair_equal_spec in H as [_ H].
        assert (0 <= zlen data / 2 < 65536) by (split; [apply Z.div_pos; lia|apply Z.div_lt_upper_bound; lia]).
        apply write_response_err in H; auto; [|eapply HP; eauto]. destruct H as [|[H|(-> & A & B & C)]]; [auto| |].
        * right. left. right. exists s1. eauto.
        * right. right. split; [reflexivity|]. intros HC. eapply HC; eauto.
      + apply pair_equal_spec in H as [_ H]. injection H as <-. auto.
  Qed.

  Lemma Forall_slice (P : Z -> Prop) a b l : Forall P l -> Forall P (slice a b l).
  Proof. intros H. unfold slice, ztake, zdrop. apply Forall_forall. intros x Hx. rewrite Forall_forall in H. apply H.
    assert (In x (skipn (Z.to_nat a) l)) by (rewrite <- (firstn_skipn (Z.to_nat (b - a)) (skipn (Z.to_nat a) l)); apply in_or_app; auto).
    rewrite <- (firstn_skipn (Z.to_nat a) l). apply in_or_app; auto. Qed.

  Lemma port_write_loop_err fuel : forall slave addr k2 mc off data s s' e, is_byte slave -> Forall is_byte data -> 0 < mc <= 127 ->
    0 <= addr -> 0 <= off -> k2 mod 2 = 0 -> addr + off + k2 / 2 <= 65536 -> 2 * off + k2 = zlen data -> (Z.to_nat k2 < fuel)%nat ->
    port_write_loop p fuel slave addr k2 mc off data s = (s', Raise e) ->
    is_modbus_client_error e = true \/ port_raises p e \/ (e = EStruct /\ ~ codes_defined p).
  Proof.
    induction fuel as [|k IH]; intros slave addr k2 mc off data s s' e Hs Hd Hm Ha Hoff He Hac Hl Hf H; [lia|].
    cbn [port_write_loop] in H. destruct (0 <? k2) eqn:E; [|discriminate]. apply Z.ltb_lt in E.
    set (wc := if 2 * mc <? k2 then 2 * mc else k2) in *.
    assert (HR : 0 < wc <= k2 /\ wc mod 2 = 0 /\ wc <= 254).
    { unfold wc. destruct (Z.ltb_spec (2 * mc) k2); repeat split; try lia. rewrite Z.mul_comm. apply Z_mod_mult. }
    destruct HR as (HR & HR2 & HR3).
    pose proof (Z.div_mod k2 2 ltac:(lia)). pose proof (Z.div_mod wc 2 ltac:(lia)).
    destruct (port_write1 p slave (addr + off) _ s) as [s1 [u|x]] eqn:R.
    - assert ((k2 - wc) mod 2 = 0 /\ (k2 - wc) / 2 = k2 / 2 - wc / 2) as [M1 M2].
      { replace (k2 - wc) with ((k2 / 2 - wc / 2) * 2) by lia. split; [apply Z_mod_mult|apply Z_div_mult; lia]. }
      eapply IH in H; eauto; lia.
    - apply pair_equal_spec in H as [_ H]. injection H as <-.
      eapply port_write1_err in R; eauto; [apply Forall_slice; auto|lia|].
      rewrite zlen_slice; lia.
  Qed.
End P.

Lemma wrap_err {P : exn -> Prop} e : is_modbus_client_error e = true \/ P e -> wrap_modbus e = ESunSpecClient \/ P (wrap_modbus e).
Proof. unfold wrap_modbus. intros [->|H]; [auto|]. destruct (is_modbus_client_error e); auto. Qed.

(** without faults of flushInput the requests are those of M_Rtu *)
Lemma port_read_rtu {D} (dev : sdev D) slave addr count op mc s :
  port_read (mkPort D (fun s => (s, None)) dev) slave addr count op mc s = rtu_read dev false true slave addr count op mc s.
Proof. reflexivity. Qed.
Lemma port_write_rtu {D} (dev : sdev D) slave addr data mc s :
  port_write (mkPort D (fun s => (s, None)) dev) slave addr data mc s = rtu_write dev true slave addr data mc s.
Proof. reflexivity. Qed.
