(** * P_Rtu: proofs about M_Rtu. *)
From Coq Require Import ZifyBool.
From Verif Require Import Py P_List M_Crc S_Crc P_Crc M_Wire M_Rtu S_Modbus.

(** ** the receive loop *)
(** one call of read(n), n > 0, on a non-empty wire: k bytes, 1 <= k <= min n avail *)
Lemma wread_some n b sched e : 0 < n -> b <> [] ->
  exists k, 1 <= k <= n /\ k <= zlen b /\
    wread n (mkWire b sched e) = Ok (ztake k b, mkWire (zdrop k b) (tl sched) e).
Proof.
  intros Hn Hb. unfold wread. cbn [w_bytes w_sched w_end].
  destruct b as [|x b]; [congruence|]. set (l := x :: b) in *.
  assert (Hl : 1 <= zlen l) by (unfold l; rewrite zlen_cons; pose proof (zlen_nonneg b); lia).
  set (k := Z.min n _).
  assert (Hk : 1 <= k <= n) by (unfold k; destruct sched; lia).
  destruct (Z_le_gt_dec k (zlen l)) as [Hl2|Hl2].
  - exists k. auto.
  - exists (zlen l). rewrite !(ztake_all _ l), !(zdrop_all _ l) by lia. repeat split; lia.
Qed.

Definition starve (fin : wend) : exn := match fin with WEmpty => EModbusTimeout | WRaise e => e end.

(** second phase: the total length is known, or the loop is about to end *)
Lemma recv_tail fuel total resp r exc b sched e :
  (Z.to_nat r < fuel)%nat ->
  (r <= zlen b -> exists sched', rtu_recv fuel total resp r true exc (mkWire b sched e)
      = Ok (resp ++ ztake r b, exc, mkWire (zdrop r b) sched' e)) /\
  (zlen b < r -> rtu_recv fuel total resp r true exc (mkWire b sched e) = Raise (starve e)).
Proof.
  revert resp r b sched. induction fuel as [|fuel IH]; intros resp r b sched Hf; [lia|].
  cbn [rtu_recv]. destruct (Z.ltb_spec 0 r) as [Hr|Hr].
  - destruct b as [|x b'].
    + split; [rewrite zlen_nil; lia|]. intros _. unfold wread. cbn [w_bytes w_end].
      destruct e; reflexivity.
    + set (b := x :: b') in *. destruct (wread_some r b sched e Hr ltac:(discriminate)) as (k & Hk1 & Hk2 & ->).
      cbn [bind]. rewrite zlen_ztake_le by lia. destruct (Z.ltb_spec 0 k); [|lia]. cbn [negb andb].
      destruct (IH (resp ++ ztake k b) (r - k) (zdrop k b) (tl sched) ltac:(lia)) as [IH1 IH2].
      rewrite zlen_zdrop in IH1, IH2 by lia. split; intros Hle.
      * destruct IH1 as [s' ->]; [lia|]. exists s'.
        rewrite zdrop_zdrop by lia. replace (k + (r - k)) with r by lia.
        do 3 f_equal. rewrite <- app_assoc. f_equal.
        rewrite <- (ztake_zdrop k b) at 3. rewrite ztake_app_r by (rewrite zlen_ztake_le; lia).
        rewrite zlen_ztake_le by lia. reflexivity.
      * apply IH2. lia.
  - split.
    + intros _. exists sched. rewrite ztake_neg, zdrop_neg by lia. rewrite app_nil_r. reflexivity.
    + pose proof (zlen_nonneg b). lia.
Qed.

(** first phase: fewer than five bytes so far.  [stream] is everything from the start. *)
Lemma recv_head fuel total resp r b sched e :
  zlen resp + r = 5 -> 0 < r -> (Z.to_nat r + 300 < fuel)%nat ->
  Forall is_byte (resp ++ b) ->
  (forall x, Forall is_byte x -> 5 <= total x <= 260) ->
  (forall x y, 5 <= zlen x -> total (x ++ y) = total x) ->
  let stream := resp ++ b in
  (zlen stream < 5 -> rtu_recv fuel total resp r false None (mkWire b sched e) = Raise (starve e)) /\
  (5 <= zlen stream -> is_exception stream = true ->
     exists sched', rtu_recv fuel total resp r false None (mkWire b sched e)
       = Ok (ztake 5 stream, Some (znth 2 stream), mkWire (zdrop r b) sched' e)) /\
  (5 <= zlen stream -> is_exception stream = false ->
     (zlen stream < total stream -> rtu_recv fuel total resp r false None (mkWire b sched e) = Raise (starve e)) /\
     (total stream <= zlen stream ->
        exists sched', rtu_recv fuel total resp r false None (mkWire b sched e)
          = Ok (ztake (total stream) stream, None, mkWire (zdrop (total stream) stream) sched' e))).
Proof.
  revert resp r b sched. induction fuel as [|fuel IH]; intros resp r b sched H5 Hr Hf HB HT HTS; [lia|].
  cbn [rtu_recv]. destruct (Z.ltb_spec 0 r) as [_|]; [|lia].
  destruct b as [|x b'].
  { cbn zeta. rewrite app_nil_r in *. unfold wread. cbn [w_bytes w_end].
    split; [|split]; try (intros; exfalso; lia). intros _. destruct e; reflexivity. }
  set (b := x :: b') in *.
  destruct (wread_some r b sched e Hr ltac:(discriminate)) as (k & Hk1 & Hk2 & ->).
  cbn [bind]. rewrite zlen_ztake_le by lia. destruct (Z.ltb_spec 0 k); [|lia]. cbn [negb andb].
  assert (ES : resp ++ b = (resp ++ ztake k b) ++ zdrop k b) by (now rewrite <- app_assoc, ztake_zdrop).
  assert (EL : zlen (resp ++ ztake k b) = zlen resp + k) by (rewrite zlen_app, (zlen_ztake_le k b); lia).
  destruct (Z.leb_spec 5 (zlen (resp ++ ztake k b))) as [Hfive|Hfive].
  - assert (k = r) as -> by lia. cbn zeta.
    assert (E5 : ztake 5 (resp ++ b) = resp ++ ztake r b).
    { rewrite ES. apply ztake_app_exact. lia. }
    assert (EN : forall i, 0 <= i < 5 -> znth i (resp ++ b) = znth i (resp ++ ztake r b)).
    { intros i Hi. rewrite ES. unfold znth. rewrite app_nth1; [reflexivity|]. unfold zlen in *. lia. }
    assert (EX : is_exception (resp ++ b) = negb (Z.land (znth 1 (resp ++ ztake r b)) 128 =? 0)).
    { unfold is_exception. rewrite EN by lia.
      assert (HX : is_byte (znth 1 (resp ++ ztake r b))).
      { rewrite <- EN by lia. unfold znth. rewrite Forall_forall in HB. apply HB. apply nth_In.
        rewrite ES, app_length. unfold zlen in *. lia. }
      revert HX. generalize (znth 1 (resp ++ ztake r b)). intros v Hv.
      apply eqb_prop. revert v Hv. apply (byte_sweep (fun v => eqb (Z.testbit v 7) (negb (Z.land v 128 =? 0)))).
      vm_compute. reflexivity. }
    rewrite EX, E5. rewrite <- (EN 2) by lia.
    assert (HLS : zlen (resp ++ b) = 5 + zlen (zdrop r b)) by (rewrite ES, zlen_app; lia).
    assert (HTE : total (resp ++ b) = total (resp ++ ztake r b)) by (rewrite ES; apply HTS; lia).
    split; [intros; exfalso; pose proof (zlen_nonneg (zdrop r b)); lia|]. split.
    + intros _. destruct (Z.land _ 128 =? 0); [discriminate|]. intros _. exists (tl sched).
      destruct fuel as [|fuel']; [lia|]. cbn [rtu_recv]. destruct (Z.ltb_spec 0 (r - r)); [lia|]. reflexivity.
    + intros _. destruct (Z.land _ 128 =? 0); [intros _|discriminate].
      assert (HTb := HT (resp ++ ztake r b)). rewrite ES in HB. apply Forall_app in HB as [HB _]. specialize (HTb HB).
      destruct (recv_tail fuel total (resp ++ ztake r b) (total (resp ++ ztake r b) - zlen (resp ++ ztake r b))
                  None (zdrop r b) (tl sched) e ltac:(lia)) as [R1 R2].
      split; intros Hle.
      * apply R2. lia.
      * destruct R1 as [s' ->]; [lia|]. exists s'.
        rewrite <- HTE in *. set (T := total (resp ++ b)) in *.
        rewrite ES, ztake_app_r, zdrop_app_r by lia. reflexivity.
  - specialize (IH (resp ++ ztake k b) (r - k) (zdrop k b) (tl sched) ltac:(lia) ltac:(lia) ltac:(lia)).
    rewrite <- ES in IH. specialize (IH HB HT HTS). cbn zeta in *.
    destruct IH as (I1 & I2 & I3). split; [exact I1|]. split; [|exact I3].
    intros Ha Hb0. destruct (I2 Ha Hb0) as [s' ->]. exists s'.
    rewrite zdrop_zdrop by lia. replace (k + (r - k)) with r by lia. reflexivity.
Qed.

(** ** the CRC check of a complete frame *)
Lemma land_shiftl_byte x y : is_byte x -> is_byte y -> Z.lor (Z.shiftl x 8) y = be_int [x; y].
Proof.
  intros Hx Hy. unfold be_int. cbn [fold_left]. rewrite Z.shiftl_mul_pow2 by lia.
  rewrite <- Z.lxor_lor.
  - rewrite <- Z.add_nocarry_lxor; [change (2 ^ 8) with 256; lia|].
    apply Z.bits_inj'. intros n Hn. rewrite Z.land_spec, Z.bits_0.
    destruct (Z_lt_le_dec n 8).
    + rewrite Z.mul_pow2_bits_low by lia. reflexivity.
    + rewrite (testbit_byte y n Hy) by lia. apply andb_false_r.
  - apply Z.bits_inj'. intros n Hn. rewrite Z.land_spec, Z.bits_0.
    destruct (Z_lt_le_dec n 8).
    + rewrite Z.mul_pow2_bits_low by lia. reflexivity.
    + rewrite (testbit_byte y n Hy) by lia. apply andb_false_r.
Qed.
Lemma rtu_crc_ok_frame f : Forall is_byte f -> 2 <= zlen f -> (rtu_crc_ok f = true <-> frame_ok f).
Proof.
  intros HB HL. destruct (frame_split f ltac:(unfold zlen in HL; lia)) as (d & x & y & ->).
  apply Forall_app in HB as [Hd Hxy]. inversion Hxy as [|? ? Hx Hy']; subst. inversion Hy' as [|? ? Hy _]; subst.
  unfold rtu_crc_ok. rewrite zlen_app. change (zlen [x; y]) with 2.
  assert (E1 : znth (zlen d + 2 - 2) (d ++ [x; y]) = x).
  { unfold znth. rewrite app_nth2 by (unfold zlen; lia).
    replace (Z.to_nat (zlen d + 2 - 2) - length d)%nat with 0%nat by (unfold zlen; lia). reflexivity. }
  assert (E2 : znth (zlen d + 2 - 1) (d ++ [x; y]) = y).
  { unfold znth. rewrite app_nth2 by (unfold zlen; lia).
    replace (Z.to_nat (zlen d + 2 - 1) - length d)%nat with 1%nat by (unfold zlen; lia). reflexivity. }
  rewrite E1, E2. rewrite ztake_app_exact by lia.
  rewrite land_shiftl_byte by assumption. apply checkCRC_frame; assumption.
Qed.

Lemma znth_byte i l : Forall is_byte l -> is_byte (znth i l).
Proof.
  intros H. unfold znth. destruct (Nat.ltb_spec (Z.to_nat i) (length l)).
  - rewrite Forall_forall in H. apply H, nth_In. lia.
  - rewrite nth_overflow by lia. unfold is_byte; lia.
Qed.
Lemma znth_ztake i n (l : list Z) : 0 <= i < n -> znth i (ztake n l) = znth i l.
Proof.
  intros H. unfold znth, ztake. destruct (Nat.ltb_spec (Z.to_nat i) (length l)).
  - rewrite <- (firstn_skipn (Z.to_nat n) l) at 2. rewrite app_nth1; [reflexivity|].
    rewrite firstn_length. lia.
  - rewrite !nth_overflow; auto. rewrite firstn_length. lia.
Qed.
Lemma znth_app_l i (a b : list Z) : 0 <= i < zlen a -> znth i (a ++ b) = znth i a.
Proof. intros H. unfold znth. apply app_nth1. unfold zlen in H. lia. Qed.

(** ** C25, C28: outcome of a read *)
Lemma read_total_bounds x : Forall is_byte x -> 5 <= read_total x <= 260.
Proof. intros H. pose proof (znth_byte 2 x H) as Hb. unfold read_total, is_byte in *. lia. Qed.
Lemma read_total_app x y : 5 <= zlen x -> read_total (x ++ y) = read_total x.
Proof. intros H. unfold read_total. rewrite znth_app_l by lia. reflexivity. Qed.
Lemma frame_len_total stream : is_exception stream = false -> read_total stream = read_frame_len stream.
Proof. unfold read_total, read_frame_len. intros ->. lia. Qed.

Lemma starved_raise {A} fin : @starved A fin = Raise (starve fin).
Proof. destruct fin; reflexivity. Qed.

Lemma rtu_read_response_spec stream sched fin : Forall is_byte stream ->
  read_outcome stream fin (rtu_read_response (mkWire stream sched fin)).
Proof.
  intros HB. unfold rtu_read_response.
  destruct (recv_head recv_fuel read_total [] 5 stream sched fin eq_refl ltac:(lia) ltac:(unfold recv_fuel; lia)
              HB read_total_bounds read_total_app) as (H1 & H2 & H3).
  cbn [app] in *. destruct (Z_lt_le_dec (zlen stream) 5) as [HL|HL].
  { rewrite H1 by assumption. cbn [bind]. rewrite <- starved_raise. now constructor. }
  destruct (is_exception stream) eqn:EX.
  - destruct (H2 HL eq_refl) as [s' ->]. cbn [bind].
    assert (EF : read_frame_len stream = 5) by (unfold read_frame_len; now rewrite EX).
    assert (H5 : zlen (ztake 5 stream) = 5) by (apply zlen_ztake_le; lia).
    destruct (rtu_crc_ok (ztake 5 stream)) eqn:EC; cbn [negb].
    + apply rtu_crc_ok_frame in EC; [|now apply Forall_ztake|lia].
      unfold exc_raise. destruct (Z.eqb_spec (znth 2 stream) 0).
      * rewrite H5. rewrite slice_empty by lia. now apply RO_exception0.
      * now apply RO_exception.
    + apply RO_crc; [assumption|lia|]. rewrite EF. intros HC. apply rtu_crc_ok_frame in HC; [congruence| |lia].
      now apply Forall_ztake.
  - destruct (H3 HL eq_refl) as [H4 H5]. rewrite frame_len_total in * by assumption.
    destruct (Z_lt_le_dec (zlen stream) (read_frame_len stream)) as [HT|HT].
    { rewrite H4 by assumption. cbn [bind]. rewrite <- starved_raise. now apply RO_truncated. }
    destruct (H5 HT) as [s' ->]. cbn [bind].
    set (N := read_frame_len stream) in *.
    assert (EN : N = 5 + znth 2 stream) by (unfold N, read_frame_len; now rewrite EX).
    pose proof (znth_byte 2 stream HB) as Hb2. unfold is_byte in Hb2.
    assert (HN : zlen (ztake N stream) = N) by (apply zlen_ztake_le; lia).
    destruct (rtu_crc_ok (ztake N stream)) eqn:EC; cbn [negb].
    + apply rtu_crc_ok_frame in EC; [|now apply Forall_ztake|lia]. cbn [exc_raise].
      rewrite HN. replace (N - 2) with (3 + znth 2 stream) by lia.
      replace (slice 3 (3 + znth 2 stream) (ztake N stream)) with (slice 3 (3 + znth 2 stream) stream).
      * now apply RO_data.
      * rewrite <- (slice_app_l 3 (3 + znth 2 stream) (ztake N stream) (zdrop N stream)) by lia.
        now rewrite ztake_zdrop.
    + apply RO_crc; [assumption|assumption|]. fold N. intros HC. apply rtu_crc_ok_frame in HC; [congruence| |lia].
      now apply Forall_ztake.
Qed.

(** the outcome is determined by the stream *)
Lemma read_outcome_det stream fin r1 r2 : Forall is_byte stream ->
  read_outcome stream fin r1 -> read_outcome stream fin r2 -> r1 = r2.
Proof.
  intros HB H1 H2.
  assert (HF : read_frame_len stream = 5 \/ is_exception stream = false).
  { unfold read_frame_len. destruct (is_exception stream); auto. }
  assert (H5 : 5 <= read_frame_len stream).
  { unfold read_frame_len. destruct (is_exception stream); [lia|]. pose proof (znth_byte 2 stream HB).
    unfold is_byte in *. lia. }
  inversion H1; subst; inversion H2; subst; try reflexivity; try lia; try congruence;
    try (unfold read_frame_len in *;
         match goal with E : is_exception stream = _ |- _ => rewrite E in * end; solve [lia|contradiction|congruence]).
Qed.

(** ** outcome of a write *)
Lemma word_be v : 0 <= v < 65536 -> word v = be_bytes 2 v.
Proof.
  intros H. unfold word. cbn [be_bytes app]. rewrite (Z.mod_small (v / 256)); [reflexivity|].
  split; [apply Z.div_pos; lia|apply Z.div_lt_upper_bound; lia].
Qed.
Lemma word_bytes v : 0 <= v < 65536 -> Forall is_byte (word v).
Proof. intros H. rewrite word_be by assumption. apply be_bytes_bytes. Qed.
Lemma be_int_word v : be_int (word v) = v.
Proof. unfold word, be_int. cbn [fold_left]. pose proof (Z.div_mod v 256 ltac:(lia)). lia. Qed.
Lemma word_inj2 a b v : is_byte a -> is_byte b -> be_int [a; b] = v -> [a; b] = word v.
Proof.
  unfold is_byte, be_int, word. cbn [fold_left]. intros Ha Hb <-.
  rewrite Z.mul_0_l, Z.add_0_l.
  rewrite Z.div_add_l by lia. rewrite (Z.div_small b) by lia.
  rewrite (Z.add_comm (a * 256)), Z.mod_add, Z.mod_small by lia. f_equal; lia.
Qed.
Lemma crc_bytes_len d : zlen (crc_bytes d) = 2. Proof. reflexivity. Qed.
Lemma with_crc_len d : zlen (with_crc d) = zlen d + 2.
Proof. unfold with_crc. now rewrite zlen_app. Qed.
Lemma frame_ok_with_crc d : frame_ok (with_crc d).
Proof. exists d. reflexivity. Qed.
Lemma frame_ok_inv d x y : frame_ok (d ++ [x; y]) -> d ++ [x; y] = with_crc d.
Proof.
  intros [d' E]. unfold crc_bytes in E.
  apply (f_equal (@rev Z)) in E as E'. rewrite !rev_app_distr in E'. cbn in E'.
  injection E' as E1 E2 E3. apply (f_equal (@rev Z)) in E3. rewrite !rev_involutive in E3. subst d'.
  unfold with_crc, crc_bytes. now rewrite E1, E2.
Qed.
Lemma eight (l : list Z) : zlen l = 8 -> exists a b c d e f g h, l = [a; b; c; d; e; f; g; h].
Proof.
  intros H. unfold zlen in H.
  destruct l as [|a [|b [|c [|d [|e [|f [|g [|h [|]]]]]]]]]; cbn [length] in H; try lia. repeat eexists.
Qed.

Lemma rtu_write_response_spec slave addr count stream sched fin :
  Forall is_byte stream -> is_byte slave -> 0 <= addr < 65536 -> 0 <= count < 65536 ->
  write_outcome slave addr count stream fin (rtu_write_response slave addr count (mkWire stream sched fin)).
Proof.
  intros HB Hs Ha Hc. unfold rtu_write_response.
  destruct (recv_head recv_fuel write_total [] 5 stream sched fin eq_refl ltac:(lia) ltac:(unfold recv_fuel; lia)
              HB) as (H1 & H2 & H3).
  { intros; unfold write_total; lia. } { reflexivity. }
  cbn [app] in *. destruct (Z_lt_le_dec (zlen stream) 5) as [HL|HL].
  { rewrite H1 by assumption. cbn [bind]. rewrite <- starved_raise. now constructor. }
  destruct (is_exception stream) eqn:EX.
  - destruct (H2 HL eq_refl) as [s' ->]. cbn [bind].
    assert (EF : write_frame_len stream = 5) by (unfold write_frame_len; now rewrite EX).
    assert (H5 : zlen (ztake 5 stream) = 5) by (apply zlen_ztake_le; lia).
    destruct (rtu_crc_ok (ztake 5 stream)) eqn:EC; cbn [negb].
    + apply rtu_crc_ok_frame in EC; [|now apply Forall_ztake|lia].
      unfold exc_raise. destruct (Z.eqb_spec (znth 2 stream) 0).
      * rewrite H5. cbn [Z.eqb Pos.eqb negb]. now apply WO_exception0.
      * now apply WO_exception.
    + apply WO_crc; [assumption|lia|]. rewrite EF. intros HC. apply rtu_crc_ok_frame in HC; [congruence| |lia].
      now apply Forall_ztake.
  - destruct (H3 HL eq_refl) as [H4 H5]. change (write_total stream) with 8 in H4, H5.
    assert (EF : write_frame_len stream = 8) by (unfold write_frame_len; now rewrite EX).
    destruct (Z_lt_le_dec (zlen stream) 8) as [HT|HT].
    { rewrite H4 by assumption. cbn [bind]. rewrite <- starved_raise. apply WO_truncated; lia. }
    destruct (H5 HT) as [s' ->]. cbn [bind].
    assert (H8 : zlen (ztake 8 stream) = 8) by (apply zlen_ztake_le; lia).
    assert (HB8 : Forall is_byte (ztake 8 stream)) by now apply Forall_ztake.
    destruct (rtu_crc_ok (ztake 8 stream)) eqn:EC; cbn [negb].
    + apply rtu_crc_ok_frame in EC; [|assumption|lia]. cbn [exc_raise]. rewrite H8. cbn [Z.eqb Pos.eqb negb].
      pose proof (eight _ H8) as (b0 & b1 & b2 & b3 & b4 & b5 & b6 & b7 & E8).
      rewrite E8. change (znth 0 _) with b0. change (znth 1 _) with b1.
      change (slice 2 4 _) with [b2; b3]. change (slice 4 6 _) with [b4; b5].
      assert (Hb : is_byte b2 /\ is_byte b3 /\ is_byte b4 /\ is_byte b5).
      { rewrite E8 in HB8. rewrite Forall_forall in HB8. repeat split; apply HB8; cbn; tauto. }
      destruct Hb as (Hb2 & Hb3 & Hb4 & Hb5).
      destruct (negb (b0 =? slave) || negb (b1 =? FUNC_WRITE_MULTIPLE) || negb (be_int [b2; b3] =? addr)
                || negb (be_int [b4; b5] =? count)) eqn:ET.
      * apply WO_mismatch; auto. intros EQ. rewrite E8 in EQ. unfold write_reply, with_crc in EQ.
        revert EQ. generalize (crc_bytes ([slave; 16] ++ word addr ++ word count)). unfold word. cbn [app]. intros cc EQ.
        injection EQ as -> -> E2 E3 E4 E5 _.
        assert (be_int [b2; b3] = addr) by (rewrite E2, E3; apply be_int_word).
        assert (be_int [b4; b5] = count) by (rewrite E4, E5; apply be_int_word).
        rewrite !Z.eqb_refl in ET. change (16 =? FUNC_WRITE_MULTIPLE) with true in ET.
        rewrite (proj2 (Z.eqb_eq _ _) H), (proj2 (Z.eqb_eq _ _) H0) in ET. discriminate.
      * apply orb_false_iff in ET as [ET Ecount]. apply orb_false_iff in ET as [ET Eaddr].
        apply orb_false_iff in ET as [E0 E1].
        apply negb_false_iff, Z.eqb_eq in Ecount, Eaddr, E0, E1. subst b0 b1.
        apply word_inj2 in Ecount; auto. apply word_inj2 in Eaddr; auto.
        apply WO_done; [assumption|]. rewrite E8. rewrite E8 in EC.
        change [slave; FUNC_WRITE_MULTIPLE; b2; b3; b4; b5; b6; b7]
          with (([slave; 16] ++ [b2; b3] ++ [b4; b5]) ++ [b6; b7]) in *.
        rewrite Eaddr, Ecount in *. apply frame_ok_inv in EC. exact EC.
    + apply WO_crc; [assumption|lia|]. rewrite EF. intros HC. apply rtu_crc_ok_frame in HC; [congruence|assumption|lia].
Qed.
Lemma write_reply_frame slave addr count : 
  0 <= addr < 65536 -> 0 <= count < 65536 ->
  frame_ok (write_reply slave addr count) /\ znth 1 (write_reply slave addr count) = 16.
Proof. intros. split; [apply frame_ok_with_crc|reflexivity]. Qed.
Lemma write_outcome_det slave addr count stream fin r1 r2 : Forall is_byte stream ->
  0 <= addr < 65536 -> 0 <= count < 65536 ->
  write_outcome slave addr count stream fin r1 -> write_outcome slave addr count stream fin r2 -> r1 = r2.
Proof.
  intros HB Ha Hc H1 H2.
  assert (HX : ztake 8 stream = write_reply slave addr count ->
               is_exception stream = false /\ write_frame_len stream = 8 /\ frame_ok (ztake 8 stream)).
  { intros E. destruct (write_reply_frame slave addr count Ha Hc) as [W1 W2].
    assert (is_exception stream = false).
    { unfold is_exception. rewrite <- (znth_ztake 1 8) by lia. rewrite E, W2. reflexivity. }
    split; [assumption|]. split; [unfold write_frame_len; now rewrite H|]. now rewrite E. }
  assert (H5 : 5 <= write_frame_len stream <= 8) by (unfold write_frame_len; destruct (is_exception stream); lia).
  inversion H1; subst; inversion H2; subst; try reflexivity; try lia; try congruence;
    try (match goal with E : ztake 8 stream = write_reply _ _ _ |- _ => destruct (HX E) as (X1 & X2 & X3) end);
    try (unfold write_frame_len in *;
         match goal with E : is_exception stream = _ |- _ => rewrite E in * end; solve [lia|contradiction|congruence]).
Qed.

(** ** C24: requests *)
Lemma pack_u w v : pack_int w false v = if (0 <=? v) && (v <? 256 ^ Z.of_nat w) then Ok (be_bytes w v) else Raise EStruct.
Proof.
  unfold pack_int, int_lo, int_hi. replace (2 ^ (8 * Z.of_nat w)) with (256 ^ Z.of_nat w).
  - replace (v <=? 256 ^ Z.of_nat w - 1) with (v <? 256 ^ Z.of_nat w) by lia. reflexivity.
  - rewrite Z.pow_mul_r by lia. reflexivity.
Qed.
Lemma pack_byte v : is_byte v -> pack_int 1 false v = Ok [v].
Proof.
  intros H. rewrite pack_u. change (256 ^ Z.of_nat 1) with 256. unfold is_byte in H.
  replace ((0 <=? v) && (v <? 256)) with true by lia. cbn [be_bytes app]. rewrite Z.mod_small by lia. reflexivity.
Qed.
Lemma pack_word v : 0 <= v < 65536 -> pack_int 2 false v = Ok (word v).
Proof.
  intros H. rewrite pack_u. change (256 ^ Z.of_nat 2) with 65536.
  replace ((0 <=? v) && (v <? 65536)) with true by lia. now rewrite word_be.
Qed.
Lemma pack_byte_bad v : ~ is_byte v -> pack_int 1 false v = Raise EStruct.
Proof.
  intros H. rewrite pack_u. change (256 ^ Z.of_nat 1) with 256. unfold is_byte in H.
  replace ((0 <=? v) && (v <? 256)) with false by lia. reflexivity.
Qed.
Lemma pack_word_bad v : ~ (0 <= v < 65536) -> pack_int 2 false v = Raise EStruct.
Proof.
  intros H. rewrite pack_u. change (256 ^ Z.of_nat 2) with 65536.
  replace ((0 <=? v) && (v <? 65536)) with false by lia. reflexivity.
Qed.
Lemma pack_crc d : Forall is_byte d -> pack_int 2 false (computeCRC d) = Ok (crc_bytes d).
Proof.
  intros H. destruct (crc_bytes_spec d H) as (E & Hr & _). rewrite pack_word by exact Hr.
  rewrite word_be by exact Hr. now rewrite E.
Qed.
Lemma byte_dec v : {is_byte v} + {~ is_byte v}.
Proof. unfold is_byte. destruct (Z_le_dec 0 v), (Z_lt_dec v 256); (left; lia) || (right; lia). Qed.
Lemma word_dec v : {0 <= v < 65536} + {~ 0 <= v < 65536}.
Proof. destruct (Z_le_dec 0 v), (Z_lt_dec v 65536); (left; lia) || (right; lia). Qed.

Definition read_args_ok (slave op addr count : Z) : Prop :=
  is_byte slave /\ is_byte op /\ 0 <= addr < 65536 /\ 0 <= count < 65536.
Lemma rtu_read_req_ok slave op addr count : read_args_ok slave op addr count ->
  rtu_read_req slave op addr count = Ok (read_frame slave op addr count).
Proof.
  intros (Hs & Ho & Ha & Hc). unfold rtu_read_req.
  rewrite (pack_byte slave), (pack_byte op), (pack_word addr), (pack_word count) by assumption. cbn [bind].
  rewrite pack_crc.
  - reflexivity.
  - repeat (apply Forall_app; split); auto using word_bytes.
Qed.
Lemma rtu_read_req_bad slave op addr count : ~ read_args_ok slave op addr count ->
  rtu_read_req slave op addr count = Raise EStruct.
Proof.
  intros H. unfold rtu_read_req.
  destruct (byte_dec slave) as [Hs|Hs]; [rewrite (pack_byte slave) by assumption|now rewrite (pack_byte_bad slave)]. cbn [bind].
  destruct (byte_dec op) as [Ho|Ho]; [rewrite (pack_byte op) by assumption|now rewrite (pack_byte_bad op)]. cbn [bind].
  destruct (word_dec addr) as [Ha|Ha]; [rewrite (pack_word addr) by assumption|now rewrite (pack_word_bad addr)]. cbn [bind].
  destruct (word_dec count) as [Hc|Hc]; [|now rewrite (pack_word_bad count)].
  exfalso. apply H. unfold read_args_ok, is_byte in *. lia.
Qed.
Definition write_args_ok (slave addr : Z) (data : bytes) : Prop :=
  is_byte slave /\ 0 <= addr < 65536 /\ zlen data < 256.
Lemma rtu_write_req_ok slave addr data : Forall is_byte data -> write_args_ok slave addr data ->
  rtu_write_req slave addr data = Ok (write_frame slave addr data).
Proof.
  intros HD (Hs & Ha & Hl). unfold rtu_write_req. pose proof (zlen_nonneg data).
  assert (0 <= zlen data / 2 < 65536) by (split; [apply Z.div_pos; lia|apply Z.div_lt_upper_bound; lia]).
  rewrite (pack_byte slave), (pack_byte FUNC_WRITE_MULTIPLE), (pack_word addr), (pack_word (zlen data / 2)),
    (pack_byte (zlen data)) by (auto; unfold is_byte, FUNC_WRITE_MULTIPLE; lia). cbn [bind].
  rewrite pack_crc.
  - unfold write_frame, with_crc. rewrite <- !app_assoc. reflexivity.
  - repeat (apply Forall_app; split); auto using word_bytes; repeat constructor; auto; unfold FUNC_WRITE_MULTIPLE; lia.
Qed.
Lemma rtu_write_req_bad slave addr data : ~ write_args_ok slave addr data ->
  rtu_write_req slave addr data = Raise EStruct.
Proof.
  intros H. unfold rtu_write_req. pose proof (zlen_nonneg data).
  destruct (byte_dec slave) as [Hs|Hs]; [rewrite (pack_byte slave) by assumption|now rewrite (pack_byte_bad slave)]. cbn [bind].
  rewrite (pack_byte FUNC_WRITE_MULTIPLE) by (unfold is_byte, FUNC_WRITE_MULTIPLE; lia). cbn [bind].
  destruct (word_dec addr) as [Ha|Ha]; [rewrite (pack_word addr) by assumption|now rewrite (pack_word_bad addr)]. cbn [bind].
  destruct (word_dec (zlen data / 2)) as [Hc|Hc]; [rewrite (pack_word (zlen data / 2)) by assumption|now rewrite (pack_word_bad _ Hc)]. cbn [bind].
  destruct (byte_dec (zlen data)) as [Hd|Hd]; [|now rewrite (pack_byte_bad _ Hd)].
  exfalso. apply H. unfold write_args_ok, is_byte in *. lia.
Qed.

(** ** C26: reading from a conforming device *)
Lemma regs_len m addr n : zlen (regs m addr n) = 2 * Z.of_nat n.
Proof.
  revert addr; induction n as [|n IH]; intros; [reflexivity|]. cbn [regs]. rewrite zlen_app, IH.
  change (zlen (word (m addr))) with 2. lia.
Qed.
Lemma regs_bytes m addr n : mem_ok m -> Forall is_byte (regs m addr n).
Proof.
  intros H. revert addr; induction n as [|n IH]; intros; cbn [regs]; [constructor|].
  apply Forall_app; split; auto. apply word_bytes, H.
Qed.
Lemma regs_app m addr n k : regs m addr (n + k) = regs m addr n ++ regs m (addr + Z.of_nat n) k.
Proof.
  revert addr; induction n as [|n IH]; intros addr; cbn [regs Nat.add].
  - now rewrite Z.add_0_r.
  - rewrite IH, <- app_assoc. do 3 f_equal. lia.
Qed.
Lemma regs_ext m m' addr n : (forall a, m a = m' a) -> regs m addr n = regs m' addr n.
Proof. intros H. revert addr; induction n as [|n IH]; intros; cbn [regs]; [reflexivity|]. now rewrite H, IH. Qed.

Lemma with_crc_bytes d : Forall is_byte d -> Forall is_byte (with_crc d).
Proof. intros H. unfold with_crc. apply Forall_app; split; [exact H|]. apply crc_bytes_spec. exact H. Qed.
Lemma frame_ok_nonempty d noise : ztake (zlen (with_crc d)) (with_crc d ++ noise) = with_crc d.
Proof. apply ztake_app_exact. reflexivity. Qed.

(** a correct normal reply, followed by anything, gives its payload *)
Lemma read_reply_outcome slave op payload noise sched fin :
  is_byte slave -> 0 <= op < 128 -> zlen payload < 256 -> Forall is_byte payload -> Forall is_byte noise ->
  rtu_read_response (mkWire (with_crc ([slave; op; zlen payload] ++ payload) ++ noise) sched fin) = Ok payload.
Proof.
  intros Hs Ho Hl HP HN. pose proof (zlen_nonneg payload) as Hl0.
  set (f := with_crc ([slave; op; zlen payload] ++ payload)).
  assert (HF : Forall is_byte f).
  { apply with_crc_bytes. apply Forall_app; split; [|exact HP].
    repeat constructor; try exact (proj1 Hs); try exact (proj2 Hs); unfold is_byte; lia. }
  assert (HB : Forall is_byte (f ++ noise)) by (apply Forall_app; auto).
  pose proof (rtu_read_response_spec (f ++ noise) sched fin HB) as HO.
  assert (Ef : f = [slave; op; zlen payload] ++ payload ++ crc_bytes ([slave; op; zlen payload] ++ payload)).
  { unfold f, with_crc. now rewrite <- app_assoc. }
  assert (E1 : znth 1 (f ++ noise) = op) by (rewrite Ef; reflexivity).
  assert (E2 : znth 2 (f ++ noise) = zlen payload) by (rewrite Ef; reflexivity).
  assert (EX : is_exception (f ++ noise) = false).
  { unfold is_exception. rewrite E1. destruct (Z.eq_dec op 0) as [->|]; [apply Z.bits_0|].
    apply Z.bits_above_log2; [lia|]. apply Z.log2_lt_pow2; lia. }
  assert (EL : zlen f = 5 + zlen payload).
  { unfold f. rewrite with_crc_len, zlen_app. change (zlen [slave; op; zlen payload]) with 3. lia. }
  assert (EN : read_frame_len (f ++ noise) = zlen f) by (unfold read_frame_len; rewrite EX, E2; lia).
  assert (ELn : zlen (f ++ noise) = zlen f + zlen noise) by apply zlen_app.
  pose proof (zlen_nonneg noise).
  eapply read_outcome_det; [exact HB|exact HO|].
  replace payload with (slice 3 (3 + znth 2 (f ++ noise)) (f ++ noise)) at 1.
  - apply RO_data; auto; try lia. rewrite EN. rewrite ztake_app_exact by reflexivity. apply frame_ok_with_crc.
  - rewrite E2. rewrite Ef, <- app_assoc. rewrite slice_app_r by (change (zlen [slave; op; zlen payload]) with 3; lia).
    change (zlen [slave; op; zlen payload]) with 3.
    replace (3 - 3) with 0 by lia. replace (3 + zlen payload - 3) with (zlen payload) by lia.
    unfold slice. rewrite zdrop_neg by lia. rewrite <- app_assoc. apply ztake_app_exact. lia.
Qed.

Section ReadConforming.
  Context {D : Type}.
  Variables (dev : sdev D) (mem : D -> memory) (slave op : Z).
  Hypothesis Hserve : serves_reads dev mem slave op.
  Hypothesis Hmem : forall s, mem_ok (mem s).
  Hypothesis Hslave : is_byte slave.
  Hypothesis Hop : 0 <= op < 128.

  Lemma rtu_read1_conforming s lg addr count :
    1 <= count <= 125 -> 0 <= addr -> addr + count <= 65536 ->
    exists s', rtu_read1 (logged dev) false slave addr count op (s, lg)
      = ((s', lg ++ [read_frame slave op addr count]), Ok (regs (mem s) addr (Z.to_nat count))) /\
      (forall a, mem s' a = mem s a).
  Proof.
    intros Hc Ha Hac. unfold rtu_read1.
    rewrite rtu_read_req_ok by (repeat split; unfold is_byte in *; lia).
    unfold logged. cbn [fst snd].
    destruct (Hserve s addr count Hc Ha Hac) as (s' & noise & sched & fin & HN & -> & Hm).
    exists s'. split; [|exact Hm]. f_equal. unfold read_reply.
    assert (EL : zlen (regs (mem s) addr (Z.to_nat count)) = 2 * count) by (rewrite regs_len; lia).
    rewrite <- EL.
    apply read_reply_outcome; auto; [lia|apply regs_bytes, Hmem].
  Qed.

  Lemma rtu_read_loop_conforming fuel max_count : 1 <= max_count <= 125 ->
    forall count addr off resp s lg,
    (Z.to_nat count < fuel)%nat -> 0 <= count -> 0 <= addr + off -> addr + off + count <= 65536 ->
    exists s' reqs, rtu_read_loop (logged dev) false fuel slave addr count op max_count off resp (s, lg)
        = ((s', lg ++ map (fun r => read_frame slave op (fst r) (snd r)) reqs),
           Ok (Some (resp ++ regs (mem s) (addr + off) (Z.to_nat count)))) /\
      covers max_count (addr + off) count reqs /\ (forall a, mem s' a = mem s a).
  Proof.
    intros Hmax. induction fuel as [|fuel IH]; intros count addr off resp s lg Hf Hc Ha Hac; [lia|].
    cbn [rtu_read_loop]. destruct (Z.ltb_spec 0 count) as [Hpos|Hz].
    - set (rc := if max_count <? count then max_count else count).
      assert (Hrc : 1 <= rc <= max_count /\ rc <= count) by (unfold rc; destruct (Z.ltb_spec max_count count); lia).
      destruct (rtu_read1_conforming s lg (addr + off) rc ltac:(lia) ltac:(lia) ltac:(lia)) as (s1 & -> & Hm1).
      destruct (regs (mem s) (addr + off) (Z.to_nat rc)) as [|b0 br] eqn:ER.
      { pose proof (f_equal zlen ER) as EL. rewrite regs_len, zlen_nil in EL. lia. }
      rewrite <- ER in *. clear ER b0 br.
      destruct (IH (count - rc) addr (off + rc) (resp ++ regs (mem s) (addr + off) (Z.to_nat rc)) s1
                  (lg ++ [read_frame slave op (addr + off) rc]) ltac:(lia) ltac:(lia) ltac:(lia) ltac:(lia))
        as (s' & reqs & -> & Hcov & Hm).
      exists s', ((addr + off, rc) :: reqs). split; [|split].
      + f_equal.
        * f_equal. cbn [map fst snd]. now rewrite <- app_assoc.
        * do 2 f_equal. rewrite <- app_assoc. f_equal.
          rewrite (regs_ext (mem s1) (mem s)) by exact Hm1.
          replace (Z.to_nat count) with (Z.to_nat rc + Z.to_nat (count - rc))%nat by lia.
          rewrite regs_app. do 2 f_equal. lia.
      + replace count with (rc + (count - rc)) by lia. constructor; [lia|lia|].
        replace (addr + off + rc) with (addr + (off + rc)) by lia. exact Hcov.
      + intros a. rewrite Hm. apply Hm1.
    - assert (count = 0) as -> by lia. exists s, []. split; [|split; [constructor|reflexivity]].
      cbn [map regs Z.to_nat]. now rewrite !app_nil_r.
  Qed.
End ReadConforming.

(** ** C27: writing to a conforming device *)
Lemma two_ind (P : bytes -> Prop) :
  P [] -> (forall h l r, P r -> P (h :: l :: r)) -> forall d, zlen d mod 2 = 0 -> P d.
Proof.
  intros H0 H2 d. remember (length d) as n eqn:En. revert d En.
  induction n as [n IH] using (well_founded_induction lt_wf). intros d En Hd.
  destruct d as [|h [|l r]]; [exact H0| |].
  - exfalso. unfold zlen in Hd. cbn in Hd. discriminate.
  - apply H2. apply (IH (length r)); [subst n; cbn; lia|reflexivity|].
    rewrite !zlen_cons in Hd. replace (1 + (1 + zlen r)) with (zlen r + 1 * 2) in Hd by lia.
    rewrite Z.mod_add in Hd by lia. exact Hd.
Qed.
Lemma store_ext m m' addr d : (forall a, m a = m' a) -> forall a, store m addr d a = store m' addr d a.
Proof.
  revert m m' addr. remember (length d) as n eqn:En. revert d En.
  induction n as [n IH] using (well_founded_induction lt_wf). intros d En m m' addr H a.
  destruct d as [|h [|l r]]; cbn [store]; auto.
  apply (IH (length r)); [subst n; cbn; lia|reflexivity|]. intros b. destruct (b =? addr); auto.
Qed.
Lemma store_app m addr d1 d2 : zlen d1 mod 2 = 0 ->
  forall a, store m addr (d1 ++ d2) a = store (store m addr d1) (addr + zlen d1 / 2) d2 a.
Proof.
  intros Hd. revert m addr. revert d1 Hd. apply (two_ind (fun d1 => forall m addr a,
    store m addr (d1 ++ d2) a = store (store m addr d1) (addr + zlen d1 / 2) d2 a)).
  - intros. cbn [app store]. change (zlen (@nil Z) / 2) with 0. now rewrite Z.add_0_r.
  - intros h l r IH m addr a. cbn [app store]. rewrite IH. rewrite !zlen_cons.
    replace (1 + (1 + zlen r)) with (zlen r + 1 * 2) by lia. rewrite Z.div_add by lia.
    f_equal; lia.
Qed.

Lemma write_reply_outcome slave addr count noise sched fin :
  is_byte slave -> 0 <= addr < 65536 -> 0 <= count < 65536 -> Forall is_byte noise ->
  rtu_write_response slave addr count (mkWire (write_reply slave addr count ++ noise) sched fin) = Ok tt.
Proof.
  intros Hs Ha Hc HN.
  assert (HF : Forall is_byte (write_reply slave addr count)).
  { apply with_crc_bytes. repeat (apply Forall_app; split); auto using word_bytes.
    repeat constructor; try exact (proj1 Hs); try exact (proj2 Hs); unfold is_byte; lia. }
  assert (HB : Forall is_byte (write_reply slave addr count ++ noise)) by (apply Forall_app; auto).
  eapply write_outcome_det; [exact HB|exact Ha|exact Hc|now apply rtu_write_response_spec|].
  assert (EL : zlen (write_reply slave addr count) = 8) by (unfold write_reply; now rewrite with_crc_len).
  apply WO_done.
  - rewrite zlen_app, EL. pose proof (zlen_nonneg noise). lia.
  - apply ztake_app_exact. now rewrite EL.
Qed.

Section WriteConforming.
  Context {D : Type}.
  Variables (dev : sdev D) (mem : D -> memory) (slave lim : Z).
  Hypothesis Hserve : serves_writes dev mem slave lim.
  Hypothesis Hslave : is_byte slave.
  Hypothesis Hlim : lim <= 127.

  Lemma rtu_write1_conforming s lg addr data :
    Forall is_byte data -> zlen data mod 2 = 0 -> 1 <= zlen data / 2 <= lim -> 0 <= addr -> addr + zlen data / 2 <= 65536 ->
    exists s', rtu_write1 (logged dev) slave addr data (s, lg)
      = ((s', lg ++ [write_frame slave addr data]), Ok tt) /\
      (forall a, mem s' a = store (mem s) addr data a).
  Proof.
    intros HD HE Hc Ha Hac. unfold rtu_write1.
    assert (zlen data = 2 * (zlen data / 2)) by (rewrite (Z.div_mod (zlen data) 2) at 1 by lia; lia).
    rewrite rtu_write_req_ok by (auto; unfold write_args_ok; repeat split; unfold is_byte in *; lia).
    unfold logged. cbn [fst snd].
    destruct (Hserve s addr data HD HE Hc Ha Hac) as (s' & noise & sched & fin & HN & -> & Hm).
    exists s'. split; [|exact Hm]. f_equal.
    apply write_reply_outcome; auto; lia.
  Qed.

  (** the requests for [reqs], reading their data from [data] written at [base] *)
  Definition write_requests (base : Z) (data : bytes) (reqs : list (Z * Z)) : list bytes :=
    map (fun r => write_frame slave (fst r) (slice (2 * (fst r - base)) (2 * (fst r - base) + 2 * snd r) data)) reqs.

  Lemma rtu_write_loop_conforming fuel max_count : 1 <= max_count <= lim -> 
    forall off addr data s lg, Forall is_byte data -> zlen data mod 2 = 0 ->
    0 <= off -> 2 * off <= zlen data -> (Z.to_nat (zlen data - 2 * off) < fuel)%nat ->
    0 <= addr -> addr + zlen data / 2 <= 65536 ->
    exists s' reqs, rtu_write_loop (logged dev) fuel slave addr (zlen data - 2 * off) max_count off data (s, lg)
        = ((s', lg ++ write_requests addr data reqs), Ok tt) /\
      covers max_count (addr + off) (zlen data / 2 - off) reqs /\
      (forall a, mem s' a = store (mem s) (addr + off) (zdrop (2 * off) data) a).
  Proof.
    intros Hmax. induction fuel as [|fuel IH]; intros off addr data s lg HD HE Hoff Hoff2 Hf Ha Hac; [lia|].
    assert (EH : zlen data = 2 * (zlen data / 2)) by (rewrite (Z.div_mod (zlen data) 2) at 1 by lia; lia).
    cbn [rtu_write_loop]. destruct (Z.ltb_spec 0 (zlen data - 2 * off)) as [Hpos|Hz].
    - set (n := zlen data / 2 - off) in *.
      set (wc := if max_count <? n then max_count else n).
      assert (Ewc : (if 2 * max_count <? zlen data - 2 * off then 2 * max_count else zlen data - 2 * off) = 2 * wc).
      { unfold wc, n. destruct (Z.ltb_spec (2 * max_count) (zlen data - 2 * off)), (Z.ltb_spec max_count (zlen data / 2 - off)); lia. }
      rewrite Ewc.
      assert (Hwc : 1 <= wc <= max_count /\ wc <= n) by (unfold wc, n in *; destruct (Z.ltb_spec max_count (zlen data / 2 - off)); lia).
      assert (Ediv : 2 * wc / 2 = wc) by (rewrite Z.mul_comm; apply Z.div_mul; lia).
      rewrite Ediv.
      set (chunk := slice (2 * off) (2 * off + 2 * wc) data).
      assert (ECL : zlen chunk = 2 * wc) by (unfold chunk; rewrite zlen_slice_in; unfold n in *; lia).
      destruct (rtu_write1_conforming s lg (addr + off) chunk) as (s1 & -> & Hm1).
      { apply Forall_slice, HD. } { rewrite ECL, Z.mul_comm. apply Z.mod_mul. lia. }
      { rewrite ECL, Ediv. lia. } { lia. } { rewrite ECL, Ediv. unfold n in *. lia. }
      replace (zlen data - 2 * off - 2 * wc) with (zlen data - 2 * (off + wc)) by lia.
      destruct (IH (off + wc) addr data s1 (lg ++ [write_frame slave (addr + off) chunk]) HD HE
                  ltac:(lia) ltac:(unfold n in *; lia) ltac:(lia) Ha Hac) as (s' & reqs & -> & Hcov & Hm).
      exists s', ((addr + off, wc) :: reqs). split; [|split].
      + do 2 f_equal. cbn [write_requests map fst snd]. rewrite <- app_assoc. cbn [app].
        replace (addr + off - addr) with off by lia. reflexivity.
      + replace n with (wc + (n - wc)) by lia. constructor; [lia|lia|].
        replace (addr + off + wc) with (addr + (off + wc)) by lia.
        replace (n - wc) with (zlen data / 2 - (off + wc)) by (unfold n; lia). exact Hcov.
      + intros a. rewrite Hm.
        rewrite (store_ext _ (store (mem s) (addr + off) chunk)) by exact Hm1.
        assert (Esplit : zdrop (2 * off) data = chunk ++ zdrop (2 * (off + wc)) data).
        { unfold chunk, slice. replace (2 * off + 2 * wc - 2 * off) with (2 * wc) by lia.
          replace (2 * (off + wc)) with (2 * off + 2 * wc) by lia. rewrite <- zdrop_zdrop by lia.
          symmetry. apply ztake_zdrop. }
        rewrite Esplit, store_app by (rewrite ECL, Z.mul_comm; apply Z.mod_mul; lia).
        rewrite ECL, Ediv. now rewrite Z.add_assoc.
    - exists s, []. split; [|split].
      + cbn [write_requests map]. now rewrite app_nil_r.
      + replace (zlen data / 2 - off) with 0 by lia. constructor.
      + intros a. rewrite zdrop_all by lia. reflexivity.
  Qed.
End WriteConforming.

(** ** the memory specification behaves like a memory *)
Lemma store_outside m addr d : forall a, a < addr \/ addr + zlen d / 2 <= a -> store m addr d a = m a.
Proof.
  revert m addr. remember (length d) as n eqn:En. revert d En.
  induction n as [n IH] using (well_founded_induction lt_wf). intros d En m addr a Ha.
  destruct d as [|h [|l r]]; cbn [store]; auto.
  rewrite !zlen_cons in Ha. replace (1 + (1 + zlen r)) with (zlen r + 1 * 2) in Ha by lia.
  rewrite Z.div_add in Ha by lia. assert (0 <= zlen r / 2) by (apply Z.div_pos; [apply zlen_nonneg|lia]).
  rewrite (IH (length r)); [|subst n; cbn; lia|reflexivity|lia].
  destruct (Z.eqb_spec a addr); [lia|reflexivity].
Qed.
Lemma regs_store m addr d : zlen d mod 2 = 0 -> Forall is_byte d -> regs (store m addr d) addr (Z.to_nat (zlen d / 2)) = d.
Proof.
  intros HE. revert m addr. revert d HE. apply (two_ind (fun d => forall m addr, Forall is_byte d ->
     regs (store m addr d) addr (Z.to_nat (zlen d / 2)) = d)).
  - reflexivity.
  - intros h l r IH m addr HB. inversion HB as [|? ? Hh HB']; subst. inversion HB' as [|? ? Hl HBr]; subst.
    rewrite !zlen_cons. replace (1 + (1 + zlen r)) with (zlen r + 1 * 2) by lia.
    rewrite Z.div_add by lia. assert (0 <= zlen r / 2) by (apply Z.div_pos; [apply zlen_nonneg|lia]).
    replace (Z.to_nat (zlen r / 2 + 1)) with (S (Z.to_nat (zlen r / 2))) by lia. cbn [regs store].
    rewrite IH by exact HBr. rewrite store_outside by lia. rewrite Z.eqb_refl.
    replace (h * 256 + l) with (be_int [h; l]) by (unfold be_int; cbn [fold_left]; lia).
    rewrite <- (word_inj2 h l _ Hh Hl eq_refl). reflexivity.
Qed.

(** ** C24: whatever the device does, only well-formed requests are sent *)
Section AnyDevice.
  Context {D : Type}.
  Variable dev : sdev D.
  Lemma rtu_read1_log trace slave addr count op s lg s' lg' r :
    rtu_read1 (logged dev) trace slave addr count op (s, lg) = ((s', lg'), r) ->
    (lg' = lg /\ (~ read_args_ok slave op addr count \/ trace = true)) \/
    (read_args_ok slave op addr count /\ lg' = lg ++ [read_frame slave op addr count]).
  Proof.
    unfold rtu_read1. intros H.
    assert (HD : read_args_ok slave op addr count \/ ~ read_args_ok slave op addr count).
    { unfold read_args_ok, is_byte. lia. }
    destruct HD as [HO|HO].
    - rewrite rtu_read_req_ok in H by exact HO. destruct trace; [left; split; [congruence|auto]|]. right.
      split; [exact HO|]. unfold logged in H. cbn [fst snd] in H.
      destruct (dev s (read_frame slave op addr count)) as [d [w|]]; congruence.
    - rewrite rtu_read_req_bad in H by exact HO. left. split; [congruence|auto].
  Qed.
  Lemma rtu_read_loop_log trace fuel slave addr op max_count : forall count off resp s lg s' lg' r,
    0 < max_count ->
    rtu_read_loop (logged dev) trace fuel slave addr count op max_count off resp (s, lg) = ((s', lg'), r) ->
    exists reqs, lg' = lg ++ map (fun q => read_frame slave op (fst q) (snd q)) reqs /\
      Forall (fun q => read_args_ok slave op (fst q) (snd q) /\ 1 <= snd q <= max_count /\
                       addr + off <= fst q /\ fst q + snd q <= addr + off + count) reqs.
  Proof.
    induction fuel as [|fuel IH]; intros count off resp s lg s' lg' r Hm H; cbn [rtu_read_loop] in H.
    { exists []. split; [|constructor]. cbn. rewrite app_nil_r. congruence. }
    destruct (Z.ltb_spec 0 count) as [Hpos|].
    2:{ exists []. split; [|constructor]. cbn. rewrite app_nil_r. congruence. }
    set (rc := if max_count <? count then max_count else count) in *.
    assert (Hrc : 1 <= rc <= max_count /\ rc <= count) by (unfold rc; destruct (Z.ltb_spec max_count count); lia).
    destruct (rtu_read1 (logged dev) trace slave (addr + off) rc op (s, lg)) as [[s1 lg1] r1] eqn:E1.
    assert (HH : exists rest, lg' = lg1 ++ map (fun q => read_frame slave op (fst q) (snd q)) rest /\
      Forall (fun q => read_args_ok slave op (fst q) (snd q) /\ 1 <= snd q <= max_count /\
                       addr + off <= fst q /\ fst q + snd q <= addr + off + count) rest).
    { destruct r1 as [[|x d]|e].
      - exists []. cbn. rewrite app_nil_r. split; [congruence|constructor].
      - apply IH in H; [|exact Hm]. destruct H as (rest & -> & HF). exists rest. split; [reflexivity|].
        eapply Forall_impl; [|exact HF]. cbn. intros q (Q1 & Q2 & Q3 & Q4). repeat split; try apply Q1; lia.
      - exists []. cbn. rewrite app_nil_r. split; [congruence|constructor]. }
    destruct HH as (rest & -> & HF).
    apply rtu_read1_log in E1 as [[-> _]|[HO ->]].
    - exists rest. auto.
    - exists ((addr + off, rc) :: rest). cbn [map fst snd]. rewrite <- app_assoc. split; [reflexivity|].
      constructor; [|exact HF]. cbn [fst snd]. repeat split; try apply HO; lia.
  Qed.
  Lemma rtu_write1_log slave addr data s lg s' lg' r : Forall is_byte data ->
    rtu_write1 (logged dev) slave addr data (s, lg) = ((s', lg'), r) ->
    (lg' = lg /\ ~ write_args_ok slave addr data /\ r = Raise EStruct) \/
    (write_args_ok slave addr data /\ lg' = lg ++ [write_frame slave addr data]).
  Proof.
    unfold rtu_write1. intros HB H.
    assert (HD : write_args_ok slave addr data \/ ~ write_args_ok slave addr data).
    { unfold write_args_ok, is_byte. lia. }
    destruct HD as [HO|HO].
    - rewrite rtu_write_req_ok in H by assumption. right.
      split; [exact HO|]. unfold logged in H. cbn [fst snd] in H.
      destruct (dev s (write_frame slave addr data)) as [d [w|]]; congruence.
    - rewrite rtu_write_req_bad in H by exact HO. left. split; [congruence|split; [auto|congruence]].
  Qed.
  Lemma rtu_write_loop_log fuel slave addr data max_count : Forall is_byte data -> 0 < max_count ->
    forall count2 off s lg s' lg' r,
    rtu_write_loop (logged dev) fuel slave addr count2 max_count off data (s, lg) = ((s', lg'), r) ->
    exists reqs, lg' = lg ++ map (fun q => write_frame slave (fst q) (snd q)) reqs /\
      Forall (fun q => write_args_ok slave (fst q) (snd q) /\ zlen (snd q) <= 2 * max_count) reqs.
  Proof.
    intros HB Hm. induction fuel as [|fuel IH]; intros count2 off s lg s' lg' r H; cbn [rtu_write_loop] in H.
    { exists []. split; [|constructor]. cbn. rewrite app_nil_r. congruence. }
    destruct (Z.ltb_spec 0 count2) as [Hpos|].
    2:{ exists []. split; [|constructor]. cbn. rewrite app_nil_r. congruence. }
    set (wc := if 2 * max_count <? count2 then 2 * max_count else count2) in *.
    assert (Hwc : 0 < wc <= 2 * max_count) by (unfold wc; destruct (Z.ltb_spec (2 * max_count) count2); lia).
    set (chunk := slice (2 * off) (2 * off + wc) data) in *.
    assert (HC : zlen chunk <= 2 * max_count).
    { unfold chunk, slice. rewrite zlen_ztake by lia. lia. }
    destruct (rtu_write1 (logged dev) slave (addr + off) chunk (s, lg)) as [[s1 lg1] r1] eqn:E1.
    assert (HH : exists rest, lg' = lg1 ++ map (fun q => write_frame slave (fst q) (snd q)) rest /\
      Forall (fun q => write_args_ok slave (fst q) (snd q) /\ zlen (snd q) <= 2 * max_count) rest).
    { destruct r1 as [u|e].
      - apply IH in H. exact H.
      - exists []. cbn. rewrite app_nil_r. split; [congruence|constructor]. }
    destruct HH as (rest & -> & HF).
    apply rtu_write1_log in E1 as [(-> & _)|[HO ->]]; [| |now apply Forall_slice].
    - exists rest. auto.
    - exists ((addr + off, chunk) :: rest). cbn [map fst snd]. rewrite <- app_assoc. split; [reflexivity|].
      constructor; [|exact HF]. cbn [fst snd]. auto.
  Qed.
End AnyDevice.

(** ** C25: splitting the response does not matter *)
Definition same_stream (w1 w2 : option wire) : Prop :=
  match w1, w2 with
  | Some a, Some b => w_bytes a = w_bytes b /\ w_end a = w_end b /\ Forall is_byte (w_bytes a)
  | None, None => True
  | _, _ => False
  end.
Definition same_streams {D} (d1 d2 : sdev D) : Prop :=
  forall s req, fst (d1 s req) = fst (d2 s req) /\ same_stream (snd (d1 s req)) (snd (d2 s req)).
Lemma rtu_read_response_sched b s1 s2 e : Forall is_byte b ->
  rtu_read_response (mkWire b s1 e) = rtu_read_response (mkWire b s2 e).
Proof. intros HB. eapply read_outcome_det; eauto using rtu_read_response_spec. Qed.
(** for writes too, also without the bounds on the arguments *)
Lemma rtu_recv_sched fuel b s1 s2 e : Forall is_byte b -> (305 < fuel)%nat ->
  match rtu_recv fuel write_total [] 5 false None (mkWire b s1 e),
        rtu_recv fuel write_total [] 5 false None (mkWire b s2 e) with
  | Ok (r1, x1, _), Ok (r2, x2, _) => r1 = r2 /\ x1 = x2
  | Raise e1, Raise e2 => e1 = e2
  | _, _ => False
  end.
Proof.
  intros HB Hf.
  destruct (recv_head fuel write_total [] 5 b s1 e eq_refl ltac:(lia) ltac:(lia) HB) as (A1 & A2 & A3);
    [intros; unfold write_total; lia|reflexivity|].
  destruct (recv_head fuel write_total [] 5 b s2 e eq_refl ltac:(lia) ltac:(lia) HB) as (B1 & B2 & B3);
    [intros; unfold write_total; lia|reflexivity|].
  cbn [app] in *. change (write_total b) with 8 in *.
  destruct (Z_lt_le_dec (zlen b) 5); [now rewrite A1, B1|].
  destruct (is_exception b) eqn:EX.
  - destruct (A2 ltac:(lia) eq_refl) as [? ->], (B2 ltac:(lia) eq_refl) as [? ->]. auto.
  - destruct (A3 ltac:(lia) eq_refl) as [A4 A5], (B3 ltac:(lia) eq_refl) as [B4 B5].
    destruct (Z_lt_le_dec (zlen b) 8); [now rewrite A4, B4|].
    destruct (A5 ltac:(lia)) as [? ->], (B5 ltac:(lia)) as [? ->]. auto.
Qed.
Lemma rtu_write_response_sched slave addr count b s1 s2 e : Forall is_byte b ->
  rtu_write_response slave addr count (mkWire b s1 e) = rtu_write_response slave addr count (mkWire b s2 e).
Proof.
  intros HB. unfold rtu_write_response.
  pose proof (rtu_recv_sched recv_fuel b s1 s2 e HB ltac:(unfold recv_fuel; lia)) as H.
  destruct (rtu_recv recv_fuel write_total [] 5 false None (mkWire b s1 e)) as [[[r1 x1] w1]|e1],
           (rtu_recv recv_fuel write_total [] 5 false None (mkWire b s2 e)) as [[[r2 x2] w2]|e2];
    try contradiction; cbn [bind]; [|now subst]. destruct H as [-> ->]. reflexivity.
Qed.
Lemma rtu_read_same {D} (d1 d2 : sdev D) is_open trace slave addr count op max_count s : same_streams d1 d2 ->
  rtu_read d1 trace is_open slave addr count op max_count s = rtu_read d2 trace is_open slave addr count op max_count s.
Proof.
  intros HS. unfold rtu_read. destruct is_open; [|reflexivity].
  assert (H1 : forall a c s, rtu_read1 d1 trace slave a c op s = rtu_read1 d2 trace slave a c op s).
  { intros a c st. unfold rtu_read1. destruct (rtu_read_req slave op a c) as [req|]; [|reflexivity].
    destruct trace; [reflexivity|]. destruct (HS st req) as [H1 H2].
    destruct (d1 st req) as [x1 [w1|]], (d2 st req) as [x2 [w2|]]; cbn [fst snd same_stream] in *; try contradiction;
      subst; [|reflexivity].
    destruct H2 as (E1 & E2 & HB). destruct w1 as [b1 c1 e1], w2 as [b2 c2 e2]; cbn [w_bytes w_end] in *. subst.
    rewrite (rtu_read_response_sched b2 c1 c2 e2 HB). reflexivity. }
  revert s. generalize (S (Z.to_nat count)) as fuel. generalize 0 as off. generalize (@nil Z) as resp. revert count.
  intros count resp off fuel. revert count resp off. induction fuel as [|fuel IH]; intros; [reflexivity|].
  cbn [rtu_read_loop]. rewrite H1. destruct (0 <? count); [|reflexivity].
  destruct (rtu_read1 _ _ _ _ _ _ _) as [s' [[|]|]]; auto.
Qed.
Lemma rtu_write_same {D} (d1 d2 : sdev D) is_open slave addr data max_count s : same_streams d1 d2 ->
  rtu_write d1 is_open slave addr data max_count s = rtu_write d2 is_open slave addr data max_count s.
Proof.
  intros HS. unfold rtu_write. destruct is_open; [|reflexivity].
  assert (H1 : forall a c s, rtu_write1 d1 slave a c s = rtu_write1 d2 slave a c s).
  { intros a c st. unfold rtu_write1. destruct (rtu_write_req slave a c) as [req|]; [|reflexivity].
    destruct (HS st req) as [H1 H2].
    destruct (d1 st req) as [x1 [w1|]], (d2 st req) as [x2 [w2|]]; cbn [fst snd same_stream] in *; try contradiction;
      subst; [|reflexivity].
    destruct H2 as (E1 & E2 & HB). destruct w1 as [b1 c1 e1], w2 as [b2 c2 e2]; cbn [w_bytes w_end] in *. subst.
    rewrite (rtu_write_response_sched slave a (zlen c / 2) b2 c1 c2 e2 HB). reflexivity. }
  revert s. generalize (S (length data)) as fuel. generalize (zlen data) as count. generalize 0 as off.
  intros off count fuel. revert count off. induction fuel as [|fuel IH]; intros; [reflexivity|].
  cbn [rtu_write_loop]. rewrite H1. destruct (0 <? count); [|reflexivity].
  destruct (rtu_write1 _ _ _ _ _) as [s' []]; auto.
Qed.
(** the bytes after one complete response are not looked at *)
Lemma rtu_read_trailing stream extra sched sched' fin fin' :
  Forall is_byte stream -> Forall is_byte extra -> 5 <= zlen stream -> read_frame_len stream <= zlen stream ->
  rtu_read_response (mkWire (stream ++ extra) sched fin) = rtu_read_response (mkWire stream sched' fin').
Proof.
  intros HS HE H5 HL.
  assert (HB : Forall is_byte (stream ++ extra)) by (apply Forall_app; auto).
  pose proof (rtu_read_response_spec stream sched' fin' HS) as O.
  eapply read_outcome_det; [exact HB|now apply rtu_read_response_spec|].
  pose proof (znth_byte 2 stream HS) as Hb2. unfold is_byte in Hb2.
  assert (E1 : znth 1 (stream ++ extra) = znth 1 stream) by (apply znth_app_l; lia).
  assert (E2 : znth 2 (stream ++ extra) = znth 2 stream) by (apply znth_app_l; lia).
  assert (EX : is_exception (stream ++ extra) = is_exception stream) by (unfold is_exception; now rewrite E1).
  assert (EN : read_frame_len (stream ++ extra) = read_frame_len stream) by (unfold read_frame_len; now rewrite EX, E2).
  assert (EL : zlen (stream ++ extra) = zlen stream + zlen extra) by apply zlen_app.
  pose proof (zlen_nonneg extra).
  assert (ET : forall n, n <= zlen stream -> ztake n (stream ++ extra) = ztake n stream) by (intros; now apply ztake_app_l).
  destruct O; try lia.
  - apply RO_crc; rewrite ?EN, ?ET; auto; lia.
  - rewrite <- E2. apply RO_exception; rewrite ?EN, ?E2, ?EX, ?ET; auto; lia.
  - apply RO_exception0; rewrite ?EN, ?E2, ?EX, ?ET; auto; lia.
  - replace (slice 3 (3 + znth 2 stream) stream) with (slice 3 (3 + znth 2 (stream ++ extra)) (stream ++ extra)).
    + apply RO_data; rewrite ?EN, ?E2, ?EX, ?ET; auto; lia.
    + rewrite E2. apply slice_app_l; [lia|]. unfold read_frame_len in HL. rewrite H3 in HL. lia.
Qed.

(** ** C29: corruption *)
Lemma corrupted_read p x y x' y' s sched fin extra :
  let f := p ++ [x; y] ++ s in let g := p ++ [x'; y'] ++ s in
  Forall is_byte (f ++ extra) -> Forall is_byte (g ++ extra) -> frame_ok f ->
  zlen f = read_frame_len f -> [x; y] <> [x'; y'] ->
  (p = [] /\ y = y' \/ 3 <= zlen p) ->
  rtu_read_response (mkWire (g ++ extra) sched fin) = Raise EModbusClient.
Proof.
  cbn zeta. intros HF HG Hok HL Hne Hpos.
  set (f := p ++ [x; y] ++ s) in *. set (g := p ++ [x'; y'] ++ s) in *.
  pose proof (proj1 (Forall_app _ _ _) HF) as [HFf _]. pose proof (proj1 (Forall_app _ _ _) HG) as [HGg _].
  assert (ELg : zlen g = zlen f) by (unfold g, f; rewrite !zlen_app; reflexivity).
  assert (H5 : 5 <= zlen f).
  { rewrite HL. unfold read_frame_len. destruct (is_exception f); [lia|].
    pose proof (znth_byte 2 f HFf). unfold is_byte in *. lia. }
  assert (E12 : forall i, 1 <= i <= 2 -> znth i g = znth i f).
  { intros i Hi. destruct Hpos as [[-> ->]|Hp].
    - unfold g, f. cbn [app]. unfold znth. destruct (Z.to_nat i) eqn:Ei; [lia|]. reflexivity.
    - unfold g, f. rewrite !znth_app_l by lia. reflexivity. }
  assert (EN : read_frame_len g = read_frame_len f).
  { unfold read_frame_len, is_exception. rewrite !E12 by lia. reflexivity. }
  rewrite (rtu_read_trailing g extra sched sched fin fin); auto; try lia.
  2:{ apply Forall_app in HG. apply HG. }
  eapply read_outcome_det; [exact HGg|now apply rtu_read_response_spec|].
  apply RO_crc; try lia. rewrite EN, <- HL, <- ELg, ztake_all by lia.
  apply (adjacent_bytes_detected p x y x' y' s); assumption.
Qed.
