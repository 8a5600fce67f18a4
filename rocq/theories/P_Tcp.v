(** * P_Tcp: proofs about M_Tcp. *)
From Coq Require Import ZifyBool.
From Verif Require Import Py P_List M_Crc S_Crc P_Crc M_Wire M_Rtu S_Modbus P_Rtu M_Tcp S_Tcp.

(** ** the receive loop *)
Lemma hdr_slice_app (a b : bytes) : 9 <= zlen a -> slice 4 6 (a ++ b) = slice 4 6 a.
Proof. intros. apply slice_app_l; lia. Qed.

Lemma tcp_recv_spec fuel closed resp r b sched e :
  (length b + 1 < fuel)%nat ->
  r = (if 9 <=? zlen resp then be_int (slice 4 6 resp) - (zlen resp - 6) else 9 - zlen resp) ->
  (9 <= zlen resp -> zlen resp <= tcp_frame_len resp) ->
  let stream := resp ++ b in
  (tcp_complete stream -> exists sched', tcp_recv fuel closed resp r (mkWire b sched e)
      = Ok (ztake (tcp_frame_len stream) stream, mkWire (zdrop (tcp_frame_len stream) stream) sched' e)) /\
  (~ tcp_complete stream -> tcp_recv fuel closed resp r (mkWire b sched e) = Raise (tcp_starved closed e)).
Proof.
  revert resp r b sched. induction fuel as [|fuel IH]; intros resp r b sched Hf Hr Hle; [lia|]. cbn zeta.
  cbn [tcp_recv]. destruct (Z.ltb_spec 0 r) as [Hpos|Hneg].
  - destruct b as [|x b'].
    + rewrite app_nil_r. unfold wread. cbn [w_bytes w_end]. split.
      * intros [H9 HL]. exfalso. rewrite (proj2 (Z.leb_le _ _) H9) in Hr.
        unfold tcp_frame_len in *. lia.
      * intros _. destruct e; reflexivity.
    + set (b := x :: b') in *. destruct (wread_some r b sched e Hpos ltac:(discriminate)) as (k & Hk1 & Hk2 & ->).
      cbn [bind]. rewrite zlen_ztake_le by lia. destruct (Z.ltb_spec 0 k); [|lia].
      assert (ES : resp ++ b = (resp ++ ztake k b) ++ zdrop k b) by now rewrite <- app_assoc, ztake_zdrop.
      assert (EL : zlen (resp ++ ztake k b) = zlen resp + k) by (rewrite zlen_app, (zlen_ztake_le k b); lia).
      specialize (IH (resp ++ ztake k b)
        (if TCP_HDR_LEN + TCP_RESP_MIN_LEN <=? zlen (resp ++ ztake k b)
         then be_int (slice 4 6 (resp ++ ztake k b)) - (zlen (resp ++ ztake k b) - TCP_HDR_LEN) else r - k)
        (zdrop k b) (tl sched)).
      rewrite <- ES in IH. apply IH; clear IH.
      * pose proof (zlen_zdrop k b ltac:(lia)) as HZ. unfold zlen in HZ, Hk2. lia.
      * change (TCP_HDR_LEN + TCP_RESP_MIN_LEN) with 9. change TCP_HDR_LEN with 6.
        destruct (Z.leb_spec 9 (zlen (resp ++ ztake k b))); [reflexivity|].
        destruct (Z.leb_spec 9 (zlen resp)); lia.
      * intros H9. destruct (Z.leb_spec 9 (zlen resp)) as [Hr9|Hr9].
        -- unfold tcp_frame_len in *. rewrite hdr_slice_app by assumption. lia.
        -- unfold tcp_frame_len. lia.
  - destruct (Z.leb_spec 9 (zlen resp)) as [Hr9|Hr9]; [|lia].
    assert (EF : tcp_frame_len (resp ++ b) = zlen resp).
    { unfold tcp_frame_len in *. rewrite hdr_slice_app by assumption. specialize (Hle Hr9). lia. }
    split.
    + intros _. exists sched. rewrite EF. rewrite ztake_app_exact, zdrop_app_exact by reflexivity. reflexivity.
    + intros H. exfalso. apply H. unfold tcp_complete. rewrite EF, zlen_app. pose proof (zlen_nonneg b). lia.
Qed.

Lemma tcp_receive_spec D (st : tcp (D := D)) closed b sched e :
  (tcp_complete b -> tcp_receive closed (mkWire b sched e) st
     = ((SConn (zdrop (tcp_frame_len b) b), snd st), Ok (ztake (tcp_frame_len b) b))) /\
  (~ tcp_complete b -> tcp_receive closed (mkWire b sched e) st = ((SConn [], snd st), Raise (tcp_starved closed e))).
Proof.
  destruct (tcp_recv_spec (tcp_fuel (mkWire b sched e)) closed [] 9 b sched e) as [H1 H2].
  { unfold tcp_fuel. cbn [w_bytes]. lia. } { reflexivity. } { rewrite zlen_nil. lia. }
  cbn [app] in *. unfold tcp_receive. change (TCP_HDR_LEN + TCP_RESP_MIN_LEN) with 9. split; intros H.
  - destruct (H1 H) as [s' ->]. reflexivity.
  - rewrite (H2 H). reflexivity.
Qed.
Lemma tcp_complete_dec b : tcp_complete b \/ ~ tcp_complete b.
Proof. unfold tcp_complete. lia. Qed.
Lemma tcp_receive_sched D (st : tcp (D := D)) closed b s1 s2 e :
  tcp_receive closed (mkWire b s1 e) st = tcp_receive closed (mkWire b s2 e) st.
Proof.
  destruct (tcp_receive_spec D st closed b s1 e) as [A1 A2], (tcp_receive_spec D st closed b s2 e) as [B1 B2].
  destruct (tcp_complete_dec b) as [H|H]; [now rewrite A1, B1|now rewrite A2, B2].
Qed.

(** ** C31: segmentation *)
Definition tcp_same_stream (w1 w2 : option wire) : Prop :=
  match w1, w2 with
  | Some a, Some b => w_bytes a = w_bytes b /\ w_end a = w_end b
  | None, None => True
  | _, _ => False
  end.
Definition tcp_same_streams {D} (s1 s2 : server D) : Prop :=
  (forall d, srv_connect s1 d = srv_connect s2 d) /\
  forall d req, fst (srv_send s1 d req) = fst (srv_send s2 d req) /\
                tcp_same_stream (snd (srv_send s1 d req)) (snd (srv_send s2 d req)).
Section Same.
  Context {D : Type}.
  Variables (s1 s2 : server D).
  Hypothesis HS : tcp_same_streams s1 s2.
  Lemma tcp_exchange_same closed req (st : tcp (D := D)) :
    match tcp_send s1 req st with
    | (st1, Raise e) => (st1, Raise e)
    | (st1, Ok w) => tcp_receive closed w st1
    end =
    match tcp_send s2 req st with
    | (st1, Raise e) => (st1, Raise e)
    | (st1, Ok w) => tcp_receive closed w st1
    end.
  Proof.
    unfold tcp_send. destruct st as [k d]. cbn [fst snd]. destruct k as [| |p]; try reflexivity.
    destruct (proj2 HS d req) as [E1 E2].
    destruct (srv_send s1 d req) as [d1 [w1|]], (srv_send s2 d req) as [d2 [w2|]];
      cbn [fst snd tcp_same_stream] in *; try contradiction; subst; [|reflexivity].
    destruct E2 as [-> ->]. apply tcp_receive_sched.
  Qed.
  Lemma tcp_read1_same slave trace addr count op st :
    tcp_read1 s1 slave trace addr count op st = tcp_read1 s2 slave trace addr count op st.
  Proof.
    unfold tcp_read1. destruct (tcp_read_req slave op addr count) as [req|]; [|reflexivity].
    destruct trace; [reflexivity|]. pose proof (tcp_exchange_same EModbusClient req st) as H.
    destruct (tcp_send s1 req st) as [x1 [w1|]], (tcp_send s2 req st) as [x2 [w2|]]; rewrite ?H; auto.
    rewrite <- H. reflexivity.
  Qed.
  Lemma tcp_write1_same slave trace addr data st :
    tcp_write1 s1 slave trace addr data st = tcp_write1 s2 slave trace addr data st.
  Proof.
    unfold tcp_write1. destruct (tcp_write_req slave addr data) as [req|]; [|reflexivity].
    destruct trace; [reflexivity|]. pose proof (tcp_exchange_same EModbusTimeout req st) as H.
    destruct (tcp_send s1 req st) as [x1 [w1|]], (tcp_send s2 req st) as [x2 [w2|]]; rewrite ?H; auto.
    - rewrite <- H. reflexivity.
    - injection H as -> ->. reflexivity.
  Qed.
  Lemma with_connection_same {A} (b1 b2 : tcp -> tcp * res A) st :
    (forall st, b1 st = b2 st) -> with_connection s1 b1 st = with_connection s2 b2 st.
  Proof.
    intros HB. unfold with_connection, tcp_connect. rewrite (proj1 HS).
    destruct (fst st); auto. destruct (srv_connect s2 (snd st)) as [d []]; [|reflexivity]. now rewrite HB.
  Qed.
  Lemma tcp_read_same slave max_count trace addr count op st :
    tcp_read s1 slave max_count trace addr count op st = tcp_read s2 slave max_count trace addr count op st.
  Proof.
    unfold tcp_read. apply with_connection_same. generalize (S (Z.to_nat count)) as fuel. generalize 0 as off.
    generalize (@nil Z) as resp. intros resp off fuel. revert count resp off.
    induction fuel as [|fuel IH]; intros; [reflexivity|]. cbn [tcp_read_loop]. rewrite tcp_read1_same.
    destruct (0 <? count); [|reflexivity]. destruct (tcp_read1 _ _ _ _ _ _ _) as [st' [[|]|]]; auto.
  Qed.
  Lemma tcp_write_same slave max_count trace addr data st :
    tcp_write s1 slave max_count trace addr data st = tcp_write s2 slave max_count trace addr data st.
  Proof.
    unfold tcp_write. apply with_connection_same. generalize (S (length data)) as fuel. generalize (zlen data) as count.
    generalize 0 as off. generalize (@None (Z * Z)) as bnd. intros bnd off count fuel. revert count off bnd.
    induction fuel as [|fuel IH]; intros; [reflexivity|]. cbn [tcp_write_loop].
    destruct (0 <? count); [|reflexivity]. destruct (2 * max_count <? count).
    - destruct bnd as [[a b]|]; [|reflexivity]. rewrite tcp_write1_same.
      destruct (tcp_write1 _ _ _ _ _ _) as [st' []]; auto.
    - rewrite tcp_write1_same. destruct (tcp_write1 _ _ _ _ _ _) as [st' []]; auto.
  Qed.
End Same.

(** ** C32: conforming server *)
Lemma mbap_len body : zlen (mbap body) = 6 + zlen body.
Proof. unfold mbap. rewrite !zlen_app. change (zlen [0;0;0;0]) with 4. change (zlen (word (zlen body))) with 2. lia. Qed.
Lemma mbap_hdr body extra : slice 4 6 (mbap body ++ extra) = word (zlen body).
Proof. reflexivity. Qed.
Lemma mbap_drop body : zdrop 6 (mbap body) = body.
Proof. reflexivity. Qed.
Lemma tcp_read_req_ok slave op addr count : read_args_ok slave op addr count ->
  tcp_read_req slave op addr count = Ok (tcp_read_frame slave op addr count).
Proof.
  intros (Hs & Ho & Ha & Hc). unfold tcp_read_req.
  rewrite (pack_byte slave), (pack_byte op), (pack_word addr), (pack_word count) by assumption. reflexivity.
Qed.
Lemma tcp_read_req_bad slave op addr count : ~ read_args_ok slave op addr count ->
  tcp_read_req slave op addr count = Raise EStruct.
Proof.
  intros H. unfold tcp_read_req.
  destruct (byte_dec slave) as [Hs|Hs]; [rewrite (pack_byte slave) by assumption|now rewrite (pack_byte_bad slave)]. cbn [bind].
  destruct (byte_dec op) as [Ho|Ho]; [rewrite (pack_byte op) by assumption|now rewrite (pack_byte_bad op)]. cbn [bind].
  destruct (word_dec addr) as [Ha|Ha]; [rewrite (pack_word addr) by assumption|now rewrite (pack_word_bad addr)]. cbn [bind].
  destruct (word_dec count) as [Hc|Hc]; [|now rewrite (pack_word_bad count)].
  exfalso. apply H. unfold read_args_ok, is_byte in *. lia.
Qed.
Lemma tcp_write_req_ok slave addr data : write_args_ok slave addr data ->
  tcp_write_req slave addr data = Ok (tcp_write_frame slave addr data).
Proof.
  intros (Hs & Ha & Hl). unfold tcp_write_req. pose proof (zlen_nonneg data).
  assert (0 <= zlen data / 2 < 65536) by (split; [apply Z.div_pos; lia|apply Z.div_lt_upper_bound; lia]).
  change TCP_WRITE_MULT_REQ_LEN with 7.
  rewrite (pack_word (7 + zlen data)), (pack_byte slave), (pack_byte FUNC_WRITE_MULTIPLE), (pack_word addr),
    (pack_word (zlen data / 2)), (pack_byte (zlen data)) by (auto; unfold is_byte, FUNC_WRITE_MULTIPLE; lia).
  cbn [bind]. unfold tcp_write_frame, mbap. rewrite <- !app_assoc. f_equal.
  replace (zlen ([slave; 16] ++ word addr ++ word (zlen data / 2) ++ [zlen data] ++ data)) with (7 + zlen data).
  - reflexivity.
  - rewrite !zlen_app. change (zlen [slave; 16]) with 2. change (zlen (word addr)) with 2.
    change (zlen (word (zlen data / 2))) with 2. change (zlen [zlen data]) with 1. lia.
Qed.

Lemma tcp_reply_complete body : 3 <= zlen body < 65536 ->
  tcp_complete (mbap body) /\ tcp_frame_len (mbap body) = 6 + zlen body /\ zlen (mbap body) = 6 + zlen body.
Proof.
  intros H. pose proof (mbap_len body) as EL. unfold tcp_complete, tcp_frame_len.
  pose proof (mbap_hdr body []) as EH. rewrite app_nil_r in EH. rewrite EH, be_int_word. lia.
Qed.
Lemma tcp_exception_none body op s rest : body = s :: op :: rest -> 0 <= op < 128 -> tcp_exception (mbap body) = None.
Proof.
  intros -> Ho. unfold tcp_exception, mbap. change (TCP_HDR_LEN + 1) with 7.
  change (znth 7 _) with op.
  replace (Z.land op 128) with 0; [reflexivity|]. symmetry.
  apply Z.bits_inj'. intros n Hn. rewrite Z.land_spec, Z.bits_0. change 128 with (2 ^ 7).
  destruct (Z.eq_dec n 7) as [->|].
  - replace (Z.testbit op 7) with false; [reflexivity|].
    destruct (Z.eq_dec op 0) as [->|]; [reflexivity|]. symmetry. apply Z.bits_above_log2; [lia|].
    apply Z.log2_lt_pow2; lia.
  - rewrite Z.pow2_bits_false by lia. apply andb_false_r.
Qed.

Section ReadConforming.
  Context {D : Type}.
  Variables (srv : server D) (mem : D -> memory) (slave op : Z).
  Hypothesis Hserve : tcp_serves_reads srv mem slave op.
  Hypothesis Hslave : is_byte slave.
  Hypothesis Hop : 0 <= op < 128.

  Lemma tcp_read1_conforming s lg addr count :
    1 <= count <= 125 -> 0 <= addr -> addr + count <= 65536 ->
    exists s', tcp_read1 (tcp_logged srv) slave false addr count op (SConn [], (s, lg))
      = ((SConn [], (s', lg ++ [tcp_read_frame slave op addr count])), Ok (regs (mem s) addr (Z.to_nat count))) /\
      (forall a, mem s' a = mem s a).
  Proof.
    intros Hc Ha Hac. unfold tcp_read1.
    rewrite tcp_read_req_ok by (unfold read_args_ok, is_byte in *; lia).
    unfold tcp_send, tcp_logged. cbn [fst snd srv_send].
    destruct (Hserve s addr count Hc Ha Hac) as (s' & sched & fin & -> & Hm). exists s'. split; [|exact Hm].
    cbn [w_bytes w_sched w_end app].
    set (body := [slave; op; 2 * count] ++ regs (mem s) addr (Z.to_nat count)).
    assert (EB : zlen body = 3 + 2 * count).
    { unfold body. rewrite zlen_app, regs_len. change (zlen [slave; op; 2 * count]) with 3. lia. }
    change (tcp_read_reply slave op (mem s) addr count) with (mbap body).
    destruct (tcp_reply_complete body ltac:(lia)) as (HC & EF & EL).
    rewrite (proj1 (tcp_receive_spec _ _ _ _ _ _) HC). cbn [snd].
    rewrite EF. rewrite ztake_all by lia. rewrite zdrop_all by lia.
    rewrite (tcp_exception_none body op slave (2 * count :: regs (mem s) addr (Z.to_nat count)) eq_refl Hop).
    reflexivity.
  Qed.

  Lemma tcp_read_loop_conforming fuel max_count : 1 <= max_count <= 125 ->
    forall count addr off resp s lg,
    (Z.to_nat count < fuel)%nat -> 0 <= count -> 0 <= addr + off -> addr + off + count <= 65536 ->
    exists s' reqs, tcp_read_loop (tcp_logged srv) slave max_count false fuel addr count op off resp (SConn [], (s, lg))
        = ((SConn [], (s', lg ++ map (fun r => tcp_read_frame slave op (fst r) (snd r)) reqs)),
           Ok (resp ++ regs (mem s) (addr + off) (Z.to_nat count))) /\
      covers max_count (addr + off) count reqs /\ (forall a, mem s' a = mem s a).
  Proof.
    intros Hmax. induction fuel as [|fuel IH]; intros count addr off resp s lg Hf Hc Ha Hac; [lia|].
    cbn [tcp_read_loop]. destruct (Z.ltb_spec 0 count) as [Hpos|Hz].
    - set (rc := if max_count <? count then max_count else count).
      assert (Hrc : 1 <= rc <= max_count /\ rc <= count) by (unfold rc; destruct (Z.ltb_spec max_count count); lia).
      destruct (tcp_read1_conforming s lg (addr + off) rc ltac:(lia) ltac:(lia) ltac:(lia)) as (s1 & -> & Hm1).
      destruct (regs (mem s) (addr + off) (Z.to_nat rc)) as [|b0 br] eqn:ER.
      { pose proof (f_equal zlen ER) as EL. rewrite regs_len, zlen_nil in EL. lia. }
      rewrite <- ER in *. clear ER b0 br.
      destruct (IH (count - rc) addr (off + rc) (resp ++ regs (mem s) (addr + off) (Z.to_nat rc)) s1
                  (lg ++ [tcp_read_frame slave op (addr + off) rc]) ltac:(lia) ltac:(lia) ltac:(lia) ltac:(lia))
        as (s' & reqs & -> & Hcov & Hm).
      exists s', ((addr + off, rc) :: reqs). split; [|split].
      + f_equal.
        * do 2 f_equal. cbn [map fst snd]. now rewrite <- app_assoc.
        * f_equal. rewrite <- app_assoc. f_equal.
          rewrite (regs_ext (mem s1) (mem s)) by exact Hm1.
          replace (Z.to_nat count) with (Z.to_nat rc + Z.to_nat (count - rc))%nat by lia.
          rewrite regs_app. do 2 f_equal. lia.
      + replace count with (rc + (count - rc)) by lia. constructor; [lia|lia|].
        replace (addr + off + rc) with (addr + (off + rc)) by lia. exact Hcov.
      + intros a. rewrite Hm. apply Hm1.
    - assert (count = 0) as -> by lia. exists s, []. split; [|split; [constructor|reflexivity]].
      cbn [map regs Z.to_nat]. now rewrite !app_nil_r.
  Qed.
End ReadConforming.

(** ** C33: one request's worth of data *)
Section WriteConforming.
  Context {D : Type}.
  Variables (srv : server D) (mem : D -> memory) (slave lim : Z).
  Hypothesis Hserve : tcp_serves_writes srv mem slave lim.
  Hypothesis Hslave : is_byte slave.
  Hypothesis Hlim : lim <= 127.
  Lemma tcp_write1_conforming s lg addr data :
    Forall is_byte data -> zlen data mod 2 = 0 -> 1 <= zlen data / 2 <= lim -> 0 <= addr -> addr + zlen data / 2 <= 65536 ->
    exists s', tcp_write1 (tcp_logged srv) slave false addr data (SConn [], (s, lg))
      = ((SConn [], (s', lg ++ [tcp_write_frame slave addr data])), Ok tt) /\
      (forall a, mem s' a = store (mem s) addr data a).
  Proof.
    intros HD HE Hc Ha Hac. unfold tcp_write1.
    assert (zlen data = 2 * (zlen data / 2)) by (rewrite (Z.div_mod (zlen data) 2) at 1 by lia; lia).
    rewrite tcp_write_req_ok by (unfold write_args_ok, is_byte in *; lia).
    unfold tcp_send, tcp_logged. cbn [fst snd srv_send].
    destruct (Hserve s addr data HD HE Hc Ha Hac) as (s' & sched & fin & -> & Hm). exists s'. split; [|exact Hm].
    cbn [w_bytes w_sched w_end app].
    set (body := [slave; 16] ++ word addr ++ word (zlen data / 2)).
    assert (EB : zlen body = 6) by reflexivity.
    change (tcp_write_reply slave addr (zlen data / 2)) with (mbap body).
    destruct (tcp_reply_complete body ltac:(lia)) as (HC & EF & EL).
    rewrite (proj1 (tcp_receive_spec _ _ _ _ _ _) HC). cbn [snd].
    rewrite EF. rewrite ztake_all by lia. rewrite zdrop_all by lia.
    rewrite (tcp_exception_none body 16 slave (word addr ++ word (zlen data / 2)) eq_refl) by lia.
    reflexivity.
  Qed.
End WriteConforming.
Lemma tcp_write_too_long {D} (srv : server D) slave max_count trace addr data fuel off st :
  2 * max_count < zlen data -> 0 < zlen data ->
  tcp_write_loop srv slave max_count trace (S fuel) addr (zlen data) off None data st = (st, Raise EUnbound).
Proof.
  intros H H0. cbn [tcp_write_loop]. destruct (Z.ltb_spec 0 (zlen data)); [|lia].
  destruct (Z.ltb_spec (2 * max_count) (zlen data)); [reflexivity|lia].
Qed.

(** ** C34-C37 *)
Section Connection.
  Context {D : Type}.
  Variables (srv : server D) (slave max_count : Z) (trace : bool).

  Lemma tcp_send_conn req p d : exists d' r, tcp_send srv req (SConn p, d) = ((SConn p, d'), r) /\
    (forall e, r = Raise e -> e = EModbusClient).
  Proof.
    unfold tcp_send. cbn [fst snd]. destruct (srv_send srv d req) as [d' [w|]]; eexists _, _; split; try reflexivity; congruence.
  Qed.
  Lemma tcp_receive_conn closed w (st : tcp (D := D)) : exists p r, tcp_receive closed w st = ((SConn p, snd st), r) /\
    (forall e, r = Raise e -> e = tcp_starved closed (w_end w)).
  Proof.
    destruct w as [b sched e]. destruct (tcp_receive_spec D st closed b sched e) as [H1 H2].
    destruct (tcp_complete_dec b) as [H|H].
    - rewrite (H1 H). eexists _, _. split; [reflexivity|congruence].
    - rewrite (H2 H). eexists _, _. split; [reflexivity|]. cbn. congruence.
  Qed.
  Lemma tcp_read1_conn addr count op p d st r : tcp_read1 srv slave trace addr count op (SConn p, d) = (st, r) ->
    connected (fst st) = true.
  Proof.
    unfold tcp_read1. destruct (tcp_read_req slave op addr count) as [req|]; [|intros [= <- <-]; reflexivity].
    destruct trace; [intros [= <- <-]; reflexivity|].
    destruct (tcp_send_conn req p d) as (d' & r1 & -> & _). destruct r1 as [w|]; [|intros [= <- <-]; reflexivity].
    destruct (tcp_receive_conn EModbusClient w (SConn p, d')) as (p2 & r2 & -> & _).
    destruct r2 as [resp|]; [|intros [= <- <-]; reflexivity].
    destruct (tcp_exception resp); intros [= <- <-]; reflexivity.
  Qed.
  Lemma tcp_write1_conn addr data p d st r : tcp_write1 srv slave trace addr data (SConn p, d) = (st, r) ->
    connected (fst st) = true.
  Proof.
    unfold tcp_write1. destruct (tcp_write_req slave addr data) as [req|]; [|intros [= <- <-]; reflexivity].
    destruct trace; [intros [= <- <-]; reflexivity|].
    destruct (tcp_send_conn req p d) as (d' & r1 & -> & _). destruct r1 as [w|]; [|intros [= <- <-]; reflexivity].
    destruct (tcp_receive_conn EModbusTimeout w (SConn p, d')) as (p2 & r2 & -> & _).
    destruct r2 as [resp|]; [|intros [= <- <-]; reflexivity].
    destruct (tcp_exception resp); intros [= <- <-]; reflexivity.
  Qed.
  Lemma connected_inv k : connected k = true -> exists p, k = SConn p.
  Proof. destruct k; try discriminate. eauto. Qed.
  Lemma tcp_read_loop_conn fuel addr op : forall count off resp st st' r, connected (fst st) = true ->
    tcp_read_loop srv slave max_count trace fuel addr count op off resp st = (st', r) -> connected (fst st') = true.
  Proof.
    induction fuel as [|fuel IH]; intros count off resp [k d] st' r Hk H; cbn [tcp_read_loop] in H.
    { injection H as <- <-. exact Hk. }
    destruct (0 <? count); [|injection H as <- <-; exact Hk].
    destruct (connected_inv _ Hk) as [p Ep]. cbn in Ep. subst k.
    destruct (tcp_read1 srv slave trace (addr + off) (if max_count <? count then max_count else count) op (SConn p, d))
      as [st1 r1] eqn:E1.
    apply tcp_read1_conn in E1. destruct r1 as [[|x l]|e]; try (injection H as <- <-; exact E1).
    eapply IH; [exact E1|exact H].
  Qed.
  Lemma tcp_write_loop_conn fuel addr data : forall count off bnd st st' r, connected (fst st) = true ->
    tcp_write_loop srv slave max_count trace fuel addr count off bnd data st = (st', r) -> connected (fst st') = true.
  Proof.
    induction fuel as [|fuel IH]; intros count off bnd [k d] st' r Hk H; cbn [tcp_write_loop] in H.
    { injection H as <- <-. exact Hk. }
    destruct (0 <? count); [|injection H as <- <-; exact Hk].
    destruct (connected_inv _ Hk) as [p Ep]. cbn in Ep. subst k.
    destruct (2 * max_count <? count).
    - destruct bnd as [[a b]|]; [|injection H as <- <-; exact Hk].
      destruct (tcp_write1 srv slave trace (addr + off) (slice a b data) (SConn p, d)) as [st1 r1] eqn:E1.
      apply tcp_write1_conn in E1. destruct r1; [eapply IH; [exact E1|exact H]|injection H as <- <-; exact E1].
    - destruct (tcp_write1 srv slave trace _ _ (SConn p, d)) as [st1 r1] eqn:E1.
      apply tcp_write1_conn in E1. destruct r1; [eapply IH; [exact E1|exact H]|injection H as <- <-; exact E1].
  Qed.

  (** a socket whose connection attempt failed never reaches the server again *)
  Lemma tcp_read1_dead addr count op d : exists e, tcp_read1 srv slave trace addr count op (SDead, d) = ((SDead, d), Raise e).
  Proof.
    unfold tcp_read1. destruct (tcp_read_req slave op addr count) as [req|e]; [|eauto].
    destruct trace; [eauto|]. cbn. eauto.
  Qed.
  Lemma tcp_write1_dead addr data d : exists e, tcp_write1 srv slave trace addr data (SDead, d) = ((SDead, d), Raise e).
  Proof.
    unfold tcp_write1. destruct (tcp_write_req slave addr data) as [req|e]; [|eauto].
    destruct trace; [eauto|]. cbn. eauto.
  Qed.
  Lemma tcp_read_dead addr count op d : 0 < count ->
    exists e, tcp_read srv slave max_count trace addr count op (SDead, d) = ((SDead, d), Raise e).
  Proof.
    intros Hc. unfold tcp_read, with_connection. cbn [fst tcp_read_loop].
    destruct (Z.ltb_spec 0 count); [|lia].
    destruct (tcp_read1_dead (addr + 0) (if max_count <? count then max_count else count) op d) as [e ->]. eauto.
  Qed.
  Lemma tcp_write_dead addr data d : 0 < zlen data ->
    exists e, tcp_write srv slave max_count trace addr data (SDead, d) = ((SDead, d), Raise e).
  Proof.
    intros Hc. unfold tcp_write, with_connection. cbn [fst tcp_write_loop].
    destruct (Z.ltb_spec 0 (zlen data)); [|lia].
    destruct (2 * max_count <? zlen data); [eauto|].
    match goal with |- context [tcp_write1 _ _ _ ?a ?b _] => destruct (tcp_write1_dead a b d) as [e ->] end. eauto.
  Qed.
  Lemma tcp_read_dead_sock addr count op d st r :
    tcp_read srv slave max_count trace addr count op (SDead, d) = (st, r) -> st = (SDead, d).
  Proof.
    destruct (Z_lt_le_dec 0 count).
    - destruct (tcp_read_dead addr count op d l) as [e ->]. congruence.
    - unfold tcp_read, with_connection. cbn [fst tcp_read_loop]. destruct (Z.ltb_spec 0 count); [lia|]. congruence.
  Qed.
  Lemma tcp_write_dead_sock addr data d st r :
    tcp_write srv slave max_count trace addr data (SDead, d) = (st, r) -> st = (SDead, d).
  Proof.
    destruct (Z_lt_le_dec 0 (zlen data)).
    - destruct (tcp_write_dead addr data d l) as [e ->]. congruence.
    - unfold tcp_write, with_connection. cbn [fst tcp_write_loop]. destruct (Z.ltb_spec 0 (zlen data)); [lia|]. congruence.
  Qed.

  (** the connection state after a request *)
  Lemma tcp_read_sock addr count op st st' r :
    tcp_read srv slave max_count trace addr count op st = (st', r) ->
    match fst st with
    | SNone => fst st' = SNone \/ (fst st' = SDead /\ r = Raise EModbusClient /\ snd (srv_connect srv (snd st)) = false)
    | SDead => fst st' = SDead
    | SConn _ => connected (fst st') = true
    end.
  Proof.
    destruct st as [[| |p] d]; cbn [fst snd]; intros H.
    - unfold tcp_read, with_connection, tcp_connect in H. cbn [fst snd] in H.
      destruct (srv_connect srv d) as [d' []] eqn:E.
      + left. destruct (tcp_read_loop _ _ _ _ _ _ _ _ _ _ _) as [st2 r2]. injection H as <- <-. reflexivity.
      + right. injection H as <- <-. auto.
    - apply tcp_read_dead_sock in H. now subst.
    - unfold tcp_read, with_connection in H. cbn [fst] in H. eapply tcp_read_loop_conn in H; auto.
  Qed.
  Lemma tcp_write_sock addr data st st' r :
    tcp_write srv slave max_count trace addr data st = (st', r) ->
    match fst st with
    | SNone => fst st' = SNone \/ (fst st' = SDead /\ r = Raise EModbusClient /\ snd (srv_connect srv (snd st)) = false)
    | SDead => fst st' = SDead
    | SConn _ => connected (fst st') = true
    end.
  Proof.
    destruct st as [[| |p] d]; cbn [fst snd]; intros H.
    - unfold tcp_write, with_connection, tcp_connect in H. cbn [fst snd] in H.
      destruct (srv_connect srv d) as [d' []] eqn:E.
      + left. destruct (tcp_write_loop _ _ _ _ _ _ _ _ _ _ _) as [st2 r2]. injection H as <- <-. reflexivity.
      + right. injection H as <- <-. auto.
    - apply tcp_write_dead_sock in H. now subst.
    - unfold tcp_write, with_connection in H. cbn [fst] in H. eapply tcp_write_loop_conn in H; auto.
  Qed.

  (** errors of one exchange when arguments fit and no trace function is set *)
  Lemma tcp_read1_errors addr count op st st' e :
    (forall d req d' w, srv_send srv d req = (d', Some w) -> w_end w = WEmpty) ->
    read_args_ok slave op addr count -> trace = false ->
    tcp_read1 srv slave trace addr count op st = (st', Raise e) -> is_modbus_client_error e = true.
  Proof.
    intros HE HA HT H. unfold tcp_read1 in H. rewrite tcp_read_req_ok in H by exact HA. rewrite HT in H.
    destruct st as [k d]. unfold tcp_send in H. cbn [fst snd] in H.
    destruct k as [| |p]; try (injection H as <- <-; reflexivity).
    destruct (srv_send srv d _) as [d' [w|]] eqn:E; [|injection H as <- <-; reflexivity].
    apply HE in E.
    destruct (tcp_receive_conn EModbusClient (mkWire (p ++ w_bytes w) (w_sched w) (w_end w)) (SConn p, d')) as (p2 & r2 & E2 & HR).
    rewrite E2 in H. destruct r2 as [resp|e2].
    - unfold tcp_exception, exc_raise in H.
      destruct (Z.land _ 128 =? 0); [discriminate|]. destruct (_ =? 0); [discriminate|]. injection H as <- <-. reflexivity.
    - injection H as <- <-. rewrite (HR e2 eq_refl). cbn [w_end]. rewrite E. reflexivity.
  Qed.
  Lemma tcp_write1_errors addr data st st' e :
    (forall d req d' w, srv_send srv d req = (d', Some w) -> w_end w = WEmpty) ->
    write_args_ok slave addr data -> trace = false ->
    tcp_write1 srv slave trace addr data st = (st', Raise e) -> is_modbus_client_error e = true.
  Proof.
    intros HE HA HT H. unfold tcp_write1 in H. rewrite tcp_write_req_ok in H by exact HA. rewrite HT in H.
    destruct st as [k d]. unfold tcp_send in H. cbn [fst snd] in H.
    destruct k as [| |p]; try (injection H as <- <-; reflexivity).
    destruct (srv_send srv d _) as [d' [w|]] eqn:E; [|injection H as <- <-; reflexivity].
    apply HE in E.
    destruct (tcp_receive_conn EModbusTimeout (mkWire (p ++ w_bytes w) (w_sched w) (w_end w)) (SConn p, d')) as (p2 & r2 & E2 & HR).
    rewrite E2 in H. destruct r2 as [resp|e2].
    - unfold tcp_exception, exc_raise in H.
      destruct (Z.land _ 128 =? 0); [discriminate|]. destruct (_ =? 0); [discriminate|]. injection H as <- <-. reflexivity.
    - injection H as <- <-. rewrite (HR e2 eq_refl). cbn [w_end]. rewrite E. reflexivity.
  Qed.
  Lemma tcp_read_loop_errors fuel addr op :
    (forall d req d' w, srv_send srv d req = (d', Some w) -> w_end w = WEmpty) -> trace = false ->
    is_byte slave -> is_byte op -> 0 < max_count ->
    forall count off resp st st' e, 0 <= addr + off -> addr + off + count <= 65536 -> count < 65536 ->
    (Z.to_nat count < fuel)%nat ->
    tcp_read_loop srv slave max_count trace fuel addr count op off resp st = (st', Raise e) ->
    is_modbus_client_error e = true.
  Proof.
    intros HE HT Hs Ho Hm. induction fuel as [|fuel IH]; intros count off resp st st' e H1 H2 H2' HF H; [lia|].
    cbn [tcp_read_loop] in H. destruct (Z.ltb_spec 0 count); [|discriminate].
    set (rc := if max_count <? count then max_count else count) in *.
    assert (Hrc : 1 <= rc <= max_count /\ rc <= count) by (unfold rc; destruct (Z.ltb_spec max_count count); lia).
    destruct (tcp_read1 srv slave trace (addr + off) rc op st) as [st1 [[|x l]|e1]] eqn:E1; [discriminate| |].
    - eapply IH in H; eauto; lia.
    - injection H as <- <-. eapply tcp_read1_errors in E1; eauto. unfold read_args_ok, is_byte in *. lia.
  Qed.
End Connection.
