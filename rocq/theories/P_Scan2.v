(** * P_Scan2: scanning ends (C49), and does not write (C72). *)
From Coq Require Import ZifyBool String.
From Verif Require Import Py P_List M_Util M_Suns M_Mbmap M_Device P_Device M_Client S_Client M_Wire S_Modbus M_Rtu P_Rtu M_Tcp S_Tcp P_Tcp M_Scan S_Scan P_Scan.

Lemma u16_two d x : Forall is_byte d -> data_to_u16 d = Ok x -> 0 <= x <= 65535.
Proof.
  intros HB H. unfold data_to_u16, unpack_int in H. destruct (Nat.eqb_spec (List.length d) 2) as [E|]; [|discriminate].
  destruct d as [|a [|b [|]]]; try discriminate. cbn [andb] in H. apply Ok_inj in H. subst x.
  inversion HB as [|? ? H1 HB']; subst. inversion HB' as [|? ? H2 _]; subst. unfold be_int, is_byte in *. cbn [fold_left]. lia.
Qed.
Lemma u16_err d e : data_to_u16 d = Raise e -> e = EStruct.
Proof. unfold data_to_u16, unpack_int. destruct (_ =? _)%nat; congruence. Qed.
Lemma wrap_fuel e : wrap_modbus e = EFuel -> e = EFuel.
Proof. unfold wrap_modbus. destruct (is_modbus_client_error e); congruence. Qed.

Section Ends.
  Context {D : Type} (c : sclient D) (inv : D -> Prop) (lfuel : nat) (types : Z -> res modeltype) (progress : option (list Z -> bool)).
  Hypothesis HW : well_behaved (scl_dev c) inv.
  Hypothesis HL : forall id addr len, 0 <= id <= 65535 -> 0 <= addr <= 65536 -> 0 <= len <= 65535 ->
    snd (model_load lfuel types (new_model id addr len)) <> Raise EFuel.

  Lemma cl_read_wb s a n s' r : inv s -> cl_read (scl_dev c) s a n = (s', r) ->
    inv s' /\ r <> Raise EFuel /\ (forall d, r = Ok (Some d) -> Forall is_byte d) /\ (65535 < a -> 0 < n -> exists e, r = Raise e).
  Proof.
    intros HI. unfold cl_read. destruct (dv_read (scl_dev c) s a n) as [s1 r1] eqn:E. apply HW in E; [|exact HI].
    destruct E as (E1 & E2 & E3 & E4). destruct r1 as [o|x]; intros H; apply pair_equal_spec in H as [<- <-].
    - auto.
    - split; [exact E1|]. split; [|split; [discriminate|eauto]]. intros H. assert (x = EFuel) by (apply wrap_fuel; congruence). congruence.
  Qed.
  Lemma scan_loop_ends fuel : forall s id addr hist models s' ms r,
    inv s -> 0 <= id <= 65535 -> 0 <= addr -> 1 <= Z.of_nat fuel -> 65537 < Z.of_nat fuel + addr ->
    scan_loop c lfuel types progress fuel s id addr hist models = (s', ms, r) -> r <> Raise EFuel /\ inv s'.
  Proof.
    induction fuel as [|fuel IH]; intros s id addr hist models s' ms r HI Hid Ha Hf1 Hf2 H; [lia|].
    cbn [scan_loop] in H. destruct (id =? END_MODEL_ID).
    { apply pair_equal_spec in H as [H <-]. apply pair_equal_spec in H as [<- _]. split; [discriminate|exact HI]. }
    destruct (cl_read (scl_dev c) s (addr + 1) 1) as [s1 r1] eqn:E1. apply cl_read_wb in E1; [|exact HI]. destruct E1 as (I1 & N1 & B1 & A1).
    destruct r1 as [o|x].
    2:{ apply pair_equal_spec in H as [H <-]. apply pair_equal_spec in H as [<- _]. split; [intros [= ->]; congruence|exact I1]. }
    assert (HA : addr + 1 <= 65535). { destruct (Z_le_gt_dec (addr + 1) 65535); [assumption|]. destruct (A1 ltac:(lia) ltac:(lia)); discriminate. }
    destruct (two_bytes o) as [d|] eqn:ED.
    2:{ apply pair_equal_spec in H as [H <-]. apply pair_equal_spec in H as [<- _]. split; [discriminate|exact I1]. }
    assert (HB : Forall is_byte d). { destruct o as [[|u [|v [|]]]|]; try discriminate. apply B1. cbn in ED. congruence. }
    destruct (match progress with Some f => negb (f (hist ++ [id])) | None => false end).
    { apply pair_equal_spec in H as [H <-]. apply pair_equal_spec in H as [<- _]. split; [discriminate|exact I1]. }
    destruct (data_to_u16 d) as [len|x] eqn:EU.
    2:{ apply pair_equal_spec in H as [H <-]. apply pair_equal_spec in H as [<- _]. apply u16_err in EU. subst x. split; [discriminate|exact I1]. }
    apply u16_two in EU; [|exact HB].
    pose proof (HL id (addr + 2) len Hid ltac:(lia) EU) as HNF.
    destruct (model_load lfuel types (new_model id (addr + 2) len)) as [m rl]. cbn [snd] in HNF.
    set (m1 := match rl with Ok _ => m | Raise e0 => with_error m e0 end) in *.
    assert (H' : (match cl_read (scl_dev c) s1 (addr + (len + 2)) 1 with
                  | (s2, Raise e) => (s2, models ++ [m1], Raise e)
                  | (s2, Ok o2) =>
                    match two_bytes o2 with
                    | None => (s2, models ++ [m1], Ok tt)
                    | Some d2 =>
                      match data_to_u16 d2 with
                      | Raise e => (s2, models ++ [m1], Raise e)
                      | Ok id' => scan_loop c lfuel types progress fuel s2 id' (addr + (len + 2)) (hist ++ [id]) (models ++ [m1])
                      end
                    end
                  end) = (s', ms, r)).
    { unfold m1. destruct rl as [u|x]; [exact H|]. destruct x; try exact H. congruence. }
    clear H. rename H' into H.
    destruct (cl_read (scl_dev c) s1 (addr + (len + 2)) 1) as [s2 r2] eqn:E2. apply cl_read_wb in E2; [|exact I1]. destruct E2 as (I2 & N2 & B2 & A2).
    destruct r2 as [o2|x].
    2:{ apply pair_equal_spec in H as [H <-]. apply pair_equal_spec in H as [<- _]. split; [intros [= ->]; congruence|exact I2]. }
    destruct (two_bytes o2) as [d2|] eqn:ED2.
    2:{ apply pair_equal_spec in H as [H <-]. apply pair_equal_spec in H as [<- _]. split; [discriminate|exact I2]. }
    assert (HB2 : Forall is_byte d2). { destruct o2 as [[|u [|v [|]]]|]; try discriminate. apply B2. cbn in ED2. congruence. }
    destruct (data_to_u16 d2) as [id'|x] eqn:EU2.
    2:{ apply pair_equal_spec in H as [H <-]. apply pair_equal_spec in H as [<- _]. apply u16_err in EU2. subst x. split; [discriminate|exact I2]. }
    apply u16_two in EU2; [|exact HB2].
    eapply IH; [exact I2|exact EU2| | | |exact H]; lia.
  Qed.
  Lemma find_base_ends l : forall s s' r, inv s -> find_base c s l = (s', r) ->
    inv s' /\ r <> Raise EFuel /\ forall a d, r = Ok (Some (a, d)) -> In a l /\ Forall is_byte d.
  Proof.
    induction l as [|a l IH]; intros s s' r HI H.
    { cbn [find_base] in H. apply pair_equal_spec in H as [<- <-]. split; [exact HI|]. split; [discriminate|]. congruence. }
    cbn [find_base] in H. destruct (cl_read (scl_dev c) s a 3) as [s1 r1] eqn:E1. apply cl_read_wb in E1; [|exact HI]. destruct E1 as (I1 & N1 & B1 & _).
    destruct r1 as [[d|]|x].
    - destruct (eqb_list (py_slice 0 4 d) SUNS).
      + apply pair_equal_spec in H as [<- <-]. split; [exact I1|]. split; [discriminate|]. intros a' d' E. apply Ok_inj, Some_inj, pair_equal_spec in E as [<- <-].
        split; [now left|now apply B1].
      + apply IH in H; [|exact I1]. destruct H as (H1 & H2 & H3). split; [exact H1|]. split; [exact H2|]. intros a' d' E. apply H3 in E as [? ?]. split; [now right|assumption].
    - apply pair_equal_spec in H as [<- <-]. split; [exact I1|]. split; congruence.
    - destruct (is_sunspec_client_error x).
      + apply IH in H; [|exact I1]. destruct H as (H1 & H2 & H3). split; [exact H1|]. split; [exact H2|]. intros a' d' E. apply H3 in E as [? ?]. split; [now right|assumption].
      + apply pair_equal_spec in H as [<- <-]. split; [exact I1|]. split; [congruence|discriminate].
  Qed.
  Lemma scan_body_ends fuel s cd s' cd' r : inv s -> 65537 < Z.of_nat fuel -> scan_body c lfuel types progress fuel s cd = (s', cd', r) -> r <> Raise EFuel.
  Proof.
    intros HI Hf H. unfold scan_body in H. destruct (cd_base cd). { apply pair_equal_spec in H as [_ <-]. discriminate. }
    destruct (find_base c s BASE_ADDRS) as [s1 r1] eqn:E1. apply find_base_ends in E1; [|exact HI]. destruct E1 as (I1 & N1 & B1).
    destruct r1 as [[[a d]|]|x].
    - destruct (B1 a d eq_refl) as [HIN HB].
      destruct (data_to_u16 (py_slice 4 6 d)) as [id|x] eqn:EU.
      2:{ apply pair_equal_spec in H as [_ <-]. apply u16_err in EU. subst x. discriminate. }
      apply u16_two in EU; [|rewrite py_slice_nonneg by lia; now apply Forall_slice].
      destruct (scan_loop c lfuel types progress fuel s1 id (a + 2) [] (cd_models cd)) as [[s2 ms] r2] eqn:E2.
      apply pair_equal_spec in H as [_ <-]. eapply scan_loop_ends in E2; [exact (proj1 E2)|exact I1|exact EU| | |]; cbn in HIN; lia.
    - apply pair_equal_spec in H as [_ <-]. discriminate.
    - apply pair_equal_spec in H as [_ <-]. intros [= ->]. congruence.
  Qed.
End Ends.

(** enough fuel for all models a device can report *)
Lemma uniform (P : nat -> Z -> Prop) lo hi : (forall k k' i, (k <= k')%nat -> P k i -> P k' i) ->
  (forall i, lo <= i <= hi -> exists k, P k i) -> exists k, forall i, lo <= i <= hi -> P k i.
Proof.
  intros HM H. assert (HN : forall n, lo + Z.of_nat n <= hi + 1 -> exists k, forall i, lo <= i < lo + Z.of_nat n -> P k i).
  { induction n as [|n IH]; intros Hn; [exists O; lia|]. destruct IH as [k1 K1]; [lia|]. destruct (H (lo + Z.of_nat n)) as [k2 K2]; [lia|].
    exists (Nat.max k1 k2). intros i Hi. destruct (Z.eq_dec i (lo + Z.of_nat n)) as [->|]; [eapply HM; [|exact K2]; lia|].
    eapply HM; [|apply K1; lia]. lia. }
  destruct (Z_le_gt_dec lo (hi + 1)) as [L|G]; [|exists O; lia].
  destruct (HN (Z.to_nat (hi + 1 - lo)) ltac:(lia)) as [k K]. exists k. intros i Hi. apply K. lia.
Qed.
Lemma base_int_fuel b : base_int b <> Raise EFuel.
Proof.
  unfold base_int, int_of_str, parse_signed. destruct b; [discriminate|]. destruct (strip_blank s) as [|c t]; [discriminate|].
  destruct (c =? 45); [destruct (parse_dec t); discriminate|]. destruct (c =? 43); [destruct (parse_dec t); discriminate|]. destruct (parse_dec (c :: t)); discriminate.
Qed.
Lemma load_ends types m : (forall id, types id <> Raise EFuel) ->
  (forall mt rb r, types (md_id m) = Ok mt -> mt_rep mt = Some rb -> base_int (bt_len rb) = Ok r -> 0 < r) ->
  exists n, forall fuel, (n <= fuel)%nat -> snd (model_load fuel types m) <> Raise EFuel.
Proof.
  intros HT HR. unfold model_load. destruct (types (md_id m)) as [mt|e] eqn:ET.
  2:{ exists O. intros. cbn [snd]. intros [= ->]. now apply (HT (md_id m)). }
  destruct (if md_len m =? 0 then mt_len mt else Some (md_len m)) as [L|]; [|exists O; discriminate].
  destruct (base_int (bt_len (mt_fixed mt))) as [F0|e] eqn:EF.
  2:{ exists O. intros. cbn [snd]. intros [= ->]. now apply base_int_fuel in EF. }
  set (F := if (_ && _) then L else F0). set (e := md_addr m + L).
  exists (S (S (Z.to_nat (e - (md_addr m + F))))). intros fuel Hf.
  assert (HE : snd (load_loop fuel (mt_rep mt) e (md_addr m) F (mt_fixed mt) 0 (md_addr m) (md_blocks m) (md_reads m ++ [md_addr m])) <> Raise EFuel).
  { destruct fuel as [|f]; [lia|]. apply load_loop_ends; [|lia]. intros rb r H1 H2. eapply HR; eauto. }
  destruct (load_loop fuel _ _ _ _ _ _ _ _ _) as [[bs rs] r]. cbn [snd] in *. exact HE.
Qed.
Lemma loads_bounded types lfuel : good_types types ->
  (forall id t, types id = Ok t -> (forall L, mt_len t = Some L -> L <= 65535) /\ (forall F, base_int (bt_len (mt_fixed t)) = Ok F -> 0 <= F)) ->
  65537 <= Z.of_nat lfuel -> loads_end lfuel types.
Proof.
  intros [HT HR] HD HF. split; [exact HT|]. intros id addr len HL. unfold model_load, new_model. cbn [md_id md_len md_addr md_blocks md_reads md_exposed md_error md_index].
  destruct (types id) as [mt|e] eqn:ET; [|cbn [snd]; intros [= ->]; now apply (HT id)]. destruct (HD id mt ET) as [D1 D2].
  destruct (if len =? 0 then mt_len mt else Some len) as [L|] eqn:EL; [|discriminate].
  assert (HLL : L <= 65535) by (destruct (len =? 0); [auto|injection EL as <-; lia]).
  destruct (base_int (bt_len (mt_fixed mt))) as [F0|e] eqn:EF; [|cbn [snd]; intros [= ->]; now apply base_int_fuel in EF].
  set (F := if (_ && _) then L else F0). assert (HF0 : 0 <= F \/ L - F <= 0) by (unfold F; destruct (_ && _); [right; lia|left; auto]).
  assert (HE : snd (load_loop lfuel (mt_rep mt) (addr + L) addr F (mt_fixed mt) 0 addr [] ([] ++ [addr])) <> Raise EFuel).
  { destruct lfuel as [|f]; [lia|]. apply load_loop_ends; [|lia]. intros rb r H1 H2. eapply HR; eauto. }
  destruct (load_loop lfuel _ _ _ _ _ _ _ _ _) as [[bs rs] r]. cbn [snd] in *. exact HE.
Qed.
Lemma loads_uniform types : good_types types ->
  exists n, forall lfuel, (n <= lfuel)%nat -> forall id addr len, 0 <= id <= 65535 -> 0 <= addr <= 65536 -> 0 <= len <= 65535 ->
    snd (model_load lfuel types (new_model id addr len)) <> Raise EFuel.
Proof.
  intros [HT HR].
  destruct (uniform (fun k id => forall addr, 0 <= addr <= 65536 -> forall len, 0 <= len <= 65535 -> forall f, (k <= f)%nat -> snd (model_load f types (new_model id addr len)) <> Raise EFuel) 0 65535) as [n Hn].
  - intros k k' i Hk H addr Ha len Hl f Hf. apply H; try assumption. lia.
  - intros id Hid.
    destruct (uniform (fun k addr => forall len, 0 <= len <= 65535 -> forall f, (k <= f)%nat -> snd (model_load f types (new_model id addr len)) <> Raise EFuel) 0 65536) as [n Hn].
    + intros k k' i Hk H len Hl f Hf. apply H; try assumption. lia.
    + intros addr Ha.
      destruct (uniform (fun k len => forall f, (k <= f)%nat -> snd (model_load f types (new_model id addr len)) <> Raise EFuel) 0 65535) as [n Hn].
      * intros k k' i Hk H f Hf. apply H. lia.
      * intros len Hl. destruct (load_ends types (new_model id addr len) HT) as [n Hn]; [|exists n; exact Hn].
        intros mt rb r H1 H2 H3. eapply HR; eauto.
      * exists n. intros len Hl. apply Hn. assumption.
    + exists n. intros addr Ha len Hl. apply Hn; assumption.
  - exists n. intros f Hf id addr len H1 H2 H3. now apply (Hn id H1 addr H2 len H3).
Qed.

(** ** RTU and TCP devices *)
Section RtuWb.
  Context {D : Type} (dev : sdev D) (trace : bool) (slave op max_count : Z).
  Hypothesis HB : byte_line dev.
  Hypothesis Hmax : 0 < max_count.
  Lemma rtu_read1_wb addr count s s' r : rtu_read1 dev trace slave addr count op s = (s', r) ->
    r <> Raise EFuel /\ (forall d, r = Ok d -> Forall is_byte d) /\ (65535 < addr -> r = Raise EStruct).
  Proof.
    unfold rtu_read1. destruct (rtu_read_req slave op addr count) as [req|x] eqn:ER.
    - assert (HA : addr <= 65535).
      { destruct (Z_le_gt_dec addr 65535); [assumption|]. rewrite rtu_read_req_bad in ER; [discriminate|]. unfold read_args_ok. lia. }
      destruct trace; [intros H; apply pair_equal_spec in H as [<- <-]; split; [discriminate|split; [discriminate|lia]]|].
      destruct (dev s req) as [s1 [w|]] eqn:EW; intros H; apply pair_equal_spec in H as [<- <-]; [|split; [discriminate|split; [discriminate|lia]]].
      apply HB in EW as [HWB HWE]. destruct w as [stream sched fin]. cbn [w_bytes w_end] in HWB, HWE.
      pose proof (rtu_read_response_spec stream sched fin HWB) as HS.
      assert (HST : @starved bytes fin <> Raise EFuel) by (destruct fin; cbn; congruence).
      assert (HST2 : forall d, @starved bytes fin = Ok d -> Forall is_byte d) by (destruct fin; cbn; congruence).
      destruct HS; (split; [first [assumption|discriminate]|split; [try assumption; try discriminate|lia]]).
      + intros d E. apply Ok_inj in E. subst d. constructor.
      + intros d E. apply Ok_inj in E. subst d. now apply Forall_slice.
    - assert (x = EStruct) as ->.
      { destruct (byte_dec slave); [|rewrite rtu_read_req_bad in ER by (unfold read_args_ok; tauto); congruence].
        destruct (byte_dec op); [|rewrite rtu_read_req_bad in ER by (unfold read_args_ok; tauto); congruence].
        destruct (word_dec addr); [|rewrite rtu_read_req_bad in ER by (unfold read_args_ok; tauto); congruence].
        destruct (word_dec count); [|rewrite rtu_read_req_bad in ER by (unfold read_args_ok; tauto); congruence].
        rewrite rtu_read_req_ok in ER by (unfold read_args_ok; auto). discriminate. }
      intros H; apply pair_equal_spec in H as [<- <-]. split; [discriminate|split; [discriminate|reflexivity]].
  Qed.
  Lemma rtu_read_loop_wb fuel : forall addr count off resp s s' r, (Z.to_nat count < fuel)%nat -> Forall is_byte resp ->
    rtu_read_loop dev trace fuel slave addr count op max_count off resp s = (s', r) ->
    r <> Raise EFuel /\ (forall d, r = Ok (Some d) -> Forall is_byte d) /\ (65535 < addr + off -> 0 < count -> exists e, r = Raise e).
  Proof.
    induction fuel as [|fuel IH]; intros addr count off resp s s' r Hf HR H; [lia|].
    cbn [rtu_read_loop] in H. destruct (Z.ltb_spec 0 count).
    2:{ apply pair_equal_spec in H as [<- <-]. split; [discriminate|]. split; [intros d E; apply Ok_inj, Some_inj in E; now subst|lia]. }
    set (rc := if max_count <? count then max_count else count) in *.
    assert (Hrc : 0 < rc <= count) by (unfold rc; destruct (Z.ltb_spec max_count count); lia).
    destruct (rtu_read1 dev trace slave (addr + off) rc op s) as [s1 r1] eqn:E1. apply rtu_read1_wb in E1 as (N1 & B1 & A1).
    destruct r1 as [[|b bs]|x].
    - apply pair_equal_spec in H as [<- <-]. split; [discriminate|]. split; [congruence|]. intros; discriminate A1. assumption.
    - apply IH in H; [|lia|apply Forall_app; split; [exact HR|now apply B1]]. destruct H as (H1 & H2 & _). split; [exact H1|]. split; [exact H2|].
      intros HA _. discriminate A1. assumption.
    - apply pair_equal_spec in H as [<- <-]. split; [congruence|]. split; [discriminate|eauto].
  Qed.
End RtuWb.
Lemma rtu_well_behaved {D} (dev : sdev D) trace is_open slave : byte_line dev ->
  well_behaved (scl_dev (rtu_client dev trace is_open slave)) (fun _ => True).
Proof.
  intros HB s a n s' r _ H. split; [exact I|]. cbn [scl_dev rtu_client dv_read] in H. unfold rtu_read in H. destruct is_open.
  - apply rtu_read_loop_wb in H; [|exact HB|reflexivity|lia|constructor]. rewrite Z.add_0_r in H. exact H.
  - apply pair_equal_spec in H as [<- <-]. split; [discriminate|]. split; [discriminate|eauto].
Qed.

Section TcpWb.
  Context {D : Type} (srv : server D) (trace : bool) (slave op max_count : Z).
  Hypothesis HB : byte_server srv.
  Hypothesis Hmax : 0 < max_count.
  Lemma tcp_exception_fuel resp : tcp_exception resp <> Some EFuel.
  Proof. unfold tcp_exception, exc_raise. destruct (_ =? 0); [discriminate|]. destruct (_ =? 0); discriminate. Qed.
  Lemma tcp_read1_wb addr count st st' r : sock_bytes st -> tcp_read1 srv slave trace addr count op st = (st', r) ->
    sock_bytes st' /\ r <> Raise EFuel /\ (forall d, r = Ok d -> Forall is_byte d) /\ (65535 < addr -> r = Raise EStruct).
  Proof.
    intros HS. unfold tcp_read1. destruct (tcp_read_req slave op addr count) as [req|x] eqn:ER.
    - assert (HA : addr <= 65535).
      { destruct (Z_le_gt_dec addr 65535); [assumption|]. rewrite tcp_read_req_bad in ER; [discriminate|]. unfold read_args_ok. lia. }
      destruct trace; [intros H; apply pair_equal_spec in H as [<- <-]; split; [assumption|split; [discriminate|split; [discriminate|lia]]]|].
      unfold tcp_send. unfold sock_bytes in HS. destruct st as [k d]. cbn [fst snd] in *. destruct k as [| |p].
      1,2: intros H; apply pair_equal_spec in H as [<- <-]; (split; [exact I|]; split; [discriminate|split; [discriminate|lia]]).
      destruct (srv_send srv d req) as [d1 [w|]] eqn:EW.
      2:{ intros H; apply pair_equal_spec in H as [<- <-]. split; [exact HS|]. split; [discriminate|split; [discriminate|lia]]. }
      apply HB in EW as [HWB HWE]. destruct w as [stream sched fin]. cbn [w_bytes w_sched w_end] in *.
      assert (HP : Forall is_byte (p ++ stream)) by (apply Forall_app; auto).
      destruct (tcp_complete_dec (p ++ stream)) as [HC|HC].
      + rewrite (proj1 (tcp_receive_spec _ _ _ _ _ _) HC). pose proof (tcp_exception_fuel (ztake (tcp_frame_len (p ++ stream)) (p ++ stream))) as HX.
        destruct (tcp_exception _) as [x|]; intros H; apply pair_equal_spec in H as [<- <-].
        * split; [now apply Forall_zdrop|]. split; [congruence|]. split; [discriminate|lia].
        * split; [now apply Forall_zdrop|]. split; [discriminate|]. split; [|lia]. intros dd E. apply Ok_inj in E. subst dd. now apply Forall_zdrop, Forall_ztake.
      + rewrite (proj2 (tcp_receive_spec _ _ _ _ _ _) HC). intros H; apply pair_equal_spec in H as [<- <-].
        split; [constructor|]. split; [destruct fin; cbn; congruence|]. split; [discriminate|lia].
    - assert (x = EStruct) as ->.
      { destruct (byte_dec slave); [|rewrite tcp_read_req_bad in ER by (unfold read_args_ok; tauto); congruence].
        destruct (byte_dec op); [|rewrite tcp_read_req_bad in ER by (unfold read_args_ok; tauto); congruence].
        destruct (word_dec addr); [|rewrite tcp_read_req_bad in ER by (unfold read_args_ok; tauto); congruence].
        destruct (word_dec count); [|rewrite tcp_read_req_bad in ER by (unfold read_args_ok; tauto); congruence].
        rewrite tcp_read_req_ok in ER by (unfold read_args_ok; auto). discriminate. }
      intros H; apply pair_equal_spec in H as [<- <-]. split; [exact HS|]. split; [discriminate|split; [discriminate|reflexivity]].
  Qed.
  Lemma tcp_read_loop_wb fuel : forall addr count off resp st st' r, (Z.to_nat count < fuel)%nat -> Forall is_byte resp -> sock_bytes st ->
    tcp_read_loop srv slave max_count trace fuel addr count op off resp st = (st', r) ->
    sock_bytes st' /\ r <> Raise EFuel /\ (forall d, r = Ok d -> Forall is_byte d) /\ (65535 < addr + off -> 0 < count -> exists e, r = Raise e).
  Proof.
    induction fuel as [|fuel IH]; intros addr count off resp s s' r Hf HR HS H; [lia|].
    cbn [tcp_read_loop] in H. destruct (Z.ltb_spec 0 count).
    2:{ apply pair_equal_spec in H as [<- <-]. split; [exact HS|]. split; [discriminate|]. split; [intros d E; apply Ok_inj in E; now subst|lia]. }
    set (rc := if max_count <? count then max_count else count) in *.
    assert (Hrc : 0 < rc <= count) by (unfold rc; destruct (Z.ltb_spec max_count count); lia).
    destruct (tcp_read1 srv slave trace (addr + off) rc op s) as [s1 r1] eqn:E1. apply tcp_read1_wb in E1 as (S1 & N1 & B1 & A1); [|exact HS].
    destruct r1 as [[|b bs]|x].
    - apply pair_equal_spec in H as [<- <-]. split; [exact S1|]. split; [discriminate|]. split; [intros d E; apply Ok_inj in E; now subst|]. intros; discriminate A1. assumption.
    - apply IH in H; [|lia|apply Forall_app; split; [exact HR|now apply B1]|exact S1]. destruct H as (H9 & H1 & H2 & _). split; [exact H9|]. split; [exact H1|]. split; [exact H2|].
      intros HA _. discriminate A1. assumption.
    - apply pair_equal_spec in H as [<- <-]. split; [exact S1|]. split; [congruence|]. split; [discriminate|eauto].
  Qed.
End TcpWb.
Lemma tcp_well_behaved {D} (srv : server D) trace slave : byte_server srv ->
  well_behaved (scl_dev (tcp_client srv trace slave)) sock_bytes.
Proof.
  intros HB st a n st' r HS H. cbn [scl_dev tcp_client tcp_dev dv_read] in H.
  destruct (tcp_read srv slave REQ_COUNT_MAX trace a n FUNC_READ_HOLDING st) as [st1 r1] eqn:E.
  assert (HX : sock_bytes st1 /\ r1 <> Raise EFuel /\ (forall d, r1 = Ok d -> Forall is_byte d) /\ (65535 < a -> 0 < n -> exists e, r1 = Raise e)).
  { unfold tcp_read, with_connection, tcp_connect in E. destruct st as [k d]. cbn [fst snd] in E. destruct k as [| |p].
    - destruct (srv_connect srv d) as [d' []].
      + destruct (tcp_read_loop _ _ _ _ _ _ _ _ _ _ _) as [st2 r2] eqn:E2. apply pair_equal_spec in E as [<- <-].
        apply tcp_read_loop_wb in E2; [|exact HB|reflexivity|lia|constructor|constructor]. rewrite Z.add_0_r in E2. split; [exact I|apply E2].
      + apply pair_equal_spec in E as [<- <-]. split; [exact I|]. split; [discriminate|]. split; [discriminate|eauto].
    - apply tcp_read_loop_wb in E; [|exact HB|reflexivity|lia|constructor|exact HS]. now rewrite Z.add_0_r in E.
    - apply tcp_read_loop_wb in E; [|exact HB|reflexivity|lia|constructor|exact HS]. now rewrite Z.add_0_r in E. }
  destruct HX as (X1 & X2 & X3 & X4). destruct r1 as [d|x]; apply pair_equal_spec in H as [<- <-].
  - split; [exact X1|]. split; [discriminate|]. split; [intros d0 E0; apply Ok_inj, Some_inj in E0; subst; auto|]. intros A B. destruct (X4 A B). discriminate.
  - split; [exact X1|]. split; [congruence|]. split; [discriminate|eauto].
Qed.
