(** * C_TcpFault: property C94: writes over a failing TCP connection. *)
From Coq Require Import String.
From Verif Require C_Tcp C_Client C_Scale.
From Verif Require Import Py P_List M_Wire M_Rtu S_Modbus P_Rtu M_Tcp S_Tcp P_Tcp S_Fault P_Fault S_TcpFault P_TcpFault M_Suns M_Device M_Client S_Client M_Scan S_Scan S_Stack P_Stack S_Torn P_Torn C_Torn.

(** whatever goes wrong, whatever state the connection is in: all of the data is stored or nothing changes *)
Theorem C94_all_or_nothing :
  forall D (srv : server D) (mem : D -> S_Modbus.memory) slave, tcp_unreliable srv mem slave ->
  forall max_count trace addr data st st' r, Forall is_byte data -> zlen data mod 2 = 0 ->
  tcp_write srv slave max_count trace addr data st = (st', r) ->
  (forall a, mem (snd st') a = mem (snd st) a) \/ (forall a, mem (snd st') a = store (mem (snd st)) addr data a).
Proof. intros D srv mem slave HU mc tr addr data st st' r HB HE H. exact (tcp_write_effect srv mem slave mc tr HU addr data st st' r HB HE H). Qed.
Print Assumptions C94_all_or_nothing.
(** on a connection with nothing unread, success means that the data is stored *)
Theorem C94_success_partial :
  forall D (srv : server D) (mem : D -> S_Modbus.memory) slave, tcp_unreliable srv mem slave -> answers_own srv mem slave ->
  forall max_count trace addr data k s st', Forall is_byte data -> zlen data mod 2 = 0 -> k = SNone \/ k = SConn [] ->
  tcp_write srv slave max_count trace addr data (k, s) = (st', Ok tt) -> forall a, mem (snd st') a = store (mem s) addr data a.
Proof. intros D srv mem slave HU HO mc tr addr data k s st' HB HE HK H. exact (tcp_write_success srv mem slave mc tr HU addr data k s st' HO HB HE HK H). Qed.
Print Assumptions C94_success_partial.
(** after any number of failed attempts, each with a connection of its own, a write that succeeds leaves the server as if it had succeeded at once *)
Theorem C94_retry_partial :
  forall D (srv : server D) (mem : D -> S_Modbus.memory) slave, tcp_unreliable srv mem slave -> answers_own srv mem slave ->
  forall max_count trace addr data s st1 st2, Forall is_byte data -> zlen data mod 2 = 0 ->
  failures (tcp_write srv slave max_count trace addr data) (SNone, s) st1 ->
  tcp_write srv slave max_count trace addr data st1 = (st2, Ok tt) ->
  forall a, mem (snd st2) a = store (mem s) addr data a.
Proof.
  intros D srv mem slave HU HO mc tr addr data s st1 st2 HB HE HF HW.
  assert (HDEAD : forall s st r, tcp_write srv slave mc tr addr data (SDead, s) = (st, r) -> fst st = SDead /\ (r = Ok tt -> data = [])).
  { clear -HE. intros s st r H. unfold tcp_write, with_connection in H. cbn [fst] in H. destruct data as [|x [|y l]] eqn:ED.
    - cbn [length tcp_write_loop] in H. apply pair_equal_spec in H as [<- _]. auto.
    - discriminate HE.
    - rewrite <- ED in *. apply write_loop_once in H; [|exact HE|rewrite ED; cbn [length]; lia].
      destruct H as [(-> & -> & _)|[(-> & ->)|H]]; [auto|split; [reflexivity|discriminate]|]. unfold tcp_write1 in H.
      destruct (tcp_write_req slave addr data) as [q|e]; [|apply pair_equal_spec in H as [<- <-]; split; [reflexivity|discriminate]].
      destruct tr; apply pair_equal_spec in H as [<- <-]; split; try reflexivity; discriminate. }
  assert (HSN : forall s st r, tcp_write srv slave mc tr addr data (SNone, s) = (st, r) -> fst st = SNone \/ fst st = SDead).
  { clear. intros s st r H. unfold tcp_write, with_connection in H. cbn [fst] in H. unfold tcp_connect in H. destruct (srv_connect srv (snd (SNone, s))) as [s1 [|]].
    - destruct (tcp_write_loop _ _ _ _ _ _ _ _ _ _ _) as [st2 r2]. apply pair_equal_spec in H as [<- _]. now left.
    - apply pair_equal_spec in H as [<- _]. now right. }
  assert (HINV : forall st st1, failures (tcp_write srv slave mc tr addr data) st st1 -> fst st = SNone \/ fst st = SDead ->
    (fst st1 = SNone \/ fst st1 = SDead) /\ forall a, store (mem (snd st1)) addr data a = store (mem (snd st)) addr data a).
  { intros st st1' H. induction H as [st|st stx e sty EO _ IH]; intros HK; [auto|].
    assert (HKX : fst stx = SNone \/ fst stx = SDead).
    { destruct st as [k z]. cbn [fst] in HK. destruct HK as [-> | ->]; [eapply HSN; exact EO|right; eapply HDEAD; exact EO]. }
    destruct (IH HKX) as [I1 I2]. split; [exact I1|]. intros a. rewrite I2.
    destruct (C94_all_or_nothing D srv mem slave HU mc tr addr data st stx (Raise e) HB HE EO) as [E|E]; [apply store_ext; exact E|].
    rewrite (store_ext _ (store (mem (snd st)) addr data)) by exact E. pose proof (store_over (mem (snd st)) addr data [] HE a) as HO2. rewrite app_nil_r in HO2. exact HO2. }
  destruct (HINV _ _ HF (or_introl eq_refl)) as [HK HX]. cbn [snd] in HX. intros a. rewrite <- HX. destruct st1 as [k z]. cbn [fst snd] in *. destruct HK as [-> | ->].
  - apply (C94_success_partial D srv mem slave HU HO mc tr addr data SNone z st2 HB HE (or_introl eq_refl) HW).
  - destruct (HDEAD _ _ _ HW) as [_ HD]. specialize (HD eq_refl). subst data. unfold tcp_write, with_connection in HW. cbn [fst length tcp_write_loop] in HW. apply pair_equal_spec in HW as [<- _]. reflexivity.
Qed.
Print Assumptions C94_retry_partial.

(** REFUTED for connections kept open: after a write that timed out, the late acknowledgement is taken for that of the next write, which the server refused.
    Register 0 then holds 5 although writing 6 was reported as done. *)
Definition tardy_srv : server (S_Modbus.memory * list bytes) := {|
  srv_connect := fun s => (s, true);
  srv_send := fun s req =>
    match s with
    | (m, []) => ((store m 0 [0; 5], [tcp_write_reply 1 0 1]), Some (mkWire [] [] (WRaise ESockTimeout)))
    | (m, q) => ((m, []), Some (mkWire (concat q ++ mbap [1; 144; 4]) [] WEmpty))
    end |}.
Theorem C94_late_acknowledgement_refuted :
  let '(st1, r1) := tcp_write tardy_srv 1 125 false 0 [0; 5] (SConn [], (fun _ => 0, [])) in
  let '(st2, r2) := tcp_write tardy_srv 1 125 false 0 [0; 6] st1 in
  r1 = Raise ESockTimeout /\ r2 = Ok tt /\ fst (snd st2) 0 = 5.
Proof. vm_compute. auto. Qed.
Print Assumptions C94_late_acknowledgement_refuted.

(** ** writing models over such a connection: every byte is the old one or that of a modified point's value *)
Theorem C94_tcp_stores_some :
  forall D (srv : server D) (mem : D -> S_Modbus.memory) slave trace, tcp_unreliable srv mem slave ->
  stores_some (scl_dev (tcp_client srv trace slave)) (fun st => byte_view (mem (snd st))).
Proof.
  intros D srv mem slave tr HU st a d st' r HE HB H. cbn [scl_dev tcp_client tcp_dev dv_write] in H.
  destruct (C94_all_or_nothing D srv mem slave HU _ _ _ _ _ _ _ HB HE H) as [E|E].
  - exists 0. pose proof (zlen_nonneg d). split; [lia|]. intros x. change (ztake 0 d) with (@nil Z). unfold byte_view, mem_store. change (zlen (@nil Z)) with 0. rewrite Z.add_0_r.
    destruct (Z.leb_spec (2 * a) x), (Z.ltb_spec x (2 * a)); try lia; cbn [andb]; now rewrite E.
  - exists (zlen d). pose proof (zlen_nonneg d). split; [lia|]. intros x. rewrite ztake_all by lia. rewrite <- store_view by assumption. unfold byte_view. now rewrite E.
Qed.
Print Assumptions C94_tcp_stores_some.
Theorem C94_tcp_failed_model_write :
  forall D (srv : server D) (mem : D -> S_Modbus.memory) slave trace, tcp_unreliable srv mem slave ->
  forall st m st' m' r, (forall p, In p (modified m) -> 0 < pt_len (p_type p) /\ exists d, encoding p d) ->
  write_points (scl_dev (tcp_client srv trace slave)) st m = (st', m', r) ->
  forall x, byte_view (mem (snd st')) x = byte_view (mem (snd st)) x \/ new_byte m x (byte_view (mem (snd st')) x).
Proof. intros D srv mem slave tr HU st m st' m' r HE H. apply (C86_failed_write _ _ _ (C94_tcp_stores_some D srv mem slave tr HU) st m st' m' r HE H). Qed.
Print Assumptions C94_tcp_failed_model_write.

(** ** the hypotheses can be met: the requests up to a moment are executed and answered; then the connection is silent *)
Definition faulty_srv : server (S_Modbus.memory * nat) := {|
  srv_connect := fun s => (s, true);
  srv_send := fun s req => match snd s with
    | O => (s, Some (mkWire [] [] (WRaise ESockTimeout)))
    | S n => let '(m', w) := srv_send C_Tcp.ex_srv (fst s) req in ((m', n), w)
    end |}.
Example C94_ex_hyp : forall slave, tcp_unreliable faulty_srv fst slave /\ answers_own faulty_srv fst slave.
Proof.
  intros slave.
  assert (HX : forall (m : S_Modbus.memory) addr data, 0 <= addr < 65536 -> srv_send C_Tcp.ex_srv m (tcp_write_frame slave addr data) =
    (store m addr data, Some (mkWire (tcp_write_reply slave addr (zlen data / 2)) [3; 1] WEmpty))).
  { intros m addr data Ha. unfold tcp_write_frame, mbap, word. cbn [app C_Tcp.ex_srv srv_send]. change (16 =? 16) with true. cbv iota.
    replace (be_int [addr / 256; addr mod 256]) with addr by (symmetry; exact (be_int_word addr)).
    replace (be_int [zlen data / 2 / 256; (zlen data / 2) mod 256]) with (zlen data / 2) by (symmetry; exact (be_int_word _)).
    rewrite ztake_all by lia. reflexivity. }
  split; [split|].
  - intros s s' ok H. cbn [faulty_srv srv_connect] in H. apply pair_equal_spec in H as [<- _]. reflexivity.
  - intros [m n] addr data s' w _ Ha _ _ H. cbn [faulty_srv srv_send fst snd] in H. destruct n as [|n].
    + apply pair_equal_spec in H as [<- _]. now left.
    + rewrite HX in H by exact Ha. apply pair_equal_spec in H as [<- _]. now right.
  - intros [m n] addr data s' stream sched fin Hs Ha Hl _ H. cbn [faulty_srv srv_send fst snd] in H. destruct n as [|n].
    + apply pair_equal_spec in H as [_ H]. apply Some_inj in H. assert (stream = []) as -> by congruence. split; [constructor|]. intros [HC _]. change (zlen (@nil Z)) with 0 in HC. lia.
    + rewrite HX in H by exact Ha. apply pair_equal_spec in H as [<- H]. apply Some_inj in H. assert (stream = tcp_write_reply slave addr (zlen data / 2)) as -> by congruence.
      split; [|reflexivity]. pose proof (zlen_nonneg data). unfold tcp_write_reply, mbap. repeat (apply Forall_app; split).
      * repeat constructor; unfold is_byte; lia.
      * apply word_bytes. rewrite !zlen_app. change (zlen [slave; 16]) with 2. change (zlen (word addr)) with 2. change (zlen (word (zlen data / 2))) with 2. lia.
      * constructor; [exact Hs|]. constructor; [unfold is_byte; lia|constructor].
      * apply word_bytes. exact Ha.
      * apply word_bytes. split; [apply Z.div_pos; lia|apply Z.div_lt_upper_bound; lia].
Qed.
Example C94_ex :
  let '(st1, r1) := tcp_write faulty_srv 1 125 false 7 [0; 5; 0; 6] (SNone, (fun _ => 0, 0%nat)) in
  let '(st2, r2) := tcp_write faulty_srv 1 125 false 7 [0; 5; 0; 6] (SNone, (fun _ => 0, 1%nat)) in
  r1 = Raise ESockTimeout /\ fst (snd st1) 7 = 0 /\ r2 = Ok tt /\ map (fst (snd st2)) [6; 7; 8; 9] = [0; 5; 6; 0].
Proof. vm_compute. auto. Qed.
Example C94_model_ex :
  let '(s', m', r) := write_points (scl_dev (tcp_client faulty_srv false 1)) (SConn [], (fun _ => 9, 1%nat)) C_Torn.ex_m in
  r = Raise ESockTimeout /\ length (modified C_Torn.ex_m) = 2%nat /\ map (fst (snd s')) [40003; 40004; 40005; 40009; 40010] = [9; 77; 9; 9; 9].
Proof. vm_compute. auto. Qed.
