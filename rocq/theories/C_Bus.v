(** * C_Bus: property C96: requests on serial devices, in any history of opening and closing devices on any ports.

    Specification: S_Bus (histories [bruns], devices in use, timeout in force). *)
From Coq Require Import String.
From Verif Require C_Rtu C_Registry.
From Verif Require Import Py P_List M_Wire M_Rtu M_Registry S_Registry P_Registry M_Bus S_Bus P_Bus.

(** ** A request of a device in use is sent to its own slave id, on its own port, with the timeout in force there, whatever
    else was opened, closed, read and written before; it changes nothing on other ports. *)
Theorem C96_read_reaches_own_slave :
  forall D (dev : str -> Z -> sdev D) ports evs d slave name a n, disciplined (registry_events evs) -> In (d, (slave, name)) (in_use_after evs) ->
  let b := fst (bruns dev evs (bus0 ports)) in
  let '(p, r) := rtu_read (dev name (timeout_in_force evs name)) false true slave a n 3 125 (bus_ports b name) in
  let '(b', r') := bus_read dev d a n b in
  r' = r /\ bus_ports b' name = p /\ (forall other, other <> name -> bus_ports b' other = bus_ports b other) /\ bus_reg b' = bus_reg b.
Proof.
  intros D dev ports evs d slave name a n HD HU b. destruct (bus_inv dev evs ports HD) as [I1 I2]. fold b in I1, I2. destruct (inv_use _ _ I1 _ _ _ HU) as (c & H1 & H2 & _).
  destruct (inv_reg _ _ I1 _ _ H2) as (_ & H3 & H4 & _). unfold bus_read. rewrite H1. cbn [d_client d_slave]. unfold port_open in H4. rewrite H4, H3, (I2 _ _ H2). unfold timeout_in_force, FUNC_READ_HOLDING, REQ_COUNT_MAX.
  destruct (rtu_read _ _ _ _ _ _ _ _ _) as [p r]. cbn [set_port bus_ports bus_reg]. rewrite eqb_list_refl. repeat split; auto. intros other HO. apply eqb_list_neq in HO. now rewrite HO.
Qed.
Print Assumptions C96_read_reaches_own_slave.
Theorem C96_write_reaches_own_slave :
  forall D (dev : str -> Z -> sdev D) ports evs d slave name a data, disciplined (registry_events evs) -> In (d, (slave, name)) (in_use_after evs) ->
  let b := fst (bruns dev evs (bus0 ports)) in
  let '(p, r) := rtu_write (dev name (timeout_in_force evs name)) true slave a data 125 (bus_ports b name) in
  let '(b', r') := bus_write dev d a data b in
  r' = r /\ bus_ports b' name = p /\ (forall other, other <> name -> bus_ports b' other = bus_ports b other) /\ bus_reg b' = bus_reg b.
Proof.
  intros D dev ports evs d slave name a data HD HU b. destruct (bus_inv dev evs ports HD) as [I1 I2]. fold b in I1, I2. destruct (inv_use _ _ I1 _ _ _ HU) as (c & H1 & H2 & _).
  destruct (inv_reg _ _ I1 _ _ H2) as (_ & H3 & H4 & _). unfold bus_write. rewrite H1. cbn [d_client d_slave]. unfold port_open in H4. rewrite H4, H3, (I2 _ _ H2). unfold timeout_in_force, REQ_COUNT_MAX.
  destruct (rtu_write _ _ _ _ _ _ _) as [p r]. cbn [set_port bus_ports bus_reg]. rewrite eqb_list_refl. repeat split; auto. intros other HO. apply eqb_list_neq in HO. now rewrite HO.
Qed.
Print Assumptions C96_write_reaches_own_slave.

(** ** Ports are independent: in any history (disciplined or not), leaving out all requests on devices of other ports changes
    neither the results of the remaining events nor what the devices on this port end up with. *)
Theorem C96_ports_independent :
  forall D (dev : str -> Z -> sdev D) ports evs name,
  let '(b, l) := bruns dev evs (bus0 ports) in
  let '(b', l') := bruns dev (filter (concerns (port_of b) name) evs) (bus0 ports) in
  filter (fun x => concerns (port_of b) name (fst x)) l = l' /\ bus_ports b' name = bus_ports b name.
Proof.
  intros D dev ports evs name. pose proof (independent dev (port_of (fst (bruns dev evs (bus0 ports)))) name evs (bus0 ports) (bus0 ports)) as H.
  destruct (bruns dev evs (bus0 ports)) as [b l]. cbn [fst] in *. specialize (H ltac:(unfold agree; auto) names0 ltac:(auto)).
  destruct (bruns dev (filter (concerns (port_of b) name) evs) (bus0 ports)) as [b' l']. destruct H as [(_ & _ & H1) H2]. auto.
Qed.
Print Assumptions C96_ports_independent.

(** ** A device that was closed.  Either another device in use shares its port object - then its requests still go out - or
    nothing at all is sent and a request for at least one register fails. *)
Theorem C96_closed_device_partial :
  forall D (dev : str -> Z -> sdev D) ports evs d, disciplined (registry_events evs) ->
  let b := fst (bruns dev evs (bus0 ports)) in
  (d < length (r_devices (bus_reg b)))%nat -> (forall x, ~ In (d, x) (in_use_after evs)) ->
  (exists d' slave' name, In (d', (slave', name)) (in_use_after evs) /\ client_of (bus_reg b) d' = client_of (bus_reg b) d) \/
  forall a n data, 0 < n -> 0 < zlen data ->
    (exists e, bus_read dev d a n b = (b, Raise e) /\ (e = EOS \/ e = EStruct)) /\
    (exists e, bus_write dev d a data b = (b, Raise e) /\ (e = EOS \/ e = EStruct)) /\
    (0 <= a < 65536 -> Forall is_byte data -> (forall dv, nth_error (r_devices (bus_reg b)) d = Some dv -> is_byte (d_slave dv)) ->
     bus_read dev d a n b = (b, Raise EOS) /\ bus_write dev d a data b = (b, Raise EOS)).
Proof.
  intros D dev ports evs d HD b HL HU. destruct (bus_inv dev evs ports HD) as [I1 _]. fold b in I1. pose proof (bruns_names dev evs (bus0 ports) names0) as [HN _]. fold b in HN.
  destruct (nth_error (r_devices (bus_reg b)) d) as [dv|] eqn:ED; [|apply nth_error_None in ED; lia]. destruct HN as [_ HN]. destruct (HN _ _ ED) as [HC _].
  destruct (c_open (get_client (bus_reg b) (d_client dv))) eqn:EO.
  - left. pose proof (inv_open _ _ I1 _ HC EO) as HR. destruct (inv_reg _ _ I1 _ _ HR) as (_ & _ & _ & HNE & HDV).
    destruct (c_devs (get_client (bus_reg b) (d_client dv))) as [|[s0 d0] rest]; [congruence|]. specialize (HDV s0 d0 (or_introl eq_refl)). exists d0, s0, (c_name (get_client (bus_reg b) (d_client dv))).
    split; [exact HDV|]. destruct (inv_use _ _ I1 _ _ _ HDV) as (c & H1 & H2 & _). unfold client_of. rewrite H1, ED. cbn [option_map d_client]. congruence.
  - right. intros a n data Hn Hz. assert (HP : forall w s z e, pack_int w s z = Raise e -> e = EStruct).
    { intros w s z e H. unfold pack_int in H. destruct (_ && _); [discriminate|congruence]. }
    split; [|split].
    + unfold bus_read. rewrite ED, EO. unfold closed_read. destruct (Z.ltb_spec 0 n); [|lia].
      destruct (rtu_read_req _ _ _ _) as [q|e] eqn:EQ; [exists EOS; auto|]. exists e. split; [reflexivity|]. right. unfold rtu_read_req in EQ.
      repeat (apply bind_raise in EQ as [EQ|(? & _ & EQ)]; [eapply HP; exact EQ|]); first [discriminate EQ | eapply HP; exact EQ].
    + unfold bus_write. rewrite ED, EO. unfold closed_write. destruct (Z.ltb_spec 0 (zlen data)); [|lia].
      destruct (rtu_write_req _ _ _) as [q|e] eqn:EQ; [exists EOS; auto|]. exists e. split; [reflexivity|]. right. unfold rtu_write_req in EQ.
      repeat (apply bind_raise in EQ as [EQ|(? & _ & EQ)]; [eapply HP; exact EQ|]); first [discriminate EQ | eapply HP; exact EQ].
    + intros Ha HB HS. specialize (HS dv eq_refl). unfold is_byte in HS. split.
      * unfold bus_read. rewrite ED, EO. unfold closed_read. destruct (Z.ltb_spec 0 n); [|lia]. unfold REQ_COUNT_MAX, FUNC_READ_HOLDING.
        rewrite P_Rtu.rtu_read_req_ok; [reflexivity|]. unfold P_Rtu.read_args_ok. destruct (Z.ltb_spec 125 n); unfold is_byte; lia.
      * unfold bus_write. rewrite ED, EO. unfold closed_write. destruct (Z.ltb_spec 0 (zlen data)); [|lia]. unfold REQ_COUNT_MAX.
        pose proof (zlen_ztake (2 * 125) data ltac:(lia)) as HZ.
        rewrite P_Rtu.rtu_write_req_ok; [reflexivity|now apply Forall_ztake|]. unfold P_Rtu.write_args_ok. rewrite HZ.
        pose proof (Z.div_pos (Z.min (2 * 125) (zlen data)) 2 ltac:(lia) ltac:(lia)). pose proof (Z.div_le_upper_bound (Z.min (2 * 125) (zlen data)) 2 125 ltac:(lia) ltac:(lia)). unfold is_byte. lia.
Qed.
Print Assumptions C96_closed_device_partial.

(** ** What a program would expect and does not get. *)
Notation opens d name timeout := (BOpen d name None None timeout true).
Fixpoint allowed_all (pre evs : list revent) : Prop :=
  match evs with [] => True | ev :: r => allowed ev (snd (run pre)) /\ allowed_all (pre ++ [ev]) r end.
Lemma disciplined_all pre evs : disciplined pre -> allowed_all pre evs -> disciplined (pre ++ evs).
Proof.
  revert pre. induction evs as [|ev r IH]; intros pre HP H; [now rewrite app_nil_r|]. destruct H as [H1 H2]. change (ev :: r) with ([ev] ++ r). rewrite app_assoc.
  apply IH; [now constructor|exact H2].
Qed.
Ltac disc := apply (disciplined_all []); [constructor|]; vm_compute; repeat split; try (intros d H; repeat destruct H as [H|H]; try discriminate H; try contradiction); eauto 8.
(** "using a closed device is reported as a Modbus client error": the only device of a port is opened and closed; reading it
    raises the operating system's error. *)
Theorem C96_closed_is_client_error_refuted :
  forall D (dev : str -> Z -> sdev D) ports timeout,
  let b := fst (bruns dev [opens 1 C_Registry.port_a timeout; BClose 0] (bus0 ports)) in
  snd (bus_read dev 0 0 1 b) = Raise EOS /\ is_modbus_client_error EOS = false.
Proof. intros D dev ports timeout. vm_compute. auto. Qed.
Print Assumptions C96_closed_is_client_error_refuted.

(** "a closed device sends nothing": two devices on a port, the first is closed, and its read still goes out and is
    answered.  The device: registers with value = address, [logged] records the requests. *)
Definition ex_port : sdev (S_Modbus.memory * list bytes) := logged C_Rtu.ex_dev.
Definition ex_ports : str -> S_Modbus.memory * list bytes := fun _ => ((fun a => a), []).
Theorem C96_closed_device_silent_refuted :
  let evs := [opens 1 C_Registry.port_a None; opens 2 C_Registry.port_a None; BClose 0] in
  let b := fst (bruns (fun _ _ => ex_port) evs (bus0 ex_ports)) in
  disciplined (registry_events evs) /\ (forall x, ~ In (0%nat, x) (in_use_after evs)) /\
  let '(b', r) := bus_read (fun _ _ => ex_port) 0 7 1 b in
  r = Ok (Some [0; 7]) /\ snd (bus_ports b C_Registry.port_a) = [] /\ length (snd (bus_ports b' C_Registry.port_a)) = 1%nat.
Proof.
  intros evs b. split; [|split; [|vm_compute; auto]].
  - disc.
  - intros x. vm_compute. intros [H|[]]. discriminate H.
Qed.
Print Assumptions C96_closed_device_silent_refuted.

(** "each device keeps the timeout it was opened with": a device on the bus that needs a second to answer; the first device is
    opened with two seconds and works, until a second one is opened there with a tenth of a second. *)
Definition slow_port : str -> Z -> sdev (S_Modbus.memory * list bytes) :=
  fun _ timeout s req => if 1000 <=? timeout then ex_port s req else (s, Some (mkWire [] [] WEmpty)).
Theorem C96_own_timeout_refuted :
  let one := [opens 1 C_Registry.port_a (Some 2000)] in
  let two := one ++ [opens 2 C_Registry.port_a (Some 100)] in
  disciplined (registry_events two) /\ In (0%nat, (1, C_Registry.port_a)) (in_use_after two) /\
  snd (bus_read slow_port 0 7 1 (fst (bruns slow_port one (bus0 ex_ports)))) = Ok (Some [0; 7]) /\
  snd (bus_read slow_port 0 7 1 (fst (bruns slow_port two (bus0 ex_ports)))) = Raise EModbusTimeout.
Proof.
  intros one two. split; [|split; [|split; vm_compute; reflexivity]].
  - disc.
  - vm_compute. auto.
Qed.
Print Assumptions C96_own_timeout_refuted.

(** ** A history on two ports: devices opened, closed, written and read; what each event returns. *)
Definition port_b : str := [98].
Example C96_ex :
  let evs := [opens 1 C_Registry.port_a None; opens 2 port_b (Some 700); opens 3 C_Registry.port_a None; BWrite 0 5 [1; 2];
              BWrite 1 5 [3; 4]; BClose 2; BRead 0 5 2; BRead 1 5 2] in
  disciplined (registry_events evs) /\ In (0%nat, (1, C_Registry.port_a)) (in_use_after evs) /\ In (1%nat, (2, port_b)) (in_use_after evs) /\
  timeout_in_force evs C_Registry.port_a = 500 /\ timeout_in_force evs port_b = 700 /\
  map snd (snd (bruns (fun _ _ => ex_port) evs (bus0 ex_ports))) =
    [ROpened (Ok 0%nat); ROpened (Ok 1%nat); ROpened (Ok 2%nat); RDone (Ok tt); RDone (Ok tt); RClosed; RData (Ok (Some [1; 2; 0; 6])); RData (Ok (Some [3; 4; 0; 6]))].
Proof.
  intros evs. split; [|vm_compute; intuition].
  disc.
Qed.
