(** * C_Registry: properties C38, C39 (modbus/client.py:60-86, 193-222, 495-517). *)
From Verif Require Import Py P_List M_Registry S_Registry P_Registry.

(** ** C38: after any disciplined history, a port is registered iff some device in use is on it;
    a device in use has the registered client, and it is open; no other client is open. *)
Theorem C38_port_open_exactly_while_used :
  forall evs, disciplined evs -> let s := fst (run evs) in let u := snd (run evs) in
  (forall name, (exists c, registered s name = Some c) <-> (exists d slave, In (d, (slave, name)) u)) /\
  (forall d slave name, In (d, (slave, name)) u ->
     client_of s d = registered s name /\ exists c, registered s name = Some c /\ port_open s c = true) /\
  (forall c, (c < length (r_clients s))%nat -> port_open s c = true -> registered s (c_name (get_client s c)) = Some c).
Proof.
  intros evs HD s u. pose proof (rinv_run evs HD) as I. fold s u in I. split; [|split].
  - intros name. split.
    + intros [c Hc]. destruct (inv_reg _ _ I _ _ Hc) as (_ & _ & _ & Hne & Hd).
      destruct (c_devs (get_client s c)) as [|[sl d] l]; [congruence|]. exists d, sl. apply Hd. cbn; auto.
    + intros (d & sl & Hin). destruct (inv_use _ _ I _ _ _ Hin) as (c & _ & Hr & _). eauto.
  - intros d sl name Hin. destruct (inv_use _ _ I _ _ _ Hin) as (c & Hd & Hr & _).
    unfold client_of. rewrite Hd, Hr. split; [reflexivity|]. exists c. split; [reflexivity|].
    now apply (inv_reg _ _ I _ _ Hr).
  - apply I.
Qed.
Print Assumptions C38_port_open_exactly_while_used.

(** devices in use on one port share one client *)
Theorem C38_shared_client :
  forall evs, disciplined evs -> forall d1 sl1 d2 sl2 name,
  In (d1, (sl1, name)) (snd (run evs)) -> In (d2, (sl2, name)) (snd (run evs)) ->
  client_of (fst (run evs)) d1 = client_of (fst (run evs)) d2 /\ client_of (fst (run evs)) d1 <> None.
Proof.
  intros evs HD d1 sl1 d2 sl2 name H1 H2.
  destruct (C38_port_open_exactly_while_used evs HD) as (_ & H & _).
  destruct (H _ _ _ H1) as (E1 & c & E & _). destruct (H _ _ _ H2) as (E2 & _). split; congruence.
Qed.
Print Assumptions C38_shared_client.

(** a different baud rate or parity is refused and changes nothing, in any state *)
Theorem C38_mismatch_refused :
  forall s slave name baud parity can_open c, registered s name = Some c ->
  (exists b, baud = Some b /\ c_baud (get_client s c) <> b) \/ (exists p, parity = Some p /\ c_parity (get_client s c) <> p) ->
  dev_open slave name baud parity can_open s = (s, Raise EModbusClient).
Proof.
  intros s slave name baud parity can c HR H. unfold registered in HR. unfold dev_open, rtu_client. rewrite HR.
  destruct (match baud with Some b => negb _ | None => _ end) eqn:EB; [reflexivity|].
  destruct H as [(b & -> & Hb)|(p & -> & Hp)].
  - apply negb_false_iff, Z.eqb_eq in EB. congruence.
  - apply eqb_list_neq in Hp. now rewrite Hp.
Qed.
Print Assumptions C38_mismatch_refused.

(** matching parameters (or none) on a registered port never open the port a second time *)
Theorem C38_match_shares :
  forall s slave name baud parity can_open c, registered s name = Some c ->
  (forall b, baud = Some b -> c_baud (get_client s c) = b) -> (forall p, parity = Some p -> c_parity (get_client s c) = p) ->
  exists s', dev_open slave name baud parity can_open s = (s', Ok (length (r_devices s))) /\
    length (r_clients s') = length (r_clients s) /\ client_of s' (length (r_devices s)) = Some c /\
    r_registry s' = r_registry s.
Proof.
  intros s slave name baud parity can c HR HB HP. unfold registered in HR. unfold dev_open, rtu_client. rewrite HR.
  assert (EB : match baud with Some b => negb (c_baud (get_client s c) =? b) | None => false end = false).
  { destruct baud; [|reflexivity]. rewrite (HB _ eq_refl), Z.eqb_refl. reflexivity. }
  assert (EP : match parity with Some b => negb (eqb_list (c_parity (get_client s c)) b) | None => false end = false).
  { destruct parity; [|reflexivity]. rewrite (HP _ eq_refl), eqb_list_refl. reflexivity. }
  rewrite EB, EP. eexists. split; [reflexivity|]. cbn [r_clients r_devices r_registry set_client]. rewrite upd_length. repeat split.
  unfold client_of. cbn [r_devices]. rewrite nth_error_app2 by lia. now rewrite Nat.sub_diag.
Qed.
Print Assumptions C38_match_shares.
(** a port that is not registered is opened with the settings asked for: 9600 baud and no parity if none are given *)
Theorem C38_new_port_settings :
  forall s slave name baud parity s' d, registered s name = None -> dev_open slave name baud parity true s = (s', Ok d) ->
  exists c, registered s' name = Some c /\ client_of s' d = Some c /\ port_open s' c = true /\ c = length (r_clients s) /\
    c_name (get_client s' c) = name /\
    (baud = Some (c_baud (get_client s' c)) \/ baud = None /\ c_baud (get_client s' c) = 9600) /\
    (parity = Some (c_parity (get_client s' c)) \/ parity = None /\ c_parity (get_client s' c) = [78] (* 'N' *)).
Proof.
  intros s slave name baud parity s' d HN H. unfold registered in HN. unfold dev_open, rtu_client in H. rewrite HN in H. cbv zeta in H.
  apply pair_equal_spec in H as [<- H]. apply Ok_inj in H. subst d. exists (length (r_clients s)).
  set (s1 := mkRS (r_clients s ++ _) (r_devices s) (dset name (length (r_clients s)) (r_registry s))). set (k := get_client s1 _).
  assert (EK : k = mkRC name (match baud with Some b => b | None => 9600 end) (match parity with Some p => p | None => PARITY_NONE end) true []).
  { unfold k, get_client, s1. cbn [r_clients]. rewrite app_nth2 by lia. now rewrite Nat.sub_diag. }
  assert (EG : forall c', get_client (mkRS (r_clients (set_client s1 (length (r_clients s)) c')) (r_devices (set_client s1 (length (r_clients s)) c') ++
                 [mkRD slave name (length (r_clients s))]) (r_registry (set_client s1 (length (r_clients s)) c'))) (length (r_clients s)) = c').
  { intros c'. unfold get_client. cbn [r_clients set_client]. rewrite upd_nth by (unfold s1; cbn [r_clients]; rewrite app_length; cbn; lia).
    now rewrite Nat.eqb_refl. }
  split; [unfold registered, s1; cbn [r_registry set_client]; apply dget_dset_eq|].
  split; [unfold client_of; cbn [r_devices set_client]; rewrite nth_error_app2 by lia; now rewrite Nat.sub_diag|].
  unfold port_open. rewrite EG. rewrite EK. cbn [c_open c_name c_baud c_parity].
  split; [reflexivity|]. split; [reflexivity|]. split; [reflexivity|].
  split; [destruct baud; auto|destruct parity; auto].
Qed.
Example C38_new_port_settings_case : registered rstate0 [97] = None /\ exists s', dev_open 1 [97] None (Some [69]) true rstate0 = (s', Ok 0%nat) /\
  map c_baud (r_clients s') = [9600] /\ map c_parity (r_clients s') = [[69]].
Proof. split; [reflexivity|]. eexists. split; [reflexivity|]. split; reflexivity. Qed.
Print Assumptions C38_new_port_settings.
(** an open that fails at the operating system leaves no trace *)
Theorem C38_failed_open_has_no_effect :
  forall s slave name baud parity can_open s' e, dev_open slave name baud parity can_open s = (s', Raise e) -> s' = s.
Proof.
  intros s slave name baud parity can s' e. unfold dev_open, rtu_client.
  destruct (dget name (r_registry s)).
  - destruct (match baud with Some b => negb _ | None => _ end); [congruence|].
    destruct (match parity with Some b => negb _ | None => _ end); congruence.
  - destruct can; congruence.
Qed.
Print Assumptions C38_failed_open_has_no_effect.

Definition port_a : str := [97].
Example C38_ex :
  let evs := [EvOpen 1 port_a None None true; EvOpen 2 port_a (Some 9600) None true; EvClose 0;
              EvOpen 3 port_a (Some 19200) None true] in
  disciplined evs /\ snd (run evs) = [(1%nat, (2, port_a))] /\ registered (fst (run evs)) port_a = Some 0%nat.
Proof.
  split; [|vm_compute; auto].
  change (disciplined (((([] ++ [EvOpen 1 port_a None None true]) ++ [EvOpen 2 port_a (Some 9600) None true])
    ++ [EvClose 0]) ++ [EvOpen 3 port_a (Some 19200) None true])).
  repeat apply disc_snoc; [constructor| | | |]; vm_compute.
  - intros d [].
  - intros d [E|[]]; discriminate.
  - eexists; right; left; reflexivity.
  - intros d [E|[]]; discriminate.
Qed.
(** in that history the last close (of device 1) closes and unregisters the port *)
Example C38_ex_last :
  let s := fst (run [EvOpen 1 port_a None None true; EvOpen 2 port_a (Some 9600) None true; EvClose 0; EvClose 1]) in
  registered s port_a = None /\ port_open s 0 = false.
Proof. vm_compute. auto. Qed.

(** ** C39 *)
(** closing one device in use never disturbs another one (device 0 and 1 are arbitrary objects) *)
Theorem C39_close_does_not_disturb_partial :
  forall evs d d' slave' name', disciplined (evs ++ [EvClose d]) -> d' <> d ->
  In (d', (slave', name')) (snd (run evs)) ->
  exists c, client_of (fst (run evs)) d' = Some c /\ client_of (fst (run (evs ++ [EvClose d]))) d' = Some c /\
    registered (fst (run (evs ++ [EvClose d]))) name' = Some c /\ port_open (fst (run (evs ++ [EvClose d]))) c = true.
Proof.
  intros evs d d' sl' n' HD Hne Hin.
  destruct (C38_port_open_exactly_while_used _ HD) as (_ & H & _).
  assert (Hin' : In (d', (sl', n')) (snd (run (evs ++ [EvClose d])))).
  { rewrite run_snoc. cbn [run1 snd]. apply filter_In. split; [exact Hin|]. cbn. destruct (Nat.eqb_spec d' d); auto. }
  destruct (H _ _ _ Hin') as (E & c & Hr & Ho). exists c. rewrite E. repeat split; auto.
  rewrite <- Hr, <- E. rewrite run_snoc. unfold client_of. cbn [run1 fst]. unfold dev_close.
  destruct (nth_error (r_devices (fst (run evs))) d); [|reflexivity].
  destruct (length _ =? 0)%nat; reflexivity.
Qed.
Print Assumptions C39_close_does_not_disturb_partial.
(** closing a device twice unregisters the port of a device opened in between, and the next device
    opens the port a second time: two open clients on one port *)
Theorem C39_double_close_refuted :
  let evs := [EvOpen 1 port_a None None true; EvClose 0; EvOpen 2 port_a None None true; EvClose 0] in
  snd (run evs) = [(1%nat, (2, port_a))] /\ registered (fst (run evs)) port_a = None /\
  let s := fst (run (evs ++ [EvOpen 3 port_a None None true])) in
  client_of s 1 = Some 1%nat /\ client_of s 2 = Some 2%nat /\ port_open s 1 = true /\ port_open s 2 = true.
Proof. vm_compute. repeat split. Qed.
Print Assumptions C39_double_close_refuted.
(** two devices with the same slave id on one port: closing one closes the port of the other *)
Theorem C39_same_slave_refuted :
  let evs := [EvOpen 1 port_a None None true; EvOpen 1 port_a None None true; EvClose 0] in
  snd (run evs) = [(1%nat, (1, port_a))] /\ client_of (fst (run evs)) 1 = Some 0%nat /\ port_open (fst (run evs)) 0 = false.
Proof. vm_compute. repeat split. Qed.
Print Assumptions C39_same_slave_refuted.
