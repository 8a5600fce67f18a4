(** * C_Construct: properties C80 (creating a ClientDevice), C81 (timeouts), C82 (TLS). *)
From Coq Require Import String.
From Verif Require Import Py P_List M_Xml M_Path M_Suns M_Float M_Mbmap M_Files S_Files M_Registry S_Registry P_Registry M_Client M_Device M_Scan M_Construct S_Construct P_Construct.
From Verif Require C_Mbmap.

(** ** C80 *)
(** A serial device: the only error (without a negative timeout) is SunSpecClientError, and then no port is opened,
    registered or changed; otherwise the device is registered with its port *)
Theorem C80_rtu_partial :
  forall E fs parse a can s s' r, match a_timeout a with Some t => 0 <= t | None => True end ->
  client_construct E fs parse DRtu a can s = (s', r) ->
  (r = Raise ESunSpecClient /\ s' = s) \/
  exists d c, r = Ok (MRtu d) /\ client_of (pt_reg s') d = Some c /\ registered (pt_reg s') (match a_name a with Some n => n | None => [] end) = Some c.
Proof.
  intros E fs parse a can s s' r HT. cbn [client_construct]. unfold rtu_construct.
  destruct (dev_open (a_slave a) _ (a_baud a) (a_parity a) can (pt_reg s)) as [r1 [d|e]] eqn:EO.
  - destruct (dev_open_client _ _ _ _ _ _ _ _ EO) as (c & HC & _).
    assert (HR : registered r1 (match a_name a with Some n => n | None => [] end) = Some c).
    { unfold dev_open in EO. destruct (M_Registry.rtu_client _ _ _ can (pt_reg s)) as [s1 [c1|e]] eqn:E1; [|congruence].
      apply pair_equal_spec in EO as [EO1 EO2]. apply Ok_inj in EO2. subst r1 d. unfold client_of in HC. cbn [r_devices set_client] in HC.
      rewrite nth_error_app2, Nat.sub_diag in HC by lia. cbn [nth_error option_map d_client] in HC. apply Some_inj in HC. subst c1.
      unfold registered. cbn [r_registry set_client]. unfold M_Registry.rtu_client in E1.
      destruct (dget _ (r_registry (pt_reg s))) as [k|] eqn:EG.
      - destruct (match a_baud a with Some b => negb _ | None => _ end); [congruence|].
        destruct (match a_parity a with Some b => negb _ | None => _ end); [congruence|].
        apply pair_equal_spec in E1 as [<- E2]. apply Ok_inj in E2. subst k. exact EG.
      - destruct can; [|congruence]. apply pair_equal_spec in E1 as [<- E2]. apply Ok_inj in E2. subst c. cbn [r_registry]. apply dget_dset_eq. }
    destruct (a_timeout a) as [t|].
    + destruct (Z.ltb_spec t 0) as [Hneg|Hnn]; [lia|]. intros H. apply pair_equal_spec in H as [<- <-]. right. exists d, c. auto.
    + intros H. apply pair_equal_spec in H as [<- <-]. right. exists d, c. auto.
  - destruct (dev_open_fail _ _ _ _ _ _ _ _ EO) as [-> ->]. intros H. apply pair_equal_spec in H as [<- <-]. left. split; [reflexivity|]. now destruct s.
Qed.
Print Assumptions C80_rtu_partial.
(** closing the only device of a port closes the port and gives its name free: the next device opens the port again *)
Theorem C80_close_releases_port :
  forall E fs parse a can s s' d, let name := match a_name a with Some n => n | None => [] end in
  registered (pt_reg s) name = None -> client_construct E fs parse DRtu a can s = (s', Ok (MRtu d)) ->
  let s2 := client_close (MRtu d) s' in
  registered (pt_reg s2) name = None /\
  (forall c, client_of (pt_reg s') d = Some c -> port_open (pt_reg s') c = true /\ port_open (pt_reg s2) c = false) /\
  (forall n, n <> name -> registered (pt_reg s2) n = registered (pt_reg s) n).
Proof.
  intros E fs parse a can s s' d name HN H. cbn [client_construct] in H. fold name in H.
  destruct (rtu_construct (a_slave a) name (a_baud a) (a_parity a) (a_timeout a) can s) as [s1 r] eqn:ER.
  apply pair_equal_spec in H as [<- H]. destruct r as [d0|]; [|discriminate H]. cbn [bind] in H.
  assert (d0 = d) by congruence. subst d0. clear H. unfold rtu_construct in ER.
  destruct (dev_open (a_slave a) name (a_baud a) (a_parity a) can (pt_reg s)) as [r1 r] eqn:EO.
  assert (HR : r = Ok d /\ pt_reg s1 = r1).
  { destruct r as [d1|]; [|discriminate (f_equal snd ER)]. destruct (a_timeout a) as [t|].
    - destruct (t <? 0); [discriminate (f_equal snd ER)|]. apply pair_equal_spec in ER as [<- ER]. apply Ok_inj in ER. subst d1. auto.
    - apply pair_equal_spec in ER as [<- ER]. apply Ok_inj in ER. subst d1. auto. }
  destruct HR as [-> HR]. unfold dev_open, M_Registry.rtu_client in EO. unfold registered in HN. rewrite HN in EO. cbv zeta in EO.
  destruct can; [|discriminate (f_equal snd EO)]. apply pair_equal_spec in EO as [EO ED]. apply Ok_inj in ED. cbn [client_close pt_reg]. rewrite HR, <- EO.
  set (q := mkRS (r_clients (pt_reg s) ++ _) (r_devices (pt_reg s)) (dset name (length (r_clients (pt_reg s))) (r_registry (pt_reg s)))) in *.
  set (L := length (r_clients (pt_reg s))) in *.
  assert (EK : get_client q L = mkRC name (match a_baud a with Some b => b | None => 9600 end) (match a_parity a with Some p => p | None => PARITY_NONE end) true []).
  { unfold get_client, q, L. cbn [r_clients]. rewrite app_nth2 by lia. now rewrite Nat.sub_diag. }
  rewrite EK. cbn [c_name c_baud c_parity c_open c_devs zset]. set (k2 := mkRC name _ _ true [(a_slave a, length (r_devices q))]).
  set (q2 := mkRS (r_clients (set_client q L k2)) (r_devices (set_client q L k2) ++ [mkRD (a_slave a) name L]) (r_registry (set_client q L k2))).
  assert (HL : (L < length (r_clients q2))%nat) by (unfold q2; cbn [r_clients set_client]; rewrite upd_length; unfold q; cbn [r_clients]; rewrite app_length; cbn; lia).
  assert (EN : nth_error (r_devices q2) d = Some (mkRD (a_slave a) name L)).
  { subst d. unfold q2. cbn [r_devices set_client]. rewrite nth_error_app2 by (unfold q; cbn [r_devices]; lia). now rewrite Nat.sub_diag. }
  assert (EK2 : get_client q2 L = k2).
  { unfold get_client, q2. cbn [r_clients set_client]. rewrite upd_nth; [now rewrite Nat.eqb_refl|].
    unfold q2 in HL. cbn [r_clients set_client] in HL. now rewrite upd_length in HL. }
  unfold dev_close. rewrite EN. cbn [d_client d_slave]. rewrite EK2. unfold k2. cbn [c_devs]. unfold zdel. cbn [filter fst]. rewrite Z.eqb_refl. cbn [negb length Nat.eqb].
  cbn [c_name c_baud c_parity]. unfold registered. cbn [r_registry set_client]. split; [apply dget_ddel_eq|]. split.
  - intros c Hc. unfold client_of in Hc. rewrite EN in Hc. cbn [option_map d_client] in Hc. apply Some_inj in Hc. subst c. unfold port_open. rewrite EK2.
    split; [reflexivity|]. unfold get_client. cbn [r_clients set_client]. rewrite upd_nth by exact HL. now rewrite Nat.eqb_refl.
  - intros n Hn. rewrite dget_ddel_neq by auto. unfold q2, q. cbn [r_registry set_client]. apply dget_dset_neq. auto.
Qed.
Print Assumptions C80_close_releases_port.
Example C80_close_case : exists s', registered (pt_reg pstate0) (lit "com1"%string) = None /\
  client_construct C_Mbmap.env0 (fun _ => None) (fun _ => Raise EType) DRtu
    (mkArgs 1 (Some (lit "com1"%string)) None None None [] None false None None None false (Some 3000)) true pstate0 = (s', Ok (MRtu 0)).
Proof. eexists. split; reflexivity. Qed.
(** a negative timeout: the error is not a SunSpecClientError, and the port stays open with a device nobody can close *)
Theorem C80_bad_timeout_refuted :
  forall E fs parse a s t, a_timeout a = Some t -> t < 0 -> a_name a = Some (lit "com1"%string) -> s = pstate0 ->
  exists s', client_construct E fs parse DRtu a true s = (s', Raise EValue) /\
    registered (pt_reg s') (lit "com1"%string) = Some 0%nat /\ port_open (pt_reg s') 0 = true.
Proof.
  intros E fs parse a s t HT Ht HN ->. cbn [client_construct]. rewrite HN, HT. unfold rtu_construct.
  destruct (dev_open (a_slave a) (lit "com1"%string) (a_baud a) (a_parity a) true (pt_reg pstate0)) as [r1 r] eqn:EO.
  unfold dev_open in EO. cbn in EO. apply pair_equal_spec in EO as [E1 E2]. subst r r1. destruct (Z.ltb_spec t 0); [|lia].
  eexists. split; [reflexivity|]. split; reflexivity.
Qed.
Print Assumptions C80_bad_timeout_refuted.
(** a TCP device is always created, without any traffic, with port 502 and a timeout of 2 s unless given *)
Theorem C80_tcp :
  forall E fs parse a can s, exists d, client_construct E fs parse DTcp a can s = (s, Ok (MTcp d)) /\
  td_slave d = a_slave a /\ td_ipaddr d = a_ipaddr a /\
  (a_ipport a = Some (td_ipport d) \/ a_ipport a = None /\ td_ipport d = 502) /\
  (a_timeout a = Some (td_timeout d) \/ a_timeout a = None /\ td_timeout d = 2000).
Proof.
  intros. eexists. split; [reflexivity|]. unfold tcp_construct. cbn [td_slave td_ipaddr td_ipport td_timeout].
  split; [reflexivity|]. split; [reflexivity|].
  split; [destruct (a_ipport a)|destruct (a_timeout a)]; auto.
Qed.
Print Assumptions C80_tcp.
(** a mapped device holds the map loaded from the file *)
Theorem C80_mapped :
  forall E fs parse a can s name c root m, a_name a = Some name ->
  match a_pathlist a with Some l => pathlist_read fs l name = Ok c | None => file_has fs name c end -> parse c = Ok root ->
  map_from_xml E (mkMap 3 (BInt 40000) None None None None []) root = (m, Ok tt) ->
  client_construct E fs parse DMapped a can s = (s, Ok (MMap m)).
Proof.
  intros E fs parse a can s name c root m HN HF HP HM. cbn [client_construct]. rewrite HN. unfold mapped_construct.
  change (new_map V_HOLDING 40000) with (Ok (mkMap 3 (BInt 40000) None None None None [])). cbn [bind]. unfold map_from_file, mbmap_data.
  assert (ED : (let! d := match a_pathlist a with Some ps => pathlist_read fs ps name | None => open_read fs name end in parse d) = Ok root).
  { destruct (a_pathlist a) as [l|]; [rewrite HF; exact HP|]. destruct HF as [z HF]. unfold open_read. rewrite HF. exact HP. }
  rewrite ED, HM. reflexivity.
Qed.
Print Assumptions C80_mapped.
Theorem C80_mapped_needs_name :
  forall E fs parse a can s, a_name a = None -> client_construct E fs parse DMapped a can s = (s, Raise ESunSpecClient).
Proof. intros E fs parse a can s HN. cbn [client_construct]. now rewrite HN. Qed.
Print Assumptions C80_mapped_needs_name.
(** but a missing or malformed map file is reported as ModbusMapError, not as SunSpecClientError *)
Theorem C80_missing_map_refuted :
  forall E fs parse a can s name, a_name a = Some name ->
  (forall c root, match a_pathlist a with Some l => pathlist_read fs l name = Ok c | None => file_has fs name c end -> parse c <> Ok root) ->
  client_construct E fs parse DMapped a can s = (s, Raise EModbusMap).
Proof.
  intros E fs parse a can s name HN H. cbn [client_construct]. rewrite HN. unfold mapped_construct.
  change (new_map V_HOLDING 40000) with (Ok (mkMap 3 (BInt 40000) None None None None [])). cbn [bind]. unfold map_from_file, mbmap_data.
  destruct (a_pathlist a) as [l|].
  - destruct (pathlist_read fs l name) as [c|]; cbn [bind]; [|reflexivity]. destruct (parse c) eqn:EP; [|reflexivity]. destruct (H c a0 eq_refl EP).
  - unfold open_read. destruct (fs name) as [[|c z]|] eqn:EF; cbn [bind]; try reflexivity.
    destruct (parse c) eqn:EP; [|reflexivity]. destruct (H c a0); [exists z; exact EF|exact EP].
Qed.
Print Assumptions C80_missing_map_refuted.
(** an unknown device type is accepted; only reading, writing or scanning reports it, as SunSpecClientError *)
Theorem C80_unknown_type_refuted :
  forall E fs parse a can s, client_construct E fs parse DOther a can s = (s, Ok MNone).
Proof. reflexivity. Qed.
Print Assumptions C80_unknown_type_refuted.
Theorem C80_no_transport :
  forall D (s : D) addr n data lfuel types progress fuel,
  cl_read no_device s addr n = (s, Raise ESunSpecClient) /\ cl_write no_device s addr data = (s, Raise ESunSpecClient) /\
  scan no_client lfuel types progress fuel s new_cdevice = (s, new_cdevice, Raise ESunSpecClient).
Proof. intros. split; [reflexivity|]. split; [reflexivity|]. apply scan_no_client. Qed.
Print Assumptions C80_no_transport.
Definition ex_args : cargs := mkArgs 1 (Some (lit "com1"%string)) None None None [] None false None None None false (Some 3000).
Example C80_ex :
  client_construct C_Mbmap.env0 (fun _ => None) (fun _ => Raise EType) DRtu ex_args false pstate0 = (pstate0, Raise ESunSpecClient) /\
  snd (client_construct C_Mbmap.env0 (fun _ => None) (fun _ => Raise EType) DRtu ex_args true pstate0) = Ok (MRtu 0).
Proof. split; reflexivity. Qed.

(** ** C81 *)
(** refuted: devices on one port share its timeout; the last one given is used for all of them *)
Definition ex_history : list pevent := [PMake 1 (lit "com1"%string) None None (Some 3000) true; PMake 2 (lit "com1"%string) None None (Some 100) true].
Theorem C81_shared_timeout_refuted :
  client_of (pt_reg (fst (prun ex_history))) 0 = Some 0%nat /\ client_of (pt_reg (fst (prun ex_history))) 1 = Some 0%nat /\
  pt_timeout (fst (prun [PMake 1 (lit "com1"%string) None None (Some 3000) true])) 0 = 3000 /\
  pt_timeout (fst (prun ex_history)) 0 = 100.
Proof. vm_compute. auto. Qed.
Print Assumptions C81_shared_timeout_refuted.
(** exactly: after any history the timeout of a serial client is the last one given by a device created on it *)
Theorem C81_last_timeout_wins :
  forall evs c, pt_timeout (fst (prun evs)) c = last_given c (snd (prun evs)).
Proof. exact timeout_spec. Qed.
Print Assumptions C81_last_timeout_wins.
(** so a device that never shared its client has the timeout it asked for, or half a second *)
Theorem C81_own_timeout_partial :
  forall evs c t a b, snd (prun evs) = a ++ (c, t) :: b -> (forall e, In e (a ++ b) -> fst e <> c) ->
  pt_timeout (fst (prun evs)) c = match t with Some x => x | None => 500 end.
Proof. intros evs c t a b H HN. rewrite timeout_spec, H. now apply last_given_one. Qed.
Print Assumptions C81_own_timeout_partial.
Example C81_ex :
  let evs := [PMake 1 (lit "com1"%string) None None (Some 3000) true; PMake 1 (lit "com2"%string) None None None true] in
  snd (prun evs) = [(0%nat, Some 3000); (1%nat, None)] /\ pt_timeout (fst (prun evs)) 0 = 3000 /\ pt_timeout (fst (prun evs)) 1 = 500.
Proof. vm_compute. auto. Qed.
(** a TCP device sets its timeout on every connection unless connect is given another one *)
Theorem C81_tcp_timeout :
  forall N d timeout, at_timeout (tcp_connect_attempt N d timeout) = match timeout with Some t => t | None => td_timeout d end.
Proof.
  intros N d timeout. unfold tcp_connect_attempt. cbv zeta. destruct (_ <? 0); [reflexivity|]. destruct (td_tls d); [|reflexivity].
  destruct (negb (n_ca_loads N (td_cafile d))); [reflexivity|]. destruct (td_certfile d); [|reflexivity]. destruct (negb _); reflexivity.
Qed.
Print Assumptions C81_tcp_timeout.

(** ** C82 *)
(** with tls=True a connection is only made to the configured address, over TLS, to a server whose certificate is signed
    by the CA and, unless insecure_skip_tls_verify was given, issued for the address; and with the client certificate *)
Theorem C82_tls_verified :
  forall N slave ipaddr ipport timeout cafile certfile keyfile insecure t0,
  let d := tcp_construct slave ipaddr ipport timeout true cafile certfile keyfile insecure in
  at_result (tcp_connect_attempt N d t0) = Ok tt ->
  at_target (tcp_connect_attempt N d t0) = Some (ipaddr, td_ipport d) /\
  at_tls (tcp_connect_attempt N d t0) = Some (negb insecure) /\
  n_trusted N cafile ipaddr (td_ipport d) = true /\
  (insecure = false -> n_named N ipaddr (td_ipport d) = true) /\
  exists cert, certfile = Some cert /\ n_cert_loads N cert keyfile = true.
Proof.
  intros N slave ipaddr ipport timeout cafile certfile keyfile insecure t0 d.
  unfold tcp_connect_attempt. cbn [td_tls d tcp_construct td_cafile td_certfile td_keyfile td_ipaddr td_tls_verify].
  cbv zeta. destruct (_ <? 0); [discriminate|]. destruct (n_ca_loads N cafile); cbn [negb]; [|discriminate].
  destruct certfile as [cert|]; [|discriminate]. destruct (n_cert_loads N cert keyfile) eqn:EC; cbn [negb]; [|discriminate].
  cbn [at_result at_target at_tls]. intros H.
  destruct (n_accepts _ _ _); cbn [andb] in H; [|discriminate]. destruct (n_trusted _ _ _ _) eqn:ET; cbn [andb] in H; [|discriminate].
  split; [reflexivity|]. split; [reflexivity|]. split; [reflexivity|]. split; [|eauto].
  intros ->. cbn [negb orb] in H. destruct (n_named _ _ _) eqn:EN; [reflexivity|discriminate].
Qed.
Print Assumptions C82_tls_verified.
(** every failure is a ModbusClientError; without tls the TLS options have no effect *)
Theorem C82_failures :
  forall N d t e, at_result (tcp_connect_attempt N d t) = Raise e -> e = EModbusClient.
Proof.
  intros N d t e. unfold tcp_connect_attempt. cbv zeta. destruct (_ <? 0); [cbn; congruence|]. destruct (td_tls d).
  - destruct (negb _); [cbn; congruence|]. destruct (td_certfile d); [|cbn; congruence]. destruct (negb _); [cbn; congruence|].
    cbn [at_result]. destruct (_ && _); congruence.
  - cbn [at_result]. destruct (n_accepts _ _ _); congruence.
Qed.
Print Assumptions C82_failures.
Theorem C82_options_ignored_without_tls :
  forall N slave ipaddr ipport timeout ca cert key ins ca' cert' key' ins' t0,
  tcp_connect_attempt N (tcp_construct slave ipaddr ipport timeout false ca cert key ins) t0 =
  tcp_connect_attempt N (tcp_construct slave ipaddr ipport timeout false ca' cert' key' ins') t0.
Proof. reflexivity. Qed.
Print Assumptions C82_options_ignored_without_tls.
(** refuted: insecure_skip_tls_verify does not skip the verification of the certificate, only of the name in it *)
Theorem C82_skip_verify_refuted :
  forall N slave ipaddr ipport timeout ca cert key t0,
  let d := tcp_construct slave ipaddr ipport timeout true ca cert key true in
  n_trusted N ca ipaddr (td_ipport d) = false -> at_result (tcp_connect_attempt N d t0) = Raise EModbusClient.
Proof.
  intros N slave ipaddr ipport timeout ca cert key t0 d HT. unfold tcp_connect_attempt.
  cbn [td_tls d tcp_construct td_cafile td_certfile td_keyfile td_ipaddr td_tls_verify]. cbv zeta.
  destruct (_ <? 0); [reflexivity|]. destruct (negb _); [reflexivity|]. destruct cert; [|reflexivity]. destruct (negb (n_cert_loads _ _ _)); [reflexivity|].
  cbn [at_result]. rewrite HT, andb_false_r. reflexivity.
Qed.
Print Assumptions C82_skip_verify_refuted.
(** refuted: the client certificate, None by default, is not optional *)
Theorem C82_client_certificate_required_refuted :
  forall N slave ipaddr ipport timeout ca key ins t0,
  at_result (tcp_connect_attempt N (tcp_construct slave ipaddr ipport timeout true ca None key ins) t0) = Raise EModbusClient.
Proof.
  intros. unfold tcp_connect_attempt. cbn [td_tls tcp_construct td_cafile td_certfile]. cbv zeta.
  destruct (_ <? 0); [reflexivity|]. destruct (negb _); reflexivity.
Qed.
Print Assumptions C82_client_certificate_required_refuted.
(** conversely, a reachable server with a certificate that is trusted and issued for the address is connected *)
Theorem C82_connects_partial :
  forall N slave ipaddr ipport timeout ca cert key ins,
  let d := tcp_construct slave ipaddr ipport timeout true ca (Some cert) key ins in
  0 <= td_timeout d -> n_ca_loads N ca = true -> n_cert_loads N cert key = true -> n_accepts N ipaddr (td_ipport d) = true ->
  n_trusted N ca ipaddr (td_ipport d) = true -> (ins = false -> n_named N ipaddr (td_ipport d) = true) ->
  at_result (tcp_connect_attempt N d None) = Ok tt.
Proof.
  intros N slave ipaddr ipport timeout ca cert key ins d Ht HC HL HA HT HN. unfold tcp_connect_attempt.
  destruct (Z.ltb_spec (td_timeout d) 0); [lia|]. change (td_tls d) with true. change (td_cafile d) with ca.
  change (td_certfile d) with (Some cert). change (td_keyfile d) with key. change (td_ipaddr d) with ipaddr. change (td_tls_verify d) with (negb ins).
  cbv iota zeta. rewrite HC, HL. cbn [negb at_result]. rewrite HA, HT. destruct ins; [reflexivity|]. rewrite HN by reflexivity. reflexivity.
Qed.
Print Assumptions C82_connects_partial.
Example C82_ex :
  let N := mkNet (fun _ => true) (fun _ _ => true) (fun _ _ => true) (fun _ _ _ => true) (fun _ _ => false) in
  at_result (tcp_connect_attempt N (tcp_construct 1 (lit "10.0.0.1"%string) None None true None (Some (lit "c"%string)) None true) None) = Ok tt /\
  at_result (tcp_connect_attempt N (tcp_construct 1 (lit "10.0.0.1"%string) None None true None (Some (lit "c"%string)) None false) None) = Raise EModbusClient.
Proof. vm_compute. auto. Qed.
