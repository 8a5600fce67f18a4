(** * C_Main: property C105 — the program scripts/suns.py from its options to its output. *)
From Coq Require Import String.
From Verif Require P_PicsRead C_Report C_Scale C_Scan C_Client C_Device C_Rtu C_Tcp C_Mbmap.
From Verif Require Import Py P_List M_Xml M_Util M_Float M_Suns M_Point M_Mbmap S_Mbmap M_Path M_Files S_Files M_Registry M_Wire M_Rtu M_Tcp S_Tcp M_Device M_Client S_Client S_Device
  M_Construct M_Scan S_Scan S_Stack P_Stack P_Stack2 C_Stack M_Session S_Session P_Session C_Session M_Wrapper S_Wrapper P_Wrapper C_Wrapper M_Report S_Report P_Report C_Construct M_Main S_Main.

(** ** from the options to the device *)
Section Proofs.
  Context (E : pyenv) (lfuel fuel : nat) (types : Z -> res modeltype) (inherited : list str).
  Context {D1 D2 : Type} (ports : str -> Z -> str -> Z -> sdev D1 * D1) (can_open : str -> bool) (hosts : str -> Z -> Z -> server D2 * D2)
          (fs : fsys) (parse : bytes -> res xml).
  Notation main := (suns_main E lfuel fuel types inherited ports can_open hosts fs parse).
  Notation runs := (run_device E lfuel fuel types inherited).

  Definition lo_of (b : Z) : Z := if b =? 40000 then 40000 else 0.
  Definition hi_of (b e : Z) : Z := if b =? 40000 then e + 1 else 65536.

  Lemma no_writes {D} (dev : sdev D) regs slave : S_Modbus.serves_writes dev regs slave 0.
  Proof. intros s addr data _ _ H. lia. Qed.
  Lemma no_tcp_writes {D} (srv : server D) regs slave : tcp_serves_writes srv regs slave 0.
  Proof. intros s addr data _ _ H. lia. Qed.

  Lemma rtu_made o b : b = true -> 0 <= o_T o ->
    client_construct E fs parse DRtu (rtu_args o) b pstate0 =
      (mkPT (mkRS [mkRC (o_p o) (o_b o) (lit "N"%string) true [(o_a o, 0%nat)]] [mkRD (o_a o) (o_p o) 0] [(o_p o, 0%nat)])
            (fun k => if (k =? 0)%nat then o_T o else RTU_DEFAULT_TIMEOUT), Ok (MRtu 0)).
  Proof.
    intros -> HT. cbn [client_construct]. unfold rtu_construct, dev_open, M_Registry.rtu_client.
    cbn [rtu_args a_slave a_name a_baud a_parity a_timeout pstate0 pt_reg rstate0 r_registry dget]. replace (o_T o <? 0) with false by lia. reflexivity.
  Qed.
  Lemma reaches_client mem b e o : reaches ports can_open hosts E fs parse mem b e o -> e < 65536 ->
    exists D (c : sclient D) s rel lo hi, main o = runs c s /\ implements (scl_dev c) rel lo hi 0 /\ connects c rel /\ rel s mem /\
      lo <= lo_of b /\ hi_of b e <= hi.
  Proof.
    intros HR HE. assert (HLH : 0 <= lo_of b /\ hi_of b e <= 65536) by (unfold lo_of, hi_of; destruct (b =? 40000); lia).
    destruct HR as [dev s regs HT HC HTO HP H1 H2 H3 HM|srv s regs HT HP H1 H2 H3 HM|name c root m HT HN HF HP HX HB HM].
    - exists D1, (rtu_client dev false true (o_a o)), s, (rtu_rel regs), 0, 65536. split; [|split; [|split; [|split; [exact HM|lia]]]].
      + unfold suns_main. rewrite HT. change (eqb_list (lit "rtu"%string) (lit "tcp"%string)) with false. change (eqb_list (lit "rtu"%string) (lit "rtu"%string)) with true. cbv beta iota zeta.
        rewrite (rtu_made o (can_open (o_p o)) HC HTO). cbn [pt_reg r_devices nth_error d_client d_slave get_client nth r_clients c_name c_baud c_parity pt_timeout Nat.eqb]. unfold get_client. cbn [r_clients nth c_name c_baud c_parity]. rewrite HP. reflexivity.
      + apply rtu_implements_small; auto using no_writes; lia.
      + apply rtu_connects.
    - exists (tcp (D := D2)), (tcp_client srv false (o_a o)), (SNone, s), (tcp_rel regs), 0, 65536. split; [|split; [|split; [|split; [split; [now right|exact HM]|lia]]]].
      + unfold suns_main. rewrite HT. change (eqb_list (lit "tcp"%string) (lit "tcp"%string)) with true. cbv beta iota zeta.
        cbn [client_construct snd tcp_args a_slave a_ipaddr a_ipport a_timeout a_tls a_cafile a_certfile a_keyfile a_insecure tcp_construct td_ipaddr td_ipport td_timeout td_slave]. rewrite HP. reflexivity.
      + apply tcp_implements; auto using no_tcp_writes. lia.
      + apply tcp_connects; assumption.
    - exists mbmap, map_client, m, (map_holds 40000 (e + 1)), 40000, (e + 1). split; [|split; [apply map_implements|split; [apply map_connects|split; [exact HM|]]]].
      + unfold suns_main. rewrite HT. change (eqb_list (lit "mapped"%string) (lit "tcp"%string)) with false. change (eqb_list (lit "mapped"%string) (lit "rtu"%string)) with false.
        change (eqb_list (lit "mapped"%string) (lit "mapped"%string)) with true. cbv beta iota zeta.
        rewrite (C80_mapped E fs parse (mapped_args o) (can_open (o_p o)) pstate0 name c root m HN HF HP HX). reflexivity.
      + subst b. unfold lo_of, hi_of. rewrite Z.eqb_refl. lia.
  Qed.

  (** the run on the ideal device *)
  Lemma ideal_run mem b l e : loads_end lfuel types -> byte_memory mem -> sunspec_map mem b l e -> first_marker mem b -> e < 65536 ->
    Forall (readable lfuel types) l -> (length l < fuel)%nat ->
    exists i1 ms i2 ms', scan ideal_client lfuel types None fuel (mem, []) new_cdevice = (i1, mkCD (Some b) ms, Ok tt) /\
      Forall2 (model_for lfuel types) l ms /\ device_read_points (scl_dev ideal_client) i1 ms = (i2, ms', Ok tt) /\
      Forall2 (values_read mem) ms ms' /\ Forall (within (lo_of b) (hi_of b e) 0) (snd i2).
  Proof.
    intros HLE HB HM HF HE HR HN. destruct (first_marker_range _ _ HF) as [Hb HPRE].
    assert (HP : exists pre post, [40000; 0; 50000] = pre ++ b :: post /\ Forall (fun a => lo_of b <= a /\ a + 3 <= hi_of b e /\ mem_bytes mem a 2 <> [83; 117; 110; 83]) pre).
    { destruct HPRE as (pre & post & EP & HPR). unfold lo_of, hi_of. destruct (Z.eqb_spec b 40000) as [->|NE].
      - exists [], [0; 50000]. auto.
      - exists pre, post. auto. }
    assert (HB2 : lo_of b <= b /\ e < hi_of b e) by (unfold lo_of, hi_of; destruct (Z.eqb_spec b 40000); lia).
    destruct (end_to_end ideal_client (ideal_rel (lo_of b) (hi_of b e)) (lo_of b) (hi_of b e) 0 (ideal_implements _ _)
      (fun s mem H => ex_intro _ s (conj eq_refl H)) (fun s s' mem H E => eq_ind_r (fun x => ideal_rel _ _ x mem) H E) lfuel types None HLE ltac:(discriminate)
      mem b l e fuel (mem, []) (conj (fun x => eq_refl) (Forall_nil _)) HB HM HP (proj1 HB2) (proj2 HB2) HR HN)
      as (s1 & ms & s2 & ms' & A & A' & C & C' & [_ RF] & _).
    exists s1, ms, s2, ms'. auto.
  Qed.
  Lemma same_run {D} (c : sclient D) rel lo hi s mem i1 cd i2 ms' : implements (scl_dev c) rel lo hi 0 -> connects c rel -> rel s mem ->
    scan ideal_client lfuel types None fuel (mem, []) new_cdevice = (i1, cd, Ok tt) ->
    device_read_points (scl_dev ideal_client) i1 (cd_models cd) = (i2, ms', Ok tt) -> Forall (within lo hi 0) (snd i2) ->
    runs c s = runs ideal_client (mem, []).
  Proof.
    intros HI HC HS E1 E2 HW.
    pose proof (device_read_points_agrees c rel lo hi 0 HI ideal_client eq_refl (cd_models cd) i1) as A2. unfold agrees3 in A2. rewrite E2 in A2. destruct (A2 HW) as [F1 A2'].
    pose proof (scan_agrees c rel lo hi 0 HI HC ideal_client eq_refl lfuel types None fuel new_cdevice (mem, [])) as A1. unfold agrees3 in A1. rewrite E1 in A1.
    destruct (A1 F1) as [_ A1']. destruct (A1' s HS) as (s1 & X1 & R1). cbn [fst snd] in X1, R1. destruct (A2' s1 R1) as (s2 & X2 & _). cbn [fst snd] in X2.
    unfold run_device. rewrite X1, E1, X2, E2. reflexivity.
  Qed.

  Lemma entry_wrappable x m : presentable types inherited x -> readable lfuel types x -> model_for lfuel types x m ->
    wrappable types m /\ forall n, named m n -> free_name inherited n.
  Proof.
    destruct x as [[id addr] len]. intros HP HR HF. unfold presentable in HP. destruct HF as (F1 & F2 & _ & F4).
    destruct (model_load lfuel types (new_model id addr len)) as [m0 r] eqn:EL. pose proof (P_PicsRead.load_meta _ _ _ _ _ _ _ EL) as [EID EMT].
    destruct HR as [(e & HR)|(_ & HR & mt & F & HT & _)].
    - rewrite HR in EMT, HP. destruct EMT as (T1 & T2 & ->). destruct F4 as (_ & G2 & G3).
      assert (HN : forall n, named m n -> n = lit "model_"%string ++ str_of_int id).
      { intros n [(t & K & _)|[_ ->]]; [congruence|now rewrite F1]. }
      split; [|intros n Hn; rewrite (HN n Hn); exact HP].
      split; [exists (lit "model_"%string ++ str_of_int id); right; split; [congruence|now rewrite F1]|]. rewrite G2, T2. cbn [tl]. split; [constructor|congruence].
    - rewrite EL in HR. cbn [snd] in HR. subst r. subst m. rewrite HT in EMT, HP. destruct HP as ((n & P1 & P2) & P3).
      destruct (C_Device.C40_model_layout _ _ _ _ _ _ EL) as (mt' & L & F0 & b & reps & L1 & _ & _ & _ & _ & _ & _ & L8 & _ & L10). rewrite HT in L1. apply Ok_inj in L1. subst mt'.
      split; [|intros n' [(t & K & K')|[K _]]; congruence].
      split; [exists n; left; eauto|]. rewrite L8. cbn [tl]. destruct (mt_rep mt) as [rt|] eqn:ER.
      + destruct L10 as (R & _ & _ & L10). split; [|intros _; exists mt, rt; rewrite EID; auto].
        apply Forall_forall. intros b0 Hb0. apply In_nth_error in Hb0 as (k & Hk). destruct (L10 k b0 Hk) as (H1 & _). rewrite H1. now apply P3.
      + destruct L10 as [-> _]. split; [constructor|congruence].
  Qed.
  Lemma add_model_other k n m st st' : named m k -> n <> k -> add_model types inherited st m = Ok st' -> dget n (wd_dict (snd st')) = dget n (wd_dict (snd st)).
  Proof.
    destruct st as [c w]. intros HK HN H. unfold add_model in H. destruct (model_class_get types c (md_id m)) as [c' pts].
    assert (EK : wrapper_name m = Some k) by (unfold wrapper_name; destruct HK as [(t & -> & ->)|[-> ->]]; reflexivity).
    rewrite EK in H. apply bind_ok in H as (wm & _ & H). cbv zeta in H.
    destruct (getattr_w inherited w k) as [ex|].
    - destruct (w_truthy w ex).
      + destruct (dget k (wd_dict w)) as [[| |?|?|?]|]; apply Ok_inj in H; subst st'; cbn [snd wd_dict]; try reflexivity; now apply dget_dset_other.
      + destruct ex; try discriminate H; apply Ok_inj in H; subst st'; cbn [snd wd_dict]; now apply dget_dset_other.
    - apply Ok_inj in H. subst st'. cbn [snd wd_dict]. now apply dget_dset_other.
  Qed.
  Lemma add_models_other n ms : Forall (fun m => exists k, named m k) ms -> Forall (fun m => ~ named m n) ms -> forall st,
    dget n (wd_dict (snd (fst (add_models types inherited st ms)))) = dget n (wd_dict (snd st)).
  Proof.
    induction ms as [|m ms IH]; intros HK HN st; cbn [add_models]; [reflexivity|].
    destruct (add_model types inherited st m) as [st'|] eqn:EA; [|reflexivity]. rewrite IH; [|exact (Forall_inv_tail HK)|exact (Forall_inv_tail HN)].
    destruct (Forall_inv HK) as (k & Hk). apply (add_model_other k n m st st' Hk); [|exact EA]. intros ->. now apply (Forall_inv HN).
  Qed.
  Lemma wrapper_plain ms : Forall (wrappable types) ms -> Forall (fun m => forall n, named m n -> free_name inherited n) ms ->
    exists c w, wrapper_init types inherited [] (Ok ms) = ((c, w), Ok tt) /\ getattr_w inherited w (lit "read"%string) = Some (WMethod (lit "read"%string)) /\
      dget (lit "device"%string) (wd_dict w) = Some WDevice.
  Proof.
    intros HW HF. destruct (add_models_spec types inherited ms [] new_wdev [] HW HF (inv_new inherited)) as (c & w & ws & HA & H2 & I1 & I2 & _ & I4).
    exists c, w. unfold wrapper_init. rewrite HA. split; [reflexivity|]. split; [|exact I1].
    assert (HD : dget (lit "read"%string) (wd_dict w) = None).
    { pose proof (add_models_other (lit "read"%string) ms) as HO. specialize (HO ltac:(eapply Forall_impl; [|exact HW]; intros m (H & _); exact H)
        ltac:(eapply Forall_impl; [|exact HF]; intros m H K; apply (proj1 (H _ K)); cbn [map In]; do 3 right; left; reflexivity) ([], new_wdev)).
      change (dget (lit "read"%string) (wd_dict (snd (fst (add_models types inherited (([] : rclasses), new_wdev) ms)))) = None) in HO. rewrite HA in HO. exact HO. }
    unfold getattr_w. rewrite HD. reflexivity.
  Qed.

  (** the whole run, on the ideal device *)
  Lemma ideal_report mem b l e : loads_end lfuel types -> byte_memory mem -> sunspec_map mem b l e -> first_marker mem b -> e < 65536 ->
    Forall (readable lfuel types) l -> Forall (presentable types inherited) l -> (length l < fuel)%nat ->
    exists ms', Forall2 (as_read lfuel types mem) l ms' /\
      runs ideal_client (mem, []) = (OTime :: map OLine (fst (report E ms')), match snd (report E ms') with Ok _ => Finished | Raise x => Traceback x end) /\
      exists i1 cd i2, scan ideal_client lfuel types None fuel (mem, []) new_cdevice = (i1, cd, Ok tt) /\
        device_read_points (scl_dev ideal_client) i1 (cd_models cd) = (i2, ms', Ok tt) /\ Forall (within (lo_of b) (hi_of b e) 0) (snd i2).
  Proof.
    intros HLE HB HM HF HE HR HP HN. destruct (ideal_run mem b l e HLE HB HM HF HE HR HN) as (i1 & ms & i2 & ms' & A1 & A2 & A3 & A4 & A5).
    exists ms'. split; [|split; [|exists i1, (mkCD (Some b) ms), i2; auto]].
    - clear -A2 A4. revert ms' A4. induction A2 as [|x m l ms H _ IH]; intros ms' H4; inversion H4; subst; constructor; [eexists; eauto|auto].
    - assert (HW : Forall (fun m => wrappable types m /\ forall n, named m n -> free_name inherited n) ms).
      { clear -HP HR A2. induction A2 as [|x m l ms H _ IH]; constructor; [|apply IH; [exact (Forall_inv_tail HR)|exact (Forall_inv_tail HP)]].
        eapply entry_wrappable; [exact (Forall_inv HP)|exact (Forall_inv HR)|exact H]. }
      destruct (wrapper_plain ms) as (c & w & B1 & B2 & B3); [eapply Forall_impl; [|exact HW]; intros m [H _]; exact H|eapply Forall_impl; [|exact HW]; intros m [_ H]; exact H|].
      unfold run_device. rewrite A1. cbn [bind cd_models]. rewrite B1, B2, B3, A3. destruct (report E ms') as [ls x]. reflexivity.
  Qed.

  Lemma main_ideal mem mem' b l e o : reaches ports can_open hosts E fs parse mem' b e o -> (forall x, mem' x = mem x) ->
    loads_end lfuel types -> byte_memory mem -> sunspec_map mem b l e -> first_marker mem b -> e < 65536 ->
    Forall (readable lfuel types) l -> Forall (presentable types inherited) l -> (length l < fuel)%nat ->
    main o = runs ideal_client (mem, []).
  Proof.
    intros HO HX HLE HB HM HF HE HR HP HN. destruct (ideal_report mem b l e HLE HB HM HF HE HR HP HN) as (ms' & _ & _ & i1 & cd & i2 & E1 & E2 & HW).
    destruct (reaches_client mem' b e o HO HE) as (D & c & s & rel & lo & hi & -> & HI & HC & HS & H1 & H2).
    eapply same_run; [exact HI|exact HC|eapply impl_ext; [exact HI|exact HS|exact HX]|exact E1|exact E2|].
    eapply Forall_impl; [|exact HW]. intros [a n|a d]; cbn [within]; intros H; decompose [and] H; repeat split; try lia; assumption.
  Qed.
End Proofs.

Lemma point_lines_ok E i l ls : point_lines E i l = (ls, Ok tt) -> Forall (shown_if_computed E) l -> Forall (showable E) l.
Proof.
  revert ls. induction l as [|p l IH]; intros ls H HS; constructor.
  - cbn [point_lines] in H. destruct (point_line E i p) as [o|] eqn:EP; [|discriminate (proj2 (proj1 (pair_equal_spec _ _ _ _) H))].
    unfold point_line in EP. apply bind_ok in EP as (v & EV & _). exact (Forall_inv HS v EV).
  - cbn [point_lines] in H. destruct (point_line E i p) as [o|]; [|discriminate (proj2 (proj1 (pair_equal_spec _ _ _ _) H))].
    destruct (point_lines E i l) as [ls' x]. apply pair_equal_spec in H as [_ ->]. exact (IH ls' eq_refl (Forall_inv_tail HS)).
Qed.
Lemma block_lines_ok E l ls : block_lines E l = (ls, Ok tt) -> Forall (fun b => Forall (shown_if_computed E) (b_points b)) l -> Forall (fun b => Forall (showable E) (b_points b)) l.
Proof.
  revert ls. induction l as [|b l IH]; intros ls H HS; constructor; cbn [block_lines] in H; destruct (point_lines E (b_index b) (b_points b)) as [ls0 [u|x]] eqn:EP;
    try (discriminate (proj2 (proj1 (pair_equal_spec _ _ _ _) H))); destruct u.
  - exact (point_lines_ok E _ _ _ EP (Forall_inv HS)).
  - destruct (block_lines E l) as [ls' x]. apply pair_equal_spec in H as [_ ->]. exact (IH ls' eq_refl (Forall_inv_tail HS)).
Qed.
Lemma report_ok E l ls : report E l = (ls, Ok tt) -> (forall m bl p, In m l -> In bl (md_blocks m) -> In p (b_points bl) -> shown_if_computed E p) ->
  Forall (fun m => md_type m <> None /\ showable_model E m) l.
Proof.
  revert ls. induction l as [|m l IH]; intros ls H HS; [constructor|]. cbn [report] in H. destruct (md_type m) as [t|] eqn:ET; [|discriminate (proj2 (proj1 (pair_equal_spec _ _ _ _) H))].
  destruct (block_lines E (md_blocks m)) as [ls0 [u|x]] eqn:EB; [|discriminate (proj2 (proj1 (pair_equal_spec _ _ _ _) H))]. destruct u.
  destruct (report E l) as [ls' x] eqn:ER. apply pair_equal_spec in H as [_ ->]. constructor.
  - split; [congruence|]. eapply block_lines_ok; [exact EB|]. apply Forall_forall. intros b Hb. apply Forall_forall. intros p Hp. eapply HS; [left; reflexivity|exact Hb|exact Hp].
  - apply (IH ls' eq_refl). intros m' bl p H1 H2 H3. eapply HS; [right; exact H1|exact H2|exact H3].
Qed.

(** ** the output on a device whose register map is a SunSpec map of readable models: the time, and the sections of all models with the
    values their registers decode to.  The report ends early, with a traceback after everything before, if a model is unknown or a
    value cannot be computed. *)
Theorem C105_report_partial :
  forall E lfuel fuel types inherited D1 D2 (ports : str -> Z -> str -> Z -> sdev D1 * D1) can_open (hosts : str -> Z -> Z -> server D2 * D2) fs parse,
  forall mem b l e o, reaches ports can_open hosts E fs parse mem b e o ->
  loads_end lfuel types -> byte_memory mem -> sunspec_map mem b l e -> first_marker mem b -> e < 65536 ->
  Forall (readable lfuel types) l -> Forall (presentable types inherited) l -> (length l < fuel)%nat ->
  exists ms, Forall2 (as_read lfuel types mem) l ms /\
    let out := suns_main E lfuel fuel types inherited ports can_open hosts fs parse o in
    (Forall (fun m => md_type m <> None /\ showable_model E m) ms -> complete_report E ms out) /\
    ((forall m bl p, In m ms -> In bl (md_blocks m) -> In p (b_points bl) -> shown_if_computed E p) -> complete_report E ms out \/ stopped_report E ms out).
Proof.
  intros E lfuel fuel types inherited D1 D2 ports can_open hosts fs parse mem b l e o HO HLE HB HM HF HE HR HP HN.
  destruct (ideal_report E lfuel fuel types inherited mem b l e HLE HB HM HF HE HR HP HN) as (ms & A1 & A2 & _). exists ms. split; [exact A1|]. cbv zeta.
  rewrite (eq_trans (main_ideal E lfuel fuel types inherited ports can_open hosts fs parse mem mem b l e o HO (fun _ => eq_refl) HLE HB HM HF HE HR HP HN) A2).
  assert (HC : Forall (fun m => md_type m <> None /\ showable_model E m) ms -> complete_report E ms (OTime :: map OLine (fst (report E ms)), match snd (report E ms) with Ok _ => Finished | Raise x => Traceback x end)).
  { intros H. destruct (C_Report.C89_report_complete_partial E ms H) as (secs & -> & H2). exists secs. split; [exact H2|reflexivity]. }
  split; [exact HC|]. intros HS. destruct (report E ms) as [ls [u|x]] eqn:ER.
  - left. apply HC. destruct u. eapply report_ok; eauto.
  - right. exists x, ls. split; [eapply C_Report.C89_failing_report_partial; eauto|reflexivity].
Qed.
Print Assumptions C105_report_partial.

(** The device is the one of the options: for TCP the slave, address, port and timeout, without TLS; for serial the slave, port, baud
    rate, no parity and the timeout; for a map file the file. *)
Theorem C105_options_used :
  forall E fs parse o can s,
  client_construct E fs parse DTcp (tcp_args o) can s = (s, Ok (MTcp (mkTD (o_a o) (o_i o) (o_P o) (o_T o) false None None None true))) /\
  client_construct E fs parse DRtu (rtu_args o) can s =
    (let '(s', r) := rtu_construct (o_a o) (o_p o) (Some (o_b o)) None (Some (o_T o)) can s in
     (s', match r with Ok d => Ok (MRtu d) | Raise e => Raise (wrap_modbus e) end)) /\
  (forall name, o_m o = Some name -> client_construct E fs parse DMapped (mapped_args o) can s =
    (s, match mapped_construct E fs parse name None with Ok m => Ok (MMap m) | Raise e => Raise (wrap_modbus e) end)).
Proof.
  intros E fs parse o can s. split; [reflexivity|]. split.
  - unfold client_construct. cbn [rtu_args a_slave a_name a_baud a_parity a_timeout]. destruct (rtu_construct _ _ _ _ _ _ _) as [s' [d|e]]; reflexivity.
  - intros name H. unfold client_construct. cbn [mapped_args a_name a_pathlist]. rewrite H. destruct (mapped_construct E fs parse name None); reflexivity.
Qed.
Print Assumptions C105_options_used.
(** Without options: a TCP device at localhost, port 502, slave 1, and a timeout of two seconds; the serial defaults are /dev/ttyUSB0
    at 9600 baud. *)
Theorem C105_defaults :
  forall E fs parse can s,
  client_construct E fs parse DTcp (tcp_args default_options) can s = (s, Ok (MTcp (mkTD 1 (lit "localhost"%string) 502 2000 false None None None true))) /\
  o_t default_options = lit "tcp"%string /\ a_name (rtu_args default_options) = Some (lit "/dev/ttyUSB0"%string) /\
  a_baud (rtu_args default_options) = Some 9600 /\ a_slave (rtu_args default_options) = 1 /\ a_timeout (rtu_args default_options) = Some 2000 /\ a_name (mapped_args default_options) = None.
Proof. intros. repeat split. Qed.
Print Assumptions C105_defaults.
(** ** the same output, line by line, on every transport *)
Theorem C105_same_on_every_transport :
  forall E lfuel fuel types inherited D1 D2 (ports : str -> Z -> str -> Z -> sdev D1 * D1) can_open (hosts : str -> Z -> Z -> server D2 * D2) fs parse,
  forall mem b l e o o', reaches ports can_open hosts E fs parse mem b e o -> reaches ports can_open hosts E fs parse mem b e o' ->
  loads_end lfuel types -> byte_memory mem -> sunspec_map mem b l e -> first_marker mem b -> e < 65536 ->
  Forall (readable lfuel types) l -> Forall (presentable types inherited) l -> (length l < fuel)%nat ->
  suns_main E lfuel fuel types inherited ports can_open hosts fs parse o = suns_main E lfuel fuel types inherited ports can_open hosts fs parse o'.
Proof.
  intros E lfuel fuel types inherited D1 D2 ports can_open hosts fs parse mem b l e o o' HO HO' HLE HB HM HF HE HR HP HN.
  exact (eq_trans (main_ideal E lfuel fuel types inherited ports can_open hosts fs parse mem mem b l e o HO (fun _ => eq_refl) HLE HB HM HF HE HR HP HN)
    (eq_sym (main_ideal E lfuel fuel types inherited ports can_open hosts fs parse mem mem b l e o' HO' (fun _ => eq_refl) HLE HB HM HF HE HR HP HN))).
Qed.
Print Assumptions C105_same_on_every_transport.

(** ** errors reported with one line and exit status 1 *)
Section Dispatch.
  Context (E : pyenv) (lfuel fuel : nat) (types : Z -> res modeltype) (inherited : list str).
  Context {D1 D2 : Type} (ports : str -> Z -> str -> Z -> sdev D1 * D1) (can_open : str -> bool) (hosts : str -> Z -> Z -> server D2 * D2)
          (fs : fsys) (parse : bytes -> res xml).
  Notation main := (suns_main E lfuel fuel types inherited ports can_open hosts fs parse).
  Lemma main_rtu o dev s : o_t o = lit "rtu"%string -> can_open (o_p o) = true -> 0 <= o_T o -> ports (o_p o) (o_b o) (lit "N"%string) (o_T o) = (dev, s) ->
    main o = run_device E lfuel fuel types inherited (rtu_client dev false true (o_a o)) s.
  Proof.
    intros HT HC HTO HP. unfold suns_main. rewrite HT. change (eqb_list (lit "rtu"%string) (lit "tcp"%string)) with false.
    change (eqb_list (lit "rtu"%string) (lit "rtu"%string)) with true. cbv beta iota zeta.
    rewrite (rtu_made E fs parse o (can_open (o_p o)) HC HTO). cbn [pt_reg r_devices nth_error d_client d_slave get_client nth r_clients c_name c_baud c_parity pt_timeout Nat.eqb]. unfold get_client. cbn [r_clients nth c_name c_baud c_parity]. now rewrite HP.
  Qed.
  Lemma main_tcp o srv s : o_t o = lit "tcp"%string -> hosts (o_i o) (o_P o) (o_T o) = (srv, s) ->
    main o = run_device E lfuel fuel types inherited (tcp_client srv false (o_a o)) (SNone, s).
  Proof.
    intros HT HP. unfold suns_main. rewrite HT. change (eqb_list (lit "tcp"%string) (lit "tcp"%string)) with true. cbv beta iota zeta.
    cbn [client_construct snd tcp_args a_slave a_ipaddr a_ipport a_timeout a_tls a_cafile a_certfile a_keyfile a_insecure tcp_construct td_ipaddr td_ipport td_timeout td_slave]. now rewrite HP.
  Qed.
  Lemma main_mapped o : o_t o = lit "mapped"%string -> main o = match snd (client_construct E fs parse DMapped (mapped_args o) (can_open (o_p o)) pstate0) with
      | Ok (MMap m) => run_device E lfuel fuel types inherited map_client m
      | Ok _ => ([], Finished)
      | Raise e => caught e
      end.
  Proof.
    intros HT. unfold suns_main. rewrite HT. change (eqb_list (lit "mapped"%string) (lit "tcp"%string)) with false. change (eqb_list (lit "mapped"%string) (lit "rtu"%string)) with false.
    change (eqb_list (lit "mapped"%string) (lit "mapped"%string)) with true. reflexivity.
  Qed.
End Dispatch.

(** an unknown transport; a mapped device without a file name; a serial port that cannot be opened *)
Theorem C105_bad_options :
  forall E lfuel fuel types inherited D1 D2 (ports : str -> Z -> str -> Z -> sdev D1 * D1) can_open (hosts : str -> Z -> Z -> server D2 * D2) fs parse o,
  let out := suns_main E lfuel fuel types inherited ports can_open hosts fs parse o in
  (~ In (o_t o) (map lit ["tcp"; "rtu"; "mapped"]%string) -> out = ([OUnknown (o_t o)], Exit1)) /\
  (o_t o = lit "mapped"%string -> o_m o = None -> out = ([OError ESunSpecClient], Exit1)) /\
  (o_t o = lit "rtu"%string -> can_open (o_p o) = false -> out = ([OError ESunSpecClient], Exit1)).
Proof.
  intros E lfuel fuel types inherited D1 D2 ports can_open hosts fs parse o. cbv zeta. split; [|split].
  - intros HN. unfold suns_main. cbv zeta. cbn [map In] in HN.
    destruct (eqb_list (o_t o) (lit "tcp"%string)) eqn:E1; [apply eqb_list_eq in E1; exfalso; apply HN; left; now symmetry|].
    destruct (eqb_list (o_t o) (lit "rtu"%string)) eqn:E2; [apply eqb_list_eq in E2; exfalso; apply HN; right; left; now symmetry|].
    destruct (eqb_list (o_t o) (lit "mapped"%string)) eqn:E3; [apply eqb_list_eq in E3; exfalso; apply HN; right; right; left; now symmetry|]. reflexivity.
  - intros HT HM. rewrite main_mapped by exact HT.
    rewrite (C80_mapped_needs_name E fs parse (mapped_args o) (can_open (o_p o)) pstate0 HM). reflexivity.
  - intros HT HC. unfold suns_main. cbv zeta. rewrite HT. change (eqb_list (lit "rtu"%string) (lit "tcp"%string)) with false. change (eqb_list (lit "rtu"%string) (lit "rtu"%string)) with true. cbv beta iota.
    cbn [client_construct]. unfold rtu_construct, dev_open, M_Registry.rtu_client. cbn [rtu_args a_name pstate0 pt_reg rstate0 r_registry dget]. rewrite HC. reflexivity.
Qed.
Print Assumptions C105_bad_options.
(** a serial device, or a TCP server that accepts the connection, that has no SunSpec map at any of the three addresses or does not
    answer there *)
Theorem C105_no_map :
  forall E lfuel fuel types inherited D1 D2 (ports : str -> Z -> str -> Z -> sdev D1 * D1) can_open (hosts : str -> Z -> Z -> server D2 * D2) fs parse o,
  let out := suns_main E lfuel fuel types inherited ports can_open hosts fs parse o in
  (forall dev s s1, o_t o = lit "rtu"%string -> can_open (o_p o) = true -> 0 <= o_T o -> ports (o_p o) (o_b o) (lit "N"%string) (o_T o) = (dev, s) ->
     all_missed (scl_dev (rtu_client dev false true (o_a o))) s [40000; 0; 50000] s1 -> out = ([OError ESunSpecClient], Exit1)) /\
  (forall srv s s0 s1, o_t o = lit "tcp"%string -> hosts (o_i o) (o_P o) (o_T o) = (srv, s) -> srv_connect srv s = (s0, true) ->
     all_missed (tcp_dev srv false (o_a o)) (SConn [], s0) [40000; 0; 50000] s1 -> out = ([OError ESunSpecClient], Exit1)).
Proof.
  intros E lfuel fuel types inherited D1 D2 ports can_open hosts fs parse o. cbv zeta. split.
  - intros dev s s1 HT HC HTO HP HM. rewrite (main_rtu E lfuel fuel types inherited ports can_open hosts fs parse o dev s HT HC HTO HP). unfold run_device.
    rewrite (C_Scan.C50_no_map_partial D1 (rtu_client dev false true (o_a o)) lfuel types None fuel s s s1 new_cdevice eq_refl eq_refl HM). reflexivity.
  - intros srv s s0 s1 HT HP HC HM. rewrite (main_tcp E lfuel fuel types inherited ports can_open hosts fs parse o srv s HT HP). unfold run_device.
    assert (HO : opens (tcp_client srv false (o_a o)) (SNone, s) (SConn [], s0)) by (unfold opens; cbn [scl_connect tcp_client]; unfold tcp_connect; cbn [snd]; now rewrite HC).
    rewrite (C_Scan.C50_no_map_partial _ (tcp_client srv false (o_a o)) lfuel types None fuel (SNone, s) (SConn [], s0) s1 new_cdevice eq_refl HO HM). reflexivity.
Qed.
Print Assumptions C105_no_map.

(** ** refuted: other failures end with a traceback *)
(** no server, or one that refuses the connection *)
Theorem C105_server_down_refuted :
  forall E lfuel fuel types inherited D1 D2 (ports : str -> Z -> str -> Z -> sdev D1 * D1) can_open (hosts : str -> Z -> Z -> server D2 * D2) fs parse o srv s s0,
  o_t o = lit "tcp"%string -> hosts (o_i o) (o_P o) (o_T o) = (srv, s) -> srv_connect srv s = (s0, false) ->
  suns_main E lfuel fuel types inherited ports can_open hosts fs parse o = ([], Traceback EModbusClient).
Proof.
  intros E lfuel fuel types inherited D1 D2 ports can_open hosts fs parse o srv s s0 HT HP HC.
  rewrite (main_tcp E lfuel fuel types inherited ports can_open hosts fs parse o srv s HT HP). unfold run_device, scan. cbn [scl_connect tcp_client]. unfold tcp_connect. cbn [snd]. rewrite HC. reflexivity.
Qed.
Print Assumptions C105_server_down_refuted.
(** a map file that is missing or malformed, and a map without registers at 40000 *)
Theorem C105_map_file_refuted :
  forall E lfuel fuel types inherited D1 D2 (ports : str -> Z -> str -> Z -> sdev D1 * D1) can_open (hosts : str -> Z -> Z -> server D2 * D2) fs parse o name,
  o_t o = lit "mapped"%string -> o_m o = Some name ->
  let out := suns_main E lfuel fuel types inherited ports can_open hosts fs parse o in
  ((forall c root, file_has fs name c -> parse c <> Ok root) -> out = ([], Traceback EModbusMap)) /\
  (forall c root m, file_has fs name c -> parse c = Ok root -> map_from_xml E (mkMap 3 (BInt 40000) None None None None []) root = (m, Ok tt) ->
     map_read m 40000 3 0 = Raise EModbusMap -> out = ([], Traceback EModbusMap)).
Proof.
  intros E lfuel fuel types inherited D1 D2 ports can_open hosts fs parse o name HT HN. cbv zeta. split.
  - intros H. rewrite main_mapped by exact HT. rewrite (C80_missing_map_refuted E fs parse (mapped_args o) (can_open (o_p o)) pstate0 name HN H). reflexivity.
  - intros c root m HF HP HX HR. rewrite main_mapped by exact HT. rewrite (C80_mapped E fs parse (mapped_args o) (can_open (o_p o)) pstate0 name c root m HN HF HP HX). cbn [snd].
    unfold run_device, scan. cbn [scl_connect map_client]. unfold scan_body. cbn [cd_base new_cdevice find_base BASE_ADDRS]. unfold cl_read. cbn [scl_dev map_client dv_read]. rewrite HR. reflexivity.
Qed.
Print Assumptions C105_map_file_refuted.

(** ** examples: a device with model 100 (known) at 40000, reached in three ways *)
Definition main_image : bytes := [83; 117; 110; 83;  0; 100; 0; 9;  1; 44;  255; 255; 255; 156;  0; 0;  255; 254;  0; 3;   0; 7;  0; 0; 0; 9;  255; 255; 0; 0].
Definition norm (m : S_Modbus.memory) : S_Modbus.memory := fun a => m a mod 65536.
Definition norm_dev : sdev S_Modbus.memory := fun m req => C_Rtu.ex_dev (norm m) req.
Definition norm_srv : server S_Modbus.memory := mkServer _ (fun m => (m, true)) (fun m req => srv_send C_Tcp.ex_srv (norm m) req).
Lemma norm_ok m : S_Modbus.mem_ok (norm m).
Proof. intros a. unfold norm. apply Z.mod_pos_bound. lia. Qed.
Lemma norm_idem m m' : (forall a, m' a = norm m a) -> forall a, norm m' a = norm m a.
Proof. intros H a. unfold norm at 1. rewrite H. unfold norm. now rewrite Z.mod_mod by lia. Qed.
Lemma norm_dev_serves slave : S_Modbus.serves_reads norm_dev norm slave 3.
Proof.
  intros m addr count H1 H2 H3. destruct (C_Rtu.C26_ex slave 3 ltac:(lia) (norm m) addr count H1 H2 H3) as (s' & noise & sched & fin & A & B & C).
  exists s', noise, sched, fin. split; [exact A|]. split; [exact B|]. now apply norm_idem.
Qed.
Lemma norm_srv_serves slave : tcp_serves_reads norm_srv norm slave 3 /\ tcp_accepts norm_srv norm.
Proof.
  split.
  - intros m addr count H1 H2 H3. destruct (C_Tcp.C32_ex slave 3 ltac:(lia)) as [HS _]. destruct (HS (norm m) addr count H1 H2 H3) as (s' & sched & fin & A & B).
    exists s', sched, fin. split; [exact A|]. now apply norm_idem.
  - intros m. exists m. auto.
Qed.
Definition main_regs : S_Modbus.memory := S_Modbus.store (fun _ => 0) 40000 main_image.
Definition main_mem : memory := byte_view (norm main_regs).
Definition main_map : mbmap := mkMap 3 (BInt 40000) None None None None [mkRegs (NI 0) (NI (zlen main_image / 2)) (Some main_image) ACCESS_R].
Definition main_doc : xml := match map_to_xml main_map with Ok x => x | Raise _ => XE [] [] None None [] end.
Definition main_fs : fsys := fun p => if eqb_list p (lit "m.xml"%string) then Some (FFile [60] None) else None.
Definition main_opts (t : string) : options := mkOpts (lit t) 1 (lit "localhost"%string) 502 (lit "/dev/ttyUSB0"%string) 9600 2000 (Some (lit "m.xml"%string)).
Definition main_run (regs : S_Modbus.memory) (t : string) := suns_main C_Report.env_rep 10 10 C_Device.ex_types [] (fun _ _ _ _ => (norm_dev, regs)) (fun _ => true) (fun _ _ _ => (norm_srv, regs)) main_fs (fun _ => Ok main_doc) (main_opts t).
Definition main_loaded : mbmap := fst (map_from_xml C_Report.env_rep (mkMap 3 (BInt 40000) None None None None []) main_doc).
Notation main_reaches := (reaches (fun _ _ _ _ => (norm_dev, main_regs)) (fun _ => true) (fun _ _ _ => (norm_srv, main_regs)) C_Report.env_rep main_fs (fun _ => Ok main_doc)).
Example C105_ex_reaches : main_reaches main_mem 40000 40013 (main_opts "rtu") /\ main_reaches main_mem 40000 40013 (main_opts "tcp") /\
  main_reaches main_mem 40000 40013 (main_opts "mapped").
Proof.
  split; [|split].
  - apply (by_rtu _ _ _ _ _ _ _ _ _ _ norm_dev main_regs norm); [reflexivity|reflexivity|discriminate|reflexivity|apply norm_dev_serves|apply norm_ok|unfold is_byte; cbn; lia|reflexivity].
  - apply (by_tcp _ _ _ _ _ _ _ _ _ _ norm_srv main_regs norm); [reflexivity|reflexivity|apply (norm_srv_serves 1)|apply (norm_srv_serves 1)|unfold is_byte; cbn; lia|reflexivity].
  - apply (by_map _ _ _ _ _ _ _ _ _ _ (lit "m.xml"%string) [60] main_doc main_loaded); try reflexivity; [exists None; reflexivity|]. split.
    + split; [split; [repeat constructor|repeat constructor; vm_compute; discriminate]|]. constructor; [|constructor].
      exists 0, 15, main_image. do 3 (split; [vm_compute; reflexivity|]). split; [lia|]. split; [reflexivity|]. repeat constructor; unfold is_byte; lia.
    + exists 40000. split; [vm_compute; reflexivity|]. intros a Ha.
      assert (HA : forall n : nat, (n < 14)%nat -> register (m_regs main_loaded) (40000 + Z.of_nat n - 40000) = Some [main_mem (2 * (40000 + Z.of_nat n)); main_mem (2 * (40000 + Z.of_nat n) + 1)]).
      { do 14 (destruct n as [|n]; [intros _; vm_compute; reflexivity|]). lia. }
      specialize (HA (Z.to_nat (a - 40000)) ltac:(lia)). replace (40000 + Z.of_nat (Z.to_nat (a - 40000))) with a in HA by lia. exact HA.
Qed.
Example C105_ex_hyp : loads_end (Z.to_nat 65537) C_Device.ex_types /\ byte_memory main_mem /\ sunspec_map main_mem 40000 [(100, 40004, 9)] 40013 /\ first_marker main_mem 40000 /\
  Forall (readable (Z.to_nat 65537) C_Device.ex_types) [(100, 40004, 9)] /\ Forall (presentable C_Device.ex_types []) [(100, 40004, 9)].
Proof.
  split; [apply C_Scan.C48_ex_hyp|]. split; [|split; [|split; [|split]]].
  - intros x. unfold main_mem, byte_view. pose proof (norm_ok main_regs (x / 2)) as H. unfold is_byte. destruct (Z.even x).
    + split; [apply Z.div_pos; lia|apply Z.div_lt_upper_bound; lia].
    + apply Z.mod_pos_bound. lia.
  - split; [vm_compute; reflexivity|]. assert (E1 : reg main_mem 40002 = 100) by (vm_compute; reflexivity). assert (E2 : reg main_mem 40003 = 9) by (vm_compute; reflexivity).
    replace ((100, 40004, 9)) with (reg main_mem 40002, 40002 + 2, reg main_mem (40002 + 1)) by (rewrite E1; change (40002 + 1) with 40003; rewrite E2; reflexivity).
    change (40000 + 2) with 40002. apply chain_model; [rewrite E1; discriminate|]. change (40002 + 1) with 40003. rewrite E2. change (40002 + 2 + 9) with 40013. apply chain_end. vm_compute. reflexivity.
  - exists [], [0; 50000]. split; [reflexivity|constructor].
  - constructor; [|constructor]. right. split; [lia|]. split; [vm_compute; reflexivity|]. exists C_Device.ex_mt, 6. split; [reflexivity|]. split; [right; split; [intros [H _]; discriminate|reflexivity]|].
    unfold good_def. split; [cbn; lia|]. split.
    + intros rt R ER EB. cbn in ER. apply Some_inj in ER. subst rt. vm_compute in EB. apply Ok_inj in EB. subst R. cbn. lia.
    + split; [repeat constructor|]. intros rt ER. cbn in ER. apply Some_inj in ER. subst rt. repeat constructor.
  - constructor; [|constructor]. cbn [presentable C_Device.ex_types Z.eqb Pos.eqb]. split.
    + exists (lit "ex"%string). split; [reflexivity|]. split; [|intros []]. intros H. cbn [map In] in H.
      repeat (destruct H as [H|H]; [apply (f_equal (@length Z)) in H; vm_compute in H; discriminate H|]). exact H.
    + intros b H. cbn in H. apply Some_inj in H. subst b. discriminate.
Qed.
Example C105_ex_output : main_run main_regs "tcp" = main_run main_regs "rtu" /\ main_run main_regs "mapped" = main_run main_regs "rtu" /\
  snd (main_run main_regs "rtu") = Finished /\ length (fst (main_run main_regs "rtu")) = 7%nat /\
  nth_error (fst (main_run main_regs "rtu")) 4 = Some (OLine (lit "      (C):                                                  3           "%string)).
Proof. vm_compute. auto 10. Qed.

(** ** refuted: a device with an unknown model after a known one: the report stops, with a traceback *)
Theorem C105_unknown_model_refuted : main_run (S_Modbus.store (fun _ => 0) 40000 C_Scan.scan_image) "tcp" = (fst (main_run main_regs "tcp"), Traceback EAttr).
Proof. vm_compute. reflexivity. Qed.
Print Assumptions C105_unknown_model_refuted.
(** refuted: an error while the points are read (here: a server that answers requests for up to three registers) is a
    SunSpecClientError, but outside the try statement *)
Definition small_srv : server S_Modbus.memory := mkServer _ (fun m => (m, true)) (fun m req =>
  match req with
  | _ :: _ :: _ :: _ :: _ :: _ :: _ :: _ :: _ :: _ :: c1 :: c0 :: _ => if 3 <? 256 * c1 + c0 then (m, Some (mkWire [] [] WEmpty)) else srv_send C_Tcp.ex_srv m req
  | _ => (m, None)
  end).
Theorem C105_read_error_refuted :
  suns_main C_Report.env_rep 10 10 C_Device.ex_types [] (fun _ _ _ _ => (norm_dev, main_regs)) (fun _ => true) (fun _ _ _ => (small_srv, main_regs)) main_fs (fun _ => Ok main_doc) (main_opts "tcp")
    = ([OTime], Traceback ESunSpecClient).
Proof. vm_compute. reflexivity. Qed.
Print Assumptions C105_read_error_refuted.
(** refuted: a model whose definition is named like an attribute the program uses ends in a traceback before anything is
    reported *)
Definition named_types (n : string) (id : Z) : res modeltype := if id =? 100 then Ok (mkMT 1 (Some 100) (Some 6) (Some (lit n)) None None None C_Device.ex_fixed (Some C_Device.ex_rep) []) else Raise ESunSpec.
Definition named_run (n : string) := suns_main C_Report.env_rep 10 10 (named_types n) [] (fun _ _ _ _ => (norm_dev, main_regs)) (fun _ => true) (fun _ _ _ => (norm_srv, main_regs)) main_fs (fun _ => Ok main_doc) (main_opts "rtu").
Theorem C105_taken_name_refuted :
  named_run "ex" = main_run main_regs "rtu" /\ named_run "read" = ([OTime], Traceback EType) /\ named_run "device" = ([OTime], Traceback EAttr).
Proof. vm_compute. auto. Qed.
Print Assumptions C105_taken_name_refuted.
