(** * P_Bus: requests on serial ports. *)
From Verif Require Import Py P_List M_Wire M_Rtu M_Registry S_Registry P_Registry M_Bus S_Bus.

Lemma registry_app l l' : registry_events (l ++ l') = registry_events l ++ registry_events l'.
Proof. apply flat_map_app. Qed.

Section Bus.
  Context {D : Type} (dev : str -> Z -> sdev D).

  (** the registry only depends on opening and closing *)
  Lemma bread_reg d a n (b : bus D) : bus_reg (fst (bus_read dev d a n b)) = bus_reg b /\ bus_timeout (fst (bus_read dev d a n b)) = bus_timeout b.
  Proof.
    unfold bus_read. destruct (nth_error _ d) as [dv|]; [|auto]. destruct (c_open _); [|auto].
    destruct (rtu_read _ _ _ _ _ _ _ _ _) as [p r]. auto.
  Qed.
  Lemma bwrite_reg d a w (b : bus D) : bus_reg (fst (bus_write dev d a w b)) = bus_reg b /\ bus_timeout (fst (bus_write dev d a w b)) = bus_timeout b.
  Proof.
    unfold bus_write. destruct (nth_error _ d) as [dv|]; [|auto]. destruct (c_open _); [|auto].
    destruct (rtu_write _ _ _ _ _ _ _) as [p r]. auto.
  Qed.
  Lemma bopen_reg sl name baud parity t can (b : bus D) : bus_reg (fst (bus_open sl name baud parity t can b)) = fst (dev_open sl name baud parity can (bus_reg b)) /\
    snd (bus_open sl name baud parity t can b) = snd (dev_open sl name baud parity can (bus_reg b)) /\ bus_ports (fst (bus_open sl name baud parity t can b)) = bus_ports b.
  Proof. unfold bus_open. destruct (dev_open _ _ _ _ _ _) as [s [d|e]]; auto. Qed.
  Definition run_from (st : rstate * in_use) (evs : list revent) := fold_left (fun st ev => run1 ev st) evs st.
  Lemma bruns_reg : forall evs b u, bus_reg (fst (bruns dev evs b)) = fst (run_from (bus_reg b, u) (registry_events evs)).
  Proof.
    induction evs as [|ev evs IH]; intros b u; [reflexivity|]. cbn [bruns]. destruct (bstep dev ev b) as [b1 x] eqn:E1. pose proof (IH b1) as IH'. destruct (bruns dev evs b1) as [b2 l].
    cbn [fst] in *. destruct ev as [sl name baud parity t can|d|d a n|d a w]; cbn [bstep] in E1; cbn [registry_events flat_map app]; fold (registry_events evs).
    - destruct (bopen_reg sl name baud parity t can b) as (R1 & R2 & _). destruct (bus_open sl name baud parity t can b) as [b1' r]. cbn [fst snd] in *.
      apply pair_equal_spec in E1 as [<- _]. unfold run_from. cbn [fold_left run1 fst snd]. destruct (dev_open sl name baud parity can (bus_reg b)) as [s r']. cbn [fst snd] in R1, R2.
      subst r' s. destruct r; apply IH'.
    - apply pair_equal_spec in E1 as [<- _]. unfold run_from. cbn [fold_left run1 fst snd]. apply IH'.
    - destruct (bread_reg d a n b) as [R1 _]. destruct (bus_read dev d a n b) as [b1' r]. apply pair_equal_spec in E1 as [<- _]. cbn [fst] in R1. rewrite <- R1. apply IH'.
    - destruct (bwrite_reg d a w b) as [R1 _]. destruct (bus_write dev d a w b) as [b1' r]. apply pair_equal_spec in E1 as [<- _]. cbn [fst] in R1. rewrite <- R1. apply IH'.
  Qed.
  Lemma bruns_app : forall l l' b, bruns dev (l ++ l') b = let '(b1, r1) := bruns dev l b in let '(b2, r2) := bruns dev l' b1 in (b2, r1 ++ r2).
  Proof.
    induction l as [|ev l IH]; intros l' b; cbn [bruns app]; [now destruct (bruns dev l' b)|]. destruct (bstep dev ev b) as [b1 x]. rewrite IH.
    destruct (bruns dev l b1) as [b2 r]. destruct (bruns dev l' b2) as [b3 r3]. reflexivity.
  Qed.

  (** timeouts of registered clients *)
  Definition tinv (b : bus D) (t : str -> Z) : Prop := forall name c, registered (bus_reg b) name = Some c -> bus_timeout b c = t name.

  (** the number of devices in use grows exactly when a device was opened *)
  Lemma tinv_open sl name baud parity t can (b b' : bus D) r u tm : rinv (bus_reg b) u -> (forall d, ~ In (d, (sl, name)) u) -> tinv b tm ->
    bus_open sl name baud parity t can b = (b', r) ->
    tinv b' (match r with Ok _ => fun x => if eqb_list x name then match t with Some v => v | None => if port_used u name then tm x else 500 end else tm x | Raise _ => tm end).
  Proof.
    intros HI HN HT H. unfold bus_open in H. destruct (dev_open sl name baud parity can (bus_reg b)) as [s [d|e]] eqn:ED; apply pair_equal_spec in H as [<- <-].
    2:{ unfold dev_open, rtu_client in ED. fold (registered (bus_reg b) name) in ED. unfold tinv. cbn [bus_reg bus_timeout].
        assert (s = bus_reg b); [|subst; exact HT]. destruct (registered (bus_reg b) name) as [c|].
        - destruct (match baud with Some b0 => _ | None => _ end); [congruence|]. destruct (match parity with Some b0 => _ | None => _ end); [congruence|discriminate].
        - destruct can; [discriminate|congruence]. }
    unfold dev_open, rtu_client in ED. fold (registered (bus_reg b) name) in ED. destruct (registered (bus_reg b) name) as [c|] eqn:HR.
    - destruct (match baud with Some b0 => _ | None => _ end); [discriminate|]. destruct (match parity with Some b0 => _ | None => _ end); [discriminate|].
      apply pair_equal_spec in ED as [<- ED]. apply Ok_inj in ED. subst d. unfold tinv. cbn [bus_reg bus_timeout r_devices r_clients r_registry set_client].
      rewrite nth_error_app2 by lia. rewrite Nat.sub_diag. cbn [nth_error d_client]. destruct (inv_reg _ _ HI _ _ HR) as (HC & _ & _ & HNE & HDV).
      assert (HU : port_used u name = true).
      { unfold port_used. apply existsb_exists. destruct (c_devs (get_client (bus_reg b) c)) as [|[s0 d0] rest]; [congruence|]. exists (d0, (s0, name)). split; [apply HDV; now left|]. cbn [snd]. apply eqb_list_refl. }
      rewrite HU. destruct (Nat.ltb_spec c (length (r_clients (bus_reg b)))); [|lia].
      intros name' c' HR'. unfold registered in HR'. cbn [r_registry] in HR'. fold (registered (bus_reg b) name') in HR'.
      destruct (Nat.eqb_spec c' c) as [->|NE].
      + assert (name' = name). { destruct (inv_reg _ _ HI _ _ HR') as (_ & E1 & _). destruct (inv_reg _ _ HI _ _ HR) as (_ & E2 & _). congruence. }
        subst name'. rewrite eqb_list_refl. destruct t; [reflexivity|]. now apply HT.
      + destruct (eqb_list name' name) eqn:EN; [|now apply HT]. apply eqb_list_eq in EN. subst name'. congruence.
    - destruct can; [|discriminate]. apply pair_equal_spec in ED as [<- ED]. apply Ok_inj in ED. subst d.
      assert (HU : port_used u name = false).
      { unfold port_used. match goal with |- ?x = false => destruct x eqn:EX; [|reflexivity] end. apply existsb_exists in EX as ([d0 [s0 n0]] & HX & EX). cbn [snd] in EX. apply eqb_list_eq in EX. subst n0.
        destruct (inv_use _ _ HI _ _ _ HX) as (c & _ & HC & _). congruence. }
      rewrite HU. unfold tinv. cbn [bus_reg bus_timeout r_devices r_clients r_registry set_client]. rewrite nth_error_app2 by lia. rewrite Nat.sub_diag. cbn [nth_error d_client].
      rewrite Nat.ltb_irrefl. intros name' c' HR'. unfold registered in HR'. cbn [r_registry] in HR'.
      destruct (eqb_list name' name) eqn:EN.
      + apply eqb_list_eq in EN. subst name'. rewrite dget_dset_eq in HR'. apply Some_inj in HR'. subst c'. rewrite Nat.eqb_refl. destruct t; reflexivity.
      + apply eqb_list_neq in EN. rewrite dget_dset_neq in HR' by congruence. fold (registered (bus_reg b) name') in HR'.
        destruct (inv_reg _ _ HI _ _ HR') as (HC & _). destruct (Nat.eqb_spec c' (length (r_clients (bus_reg b)))); [lia|]. now apply HT.
  Qed.
  Lemma tinv_close d (b : bus D) u tm : rinv (bus_reg b) u -> (exists x, In (d, x) u) -> tinv b tm -> tinv (bus_close d b) tm.
  Proof.
    intros HI HX HT name c HR. cbn [bus_close bus_reg bus_timeout] in *. apply HT. revert HR. unfold registered, dev_close.
    destruct (nth_error (r_devices (bus_reg b)) d) as [dv|]; [|auto]. destruct (length _ =? 0)%nat; [|auto]. cbn [r_registry set_client]. intros HR.
    destruct (eqb_list (c_name (get_client (bus_reg b) (d_client dv))) name) eqn:EN.
    - apply eqb_list_eq in EN. subst name. rewrite dget_ddel_eq in HR. discriminate.
    - apply eqb_list_neq in EN. now rewrite dget_ddel_neq in HR by exact EN.
  Qed.

  Lemma disciplined_snoc l ev : disciplined (l ++ [ev]) -> disciplined l /\ allowed ev (snd (run l)).
  Proof. intros H. inversion H as [E|l' ev' H1 H2 E]; [destruct l; discriminate|]. apply app_inj_tail in E as [-> ->]. auto. Qed.
  Definition tstep (done : list bevent) (ev : bevent) (t : str -> Z) : str -> Z :=
    match ev with
    | BOpen _ name _ _ timeout _ =>
      if opened (in_use_after done) (in_use_after (done ++ [ev]))
      then fun x => if eqb_list x name then match timeout with Some v => v | None => if port_used (in_use_after done) name then t x else 500 end else t x
      else t
    | _ => t
    end.
  Lemma timeouts_snoc : forall l done ev t, timeouts done (l ++ [ev]) t = tstep (done ++ l) ev (timeouts done l t).
  Proof.
    induction l as [|x l IH]; intros done ev t; cbn [app timeouts].
    - rewrite app_nil_r. reflexivity.
    - rewrite IH, <- app_assoc. reflexivity.
  Qed.
  Lemma run_registry evs ports : bus_reg (fst (bruns dev evs (bus0 ports))) = fst (run (registry_events evs)).
  Proof. apply (bruns_reg evs (bus0 ports) []). Qed.
  Lemma bus_inv evs ports : disciplined (registry_events evs) -> let b := fst (bruns dev evs (bus0 ports)) in
    rinv (bus_reg b) (in_use_after evs) /\ tinv b (timeouts [] evs (fun _ => 500)).
  Proof.
    induction evs as [|ev evs IH] using rev_ind; intros HD b.
    - split; [apply rinv0|]. intros name c H. discriminate H.
    - split; [unfold b; rewrite run_registry; now apply rinv_run|]. rewrite timeouts_snoc. cbn [app]. unfold b. clear b. rewrite bruns_app.
      assert (HD' : disciplined (registry_events evs)).
      { rewrite registry_app in HD. destruct ev; cbn [registry_events flat_map app] in HD; rewrite ?app_nil_r in HD; auto; now apply disciplined_snoc in HD as [HD _]. }
      destruct (IH HD') as [I1 I2]. clear IH. pose proof (run_registry evs ports) as HR. destruct (bruns dev evs (bus0 ports)) as [b r1] eqn:EB. cbn [fst] in *. cbn [bruns].
      destruct ev as [sl name baud parity t can|d|d a n|d a w]; cbn [bstep tstep].
      + rewrite registry_app in HD. cbn [registry_events flat_map app] in HD. apply disciplined_snoc in HD as [_ HA]. cbn [allowed] in HA. fold (in_use_after evs) in HA.
        pose proof (tinv_open sl name baud parity t can b) as HT. destruct (bopen_reg sl name baud parity t can b) as (R1 & R2 & _).
        destruct (bus_open sl name baud parity t can b) as [b' r]. cbn [fst snd] in *. specialize (HT b' r _ _ I1 HA I2 eq_refl).
        replace (opened (in_use_after evs) (in_use_after (evs ++ [BOpen sl name baud parity t can]))) with (match r with Ok _ => true | Raise _ => false end); [destruct r; exact HT|].
        unfold in_use_after, opened. rewrite registry_app. cbn [registry_events flat_map app]. rewrite run_snoc. cbn [run1]. rewrite <- HR.
        destruct (dev_open sl name baud parity can (bus_reg b)) as [s r']. cbn [snd] in R2. subst r'. destruct r; cbn [snd length]; symmetry; [apply Nat.ltb_lt; lia|apply Nat.ltb_irrefl].
      + rewrite registry_app in HD. cbn [registry_events flat_map app] in HD. apply disciplined_snoc in HD as [_ HA]. cbn [allowed] in HA. fold (in_use_after evs) in HA.
        cbn [fst]. eapply tinv_close; eauto.
      + destruct (bread_reg d a n b) as [R1 R2]. destruct (bus_read dev d a n b) as [b' r]. cbn [fst] in *. unfold tinv. rewrite R1, R2. exact I2.
      + destruct (bwrite_reg d a w b) as [R1 R2]. destruct (bus_write dev d a w b) as [b' r]. cbn [fst] in *. unfold tinv. rewrite R1, R2. exact I2.
  Qed.

  (** device objects keep slave id and port; clients keep their names *)
  Definition names_ok (s : rstate) : Prop :=
    (forall n c, registered s n = Some c -> (c < length (r_clients s))%nat /\ c_name (get_client s c) = n) /\
    (forall d dv, nth_error (r_devices s) d = Some dv -> (d_client dv < length (r_clients s))%nat /\ c_name (get_client s (d_client dv)) = d_name dv).
  Lemma names_set s c k : names_ok s -> c_name k = c_name (get_client s c) -> names_ok (set_client s c k).
  Proof.
    intros [H1 H2] HK. assert (HG : forall c', (c' < length (r_clients s))%nat -> c_name (get_client (set_client s c k) c') = c_name (get_client s c')).
    { intros c' HC. destruct (lt_dec c (length (r_clients s))) as [HL|HL].
      - rewrite get_set by exact HL. destruct (Nat.eqb_spec c' c); [now subst|reflexivity].
      - unfold get_client, set_client. cbn [r_clients]. replace (upd (r_clients s) c k) with (r_clients s); [reflexivity|]. clear - HL. revert c HL. induction (r_clients s) as [|x l IH]; intros [|c] HL; cbn [upd length] in *; try reflexivity; try lia. rewrite <- IH; [reflexivity|lia]. }
    split.
    - intros n c' HR. destruct (H1 n c' HR) as [A B]. cbn [set_client r_clients]. rewrite upd_length. split; [exact A|]. now rewrite HG.
    - intros d dv HD. destruct (H2 d dv HD) as [A B]. cbn [set_client r_clients]. rewrite upd_length. split; [exact A|]. now rewrite HG.
  Qed.
  Lemma names_open sl name baud parity can s s' r : names_ok s -> dev_open sl name baud parity can s = (s', r) -> names_ok s' /\ exists more, r_devices s' = r_devices s ++ more.
  Proof.
    intros HN H. unfold dev_open in H. assert (HC : forall s1 r1, rtu_client name baud parity can s = (s1, r1) -> names_ok s1 /\ r_devices s1 = r_devices s /\ match r1 with Ok c => (c < length (r_clients s1))%nat /\ c_name (get_client s1 c) = name | Raise _ => True end).
    { clear H s' r. intros s1 r1 H. unfold rtu_client in H. fold (registered s name) in H. destruct (registered s name) as [c|] eqn:HR.
      - destruct (match baud with Some b => _ | None => _ end); [apply pair_equal_spec in H as [<- <-]; auto|].
        destruct (match parity with Some b => _ | None => _ end); apply pair_equal_spec in H as [<- <-]; [auto|]. split; [exact HN|]. split; [reflexivity|]. now apply HN.
      - destruct can; apply pair_equal_spec in H as [<- <-]; [|auto]. cbn [r_devices]. destruct HN as [N1 N2].
        assert (HG : forall c, (c < length (r_clients s))%nat -> get_client (mkRS (r_clients s ++ [mkRC name match baud with Some b => b | None => 9600 end match parity with Some p => p | None => PARITY_NONE end true []]) (r_devices s) (dset name (length (r_clients s)) (r_registry s))) c = get_client s c).
        { intros c HC. unfold get_client. cbn [r_clients]. now rewrite app_nth1. }
        split; [|split; [reflexivity|]].
        + split.
          * intros n c HRR. unfold registered in HRR. cbn [r_registry] in HRR. cbn [r_clients]. rewrite app_length. cbn [length]. destruct (eqb_list name n) eqn:EN.
            -- apply eqb_list_eq in EN. subst n. rewrite dget_dset_eq in HRR. apply Some_inj in HRR. subst c. split; [lia|]. unfold get_client. cbn [r_clients]. rewrite app_nth2, Nat.sub_diag by lia. reflexivity.
            -- apply eqb_list_neq in EN. rewrite dget_dset_neq in HRR by congruence. destruct (N1 n c HRR) as [A B]. split; [lia|]. now rewrite HG.
          * intros d dv HD. cbn [r_devices] in HD. destruct (N2 d dv HD) as [A B]. cbn [r_clients]. rewrite app_length. cbn [length]. split; [lia|]. now rewrite HG.
        + cbn [r_clients]. rewrite app_length. cbn [length]. split; [lia|]. unfold get_client. cbn [r_clients]. rewrite app_nth2, Nat.sub_diag by lia. reflexivity. }
    destruct (rtu_client name baud parity can s) as [s1 [c|e]] eqn:EC; destruct (HC _ _ eq_refl) as (N1 & DV & NC).
    - apply pair_equal_spec in H as [<- _]. pose proof (names_set s1 c (mkRC (c_name (get_client s1 c)) (c_baud (get_client s1 c)) (c_parity (get_client s1 c)) (c_open (get_client s1 c)) (zset sl (length (r_devices s1)) (c_devs (get_client s1 c)))) N1 eq_refl) as [A B].
      cbn [r_devices set_client]. split; [|exists [mkRD sl name c]; now rewrite DV]. split; [exact A|]. intros d dv HD. cbn [r_devices] in HD.
      destruct (lt_dec d (length (r_devices s1))) as [HL|HL].
      + rewrite nth_error_app1 in HD by exact HL. exact (B d dv HD).
      + rewrite nth_error_app2 in HD by lia. destruct (d - length (r_devices s1))%nat as [|k]; [|destruct k; discriminate]. cbn [nth_error] in HD. apply Some_inj in HD. subst dv. cbn [d_client d_name].
        destruct NC as [C1 C2]. cbn [r_clients set_client]. rewrite upd_length. split; [exact C1|].
        change (c_name (get_client (set_client s1 c (mkRC (c_name (get_client s1 c)) (c_baud (get_client s1 c)) (c_parity (get_client s1 c)) (c_open (get_client s1 c)) (zset sl (length (r_devices s1)) (c_devs (get_client s1 c))))) c) = name).
        rewrite get_set, Nat.eqb_refl by exact C1. exact C2.
    - apply pair_equal_spec in H as [<- _]. split; [exact N1|]. exists []. now rewrite app_nil_r.
  Qed.
  Lemma names_close d s : names_ok s -> names_ok (dev_close d s) /\ r_devices (dev_close d s) = r_devices s.
  Proof.
    intros HN. unfold dev_close. destruct (nth_error (r_devices s) d) as [dv|]; [|auto]. destruct (length _ =? 0)%nat.
    - pose proof (names_set s (d_client dv) (mkRC (c_name (get_client s (d_client dv))) (c_baud (get_client s (d_client dv))) (c_parity (get_client s (d_client dv))) false (zdel (d_slave dv) (c_devs (get_client s (d_client dv))))) HN eq_refl) as [A B].
      split; [|reflexivity]. split; [|exact B]. intros n c HR. apply (A n c). unfold registered in *. cbn [r_registry] in *.
      destruct (eqb_list (c_name (get_client s (d_client dv))) n) eqn:EN; [apply eqb_list_eq in EN; subst n; rewrite dget_ddel_eq in HR; discriminate|]. apply eqb_list_neq in EN. now rewrite dget_ddel_neq in HR.
    - split; [|reflexivity]. now apply names_set.
  Qed.

  Lemma bstep_names ev b b1 x : names_ok (bus_reg b) -> bstep dev ev b = (b1, x) -> names_ok (bus_reg b1) /\ exists more, r_devices (bus_reg b1) = r_devices (bus_reg b) ++ more.
  Proof.
    intros HN H. destruct ev as [sl name baud parity t can|d|d a n|d a w]; cbn [bstep] in H.
    - destruct (bopen_reg sl name baud parity t can b) as (R1 & _). destruct (bus_open sl name baud parity t can b) as [b' r]. apply pair_equal_spec in H as [<- _]. cbn [fst] in R1. rewrite R1.
      destruct (dev_open sl name baud parity can (bus_reg b)) as [s r'] eqn:ED. cbn [fst]. eapply names_open; eauto.
    - apply pair_equal_spec in H as [<- _]. cbn [bus_close bus_reg]. destruct (names_close d _ HN) as [A B]. split; [exact A|]. exists []. now rewrite app_nil_r.
    - destruct (bread_reg d a n b) as [R1 _]. destruct (bus_read dev d a n b) as [b' r]. apply pair_equal_spec in H as [<- _]. cbn [fst] in R1. rewrite R1. split; [exact HN|]. exists []. now rewrite app_nil_r.
    - destruct (bwrite_reg d a w b) as [R1 _]. destruct (bus_write dev d a w b) as [b' r]. apply pair_equal_spec in H as [<- _]. cbn [fst] in R1. rewrite R1. split; [exact HN|]. exists []. now rewrite app_nil_r.
  Qed.
  Lemma names0 : names_ok rstate0.
  Proof. split; [intros n c H; discriminate H|]. intros [|d] dv H; discriminate H. Qed.
  Lemma bruns_names : forall evs b, names_ok (bus_reg b) -> names_ok (bus_reg (fst (bruns dev evs b))) /\ exists more, r_devices (bus_reg (fst (bruns dev evs b))) = r_devices (bus_reg b) ++ more.
  Proof.
    induction evs as [|ev evs IH]; intros b HN; cbn [bruns]; [split; [exact HN|]; exists []; now rewrite app_nil_r|]. destruct (bstep dev ev b) as [b1 x] eqn:E1.
    destruct (bstep_names ev b b1 x HN E1) as (N1 & m1 & D1). destruct (IH b1 N1) as (N2 & m2 & D2). destruct (bruns dev evs b1) as [b2 l]. cbn [fst] in *. split; [exact N2|].
    exists (m1 ++ m2). rewrite D2, D1. now rewrite app_assoc.
  Qed.

  (** *** requests on other ports do not matter *)
  Definition agree (name : str) (b b' : bus D) : Prop := bus_reg b' = bus_reg b /\ bus_timeout b' = bus_timeout b /\ bus_ports b' name = bus_ports b name.
  Lemma agree_step nm name ev b b' b1 x : agree name b b' -> bstep dev ev b = (b1, x) -> names_ok (bus_reg b) -> (forall d n, port_of b d = Some n -> nm d = Some n) ->
    concerns nm name ev = true -> exists b1', bstep dev ev b' = (b1', x) /\ agree name b1 b1'.
  Proof.
    intros (A1 & A2 & A3) H HN HX HC. destruct ev as [sl pn baud parity t can|d|d a n|d a w]; cbn [bstep concerns] in *.
    - unfold bus_open in *. rewrite A1, A2. destruct (dev_open sl pn baud parity can (bus_reg b)) as [s [d|e]]; apply pair_equal_spec in H as [<- <-]; eexists; (split; [reflexivity|]); unfold agree; cbn [bus_reg bus_timeout bus_ports]; auto.
    - apply pair_equal_spec in H as [<- <-]. eexists. split; [reflexivity|]. unfold agree, bus_close. cbn [bus_reg bus_timeout bus_ports]. rewrite A1. auto.
    - unfold bus_read, port_of in *. rewrite A1, A2. specialize (HX d). destruct (nth_error (r_devices (bus_reg b)) d) as [dv|] eqn:ED; [|apply pair_equal_spec in H as [<- <-]; eexists; split; [reflexivity|]; unfold agree; auto]. cbn [option_map] in HX. rewrite (HX _ eq_refl) in HC. apply eqb_list_eq in HC.
      destruct HN as [_ HN]. destruct (HN _ _ ED) as [_ EN]. rewrite EN, HC, A3 in *. destruct (c_open _); [|apply pair_equal_spec in H as [<- <-]; eexists; split; [reflexivity|]; unfold agree; auto].
      destruct (rtu_read _ _ _ _ _ _ _ _ _) as [p r]. apply pair_equal_spec in H as [<- <-]. eexists. split; [reflexivity|]. unfold agree, set_port. cbn [bus_reg bus_timeout bus_ports]. rewrite eqb_list_refl. auto.
    - unfold bus_write, port_of in *. rewrite A1, A2. specialize (HX d). destruct (nth_error (r_devices (bus_reg b)) d) as [dv|] eqn:ED; [|apply pair_equal_spec in H as [<- <-]; eexists; split; [reflexivity|]; unfold agree; auto]. cbn [option_map] in HX. rewrite (HX _ eq_refl) in HC. apply eqb_list_eq in HC.
      destruct HN as [_ HN]. destruct (HN _ _ ED) as [_ EN]. rewrite EN, HC, A3 in *. destruct (c_open _); [|apply pair_equal_spec in H as [<- <-]; eexists; split; [reflexivity|]; unfold agree; auto].
      destruct (rtu_write _ _ _ _ _ _ _) as [p r]. apply pair_equal_spec in H as [<- <-]. eexists. split; [reflexivity|]. unfold agree, set_port. cbn [bus_reg bus_timeout bus_ports]. rewrite eqb_list_refl. auto.
  Qed.
  Lemma drop_step nm name ev b b' b1 x : agree name b b' -> bstep dev ev b = (b1, x) -> names_ok (bus_reg b) -> (forall d n, port_of b d = Some n -> nm d = Some n) -> concerns nm name ev = false -> agree name b1 b'.
  Proof.
    intros (A1 & A2 & A3) H HN HX HC. destruct ev as [sl pn baud parity t can|d|d a n|d a w]; cbn [bstep concerns] in *; try discriminate HC.
    - unfold bus_read, port_of in *. specialize (HX d). destruct (nth_error (r_devices (bus_reg b)) d) as [dv|] eqn:ED; [|apply pair_equal_spec in H as [<- _]; unfold agree; auto]. cbn [option_map] in HX. rewrite (HX _ eq_refl) in HC. apply eqb_list_neq in HC.
      destruct HN as [_ HN]. destruct (HN _ _ ED) as [_ EN]. destruct (c_open _); [|apply pair_equal_spec in H as [<- _]; unfold agree; auto].
      destruct (rtu_read _ _ _ _ _ _ _ _ _) as [p r]. apply pair_equal_spec in H as [<- _]. unfold agree, set_port. cbn [bus_reg bus_timeout bus_ports]. rewrite EN. destruct (eqb_list name (d_name dv)) eqn:EQ; [apply eqb_list_eq in EQ; congruence|auto].
    - unfold bus_write, port_of in *. specialize (HX d). destruct (nth_error (r_devices (bus_reg b)) d) as [dv|] eqn:ED; [|apply pair_equal_spec in H as [<- _]; unfold agree; auto]. cbn [option_map] in HX. rewrite (HX _ eq_refl) in HC. apply eqb_list_neq in HC.
      destruct HN as [_ HN]. destruct (HN _ _ ED) as [_ EN]. destruct (c_open _); [|apply pair_equal_spec in H as [<- _]; unfold agree; auto].
      destruct (rtu_write _ _ _ _ _ _ _) as [p r]. apply pair_equal_spec in H as [<- _]. unfold agree, set_port. cbn [bus_reg bus_timeout bus_ports]. rewrite EN. destruct (eqb_list name (d_name dv)) eqn:EQ; [apply eqb_list_eq in EQ; congruence|auto].
  Qed.
  Lemma independent nm name : forall evs b b', agree name b b' -> names_ok (bus_reg b) ->
    (forall d n, port_of (fst (bruns dev evs b)) d = Some n -> nm d = Some n) ->
    let '(bf, l) := bruns dev evs b in let '(bf', l') := bruns dev (filter (concerns nm name) evs) b' in
    agree name bf bf' /\ filter (fun x => concerns nm name (fst x)) l = l'.
  Proof.
    induction evs as [|ev evs IH]; intros b b' HA HN HX; cbn [bruns filter]; [auto|]. cbn [bruns] in HX. destruct (bstep dev ev b) as [b1 x] eqn:E1.
    destruct (bstep_names ev b b1 x HN E1) as (N1 & m1 & D1). pose proof (bruns_names evs b1 N1) as (_ & m2 & D2).
    assert (HXB : forall d n, port_of b d = Some n -> nm d = Some n).
    { intros d n HP. apply HX. destruct (bruns dev evs b1) as [b2 l]. cbn [fst] in *. unfold port_of in *. rewrite D2, D1. destruct (nth_error (r_devices (bus_reg b)) d) as [dv|] eqn:ED; [|discriminate].
      rewrite <- app_assoc, nth_error_app1 by (apply nth_error_Some; congruence). now rewrite ED. }
    specialize (IH b1). destruct (concerns nm name ev) eqn:EC.
    - destruct (agree_step nm name ev b b' b1 x HA E1 HN HXB EC) as (b1' & E1' & HA1). cbn [bruns]. rewrite E1'. specialize (IH b1' HA1 N1).
      destruct (bruns dev evs b1) as [b2 l]. destruct (bruns dev (filter (concerns nm name) evs) b1') as [b2' l']. cbn [fst] in *. destruct (IH HX) as [I1 I2]. split; [exact I1|].
      cbn [filter fst]. rewrite EC. now f_equal.
    - pose proof (drop_step nm name ev b b' b1 x HA E1 HN HXB EC) as HA1. specialize (IH b' HA1 N1). destruct (bruns dev evs b1) as [b2 l].
      destruct (bruns dev (filter (concerns nm name) evs) b') as [b2' l']. cbn [fst] in *. destruct (IH HX) as [I1 I2]. split; [exact I1|]. cbn [filter fst]. rewrite EC. exact I2.
  Qed.
End Bus.
