(** * C_RThreads: C113, opening and closing serial devices from several threads. *)
From Verif Require Import Py P_List M_Registry S_Registry P_Registry C_Registry M_RThreads S_RThreads P_RThreads.

(** A group of threads whose ports no other thread uses is, at every moment of every schedule, exactly as if the other threads
    had not run: where each thread is, what its calls returned or raised, its devices, and the group's ports. *)
Theorem C113_apart : forall w (G : nat -> bool) sched, own_ports w (fun i => G i = true) ->
  let w1 := qsched sched w in let w2 := qsched (filter G sched) w in
  (forall i, G i = true -> nth_error (w_threads w1) i = nth_error (w_threads w2) i) /\
  (forall i t n, G i = true -> nth_error (w_threads w) i = Some t -> uses t n -> w_ports w1 n = w_ports w2 n).
Proof.
  intros w G sched HO w1 w2. set (N := fun n => exists i t, G i = true /\ nth_error (w_threads w) i = Some t /\ uses t n).
  assert (HS : split_names G N w).
  { intros i t n Hi Hu. destruct (G i) eqn:EG; [exists i, t; auto|]. intros (j & u & HG & Hj & Hn). apply (HO j i u t n Hj Hi HG); auto. congruence. }
  destruct (alike_sched G N sched w w HS HS) as [H1 H2]; [now split|]. split; [exact H1|]. intros i t n HG Hi Hu. apply H2. exists i, t. auto.
Qed.
Print Assumptions C113_apart.

(** Every call returns (or raises) after at most six turns of its thread, whatever the other threads do, also on shared ports. *)
Theorem C113_calls_return : forall progs sched i p, nth_error progs i = Some p -> (6 * length p <= length (filter (Nat.eqb i) sched))%nat ->
  exists t, nth_error (w_threads (qsched sched (qworld0 progs))) i = Some t /\ t_pc t = QIdle /\ t_prog t = [].
Proof.
  intros progs sched i p Hi HL.
  destruct (todo_sched i sched (qworld0 progs) (mkQT p QIdle [] [])) as (t & Ht & HT).
  { cbn [qworld0 w_threads]. rewrite nth_error_map, Hi. reflexivity. }
  exists t. split; [exact Ht|]. unfold todo in HT. cbn [t_pc t_prog rank] in HT. destruct t as [prog pc ds out]. cbn [t_pc t_prog] in *.
  destruct prog; cbn [length] in HT; [|lia]. destruct pc; cbn [rank] in HT; auto; lia.
Qed.
Print Assumptions C113_calls_return.

(** Calls made one at a time — also on shared ports, in any order, from any threads — do and return what the same calls do in a
    program with one thread (M_Registry, C38, C39). *)
Theorem C113_one_at_a_time : forall progs h w, one_at_a_time (qworld0 progs) h w -> agrees w (one_run h).
Proof.
  intros progs h w H. induction H as [|h w1 i t a rest n H1 IH Ht HI HP HM (u & Hu & HIu & HPu)]; [apply agrees0|].
  unfold one_run. rewrite fold_left_app. cbn [fold_left]. fold (one_run h).
  destruct (whole w1 (one_run h) i t a rest IH Ht HI HP) as (n' & Hn' & HM' & HA' & u' & Hu' & HIu' & HPu').
  assert (n = n'); [|now subst n'].
  destruct (Nat.lt_trichotomy n n') as [HL|[HL|HL]]; [|exact HL|].
  - destruct (Nat.eq_dec n 0) as [->|Hn].
    + cbn in Hu. assert (E : u = t) by congruence. subst u. rewrite HP in HPu. apply (f_equal (@length _)) in HPu. cbn in HPu. lia.
    + destruct (HM' n ltac:(lia)) as (v & Hv & HIv). congruence.
  - destruct (HM n' ltac:(lia)) as (v & Hv & HIv). congruence.
Qed.
Print Assumptions C113_one_at_a_time.

Lemma filter_eqb_repeat i sched : filter (Nat.eqb i) sched = repeat i (length (filter (Nat.eqb i) sched)).
Proof.
  induction sched as [|j l IH]; [reflexivity|]. cbn [filter]. destruct (Nat.eqb_spec i j) as [<-|]; [|exact IH]. cbn [length repeat]. now f_equal.
Qed.
(** the calls thread [i] has finished *)
Definition finished (p : list act) (t : qthread) : list act := firstn (length (t_out t)) p.
Lemma alone progs sched i p t : nth_error progs i = Some p -> own_ports (qworld0 progs) (fun j => j = i) ->
  nth_error (w_threads (qsched sched (qworld0 progs))) i = Some t -> t_pc t = QIdle ->
  t_prog t = skipn (length (t_out t)) p /\
  exists v, agrees v (fold_left (fun o a => one_call (i, a) o) (finished p t) one0) /\ nth_error (w_threads v) i = Some t /\
    forall n, uses (mkQT p QIdle [] []) n -> w_ports (qsched sched (qworld0 progs)) n = w_ports v n.
Proof.
  intros Hi HO Ht HI.
  assert (H0 : nth_error (w_threads (qworld0 progs)) i = Some (mkQT p QIdle [] [])) by (cbn [qworld0 w_threads]; rewrite nth_error_map, Hi; reflexivity).
  destruct (C113_apart (qworld0 progs) (Nat.eqb i) sched) as [HA HB].
  { intros a b ta tb n H1 H2 H3 H4. apply Nat.eqb_eq in H3. apply (HO a b ta tb n H1 H2); [now symmetry|]. intros E. apply H4. subst b. apply Nat.eqb_refl. }
  rewrite filter_eqb_repeat in HA, HB. set (v := qsched (repeat i _) (qworld0 progs)) in HA, HB.
  assert (Hv : nth_error (w_threads v) i = Some t) by (rewrite <- HA; [exact Ht|apply Nat.eqb_refl]).
  destruct (solo i _ (qworld0 progs) one0 (mkQT p QIdle [] []) t (agrees0 progs) H0 eq_refl Hv HI) as (k & HK & HP & Hk). cbn [t_prog] in HK, HP, Hk. fold v in HK.
  assert (EL : length (t_out t) = k).
  { destruct HK as (names & HS & HT). destruct (HT i t Hv) as [_ E]. rewrite E. destruct (one_thread i (firstn k p)) as (_ & _ & EL). rewrite EL. apply firstn_length_le. exact Hk. }
  split; [now rewrite EL|]. exists v. unfold finished. rewrite EL. split; [exact HK|]. split; [exact Hv|].
  intros n Hn. apply (HB i _ n (Nat.eqb_refl i) H0 Hn).
Qed.
(** A thread with ports of its own, at any moment between its calls: its calls returned or raised what they do in a program with
    one thread. *)
Theorem C113_own_ports_results : forall progs sched i p t, nth_error progs i = Some p -> own_ports (qworld0 progs) (fun j => j = i) ->
  nth_error (w_threads (qsched sched (qworld0 progs))) i = Some t -> t_pc t = QIdle ->
  t_out t = o_out (one_run (map (pair i) (finished p t))) i.
Proof.
  intros progs sched i p t Hi HO Ht HI. destruct (alone progs sched i p t Hi HO Ht HI) as (_ & v & (names & HS & HT) & Hv & _).
  destruct (HT i t Hv) as [_ E]. 
  assert (HX : forall l o, fold_left (fun o a => one_call (i, a) o) l o = fold_left (fun o ia => one_call ia o) (map (pair i) l) o).
  { induction l as [|a l IH]; intros o; [reflexivity|]. apply IH. }
  rewrite HX in E. exact E.
Qed.
Print Assumptions C113_own_ports_results.
(** ... and its ports are open and registered exactly while it uses a device on them (C38), if it closes only devices in use and
    opens no slave twice. *)
Theorem C113_own_ports_open_while_used : forall progs sched i p t, nth_error progs i = Some p -> own_ports (qworld0 progs) (fun j => j = i) ->
  nth_error (w_threads (qsched sched (qworld0 progs))) i = Some t -> t_pc t = QIdle ->
  let evs := map ev_of (finished p t) in let u := snd (run evs) in let P := w_ports (qsched sched (qworld0 progs)) in disciplined evs ->
  (forall name, uses (mkQT p QIdle [] []) name -> (q_reg (P name) <> None <-> exists d slave, In (d, (slave, name)) u)) /\
  (forall d slave name, In (d, (slave, name)) u -> exists c q, nth_error (t_devs t) d = Some (mkQD slave name c) /\
     q_reg (P name) = Some c /\ nth_error (q_clients (P name)) c = Some q /\ q_open q = true) /\
  (forall name c q, uses (mkQT p QIdle [] []) name -> nth_error (q_clients (P name)) c = Some q -> q_open q = true -> q_reg (P name) = Some c).
Proof.
  intros progs sched i p t Hi HO Ht HI evs u P HD. destruct (alone progs sched i p t Hi HO Ht HI) as (_ & v & (names & HS & HT) & Hv & HPv). fold P in HPv.
  destruct (HT i t Hv) as [HDV _]. destruct (one_thread i (finished p t)) as (E1 & E2 & _). fold evs in E1. rewrite E1 in *. rewrite E2 in HDV. clear HT.
  destruct (C38_port_open_exactly_while_used evs HD) as (A1 & A2 & A3). fold u in A1, A2. set (s := fst (run evs)) in *.
  assert (HN : forall name, q_reg (w_ports v name) <> None <-> exists c, registered s name = Some c).
  { intros name. pose proof (so_reg _ _ _ _ HS name) as HR. destruct (q_reg (w_ports v name)), (registered s name); try contradiction; split; try congruence; eauto.
    intros [c Hc]. discriminate. }
  assert (HU : forall d slave name, In (d, (slave, name)) u -> uses (mkQT p QIdle [] []) name).
  { intros d slave name. subst u evs. unfold finished. generalize (length (t_out t)). intros n Hin. left.
    assert (HX : forall l, In (d, (slave, name)) (snd (run (map ev_of l))) -> exists a, In a l /\ act_name a = Some name).
    { induction l as [|a l IH] using rev_ind; [cbn; tauto|]. rewrite map_app. cbn [map]. rewrite run_snoc. intros HI2.
      assert (HC : In (d, (slave, name)) (snd (run (map ev_of l))) \/ act_name a = Some name).
      { destruct a as [sl nm b pa can|k]; cbn [ev_of run1 act_name] in *.
        - destruct (dev_open _ _ _ _ _ _) as [s' [x|e]]; cbn [snd] in HI2; [|auto]. destruct HI2 as [E|HI2]; [|auto]. apply pair_equal_spec in E as [_ E]. apply pair_equal_spec in E as [_ ->]. auto.
        - cbn [snd] in HI2. apply filter_In in HI2. left. tauto. }
      destruct HC as [HC|HC]; [destruct (IH HC) as (b & Hb & Eb); exists b; split; [apply in_or_app; auto|exact Eb]|exists a; split; [apply in_or_app; right; now left|exact HC]]. }
    destruct (HX _ Hin) as (a & Ha & Ea). exists a. split; [|exact Ea]. cbn [t_prog]. rewrite <- (firstn_skipn n p). apply in_or_app. now left. }
  split; [|split].
  - intros name Hn. rewrite (HPv name Hn). rewrite HN. apply A1.
  - intros d slave name Hin. destruct (A2 d slave name Hin) as (EC & c & Er & Ho). rewrite Er in EC. unfold client_of in EC.
    destruct (nth_error (r_devices s) d) as [dv|] eqn:Ed; [|discriminate]. cbn [option_map] in EC. apply Some_inj in EC.
    assert (HDd : exists e, nth_error (t_devs t) d = Some e /\ same_device s names e d).
    { assert (HLd : (d < length (r_devices s))%nat) by (apply nth_error_Some; congruence).
      assert (HX : forall l l' j x, Forall2 (same_device s names) l l' -> nth_error l' j = Some x -> exists e, nth_error l j = Some e /\ same_device s names e x).
      { intros l l' j x HF. revert j. induction HF as [|a b l l' HR HF IH]; intros [|j] Hj; cbn in *; try discriminate; [|now apply IH]. apply Some_inj in Hj. subst. eauto. }
      apply (HX _ _ d d HDV). rewrite nth_error_seq. apply Nat.ltb_lt in HLd. now rewrite HLd. }
    destruct HDd as (e & He & c' & Hc' & Hn'). rewrite Ed in Hc'. apply Some_inj in Hc'. rewrite Hc' in EC. cbn [d_client] in EC. subst c'.
    destruct (so_client _ _ _ _ HS _ _ _ Hn') as (q & Eq & Q1 & Q2 & Q3 & Q4 & _).
    assert (HU2 : qd_slave e = slave /\ qd_name e = name).
    { pose proof (inv_use _ _ (rinv_run evs HD) _ _ _ Hin) as (c2 & Hd2 & _). fold s in Hd2. rewrite Ed in Hd2. apply Some_inj in Hd2. rewrite Hc' in Hd2.
      split; [exact (f_equal d_slave Hd2)|exact (f_equal d_name Hd2)]. }
    destruct HU2 as [Es En]. destruct e as [sl nm cc]. cbn [qd_slave qd_name qd_client] in *. rewrite En, Es in *. clear Es En sl nm. rewrite (HPv name (HU _ _ _ Hin)).
    exists cc, q. split; [exact He|]. pose proof (so_reg _ _ _ _ HS name) as HR. rewrite Er in HR. destruct (q_reg (w_ports v name)) as [k|]; [|contradiction].
    rewrite Hn' in HR. apply Some_inj in HR. apply pair_equal_spec in HR as [_ ->]. split; [reflexivity|]. split; [exact Eq|]. unfold port_open in Ho. congruence.
  - intros name c q Hn Hc Ho. rewrite (HPv name Hn) in *. assert (Hk : In (name, c) names) by (apply (so_all _ _ _ _ HS); apply nth_error_Some; congruence).
    apply In_nth_error in Hk as [cid Hcid]. destruct (so_client _ _ _ _ HS _ _ _ Hcid) as (q' & Eq' & Q1 & Q2 & Q3 & Q4 & _). rewrite Hc in Eq'. apply Some_inj in Eq'. subst q'.
    assert (HA3 : registered s (c_name (get_client s cid)) = Some cid).
    { apply A3; [rewrite <- (so_len _ _ _ _ HS); apply nth_error_Some; congruence|]. unfold port_open. congruence. }
    rewrite Q1 in HA3. pose proof (so_reg _ _ _ _ HS name) as HR. rewrite HA3 in HR. destruct (q_reg (w_ports v name)) as [k|]; [|contradiction]. congruence.
Qed.
Print Assumptions C113_own_ports_open_while_used.

(** ** A concrete program: two threads, two ports, turn by turn. *)
Definition port_b : str := [98].
Definition ex_prog (n : str) : list act := [AOpen 1 n None None true; AOpen 2 n (Some 9600) None true; AOpen 3 n (Some 19200) None true; AClose 0].
Definition ex_turns : list nat := concat (repeat [0%nat; 1%nat] 20).
Example C113_ex : own_ports (qworld0 [ex_prog port_a; ex_prog port_b]) (fun j => j = 0%nat) /\
  (exists t, nth_error (w_threads (qsched ex_turns (qworld0 [ex_prog port_a; ex_prog port_b]))) 0 = Some t /\ t_pc t = QIdle /\
   t_out t = [Ok (Some 0%nat); Ok (Some 1%nat); Raise EModbusClient; Ok None] /\ disciplined (map ev_of (finished (ex_prog port_a) t))) /\
  w_ports (qsched ex_turns (qworld0 [ex_prog port_a; ex_prog port_b])) port_a = mkQP [mkQC 9600 PARITY_NONE true [(2, (0, 1)%nat)]] (Some 0%nat).
Proof.
  split; [|split].
  - intros i j t u n Hi Hj -> Hne H1 H2. cbn in Hi. apply Some_inj in Hi. subst t.
    destruct j as [|[|j]]; cbn in Hj; [congruence| |destruct j; discriminate]. apply Some_inj in Hj. subst u.
    assert (E1 : n = port_a). { destruct H1 as [(a & Ha & E)|[E|(d & [] & _)]]; [|discriminate]. cbn in Ha. decompose [or] Ha; subst; cbn in E; try contradiction; congruence. }
    assert (E2 : n = port_b). { destruct H2 as [(a & Ha & E)|[E|(d & [] & _)]]; [|discriminate]. cbn in Ha. decompose [or] Ha; subst; cbn in E; try contradiction; congruence. }
    rewrite E1 in E2. discriminate.
  - eexists. split; [vm_compute; reflexivity|]. split; [reflexivity|]. split; [reflexivity|].
    change (disciplined (((([] ++ [EvOpen 1 port_a None None true]) ++ [EvOpen 2 port_a (Some 9600) None true]) ++ [EvOpen 3 port_a (Some 19200) None true]) ++ [EvClose 0])).
    repeat apply disc_snoc; [constructor| | | |]; vm_compute.
    + intros d [].
    + intros d [E|[]]; discriminate.
    + intros d [E|[E|[]]]; discriminate.
    + eexists; right; left; reflexivity.
  - vm_compute. reflexivity.
Qed.
Definition where_is (w : qworld) (i : nat) : option (qpc * list act) := option_map (fun t => (t_pc t, t_prog t)) (nth_error (w_threads w) i).
Definition busy (x : option (qpc * list act)) : bool := match x with Some (QIdle, _) | None => false | _ => true end.
Lemma oat_do w h w1 i a rest n : one_at_a_time w h w1 -> where_is w1 i = Some (QIdle, a :: rest) -> where_is (qsched (repeat i n) w1) i = Some (QIdle, rest) ->
  forallb (fun m => busy (where_is (qsched (repeat i m) w1) i)) (seq 1 (n - 1)) = true -> one_at_a_time w (h ++ [(i, a)]) (qsched (repeat i n) w1).
Proof.
  intros H H1 H2 H3. unfold where_is in *. destruct (nth_error (w_threads w1) i) as [t|] eqn:Et; [|discriminate]. cbn [option_map] in H1. apply Some_inj in H1. apply pair_equal_spec in H1 as [H1 H1'].
  destruct (nth_error (w_threads (qsched (repeat i n) w1)) i) as [u|] eqn:Eu; [|discriminate]. cbn [option_map] in H2. apply Some_inj in H2. apply pair_equal_spec in H2 as [H2 H2'].
  eapply oat_call; [exact H|exact Et|exact H1|exact H1'| |eauto]. intros m Hm. rewrite forallb_forall in H3. specialize (H3 m). rewrite in_seq in H3. specialize (H3 ltac:(lia)).
  destruct (nth_error (w_threads (qsched (repeat i m) w1)) i) as [v|]; [|discriminate]. exists v. split; [reflexivity|]. intros E. cbn [option_map busy] in H3. rewrite E in H3. discriminate.
Qed.
(** two threads on one port, one call at a time: the second shares the first one's client, and the last close shuts the port *)
Example C113_one_at_a_time_ex : let prog s := [AOpen s port_a None None true; AClose 0] in exists w,
  one_at_a_time (qworld0 [prog 1; prog 2]) [(0%nat, AOpen 1 port_a None None true); (1%nat, AOpen 2 port_a None None true); (0%nat, AClose 0); (1%nat, AClose 0)] w /\
  w_ports w port_a = mkQP [mkQC 9600 PARITY_NONE false []] None.
Proof.
  intros prog. set (w0 := qworld0 [prog 1; prog 2]). set (w1 := qsched (repeat 0%nat 4) w0). set (w2 := qsched (repeat 1%nat 2) w1). set (w3 := qsched (repeat 0%nat 3) w2).
  set (w4 := qsched (repeat 1%nat 6) w3). exists w4. split; [|vm_compute; reflexivity].
  assert (O1 : one_at_a_time w0 ([] ++ [(0%nat, AOpen 1 port_a None None true)]) w1) by (apply oat_do with (rest := [AClose 0]); [apply oat_nil|vm_compute; reflexivity..]).
  assert (O2 := oat_do w0 _ w1 1 (AOpen 2 port_a None None true) [AClose 0] 2 O1 ltac:(vm_compute; reflexivity) ltac:(vm_compute; reflexivity) ltac:(vm_compute; reflexivity)).
  assert (O3 := oat_do w0 _ w2 0 (AClose 0) [] 3 O2 ltac:(vm_compute; reflexivity) ltac:(vm_compute; reflexivity) ltac:(vm_compute; reflexivity)).
  exact (oat_do w0 _ w3 1 (AClose 0) [] 6 O3 ltac:(vm_compute; reflexivity) ltac:(vm_compute; reflexivity) ltac:(vm_compute; reflexivity)).
Qed.

(** ** The restriction is needed: two threads on one port, each program fine by itself. *)
Definition race (s : Z) : list act := [AOpen s port_a None None true; AClose 0].
(** both find the port unregistered and open it: two open clients on one port, and the device of the first thread is on a client
    that is not the registered one *)
Theorem C113_shared_port_opened_twice : exists sched t0 t1, let w := qsched sched (qworld0 [race 1; race 2]) in
  w_threads w = [t0; t1] /\ t_out t0 = [Ok (Some 0%nat)] /\ t_out t1 = [Ok (Some 0%nat)] /\ map q_open (q_clients (w_ports w port_a)) = [true; true] /\
  map qd_client (t_devs t0) = [0%nat] /\ q_reg (w_ports w port_a) = Some 1%nat.
Proof. exists [0; 1; 0; 0; 0; 1; 1; 1]%nat. do 2 eexists. vm_compute. repeat split. Qed.
Print Assumptions C113_shared_port_opened_twice.
(** one thread closes the last device while the other opens one: the new device is on a closed port, without any error *)
Theorem C113_shared_port_closed_under_a_device : exists sched t0 t1, let w := qsched sched (qworld0 [race 1; race 2]) in
  w_threads w = [t0; t1] /\ t_out t0 = [Ok (Some 0%nat); Ok None] /\ t_out t1 = [Ok (Some 0%nat)] /\ t_pc t1 = QIdle /\
  map qd_client (t_devs t1) = [0%nat] /\ w_ports w port_a = mkQP [mkQC 9600 PARITY_NONE false [(2, (1, 0)%nat)]] None.
Proof. exists [0; 0; 0; 0; 0; 0; 0; 1; 0; 0; 0; 1]%nat. do 2 eexists. vm_compute. repeat split. Qed.
Print Assumptions C113_shared_port_closed_under_a_device.
(** two threads close the last two devices: close raises KeyError *)
Theorem C113_shared_port_close_raises : exists sched t0 t1, let w := qsched sched (qworld0 [race 1; race 2]) in
  w_threads w = [t0; t1] /\ t_out t0 = [Ok (Some 0%nat); Ok None] /\ t_out t1 = [Ok (Some 0%nat); Raise EKey].
Proof. exists [0; 0; 0; 0; 1; 1; 0; 0; 1; 1; 0; 1; 0; 1; 0; 1; 0; 1]%nat. do 2 eexists. vm_compute. repeat split. Qed.
Print Assumptions C113_shared_port_close_raises.
