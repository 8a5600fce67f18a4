(** * C_Threads: C103, TCP devices used from several threads. *)
From Verif Require Import Py P_List M_Wire M_Rtu S_Modbus M_Tcp S_Tcp M_Threads S_Threads P_Threads.
From Verif Require C_Tcp.

(** Device objects of their own: whatever the schedule, and however the responses arrive in pieces, the calls look as if each
    took effect at one moment between its start and its return: the ideal device keeps up, turn by turn. *)
Theorem C103_own_devices_partial : forall D (srv : server D) (mem : D -> memory) w sched,
  own_devices w -> Forall (fun t => call_ok srv mem (th_slave t) (th_call t)) (w_threads w) ->
  keeps_up srv mem w sched (mem (w_srv w), map (fun t => Idle (th_call t)) (w_threads w)).
Proof. intros. now apply inv_keeps_up, inv_start. Qed.

(** and a call returns once its thread has had enough turns, whatever the others do *)
Theorem C103_own_devices_return_partial : forall D (srv : server D) (mem : D -> memory) w sched i t,
  own_devices w -> Forall (fun t => call_ok srv mem (th_slave t) (th_call t)) (w_threads w) ->
  nth_error (w_threads w) i = Some t -> 264 <= zlen (filter (fun x => (fst x =? i)%nat) sched) ->
  exists t' r, nth_error (w_threads (tsched srv w sched)) i = Some t' /\ th_pc t' = TDone r.
Proof.
  intros D srv mem w sched i t HO HC EN HT. pose proof (inv_start srv mem w HO HC) as HI.
  destruct (mu_run srv mem sched _ _ _ _ HI EN) as (t' & E & HM). destruct (inv_run srv mem sched _ _ HI) as (s' & _ & HI').
  assert (ES : th_pc t = TStart) by (destruct HO as (_ & HS & _); rewrite Forall_forall in HS; apply HS; now apply nth_error_In in EN).
  assert (EM : mu t <= 264).
  { unfold mu. rewrite ES. rewrite Forall_forall in HC. specialize (HC t (nth_error_In _ _ EN)). destruct HC as [_ HC].
    destruct (th_call t); cbn [reply_len]; lia. }
  destruct (mu_zero srv mem _ _ _ _ HI' E ltac:(unfold turns in HM; destruct HM; lia)) as (r & Er). eauto.
Qed.

(** One call at a time: devices may be shared, and other threads may be anywhere, as long as they get no turn during the call
    and the device was left idle (not connected, or a connection with nothing left over): the call returns what it should, has
    its effect, leaves the device idle, and nothing of the other threads changes. *)
Theorem C103_one_at_a_time_partial : forall D (srv : server D) (mem : D -> memory) w i t ks,
  let idle (w : world D) := forall c, w_sock w (th_dev t) = Some c -> (c < w_next w)%nat /\ w_conn w c = [] in
  nth_error (w_threads w) i = Some t -> th_pc t = TStart -> call_ok srv mem (th_slave t) (th_call t) -> idle w -> 264 <= zlen ks ->
  let w' := tsched srv w (map (pair i) ks) in
  (exists t', nth_error (w_threads w') i = Some t' /\ th_pc t' = TDone (answer (th_call t) (mem (w_srv w)))) /\
  (forall a, mem (w_srv w') a = effect (th_call t) (mem (w_srv w)) a) /\ idle w' /\
  forall j, j <> i -> nth_error (w_threads w') j = nth_error (w_threads w) j.
Proof.
  intros D srv mem w i t ks idle EN EP HC HI HK w'. destruct (alone_run srv i ks w t EN) as (t' & E1 & EA & EJ). fold w' in E1, EA, EJ.
  assert (HO : own_devices (alone w t)).
  { split; [constructor; [tauto|constructor]|]. split; [constructor; [exact EP|constructor]|]. intros d c [<-|[]] Hc.
    destruct (HI c Hc). split; [assumption|]. split; [assumption|]. intros d' [<-|[]] _. reflexivity. }
  assert (HF : Forall (fun t => call_ok srv mem (th_slave t) (th_call t)) (w_threads (alone w t))) by (constructor; [exact HC|constructor]).
  pose proof (inv_start srv mem _ HO HF) as HV. cbn [alone w_threads map w_srv] in HV.
  destruct (inv_run srv mem (map (pair O) ks) _ _ HV) as (s' & HR & HV'). fold (alone w t) in HV'. rewrite EA in HV'.
  assert (HT : 264 <= zlen (filter (fun x : nat * Z => (fst x =? 0)%nat) (map (pair O) ks))).
  { clear -HK. replace (filter _ _) with (map (pair O) ks); [now rewrite zlen_map|]. clear. induction ks; cbn; congruence. }
  destruct (C103_own_devices_return_partial D srv mem (alone w t) (map (pair O) ks) O t HO HF eq_refl HT) as (t2 & r & E2 & E3).
  rewrite EA in E2. cbn [alone w_threads nth_error] in E2. apply Some_inj in E2. subst t2.
  destruct HV' as (F & _ & HM). cbn [alone w_threads w_srv] in F, HM.
  apply ideal_one in HR. destruct s' as [m' l']. cbn [fst snd] in *.
  inversion F as [|x a ? l0 HT' F0]; subst. inversion F0; subst. destruct HT' as [HCO HT']. rewrite E3 in HT'. destruct HT' as [-> HID].
  assert (ED : th_dev t' = th_dev t).
  { clear -E1 EN. subst w'. revert w t EN E1. induction ks as [|k ks IH]; intros w t EN E1; [cbn in E1; congruence|]. cbn [map] in E1.
    change (tsched srv w ((i, k) :: map (pair i) ks)) with (tsched srv (tstep srv w i k) (map (pair i) ks)) in E1.
    destruct (nth_error (w_threads (tstep srv w i k)) i) as [t1|] eqn:ET.
    - rewrite (IH _ t1 ET E1). clear -ET EN. unfold tstep in ET. rewrite EN in ET. cbv zeta in ET.
      assert (SN : forall y, nth_error (set_nth (w_threads w) i y) i = Some y).
      { intros y. destruct (nth_error_split _ _ EN) as (l1 & l2 & -> & <-). rewrite set_nth_app, nth_error_app2, Nat.sub_diag by lia. reflexivity. }
      repeat match type of ET with context [match ?x with _ => _ end] => destruct x end; cbn [w_threads] in ET; rewrite ?SN, ?EN in ET; apply Some_inj in ET; subst; reflexivity.
    - destruct (alone_step srv w i k t EN) as (t1 & E & _). congruence. }
  destruct HR as [HR|[HR|[HR|HR]]]; try (exfalso; congruence).
  assert (r = answer (th_call t) (mem (w_srv w))) by congruence. assert (m' = effect (th_call t) (mem (w_srv w))) by congruence. subst.
  split; [eauto|]. split; [exact HM|]. split; [|exact EJ]. intros c Hc. rewrite ED in HID. destruct (HID c Hc). split; assumption.
Qed.

(** ** examples: two devices, one connected; a read and a write of the same register at the same time *)
Definition ex_mem : memory := fun a => if a =? 100 then 7 else if a =? 200 then 9 else 0.
Definition ex_w (d0 d1 : nat) (s1 : option nat) (c0 c1 : tcall) : world memory :=
  mkW ex_mem 1 (fun _ => []) (fun d => if (d =? 1)%nat then s1 else None) [mkT d0 1 c0 TStart; mkT d1 1 c1 TStart].
Example C103_ex_read : call_ok C_Tcp.ex_srv (fun m => m) 1 (CRead 3 100 1).
Proof. split; [split; lia|]. split; [exact (proj1 (C_Tcp.C32_ex 1 3 ltac:(lia)))|lia]. Qed.
Example C103_ex_write : call_ok C_Tcp.ex_srv (fun m => m) 1 (CWrite 100 [1; 2]).
Proof. split; [split; lia|]. split; [exact (C_Tcp.C33_ex 1)|]. split; [repeat constructor; lia|]. cbn. lia. Qed.
Definition ex_world := ex_w 0 1 (Some O) (CRead 3 100 1) (CWrite 100 [1; 2]).
Example C103_ex_own : own_devices ex_world /\ Forall (fun t => call_ok C_Tcp.ex_srv (fun m => m) (th_slave t) (th_call t)) (w_threads ex_world).
Proof.
  split; [|constructor; [exact C103_ex_read|constructor; [exact C103_ex_write|constructor]]].
  split; [repeat constructor; cbn; intuition discriminate|]. split; [repeat constructor|].
  intros d c Hd Hc. cbn [ex_world ex_w w_sock] in Hc. destruct (Nat.eqb_spec d 1) as [->|]; [|discriminate]. apply Some_inj in Hc. subst c.
  split; [cbn; lia|]. split; [reflexivity|]. intros d' _ Hc'. cbn [ex_world ex_w w_sock] in Hc'. destruct (Nat.eqb_spec d' 1); [assumption|discriminate].
Qed.
Definition results (w : world memory) : list (option (res bytes)) :=
  map (fun t => match th_pc t with TDone r => Some r | _ => None end) (w_threads w).
(** the read gets what was there before the write, or after it, by the schedule *)
Definition turn (i : nat) (n : nat) : list (nat * Z) := repeat (i, 300) n.
Example C103_ex_before : results (tsched C_Tcp.ex_srv ex_world (turn 0 3 ++ turn 1 10 ++ turn 0 10)) = [Some (Ok [0; 7]); Some (Ok [])].
Proof. vm_compute. reflexivity. Qed.
Example C103_ex_after : results (tsched C_Tcp.ex_srv ex_world (turn 0 2 ++ turn 1 10 ++ turn 0 10)) = [Some (Ok [1; 2]); Some (Ok [])].
Proof. vm_compute. reflexivity. Qed.
Example C103_ex_alone : let w := ex_w 1 1 (Some O) (CRead 3 100 1) (CWrite 100 [1; 2]) in
  let t := mkT 1 1 (CWrite 100 [1; 2]) TStart in
  nth_error (w_threads w) 1 = Some t /\ th_pc t = TStart /\ call_ok C_Tcp.ex_srv (fun m => m) (th_slave t) (th_call t) /\
  (forall c, w_sock w (th_dev t) = Some c -> (c < w_next w)%nat /\ w_conn w c = []) /\ 264 <= zlen (repeat 1 300).
Proof.
  cbv zeta. split; [reflexivity|]. split; [reflexivity|]. split; [exact C103_ex_write|]. split; [|vm_compute; discriminate].
  intros c Hc. cbn in Hc. apply Some_inj in Hc. subst c. split; [cbn; lia|reflexivity].
Qed.

(** ** refuted: one device object used by two threads at the same time. *)
(** Connected: each thread gets the registers the other asked for. *)
Theorem C103_shared_device_refuted :
  let w := ex_w 1 1 (Some O) (CRead 3 100 1) (CRead 3 200 1) in
  Forall (fun t => call_ok C_Tcp.ex_srv (fun m => m) (th_slave t) (th_call t)) (w_threads w) /\
  regs ex_mem 100 1 = [0; 7] /\ regs ex_mem 200 1 = [0; 9] /\
  exists sched, results (tsched C_Tcp.ex_srv w sched) = [Some (Ok [0; 9]); Some (Ok [0; 7])].
Proof.
  cbv zeta. split; [constructor; [exact C103_ex_read|constructor; [|constructor]]|].
  { cbn [th_slave th_call]. split; [split; lia|]. split; [exact (proj1 (C_Tcp.C32_ex 1 3 ltac:(lia)))|lia]. }
  split; [vm_compute; reflexivity|]. split; [vm_compute; reflexivity|].
  exists (turn 0 2 ++ turn 1 2 ++ turn 1 10 ++ turn 0 10). vm_compute. reflexivity.
Qed.
(** Not connected: one thread closes the connection both use, and the other's call fails: with ModbusClientError if it had not
    sent its request, and with an AttributeError, which is no error of this library, if it had. *)
Theorem C103_shared_connect_refuted :
  let w := ex_w 0 0 None (CRead 3 100 1) (CWrite 100 [1; 2]) in
  Forall (fun t => call_ok C_Tcp.ex_srv (fun m => m) (th_slave t) (th_call t)) (w_threads w) /\
  (exists sched, results (tsched C_Tcp.ex_srv w sched) = [Some (Ok [0; 7]); Some (Raise EModbusClient)]) /\
  (exists sched, results (tsched C_Tcp.ex_srv w sched) = [Some (Ok [0; 7]); Some (Raise EAttr)] /\
     regs (w_srv (tsched C_Tcp.ex_srv w sched)) 100 1 = [1; 2]).
Proof.
  cbv zeta. split; [constructor; [exact C103_ex_read|constructor; [exact C103_ex_write|constructor]]|]. split.
  - exists (turn 0 2 ++ turn 1 1 ++ turn 0 10 ++ turn 1 10). vm_compute. reflexivity.
  - exists (turn 0 3 ++ turn 1 2 ++ turn 0 10 ++ turn 1 10). vm_compute. split; reflexivity.
Qed.

Print Assumptions C103_own_devices_partial.
Print Assumptions C103_own_devices_return_partial.
Print Assumptions C103_one_at_a_time_partial.
Print Assumptions C103_shared_device_refuted.
Print Assumptions C103_shared_connect_refuted.
