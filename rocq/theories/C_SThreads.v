(** * C_SThreads: C109, serial devices used from several threads. *)
From Verif Require Import Py P_List M_Wire M_Crc M_Rtu S_Modbus P_Rtu P_Stack M_SThreads S_SThreads P_SThreads.
From Verif Require C_Rtu C_Fault.

(** Devices on different ports do not notice each other: whatever the schedule, at every moment a thread and its port are exactly
    as if only this thread had run — for every device, every call and every fault of the line. *)
Theorem C109_as_if_alone : forall D (dev : nat -> sdev D) w sched i t,
  NoDup (map st_port (sw_threads w)) -> nth_error (sw_threads w) i = Some t ->
  let alone := ssched dev w (turns i sched) in
  nth_error (sw_threads (ssched dev w sched)) i = nth_error (sw_threads alone) i /\
  sw_ports (ssched dev w sched) (st_port t) = sw_ports alone (st_port t).
Proof.
  intros D dev w sched i t HN HT alone. destruct (sched_run dev sched w i t HN HT) as [H1 H2]. subst alone.
  destruct (sched_run dev (turns i sched) w i t HN HT) as [H3 H4].
  assert (E : turns i (turns i sched) = turns i sched).
  { unfold turns. clear. induction sched as [|j l IH]; [reflexivity|]. cbn [filter]. destruct (Nat.eqb i j) eqn:EJ; [|exact IH]. cbn [filter]. rewrite EJ. now f_equal. }
  rewrite E in H3, H4. split; congruence.
Qed.
Print Assumptions C109_as_if_alone.

(** Given enough turns, the call of a thread returns, and what it returned and did to its port is what the same call does in a
    program with one thread. *)
Theorem C109_calls_return : forall D (dev : nat -> sdev D) w sched i t,
  own_ports w -> (forall p, sends_bytes (dev p)) -> nth_error (sw_threads w) i = Some t -> 1 <= max_count_of (st_call t) ->
  enough (st_call t) <= zlen (turns i sched) ->
  let w' := ssched dev w sched in
  let '(s', r) := sequential (dev (st_port t)) (st_slave t) (st_call t) (pt_dev (sw_ports w (st_port t))) in
  (exists t', nth_error (sw_threads w') i = Some t' /\ st_pc t' = PDone r) /\ pt_dev (sw_ports w' (st_port t)) = s'.
Proof.
  intros D dev w sched i t [HN HS] HB HT Hmc HE w'. destruct (sched_run dev sched w i t HN HT) as [H1 H2]. fold w' in H1, H2.
  assert (EP : st_pc t = begins (st_call t)) by (rewrite Forall_forall in HS; apply HS; now apply nth_error_In in HT).
  rewrite EP in H1, H2.
  destruct (call_run (dev (st_port t)) (st_slave t) (st_call t) (sw_ports w (st_port t)) (length (turns i sched)) (HB _) Hmc HE) as (p' & Hp & HL).
  rewrite HL in H1, H2. cbn [fst snd] in H1, H2. destruct (sequential _ _ _ _) as [s' r]. cbn [fst snd] in *.
  split; [eexists; split; [exact H1|reflexivity]|]. now rewrite H2.
Qed.
Print Assumptions C109_calls_return.

Lemma sequential_served {D} (dev : sdev D) mem slave c s : served dev mem slave c ->
  let '(s', r) := sequential dev slave c s in r = right_answer c (mem s) /\ forall a, mem s' a = right_effect c (mem s) a.
Proof.
  intros (Hs & Hm & HC). destruct c as [addr count op mc|addr data mc]; cbn [sequential right_answer right_effect].
  - destruct HC as (H1 & H2 & H3 & H4 & H5 & H6).
    destruct (C_Rtu.C26_read_returns_device_memory D dev mem slave op H1 Hm Hs H2 mc addr count s H3 H4 H5 H6) as (s' & reqs & E & _ & HM).
    unfold rtu_read in *. apply rtu_read_loop_unlog in E. rewrite E. split; [reflexivity|exact HM].
  - destruct HC as (lim & H1 & H2 & H3 & H4 & H5 & H6 & H7).
    destruct (C_Rtu.C27_write_stores_the_data D dev mem slave lim H1 Hs H2 mc addr data s H3 H4 H5 H6 H7) as (s' & reqs & E & _ & HM).
    unfold rtu_write in *. apply rtu_write_loop_unlog in E. rewrite E. split; [reflexivity|exact HM].
Qed.
(** With slaves that hold registers: every call on a port of its own returns the right registers and has the right effect, under
    every schedule. *)
Theorem C109_right_answers : forall D (dev : nat -> sdev D) (mem : D -> memory) w sched i t,
  own_ports w -> (forall p, sends_bytes (dev p)) -> nth_error (sw_threads w) i = Some t ->
  served (dev (st_port t)) mem (st_slave t) (st_call t) -> enough (st_call t) <= zlen (turns i sched) ->
  let w' := ssched dev w sched in let m := mem (pt_dev (sw_ports w (st_port t))) in
  (exists t', nth_error (sw_threads w') i = Some t' /\ st_pc t' = PDone (right_answer (st_call t) m)) /\
  forall a, mem (pt_dev (sw_ports w' (st_port t))) a = right_effect (st_call t) m a.
Proof.
  intros D dev mem w sched i t HO HB HT HS HE w' m.
  assert (Hmc : 1 <= max_count_of (st_call t)).
  { destruct HS as (_ & _ & HS). destruct (st_call t); cbn [max_count_of]; [lia|]. destruct HS as (lim & HS). lia. }
  pose proof (C109_calls_return D dev w sched i t HO HB HT Hmc HE) as H. cbv zeta in H. fold w' in H.
  pose proof (sequential_served (dev (st_port t)) mem (st_slave t) (st_call t) (pt_dev (sw_ports w (st_port t))) HS) as HQ.
  destruct (sequential _ _ _ _) as [s' r]. destruct HQ as [-> HM]. destruct H as [H ->]. split; [exact H|exact HM].
Qed.
Print Assumptions C109_right_answers.

(** On a port shared by several threads: one call at a time.  If a thread gets its turns without interruption, its call does and
    returns what it does in a program with one thread — whatever earlier calls left in the input — and nothing of the other
    threads and ports changes. *)
Theorem C109_one_at_a_time : forall D (dev : nat -> sdev D) w i t n,
  (forall p, sends_bytes (dev p)) -> nth_error (sw_threads w) i = Some t -> st_pc t = begins (st_call t) ->
  1 <= max_count_of (st_call t) -> enough (st_call t) <= Z.of_nat n ->
  let w' := ssched dev w (repeat i n) in
  let '(s', r) := sequential (dev (st_port t)) (st_slave t) (st_call t) (pt_dev (sw_ports w (st_port t))) in
  (exists t', nth_error (sw_threads w') i = Some t' /\ st_pc t' = PDone r) /\ pt_dev (sw_ports w' (st_port t)) = s' /\
  (forall j, j <> i -> nth_error (sw_threads w') j = nth_error (sw_threads w) j) /\ forall p, p <> st_port t -> sw_ports w' p = sw_ports w p.
Proof.
  intros D dev w i t n HB HT EP Hmc HE w'. destruct (sched_alone dev n w i t HT) as (H1 & H2 & H3 & H4). fold w' in H1, H2, H3, H4.
  rewrite EP in H1, H2.
  destruct (call_run (dev (st_port t)) (st_slave t) (st_call t) (sw_ports w (st_port t)) n (HB _) Hmc HE) as (p' & Hp & HL).
  rewrite HL in H1, H2. cbn [fst snd] in H1, H2. destruct (sequential _ _ _ _) as [s' r]. cbn [fst snd] in *.
  split; [eexists; split; [exact H1|reflexivity]|]. split; [now rewrite H2|]. split; assumption.
Qed.
Print Assumptions C109_one_at_a_time.

(** ** A line with two slaves whose line carries bytes. *)
Definition byte_line {D} (dev : sdev D) : sdev D := fun s req =>
  let '(s', w) := dev s req in (s', match w with Some x => Some (mkWire (map (fun b => b mod 256) (w_bytes x)) (w_sched x) (w_end x)) | None => None end).
Lemma byte_line_bytes {D} (dev : sdev D) : sends_bytes (byte_line dev).
Proof.
  intros s req s' w H. unfold byte_line in H. destruct (dev s req) as [s1 [x|]]; [|discriminate]. apply pair_equal_spec in H as [_ H].
  apply Some_inj in H. subst w. cbn [w_bytes]. apply Forall_map, Forall_forall. intros b _. unfold is_byte. pose proof (Z.mod_pos_bound b 256 ltac:(lia)). lia.
Qed.
Lemma byte_line_id l : Forall is_byte l -> map (fun b => b mod 256) l = l.
Proof. induction 1 as [|b l Hb HL IH]; [reflexivity|]. cbn [map]. rewrite IH. f_equal. unfold is_byte in Hb. apply Z.mod_small. lia. Qed.
Lemma byte_line_reads {D} (dev : sdev D) mem slave op : serves_reads dev mem slave op -> (forall s, mem_ok (mem s)) -> is_byte slave -> is_byte op ->
  serves_reads (byte_line dev) mem slave op.
Proof.
  intros H HM H1 H2 s addr count Hc Ha Hac. destruct (H s addr count Hc Ha Hac) as (s' & noise & sched & fin & HN & E & HE).
  exists s', noise, sched, fin. split; [exact HN|]. split; [|exact HE]. unfold byte_line. rewrite E. cbn [w_bytes w_sched w_end]. rewrite byte_line_id; [reflexivity|].
  apply Forall_app. split; [|exact HN]. unfold read_reply. apply with_crc_bytes. apply Forall_app. split; [|now apply regs_bytes].
  repeat constructor; try assumption; unfold is_byte in *; lia.
Qed.
Lemma byte_line_writes {D} (dev : sdev D) mem slave lim : serves_writes dev mem slave lim -> lim <= 127 -> is_byte slave ->
  serves_writes (byte_line dev) mem slave lim.
Proof.
  intros H HL H1 s addr data Hb He Hc Ha Hac. destruct (H s addr data Hb He Hc Ha Hac) as (s' & noise & sched & fin & HN & E & HE).
  exists s', noise, sched, fin. split; [exact HN|]. split; [|exact HE]. unfold byte_line. rewrite E. cbn [w_bytes w_sched w_end]. rewrite byte_line_id; [reflexivity|].
  apply Forall_app. split; [|exact HN]. unfold write_reply. apply with_crc_bytes. repeat (apply Forall_app; split).
  all: try (apply word_bytes; lia). repeat constructor; try assumption; unfold is_byte in *; lia.
Qed.
Definition ex_line : sdev (Z -> memory) := byte_line C_Fault.two_slaves.
Definition ex_mem : Z -> memory := fun sl a => if sl =? 1 then a else if sl =? 7 then 1000 + a else 0.
Definition ex_world (p0 p1 : nat) (c0 c1 : scall) : sworld (Z -> memory) :=
  mkSW (fun _ => mkPort ex_mem no_input) [mkS p0 1 c0 (begins c0); mkS p1 7 c1 (begins c1)].
Definition results (w : sworld (Z -> memory)) : list (option sres) :=
  map (fun t => match st_pc t with PDone r => Some r | _ => None end) (sw_threads w).
Lemma ex_served_read p sl addr count mc : In sl [1; 7] -> 1 <= mc <= 125 -> 0 <= count -> 0 <= addr -> addr + count <= 65536 ->
  served ((fun _ : nat => ex_line) p) (fun st => C_Fault.cap (st sl)) sl (SRead addr count 3 mc).
Proof.
  intros HI Hmc Hc Ha Hac. destruct (C_Fault.C84_ex_line sl HI) as (H1 & H2 & H3 & H4 & _). split; [exact H1|]. split; [exact H4|].
  split; [|lia]. apply byte_line_reads; auto. unfold is_byte. lia.
Qed.
Lemma ex_served_write p sl addr data mc : In sl [1; 7] -> 1 <= mc <= 123 -> Forall is_byte data -> zlen data mod 2 = 0 -> 0 <= addr -> addr + zlen data / 2 <= 65536 ->
  served ((fun _ : nat => ex_line) p) (fun st => C_Fault.cap (st sl)) sl (SWrite addr data mc).
Proof.
  intros HI Hmc Hd He Ha Hac. destruct (C_Fault.C84_ex_line sl HI) as (H1 & H2 & H3 & H4 & _). split; [exact H1|]. split; [exact H4|].
  exists 123. split; [apply byte_line_writes; auto; lia|]. repeat split; auto; lia.
Qed.
(** two ports: a read of three requests and a write, turn by turn *)
Example C109_ex : own_ports (ex_world 0 1 (SRead 0 300 3 125) (SWrite 10 [1; 2] 123)) /\
  results (ssched (fun _ => ex_line) (ex_world 0 1 (SRead 0 300 3 125) (SWrite 10 [1; 2] 123)) (concat (repeat [0%nat; 1%nat] 40))) =
  [Some (RRead (Ok (Some (regs (fun a => a) 0 300)))); Some (RWrite (Ok tt))].
Proof.
  split; [|vm_compute; reflexivity]. split; [repeat constructor; cbn; intuition discriminate|repeat constructor].
Qed.
Example C109_ex_applies : forall sched, 90002 <= zlen (turns 0 sched) ->
  let w := ex_world 0 1 (SRead 0 300 3 125) (SWrite 10 [1; 2] 123) in
  exists t', nth_error (sw_threads (ssched (fun _ => ex_line) w sched)) 0 = Some t' /\
  st_pc t' = PDone (RRead (Ok (Some (regs (C_Fault.cap (ex_mem 1)) 0 300)))).
Proof.
  intros sched H w.
  destruct (C109_right_answers _ (fun _ => ex_line) (fun st => C_Fault.cap (st 1)) w sched 0 (mkS 0 1 (SRead 0 300 3 125) (begins (SRead 0 300 3 125)))
    (proj1 C109_ex) (fun _ => byte_line_bytes _) eq_refl (ex_served_read 0 1 0 300 125 (or_introl eq_refl) ltac:(lia) ltac:(lia) ltac:(lia) ltac:(lia)) H) as [HA _].
  exact HA.
Qed.

(** ** The restriction is needed: two threads, two devices, one port. *)
(** The slaves answer every request correctly, and no byte is lost or changed on the line; yet the first thread gets, without any
    error, registers of the other slave, and the second thread gets nothing. *)
Theorem C109_shared_port_needs_one_thread :
  let w := ex_world 0 0 (SRead 100 2 3 125) (SRead 200 2 3 125) in
  Forall (fun t => served ex_line (fun st => C_Fault.cap (st (st_slave t))) (st_slave t) (st_call t)) (sw_threads w) /\
  regs (C_Fault.cap (ex_mem 1)) 100 2 = [0; 100; 0; 101] /\
  exists sched, results (ssched (fun _ => ex_line) w sched) = [Some (RRead (Ok (Some [4; 176; 4; 177]))); Some (RRead (Raise EModbusTimeout))].
Proof.
  cbv zeta. split.
  - constructor; [apply (ex_served_read 0 1 100 2 125); [now left|lia..]|]. constructor; [apply (ex_served_read 0 7 200 2 125); [right; now left|lia..]|]. constructor.
  - split; [vm_compute; reflexivity|]. exists (repeat 0%nat 2 ++ repeat 1%nat 2 ++ repeat 0%nat 20 ++ repeat 1%nat 20). vm_compute. reflexivity.
Qed.
Print Assumptions C109_shared_port_needs_one_thread.
(** A write can be reported as failed although it took effect, if another thread
    uses the port in between. *)
Theorem C109_shared_port_lost_reply :
  let w := ex_world 0 0 (SWrite 100 [9; 9] 123) (SRead 200 1 3 125) in
  Forall (fun t => served ex_line (fun st => C_Fault.cap (st (st_slave t))) (st_slave t) (st_call t)) (sw_threads w) /\
  exists sched r, results (ssched (fun _ => ex_line) w sched) = [Some (RWrite (Raise EModbusTimeout)); Some r] /\
    regs (pt_dev (sw_ports (ssched (fun _ => ex_line) w sched) 0) 1) 100 1 = [9; 9].
Proof.
  cbv zeta. split.
  - constructor; [apply (ex_served_write 0 1 100 [9; 9] 123); [now left|lia|repeat constructor; unfold is_byte; lia|reflexivity|lia|cbn; lia]|].
    constructor; [apply (ex_served_read 0 7 200 1 125); [right; now left|lia..]|]. constructor.
  - exists (repeat 0%nat 2 ++ repeat 1%nat 1 ++ repeat 0%nat 20 ++ repeat 1%nat 20). eexists. vm_compute. split; reflexivity.
Qed.
Print Assumptions C109_shared_port_lost_reply.
