(** * C_MThreads: C114, programs of TCP calls in several threads, with reads of any length. *)
From Verif Require Import Py P_List M_Wire M_Rtu S_Modbus P_Rtu M_Tcp S_Tcp P_Tcp M_Threads S_Threads P_Threads M_MThreads S_MThreads P_MThreads.
From Verif Require C_Tcp.

(** Every request takes effect at one moment: alongside the threads runs an ideal program, in which each request of each call is
    one step; it looks the same after every turn, and in each turn only the thread whose turn it is makes at most one step. *)
Theorem C114_requests_at_one_moment : forall D (srv : server D) (mem : D -> memory) w sched, own_objects w -> calls_ok srv mem w ->
  exists f, f O = ideal_start mem w /\ (forall n, (n <= length sched)%nat -> looks_as mem (after srv w sched n) (f n)) /\
    forall n i k, nth_error sched n = Some (i, k) -> f (S n) = f n \/ ideal_step i (f n) (f (S n)).
Proof.
  intros D srv mem w sched HO HC. destruct (trace srv mem w sched HO HC) as (f & H0 & HF & HW). exists f. split; [exact H0|]. split; [|exact HF].
  intros n Hn. now apply (winv_looks srv), HW.
Qed.

(** A read that has returned has returned all the registers asked for, in portions of max_count: each portion as it was at one
    moment, a turn of this thread during the call, one moment after the other. *)
Theorem C114_reads : forall D (srv : server D) (mem : D -> memory) w sched i t j op addr count mc r, own_objects w -> calls_ok srv mem w ->
  nth_error (v_threads w) i = Some t -> nth_error (u_prog t) j = Some (URead op addr count mc) -> returned (usched srv w sched) i j r ->
  exists l, r = Ok (portions (held srv mem w sched) addr count mc l) /\ zlen l = (Z.max 0 count + mc - 1) / mc /\ ascend l /\
    Forall (fun n => (n < length sched)%nat /\ turn_in srv w sched i j n) l.
Proof.
  intros D srv mem w sched i t j op addr count mc r HO HC Et Ec HR. destruct (trace srv mem w sched HO HC) as (f & H0 & HF & HW).
  assert (EW : usched srv w sched = after srv w sched (length sched)) by (unfold after; now rewrite firstn_all). rewrite EW in HR.
  destruct (call_done srv mem w sched f HO HC H0 HF HW i t j _ r _ (Nat.le_refl _) Et Ec HR) as (l & off & acc & -> & Hsz & HM & [A1 A2 A3 A4 A5 _ _]).
  cbn [gathered reached size mc_ok] in *.
  assert (HIN : Forall (fun n => (n < length sched)%nat /\ turn_in srv w sched i j n) l).
  { eapply Forall_impl; [|exact A2]. cbn. intros m (Hm & Hk & Hd). split; [exact Hm|]. split; [exact Hk|]. now apply (during_in_call srv mem w sched f HW); [lia|]. }
  exists l. split; [|split; [|split; assumption]].
  - f_equal. rewrite A3. apply portions_ext. intros n a Hn. symmetry. apply (held_is srv mem w sched f HW). rewrite Forall_forall in HIN. destruct (HIN n Hn). lia.
  - destruct l as [|x l].
    + rewrite zlen_nil, Z.mul_0_r in *. rewrite Z.max_l by lia. now rewrite Z.div_small by lia.
    + specialize (A5 ltac:(discriminate)). pose proof (zlen_nonneg l). rewrite zlen_cons in *. 
      assert (0 < count) by nia. apply (Z.div_unique_pos _ _ _ (count + mc - 1 - mc * (1 + zlen l))); [nia|]. rewrite Z.max_r by lia. lia.
Qed.

(** Nobody writes to those registers during the call: the read returns exactly what they held. *)
Theorem C114_reads_undisturbed : forall D (srv : server D) (mem : D -> memory) w sched i t j op addr count mc r m, own_objects w -> calls_ok srv mem w ->
  nth_error (v_threads w) i = Some t -> nth_error (u_prog t) j = Some (URead op addr count mc) -> returned (usched srv w sched) i j r ->
  (forall n a, (n < length sched)%nat -> in_call (after srv w sched n) i j -> addr <= a < addr + count -> held srv mem w sched n a = m a) ->
  r = Ok (regs m addr (Z.to_nat count)).
Proof.
  intros D srv mem w sched i t j op addr count mc r m HO HC Et Ec HR HS.
  destruct (C114_reads D srv mem w sched i t j op addr count mc r HO HC Et Ec HR) as (l & -> & HL & _ & HIN). f_equal. apply portions_same; [|exact HL|].
  - unfold calls_ok in HC. rewrite Forall_forall in HC. specialize (HC t (nth_error_In _ _ Et)). rewrite Forall_forall in HC.
    destruct (HC _ (nth_error_In _ _ Ec)) as [_ X]. lia.
  - intros n a Hn Ha. rewrite Forall_forall in HIN. destruct (HIN n Hn) as (H1 & _ & H2). now apply HS.
Qed.

(** A write that has returned has stored its data at one moment during the call and has done nothing else to the registers. *)
Theorem C114_writes : forall D (srv : server D) (mem : D -> memory) w sched i t j addr data mc r, own_objects w -> calls_ok srv mem w ->
  nth_error (v_threads w) i = Some t -> nth_error (u_prog t) j = Some (UWrite addr data mc) -> returned (usched srv w sched) i j r -> data <> [] ->
  r = Ok [] /\
  exists n, (n < length sched)%nat /\ turn_in srv w sched i j n /\ (forall a, held srv mem w sched (S n) a = store (held srv mem w sched n) addr data a) /\
    forall n' a, (n' < length sched)%nat -> turn_in srv w sched i j n' -> n' <> n -> held srv mem w sched (S n') a = held srv mem w sched n' a.
Proof.
  intros D srv mem w sched i t j addr data mc r HO HC Et Ec HR HD. destruct (trace srv mem w sched HO HC) as (f & H0 & HF & HW).
  assert (EW : usched srv w sched = after srv w sched (length sched)) by (unfold after; now rewrite firstn_all). rewrite EW in HR.
  destruct (call_done srv mem w sched f HO HC H0 HF HW i t j _ r _ (Nat.le_refl _) Et Ec HR) as (l & off & acc & -> & Hsz & HM & [A1 A2 A3 A4 A5 A6 A7]).
  cbn [gathered reached size mc_ok change] in *. split; [now rewrite A3|].
  assert (HPOS : 0 < zlen data / 2).
  { unfold calls_ok in HC. rewrite Forall_forall in HC. specialize (HC t (nth_error_In _ _ Et)). rewrite Forall_forall in HC.
    destruct (HC _ (nth_error_In _ _ Ec)) as (_ & _ & _ & HE & _). pose proof (Z.div_mod (zlen data) 2 ltac:(lia)). pose proof (zlen_nonneg data).
    assert (zlen data <> 0) by (intros E; apply HD; now apply zlen_0_nil). lia. }
  destruct l as [|n [|? ?]]; [lia| |specialize (A5 ltac:(discriminate)); rewrite !zlen_cons in A5; pose proof (zlen_nonneg l); lia].
  inversion A2 as [|? ? (Hn & Hk & Hd) _]; subst. exists n. split; [exact Hn|]. split; [split; [exact Hk|]; now apply (during_in_call srv mem w sched f HW); [lia|]|]. split.
  - intros a. rewrite (held_is srv mem w sched f HW) by lia. rewrite (A6 n a (or_introl eq_refl)). apply P_Threads.store_ext. intros b. symmetry. apply (held_is srv mem w sched f HW). lia.
  - intros n' a Hn' [(k & Hk') Hi'] HNE. rewrite !(held_is srv mem w sched f HW) by lia. apply (A7 n' k a Hn' Hk'); [now apply (during_in_call srv mem w sched f HW); [lia|]|].
    intros [E|[]]. congruence.
Qed.
(** and a write of nothing returns and changes nothing *)
Theorem C114_empty_writes : forall D (srv : server D) (mem : D -> memory) w sched i t j addr mc r, own_objects w -> calls_ok srv mem w ->
  nth_error (v_threads w) i = Some t -> nth_error (u_prog t) j = Some (UWrite addr [] mc) -> returned (usched srv w sched) i j r -> r = Ok [].
Proof.
  intros D srv mem w sched i t j addr mc r HO HC Et Ec HR. destruct (trace srv mem w sched HO HC) as (f & H0 & HF & HW).
  assert (EW : usched srv w sched = after srv w sched (length sched)) by (unfold after; now rewrite firstn_all). rewrite EW in HR.
  destruct (call_done srv mem w sched f HO HC H0 HF HW i t j _ r _ (Nat.le_refl _) Et Ec HR) as (l & off & acc & -> & _ & _ & HL). now rewrite (cl_acc _ _ _ _ _ _ _ _ _ HL).
Qed.

(** A register changes only in a turn of a thread that is in a write to it. *)
Theorem C114_only_writes_change : forall D (srv : server D) (mem : D -> memory) w sched n a, own_objects w -> calls_ok srv mem w -> (n < length sched)%nat ->
  held srv mem w sched (S n) a <> held srv mem w sched n a ->
  exists i k t addr data mc rest, nth_error sched n = Some (i, k) /\ nth_error (v_threads (after srv w sched n)) i = Some t /\
    u_prog t = UWrite addr data mc :: rest /\ u_pc t <> UStart /\ addr <= a < addr + zlen data / 2.
Proof.
  intros D srv mem w sched n a HO HC Hn HD. destruct (trace srv mem w sched HO HC) as (f & H0 & HF & HW). now apply (only_writes srv mem w sched f HF HW).
Qed.

(** Every thread finishes its program once it has had enough turns, whatever the others do. *)
Theorem C114_calls_return : forall D (srv : server D) (mem : D -> memory) w sched i t, own_objects w -> calls_ok srv mem w ->
  nth_error (v_threads w) i = Some t -> fold_right (fun c n => enough c + n) 0 (u_prog t) <= turns_of i sched ->
  exists t', nth_error (v_threads (usched srv w sched)) i = Some t' /\ u_prog t' = [] /\ length (u_out t') = length (u_prog t).
Proof.
  intros D srv mem w sched i t HO HC Et HT. pose proof (winv_start srv mem w HO HC) as HI.
  assert (HM : umu t <= turns_of i sched).
  { destruct HO as (_ & HS & _). rewrite Forall_forall in HS. destruct (HS t (nth_error_In _ _ Et)) as [EP _]. unfold umu. rewrite EP.
    destruct (u_prog t) as [|c rest]; [apply zlen_nonneg|]. exact HT. }
  destruct (umu_run srv mem sched w _ i t HI Et HM) as (t' & Et' & EP). exists t'. split; [exact Et'|]. split; [exact EP|].
  destruct (usched_calls srv sched w i t Et) as (t2 & E2 & H2). assert (t2 = t') by congruence. subst t2. unfold calls_of in H2. rewrite EP in H2.
  destruct HO as (_ & HS & _). rewrite Forall_forall in HS. destruct (HS t (nth_error_In _ _ Et)) as [_ EO]. rewrite EO in H2. cbn [length] in H2. lia.
Qed.

(** ** example: one thread reads 300 registers, 125 at a time, and then 2; another writes 100..101, and 260 and reads it back *)
Definition ex_mem : memory := fun a => if a =? 100 then 7 else if a =? 260 then 9 else 0.
Definition ex_w : uworld memory :=
  mkV ex_mem 1 (fun _ => []) (fun d => if (d =? 1)%nat then Some O else None)
      [mkU 0 1 [URead 3 0 300 125; URead 3 100 2 125] UStart []; mkU 1 1 [UWrite 100 [0; 1; 0; 2] 123; UWrite 260 [0; 3] 123; URead 4 260 1 1] UStart []].
Example C114_ex_own : own_objects ex_w /\ calls_ok C_Tcp.ex_srv (fun m => m) ex_w.
Proof.
  assert (HR : forall op addr count mc, 0 <= op < 16 -> 1 <= mc <= 125 -> 0 <= addr -> addr + count <= 65536 -> ucall_ok C_Tcp.ex_srv (fun m => m) 1 (URead op addr count mc)).
  { intros. split; [split; lia|]. split; [exact (proj1 (C_Tcp.C32_ex 1 op ltac:(lia)))|lia]. }
  assert (HW : forall addr data, Forall is_byte data -> zlen data mod 2 = 0 -> zlen data / 2 <= 123 -> 0 <= addr -> addr + zlen data / 2 <= 65536 -> ucall_ok C_Tcp.ex_srv (fun m => m) 1 (UWrite addr data 123)).
  { intros. split; [split; lia|]. split; [exact (C_Tcp.C33_ex 1)|]. split; [assumption|]. split; [assumption|]. lia. }
  split; [split; [|split]|].
  - repeat constructor; cbn; intuition discriminate.
  - repeat constructor.
  - intros d c Hd Hc. cbn [ex_w v_sock] in Hc. destruct (Nat.eqb_spec d 1) as [->|]; [|discriminate]. apply Some_inj in Hc. subst c.
    split; [cbn; lia|]. split; [reflexivity|]. intros d' _ Hc'. cbn [ex_w v_sock] in Hc'. destruct (Nat.eqb_spec d' 1); [assumption|discriminate].
  - unfold calls_ok. cbn [ex_w v_threads]. repeat (apply Forall_cons || apply Forall_nil); cbn [u_slave u_prog]; repeat (apply Forall_cons || apply Forall_nil); cbn [u_slave];
      try (apply HR; lia); apply HW; try (repeat (apply Forall_cons || apply Forall_nil); split; lia); vm_compute; congruence.
Qed.
Definition turn (i : nat) (n : nat) : list (nat * Z) := repeat (i, 300) n.
Definition at_register (r : res bytes) (n : Z) : res bytes := match r with Ok b => Ok (slice (2 * n) (2 * n + 2) b) | Raise e => Raise e end.
(** the first portion is read before the write of 100..101 and the last after the write of 260: the read returns registers that
    were never there together, each as it was during the call; the other thread reads back what it wrote *)
Example C114_ex_run : let w := usched C_Tcp.ex_srv ex_w (turn 0 8 ++ turn 1 20 ++ turn 0 40) in
  match v_threads w with
  | [t0; t1] => u_prog t0 = [] /\ u_prog t1 = [] /\ map (fun r => at_register r 100) (firstn 1 (u_out t0)) = [Ok [0; 7]] /\
      map (fun r => at_register r 260) (firstn 1 (u_out t0)) = [Ok [0; 3]] /\ skipn 1 (u_out t0) = [Ok [0; 1; 0; 2]] /\ u_out t1 = [Ok []; Ok []; Ok [0; 3]]
  | _ => False
  end.
Proof. vm_compute. repeat split. Qed.
Example C114_ex_turns : fold_right (fun c n => enough c + n) 0 [UWrite 100 [0; 1; 0; 2] 123; UWrite 260 [0; 3] 123; URead 4 260 1 1] <= turns_of 1 (turn 0 50 ++ turn 1 2000).
Proof. vm_compute. congruence. Qed.

Print Assumptions C114_requests_at_one_moment.
Print Assumptions C114_reads.
Print Assumptions C114_reads_undisturbed.
Print Assumptions C114_writes.
Print Assumptions C114_empty_writes.
Print Assumptions C114_only_writes_change.
Print Assumptions C114_calls_return.
