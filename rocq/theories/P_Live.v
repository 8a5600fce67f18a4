(** * P_Live: reading devices whose registers change on their own (proofs, C106). *)
From Coq Require Import Sorted.
From Verif Require Import Py P_List M_Util M_Suns S_Codec M_Mbmap M_Device S_Device P_Device P_Chunks C_Device C_Chunks M_Client S_Client P_Client P_Client2 P_Client3 P_Client4 M_Wire M_Rtu P_Rtu M_Tcp S_Tcp P_Tcp M_Scan S_Stack P_Stack S_Live.
From Verif Require S_Modbus.

Lemma mem_bytes_pointwise (f g : memory) a n : mem_bytes f a n = mem_bytes g a n -> forall x, 2 * a <= x < 2 * (a + n) -> f x = g x.
Proof.
  intros H x Hx. unfold mem_bytes in H. assert (HI : In x (zseq (2 * a) (Z.to_nat (2 * n)))).
  { unfold zseq. apply in_map_iff. exists (Z.to_nat (x - 2 * a)). split; [lia|]. apply in_seq. lia. }
  revert H HI. generalize (zseq (2 * a) (Z.to_nat (2 * n))). induction l as [|y l IH]; cbn [map]; intros H [].
  - subst y. congruence.
  - apply IH; [congruence|assumption].
Qed.
Lemma app_eq_len {A} (a b c d : list A) : length a = length c -> a ++ b = c ++ d -> a = c /\ b = d.
Proof.
  revert c. induction a as [|x a IH]; intros [|y c] HL H; cbn in *; try discriminate; [auto|].
  assert (x = y) by congruence. assert (a ++ b = c ++ d) by congruence. destruct (IH c ltac:(lia) H1) as [-> ->]. subst; auto.
Qed.

Section Live.
  Context {D : Type} (dv : mdev D) (ok : D -> Prop) (mom : D -> list memory -> D -> Prop) (lo hi : Z).
  Hypothesis mom_app : forall s ms s1 ms' s2, mom s ms s1 -> mom s1 ms' s2 -> mom s (ms ++ ms') s2.
  Hypothesis mom_read : forall s a n, ok s -> lo <= a -> 0 <= n -> a + n <= hi ->
    exists s' ms d, dv_read dv s a n = (s', Ok (Some d)) /\ ok s' /\ mom s ms s' /\ zlen d = 2 * n /\
    (0 < n -> exists m1 rest d2, ms = m1 :: rest /\ d = mem_bytes m1 a (Z.min n 125) ++ d2 /\ (n <= 125 -> rest = [])).

  Lemma held_app_l ms ms' m a n : held ms m a n -> held (ms ++ ms') m a n.
  Proof. intros (x & H1 & H2). exists x. rewrite in_app_iff. auto. Qed.
  Lemma held_app_r ms ms' m a n : held ms' m a n -> held (ms ++ ms') m a n.
  Proof. intros (x & H1 & H2). exists x. rewrite in_app_iff. auto. Qed.

  Lemma first_held m1 rest d2 mm a n : 0 < n -> mem_bytes m1 a (Z.min n 125) ++ d2 = mem_bytes mm a n -> held (m1 :: rest) mm a (Z.min n 125).
  Proof.
    intros Hn H. replace n with (Z.min n 125 + (n - Z.min n 125)) in H at 2 by lia. rewrite mem_bytes_app in H by lia.
    apply app_eq_len in H as [H _].
    - exists m1. split; [now left|]. intros x Hx. symmetry. exact (mem_bytes_pointwise _ _ _ _ H x Hx).
    - pose proof (zlen_mem_bytes m1 a (Z.min n 125) ltac:(lia)). pose proof (zlen_mem_bytes mm a (Z.min n 125) ltac:(lia)). unfold zlen in *. lia.
  Qed.
  Lemma live_chunks e starts : forall s a more data, starts = a :: more -> StronglySorted Z.le starts -> Forall (fun x => x <= e) starts ->
    ok s -> lo <= a -> e <= hi ->
    exists s' ms d, read_chunks dv s starts e data = (s', Ok (data ++ d)) /\ ok s' /\ mom s ms s' /\ zlen d = 2 * (e - a) /\
    forall mm, d = mem_bytes mm a (e - a) -> forall c n, In (c, n) (chunks starts e) -> 0 < n -> held ms mm c (Z.min n 125).
  Proof.
    induction starts as [|x starts IH]; intros s a more data E HS HF HR HL HH; [discriminate|]. injection E as <- <-.
    inversion HS as [|? ? S1 S2]; subst. inversion HF as [|? ? F1 F2]; subst. cbn [read_chunks chunks]. destruct starts as [|y starts].
    - destruct (mom_read s x (e - x) HR HL ltac:(lia) ltac:(lia)) as (s' & ms & d & E & HR' & HM & HD & H0). unfold cl_read. rewrite E.
      exists s', ms, d. split; [reflexivity|]. split; [exact HR'|]. split; [exact HM|]. split; [exact HD|].
      intros mm EM c n [HI|[]] Hn. apply pair_equal_spec in HI as [<- <-]. destruct (H0 Hn) as (m1 & rest & d2 & -> & ED & _).
      eapply first_held; [exact Hn|]. rewrite <- ED. exact EM.
    - inversion S2 as [|? ? A B]; subst. inversion F2 as [|? ? C D0]; subst.
      destruct (mom_read s x (y - x) HR HL ltac:(lia) ltac:(lia)) as (s1 & ms1 & d1 & E & HR' & HM & HD & H0). unfold cl_read. rewrite E.
      destruct (IH s1 y starts (data ++ d1) eq_refl S1 F2 HR' ltac:(lia) HH) as (s2 & ms2 & d2 & E2 & HR2 & HM2 & HD2 & H2).
      exists s2, (ms1 ++ ms2), (d1 ++ d2). split; [rewrite E2; now rewrite <- app_assoc|]. split; [exact HR2|]. split; [eapply mom_app; eauto|].
      split; [rewrite zlen_app; lia|]. intros mm EM. replace (e - x) with ((y - x) + (e - y)) in EM by lia. rewrite mem_bytes_app in EM by lia.
      replace (x + (y - x)) with y in EM by lia. apply app_eq_len in EM as [EM1 EM2].
      2:{ pose proof (zlen_mem_bytes mm x (y - x) ltac:(lia)). unfold zlen in *. lia. }
      intros c n [HI|HI] Hn.
      + apply pair_equal_spec in HI as [<- <-]. apply held_app_l. destruct (H0 Hn) as (m1 & rest & d3 & -> & ED & _).
        eapply first_held; [exact Hn|]. rewrite <- ED. exact EM1.
      + apply held_app_r. eapply H2; eauto.
  Qed.
  Lemma live_data m addr L s : placed addr L m -> ok s -> lo <= addr -> addr + L <= hi -> 0 < L ->
    exists s' ms d, read_model_data dv s m = (s', Ok d) /\ ok s' /\ mom s ms s' /\ zlen d = 2 * L /\
    (forall mm, d = mem_bytes mm addr L -> forall c n, In (c, n) (chunks (md_reads m) (addr + L)) -> 0 < n -> held ms mm c (Z.min n 125)) /\
    (md_reads m = [addr] -> L <= 125 -> exists m1, ms = [m1] /\ d = mem_bytes m1 addr L).
  Proof.
    intros HP HO HL HH H0. unfold read_model_data. destruct (pl_reads _ _ _ HP) as [more ER]. rewrite ER. rewrite (pl_addr _ _ _ HP), (pl_len _ _ _ HP).
    destruct more as [|y more].
    - destruct (mom_read s addr L HO HL ltac:(lia) ltac:(lia)) as (s' & ms & d & E & HR' & HM & HD & H1). unfold cl_read. rewrite E.
      exists s', ms, d. destruct d as [|b0 d0]; [rewrite zlen_nil in HD; lia|]. set (d := b0 :: d0) in *. split; [reflexivity|]. split; [exact HR'|]. split; [exact HM|]. split; [exact HD|].
      destruct (H1 H0) as (m1 & rest & d2 & -> & ED & HREST). split.
      + intros mm EM c n [HI|[]] Hn. apply pair_equal_spec in HI as [<- <-]. replace (addr + L - addr) with L by lia. 
        eapply first_held; [lia|]. rewrite <- ED. exact EM.
      + intros _ HL125. exists m1. rewrite (HREST HL125). split; [reflexivity|]. rewrite Z.min_l in ED by lia. rewrite ED in HD |- *.
        rewrite zlen_app, zlen_mem_bytes in HD by lia. destruct d2 as [|x d2]; [apply app_nil_r|]. rewrite zlen_cons in HD. pose proof (zlen_nonneg d2). lia.
    - destruct (live_chunks (addr + L) (addr :: y :: more) s addr (y :: more) [] eq_refl) as (s' & ms & d & E & HR & HM & HD & H1).
      + rewrite <- ER. exact (pl_sorted _ _ _ HP).
      + rewrite <- ER. exact (pl_reads_end _ _ _ HP).
      + exact HO.
      + exact HL.
      + exact HH.
      + exists s', ms, d. split; [exact E|]. split; [exact HR|]. split; [exact HM|]. replace (addr + L - addr) with L in * by lia. split; [exact HD|]. split; [exact H1|]. discriminate.
  Qed.

  Lemma bytes_memory (data : bytes) addr L : zlen data = 2 * L -> exists mm, data = mem_bytes mm addr L.
  Proof.
    intros EL. exists (fun x => znth (x - 2 * addr) data). unfold mem_bytes.
    replace (Z.to_nat (2 * L)) with (length data) by (unfold zlen in EL; lia). generalize (2 * addr). intros b.
    unfold zseq. rewrite map_map. clear EL. apply (nth_ext _ _ 0 0); [now rewrite map_length, seq_length|]. intros n Hn.
    rewrite (nth_indep (map _ _) 0 ((fun i => znth (b + Z.of_nat i - b) data) O)) by (now rewrite map_length, seq_length).
    rewrite (map_nth (fun i => znth (b + Z.of_nat i - b) data)). rewrite seq_nth by exact Hn. unfold znth. f_equal. lia.
  Qed.
  Lemma erase_point_of m b p : In b (md_blocks m) -> In p (all_points b) -> point_of (erase m) (erase_point p).
  Proof.
    intros HB HP. exists (erase_block b). split; [now apply in_map|]. unfold all_points, erase_block in *. cbn [b_points b_sfs].
    rewrite <- map_app. now apply in_map.
  Qed.
  Lemma short_single addr L m : loaded addr L m -> planned addr L (erase m) -> L <= 125 -> md_reads m = [addr].
  Proof.
    intros HL HPL H125. pose proof (loaded_placed _ _ _ HL) as HP. destruct (pl_reads _ _ _ HP) as [[|y more] ER]; [exact ER|exfalso].
    pose proof (C42_no_needless_request addr L (erase m) 0 (addr, y - addr)) as HN. change (md_reads (erase m)) with (md_reads m) in HN. rewrite ER in HN. cbn [chunks] in HN.
    destruct (HN _ HPL eq_refl eq_refl) as (p & (b & HB & HPP) & _ & HE). cbn [fst] in HE.
    apply in_map_iff in HB as (b0 & <- & HB). unfold all_points, erase_block in HPP. cbn [b_points b_sfs] in HPP. rewrite <- map_app in HPP.
    apply in_map_iff in HPP as (p0 & <- & HPP). destruct (pl_range _ _ _ HP b0 p0 HB HPP) as (_ & _ & HX & _). cbn [erase_point p_addr p_type] in HE. lia.
  Qed.
  Lemma point_in_first addr L m b p : loaded addr L m -> planned addr L (erase m) -> In b (md_blocks m) -> In p (all_points b) ->
    exists c n, In (c, n) (chunks (md_reads m) (addr + L)) /\ 0 < n /\ c <= p_addr p /\ p_addr p + pt_len (p_type p) <= c + Z.min n 125.
  Proof.
    intros HL HPL HB HPP. pose proof HPL as (fuel & types & id & len & mt & F & H & ET & HU & HF & HO & HR & _).
    destruct (C42_points_in_one_chunk fuel types id addr len (erase m) mt L F H ET HU HF HO HR) as (_ & _ & _ & HPC).
    pose proof (erase_point_of _ _ _ HB HPP) as HPO. pose proof HPO as (b' & HB' & HPP'). destruct (HPC _ _ HB' HPP') as ((c & n) & HC & [H1 H2]).
    cbn [fst snd erase_point p_addr p_type] in *.
    assert (H0 : 0 < pt_len (p_type p)).
    { destruct (pl_range _ _ _ (loaded_placed _ _ _ HL) b p HB HPP) as (_ & _ & _ & HS). exact (size_pos _ HS). }
    pose proof (C42_points_within_limit addr L (erase m) (c, n) (erase_point p) HPL HC HPO) as HW. cbn [fst snd erase_point p_addr p_type] in HW.
    exists c, n. split; [exact HC|]. lia.
  Qed.
  Lemma held_sub ms mm a n a' n' : held ms mm a n -> a <= a' -> a' + n' <= a + n -> held ms mm a' n'.
  Proof. intros (m1 & H1 & H2) HA HN. exists m1. split; [exact H1|]. intros x Hx. apply H2. lia. Qed.

  Lemma live_model m addr L s : loaded addr L m -> planned addr L (erase m) -> ok s -> lo <= addr -> addr + L <= hi -> 0 < L ->
    exists s' m' mm ms, read_points dv s m = (s', m', Ok tt) /\ ok s' /\ mom s ms s' /\ model_read mm m m' /\
    (forall b p, In b (md_blocks m) -> In p (all_points b) -> held ms mm (p_addr p) (pt_len (p_type p))) /\
    (L <= 125 -> ms = [mm]).
  Proof.
    intros HLD HPL HO HL HH H0. pose proof (loaded_placed _ _ _ HLD) as HP.
    destruct (live_data m addr L s HP HO HL HH H0) as (s' & ms & d & E & HOK & HM & HD & HC & HS).
    assert (HMM : exists mm, d = mem_bytes mm addr L /\ (L <= 125 -> ms = [mm])).
    { destruct (Z_le_gt_dec L 125) as [G|G].
      - destruct (HS (short_single _ _ _ HLD HPL G) G) as (m1 & E1 & E2). exists m1. auto.
      - destruct (bytes_memory d addr L HD) as [mm EM]. exists mm. split; [exact EM|]. lia. }
    destruct HMM as (mm & EM & HSM). destruct (read_blocks_spec mm addr L m HP) as (l' & E1 & fixed & F1 & F2). rewrite <- EM in E1.
    unfold read_points. pose proof (pl_type _ _ _ HP) as HT. destruct (md_type m) as [mt|]; [|congruence]. rewrite E.
    destruct d as [|b0 d0]; [rewrite zlen_nil in HD; lia|]. set (d := b0 :: d0) in *. rewrite (pl_len _ _ _ HP), (pl_addr _ _ _ HP).
    rewrite HD, Z.eqb_refl. cbn [negb]. rewrite E1. exists s', (with_blocks m l'), mm, ms. split; [reflexivity|]. split; [exact HOK|]. split; [exact HM|].
    split; [exists fixed; split; [exact F1|]; split; [exact F2|reflexivity]|]. split; [|exact HSM].
    intros b p HB HPP. destruct (point_in_first _ _ _ _ _ HLD HPL HB HPP) as (c & n & HI & Hn & HA & HN).
    eapply held_sub; [exact (HC mm EM c n HI Hn)|exact HA|exact HN].
  Qed.
End Live.

(** ** RTU *)
Section Rtu.
  Context {D : Type} (dev : sdev D) (mem : D -> S_Modbus.memory) (slave : Z).
  Hypothesis HL : live_reads dev mem slave 3.
  Hypothesis HM : forall s, S_Modbus.mem_ok (mem s).
  Hypothesis HS : is_byte slave.
  Definition rtu_mom (s : D) (ms : list memory) (s' : D) : Prop := exists ts, moments dev s ts s' /\ ms = map (fun t => byte_view (mem t)) ts.

  Lemma moments_app s ts s1 ts' s2 : moments dev s ts s1 -> moments dev s1 ts' s2 -> moments dev s (ts ++ ts') s2.
  Proof. induction 1; intros HX; cbn [app]; [exact HX|]. econstructor; eauto. Qed.
  Lemma rtu_mom_app s ms s1 ms' s2 : rtu_mom s ms s1 -> rtu_mom s1 ms' s2 -> rtu_mom s (ms ++ ms') s2.
  Proof. intros (ts & H1 & ->) (ts' & H2 & ->). exists (ts ++ ts'). split; [eapply moments_app; eauto|]. symmetry. apply map_app. Qed.
  Lemma rtu_live1 s addr count : 1 <= count <= 125 -> 0 <= addr -> addr + count <= 65536 ->
    exists s', rtu_read1 dev false slave addr count 3 s = (s', Ok (mem_bytes (byte_view (mem s)) addr count)) /\ moments dev s [s] s'.
  Proof.
    intros Hc Ha Hac. unfold rtu_read1. rewrite rtu_read_req_ok by (repeat split; unfold is_byte in *; lia).
    destruct (HL s addr count Hc Ha Hac) as (s' & noise & sched & fin & HN & E). rewrite E. exists s'. split.
    - f_equal. unfold S_Modbus.read_reply.
      assert (EL : zlen (S_Modbus.regs (mem s) addr (Z.to_nat count)) = 2 * count) by (rewrite regs_len; lia).
      rewrite <- EL. rewrite read_reply_outcome; auto; [|lia|lia|apply regs_bytes, HM]. rewrite regs_bytes_view, Z2Nat.id by lia. reflexivity.
    - econstructor; [exact E|constructor].
  Qed.
  Lemma rtu_live_loop fuel : forall count addr off resp s, (Z.to_nat count < fuel)%nat -> 0 <= count -> 0 <= addr + off -> addr + off + count <= 65536 ->
    exists s' ts d, rtu_read_loop dev false fuel slave addr count 3 125 off resp s = (s', Ok (Some (resp ++ d))) /\ moments dev s ts s' /\ zlen d = 2 * count /\ (count = 0 -> ts = []) /\
    (0 < count -> exists rest d2, ts = s :: rest /\ d = mem_bytes (byte_view (mem s)) (addr + off) (Z.min count 125) ++ d2 /\ (count <= 125 -> rest = [])).
  Proof.
    induction fuel as [|fuel IH]; intros count addr off resp s Hf Hc Ha Hac; [lia|].
    cbn [rtu_read_loop]. destruct (Z.ltb_spec 0 count) as [Hpos|Hz].
    - assert (ERC : (if 125 <? count then 125 else count) = Z.min count 125) by (destruct (Z.ltb_spec 125 count); lia). rewrite ERC.
      destruct (rtu_live1 s (addr + off) (Z.min count 125) ltac:(lia) ltac:(lia) ltac:(lia)) as (s1 & -> & Hm1).
      pose proof (zlen_mem_bytes (byte_view (mem s)) (addr + off) (Z.min count 125) ltac:(lia)) as EL.
      destruct (mem_bytes (byte_view (mem s)) (addr + off) (Z.min count 125)) as [|b0 br] eqn:ER; [rewrite zlen_nil in EL; lia|].
      rewrite <- ER in *. clear ER b0 br.
      destruct (IH (count - Z.min count 125) addr (off + Z.min count 125) (resp ++ mem_bytes (byte_view (mem s)) (addr + off) (Z.min count 125)) s1 ltac:(lia) ltac:(lia) ltac:(lia) ltac:(lia))
        as (s' & ts & d & -> & Hm & HD & HX & _).
      exists s', ([s] ++ ts), (mem_bytes (byte_view (mem s)) (addr + off) (Z.min count 125) ++ d). split; [now rewrite <- app_assoc|].
      split; [eapply moments_app; eauto|]. split; [rewrite zlen_app; lia|]. split; [lia|]. intros _. exists ts, d. split; [reflexivity|]. split; [reflexivity|].
      intros H125. apply HX. lia.
    - assert (count = 0) as -> by lia. exists s, [], []. split; [now rewrite app_nil_r|]. split; [constructor|]. split; [reflexivity|]. split; [reflexivity|]. lia.
  Qed.
  Lemma rtu_live s a n : 0 <= a -> 0 <= n -> a + n <= 65536 ->
    exists s' ms d, dv_read (scl_dev (rtu_client dev false true slave)) s a n = (s', Ok (Some d)) /\ True /\ rtu_mom s ms s' /\ zlen d = 2 * n /\
    (0 < n -> exists m1 rest d2, ms = m1 :: rest /\ d = mem_bytes m1 a (Z.min n 125) ++ d2 /\ (n <= 125 -> rest = [])).
  Proof.
    intros Ha Hn Han. cbn [scl_dev rtu_client dv_read]. unfold rtu_read. change FUNC_READ_HOLDING with 3. change REQ_COUNT_MAX with 125.
    destruct (rtu_live_loop (S (Z.to_nat n)) n a 0 [] s ltac:(lia) Hn ltac:(lia) ltac:(lia)) as (s' & ts & d & E & Hm & HD & _ & HX).
    exists s', (map (fun t => byte_view (mem t)) ts), d. split; [exact E|]. split; [exact I|]. split; [exists ts; auto|]. split; [exact HD|].
    intros H0. destruct (HX H0) as (rest & d2 & -> & ED & HR). rewrite Z.add_0_r in ED. exists (byte_view (mem s)), (map (fun t => byte_view (mem t)) rest), d2.
    split; [reflexivity|]. split; [exact ED|]. intros H125. now rewrite (HR H125).
  Qed.
End Rtu.

(** ** TCP *)
Section Tcp.
  Context {D : Type} (srv : server D) (mem : D -> S_Modbus.memory) (slave : Z).
  Hypothesis HL : tcp_live_reads srv mem slave 3.
  Hypothesis HA : tcp_live_accepts srv.
  Hypothesis HS : is_byte slave.
  Definition tcp_mom (s : tcp (D := D)) (ms : list memory) (s' : tcp (D := D)) : Prop :=
    exists ts, tcp_moments srv (snd s) ts (snd s') /\ ms = map (fun t => byte_view (mem t)) ts.
  Definition tcp_ready (s : tcp (D := D)) : Prop := fst s = SConn [] \/ fst s = SNone.

  Lemma tcp_moments_app s ts s1 ts' s2 : tcp_moments srv s ts s1 -> tcp_moments srv s1 ts' s2 -> tcp_moments srv s (ts ++ ts') s2.
  Proof. induction 1; intros HX; cbn [app]; [exact HX|eapply tm_connect; eauto|]. eapply tm_cons; eauto. Qed.
  Lemma tcp_mom_app s ms s1 ms' s2 : tcp_mom s ms s1 -> tcp_mom s1 ms' s2 -> tcp_mom s (ms ++ ms') s2.
  Proof. intros (ts & H1 & ->) (ts' & H2 & ->). exists (ts ++ ts'). split; [eapply tcp_moments_app; eauto|]. symmetry. apply map_app. Qed.
  Lemma tcp_live1 s addr count : 1 <= count <= 125 -> 0 <= addr -> addr + count <= 65536 ->
    exists s', tcp_read1 srv slave false addr count 3 (SConn [], s) = ((SConn [], s'), Ok (mem_bytes (byte_view (mem s)) addr count)) /\ tcp_moments srv s [s] s'.
  Proof.
    intros Hc Ha Hac. unfold tcp_read1. rewrite tcp_read_req_ok by (unfold read_args_ok, is_byte in *; lia).
    unfold tcp_send. cbn [fst snd].
    destruct (HL s addr count Hc Ha Hac) as (s' & sched & fin & E). rewrite E. exists s'. split; [|eapply tm_cons; [exact E|constructor]].
    cbn [w_bytes w_sched w_end app].
    set (body := [slave; 3; 2 * count] ++ S_Modbus.regs (mem s) addr (Z.to_nat count)).
    assert (EB : zlen body = 3 + 2 * count).
    { unfold body. rewrite zlen_app, regs_len. change (zlen [slave; 3; 2 * count]) with 3. lia. }
    change (tcp_read_reply slave 3 (mem s) addr count) with (mbap body).
    destruct (tcp_reply_complete body ltac:(lia)) as (HC & EF & EL).
    rewrite (proj1 (tcp_receive_spec _ _ _ _ _ _) HC). cbn [snd].
    rewrite EF. rewrite ztake_all by lia. rewrite zdrop_all by lia.
    rewrite (tcp_exception_none body 3 slave (2 * count :: S_Modbus.regs (mem s) addr (Z.to_nat count)) eq_refl ltac:(lia)).
    assert (EM : S_Modbus.regs (mem s) addr (Z.to_nat count) = mem_bytes (byte_view (mem s)) addr count) by (rewrite regs_bytes_view, Z2Nat.id by lia; reflexivity).
    rewrite <- EM. reflexivity.
  Qed.
  Lemma tcp_live_loop fuel : forall count addr off resp s, (Z.to_nat count < fuel)%nat -> 0 <= count -> 0 <= addr + off -> addr + off + count <= 65536 ->
    exists s' ts d, tcp_read_loop srv slave 125 false fuel addr count 3 off resp (SConn [], s) = ((SConn [], s'), Ok (resp ++ d)) /\ tcp_moments srv s ts s' /\ zlen d = 2 * count /\ (count = 0 -> ts = []) /\
    (0 < count -> exists rest d2, ts = s :: rest /\ d = mem_bytes (byte_view (mem s)) (addr + off) (Z.min count 125) ++ d2 /\ (count <= 125 -> rest = [])).
  Proof.
    induction fuel as [|fuel IH]; intros count addr off resp s Hf Hc Ha Hac; [lia|].
    cbn [tcp_read_loop]. destruct (Z.ltb_spec 0 count) as [Hpos|Hz].
    - assert (ERC : (if 125 <? count then 125 else count) = Z.min count 125) by (destruct (Z.ltb_spec 125 count); lia). rewrite ERC.
      destruct (tcp_live1 s (addr + off) (Z.min count 125) ltac:(lia) ltac:(lia) ltac:(lia)) as (s1 & -> & Hm1).
      pose proof (zlen_mem_bytes (byte_view (mem s)) (addr + off) (Z.min count 125) ltac:(lia)) as EL.
      destruct (mem_bytes (byte_view (mem s)) (addr + off) (Z.min count 125)) as [|b0 br] eqn:ER; [rewrite zlen_nil in EL; lia|].
      rewrite <- ER in *. clear ER b0 br.
      destruct (IH (count - Z.min count 125) addr (off + Z.min count 125) (resp ++ mem_bytes (byte_view (mem s)) (addr + off) (Z.min count 125)) s1 ltac:(lia) ltac:(lia) ltac:(lia) ltac:(lia))
        as (s' & ts & d & -> & Hm & HD & HX & _).
      exists s', ([s] ++ ts), (mem_bytes (byte_view (mem s)) (addr + off) (Z.min count 125) ++ d). split; [now rewrite <- app_assoc|].
      split; [eapply tcp_moments_app; eauto|]. split; [rewrite zlen_app; lia|]. split; [lia|]. intros _. exists ts, d. split; [reflexivity|]. split; [reflexivity|].
      intros H125. apply HX. lia.
    - assert (count = 0) as -> by lia. exists s, [], []. split; [now rewrite app_nil_r|]. split; [constructor|]. split; [reflexivity|]. split; [reflexivity|]. lia.
  Qed.
  Lemma tcp_live s a n : tcp_ready s -> 0 <= a -> 0 <= n -> a + n <= 65536 ->
    exists s' ms d, dv_read (scl_dev (tcp_client srv false slave)) s a n = (s', Ok (Some d)) /\ tcp_ready s' /\ tcp_mom s ms s' /\ zlen d = 2 * n /\
    (0 < n -> exists m1 rest d2, ms = m1 :: rest /\ d = mem_bytes m1 a (Z.min n 125) ++ d2 /\ (n <= 125 -> rest = [])).
  Proof.
    intros HR Ha Hn Han. cbn [scl_dev tcp_client tcp_dev dv_read]. change FUNC_READ_HOLDING with 3. change REQ_COUNT_MAX with 125.
    unfold tcp_read, with_connection. destruct s as [k s]. unfold tcp_ready in HR. cbn [fst] in HR.
    destruct HR as [-> | ->]; cbn [fst].
    - destruct (tcp_live_loop (S (Z.to_nat n)) n a 0 [] s ltac:(lia) Hn ltac:(lia) ltac:(lia)) as (s' & ts & d & E & Hm & HD & _ & HX). rewrite E.
      exists (SConn [], s'), (map (fun t => byte_view (mem t)) ts), d. split; [reflexivity|]. split; [left; reflexivity|]. split; [exists ts; auto|]. split; [exact HD|].
      intros H0. destruct (HX H0) as (rest & d2 & -> & ED & HR). rewrite Z.add_0_r in ED. exists (byte_view (mem s)), (map (fun t => byte_view (mem t)) rest), d2.
      split; [reflexivity|]. split; [exact ED|]. intros H125. now rewrite (HR H125).
    - destruct (HA s) as (s1 & Econn). unfold tcp_connect. cbn [snd]. rewrite Econn.
      destruct (tcp_live_loop (S (Z.to_nat n)) n a 0 [] s1 ltac:(lia) Hn ltac:(lia) ltac:(lia)) as (s' & ts & d & E & Hm & HD & _ & HX). rewrite E.
      exists (SNone, s'), (map (fun t => byte_view (mem t)) ts), d. split; [reflexivity|]. split; [right; reflexivity|]. split; [exists ts; split; [eapply tm_connect; eauto|reflexivity]|]. split; [exact HD|].
      intros H0. destruct (HX H0) as (rest & d2 & -> & ED & HR). rewrite Z.add_0_r in ED. exists (byte_view (mem s1)), (map (fun t => byte_view (mem t)) rest), d2.
      split; [reflexivity|]. split; [exact ED|]. intros H125. now rewrite (HR H125).
  Qed.
End Tcp.
