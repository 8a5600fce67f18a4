(** * C_Live: property C106 (devices whose registers change on their own while they are read). *)
From Coq Require Import String.
From Verif Require Import Py P_List M_Util M_Suns M_Mbmap M_Device S_Device P_Device C_Device C_Chunks M_Client S_Client P_Client P_Client2 P_Client3 P_Client4 M_Wire M_Rtu P_Rtu M_Tcp S_Tcp P_Tcp M_Scan S_Stack P_Stack S_Live P_Live.
From Verif Require S_Modbus C_Rtu C_Tcp.

(** ** Serial line: reading a model succeeds; the values are decoded from a memory [mm] that agrees, on the registers of
    every single point (scale factor points included), with what the device held at one moment of this read; a model of at
    most 125 registers is read from one moment altogether. *)
Theorem C106_rtu_values_were_held_partial :
  forall D (dev : sdev D) (mem : D -> S_Modbus.memory) slave, live_reads dev mem slave 3 -> (forall s, S_Modbus.mem_ok (mem s)) -> is_byte slave ->
  forall s addr L m, loaded addr L m -> planned addr L (erase m) -> 0 <= addr -> addr + L <= 65536 -> 0 < L ->
  exists s' m' mm ts, read_points (scl_dev (rtu_client dev false true slave)) s m = (s', m', Ok tt) /\
    moments dev s ts s' /\ model_read mm m m' /\
    (forall b p, In b (md_blocks m) -> In p (all_points b) -> held (map (fun t => byte_view (mem t)) ts) mm (p_addr p) (pt_len (p_type p))) /\
    (L <= 125 -> map (fun t => byte_view (mem t)) ts = [mm]).
Proof.
  intros D dev mem slave HL HM HS s addr L m H1 H2 H3 H4 H5.
  destruct (live_model _ (fun _ => True) (rtu_mom dev mem) 0 65536 (rtu_mom_app dev mem) (fun s a n _ => rtu_live dev mem slave HL HM HS s a n) m addr L s H1 H2 I H3 H4 H5)
    as (s' & m' & mm & ms & E & _ & (ts & HT & ->) & HR & HH & HX).
  exists s', m', mm, ts. auto.
Qed.
Print Assumptions C106_rtu_values_were_held_partial.
(** ** TCP: the same *)
Theorem C106_tcp_values_were_held_partial :
  forall D (srv : server D) (mem : D -> S_Modbus.memory) slave, tcp_live_reads srv mem slave 3 -> tcp_live_accepts srv -> is_byte slave ->
  forall k s addr L m, (k = SNone \/ k = SConn []) -> loaded addr L m -> planned addr L (erase m) -> 0 <= addr -> addr + L <= 65536 -> 0 < L ->
  exists st' m' mm ts, read_points (scl_dev (tcp_client srv false slave)) (k, s) m = (st', m', Ok tt) /\
    tcp_moments srv s ts (snd st') /\ model_read mm m m' /\
    (forall b p, In b (md_blocks m) -> In p (all_points b) -> held (map (fun t => byte_view (mem t)) ts) mm (p_addr p) (pt_len (p_type p))) /\
    (L <= 125 -> map (fun t => byte_view (mem t)) ts = [mm]).
Proof.
  intros D srv mem slave HL HA HS k s addr L m HK H1 H2 H3 H4 H5.
  assert (HOK : tcp_ready (k, s)) by (destruct HK as [-> | ->]; [right|left]; reflexivity).
  destruct (live_model _ tcp_ready (tcp_mom srv mem) 0 65536 (tcp_mom_app srv mem) (fun s a n => tcp_live srv mem slave HL HA HS s a n) m addr L (k, s) H1 H2 HOK H3 H4 H5)
    as (s' & m' & mm & ms & E & _ & (ts & HT & ->) & HR & HH & HX).
  exists s', m', mm, ts. auto.
Qed.
Print Assumptions C106_tcp_values_were_held_partial.
(** so the value of a point is what its registers at one moment decode to *)
Theorem C106_rtu_value_of_one_moment_partial :
  forall D (dev : sdev D) (mem : D -> S_Modbus.memory) slave, live_reads dev mem slave 3 -> (forall s, S_Modbus.mem_ok (mem s)) -> is_byte slave ->
  forall s addr L m, loaded addr L m -> planned addr L (erase m) -> 0 <= addr -> addr + L <= 65536 -> 0 < L ->
  exists s' m' ts, read_points (scl_dev (rtu_client dev false true slave)) s m = (s', m', Ok tt) /\ moments dev s ts s' /\
    Forall2 (fun b b' => Forall2 (fun p p' => exists t v, In t ts /\ decodes (byte_view (mem t)) p v /\ p_base p' = if implemented p v then v else VNone) (b_points b) (b_points b'))
      (md_blocks m) (md_blocks m').
Proof.
  intros D dev mem slave HL HM HS s addr L m H1 H2 H3 H4 H5.
  destruct (C106_rtu_values_were_held_partial D dev mem slave HL HM HS s addr L m H1 H2 H3 H4 H5) as (s' & m' & mm & ts & E & HT & (fixed & _ & HB & _) & HH & _).
  exists s', m', ts. split; [exact E|]. split; [exact HT|]. clear E HT. revert HB HH. generalize (md_blocks m) (md_blocks m'). intros l l' HB.
  induction HB as [|b b' l l' H HB IH]; intros HH; constructor.
  - destruct H as (_ & _ & _ & _ & _ & H). assert (HP : forall p, In p (b_points b) -> held (map (fun t => byte_view (mem t)) ts) mm (p_addr p) (pt_len (p_type p))).
    { intros p HI. apply (HH b); [now left|]. apply in_or_app. now left. }
    clear HH IH HB. induction H as [|p p' q q' H HQ IH]; constructor; [|apply IH; intros; apply HP; now right].
    destruct H as (_ & v & HV & HI). destruct (HP p (or_introl eq_refl)) as (m1 & HIN & HEQ). apply in_map_iff in HIN as (t & <- & HT). exists t, v.
    split; [exact HT|]. split.
    + unfold decodes, regs_of in *. rewrite <- HV. f_equal. symmetry. apply mem_bytes_ext. exact HEQ.
    + destruct (implemented p v); tauto.
  - apply IH. intros b0 p HI. apply HH. now right.
Qed.
Print Assumptions C106_rtu_value_of_one_moment_partial.

(** ** A device that reports the same quantity all the time (as 1000 * 10^1 or 10000 * 10^0), and the library reads 1000 *)
Definition live_fixed : blocktype := mkBT Fixed (BStr (lit "6"%string)) (Some (lit "fixed"%string))
  [pt "N" 0 Tuint16 1 None; pt "Pad" 1 Tpad 1 None; pt "V_SF" 2 Tsunssf 1 None; pt "B" 3 Tint32 2 None; pt "C" 5 Tenum16 1 None].
Definition live_rep : blocktype := mkBT Repeating (BStr (lit "50"%string)) (Some (lit "repeating"%string))
  [pt "S" 0 Tstring 49 None; pt "V" 49 Tuint16 1 (Some "V_SF"%string)].
Definition live_mt : modeltype := mkMT 1 (Some 100) (Some 6) (Some (lit "ex"%string)) None None None live_fixed (Some live_rep) [].
Definition live_types (id : Z) : res modeltype := if id =? 100 then Ok live_mt else Raise ESunSpec.
Definition live_len (n : Z) : Z := 6 + 50 * n.
Definition live_model (n : Z) : model := fst (model_load 10 live_types (new_model 100 40004 (live_len n))).
(** the registers: the scale factor at 40006, the values at 40059, 40109, 40159 *)
Definition live_mem (t : bool) : S_Modbus.memory :=
  fun a => if a =? 40006 then (if t then 0 else 1) else if (a =? 40059) || (a =? 40109) || (a =? 40159) then (if t then 10000 else 1000) else 65.
Definition live_dev : sdev bool := fun t req => (negb t, snd (C_Rtu.ex_dev (live_mem t) req)).
Definition live_srv : server bool := mkServer bool (fun t => (t, true)) (fun t req => (negb t, snd (srv_send C_Tcp.ex_srv (live_mem t) req))).
Lemma live_dev_reads slave : live_reads live_dev live_mem slave 3.
Proof.
  intros s addr count H1 H2 H3. destruct (C_Rtu.C26_ex slave 3 ltac:(lia) (live_mem s) addr count H1 H2 H3) as (s' & noise & sched & fin & A & B & _).
  exists (negb s), noise, sched, fin. split; [exact A|]. unfold live_dev. rewrite B. reflexivity.
Qed.
Lemma live_srv_reads slave : tcp_live_reads live_srv live_mem slave 3 /\ tcp_live_accepts live_srv.
Proof.
  split; [|intros s; exists s; reflexivity]. intros s addr count H1 H2 H3. destruct (C_Tcp.C32_ex slave 3 ltac:(lia)) as [HS _].
  destruct (HS (live_mem s) addr count H1 H2 H3) as (s' & sched & fin & A & _). exists (negb s), sched, fin. unfold live_srv. cbn [srv_send]. rewrite A. reflexivity.
Qed.
Lemma live_mem_ok t : S_Modbus.mem_ok (live_mem t).
Proof. intros a. unfold live_mem. destruct (a =? 40006); [destruct t; lia|]. destruct (_ || _ || _); [destruct t; lia|lia]. Qed.
Lemma live_loaded n : n = 2 \/ n = 3 -> loaded 40004 (live_len n) (live_model n) /\ planned 40004 (live_len n) (erase (live_model n)).
Proof.
  intros Hn.
  assert (HG : good_def live_mt 6).
  { unfold good_def. split; [cbn; lia|]. split.
    - intros rt R ER EB. cbn in ER. apply Some_inj in ER. subst rt. vm_compute in EB. apply Ok_inj in EB. subst R. cbn. lia.
    - split; [repeat constructor|]. intros rt ER. cbn in ER. apply Some_inj in ER. subst rt. repeat constructor. }
  assert (HX : forall len, live_len n = len -> len <> 0 -> used_length live_mt len len /\ fixed_length live_mt 100 len 6).
  { intros len _ H0. split; [left; auto|]. right. split; [intros [H _]; discriminate|reflexivity]. }
  assert (HE : model_load 10 live_types (new_model 100 40004 (live_len n)) = (erase (live_model n), Ok tt)) by (destruct Hn as [-> | ->]; vm_compute; reflexivity).
  destruct (HX _ eq_refl ltac:(unfold live_len; destruct Hn as [-> | ->]; lia)) as [HU HF]. split.
  - exists 10%nat, live_types, 100, (live_len n), live_mt, 6. split; [reflexivity|]. auto.
  - exists 10%nat, live_types, 100, (live_len n), live_mt, 6. split; [exact HE|]. split; [reflexivity|]. split; [exact HU|]. split; [exact HF|].
    destruct HG as (HG1 & HG2 & _). split; [exact HG1|]. split; [exact HG2|]. split; [repeat constructor; cbn; intros; lia|].
    intros rt ER. cbn in ER. apply Some_inj in ER. subst rt. repeat constructor; cbn; intros; lia.
Qed.
(** the quantity a point stands for: its number times ten to the power of its scale factor *)
Definition quantity (p : point) : option Z := match p_base p, p_sf p with VInt b, VInt k => Some (b * 10 ^ k) | _, _ => None end.
Definition quantities (m : model) : list (option Z) := map quantity (filter (fun p => match p_link p with SfNone => false | _ => true end) (points_of m)).
Definition read_gives {D} (dv : mdev D) (s : D) (m : model) (q : list (option Z)) : Prop :=
  exists s' m', read_points dv s m = (s', m', Ok tt) /\ quantities m' = q.
Lemma read_gives_check {D} (dv : mdev D) s m q : (let '(_, m', r) := read_points dv s m in r = Ok tt /\ quantities m' = q) -> read_gives dv s m q.
Proof. destruct (read_points dv s m) as [[s' m'] r] eqn:E. intros [-> H]. exists s', m'. auto. Qed.
Theorem C106_rtu_scaled_value_never_held_refuted :
  exists D (dev : sdev D) (mem : D -> S_Modbus.memory) slave s addr L m, live_reads dev mem slave 3 /\ (forall t, S_Modbus.mem_ok (mem t)) /\
    loaded addr L m /\ planned addr L (erase m) /\
    (forall t, read_gives mem_dev (byte_view (mem t)) m [Some 10000; Some 10000; Some 10000]) /\
    read_gives (scl_dev (rtu_client dev false true slave)) s m [Some 10000; Some 10000; Some 100000].
Proof.
  exists bool, live_dev, live_mem, 1, false, 40004, (live_len 3), (live_model 3). split; [apply live_dev_reads|]. split; [apply live_mem_ok|].
  destruct (live_loaded 3 ltac:(auto)) as [H1 H2]. split; [exact H1|]. split; [exact H2|]. split.
  - intros t. apply read_gives_check. destruct t; vm_compute; auto.
  - apply read_gives_check. vm_compute. auto.
Qed.
Print Assumptions C106_rtu_scaled_value_never_held_refuted.
Theorem C106_tcp_scaled_value_never_held_refuted :
  exists D (srv : server D) (mem : D -> S_Modbus.memory) slave s addr L m, tcp_live_reads srv mem slave 3 /\ tcp_live_accepts srv /\
    loaded addr L m /\ planned addr L (erase m) /\
    (forall t, read_gives mem_dev (byte_view (mem t)) m [Some 10000; Some 10000; Some 10000]) /\
    read_gives (scl_dev (tcp_client srv false slave)) (SNone, s) m [Some 10000; Some 10000; Some 100000].
Proof.
  exists bool, live_srv, live_mem, 1, false, 40004, (live_len 3), (live_model 3). destruct (live_srv_reads 1) as [L1 L2]. split; [exact L1|]. split; [exact L2|].
  destruct (live_loaded 3 ltac:(auto)) as [H1 H2]. split; [exact H1|]. split; [exact H2|]. split.
  - intros t. apply read_gives_check. destruct t; vm_compute; auto.
  - apply read_gives_check. vm_compute. auto.
Qed.
Print Assumptions C106_tcp_scaled_value_never_held_refuted.
(** the theorems apply to this device: the long model, and a shorter one (106 registers), which is read from one moment *)
Example C106_long_ex : live_len 3 = 156 /\ chunks (md_reads (live_model 3)) (40004 + 156) = [(40004, 106); (40110, 50)] /\
  exists s' m' mm ts, read_points (scl_dev (rtu_client live_dev false true 1)) false (live_model 3) = (s', m', Ok tt) /\ moments live_dev false ts s' /\ model_read mm (live_model 3) m'.
Proof.
  split; [reflexivity|]. split; [vm_compute; reflexivity|]. destruct (live_loaded 3 ltac:(auto)) as [H1 H2].
  destruct (C106_rtu_values_were_held_partial bool live_dev live_mem 1 (live_dev_reads 1) live_mem_ok ltac:(unfold is_byte; lia) false 40004 (live_len 3) (live_model 3) H1 H2
    ltac:(lia) ltac:(unfold live_len; lia) ltac:(unfold live_len; lia)) as (s' & m' & mm & ts & A & B & C & _). exists s', m', mm, ts. split; [exact A|]. split; [exact B|exact C].
Qed.
Lemma one_of {A B} (f : A -> B) l y : map f l = [y] -> exists x, l = [x] /\ f x = y.
Proof. destruct l as [|x [|x2 l]]; cbn [map]; intros H; try discriminate. exists x. split; [reflexivity|congruence]. Qed.
Example C106_short_ex : forall s, exists s' m' t, read_points (scl_dev (rtu_client live_dev false true 1)) s (live_model 2) = (s', m', Ok tt) /\
  moments live_dev s [t] s' /\ model_read (byte_view (live_mem t)) (live_model 2) m'.
Proof.
  intros s. destruct (live_loaded 2 ltac:(auto)) as [H1 H2].
  destruct (C106_rtu_values_were_held_partial bool live_dev live_mem 1 (live_dev_reads 1) live_mem_ok ltac:(unfold is_byte; lia) s 40004 (live_len 2) (live_model 2) H1 H2
    ltac:(lia) ltac:(unfold live_len; lia) ltac:(unfold live_len; lia)) as (s' & m' & mm & ts & A & B & C & _ & E). specialize (E ltac:(unfold live_len; lia)).
  destruct (one_of _ _ _ E) as (t & -> & <-). exists s', m', t. split; [exact A|]. split; [exact B|exact C].
Qed.
Example C106_tcp_ex : exists st' m' mm ts, read_points (scl_dev (tcp_client live_srv false 1)) (SConn [], true) (live_model 3) = (st', m', Ok tt) /\
  tcp_moments live_srv true ts (snd st') /\ model_read mm (live_model 3) m'.
Proof.
  destruct (live_loaded 3 ltac:(auto)) as [H1 H2]. destruct (live_srv_reads 1) as [L1 L2].
  destruct (C106_tcp_values_were_held_partial bool live_srv live_mem 1 L1 L2 ltac:(unfold is_byte; lia) (SConn []) true 40004 (live_len 3) (live_model 3) (or_intror eq_refl) H1 H2
    ltac:(lia) ltac:(unfold live_len; lia) ltac:(unfold live_len; lia)) as (s' & m' & mm & ts & A & B & C & _). exists s', m', mm, ts. split; [exact A|]. split; [exact B|exact C].
Qed.
