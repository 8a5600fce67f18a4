(** * P_Scan3: the base address (C50), the callback (C71), and what scanning and reading leave alone (C72). *)
From Coq Require Import ZifyBool String.
From Verif Require Import Py P_List M_Util M_Mbmap M_Device M_Client S_Client M_Scan S_Scan P_Scan.

Lemma find_base_sound {D} (c : sclient D) l : forall s s' a d, find_base c s l = (s', Ok (Some (a, d))) ->
  exists pre post s1, l = pre ++ a :: post /\ all_missed (scl_dev c) s pre s1 /\ dv_read (scl_dev c) s1 a 3 = (s', Ok (Some d)) /\
    ztake 4 d = [83; 117; 110; 83].
Proof.
  induction l as [|a0 l IH]; intros s s' a d H; [discriminate|]. cbn [find_base] in H. unfold cl_read in H.
  destruct (dv_read (scl_dev c) s a0 3) as [s1 [[d1|]|x]] eqn:E.
  - destruct (eqb_list (py_slice 0 4 d1) SUNS) eqn:ES.
    + apply pair_equal_spec in H as [<- H]. apply Ok_inj, Some_inj, pair_equal_spec in H as [<- <-].
      exists [], l, s. split; [reflexivity|]. split; [constructor|]. split; [exact E|now apply suns_eq].
    + apply IH in H as (pre & post & s2 & -> & HM & H2 & H3). exists (a0 :: pre), post, s2. split; [reflexivity|]. split; [|auto].
      econstructor; [|exact HM]. right. exists d1. split; [exact E|]. intros HS. apply suns_eq in HS. congruence.
  - discriminate.
  - rewrite wrap_client in H. destruct (is_modbus_client_error x || is_sunspec_client_error x) eqn:EX; [|discriminate].
    apply IH in H as (pre & post & s2 & -> & HM & H2 & H3). exists (a0 :: pre), post, s2. split; [reflexivity|]. split; [|auto].
    econstructor; [|exact HM]. left. exists x. split; [exact E|]. apply orb_true_iff in EX as [EX|EX]; [now left|right]. destruct x; try discriminate; reflexivity.
Qed.
Lemma find_base_none {D} (c : sclient D) l : forall s s', find_base c s l = (s', Ok None) <-> all_missed (scl_dev c) s l s'.
Proof.
  intros s s'. split.
  - revert s s'. induction l as [|a0 l IH]; intros s s' H; cbn [find_base] in H.
    { apply pair_equal_spec in H as [<- _]. constructor. }
    unfold cl_read in H. destruct (dv_read (scl_dev c) s a0 3) as [s1 [[d1|]|x]] eqn:E.
    + destruct (eqb_list (py_slice 0 4 d1) SUNS) eqn:ES; [discriminate|]. econstructor; [|apply IH; exact H].
      right. exists d1. split; [exact E|]. intros HS. apply suns_eq in HS. congruence.
    + discriminate.
    + rewrite wrap_client in H. destruct (is_modbus_client_error x || is_sunspec_client_error x) eqn:EX; [|discriminate].
      econstructor; [|apply IH; exact H]. left. exists x. split; [exact E|]. apply orb_true_iff in EX as [EX|EX]; [now left|right]. destruct x; try discriminate; reflexivity.
  - intros H. rewrite <- (app_nil_r l). rewrite (find_base_missed c s l s' [] H). reflexivity.
Qed.

(** ** the callback *)
Section Stop.
  Context {D : Type} (c : sclient D) (lfuel : nat) (types : Z -> res modeltype) (f : list Z -> bool).
  Variables (rel : D -> memory -> Prop) (lo hi wmax : Z).
  Hypothesis HI : implements (scl_dev c) rel lo hi wmax.
  Hypothesis HLE : loads_end lfuel types.
  Definition ids (l : list (Z * Z * Z)) : list Z := map (fun x => fst (fst x)) l.
  Lemma scan_loop_stop mem a l e x l2 : byte_memory mem -> model_chain mem a (l ++ x :: l2) e -> lo <= a -> e < hi ->
    forall fuel s hist models, (length l < fuel)%nat -> rel s mem ->
    (forall k, (0 < k <= length l)%nat -> f (hist ++ ids (firstn k l)) = true) -> f (hist ++ ids (l ++ [x])) = false ->
    exists s' ms, scan_loop c lfuel types (Some f) fuel s (reg mem a) a hist models = (s', models ++ ms, Raise ESunSpecClient) /\
      Forall2 (model_for lfuel types) l ms /\ rel s' mem.
  Proof.
    intros HB. revert a. induction l as [|y l IH]; intros a HC HLO HHI fuel s hist models HF HR HT HX.
    - cbn [app] in HC. inversion HC as [|? ? ? HN HC' E1 E2 E3]; subst. destruct fuel as [|fuel]; [cbn in HF; lia|]. cbn [scan_loop].
      destruct (Z.eqb_spec (reg mem a) END_MODEL_ID) as [EE|_]; [contradiction|].
      pose proof (chain_le _ _ _ _ HB HC') as HE. pose proof (reg_range mem (a + 1) HB) as HL.
      destruct (cl_read_impl c rel lo hi wmax HI s mem (a + 1) 1 HR ltac:(lia) ltac:(lia) ltac:(lia)) as (s1 & -> & HR1).
      rewrite mem_bytes_reg. cbn [two_bytes]. cbn [ids app map fst] in HX. rewrite HX. cbn [negb].
      exists s1, []. rewrite app_nil_r. split; [reflexivity|]. split; [constructor|exact HR1].
    - cbn [app] in HC. inversion HC as [|? ? ? HN HC' E1 E2 E3]; subst. destruct fuel as [|fuel]; [cbn in HF; lia|]. cbn [List.length] in HF. cbn [scan_loop].
      destruct (Z.eqb_spec (reg mem a) END_MODEL_ID) as [EE|_]; [contradiction|].
      pose proof (chain_le _ _ _ _ HB HC') as HE. pose proof (reg_range mem (a + 1) HB) as HL.
      destruct (cl_read_impl c rel lo hi wmax HI s mem (a + 1) 1 HR ltac:(lia) ltac:(lia) ltac:(lia)) as (s1 & -> & HR1).
      rewrite mem_bytes_reg. cbn [two_bytes].
      replace (f (hist ++ [reg mem a])) with true by (symmetry; exact (HT 1%nat ltac:(cbn; lia))). cbn [negb].
      rewrite u16_pair. fold (reg mem (a + 1)).
      set (len := reg mem (a + 1)) in *. set (id := reg mem a) in *.
      pose proof (proj2 HLE id (a + 2) len HL) as HNF. pose proof (model_load_keeps lfuel types (new_model id (a + 2) len)) as HK.
      destruct (model_load lfuel types (new_model id (a + 2) len)) as [m r] eqn:EM. cbn [snd fst] in HNF, HK.
      set (m1 := match r with Ok _ => m | Raise e0 => with_error m e0 end).
      assert (HM : model_for lfuel types (id, a + 2, len) m1).
      { unfold model_for. rewrite EM. destruct HK as (K1 & K2 & K3). cbn [md_id md_addr md_len new_model] in K1, K2, K3.
        unfold m1. destruct r; cbn [with_error md_id md_addr md_len md_error md_blocks md_type]; auto 10. }
      destruct (cl_read_impl c rel lo hi wmax HI s1 mem (a + (len + 2)) 1 HR1 ltac:(lia) ltac:(lia) ltac:(lia)) as (s2 & E2 & HR2).
      rewrite mem_bytes_reg in E2.
      destruct (IH (a + 2 + len) HC' ltac:(lia) HHI fuel s2 (hist ++ [id]) (models ++ [m1]) ltac:(lia) HR2) as (s' & ms & E3 & F3 & R3).
      { intros k Hk. rewrite <- app_assoc. exact (HT (S k) ltac:(cbn; lia)). }
      { rewrite <- app_assoc. exact HX. }
      exists s', (m1 :: ms). split; [|split; [constructor; assumption|exact R3]].
      assert (EA : a + (len + 2) = a + 2 + len) by lia. rewrite EA in E2.
      assert (EU : data_to_u16 [mem (2 * (a + 2 + len)); mem (2 * (a + 2 + len) + 1)] = Ok (reg mem (a + 2 + len))) by apply u16_pair.
      destruct r as [u|z].
      + rewrite EA, E2. cbn [two_bytes]. rewrite EU. unfold m1 in E3. etransitivity; [exact E3|]. now rewrite <- app_assoc.
      + destruct z; try (rewrite EA, E2; cbn [two_bytes]; rewrite EU; unfold m1 in E3; etransitivity; [exact E3|]; now rewrite <- app_assoc).
        congruence.
  Qed.
End Stop.

(** ** no writes *)
Section NoWrite.
  Context {D : Type}.
  Lemma log_cl_read (dv : mdev D) s lg a n :
    cl_read (with_write_log dv) (s, lg) a n = let '(s', r) := cl_read dv s a n in ((s', lg), r).
  Proof. unfold cl_read, with_write_log. cbn [dv_read fst snd]. destruct (dv_read dv s a n) as [s' []]; reflexivity. Qed.
  Lemma log_read_chunks (dv : mdev D) e l : forall s lg data,
    read_chunks (with_write_log dv) (s, lg) l e data = let '(s', r) := read_chunks dv s l e data in ((s', lg), r).
  Proof.
    induction l as [|a l IH]; intros s lg data; [reflexivity|]. cbn [read_chunks]. rewrite log_cl_read.
    destruct (cl_read dv s a _) as [s' [[d|]|]]; auto.
  Qed.
  Lemma log_read_points (dv : mdev D) s lg m :
    read_points (with_write_log dv) (s, lg) m = let '(s', m', r) := read_points dv s m in ((s', lg), m', r).
  Proof.
    unfold read_points. destruct (md_type m); [|reflexivity].
    assert (E : read_model_data (with_write_log dv) (s, lg) m = let '(s', r) := read_model_data dv s m in ((s', lg), r)).
    { unfold read_model_data. destruct (md_reads m) as [|x [|y l]]; [apply log_read_chunks| |apply log_read_chunks].
      rewrite log_cl_read. destruct (cl_read dv s (md_addr m) (md_len m)) as [s' [[d|]|]]; reflexivity. }
    rewrite E. destruct (read_model_data dv s m) as [s' [[|b d]|]]; try reflexivity.
    destruct (negb _); [reflexivity|]. destruct (read_blocks _ _ _ _) as [bs r]. reflexivity.
  Qed.
  Lemma log_device_read_points (dv : mdev D) l : forall s lg,
    device_read_points (with_write_log dv) (s, lg) l = let '(s', l', r) := device_read_points dv s l in ((s', lg), l', r).
  Proof.
    induction l as [|m l IH]; intros s lg; [reflexivity|]. cbn [device_read_points]. rewrite log_read_points.
    destruct (read_points dv s m) as [[s' m'] [u|e]]; [|reflexivity]. rewrite IH. destruct (device_read_points dv s' l) as [[s2 l2] r]. reflexivity.
  Qed.
  Variables (c : sclient D) (lfuel : nat) (types : Z -> res modeltype) (progress : option (list Z -> bool)).
  Lemma log_find_base l : forall s lg, find_base (log_client c) (s, lg) l = let '(s', r) := find_base c s l in ((s', lg), r).
  Proof.
    induction l as [|a l IH]; intros s lg; [reflexivity|]. cbn [find_base]. change (scl_dev (log_client c)) with (with_write_log (scl_dev c)).
    rewrite log_cl_read. destruct (cl_read (scl_dev c) s a 3) as [s' [[d|]|e]]; [|reflexivity|].
    - destruct (eqb_list _ _); [reflexivity|apply IH].
    - destruct (is_sunspec_client_error e); [apply IH|reflexivity].
  Qed.
  Lemma log_scan_loop fuel : forall s lg id addr hist models,
    scan_loop (log_client c) lfuel types progress fuel (s, lg) id addr hist models =
    let '(s', m, r) := scan_loop c lfuel types progress fuel s id addr hist models in ((s', lg), m, r).
  Proof.
    induction fuel as [|fuel IH]; intros s lg id addr hist models; [reflexivity|]. cbn [scan_loop].
    destruct (id =? END_MODEL_ID); [reflexivity|]. change (scl_dev (log_client c)) with (with_write_log (scl_dev c)).
    rewrite log_cl_read. destruct (cl_read (scl_dev c) s (addr + 1) 1) as [s1 [o|e]]; [|reflexivity].
    destruct (two_bytes o) as [d|]; [|reflexivity]. destruct (match progress with Some f => negb (f (hist ++ [id])) | None => false end); [reflexivity|].
    destruct (data_to_u16 d) as [len|]; [|reflexivity]. destruct (model_load lfuel types (new_model id (addr + 2) len)) as [m r].
    assert (HK : forall m1, 
      match cl_read (with_write_log (scl_dev c)) (s1, lg) (addr + (len + 2)) 1 with
      | (s2, Raise e) => (s2, m1, Raise e)
      | (s2, Ok o2) => match two_bytes o2 with
         | None => (s2, m1, Ok tt)
         | Some d2 => match data_to_u16 d2 with
            | Raise e => (s2, m1, Raise e)
            | Ok id' => scan_loop (log_client c) lfuel types progress fuel s2 id' (addr + (len + 2)) (hist ++ [id]) m1 end end end =
      let '(s', m, r) := match cl_read (scl_dev c) s1 (addr + (len + 2)) 1 with
      | (s2, Raise e) => (s2, m1, Raise e)
      | (s2, Ok o2) => match two_bytes o2 with
         | None => (s2, m1, Ok tt)
         | Some d2 => match data_to_u16 d2 with
            | Raise e => (s2, m1, Raise e)
            | Ok id' => scan_loop c lfuel types progress fuel s2 id' (addr + (len + 2)) (hist ++ [id]) m1 end end end in ((s', lg), m, r)).
    { intros m1. rewrite log_cl_read. destruct (cl_read (scl_dev c) s1 (addr + (len + 2)) 1) as [s2 [o2|e]]; [|reflexivity].
      destruct (two_bytes o2) as [d2|]; [|reflexivity]. destruct (data_to_u16 d2); [apply IH|reflexivity]. }
    destruct r as [u|e]; [apply HK|]. destruct e; try apply HK; reflexivity.
  Qed.
  Lemma log_scan fuel s lg cd : scan (log_client c) lfuel types progress fuel (s, lg) cd =
    let '(s', cd', r) := scan c lfuel types progress fuel s cd in ((s', lg), cd', r).
  Proof.
    assert (HB : forall s, scan_body (log_client c) lfuel types progress fuel (s, lg) cd =
      let '(s', cd', r) := scan_body c lfuel types progress fuel s cd in ((s', lg), cd', r)).
    { intros s0. unfold scan_body. destruct (cd_base cd); [reflexivity|]. rewrite log_find_base.
      destruct (find_base c s0 BASE_ADDRS) as [s1 [[[a d]|]|e]]; try reflexivity.
      destruct (data_to_u16 _); [|reflexivity]. rewrite log_scan_loop. destruct (scan_loop c lfuel types progress fuel s1 _ _ _ _) as [[s2 ms] r]. reflexivity. }
    unfold scan, log_client. cbn [scl_connect]. destruct (scl_connect c) as [[conn disc]|] eqn:EC.
    - cbn [fst snd]. destruct (conn s) as [s1 [u|e]]; [|reflexivity]. unfold log_client in HB. rewrite EC in HB. rewrite HB.
      destruct (scan_body c lfuel types progress fuel s1 cd) as [[s2 cd'] [u2|e]]; reflexivity.
    - unfold log_client in HB. rewrite EC in HB. rewrite HB. destruct (scan_body c lfuel types progress fuel s cd) as [[s2 cd'] r]. reflexivity.
  Qed.
End NoWrite.

(** a property of device states that reads preserve is preserved by scanning *)
Section Inv.
  Context {D : Type} (c : sclient D) (inv : D -> Prop) (lfuel : nat) (types : Z -> res modeltype) (progress : option (list Z -> bool)).
  Hypothesis HR : forall s a n s' r, inv s -> dv_read (scl_dev c) s a n = (s', r) -> inv s'.
  Lemma cl_read_inv s a n s' r : inv s -> cl_read (scl_dev c) s a n = (s', r) -> inv s'.
  Proof.
    intros HI. unfold cl_read. destruct (dv_read (scl_dev c) s a n) as [s1 r1] eqn:E. apply HR in E; [|exact HI].
    destruct r1; intros H; apply pair_equal_spec in H as [<- _]; exact E.
  Qed.
  Lemma find_base_inv l : forall s, inv s -> inv (fst (find_base c s l)).
  Proof.
    induction l as [|a l IH]; intros s HI; [exact HI|]. cbn [find_base].
    destruct (cl_read (scl_dev c) s a 3) as [s1 [[d|]|e]] eqn:E; apply cl_read_inv in E; try exact HI.
    - destruct (eqb_list _ _); [exact E|now apply IH].
    - exact E.
    - destruct (is_sunspec_client_error e); [now apply IH|exact E].
  Qed.
  Lemma scan_loop_inv fuel : forall s id addr hist models, inv s -> inv (fst (fst (scan_loop c lfuel types progress fuel s id addr hist models))).
  Proof.
    induction fuel as [|fuel IH]; intros s id addr hist models HI; [exact HI|]. cbn [scan_loop].
    destruct (id =? END_MODEL_ID); [exact HI|].
    destruct (cl_read (scl_dev c) s (addr + 1) 1) as [s1 [o|e]] eqn:E1; apply cl_read_inv in E1; try exact HI; [|exact E1].
    destruct (two_bytes o) as [d|]; [|exact E1]. destruct (match progress with Some f => negb (f (hist ++ [id])) | None => false end); [exact E1|].
    destruct (data_to_u16 d) as [len|]; [|exact E1]. destruct (model_load lfuel types (new_model id (addr + 2) len)) as [m r].
    assert (HK : forall m1, inv (fst (fst 
      match cl_read (scl_dev c) s1 (addr + (len + 2)) 1 with
      | (s2, Raise e) => (s2, m1, Raise e)
      | (s2, Ok o2) => match two_bytes o2 with
         | None => (s2, m1, Ok tt)
         | Some d2 => match data_to_u16 d2 with
            | Raise e => (s2, m1, Raise e)
            | Ok id' => scan_loop c lfuel types progress fuel s2 id' (addr + (len + 2)) (hist ++ [id]) m1 end end end))).
    { intros m1. destruct (cl_read (scl_dev c) s1 (addr + (len + 2)) 1) as [s2 [o2|e]] eqn:E2; apply cl_read_inv in E2; try exact E1; [|exact E2].
      destruct (two_bytes o2) as [d2|]; [|exact E2]. destruct (data_to_u16 d2); [now apply IH|exact E2]. }
    destruct r as [u|e]; [apply HK|]. destruct e; try apply HK; exact E1.
  Qed.
  Lemma scan_body_inv fuel s cd : inv s -> inv (fst (fst (scan_body c lfuel types progress fuel s cd))).
  Proof.
    intros HI. unfold scan_body. destruct (cd_base cd); [exact HI|].
    pose proof (find_base_inv BASE_ADDRS s HI) as HF. destruct (find_base c s BASE_ADDRS) as [s1 [[[a d]|]|e]]; try exact HF.
    destruct (data_to_u16 _); [|exact HF]. cbn [fst] in HF.
    pose proof (scan_loop_inv fuel s1 a0 (a + 2) [] (cd_models cd) HF) as HL.
    destruct (scan_loop c lfuel types progress fuel s1 _ _ _ _) as [[s2 ms] r]. exact HL.
  Qed.
End Inv.
