(** * P_Scan: proofs about M_Scan. *)
From Coq Require Import ZifyBool String.
From Verif Require Import Py P_List M_Util P_Codec M_Mbmap M_Device M_Client S_Client P_Client M_Scan S_Scan.

Lemma model_load_keeps fuel types m : md_id (fst (model_load fuel types m)) = md_id m /\
  md_addr (fst (model_load fuel types m)) = md_addr m /\ (md_len m <> 0 -> md_len (fst (model_load fuel types m)) = md_len m).
Proof.
  unfold model_load. destruct (types (md_id m)) as [mt|]; [|auto].
  destruct (Z.eqb_spec (md_len m) 0) as [E|E].
  - destruct (mt_len mt); [|auto]. destruct (base_int _); [|cbn; tauto].
    destruct (load_loop _ _ _ _ _ _ _ _ _ _) as [[? ?] ?]. cbn. tauto.
  - destruct (base_int _); [|auto]. destruct (load_loop _ _ _ _ _ _ _ _ _ _) as [[? ?] ?]. cbn. auto.
Qed.
Lemma model_load_no_error fuel types m : md_error (fst (model_load fuel types m)) = md_error m.
Proof.
  unfold model_load. destruct (types (md_id m)) as [mt|]; [|auto].
  destruct (if md_len m =? 0 then mt_len mt else Some (md_len m)); [|auto]. destruct (base_int _); [|auto].
  destruct (load_loop _ _ _ _ _ _ _ _ _ _) as [[? ?] ?]. reflexivity.
Qed.

Lemma mem_bytes_reg mem a : mem_bytes mem a 1 = [mem (2 * a); mem (2 * a + 1)].
Proof. unfold mem_bytes, zseq. change (Z.to_nat (2 * 1)) with 2%nat. cbn [seq map]. rewrite Z.add_0_r. reflexivity. Qed.
Lemma u16_pair x y : data_to_u16 [x; y] = Ok (256 * x + y).
Proof. change (data_to_u16 [x; y]) with (@Ok Z (be_int [x; y])). f_equal. unfold be_int. cbn [fold_left]. lia. Qed.
Lemma reg_range mem a : byte_memory mem -> 0 <= reg mem a <= 65535.
Proof. intros H. pose proof (H (2 * a)). pose proof (H (2 * a + 1)). unfold reg, is_byte in *. lia. Qed.

Lemma chain_le mem a l e : byte_memory mem -> model_chain mem a l e -> a <= e.
Proof. intros HB H. induction H; [lia|]. pose proof (reg_range mem (a + 1) HB). lia. Qed.

Section Chain.
  Context {D : Type} (c : sclient D) (lfuel : nat) (types : Z -> res modeltype) (progress : option (list Z -> bool)).
  Variables (rel : D -> memory -> Prop) (lo hi wmax : Z).
  Hypothesis HI : implements (scl_dev c) rel lo hi wmax.
  Hypothesis HLE : loads_end lfuel types.
  Hypothesis HP : forall f h, progress = Some f -> f h = true.

  Lemma cl_read_impl s mem a n : rel s mem -> lo <= a -> 0 <= n -> a + n <= hi ->
    exists s', cl_read (scl_dev c) s a n = (s', Ok (Some (mem_bytes mem a n))) /\ rel s' mem.
  Proof.
    intros H1 H2 H3 H4. destruct (impl_read _ _ _ _ _ HI s mem a n H1 H2 H3 H4) as (s' & E & R).
    exists s'. unfold cl_read. rewrite E. auto.
  Qed.
  Lemma scan_loop_chain mem a l e : byte_memory mem -> model_chain mem a l e -> lo <= a -> e < hi ->
    forall fuel s hist models, (length l < fuel)%nat -> rel s mem ->
    exists s' ms, scan_loop c lfuel types progress fuel s (reg mem a) a hist models = (s', models ++ ms, Ok tt) /\
      Forall2 (model_for lfuel types) l ms /\ rel s' mem.
  Proof.
    intros HB HC HLO HHI. induction HC as [a E|a l e N HC IH]; intros fuel s hist models HF HR.
    - destruct fuel as [|fuel]; [cbn in HF; lia|]. exists s, []. cbn [scan_loop]. rewrite E, app_nil_r.
      split; [reflexivity|]. split; [constructor|exact HR].
    - destruct fuel as [|fuel]; [cbn in HF; lia|]. cbn [List.length] in HF. cbn [scan_loop].
      destruct (Z.eqb_spec (reg mem a) END_MODEL_ID) as [EE|_]; [contradiction|].
      pose proof (chain_le _ _ _ _ HB HC) as HE. pose proof (reg_range mem (a + 1) HB) as HL.
      destruct (cl_read_impl s mem (a + 1) 1 HR ltac:(lia) ltac:(lia) ltac:(lia)) as (s1 & -> & HR1).
      rewrite mem_bytes_reg. cbn [two_bytes].
      replace (match progress with Some f => negb (f (hist ++ [reg mem a])) | None => false end) with false.
      2:{ destruct progress as [f|] eqn:EP; [|reflexivity]. now rewrite (HP f). }
      rewrite u16_pair. fold (reg mem (a + 1)).
      set (len := reg mem (a + 1)) in *. set (id := reg mem a) in *.
      pose proof (proj2 HLE id (a + 2) len HL) as HNF. pose proof (model_load_keeps lfuel types (new_model id (a + 2) len)) as HK.
      destruct (model_load lfuel types (new_model id (a + 2) len)) as [m r] eqn:EM. cbn [snd fst] in HNF, HK.
      set (m1 := match r with Ok _ => m | Raise e0 => with_error m e0 end).
      assert (HM : model_for lfuel types (id, a + 2, len) m1).
      { unfold model_for. rewrite EM. destruct HK as (K1 & K2 & K3). cbn [md_id md_addr md_len new_model] in K1, K2, K3.
        unfold m1. destruct r; cbn [with_error md_id md_addr md_len md_error md_blocks md_type]; auto 10. }
      destruct (cl_read_impl s1 mem (a + (len + 2)) 1 HR1 ltac:(lia) ltac:(lia) ltac:(lia)) as (s2 & E2 & HR2).
      rewrite mem_bytes_reg in E2.
      destruct (IH ltac:(lia) HHI fuel s2 (hist ++ [id]) (models ++ [m1]) ltac:(lia) HR2) as (s' & ms & E3 & F3 & R3).
      exists s', (m1 :: ms). split; [|split; [constructor; assumption|exact R3]].
      assert (EA : a + (len + 2) = a + 2 + len) by lia. rewrite EA in E2.
      assert (EU : data_to_u16 [mem (2 * (a + 2 + len)); mem (2 * (a + 2 + len) + 1)] = Ok (reg mem (a + 2 + len))) by apply u16_pair.
      destruct r as [u|x].
      + rewrite EA, E2. cbn [two_bytes]. rewrite EU. unfold m1 in E3. etransitivity; [exact E3|]. now rewrite <- app_assoc.
      + destruct x; try (rewrite EA, E2; cbn [two_bytes]; rewrite EU; unfold m1 in E3; etransitivity; [exact E3|]; now rewrite <- app_assoc).
        congruence.
  Qed.
End Chain.

Lemma suns_eq d : eqb_list (py_slice 0 4 d) SUNS = true <-> ztake 4 d = [83; 117; 110; 83].
Proof.
  rewrite eqb_list_eq. change SUNS with [83; 117; 110; 83]. unfold py_slice, py_bound, slice. cbn [Z.ltb Z.compare].
  rewrite (Z.min_l 0 (zlen d)) by apply zlen_nonneg. rewrite Z.sub_0_r.
  change (zdrop 0 d) with d.
  replace (ztake (Z.min 4 (zlen d)) d) with (ztake 4 d); [reflexivity|].
  destruct (Z.min_spec 4 (zlen d)) as [[? ->]|[? ->]]; [reflexivity|]. now rewrite !ztake_all by lia.
Qed.
Lemma wrap_client e : is_sunspec_client_error (wrap_modbus e) = is_modbus_client_error e || is_sunspec_client_error e.
Proof. unfold wrap_modbus. destruct (is_modbus_client_error e); [reflexivity|]. reflexivity. Qed.

Lemma find_base_missed {D} (c : sclient D) s l s1 r : all_missed (scl_dev c) s l s1 -> find_base c s (l ++ r) = find_base c s1 r.
Proof.
  intros H. induction H as [s|s a s1 l s2 HM HA IH]; [reflexivity|]. rewrite <- app_comm_cons. cbn [find_base]. unfold cl_read.
  destruct HM as [(e & -> & E)|(d & -> & E)].
  - rewrite wrap_client. destruct E as [-> | ->]; exact IH.
  - destruct (eqb_list (py_slice 0 4 d) SUNS) eqn:ES; [apply suns_eq in ES; contradiction|exact IH].
Qed.
Lemma find_base_hit {D} (c : sclient D) s a s1 d r : dv_read (scl_dev c) s a 3 = (s1, Ok (Some d)) ->
  ztake 4 d = [83; 117; 110; 83] -> find_base c s (a :: r) = (s1, Ok (Some (a, d))).
Proof.
  intros E1 E2. cbn [find_base]. unfold cl_read. rewrite E1. apply suns_eq in E2. now rewrite E2.
Qed.
Lemma mem_bytes_len mem a n : 0 <= n -> zlen (mem_bytes mem a n) = 2 * n.
Proof. intros. unfold mem_bytes, zseq, zlen. rewrite !map_length, seq_length. lia. Qed.
Lemma mem_bytes_3 mem a : mem_bytes mem a 3 = mem_bytes mem a 2 ++ mem_bytes mem (a + 2) 1.
Proof.
  unfold mem_bytes, zseq. change (Z.to_nat (2 * 3)) with 6%nat. change (Z.to_nat (2 * 2)) with 4%nat. change (Z.to_nat (2 * 1)) with 2%nat.
  cbn [seq map app Z.of_nat Pos.of_succ_nat Pos.succ]. replace (2 * (a + 2) + 0) with (2 * a + 4) by lia. replace (2 * (a + 2) + 1) with (2 * a + 5) by lia. reflexivity.
Qed.

Lemma scan_map {D} (c : sclient D) lfuel types progress rel lo hi wmax mem b l e pre post :
  implements (scl_dev c) rel lo hi wmax -> loads_end lfuel types -> (forall f h, progress = Some f -> f h = true) ->
  byte_memory mem -> sunspec_map mem b l e -> BASE_ADDRS = pre ++ b :: post -> lo <= b -> e < hi ->
  forall fuel s s0 s1 cd, (length l < fuel)%nat -> cd_base cd = None -> opens c s s0 -> all_missed (scl_dev c) s0 pre s1 -> rel s1 mem ->
  exists s2 s' ms, scan c lfuel types progress fuel s cd = (s', mkCD (Some b) (cd_models cd ++ ms), Ok tt) /\
    Forall2 (model_for lfuel types) l ms /\ rel s2 mem /\ closes c s2 s'.
Proof.
  intros HI HLE HP HB (HS & HC) EB HLO HHI fuel s s0 s1 cd HF HN HO HM HR.
  pose proof (chain_le _ _ _ _ HB HC) as HE.
  destruct (impl_read _ _ _ _ _ HI s1 mem b 3 HR HLO ltac:(lia) ltac:(lia)) as (s2 & E2 & R2).
  assert (ET : ztake 4 (mem_bytes mem b 3) = [83; 117; 110; 83]).
  { rewrite mem_bytes_3, HS. reflexivity. }
  destruct (scan_loop_chain c lfuel types progress rel lo hi wmax HI HLE HP mem (b + 2) l e HB HC ltac:(lia) HHI fuel s2 [] (cd_models cd) HF R2) as (s3 & ms & E3 & F3 & R3).
  assert (EBODY : scan_body c lfuel types progress fuel s0 cd = (s3, mkCD (Some b) (cd_models cd ++ ms), Ok tt)).
  { unfold scan_body. rewrite HN, EB. rewrite (find_base_missed c s0 pre s1) by exact HM.
    rewrite (find_base_hit c s1 b s2 _ post E2 ET).
    replace (py_slice 4 6 (mem_bytes mem b 3)) with (mem_bytes mem (b + 2) 1).
    2:{ rewrite mem_bytes_3, HS, mem_bytes_reg. reflexivity. }
    rewrite mem_bytes_reg, u16_pair. fold (reg mem (b + 2)). rewrite E3. reflexivity. }
  unfold scan, opens, closes in *. destruct (scl_connect c) as [[conn disc]|].
  - rewrite HO, EBODY. exists s3, (disc s3), ms. auto.
  - subst s0. exists s3, s3, ms. auto.
Qed.
