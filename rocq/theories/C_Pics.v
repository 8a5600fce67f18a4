(** * C_Pics: PICS documents (C53-C56). *)
From Coq Require Import String ZifyBool.
From Verif Require Import Py P_List M_Util M_Float M_Suns M_Point M_Xml M_Mbmap M_Device M_Client M_Scan M_Pics S_Codec S_Device P_IntText P_Device C_Device S_Pics P_Pics P_PicsLoad P_PicsModel P_PicsDevice.

(** ** C53: a device whose models have at most one repeating block survives writing to PICS and loading: the same models in
    the same order, one after the other from 40002 on, every point with a value having the same base value and scale factor,
    every other point none.  (Both settings of single_repeating.) *)
Theorem C53_roundtrip E fuel types single d e a :
  Forall (instance_of E fuel types) (d_models d) -> Forall (fun m => (length (md_blocks m) <= 2)%nat) (d_models d) ->
  device_to_pics E single d = Ok e ->
  exists d', device_from_pics E fuel types (new_device a) e = (d', Ok tt) /\ d_base d' = BInt 40000 /\
    Forall2 restored_model (d_models d) (d_models d') /\ placed 40002 (d_models d').
Proof.
  intros HI HL HE. unfold device_to_pics in HE. apply bind_ok in HE as (es & HE1 & HE). apply Ok_inj in HE. subst e.
  assert (HG : Forall no_gaps (d_models d)).
  { eapply Forall_impl; [|exact HL]. intros m Hm b0 b1 rest b HB Hb. cbv beta in Hm. rewrite HB in Hm. cbn [length] in Hm. destruct rest; [destruct Hb|cbn [length] in Hm; lia]. }
  assert (HS : single = true -> Forall (fun m => Forall (fun b => b_index b <= 1) (md_blocks m)) (d_models d)).
  { intros _. rewrite Forall_forall in *. intros m Hm. apply Forall_nth. intros k b Hk. rewrite (instance_index _ _ _ _ (HI m Hm) k b Hk).
    assert (nth_error (md_blocks m) k <> None) as HN by congruence. apply nth_error_Some in HN. specialize (HL m Hm). cbv beta in HL. lia. }
  destruct (device_elems_roundtrip E fuel types single (d_models d) es [] 40002 HI HG HS HE1) as (ns & N1 & N2 & N3).
  exists (mkDevice (BInt 40000) ns). unfold device_from_pics. cbn [x_tag x_attrs x_children]. rewrite eqb_list_refl. cbn [negb].
  change (x_get PICS_BASE_ADDR (XE PICS_DEVICE [(PICS_VERSION_ATTR, PICS_VERSION)] None None es)) with (@None str). cbv iota.
  cbn [new_device d_models]. change (BASE_ADDR_DEFAULT + 2) with 40002. rewrite N1. split; [reflexivity|]. auto.
Qed.

(** ** C54: with several repeating blocks the same holds if no block lacks a value that the first repeating block has. *)
Theorem C54_roundtrip_partial E fuel types d e a :
  Forall (instance_of E fuel types) (d_models d) -> Forall no_gaps (d_models d) ->
  device_to_pics E false d = Ok e ->
  exists d', device_from_pics E fuel types (new_device a) e = (d', Ok tt) /\ d_base d' = BInt 40000 /\
    Forall2 restored_model (d_models d) (d_models d') /\ placed 40002 (d_models d').
Proof.
  intros HI HG HE. unfold device_to_pics in HE. apply bind_ok in HE as (es & HE1 & HE). apply Ok_inj in HE. subst e.
  destruct (device_elems_roundtrip E fuel types false (d_models d) es [] 40002 HI HG ltac:(discriminate) HE1) as (ns & N1 & N2 & N3).
  exists (mkDevice (BInt 40000) ns). unfold device_from_pics. cbn [x_tag x_attrs x_children]. rewrite eqb_list_refl. cbn [negb].
  change (x_get PICS_BASE_ADDR (XE PICS_DEVICE [(PICS_VERSION_ATTR, PICS_VERSION)] None None es)) with (@None str). cbv iota.
  cbn [new_device d_models]. change (BASE_ADDR_DEFAULT + 2) with 40002. rewrite N1. split; [reflexivity|]. auto.
Qed.

(** Examples: model 100 of C_Device at 50002 (fixed block A, B, A_SF, C; repeating block V, W), filled with values by point id and block
    index *)
Definition ex_env : pyenv := {| float_repr := fun _ => [48]; float_parse := fun _ => None; pow10 := fun z => if z =? -2 then Ok (S754_finite false 5764607523034235 (-59)) else Ok (S754_zero false) |}.
Definition fill_point (f : Z -> str -> value * value) (i : Z) (p : point) : point :=
  mkP (p_type p) (p_addr p) (p_link p) (p_impl p) (fst (f i (p_id p))) (snd (f i (p_id p))) (p_dirty p).
Definition fill_block (f : Z -> str -> value * value) (b : block) : block :=
  with_lists b (map (fill_point f (b_index b)) (b_points b)) (map (fill_point f (b_index b)) (b_sfs b)).
Definition fill (f : Z -> str -> value * value) (m : model) : model := with_blocks m (map (fill_block f) (md_blocks m)).
Definition ex_loaded (len : Z) : model := fst (model_load 10 ex_types (new_model 100 50004 len)).
Definition pick (l : list (Z * string * (value * value))) (i : Z) (id : str) : value * value :=
  match find (fun x => (fst (fst x) =? i) && eqb_list (lit (snd (fst x))) id) l with Some x => snd x | None => (VNone, VNone) end.
(** two repeating blocks; W of block 2 is set, W of block 1 is not *)
Definition ex_vals : list (Z * string * (value * value)) :=
  [(0, "A"%string, (VInt 300, VInt (-2))); (0, "B"%string, (VInt (-100), VInt (-2))); (0, "A_SF"%string, (VInt (-2), VNone)); (0, "C"%string, (VInt 3, VNone));
   (1, "V"%string, (VInt 7, VInt (-2))); (2, "V"%string, (VInt 8, VInt (-2))); (2, "W"%string, (VInt 9, VNone))].
Definition ex_m (l : list (Z * string * (value * value))) : model := fill (pick l) (ex_loaded 12).
Definition ex_unknown : model := mkModel 64001 (BInt 2) None 60000 8 false [] [60000] (Some ESunSpec).
Lemma ex_instance l :
  Forall (has_values ex_env (fixed_sfs (md_blocks (ex_m l)))) (md_blocks (ex_m l)) -> instance_of ex_env 10 ex_types (ex_m l).
Proof.
  intros HV. apply (known _ _ _ _ 50004 12 (ex_loaded 12) ex_mt); [reflexivity| |vm_compute; reflexivity|vm_compute; reflexivity| |exact HV].
  - split; [reflexivity|]. split; [cbn; repeat constructor; cbn; intuition discriminate|]. intros r Hr. apply Some_inj in Hr. subst r. split; [reflexivity|]. cbn. repeat constructor; cbn; intuition discriminate.
  - unfold ex_m, fill. cbn [with_blocks md_blocks]. assert (HG : forall l0, Forall2 same_block l0 (map (fill_block (pick l)) l0)); [|apply HG].
    induction l0 as [|b l0 IH]; cbn [map]; constructor; [|exact IH]. unfold same_block, fill_block. cbn [with_lists b_type b_len b_index b_points b_sfs].
    do 3 (split; [reflexivity|]). split; [induction (b_points b)|induction (b_sfs b)]; cbn [map]; constructor; auto; split; reflexivity.
Qed.

Ltac values := cbn; repeat first [apply Forall_cons | apply Forall_nil | split];
  try (cbn; first [reflexivity | exact I | intros _; reflexivity | congruence | left; reflexivity | right; reflexivity | discriminate]).
Lemma ex_m_instance : instance_of ex_env 10 ex_types (ex_m ex_vals).
Proof. apply ex_instance. vm_compute. values. Qed.
Lemma ex_unknown_instance : instance_of ex_env 10 ex_types ex_unknown.
Proof. apply (unknown _ _ _ _ ESunSpec); [reflexivity|discriminate|reflexivity]. Qed.
Definition point_values (m : model) : list (Z * str * value * value) :=
  flat_map (fun b => map (fun p => (b_index b, p_id p, p_base p, p_sf p)) (all_points b)) (md_blocks m).

(** one repeating block, and a model of unknown type *)
Definition ex_one : model := fill (pick ex_vals) (ex_loaded 9).
Example C53_case : exists e d', Forall (instance_of ex_env 10 ex_types) [ex_one; ex_unknown] /\ Forall (fun m => (length (md_blocks m) <= 2)%nat) [ex_one; ex_unknown] /\
  device_to_pics ex_env true (mkDevice (BInt 50000) [ex_one; ex_unknown]) = Ok e /\ device_from_pics ex_env 10 ex_types (new_device 0) e = (d', Ok tt) /\
  map (fun m => (md_id m, md_len m, md_addr m)) (d_models d') = [(100, 9, 40004); (64001, 8, 40015)] /\
  flat_map point_values (d_models d') = [(0, lit "A", VInt 300, VInt (-2)); (0, lit "B", VInt (-100), VInt (-2)); (0, lit "C", VInt 3, VNone);
    (0, lit "A_SF", VInt (-2), VNone); (1, lit "V", VInt 7, VInt (-2)); (1, lit "W", VNone, VNone)]%string.
Proof.
  do 2 eexists. split; [|split; [|split; [|split; [|split]]]]; [| |vm_compute; reflexivity|vm_compute; reflexivity|vm_compute; reflexivity|vm_compute; reflexivity].
  - constructor; [|constructor; [exact ex_unknown_instance|constructor]].
    apply (known _ _ _ _ 50004 9 (ex_loaded 9) ex_mt); [reflexivity| |vm_compute; reflexivity|vm_compute; reflexivity| |vm_compute; values].
    + split; [reflexivity|]. split; [cbn; repeat constructor; cbn; intuition discriminate|]. intros r Hr. apply Some_inj in Hr. subst r. split; [reflexivity|]. cbn. repeat constructor; cbn; intuition discriminate.
    + unfold ex_one, fill. cbn [with_blocks md_blocks]. assert (HG : forall l0, Forall2 same_block l0 (map (fill_block (pick ex_vals)) l0)); [|apply HG].
      induction l0 as [|b l0 IH]; cbn [map]; constructor; [|exact IH]. unfold same_block, fill_block. cbn [with_lists b_type b_len b_index b_points b_sfs].
      do 3 (split; [reflexivity|]). split; [induction (b_points b)|induction (b_sfs b)]; cbn [map]; constructor; auto; split; reflexivity.
  - repeat constructor.
Qed.
Example C54_case : exists e d', Forall (instance_of ex_env 10 ex_types) [ex_m ex_vals] /\ Forall no_gaps [ex_m ex_vals] /\
  device_to_pics ex_env false (mkDevice (BInt 50000) [ex_m ex_vals]) = Ok e /\ device_from_pics ex_env 10 ex_types (new_device 0) e = (d', Ok tt) /\
  flat_map point_values (d_models d') = [(0, lit "A", VInt 300, VInt (-2)); (0, lit "B", VInt (-100), VInt (-2)); (0, lit "C", VInt 3, VNone);
    (0, lit "A_SF", VInt (-2), VNone); (1, lit "V", VInt 7, VInt (-2)); (1, lit "W", VNone, VNone); (2, lit "V", VInt 8, VInt (-2)); (2, lit "W", VInt 9, VNone)]%string.
Proof.
  do 2 eexists. split; [|split; [|split; [|split]]]; [constructor; [exact ex_m_instance|constructor]| |vm_compute; reflexivity|vm_compute; reflexivity|vm_compute; reflexivity].
  constructor; [|constructor]. intros b0 b1 rest b HB. vm_compute in HB. assert (HB' := f_equal (@tl block) HB). cbn [tl] in HB'.
  assert (b1 :: rest = b1 :: rest) as _ by reflexivity. assert (HB1 := f_equal (@hd_error block) HB'). assert (HB2 := f_equal (@tl block) HB'). cbn [hd_error tl] in HB1, HB2.
  apply Some_inj in HB1. subst rest b1. intros [<-|[]]. cbn. repeat constructor; cbn; congruence.
Qed.

(** REFUTED in general: a value that the first repeating block has and a later one has not reappears in the later one. *)
Definition gap_vals : list (Z * string * (value * value)) :=
  [(0, "A_SF"%string, (VInt (-2), VNone)); (1, "V"%string, (VInt 7, VInt (-2))); (1, "W"%string, (VInt 5, VNone)); (2, "V"%string, (VInt 8, VInt (-2)))].
Theorem C54_stale_value_refuted : exists E fuel types m e d', instance_of E fuel types m /\
  device_to_pics E false (mkDevice (BInt 40000) [m]) = Ok e /\ device_from_pics E fuel types (new_device 0) e = (d', Ok tt) /\
  In (2, lit "W"%string, VNone, VNone) (point_values m) /\
  exists n, d_models d' = [n] /\ In (2, lit "W"%string, VInt 5, VNone) (point_values n).
Proof.
  exists ex_env, 10%nat, ex_types, (ex_m gap_vals). do 2 eexists. split; [apply ex_instance; vm_compute; values|]. split; [vm_compute; reflexivity|]. split; [vm_compute; reflexivity|]. split.
  - vm_compute. tauto.
  - eexists. split; [reflexivity|]. vm_compute. tauto.
Qed.
(** REFUTED too: after loading, reading the value of an unimplemented point with a (non-zero) scale factor raises a
    TypeError, and so does writing the device again. *)
Theorem C54_unimplemented_value_refuted : exists E fuel types m e d' e0 n p, instance_of E fuel types m /\
  device_to_pics E false (mkDevice (BInt 40000) [m]) = Ok e /\ device_from_pics E fuel types (new_device 0) e = (d', Ok tt) /\
  d_models d' = [n] /\ In p (flat_map b_points (md_blocks n)) /\ p_base p = VNone /\ value_getter E (p_base p) (p_sf p) = Raise e0 /\ e0 = EType /\
  device_to_pics E false d' = Raise EType.
Proof.
  exists ex_env, 10%nat, ex_types, (ex_m gap_vals). do 5 eexists. split; [apply ex_instance; vm_compute; values|]. split; [vm_compute; reflexivity|]. split; [vm_compute; reflexivity|].
  split; [reflexivity|]. split; [left; reflexivity|]. split; [reflexivity|]. split; [vm_compute; reflexivity|]. split; [reflexivity|]. vm_compute. reflexivity.
Qed.

(** ** C55: indices of repeating blocks in PICS documents *)
(** the element of a repeating block with index [i] *)
Definition repeating_elem (e : xml) (i : Z) : Prop :=
  x_tag e = lit "block"%string /\ x_get (lit "type"%string) e = Some (lit "repeating"%string) /\
  exists s, x_get (lit "index"%string) e = Some s /\ int_of_str s = Ok i.
(** too large: an exception and nothing changes *)
Theorem C55_too_large_partial E l e i : repeating_elem e i -> zlen l <= i ->
  model_elem E l e = (l, Raise (if i =? zlen l then EIndex else ESunSpec)).
Proof.
  intros (H1 & H2 & s & H3 & H4) HI. unfold model_elem. rewrite H1. change (lit "block"%string) with PICS_BLOCK. rewrite eqb_list_refl. cbn [negb].
  change (lit "type"%string) with PICS_TYPE in H2. change (lit "index"%string) with PICS_INDEX in H3. rewrite H2. cbv iota.
  change (pics_block_type (lit "repeating"%string)) with (Some Repeating). cbv iota. rewrite H3, H4.
  destruct (Z.eqb_spec i (zlen l)) as [->|HN].
  - rewrite Z.ltb_irrefl. unfold py_pos. replace (zlen l <? 0) with false by (unfold zlen; lia). rewrite Z.ltb_irrefl. reflexivity.
  - replace (zlen l <? i) with true by lia. reflexivity.
Qed.
(** ... and then the whole document is rejected, wherever the element stands in the model *)
Lemma upd_block_length E l i e : length (fst (upd_block E l i e)) = length l.
Proof.
  unfold upd_block. destruct (nth_error l i) as [b|] eqn:EN; [|reflexivity]. destruct (block_from_pics E _ b e) as [b' r]. cbn [fst].
  assert (i < length l)%nat by (apply nth_error_Some; congruence). rewrite app_length. cbn [length]. rewrite firstn_length, skipn_length. lia.
Qed.
Lemma upd_all_length E e : forall n l i, length (fst (upd_all E l i n e)) = length l.
Proof.
  induction n as [|n IH]; intros l i; [reflexivity|]. cbn [upd_all]. pose proof (upd_block_length E l i e) as HL. destruct (upd_block E l i e) as [l' [u|x]]; cbn [fst] in *; [now rewrite IH|exact HL].
Qed.
Lemma model_elem_length E l e : length (fst (model_elem E l e)) = length l.
Proof.
  unfold model_elem. destruct (negb _); [reflexivity|]. destruct (pics_block_type _) as [[|]|]; [|destruct (x_get PICS_INDEX e) as [s|]|reflexivity].
  - destruct l; [reflexivity|]. apply upd_block_length.
  - destruct (int_of_str s) as [i|x]; [|reflexivity]. destruct (zlen l <? i); [reflexivity|]. destruct (py_pos i (zlen l)); [apply upd_block_length|reflexivity].
  - apply upd_all_length.
Qed.
Theorem C55_document_rejected E m e child i : In child (x_children e) -> repeating_elem child i -> zlen (md_blocks m) <= i ->
  exists x, snd (model_from_pics E m e) = Raise x.
Proof.
  intros HI HR HL. unfold model_from_pics. cbn [with_index md_blocks].
  assert (G : forall es l, In child es -> length l = length (md_blocks m) -> exists x, snd (model_elems E l es) = Raise x).
  { induction es as [|c es IH]; intros l HIN HLEN; [contradiction|]. cbn [model_elems]. pose proof (model_elem_length E l c) as HM.
    destruct (model_elem E l c) as [l' [u|x]] eqn:EM; [|eexists; reflexivity]. cbn [fst] in HM. destruct HIN as [->|HIN]; [|apply IH; [exact HIN|congruence]].
    rewrite (C55_too_large_partial E l child i HR) in EM by (unfold zlen in *; lia). apply pair_equal_spec in EM as [_ EM]. discriminate EM. }
  destruct (G (x_children e) (md_blocks m) HI eq_refl) as [x HX]. exists x. destruct (model_elems E (md_blocks m) (x_children e)) as [bs r]. exact HX.
Qed.
Print Assumptions C55_document_rejected.
(** an existing block: only that block changes *)
Theorem C55_existing_partial E l e i l' r : repeating_elem e i -> 1 <= i < zlen l -> model_elem E l e = (l', r) ->
  length l' = length l /\ forall k, Z.of_nat k <> i -> nth_error l' k = nth_error l k.
Proof.
  intros (H1 & H2 & s & H3 & H4) HI. unfold model_elem. rewrite H1. change (lit "block"%string) with PICS_BLOCK. rewrite eqb_list_refl. cbn [negb].
  change (lit "type"%string) with PICS_TYPE in H2. change (lit "index"%string) with PICS_INDEX in H3. rewrite H2. cbv iota.
  change (pics_block_type (lit "repeating"%string)) with (Some Repeating). cbv iota. rewrite H3, H4.
  replace (zlen l <? i) with false by lia. unfold py_pos. replace (i <? 0) with false by lia. replace (i <? zlen l) with true by lia.
  unfold upd_block. destruct (nth_error l (Z.to_nat i)) as [b|] eqn:EN; [|exfalso; apply nth_error_None in EN; unfold zlen in HI; lia].
  destruct (block_from_pics E _ b e) as [b' r']. intros H. apply pair_equal_spec in H as [<- _]. apply nth_error_split in EN as (p & q & -> & HL). rewrite <- HL.
  rewrite firstn_app, firstn_all, Nat.sub_diag. cbn [firstn]. rewrite app_nil_r.
  replace (skipn (S (length p)) (p ++ b :: q)) with q.
  2:{ replace (S (length p)) with (length p + 1)%nat by lia. rewrite skipn_app, skipn_all2 by lia. replace (length p + 1 - length p)%nat with 1%nat by lia. reflexivity. }
  rewrite !app_length. split; [reflexivity|]. intros k Hk. destruct (Nat.lt_ge_cases k (length p)) as [HK|HK].
  - rewrite !nth_error_app1 by lia. reflexivity.
  - rewrite !nth_error_app2 by lia. destruct (k - length p)%nat eqn:EK; [exfalso; lia|reflexivity].
Qed.
(** REFUTED: indices from -n to 0 are accepted as Python indices; 0 stores into the fixed block, -1 into the last block. *)
Definition idx_elem (i : string) : xml :=
  XE PICS_BLOCK [(PICS_TYPE, PICS_REPEATING); (PICS_INDEX, lit i)] None None [XE PICS_POINT [(PICS_ID, lit "C"%string)] (Some (lit "5"%string)) None []; XE PICS_POINT [(PICS_ID, lit "V"%string)] (Some (lit "6"%string)) None []].
Theorem C55_index_refuted : exists E l l0 l1, repeating_elem (idx_elem "0") 0 /\ repeating_elem (idx_elem "-1") (-1) /\
  model_elem E l (idx_elem "0") = (l0, Ok tt) /\ map (fun b => map p_base (b_points b)) l = [[VNone; VNone; VNone]; [VNone; VNone]; [VNone; VNone]] /\
  map (fun b => map p_base (b_points b)) l0 = [[VNone; VNone; VInt 5]; [VNone; VNone]; [VNone; VNone]] /\
  model_elem E l (idx_elem "-1") = (l1, Ok tt) /\
  map (fun b => map p_base (b_points b)) l1 = [[VNone; VNone; VNone]; [VNone; VNone]; [VInt 6; VNone]].
Proof.
  exists ex_env, (md_blocks (ex_loaded 12)). do 2 eexists.
  split; [split; [reflexivity|]; split; [reflexivity|]; eexists; split; vm_compute; reflexivity|].
  split; [split; [reflexivity|]; split; [reflexivity|]; eexists; split; vm_compute; reflexivity|].
  split; [vm_compute; reflexivity|]. split; [vm_compute; reflexivity|]. split; [vm_compute; reflexivity|]. split; vm_compute; reflexivity.
Qed.
(** In general: a negative index down to -n is taken like the index counted from the other end; below it is refused. *)
Theorem C55_negative_refuted E l e i : repeating_elem e i -> - zlen l <= i < 0 ->
  forall e', repeating_elem e' (zlen l + i) -> x_children e' = x_children e -> model_elem E l e = model_elem E l e'.
Proof.
  intros (H1 & H2 & s & H3 & H4) HI e' (H1' & H2' & s' & H3' & H4') HC. unfold model_elem. rewrite H1, H1'.
  change (lit "block"%string) with PICS_BLOCK. rewrite eqb_list_refl. cbn [negb].
  change (lit "type"%string) with PICS_TYPE in H2, H2'. change (lit "index"%string) with PICS_INDEX in H3, H3'. rewrite H2, H2'. cbv iota.
  change (pics_block_type (lit "repeating"%string)) with (Some Repeating). cbv iota. rewrite H3, H4, H3', H4'.
  replace (zlen l <? i) with false by (unfold zlen in *; lia). replace (zlen l <? zlen l + i) with false by lia.
  unfold py_pos. replace (i <? 0) with true by lia. replace (zlen l + i <? 0) with false by lia.
  replace (0 <=? i + zlen l) with true by lia. replace (zlen l + i <? zlen l) with true by lia. rewrite (Z.add_comm (zlen l) i).
  unfold upd_block, block_from_pics. rewrite HC. reflexivity.
Qed.
Theorem C55_too_negative_partial E l e i : repeating_elem e i -> i < - zlen l -> model_elem E l e = (l, Raise EIndex).
Proof.
  intros (H1 & H2 & s & H3 & H4) HI. unfold model_elem. rewrite H1. change (lit "block"%string) with PICS_BLOCK. rewrite eqb_list_refl. cbn [negb].
  change (lit "type"%string) with PICS_TYPE in H2. change (lit "index"%string) with PICS_INDEX in H3. rewrite H2. cbv iota.
  change (pics_block_type (lit "repeating"%string)) with (Some Repeating). cbv iota. rewrite H3, H4.
  replace (zlen l <? i) with false by (unfold zlen in *; lia). unfold py_pos. replace (i <? 0) with true by (unfold zlen in *; lia).
  replace (0 <=? i + zlen l) with false by lia. reflexivity.
Qed.
Example C55_negative_case : repeating_elem (idx_elem "-3") (-3) /\ - zlen (md_blocks (ex_loaded 12)) <= -3 < 0 /\
  repeating_elem (idx_elem "0") (zlen (md_blocks (ex_loaded 12)) + -3) /\ x_children (idx_elem "0") = x_children (idx_elem "-3") /\
  repeating_elem (idx_elem "-4") (-4) /\ -4 < - zlen (md_blocks (ex_loaded 12)).
Proof.
  assert (HZ : zlen (md_blocks (ex_loaded 12)) = 3) by (vm_compute; reflexivity). rewrite HZ.
  split; [split; [reflexivity|]; split; [reflexivity|]; eexists; split; vm_compute; reflexivity|]. split; [lia|].
  split; [split; [reflexivity|]; split; [reflexivity|]; eexists; split; vm_compute; reflexivity|]. split; [reflexivity|].
  split; [split; [reflexivity|]; split; [reflexivity|]; eexists; split; vm_compute; reflexivity|]. lia.
Qed.
Print Assumptions C55_negative_refuted.
Print Assumptions C55_too_negative_partial.
Example C55_too_large_case : repeating_elem (idx_elem "3") 3 /\ zlen (md_blocks (ex_loaded 12)) <= 3 /\ repeating_elem (idx_elem "2") 2 /\ 1 <= 2 < zlen (md_blocks (ex_loaded 12)).
Proof.
  split; [split; [reflexivity|]; split; [reflexivity|]; eexists; split; vm_compute; reflexivity|]. split; [vm_compute; discriminate|].
  split; [split; [reflexivity|]; split; [reflexivity|]; eexists; split; vm_compute; reflexivity|]. vm_compute. split; congruence.
Qed.
(** Device.from_pics raises no other exception than SunSpecError, whatever the document *)
Theorem C55_device_errors E fuel types d root : match snd (device_from_doc E fuel types d root) with Ok _ => True | Raise x => x = ESunSpec \/ x = EFuel end.
Proof.
  unfold device_from_doc. destruct (negb (eqb_list (x_tag root) PICS_ROOT)); [left; reflexivity|]. destruct (xfind PICS_DEVICE root) as [e|]; [|left; reflexivity].
  unfold device_from_pics. destruct (negb (eqb_list (x_tag e) PICS_DEVICE)); [left; reflexivity|]. destruct (x_get PICS_BASE_ADDR e); [left; reflexivity|].
  destruct (device_elems E fuel types (d_models d) (BASE_ADDR_DEFAULT + 2) (x_children e)) as [l [[]|x]]; [exact I|]. cbn [snd]. destruct x; cbn; auto.
Qed.

(** ** C56: the base address *)
(** REFUTED for every address: a device element with the attribute never loads. *)
Theorem C56_addr_refuted E fuel types d e s : x_tag e = lit "device"%string -> x_get (lit "addr"%string) e = Some s ->
  snd (device_from_pics E fuel types d e) = Raise ESunSpec /\ d_models (fst (device_from_pics E fuel types d e)) = d_models d.
Proof.
  intros H1 H2. unfold device_from_pics. rewrite H1. change (lit "device"%string) with PICS_DEVICE. rewrite eqb_list_refl. cbn [negb].
  change (lit "addr"%string) with PICS_BASE_ADDR in H2. rewrite H2. split; reflexivity.
Qed.
(** without it the base address is 40000, and models follow each other in document order from there *)
Theorem C56_default_partial E fuel types e d' a : x_tag e = lit "device"%string -> x_get (lit "addr"%string) e = None ->
  device_from_pics E fuel types (new_device a) e = (d', Ok tt) -> d_base d' = BInt 40000 /\ placed 40002 (d_models d').
Proof.
  intros H1 H2. unfold device_from_pics. rewrite H1. change (lit "device"%string) with PICS_DEVICE. rewrite eqb_list_refl. cbn [negb].
  change (lit "addr"%string) with PICS_BASE_ADDR in H2. rewrite H2. cbn [new_device d_models].
  assert (HG : forall es l addr l', device_elems E fuel types l addr es = (l', Ok tt) -> exists ns, l' = l ++ ns /\ placed addr ns).
  { clear. induction es as [|e es IH]; intros l addr l' H; cbn [device_elems] in H.
    - apply pair_equal_spec in H as [<- _]. exists []. rewrite app_nil_r. split; [reflexivity|exact I].
    - destruct (device_elem E fuel types l addr e) as [l1 [addr1|x]] eqn:ED; [|discriminate].
      apply IH in H as (ns & -> & HP).
      assert (exists n, l1 = l ++ [n] /\ addr1 = addr + (md_len n + 2) /\ md_addr n = addr + 2) as (n & -> & -> & HA).
      { clear -ED. unfold device_elem in ED. destruct (negb (eqb_list (x_tag e) PICS_MODEL)); [discriminate|]. destruct (x_get PICS_ID e); [|discriminate]. destruct (x_get PICS_LEN e); [|discriminate].
        destruct (int_of_str s0) as [len|]; [|discriminate]. destruct (int_of_str s) as [id|]; [|discriminate].
        destruct (model_load fuel types (new_model id (addr + 2) len)) as [m0 r] eqn:EL. apply model_load_addr in EL as (EL & _ & _). cbn [new_model md_addr] in EL.
        destruct r as [u|x].
        - unfold model_from_pics in ED. cbn [with_index md_blocks] in ED. destruct (model_elems E (md_blocks m0) (x_children e)) as [bs [[]|x]]; [|discriminate].
          cbn [with_blocks with_index md_type md_len] in ED. destruct (md_type m0) as [t|]; [destruct ((len =? 0) && _); [discriminate|]|];
            apply pair_equal_spec in ED as [<- ED]; apply Ok_inj in ED; subst addr1; eexists; (split; [reflexivity|]); split; [reflexivity|exact EL|reflexivity|exact EL].
        - destruct x; try discriminate ED; unfold model_from_pics in ED; cbn [with_error with_index md_blocks] in ED; destruct (model_elems E (md_blocks m0) (x_children e)) as [bs [[]|x]]; try discriminate;
          cbn [with_blocks with_index with_error md_type md_len] in ED; (destruct (md_type m0) as [t|]; [destruct ((len =? 0) && _); [discriminate|]|]);
            apply pair_equal_spec in ED as [<- ED]; apply Ok_inj in ED; subst addr1; eexists; (split; [reflexivity|]); (split; [reflexivity|exact EL]). }
      exists (n :: ns). rewrite <- app_assoc. split; [reflexivity|]. cbn [placed]. split; [exact HA|]. replace (addr + 2 + md_len n) with (addr + (md_len n + 2)) by lia. exact HP. }
  destruct (device_elems E fuel types [] (BASE_ADDR_DEFAULT + 2) (x_children e)) as [l [[]|x]] eqn:ED; intros H; [|apply pair_equal_spec in H as [_ H]; discriminate].
  apply pair_equal_spec in H as [<- _]. apply HG in ED as (ns & -> & HP). split; [reflexivity|exact HP].
Qed.
Example C56_case : exists e d', device_to_pics ex_env false (mkDevice (BInt 50000) [ex_m ex_vals; ex_unknown]) = Ok e /\ x_get (lit "addr"%string) e = None /\
  device_from_pics ex_env 10 ex_types (new_device 0) e = (d', Ok tt) /\ map md_addr (d_models d') = [40004; 40018].
Proof. do 2 eexists. split; [vm_compute; reflexivity|]. split; [reflexivity|]. split; vm_compute; reflexivity. Qed.

Print Assumptions C53_roundtrip.
Print Assumptions C54_roundtrip_partial.
Print Assumptions C54_stale_value_refuted.
Print Assumptions C54_unimplemented_value_refuted.
Print Assumptions C55_too_large_partial.
Print Assumptions C55_existing_partial.
Print Assumptions C55_index_refuted.
Print Assumptions C55_device_errors.
Print Assumptions C56_addr_refuted.
Print Assumptions C56_default_partial.
