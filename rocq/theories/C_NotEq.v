(** * C_NotEq: comparing devices and type definitions (C57, C58). *)
From Coq Require Import String QArith Qpower.
From Verif Require Import Py P_List M_Util M_Float M_Suns P_IntText M_Xml M_Mbmap M_Device M_Client M_Pics M_Smdx M_NotEq S_Device S_Pics S_NotEq C_Device P_Smdx P_Pics P_PicsModel P_NotEq.
From Verif Require S_Smdx C_Smdx C_Pics.
Open Scope Z_scope.

(** ** Which devices the theorems are about *)
(** Loaded definitions have the kinds of blocks and distinct point ids they need. *)
Theorem C57_definitions oid root t : model_from_smdx oid root = Ok t -> block_types_ok t.
Proof.
  intros H. destruct (model_from_smdx_sound _ _ _ H) as (_ & [(_ & _ & _ & _ & HF & HR)|(m & _ & _ & id & _ & _ & _ & _ & bs & _ & HF & HR)]).
  - unfold block_types_ok. rewrite HF, HR. split; [reflexivity|]. split; [constructor|discriminate].
  - assert (HK : forall k bs e, S_Smdx.of_kind k bs [e] -> S_Smdx.block_kind e k).
    { clear. intros k bs e HK. remember [e] as r eqn:ER. induction HK as [|e' l r H HK IH|e' l r H HK IH]; try discriminate; [|auto]. now injection ER as -> ->. }
    assert (HU : forall e k k', S_Smdx.block_kind e k -> S_Smdx.block_kind e k' -> k = k').
    { clear. unfold S_Smdx.block_kind, S_Smdx.attr_or, S_Smdx.attr, S_Smdx.no_attr. intros e k k' [H|[H H0]] [K|[K K0]]; try congruence.
      - rewrite H in K. destruct k, k'; try reflexivity; vm_compute in K; discriminate.
      - rewrite <- K0 in H0. destruct k, k'; try reflexivity; vm_compute in H0; discriminate. }
    assert (HB : forall k b, S_Smdx.one_block k bs (Some b) -> bt_type b = k /\ NoDup (map pt_id (bt_points b))).
    { intros k b [[_ X]|(e & b' & X1 & X2 & X3)]; [discriminate|]. apply Some_inj in X2. subst b'. pose proof X3 as (K & _ & _ & ps & _ & _ & N). split; [|exact N].
      eapply HU; [exact K|]. eapply HK. exact X1. }
    unfold block_types_ok. destruct HF as [HF|[_ HF]].
    + destruct (HB _ _ HF) as [F1 F2]. split; [exact F1|]. split; [exact F2|]. intros r E. rewrite E in HR. exact (HB _ _ HR).
    + rewrite HF. split; [reflexivity|]. split; [constructor|]. intros r E. rewrite E in HR. exact (HB _ _ HR).
Qed.
(** A loaded model, whatever values are then set in its blocks, is as the theorems need it. *)
Theorem C57_loaded fuel types id a len m0 m t : types id = Ok t -> block_types_ok t ->
  model_load fuel types (new_model id a len) = (m0, Ok tt) ->
  md_type m = md_type m0 -> Forall2 same_block (md_blocks m0) (md_blocks m) -> typed t m.
Proof.
  intros HT HK H HM HS. destruct (C40_model_layout _ _ _ _ _ _ H) as (mt & L & F & b & reps & L1 & L2 & _ & _ & _ & _ & _ & L8 & L9 & L10).
  rewrite HT in L1. apply Ok_inj in L1. subst mt. split; [congruence|]. split; [exact HK|].
  assert (HB : Forall (fun b => (b_type b = mt_fixed t \/ mt_rep t = Some (b_type b)) /\ complete b) (md_blocks m0)).
  { destruct HK as (B1 & B2 & B3). rewrite L8. constructor.
    - destruct (block_of_facts _ _ _ _ _ L9 B2) as (C1 & _ & _ & C4). auto.
    - destruct (mt_rep t) as [rt|] eqn:ER; [|destruct L10 as [-> _]; constructor]. destruct L10 as (R & _ & _ & L10). apply Forall_forall. intros c Hc.
      apply In_nth_error in Hc as (k & Hk). destruct (block_of_facts _ _ _ _ _ (L10 _ _ Hk) (proj2 (B3 _ eq_refl))) as (C1 & _ & _ & C4). split; [right; congruence|exact C1]. }
  clear -HB HS. induction HS as [|x y l k S1 _ IH]; constructor; [|apply IH; apply (Forall_inv_tail HB)].
  apply Forall_inv in HB as [H1 H2]. split; [|eapply same_complete; eassumption]. destruct S1 as (-> & _). exact H1.
Qed.

(** ** C57 *)
(** On devices whose models all have their definitions, not_equal always answers, and it answers False exactly when the devices
    have the same number of models and, pairwise, the same types, the same number of blocks and the same values and scale factors
    in all points except scale factor points. *)
Theorem C57_answer_partial a b : loaded_device a -> loaded_device b -> coherent a b ->
  exists d, device_not_equal a b = Ok d /\ (d = false <-> equal_devices a b).
Proof. apply device_ne_spec. Qed.
(** The answer does not depend on which device is asked. *)
Theorem C57_symmetric a b : loaded_device a -> loaded_device b -> coherent a b -> device_not_equal a b = device_not_equal b a.
Proof.
  intros HA HB HC. assert (HC' : coherent b a) by (intros m n t u H1 H2 H3 H4 H5; symmetry; eapply HC; eauto).
  destruct (device_ne_spec a b HA HB HC) as (d & D1 & D2), (device_ne_spec b a HB HA HC') as (d' & D1' & D2'). rewrite D1, D1'. f_equal.
  assert (d = false <-> d' = false) as HX by (rewrite D2, D2'; split; apply equal_devices_sym; assumption). destruct d, d'; try reflexivity; destruct HX as [X Y]; try (specialize (X eq_refl); discriminate); specialize (Y eq_refl); discriminate.
Qed.
(** A device without not-a-number values equals itself. *)
Theorem C57_self_partial a : loaded_device a -> no_nans a -> (forall m n t u, In m a -> In n a -> md_type m = Some t -> md_type n = Some u -> mt_oid t = mt_oid u -> t = u) ->
  device_not_equal a a = Ok false.
Proof.
  intros HA HN HC. destruct (device_ne_spec a a HA HA HC) as (d & D1 & D2). rewrite D1. f_equal. apply D2. apply equal_devices_refl; assumption.
Qed.
(** Any difference between values of points that are not scale factors is found. *)
Theorem C57_value_found a b i j m n c e p q : loaded_device a -> loaded_device b -> coherent a b ->
  nth_error a i = Some m -> nth_error b i = Some n -> nth_error (md_blocks m) j = Some c -> nth_error (md_blocks n) j = Some e ->
  In p (b_points c) -> In q (b_points e) -> p_id p = p_id q -> ~ same_values p q -> device_not_equal a b = Ok true.
Proof.
  intros HA HB HC Hm Hn Hc He Hp Hq Hid HV. destruct (device_ne_spec a b HA HB HC) as (d & D1 & D2). rewrite D1. f_equal. destruct d; [reflexivity|].
  exfalso. apply HV. pose proof (proj1 D2 eq_refl) as HE. clear D1 D2.
  assert (HM : forall {A B} (R : A -> B -> Prop) l k, Forall2 R l k -> forall i x y, nth_error l i = Some x -> nth_error k i = Some y -> R x y).
  { clear. intros A B R l k H. induction H as [|x y l k H _ IH]; intros [|i] u v HX HY; try discriminate; cbn [nth_error] in *; [congruence|eauto]. }
  destruct (HM _ _ _ _ _ HE _ _ _ Hm Hn) as (t & u & _ & _ & _ & HF). destruct (HM _ _ _ _ _ HF _ _ _ Hc He) as [_ HW].
  destruct (HW p Hp) as (q' & Q1 & Q2 & Q3). apply nth_error_In in Hn, He. unfold loaded_device in HB. rewrite Forall_forall in HB. destruct (HB n Hn) as (u' & _ & _ & U3).
  rewrite Forall_forall in U3. destruct (U3 e He) as [_ HK]. assert (q' = q) by (eapply nodup_map_inj; [apply (points_nodup _ HK)|assumption|assumption|congruence]). subst. exact Q3.
Qed.
(** Not so for a device with a value that is not a number: it differs from itself ... *)
Theorem C57_nan_refuted a m b p : loaded_device a -> coherent a a -> In m a -> In b (md_blocks m) -> In p (b_points b) -> is_nan (p_base p) \/ is_nan (p_sf p) ->
  device_not_equal a a = Ok true.
Proof.
  intros HA HC Hm Hb Hp HN. apply In_nth_error in Hm as (i & Hi). pose proof Hb as Hb'. apply In_nth_error in Hb as (j & Hj).
  eapply (C57_value_found a a i j m m b b p p); try eassumption; [reflexivity|]. intros [K1 K2].
  destruct HN as [HN|HN]; [rewrite HN in K1; apply value_ne_spec in K1; discriminate|rewrite HN in K2; apply value_ne_spec in K2; discriminate].
Qed.
(** ... and for a device with a model whose definition is unknown, for which not_equal raises an AttributeError. *)
Theorem C57_unknown_refuted m a b : md_type m = None -> length (m :: a) = length b -> device_not_equal (m :: a) b = Raise EAttr.
Proof.
  intros HT HL. unfold device_not_equal. rewrite HL, Nat.eqb_refl. cbn [negb]. destruct b as [|n b]; [discriminate|]. cbn [combine first_difference fst snd].
  unfold model_not_equal. rewrite HT. reflexivity.
Qed.
(** Different values of scale factor points are not found unless they show in the points they scale. *)
Definition fill_sf (z : Z) : model := C_Pics.fill (C_Pics.pick [(0, "A_SF"%string, (VInt z, VNone)); (0, "C"%string, (VInt 3, VNone))]) (C_Pics.ex_loaded 12).
Lemma ex_types_ok : block_types_ok ex_mt.
Proof.
  split; [reflexivity|]. split; [cbn; repeat constructor; cbn; intuition discriminate|]. intros r Hr. apply Some_inj in Hr. subst r. split; [reflexivity|].
  cbn. repeat constructor; cbn; intuition discriminate.
Qed.
Lemma fill_typed f len : snd (model_load 10 ex_types (new_model 100 50004 len)) = Ok tt -> typed ex_mt (C_Pics.fill f (C_Pics.ex_loaded len)).
Proof.
  intros H. apply (C57_loaded 10 ex_types 100 50004 len (C_Pics.ex_loaded len)); [reflexivity|exact ex_types_ok| | |].
  - unfold C_Pics.ex_loaded. destruct (model_load 10 ex_types (new_model 100 50004 len)) as [m r]. cbn [fst snd] in *. subst r. reflexivity.
  - reflexivity.
  - unfold C_Pics.fill. cbn [with_blocks md_blocks]. induction (md_blocks (C_Pics.ex_loaded len)) as [|b l0 IH]; cbn [map]; constructor; [|exact IH].
    unfold same_block, C_Pics.fill_block. cbn [with_lists b_type b_len b_index b_points b_sfs].
    do 3 (split; [reflexivity|]). split; [induction (b_points b)|induction (b_sfs b)]; cbn [map]; constructor; auto; split; reflexivity.
Qed.
Lemma fill_type f len : md_type (C_Pics.fill f (C_Pics.ex_loaded len)) = md_type (C_Pics.ex_loaded len).
Proof. reflexivity. Qed.
Lemma fill_coherent f g len len' : snd (model_load 10 ex_types (new_model 100 50004 len)) = Ok tt -> snd (model_load 10 ex_types (new_model 100 50004 len')) = Ok tt ->
  coherent [C_Pics.fill f (C_Pics.ex_loaded len)] [C_Pics.fill g (C_Pics.ex_loaded len')].
Proof.
  intros H1 H2 m n t u [<-|[]] [<-|[]] E1 E2 _. destruct (fill_typed f len H1) as [T1 _], (fill_typed g len' H2) as [T2 _]. congruence.
Qed.
Theorem C57_scale_factor_refuted : exists a b, loaded_device a /\ loaded_device b /\ coherent a b /\
  (exists m n c e p q, a = [m] /\ b = [n] /\ hd_error (md_blocks m) = Some c /\ hd_error (md_blocks n) = Some e /\ b_sfs c = [p] /\ b_sfs e = [q] /\ p_base p = VInt (-1) /\ p_base q = VInt (-2)) /\
  device_not_equal a b = Ok false.
Proof.
  exists [fill_sf (-1)], [fill_sf (-2)]. split; [|split; [|split; [|split]]].
  - constructor; [|constructor]. exists ex_mt. apply fill_typed. vm_compute. reflexivity.
  - constructor; [|constructor]. exists ex_mt. apply fill_typed. vm_compute. reflexivity.
  - apply fill_coherent; vm_compute; reflexivity.
  - do 6 eexists. do 6 (split; [vm_compute; reflexivity|]). split; reflexivity.
  - vm_compute. reflexivity.
Qed.
(** Examples: two scans of a device; one value differs; not-a-number; unknown model *)
Definition ex_d (v : value) : list model := [C_Pics.fill (C_Pics.pick [(0, "A"%string, (VInt 300, VInt (-2))); (1, "W"%string, (v, VNone))]) (C_Pics.ex_loaded 12)].
Example C57_case v w : loaded_device (ex_d v) /\ loaded_device (ex_d w) /\ coherent (ex_d v) (ex_d w).
Proof.
  split; [|split].
  - constructor; [|constructor]. exists ex_mt. apply fill_typed. vm_compute. reflexivity.
  - constructor; [|constructor]. exists ex_mt. apply fill_typed. vm_compute. reflexivity.
  - apply fill_coherent; vm_compute; reflexivity.
Qed.
Example C57_answers :
  device_not_equal (ex_d (VInt 7)) (ex_d (VInt 7)) = Ok false /\ device_not_equal (ex_d (VInt 7)) (ex_d (VInt 8)) = Ok true /\
  device_not_equal (ex_d (VInt 7)) (ex_d VNone) = Ok true /\ device_not_equal (ex_d (VInt 2)) (ex_d (VFlt (S754_finite false 4503599627370496 (-51)))) = Ok false /\
  device_not_equal (ex_d (VFlt S754_nan)) (ex_d (VFlt S754_nan)) = Ok true /\ device_not_equal (ex_d (VInt 7)) [] = Ok true /\
  device_not_equal [C_Pics.ex_unknown] [C_Pics.ex_unknown] = Raise EAttr /\ device_not_equal [C_Pics.ex_loaded 12] [C_Pics.ex_loaded 9] = Ok true.
Proof. repeat (split; [vm_compute; reflexivity|]). vm_compute; reflexivity. Qed.
Example C57_self_case : no_nans (ex_d (VInt 7)).
Proof.
  intros m b p [<-|[]] HB HP. vm_compute in HB. repeat (destruct HB as [<-|HB]; [vm_compute in HP; repeat (destruct HP as [<-|HP]; [split; discriminate|]); destruct HP|]). destruct HB.
Qed.

(** ** C58 *)
(** ModelType.not_equal answers False exactly when id, length, texts, and both blocks agree: kind, length and the points by id,
    with the same offset, type, length, access, mandatory flag and symbols and, where both have them, units, scale factor and
    texts. *)
Theorem C58_answer_partial a b : block_types_ok b -> (mt_oid a = mt_oid b -> a = b) -> (modeltype_not_equal a (Some b) = false <-> same_modeltype a b).
Proof. apply modeltype_ne_spec. Qed.
(** A document loaded twice: equal if no point has symbols ... *)
Definition no_symbols (t : modeltype) : Prop :=
  Forall (fun p => pt_symbols p = []) (bt_points (mt_fixed t)) /\ forall r, mt_rep t = Some r -> Forall (fun p => pt_symbols p = []) (bt_points r).
Lemma two_loads o1 o2 root a b : model_from_smdx o1 root = Ok a -> model_from_smdx o2 root = Ok b ->
  mt_oid a = o1 /\ mt_oid b = o2 /\ mt_id a = mt_id b /\ mt_len a = mt_len b /\ mt_label a = mt_label b /\ mt_description a = mt_description b /\ mt_notes a = mt_notes b /\
  mt_fixed a = mt_fixed b /\ mt_rep a = mt_rep b.
Proof.
  unfold model_from_smdx. intros H1 H2. apply bind_ok in H1 as (x & X1 & X2). apply bind_ok in H2 as (y & Y1 & Y2). rewrite X1 in Y1. apply Ok_inj in Y1. subst y.
  destruct x as [[[id len] name] ms]. apply bind_ok in X2 as (x & X3 & X4). apply bind_ok in Y2 as (y & Y3 & Y4). rewrite X3 in Y3. apply Ok_inj in Y3. subst y.
  destruct x as [t [[fx rp] lg]]. apply Ok_inj in X4, Y4. subst a b. repeat split.
Qed.
Lemma same_blocktype_nosyms oa ob b : Forall (fun p => pt_symbols p = []) (bt_points b) -> same_blocktype oa ob b b.
Proof.
  intros HS. unfold same_blocktype. repeat (split; [reflexivity|]). intros p HP. exists p. split; [exact HP|]. unfold same_pointtype, agree. repeat (split; [congruence|]).
  right. rewrite Forall_forall in HS. auto.
Qed.
Theorem C58_same_definition_partial o1 o2 root a b : model_from_smdx o1 root = Ok a -> model_from_smdx o2 root = Ok b -> no_symbols a ->
  modeltype_not_equal a (Some b) = false.
Proof.
  intros H1 H2 [N1 N2]. destruct (two_loads _ _ _ _ _ H1 H2) as (E1 & E2 & E3 & E4 & E5 & E6 & E7 & E8 & E9).
  destruct (Z.eq_dec o1 o2) as [->|HO]; [unfold modeltype_not_equal; rewrite E1, E2, Z.eqb_refl; reflexivity|].
  apply modeltype_ne_spec; [eapply C57_definitions; exact H2|congruence|]. unfold same_modeltype. repeat (split; [assumption|]). rewrite <- E8, <- E9.
  split; [apply same_blocktype_nosyms; exact N1|]. unfold same_rep. destruct (mt_rep a) as [r|]; [|exact I]. apply same_blocktype_nosyms. apply (N2 r eq_refl).
Qed.
(** ... and never equal if one has: the symbols are different objects. *)
Theorem C58_symbols_refuted o1 o2 root a b p : o1 <> o2 -> model_from_smdx o1 root = Ok a -> model_from_smdx o2 root = Ok b ->
  (In p (bt_points (mt_fixed a)) \/ exists r, mt_rep a = Some r /\ In p (bt_points r)) -> pt_symbols p <> [] ->
  modeltype_not_equal a (Some b) = true.
Proof.
  intros HO H1 H2 HP HS. destruct (two_loads _ _ _ _ _ H1 H2) as (E1 & E2 & _). destruct (modeltype_not_equal a (Some b)) eqn:EN; [reflexivity|exfalso].
  apply modeltype_ne_spec in EN; [|eapply C57_definitions; exact H2|congruence]. destruct EN as (_ & _ & _ & _ & _ & (_ & _ & _ & HF) & HR).
  assert (HX : exists q, same_pointtype (mt_oid a) (mt_oid b) p q).
  { destruct HP as [HP|(r & R1 & R2)]; [destruct (HF p HP) as (q & _ & Q); eauto|]. unfold same_rep in HR. rewrite R1 in HR. destruct (mt_rep b) as [s|]; [|contradiction].
    destruct HR as (_ & _ & _ & HR). destruct (HR p R2) as (q & _ & Q). eauto. }
  destruct HX as (q & _ & _ & _ & _ & _ & _ & _ & _ & _ & _ & _ & _ & [K|K]); [congruence|contradiction].
Qed.
(** An attribute only one of two point types has is not found: here the scale factor. *)
Definition sf_doc (attrs : list (string * string)) : xml :=
  C_Smdx.el "sunSpecModels" [] None
   [C_Smdx.el "model" [("id", "100"); ("len", "2")]%string None
     [C_Smdx.el "block" [("len", "2")]%string None
       [C_Smdx.el "point" ([("id", "A"); ("offset", "0"); ("type", "uint16")]%string ++ attrs) None [];
        C_Smdx.el "point" [("id", "A_SF"); ("offset", "1"); ("type", "sunssf")]%string None []]]].
Theorem C58_missing_refuted : exists a b p q, model_from_smdx 0 (sf_doc [("sf", "A_SF")]%string) = Ok a /\ model_from_smdx 1 (sf_doc []) = Ok b /\
  hd_error (bt_points (mt_fixed a)) = Some p /\ hd_error (bt_points (mt_fixed b)) = Some q /\ pt_sf p = Some (lit "A_SF"%string) /\ pt_sf q = None /\
  modeltype_not_equal a (Some b) = false.
Proof. do 4 eexists. do 6 (split; [vm_compute; reflexivity|]). vm_compute. reflexivity. Qed.
(** Differences in what is compared are found. *)
Theorem C58_point_found a b p q : block_types_ok b -> (mt_oid a = mt_oid b -> a = b) -> In p (bt_points (mt_fixed a)) -> In q (bt_points (mt_fixed b)) ->
  pt_id p = pt_id q -> ~ same_pointtype (mt_oid a) (mt_oid b) p q -> modeltype_not_equal a (Some b) = true.
Proof.
  intros HK HO HP HQ HI HN. destruct (modeltype_not_equal a (Some b)) eqn:EN; [reflexivity|exfalso]. apply modeltype_ne_spec in EN; [|assumption..].
  destruct EN as (_ & _ & _ & _ & _ & (_ & _ & _ & HF) & _). destruct (HF p HP) as (r & R1 & R2). apply HN.
  assert (r = q). { apply (nodup_map_inj pt_id (bt_points (mt_fixed b))); [exact (proj1 (proj2 HK))|exact R1|exact HQ|]. rewrite <- HI. symmetry. exact (proj1 R2). } subst. exact R2.
Qed.
Example C58_cases : exists a b c d, model_from_smdx 0 (sf_doc []) = Ok a /\ model_from_smdx 1 (sf_doc []) = Ok b /\ no_symbols a /\ modeltype_not_equal a (Some b) = false /\
  model_from_smdx 2 C_Smdx.ex_doc = Ok c /\ model_from_smdx 3 C_Smdx.ex_doc = Ok d /\ modeltype_not_equal c (Some d) = true /\ modeltype_not_equal c (Some c) = false /\
  exists p, In p (bt_points (mt_fixed c)) /\ pt_symbols p <> [].
Proof.
  do 4 eexists. split; [vm_compute; reflexivity|]. split; [vm_compute; reflexivity|]. split; [split; [repeat constructor|discriminate]|]. split; [vm_compute; reflexivity|].
  split; [vm_compute; reflexivity|]. split; [vm_compute; reflexivity|]. split; [vm_compute; reflexivity|]. split; [vm_compute; reflexivity|].
  eexists. split; [left; reflexivity|discriminate].
Qed.
Example C58_found_case : exists a b, model_from_smdx 0 (sf_doc [("access", "rw")]%string) = Ok a /\ model_from_smdx 1 (sf_doc []) = Ok b /\ modeltype_not_equal a (Some b) = true.
Proof. do 2 eexists. split; [vm_compute; reflexivity|]. split; vm_compute; reflexivity. Qed.

Print Assumptions C57_definitions.
Print Assumptions C57_loaded.
Print Assumptions C57_answer_partial.
Print Assumptions C57_symmetric.
Print Assumptions C57_self_partial.
Print Assumptions C57_value_found.
Print Assumptions C57_nan_refuted.
Print Assumptions C57_unknown_refuted.
Print Assumptions C57_scale_factor_refuted.
Print Assumptions C58_answer_partial.
Print Assumptions C58_same_definition_partial.
Print Assumptions C58_symbols_refuted.
Print Assumptions C58_missing_refuted.
Print Assumptions C58_point_found.
