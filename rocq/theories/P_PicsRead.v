(** * P_PicsRead: models read from a device have PICS documents that preserve them (C90). *)
From Coq Require Import String.
From Verif Require S_Client.
From Verif Require Import Py P_List M_Util P_Codec M_Float M_Suns M_Point M_Xml M_Mbmap M_Device S_Codec S_Device M_Client M_Scan S_Scan S_Stack M_Pics S_Pics S_PicsRead P_PicsModel.
From Verif Require P_Report P_Stack.

Lemma no_zero_end s : ~ In 0 s -> ~ ends_in_nul s.
Proof. intros H (r & ->). apply H. apply in_app_iff. right. now left. Qed.
Lemma hex2_nonzero b : is_byte b -> ~ In 0 (hex2_up b).
Proof.
  intros H. unfold is_byte in H. unfold hex2_up. assert (0 <= b / 16 < 16 /\ 0 <= b mod 16 < 16) as [A B].
  { split; [split; [apply Z.div_pos; lia|apply Z.div_lt_upper_bound; lia]|apply Z.mod_pos_bound; lia]. }
  apply hex_digit_up_range in A. apply hex_digit_up_range in B. intros [X|[X|[]]]; lia.
Qed.
Lemma hex_all_nonzero d : Forall is_byte d -> ~ In 0 (hex_all d).
Proof.
  induction 1 as [|b d Hb _ IH]; [intros []|]. cbn [hex_all]. intros HI. apply in_app_iff in HI as [HI|HI]; [exact (hex2_nonzero b Hb HI)|auto].
Qed.
Lemma hex_colon_nonzero d : Forall is_byte d -> ~ In 0 (hex_colon d).
Proof.
  induction 1 as [|b d Hb _ IH]; [intros []|]. cbn [hex_colon]. destruct d as [|c d]; [exact (hex2_nonzero b Hb)|].
  intros HI. apply in_app_iff in HI as [HI|HI]; [exact (hex2_nonzero b Hb HI)|]. apply in_app_iff in HI as [[HI|[]]|HI]; [discriminate|auto].
Qed.
Lemma storable_text E t s : t = Tstring \/ t = Tipv6addr \/ t = Teui48 -> s <> [] -> ~ ends_in_nul s -> storable E t (VStr s).
Proof. cbn [storable]. auto. Qed.
(** what registers decode to has a text, if it is implemented *)
Lemma decoded_storable E t d v : float_texts E -> Forall is_byte d -> data_to t d = Ok v -> is_impl t v = true -> storable E t v.
Proof.
  intros HE HB HD HI.
  assert (HINT : forall f : bytes -> res Z, int_type t = true -> (let! z := f d in Ok (VInt z)) = Ok v -> storable E t v).
  { intros f HT H. apply bind_ok in H as (z & _ & H). apply Ok_inj in H. subst v. exact HT. }
  destruct t; cbn [data_to] in HD; try (eapply HINT; [reflexivity|exact HD]); clear HINT.
  - (* ipv6 *) apply Ok_inj in HD. subst v. unfold data_to_ipv6addr in *. destruct (any_nonzero d && (length d =? 16)%nat); [|exact I]. cbn [opt_str].
    apply storable_text; [tauto| |].
    + cbn [opt_str is_impl] in HI. intros E0. rewrite E0 in HI. discriminate.
    + apply no_zero_end. unfold colon. rewrite !in_app_iff. cbn [In].
      pose proof (fun a b => hex_all_nonzero _ (Forall_slice is_byte a b d HB)) as HZ. intros G.
      repeat (destruct G as [G|G]; [first [eapply HZ; exact G|destruct G as [G|G]; [discriminate|destruct G]]|]). eapply HZ; exact G.
  - (* float *) apply bind_ok in HD as (f & HF & HD). apply Ok_inj in HD. subst v. destruct f as [f|]; [|exact I]. cbn [storable]. split; [reflexivity|].
    apply HE; [exact (P_Float.float32_valid d f HB HF)|]. intros ->. cbn in HI. discriminate.
  - (* string *) apply Ok_inj in HD. subst v. apply storable_text; [tauto| |].
    + intros E0. rewrite E0 in HI. discriminate.
    + unfold data_to_str in *. destruct d as [|c [|c' r]]; cbn [is_impl] in HI; [discriminate| |].
      * intros (r & EQ). destruct r as [|x [|y r]]; try discriminate. cbn [app] in EQ. assert (c = 0) by congruence. subst c. discriminate.
      * intros (x & EQ). destruct x as [|y x]; [discriminate EQ || (cbn [app] in EQ; assert (c = 0) by congruence; subst c; discriminate)|].
        cbn [app] in EQ. assert (rstrip0 (c' :: r) = x ++ [0]) by congruence. eapply P_Report.rstrip_no_nul. exists x. exact H.
  - (* eui48 *) apply Ok_inj in HD. subst v. unfold data_to_eui48 in *. destruct (any_nonzero d && (length d =? 8)%nat) eqn:EL; [|exact I]. cbn [opt_str].
    apply storable_text; [tauto| |].
    + assert (length d = 8%nat) by (apply andb_true_iff in EL as [_ EL]; now apply Nat.eqb_eq in EL).
      do 8 (destruct d as [|? d]; [discriminate|]). destruct d; [|discriminate]. vm_compute. discriminate.
    + apply no_zero_end, hex_colon_nonzero, Forall_slice, HB.
Qed.

Lemma Forall2_imp {A B} (R S : A -> B -> Prop) l m : (forall x y, R x y -> S x y) -> Forall2 R l m -> Forall2 S l m.
Proof. intros H. induction 1; constructor; auto. Qed.
(** ** reading settles the points *)
Lemma mem_is_bytes mem a n : byte_memory mem -> Forall is_byte (S_Client.mem_bytes mem a n).
Proof. intros H. unfold S_Client.mem_bytes. apply Forall_forall. intros x HX. apply in_map_iff in HX as (y & <- & _). apply H. Qed.
Lemma decoded_settled E mem p q v : float_texts E -> byte_memory mem -> S_Client.decodes mem p v -> p_type q = p_type p ->
  p_base q = (if S_Client.implemented p v then v else VNone) -> settled E q.
Proof.
  intros HE HM HD HT HB. unfold settled, S_Client.implemented in *. rewrite HB, HT. destruct (is_impl (pt_type (p_type p)) v) eqn:EI.
  - split; [|now right]. eapply (decoded_storable E _ (S_Client.regs_of mem p)); [exact HE|apply mem_is_bytes, HM|exact HD|exact EI].
  - split; [exact I|now left].
Qed.
Lemma find_unique l q id : NoDup (map p_id l) -> In q l -> p_id q = id -> find_point id l = Some q.
Proof.
  unfold find_point. induction l as [|p l IH]; intros HN HI HQ; [destruct HI|]. cbn [map find] in *. apply NoDup_cons_iff in HN as [HN1 HN2].
  destruct HI as [->|HI].
  - rewrite HQ, eqb_list_refl. reflexivity.
  - destruct (eqb_list (p_id p) id) eqn:E; [|auto]. apply eqb_list_eq in E. exfalso. apply HN1. rewrite E, <- HQ. now apply in_map.
Qed.
Lemma complete_unique b : complete b -> NoDup (map p_id (b_sfs b)).
Proof.
  intros (HN & _ & HS). assert (EM : map p_id (b_sfs b) = map pt_id (map p_type (b_sfs b))) by (rewrite map_map; reflexivity). rewrite EM, HS.
  clear - HN. induction (bt_points (b_type b)) as [|t l IH]; [constructor|]. cbn [map filter] in *. apply NoDup_cons_iff in HN as [H1 H2].
  destruct (scale t); [|auto]. cbn [map]. constructor; [|auto]. intros G. apply H1. apply in_map_iff in G as (x & E & G). apply filter_In in G as [G _].
  rewrite <- E. now apply in_map.
Qed.
Lemma block_read_same mem fixed b b' : S_Client.block_read mem fixed b b' -> same_block b b'.
Proof.
  intros (_ & H2 & H3 & H4 & H5 & H6). split; [exact H3|]. split; [exact H2|]. split; [exact H4|]. split.
  - eapply Forall2_imp; [|exact H6]. intros p q (HP & _). split; apply HP.
  - eapply Forall2_imp; [|exact H5]. intros p q (HP & _). split; apply HP.
Qed.
Lemma block_read_values E mem fixed b b' : float_texts E -> byte_memory mem -> S_Client.block_read mem fixed b b' ->
  Forall (fun p => p_sf p = VNone) (b_points b) -> NoDup (map p_id (b_sfs b')) -> NoDup (map p_id (b_sfs fixed)) -> has_values E (b_sfs fixed) b'.
Proof.
  intros HE HM (_ & _ & _ & _ & H5 & H6) HF HN1 HN2. split.
  - unfold all_points. apply Forall_app. split.
    + clear - HE HM H6. induction H6 as [|p q l m (HP & v & HD & HV) _ IH]; constructor; [|exact IH].
      apply (decoded_settled E mem p q v HE HM HD); [apply HP|]. destruct (S_Client.implemented p v); apply HV.
    + clear - HE HM H5. induction H5 as [|p q l m (HP & v & HD & HV) _ IH]; constructor; [|exact IH]. apply (decoded_settled E mem p q v HE HM HD); [apply HP|exact HV].
  - revert HF. generalize H6. clear H6. generalize (b_points b) at 1 2. generalize (b_points b').
    intros l' l H. induction H as [|p q l l' (HP & v & HD & HV) _ IH]; intros HF; constructor; [|apply IH; exact (Forall_inv_tail HF)].
    intros HB. unfold scaled. destruct (S_Client.implemented p v); [|destruct HV as [HV _]; congruence].
    destruct HV as [_ HV]. destruct HP as (_ & _ & EL & _). rewrite EL. destruct HV as [[E1 E2]|HV].
    + rewrite E1. cbn [link_value]. rewrite E2. exact (Forall_inv HF).
    + inversion HV as [z E1 E2|id s HI HID E1 E2|id s HI HID E1 E2]; cbn [link_value].
      * reflexivity.
      * rewrite (find_unique (b_sfs b') s id HN1 HI HID). reflexivity.
      * rewrite (find_unique (b_sfs fixed) s id HN2 HI HID). reflexivity.
Qed.

Lemma read_instance E fuel types id a len m0 t mem m' : float_texts E -> byte_memory mem -> types id = Ok t -> block_types_ok t ->
  model_load fuel types (new_model id a len) = (m0, Ok tt) -> md_id m0 = id -> S_Client.model_read mem m0 m' -> instance_of E fuel types m'.
Proof.
  intros HE HM HT HB HL HID (fixed & HF & HR & EM).
  destruct (loaded_facts _ _ _ _ _ _ _ HL HT HB) as (c0 & cr & rt & EB & (K1 & K2 & _) & _ & KR & _).
  assert (EID : md_id m' = id) by (rewrite EM; exact HID).
  assert (HS : Forall2 same_block (md_blocks m0) (md_blocks m')) by (eapply Forall2_imp; [|exact HR]; intros; eapply block_read_same; eauto).
  assert (HCF : Forall (fun c => complete c /\ fresh c) (md_blocks m0)).
  { rewrite EB. constructor; [auto|]. apply Forall_nth. intros k x Hx. destruct (KR k x Hx) as (X1 & X2 & _). auto. }
  apply (known _ _ _ _ a len m0 t); [now rewrite EID|exact HB|now rewrite EID|rewrite EM; reflexivity|exact HS|].
  assert (EF : fixed_sfs (md_blocks m') = b_sfs fixed) by (destruct (md_blocks m') as [|x l]; [discriminate|]; cbn in *; congruence).
  rewrite EF. assert (HNF : NoDup (map p_id (b_sfs fixed))).
  { destruct (md_blocks m') as [|x l]; [discriminate|]. cbn [hd_error] in HF. apply Some_inj in HF. subst x. rewrite EB in HS. inversion HS as [|? ? ? ? HS1 _]; subst.
    apply complete_unique. eapply same_complete; [exact HS1|exact K1]. }
  clear - HE HM HR HCF HNF. induction HR as [|b b' l l' H _ IH]; constructor; [|apply IH; exact (Forall_inv_tail HCF)].
  destruct (Forall_inv HCF) as [C1 C2]. apply (block_read_values E mem fixed b b' HE HM H); [|apply complete_unique; eapply same_complete; [eapply block_read_same; exact H|exact C1]|exact HNF].
  unfold fresh, all_points in C2. apply Forall_app in C2 as [C2 _]. eapply Forall_impl; [|exact C2]. cbv beta. tauto.
Qed.

Lemma load_meta fuel types id a len m r : model_load fuel types (new_model id a len) = (m, r) -> md_id m = id /\
  match types id with Ok t => md_type m = Some t | Raise e => md_type m = None /\ md_blocks m = [] /\ r = Raise e end.
Proof.
  unfold model_load, new_model. cbn [md_id md_len md_addr md_blocks md_reads md_exposed md_error md_index]. destruct (types id) as [t|e].
  - destruct (if len =? 0 then mt_len t else Some len).
    + destruct (base_int (bt_len (mt_fixed t))).
      * destruct (load_loop _ _ _ _ _ _ _ _ _ _) as [[x1 x2] x3]. intros H. apply pair_equal_spec in H as [<- _]. split; reflexivity.
      * intros H. apply pair_equal_spec in H as [<- _]. split; reflexivity.
    + intros H. apply pair_equal_spec in H as [<- _]. split; reflexivity.
  - intros H. apply pair_equal_spec in H as [<- <-]. repeat split; reflexivity.
Qed.
Lemma entry_instance E lfuel types mem x m m' : float_texts E -> byte_memory mem -> loads_end lfuel types -> (forall id t, types id = Ok t -> block_types_ok t) ->
  readable lfuel types x -> model_for lfuel types x m -> values_read mem m m' -> instance_of E lfuel types m'.
Proof.
  intros HE HM HLE HB HR HF HV. destruct x as [[id addr] len]. destruct HF as (F1 & F2 & F3 & F4).
  pose proof (proj1 HLE id) as HNF. destruct (model_load lfuel types (new_model id addr len)) as [m0 r] eqn:EL. destruct (load_meta _ _ _ _ _ _ _ EL) as [EID EMT].
  destruct HR as [(e & HR)|(_ & HR & mt & F & HT & _)].
  - rewrite HR in EMT. destruct EMT as (T1 & T2 & ->). destruct F4 as (G1 & G2 & G3). unfold values_read in HV. rewrite G3, T1 in HV. subst m'.
    apply (unknown _ _ _ _ e); [now rewrite F1|intros ->; now apply HNF|congruence].
  - rewrite EL in HR. cbn [snd] in HR. subst r. subst m. rewrite HT in EMT. unfold values_read in HV. rewrite EMT in HV.
    eapply read_instance; eauto.
Qed.
Lemma entries_instances E lfuel types mem : float_texts E -> byte_memory mem -> loads_end lfuel types -> (forall id t, types id = Ok t -> block_types_ok t) ->
  forall l ms ms', Forall (readable lfuel types) l -> Forall2 (model_for lfuel types) l ms -> Forall2 (values_read mem) ms ms' -> Forall (instance_of E lfuel types) ms'.
Proof.
  intros HE HM HLE HB l ms ms' HR H. revert ms'. induction H as [|x m l ms HX _ IH]; intros ms' HV; inversion HV as [|? m' ? ms2 HV1 HV2]; subst; constructor.
  - eapply entry_instance; eauto. exact (Forall_inv HR).
  - apply IH; [exact (Forall_inv_tail HR)|exact HV2].
Qed.

(** ** documents of points with values *)
Lemma points_to_pics_ok E b l : (forall p, In p (all_points b) -> exists v, value_getter E (p_base p) (p_sf p) = Ok v) -> exists es, points_to_pics E b l = Ok es.
Proof.
  intros H. induction l as [|t l [es IH]]; cbn [points_to_pics]; [eauto|]. destruct (block_point b (pt_id t)) as [p|] eqn:EP; [|eauto].
  assert (HI : In p (all_points b)).
  { unfold block_point in EP. unfold all_points. apply in_app_iff. destruct (find_point (pt_id t) (b_points b)) as [q|] eqn:EF.
    - apply Some_inj in EP. subst q. left. unfold find_point in EF. apply find_some in EF. apply EF.
    - right. unfold find_point in EP. apply find_some in EP. apply EP. }
  destruct (H p HI) as [v HV]. unfold point_to_pics. rewrite HV. cbn [bind]. rewrite IH. cbn [bind]. eauto.
Qed.
Lemma blocks_to_pics_ok E single l : (forall b p, In b l -> In p (all_points b) -> exists v, value_getter E (p_base p) (p_sf p) = Ok v) -> exists es, blocks_to_pics E single l = Ok es.
Proof.
  induction l as [|b l IH]; intros H; cbn [blocks_to_pics]; [eauto|]. destruct IH as [es IH]; [intros; eapply H; [right|]; eauto|].
  destruct (negb single || (b_index b <=? 1)); [|eauto]. unfold block_to_pics.
  destruct (points_to_pics_ok E b (bt_points (b_type b))) as [ps HP]; [intros; eapply H; [left; reflexivity|]; auto|]. rewrite HP. cbn [bind]. rewrite IH. cbn [bind]. eauto.
Qed.
Lemma models_to_pics_ok E single l : (forall m b p, In m l -> In b (md_blocks m) -> In p (all_points b) -> exists v, value_getter E (p_base p) (p_sf p) = Ok v) ->
  exists es, models_to_pics E single l = Ok es.
Proof.
  induction l as [|m l IH]; intros H; cbn [models_to_pics]; [eauto|]. destruct IH as [es IH]; [intros; eapply H; [right| |]; eauto|]. unfold model_to_pics.
  destruct (blocks_to_pics_ok E single (md_blocks m)) as [bs HB]; [intros; eapply H; [left; reflexivity| |]; eauto|]. rewrite HB. cbn [bind]. rewrite IH. cbn [bind]. eauto.
Qed.
