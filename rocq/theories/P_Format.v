(** * P_Format: proofs for C108. *)
From Coq Require Import String Permutation.
From Verif Require Import Py P_List M_Util M_Float M_Suns M_Point M_Xml M_Mbmap S_Mbmap P_Mbmap M_Device M_Client S_Codec P_Codec S_Device S_Pics M_Pics P_Pics P_PicsModel S_Format.
From Verif Require M_Data P_Report.

(** ** PICS *)
Lemma point_format E p e : point_to_pics E p = Ok e -> pics_point E p e.
Proof.
  unfold point_to_pics, pics_point. intros H. apply bind_ok in H as (v & HV & H). apply Ok_inj in H. subst e.
  assert (HN : v = VNone <-> p_base p = VNone).
  { unfold value_getter in HV. destruct (sf_truthy (p_sf p)); [|apply Ok_inj in HV; subst; tauto].
    apply bind_ok in HV as (k & _ & HV). destruct (p_base p); try discriminate; [apply bind_ok in HV as (f & _ & HV)|]; apply Ok_inj in HV; subst v; split; discriminate. }
  destruct (p_base p) as [|z|f|s] eqn:EB.
  1: { assert (v = VNone) as -> by (apply HN; reflexivity). reflexivity. }
  all: (assert (HV0 : v <> VNone) by (intros X; apply HN in X; discriminate)); eexists; (split; [split; [apply P_Report.rstrip_no_nul|destruct (rstrip0_decomp (value_text E (p_base p))) as [k Hk]; rewrite EB in Hk; exists k; exact Hk]|]);
       cbn [value_text suns_to_str]; f_equal; f_equal; destruct v; try contradiction; reflexivity.
Qed.
Lemma points_format E b l : forall es, points_to_pics E b l = Ok es -> exists ps, Forall2 (pics_point E) ps es /\
  ps = flat_map (fun t => match block_point b (pt_id t) with Some p => [p] | None => [] end) l.
Proof.
  induction l as [|t l IH]; intros es H; cbn [points_to_pics flat_map] in *.
  - apply Ok_inj in H. subst es. exists []. split; [constructor|reflexivity].
  - destruct (block_point b (pt_id t)) as [p|].
    + apply bind_ok in H as (e & HE & H). apply bind_ok in H as (es' & HES & H). apply Ok_inj in H. subst es.
      destruct (IH _ HES) as (ps & F & ->). eexists. split; [|reflexivity]. constructor; [now apply point_format|exact F].
    + destruct (IH _ H) as (ps & F & ->). exists (flat_map (fun t => match block_point b (pt_id t) with Some p => [p] | None => [] end) l). auto.
Qed.
Lemma complete_kind b p : complete b -> In p (all_points b) -> plain (p_type p) || scale (p_type p) = true.
Proof.
  intros (H1 & H2 & H3) HI. unfold all_points in HI. apply in_app_iff in HI as [HI|HI]; apply (in_map p_type) in HI; [rewrite H2 in HI|rewrite H3 in HI]; apply filter_In in HI as [_ HI]; rewrite HI; [reflexivity|apply Bool.orb_true_r].
Qed.
Lemma complete_find b t : complete b -> In t (bt_points (b_type b)) ->
  if plain t || scale t then exists p, block_point b (pt_id t) = Some p /\ p_type p = t /\ In p (all_points b) else block_point b (pt_id t) = None.
Proof.
  intros HC HT. pose proof HC as (H1 & H2 & H3).
  assert (HU : forall p, In p (all_points b) -> p_id p = pt_id t -> p_type p = t).
  { intros p HP HE. exact (nodup_map_inj pt_id _ (p_type p) t H1 (complete_in b p HC HP) HT HE). }
  destruct (plain t || scale t) eqn:EK.
  - assert (HX : exists p, In p (all_points b) /\ p_type p = t).
    { apply Bool.orb_true_iff in EK as [EK|EK].
      - assert (HI : In t (map p_type (b_points b))) by (rewrite H2; apply filter_In; auto). apply in_map_iff in HI as (p & HE & HI). exists p. split; [apply in_or_app; now left|exact HE].
      - assert (HI : In t (map p_type (b_sfs b))) by (rewrite H3; apply filter_In; auto). apply in_map_iff in HI as (p & HE & HI). exists p. split; [apply in_or_app; now right|exact HE]. }
    destruct HX as (p & HP & HE). exists p. split; [|auto]. subst t. exact (block_point_of b p (complete_nodup b HC) HP).
  - destruct (block_point b (pt_id t)) as [p|] eqn:EP; [|reflexivity]. apply block_point_id in EP as [EI HP].
    pose proof (HU p HP EI). subst t. pose proof (complete_kind b p HC HP). congruence.
Qed.
Lemma complete_order b : complete b -> in_order b (flat_map (fun t => match block_point b (pt_id t) with Some p => [p] | None => [] end) (bt_points (b_type b))).
Proof.
  intros HC. set (f := fun t => match block_point b (pt_id t) with Some p => [p] | None => [] end).
  assert (HM : forall l, incl l (bt_points (b_type b)) -> map p_type (flat_map f l) = filter (fun t => plain t || scale t) l /\ forall p, In p (flat_map f l) -> In p (all_points b)).
  { induction l as [|t l IH]; intros HI; cbn [flat_map filter]; [split; [reflexivity|intros p []]|]. destruct (IH ltac:(intros x Hx; apply HI; now right)) as [I1 I2].
    pose proof (complete_find b t HC (HI t (or_introl eq_refl))) as HF. unfold f at 1 3. destruct (plain t || scale t).
    - destruct HF as (p & -> & HP & HA). cbn [app map]. rewrite I1, HP. split; [reflexivity|]. intros q [<-|Hq]; auto.
    - rewrite HF. cbn [app]. auto. }
  destruct (HM _ (incl_refl _)) as [M1 M2]. split; [|exact M1]. pose proof HC as (H1 & _ & _).
  apply NoDup_Permutation.
  - apply (NoDup_map_inv p_id). unfold p_id. rewrite <- (map_map p_type pt_id), M1. now apply nodup_filter_map.
  - apply (NoDup_map_inv p_id). now apply complete_nodup.
  - intros p. split; [apply M2|]. intros HP. apply in_flat_map. exists (p_type p). split; [now apply complete_in|]. unfold f.
    change (pt_id (p_type p)) with (p_id p). rewrite (block_point_of b p (complete_nodup b HC) HP). now left.
Qed.
Lemma block_format E b e : complete b -> block_to_pics E b = Ok e -> pics_block E b e.
Proof.
  intros HC H. unfold block_to_pics in H. apply bind_ok in H as (es & HES & H). apply Ok_inj in H. subst e.
  destruct (points_format _ _ _ _ HES) as (ps & F & ->). eexists. exists es. split; [now apply complete_order|]. split; [exact F|reflexivity].
Qed.
Lemma blocks_format E single l : Forall complete l -> forall es, blocks_to_pics E single l = Ok es -> Forall2 (pics_block E) (filter (fun b => negb single || (b_index b <=? 1)) l) es.
Proof.
  induction 1 as [|b l HB HL IH]; intros es H; cbn [blocks_to_pics filter] in *; [apply Ok_inj in H; subst es; constructor|].
  destruct (negb single || (b_index b <=? 1)); [|auto]. apply bind_ok in H as (e & HE & H). apply bind_ok in H as (es' & HES & H). apply Ok_inj in H. subst es.
  constructor; [now apply block_format|auto].
Qed.
Lemma model_format E single m e : Forall complete (md_blocks m) -> model_to_pics E single m = Ok e -> pics_model E single m e.
Proof.
  intros HC H. unfold model_to_pics in H. apply bind_ok in H as (es & HES & H). apply Ok_inj in H. subst e. exists es. split; [now apply blocks_format|].
  unfold model_attrs. f_equal. cbn [app]. do 2 f_equal. destruct (md_index m) as [z|s]; [|reflexivity]. destruct (Z.eqb_spec z 1) as [->|N]; [reflexivity|].
  destruct z as [|[p|p|]|p]; try reflexivity. congruence.
Qed.
Lemma device_format E single d e : Forall (fun m => Forall complete (md_blocks m)) (d_models d) -> device_to_pics E single d = Ok e -> pics_device E single (d_models d) e.
Proof.
  intros HC H. unfold device_to_pics in H. apply bind_ok in H as (es & HES & H). apply Ok_inj in H. subst e. exists es. split; [|reflexivity].
  revert es HES. induction HC as [|m l HM HL IH]; intros es H; cbn [models_to_pics] in H; [apply Ok_inj in H; subst es; constructor|].
  apply bind_ok in H as (e & HE & H). apply bind_ok in H as (es' & HES & H). apply Ok_inj in H. subst es. constructor; [now apply model_format|auto].
Qed.

(** ** Modbus maps *)
Lemma given_opt {A B} (k : A) (v : option B) r : given ((k, v) :: r) = match v with Some x => [(k, x)] | None => [] end ++ given r.
Proof. destruct v; reflexivity. Qed.
Lemma map_format m e : whole (m_regs m) -> map_to_xml m = Ok e -> map_doc m e.
Proof.
  intros [_ HW] H. unfold map_to_xml in H. apply bind_ok in H as (es & HES & H). apply Ok_inj in H. subst e. exists es. split.
  - revert es HES. induction HW as [|g l HG HL IH]; intros es H; cbn [map_res] in H; [apply Ok_inj in H; subst es; constructor|].
    apply bind_ok in H as (e & HE & H). apply bind_ok in H as (es' & HES & H). apply Ok_inj in H. subst es. constructor; [|auto].
    unfold regs_to_xml in HE. destruct HG as (o & c & d & EO & EC & ED & _ & _ & HB).
    rewrite ED in HE. apply Ok_inj in HE. subst e. rewrite EO, EC. exists o, c, d. eexists. do 3 (split; [first [eassumption|reflexivity]|]). split; [apply hex_text_lo; eassumption|]. reflexivity.
  - rewrite !given_opt. cbn [given app]. unfold func_name, opt_attr. rewrite app_nil_r. destruct (m_func m =? 4); reflexivity.
Qed.

(** ** Data records *)
Lemma mapM_f2 {A B} (f : A -> res B) (Q : A -> Prop) (R : A -> B -> Prop) l : Forall Q l -> (forall a b, Q a -> f a = Ok b -> R a b) -> forall bs, M_Data.mapM f l = Ok bs -> Forall2 R l bs.
Proof.
  intros HQ HR. induction HQ as [|a l HA HL IH]; intros bs H; cbn [M_Data.mapM] in H; [apply Ok_inj in H; subst bs; constructor|].
  apply bind_ok in H as (y & HY & H). apply bind_ok in H as (ys & HYS & H). apply Ok_inj in H. subst bs. constructor; auto.
Qed.
Lemma put_format v k : text_attr v -> M_Data.attr_if (sf_truthy v) k v = match some_value v with Some x => [(k, x)] | None => [] end.
Proof. destruct v as [| |[|c s]|]; cbn; try tauto; reflexivity. Qed.
Lemma id_format E v : v <> VNone -> suns_to_str E v = value_text E v.
Proof. destruct v; [contradiction|reflexivity..]. Qed.
Lemma sdx_point_format E p : text_points p -> sdx_point E p (M_Data.point_to_xml E p).
Proof.
  intros (HI & HX & HS & HT). unfold sdx_point, M_Data.point_to_xml. rewrite (id_format E _ HI), (put_format _ _ HT), !given_opt. cbn [given app suns_to_str]. rewrite app_nil_r.
  f_equal.
  - change M_Data.SDX_POINT_ID with (lit "id"%string). f_equal. f_equal; [|f_equal].
    + destruct (M_Data.pd_index p) as [|z| |]; cbn [int_attr] in HX; try contradiction; [reflexivity|]. destruct z; reflexivity.
    + destruct (M_Data.pd_sf p) as [|z| |]; cbn [int_attr] in HS; try contradiction; reflexivity.
  - destruct (M_Data.pd_value p); reflexivity.
Qed.
Lemma sdx_model_format E m e : text_models m -> M_Data.model_to_xml E m = Ok e -> sdx_model E m e.
Proof.
  intros (HI & HX & HN & HP) H. unfold M_Data.model_to_xml in H. apply bind_ok in H as (gt & HG & H). apply Ok_inj in H. subst e.
  exists (map (M_Data.point_to_xml E) (M_Data.md_points m)). split.
  - clear -HP. induction HP; constructor; [now apply sdx_point_format|assumption].
  - rewrite (id_format E _ HI), (put_format _ _ HN), !given_opt. cbn [given app suns_to_str]. rewrite app_nil_r. f_equal. f_equal. f_equal.
    destruct (M_Data.md_index m) as [|z| |]; cbn [int_attr M_Data.index_gt_1] in HX, HG; try contradiction; apply Ok_inj in HG; subst gt; [reflexivity|]. destruct (1 <? z); reflexivity.
Qed.
Lemma sdx_format E s e : text_record s -> M_Data.sdata_to_xml E s = Ok e -> sdx_doc E s e.
Proof.
  intros (HV & HD) H. unfold M_Data.sdata_to_xml in H. apply bind_ok in H as (es & HES & H). apply Ok_inj in H. subst e. exists es. split.
  - refine (mapM_f2 _ _ _ _ HD _ _ HES). intros d x (HA & HM) HX. unfold M_Data.device_to_xml in HX. apply bind_ok in HX as (ms & HMS & HX). apply Ok_inj in HX. subst x.
    exists ms. split; [refine (mapM_f2 _ _ _ _ HM _ _ HMS); intros; now apply sdx_model_format|].
    rewrite !Forall_cons_iff in HA. destruct HA as (A1 & A2 & A3 & A4 & A5 & A6 & A7 & A8 & A9 & _).
    rewrite !put_format by assumption. rewrite !given_opt. cbn [given]. rewrite !app_nil_r. reflexivity.
  - rewrite put_format by assumption. rewrite given_opt. cbn [given]. now rewrite app_nil_r.
Qed.

Lemma sdx_writes E s : text_record s -> exists e, M_Data.sdata_to_xml E s = Ok e.
Proof.
  intros (_ & HD). unfold M_Data.sdata_to_xml. enough (HX : exists es, M_Data.mapM (M_Data.device_to_xml E) (M_Data.sd_devices s) = Ok es) by (destruct HX as [es ->]; cbn [bind]; eauto).
  induction HD as [|d l (_ & HM) _ (es & IH)]; cbn [M_Data.mapM]; [eauto|]. rewrite IH. unfold M_Data.device_to_xml at 1.
  enough (HX : exists ms, M_Data.mapM (M_Data.model_to_xml E) (M_Data.dd_models d) = Ok ms) by (destruct HX as [ms ->]; cbn [bind]; eauto).
  clear -HM. induction HM as [|m l HM _ (ms & IH)]; cbn [M_Data.mapM]; [eauto|]. rewrite IH. unfold M_Data.model_to_xml at 1. destruct HM as (_ & HX & _ & _).
  destruct (M_Data.md_index m) as [|z| |]; cbn [int_attr M_Data.index_gt_1] in *; try contradiction; cbn [bind]; eauto.
Qed.
Lemma map_writes m : whole (m_regs m) -> exists e, map_to_xml m = Ok e.
Proof.
  intros [_ HW]. unfold map_to_xml. enough (HX : exists es, map_res regs_to_xml (m_regs m) = Ok es) by (destruct HX as [es ->]; cbn [bind]; eauto).
  induction HW as [|g l HG _ (es & IH)]; cbn [map_res]; [eauto|]. rewrite IH. unfold regs_to_xml at 1. destruct HG as (o & c & d & _ & _ & -> & _). cbn [bind]. eauto.
Qed.
Lemma instance_complete E fuel types m : instance_of E fuel types m -> Forall complete (md_blocks m).
Proof.
  intros [a len m0 t HT HB HL _ HS _|e _ _ HE]; [|rewrite HE; constructor]. destruct (loaded_facts _ _ _ _ _ _ _ HL HT HB) as (c0 & cr & rt & EB & (C0 & _) & _ & HC & _).
  assert (HF : Forall complete (md_blocks m0)) by (rewrite EB; constructor; [exact C0|]; apply P_PicsModel.Forall_nth; intros k c Hk; apply (HC k c Hk)).
  clear -HS HF. induction HS as [|b c l k H _ IH]; constructor; [eapply same_complete; [exact H|exact (Forall_inv HF)]|apply IH; exact (Forall_inv_tail HF)].
Qed.
