(** * P_Data: proofs about M_Data. *)
From Coq Require Import String.
From Verif Require Import Py P_List M_Util M_Float M_Suns M_Point P_IntText M_Data S_Data.

Lemma dget_attr_if k b k' v l :
  dget k (attr_if b k' v ++ l) = if eqb_list k k' && b then Some v else dget k l.
Proof. destruct b; cbn [attr_if app dget]; [rewrite andb_true_r|rewrite andb_false_r]; reflexivity. Qed.
Lemma dget_attr_if_end k b k' v :
  dget k (attr_if b k' v) = if eqb_list k k' && b then Some v else None.
Proof. rewrite <- (app_nil_r (attr_if b k' v)), dget_attr_if. reflexivity. Qed.

Definition got (v : value) : value := if sf_truthy v then v else VNone.
Lemma got_kept v : text_or_none v -> kept_label v (got v).
Proof.
  intros [-> | [s ->]]; unfold kept_label, got; cbn [sf_truthy].
  - split; [discriminate|reflexivity].
  - destruct s as [|c s]; split.
    + intros s0 E. apply (f_equal (fun v => match v with VStr x => x | _ => [] end)) in E. cbv beta iota in E. congruence.
    + reflexivity.
    + intros s0 E _. exact E.
    + intros [E|E]; discriminate.
Qed.

Ltac gets := unfold e_get; cbn [e_attrs dget]; rewrite ?dget_attr_if, ?dget_attr_if_end; cbn [dget];
  repeat match goal with |- context [eqb_list ?a ?b] => let r := eval vm_compute in (eqb_list a b) in change (eqb_list a b) with r end;
  cbn [andb].
Lemma got_if v : (match (if sf_truthy v then Some v else None) with Some w => w | None => VNone end) = got v.
Proof. unfold got. destruct (sf_truthy v); reflexivity. Qed.

Lemma mapM_compose {A B C} (f : A -> res B) (g : B -> res C) (R : A -> C -> Prop) l :
  Forall (fun a => exists b c, f a = Ok b /\ g b = Ok c /\ R a c) l ->
  exists bs cs, mapM f l = Ok bs /\ mapM g bs = Ok cs /\ Forall2 R l cs.
Proof.
  induction 1 as [|a l (b & c & Hf & Hg & HR) _ (bs & cs & H1 & H2 & H3)].
  - exists [], []. repeat split. constructor.
  - exists (b :: bs), (c :: cs). cbn [mapM]. rewrite Hf, Hg, H1, H2. cbn [bind]. repeat split. constructor; auto.
Qed.
Lemma mapM_pure {A B} (f : A -> B) l : mapM (fun x => Ok (f x)) l = Ok (map f l).
Proof. induction l as [|x l IH]; [reflexivity|]. cbn [mapM map bind]. rewrite IH. reflexivity. Qed.

Lemma point_round E p : typed_point p ->
  exists p', read_child SDX_POINT (point_from_xml new_pdata) (point_to_xml E p) = Ok p' /\ kept_point E p p'.
Proof.
  intros (Hi & Hs & Ht). unfold read_child, point_to_xml. cbn [e_tag]. rewrite eqb_list_refl.
  unfold point_from_xml.
  set (e := DE _ _ _ _).
  assert (G1 : e_get SDX_POINT_INDEX e = if sf_truthy (pd_index p) then VStr (suns_to_str E (pd_index p)) else VNone).
  { unfold e. gets. now destruct (sf_truthy (pd_index p)). }
  assert (G2 : e_get SDX_POINT_SF e = if is_none (pd_sf p) then VNone else VStr (suns_to_str E (pd_sf p))).
  { unfold e. gets. now destruct (is_none (pd_sf p)). }
  assert (G3 : e_get SDX_POINT_TIME e = got (pd_time p)).
  { unfold e. gets. apply got_if. }
  assert (G4 : e_get SDX_POINT_ID e = VStr (suns_to_str E (pd_point_id p))).
  { unfold e. gets. reflexivity. }
  assert (G5 : e_text e = if is_none (pd_value p) then VNone else VStr (suns_to_str E (pd_value p))) by reflexivity.
  rewrite G1, G2, G3, G4, G5. clearbody e. clear G1 G2 G3 G4 G5.
  assert (HI : exists i', opt_int (if sf_truthy (pd_index p) then VStr (suns_to_str E (pd_index p)) else VNone) = Ok i'
               /\ kept_point_index (pd_index p) i').
  { unfold kept_point_index. destruct Hi as [-> | [z ->]]; cbn [sf_truthy suns_to_str].
    - exists VNone. split; [reflexivity|]. split; [discriminate|reflexivity].
    - destruct (Z.eqb_spec z 0) as [-> | Hz]; cbn [negb].
      + exists VNone. split; [reflexivity|]. split; [|reflexivity]. intros z E0 Hz. congruence.
      + exists (VInt z). unfold opt_int. cbn [is_none int_of]. rewrite int_of_str_roundtrip. cbn [bind].
        split; [reflexivity|]. split; [congruence|]. intros [E0|E0]; congruence. }
  assert (HS : opt_int (if is_none (pd_sf p) then VNone else VStr (suns_to_str E (pd_sf p))) = Ok (pd_sf p)).
  { destruct Hs as [-> | [z ->]]; cbn [is_none suns_to_str]; [reflexivity|].
    unfold opt_int. cbn [is_none int_of]. rewrite int_of_str_roundtrip. reflexivity. }
  destruct HI as (i' & -> & HI). rewrite HS. cbn [bind].
  eexists; split; [reflexivity|]. unfold kept_point. cbn [pd_point_id pd_value pd_index pd_sf pd_units pd_desc pd_time].
  split; [reflexivity|]. split; [exact HI|]. split; [reflexivity|]. split; [apply got_kept, Ht|].
  split; [|split; reflexivity]. unfold kept_value. destruct (pd_value p); cbn [is_none]; split; intros; congruence.
Qed.

Lemma model_round E m : typed_model m ->
  exists e m', model_to_xml E m = Ok e /\ read_child SDX_MODEL (model_from_xml (new_mdata E)) e = Ok m' /\ kept_model E m m'.
Proof.
  intros (Hi & Hn & Hp). unfold model_to_xml.
  assert (HG : exists gt, index_gt_1 (md_index m) = Ok gt /\
     kept_model_index (md_index m) (if gt then md_index m else VNone) /\ int_or_none (if gt then md_index m else VNone)).
  { unfold kept_model_index, int_or_none. destruct Hi as [-> | [z ->]]; cbn [index_gt_1].
    - exists false. repeat split; try discriminate; auto.
    - destruct (Z.ltb_spec 1 z) as [Hz|Hz].
      + exists true. split; [reflexivity|]. split; [|right; eexists; reflexivity]. split; [auto|].
        intros [E0|(z0 & E0 & Hz0)]; [discriminate|]. assert (z = z0) by congruence. lia.
      + exists false. split; [reflexivity|]. split; [|left; reflexivity]. split; [|reflexivity].
        intros z0 E0 Hz0. assert (z = z0) by congruence. lia. }
  destruct HG as (gt & -> & HG & HG2). cbn [bind].
  destruct (mapM_compose (fun p => Ok (point_to_xml E p)) (read_child SDX_POINT (point_from_xml new_pdata))
              (kept_point E) (md_points m)) as (bs & cs & H1 & H2 & H3).
  { eapply Forall_impl; [|exact Hp]. intros p Hp0. destruct (point_round E p Hp0) as (p' & A & B).
    exists (point_to_xml E p), p'. auto. }
  rewrite mapM_pure in H1. apply Ok_inj in H1. rewrite H1.
  eexists; eexists. split; [reflexivity|]. unfold read_child. cbn [e_tag]. rewrite eqb_list_refl.
  unfold model_from_xml. cbn [e_children].
  set (e := DE _ _ _ _).
  assert (G1 : e_get SDX_MODEL_INDEX e = if gt then md_index m else VNone).
  { unfold e. gets. now destruct gt. }
  assert (G2 : e_get SDX_MODEL_NAMESPACE e = got (md_namespace m)).
  { unfold e. gets. apply got_if. }
  assert (G3 : e_get SDX_MODEL_ID e = VStr (suns_to_str E (md_model_id m))) by reflexivity.
  rewrite G1, G2, G3.
  assert (HO : opt_int (if gt then md_index m else VNone) = Ok (if gt then md_index m else VNone)).
  { destruct HG2 as [-> | [z ->]]; reflexivity. }
  rewrite HO. cbn [bind]. match goal with |- context [mapM ?f bs] => change (mapM f bs) with (mapM (read_child SDX_POINT (point_from_xml new_pdata)) bs) end.
  rewrite H2. cbn [bind]. split; [reflexivity|].
  unfold kept_model. cbn [md_model_id md_namespace md_index md_points new_mdata model_init app].
  split; [reflexivity|]. split; [apply got_kept, Hn|]. split; [exact HG|exact H3].
Qed.

Lemma device_round E d : typed_device d ->
  exists e d', device_to_xml E d = Ok e /\ read_child SDX_DEVICE (device_from_xml E new_ddata) e = Ok d' /\ kept_device E d d'.
Proof.
  intros (HL & HM). unfold device_to_xml.
  destruct (mapM_compose (model_to_xml E) (read_child SDX_MODEL (model_from_xml (new_mdata E))) (kept_model E) (dd_models d))
    as (bs & cs & H1 & H2 & H3).
  { eapply Forall_impl; [|exact HM]. intros m Hm. apply model_round, Hm. }
  rewrite H1. cbn [bind]. cbv zeta. eexists; eexists. split; [reflexivity|].
  unfold read_child. cbn [e_tag]. rewrite eqb_list_refl.
  unfold device_from_xml. cbn [e_children].
  match goal with |- context [mapM ?f bs] => change (mapM f bs) with (mapM (read_child SDX_MODEL (model_from_xml (new_mdata E))) bs) end.
  rewrite H2. cbn [bind]. split; [reflexivity|].
  unfold kept_device.
  cbn [dd_logger_id dd_namespace dd_device_id dd_ifc dd_man dd_mod dd_sn dd_timestamp dd_time dd_cid dd_models new_ddata app].
  repeat match goal with H : Forall text_or_none (_ :: _) |- _ => inversion H; clear H; subst end.
  repeat match goal with |- _ /\ _ => split end; try reflexivity; try exact H3;
    (gets; rewrite got_if; apply got_kept; assumption).
Qed.

Lemma record_round E s : typed_record s ->
  exists e s', sdata_to_xml E s = Ok e /\ sdata_new E e = Ok s' /\ kept_record E s s'.
Proof.
  intros (HV & HD). unfold sdata_to_xml.
  destruct (mapM_compose (device_to_xml E) (read_child SDX_DEVICE (device_from_xml E new_ddata)) (kept_device E) (sd_devices s))
    as (bs & cs & H1 & H2 & H3).
  { eapply Forall_impl; [|exact HD]. intros d Hd. apply device_round, Hd. }
  rewrite H1. cbn [bind]. eexists; eexists. split; [reflexivity|].
  unfold sdata_new, sdata_from_xml. cbn [e_tag e_children]. rewrite eqb_list_refl.
  match goal with |- context [mapM ?f bs] => change (mapM f bs) with (mapM (read_child SDX_DEVICE (device_from_xml E new_ddata)) bs) end.
  rewrite H2. cbn [bind]. split; [reflexivity|]. unfold kept_record. cbn [sd_version sd_devices new_sdata app].
  split; [|exact H3]. gets. rewrite got_if. apply got_kept, HV.
Qed.

(** ** from kept to same *)
Lemma label_text v : label v -> text_or_none v.
Proof. intros [->|(s & -> & _)]; [left; reflexivity|right; eauto]. Qed.
Lemma kept_label_same v v' : label v -> kept_label v v' -> v' = v.
Proof. intros [->|(s & -> & Hs)] [H1 H2]; [apply H2; auto|apply H1; auto]. Qed.
Lemma label_texts l : Forall label l -> Forall text_or_none l.
Proof. intros H. eapply Forall_impl; [|exact H]. apply label_text. Qed.
Lemma plain_typed_point p : plain_point p -> typed_point p.
Proof.
  intros (_ & H1 & H2 & H3). unfold typed_point. split; [|split; [exact H2|apply label_text, H3]].
  destruct H1 as [->|(z & -> & _)]; [left; reflexivity|right; eauto].
Qed.
Lemma plain_typed_model m : plain_model m -> typed_model m.
Proof.
  intros (_ & H1 & H2 & H3). unfold typed_model. split; [|split; [apply label_text, H2|]].
  - destruct H1 as [->|(z & -> & _)]; [left; reflexivity|right; eauto].
  - eapply Forall_impl; [|exact H3]. apply plain_typed_point.
Qed.
Lemma plain_typed_device d : plain_device d -> typed_device d.
Proof.
  intros (H1 & H2). split; [apply label_texts, H1|]. eapply Forall_impl; [|exact H2]. apply plain_typed_model.
Qed.
Lemma plain_typed s : plain_record s -> typed_record s.
Proof.
  intros (H1 & H2). split; [apply label_text, H1|]. eapply Forall_impl; [|exact H2]. apply plain_typed_device.
Qed.
Lemma Forall2_upgrade {A B} (P : A -> Prop) (R S : A -> B -> Prop) l l' :
  (forall a b, P a -> R a b -> S a b) -> Forall P l -> Forall2 R l l' -> Forall2 S l l'.
Proof.
  intros H HP HR. induction HR as [|a b l l' Hab _ IH]; [constructor|]. inversion HP; subst. constructor; auto.
Qed.
Lemma value_text_str E v : v <> VNone -> value_text E (VStr (suns_to_str E v)) = value_text E v.
Proof. destruct v; intros H; [congruence|..]; reflexivity. Qed.
Lemma kept_same_point E p p' : plain_point p -> kept_point E p p' -> same_point E p p'.
Proof.
  intros (H0 & H1 & H2 & H3) (K1 & K2 & K3 & K4 & K5 & _). unfold same_point. rewrite K1, K3.
  split; [apply value_text_str, H0|]. split.
  - destruct K2 as [K2 K2']. destruct H1 as [E0|(z & E0 & Hz)]; rewrite E0 in *; [apply K2'; auto|apply K2; auto].
  - split; [reflexivity|]. split; [apply kept_label_same; auto|].
    destruct K5 as [K5 K5']. destruct (pd_value p) eqn:EV; [rewrite K5; reflexivity|..];
      (rewrite K5' by discriminate; reflexivity).
Qed.
Lemma kept_same_model E m m' : plain_model m -> kept_model E m m' -> same_model E m m'.
Proof.
  intros (H0 & H1 & H2 & H3) (K1 & K2 & K3 & K4). unfold same_model. rewrite K1.
  split; [apply value_text_str, H0|]. split; [apply kept_label_same; auto|]. split.
  - destruct K3 as [K3 K3']. destruct H1 as [E0|(z & E0 & Hz)]; rewrite E0 in *; [apply K3'; auto|apply K3; auto].
  - eapply Forall2_upgrade; [|exact H3|exact K4]. intros; now apply kept_same_point.
Qed.
Lemma kept_same_device E d d' : plain_device d -> kept_device E d d' -> same_device E d d'.
Proof.
  intros (H0 & H1) K. unfold kept_device in K. decompose [and] K; clear K. unfold same_device.
  repeat match goal with H : Forall label (_ :: _) |- _ => inversion H; clear H; subst end.
  repeat match goal with |- _ /\ _ => split end; try (apply kept_label_same; assumption).
  eapply Forall2_upgrade; [|exact H1|eassumption]. intros; now apply kept_same_model.
Qed.
Lemma kept_same E s s' : plain_record s -> kept_record E s s' -> same_record E s s'.
Proof.
  intros (H0 & H1) (K0 & K1). split; [apply kept_label_same; auto|].
  eapply Forall2_upgrade; [|exact H1|exact K1]. intros; now apply kept_same_device.
Qed.

(** ** serialization *)
Lemma mapM_forall {A B} (f : A -> res B) (Q : A -> Prop) (R : B -> bool) l bs :
  (forall a b, Q a -> f a = Ok b -> R b = true) -> Forall Q l -> mapM f l = Ok bs -> forallb R bs = true.
Proof.
  intros H HQ. revert bs. induction HQ as [|a l Ha _ IH]; intros bs HE.
  - apply Ok_inj in HE. subst. reflexivity.
  - cbn [mapM] in HE. apply bind_ok in HE as (b & Hb & HE). apply bind_ok in HE as (bs' & Hbs & HE).
    apply Ok_inj in HE. subst. cbn [forallb]. rewrite (H a b), (IH bs'); auto.
Qed.
Lemma text_truthy v : text_or_none v -> forall k, forallb (fun kv : str * value => is_text (snd kv)) (attr_if (sf_truthy v) k v) = true.
Proof. intros [->|[s ->]] k; [reflexivity|]. destruct s; reflexivity. Qed.

Lemma point_serializable E p : typed_point p -> serializable (point_to_xml E p) = true.
Proof.
  intros (_ & _ & Ht). unfold point_to_xml. cbn [serializable forallb]. rewrite andb_true_r. cbn [snd is_text andb].
  rewrite !forallb_app, text_truthy by auto.
  destruct (sf_truthy (pd_index p)), (is_none (pd_sf p)); reflexivity.
Qed.
Lemma points_serializable E ps : Forall typed_point ps -> forallb serializable (map (point_to_xml E) ps) = true.
Proof. induction 1; cbn [map forallb]; [reflexivity|]. rewrite point_serializable by auto. cbn [andb]. assumption. Qed.
Lemma model_serializable E m e :
  typed_model m /\ (forall z, md_index m = VInt z -> z <= 1) -> model_to_xml E m = Ok e -> serializable e = true.
Proof.
  intros ((Hi & Hn & Hp) & Hz) HE. unfold model_to_xml in HE. apply bind_ok in HE as (gt & Hg & HE). apply Ok_inj in HE. subst e.
  assert (gt = false).
  { destruct Hi as [E0|[z E0]]; rewrite E0 in *; cbn [index_gt_1] in Hg; apply Ok_inj in Hg; [congruence|].
    specialize (Hz z eq_refl). subst gt. apply Z.ltb_ge. lia. }
  subst gt. cbn [serializable attr_if app forallb snd is_text andb]. rewrite text_truthy by auto. cbn [andb].
  now apply points_serializable.
Qed.
Lemma device_serializable E d e :
  typed_device d /\ Forall (fun m => forall z, md_index m = VInt z -> z <= 1) (dd_models d) ->
  device_to_xml E d = Ok e -> serializable e = true.
Proof.
  intros ((HL & HM) & Hz) HE. unfold device_to_xml in HE. apply bind_ok in HE as (ms & Hms & HE). cbv zeta in HE.
  apply Ok_inj in HE. subst e.
  repeat match goal with H : Forall text_or_none (_ :: _) |- _ => inversion H; clear H; subst end.
  cbn [serializable]. rewrite !forallb_app, !text_truthy by auto. cbn [andb].
  eapply mapM_forall; [|apply Forall_and; [exact HM|exact Hz]|exact Hms]. intros a b. apply model_serializable.
Qed.
Lemma record_serializable E s : typed_record s -> no_later_index s -> exists e, to_xml_str E s = Ok e /\ sdata_to_xml E s = Ok e.
Proof.
  intros HT HN. destruct (record_round E s HT) as (e & s' & H1 & _). exists e. unfold to_xml_str. rewrite H1. cbn [bind].
  destruct HT as (HV & HD). unfold sdata_to_xml in H1. apply bind_ok in H1 as (ds & Hds & HE). apply Ok_inj in HE. subst e.
  cbn [serializable]. rewrite text_truthy by auto. cbn [andb].
  assert (HS : forallb serializable ds = true).
  { eapply mapM_forall; [|apply Forall_and; [exact HD|exact HN]|exact Hds]. intros a b. apply device_serializable. }
  match goal with |- context [forallb ?f ds] => change (forallb f ds) with (forallb serializable ds) end. rewrite HS. auto.
Qed.

(** any model with an index above 1 makes the text impossible *)
Lemma mapM_in {A B} (f : A -> res B) l bs a : mapM f l = Ok bs -> In a l -> exists b, f a = Ok b /\ In b bs.
Proof.
  revert bs; induction l as [|x l IH]; intros bs HE [].
  - subst. cbn [mapM] in HE. apply bind_ok in HE as (b & Hb & HE). apply bind_ok in HE as (bs' & Hbs & HE).
    apply Ok_inj in HE. subst. exists b. split; [auto|left; auto].
  - cbn [mapM] in HE. apply bind_ok in HE as (b & Hb & HE). apply bind_ok in HE as (bs' & Hbs & HE).
    apply Ok_inj in HE. subst. destruct (IH bs' Hbs H) as (b' & H1 & H2). exists b'. split; [auto|right; auto].
Qed.
Lemma serializable_child e c : In c (e_children e) -> serializable c = false -> serializable e = false.
Proof.
  destruct e as [t a x cs]. cbn [e_children serializable]. intros HI HS. apply andb_false_iff. right.
  destruct (forallb serializable cs) eqn:HF; [|reflexivity]. rewrite forallb_forall in HF. rewrite HF in HS by auto. discriminate.
Qed.
Lemma later_index_unserializable E s d m z :
  typed_record s -> In d (sd_devices s) -> In m (dd_models d) -> md_index m = VInt z -> 1 < z ->
  to_xml_str E s = Raise EType.
Proof.
  intros HT Hd Hm Hi Hz. destruct (record_round E s HT) as (e & s' & H1 & _). unfold to_xml_str. rewrite H1. cbn [bind].
  enough (HS : serializable e = false) by now rewrite HS.
  unfold sdata_to_xml in H1. apply bind_ok in H1 as (ds & Hds & HE). apply Ok_inj in HE.
  destruct (mapM_in _ _ _ _ Hds Hd) as (de & Hde & Hin). apply (serializable_child e de); [now subst e|].
  unfold device_to_xml in Hde. apply bind_ok in Hde as (ms & Hms & HE2). cbv zeta in HE2. apply Ok_inj in HE2.
  destruct (mapM_in _ _ _ _ Hms Hm) as (me & Hme & Hin2). apply (serializable_child de me); [now subst de|].
  unfold model_to_xml in Hme. apply bind_ok in Hme as (gt & Hg & HE3). rewrite Hi in Hg. cbn [index_gt_1] in Hg.
  apply Ok_inj in Hg. rewrite (proj2 (Z.ltb_lt 1 z) Hz) in Hg. subst gt. apply Ok_inj in HE3. subst me.
  rewrite Hi. cbn [serializable attr_if app forallb snd is_text andb]. reflexivity.
Qed.
