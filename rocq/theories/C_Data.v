(** * C_Data: SunSpec data records (C62, C63). *)
From Coq Require Import String.
From Verif Require Import Py P_List M_Util M_Float M_Suns M_Point M_Data S_Data P_Data.

(** a Python without floats, for examples *)
Definition ex_env : pyenv := {| float_repr := fun _ => []; float_parse := fun _ => None; pow10 := fun _ => Raise EType |}.
Definition s_ (x : string) : value := VStr (lit x).
Definition ex_point : pdata := mkPD (s_ "W") (VInt 42) (VInt 3) (VInt (-2)) VNone VNone (s_ "2013-01-01T00:00:00Z").
Definition ex_model (index : value) : mdata := mkMD (VInt 103) VNone index [ex_point; new_pdata].
Definition ex_device (ts index : value) : ddata :=
  mkDD (s_ "logger") VNone (s_ "dev1") VNone (s_ "man") (s_ "mod") (s_ "123") ts VNone VNone [ex_model index].
Definition ex_record (ts index : value) : sdata := mkSD (s_ "1") [ex_device ts index; new_ddata].

Ltac prove_plain := repeat first
  [ apply Forall_cons | apply Forall_nil | split | (left; reflexivity) | (right; eexists; split; [reflexivity|first [discriminate|lia]])
  | (right; eexists; reflexivity) | discriminate ].

(** ** C62 *)
(** For every record (labels are texts or None, indices and scale factors numbers or None; ids and values of any kind)
    writing succeeds, reading what was written succeeds, and gives exactly what S_Data says is kept. *)
Theorem C62_what_is_kept E s : typed_record s ->
  exists e s', sdata_to_xml E s = Ok e /\ sdata_new E e = Ok s' /\ kept_record E s s'.
Proof. apply record_round. Qed.
(** With non-empty labels, model indices above 1 and point indices other than 0 (or None), nothing is lost except device
    timestamps, units and descriptions.  Missing from the full property: those, and the other indices (refuted below). *)
Theorem C62_round_trip_partial E s : plain_record s ->
  exists e s', sdata_to_xml E s = Ok e /\ sdata_new E e = Ok s' /\ same_record E s s'.
Proof.
  intros H. destruct (record_round E s (plain_typed s H)) as (e & s' & H1 & H2 & H3). exists e, s'. repeat split; auto.
  - apply (kept_same E s s' H H3).
  - apply (kept_same E s s' H H3).
Qed.
Definition ex_point1 : pdata := mkPD (s_ "W") (VInt 42) (VInt 3) (VInt (-2)) VNone VNone (s_ "2013-01-01T00:00:00Z").
Definition ex_record1 : sdata :=
  mkSD (s_ "1") [mkDD (s_ "logger") VNone (s_ "dev1") VNone (s_ "man") (s_ "mod") (s_ "123") VNone VNone VNone
                  [mkMD (VInt 103) VNone (VInt 2) [ex_point1]]; new_ddata].
Example C62_round_trip_case : plain_record ex_record1.
Proof. unfold plain_record, ex_record1, plain_device, plain_model, plain_point, label, later_index, nonzero_index, int_or_none. cbn -[Z.lt]. prove_plain. Qed.
(** A model index of 1 (or less) is lost. *)
Theorem C62_first_index_refuted : exists s, typed_record s /\
  (forall m d, In d (sd_devices s) -> In m (dd_models d) -> md_index m = VInt 1) /\
  forall E, exists e s', sdata_to_xml E s = Ok e /\ sdata_new E e = Ok s' /\ ~ same_record E s s'.
Proof.
  exists (mkSD VNone [mkDD VNone VNone VNone VNone VNone VNone VNone VNone VNone VNone [mkMD (VInt 103) VNone (VInt 1) []]]).
  assert (HT : typed_record (mkSD VNone [mkDD VNone VNone VNone VNone VNone VNone VNone VNone VNone VNone [mkMD (VInt 103) VNone (VInt 1) []]])).
  { unfold typed_record, typed_device, typed_model, text_or_none, int_or_none. cbn. prove_plain. }
  split; [exact HT|]. split.
  - cbn. intros m d [<-|[]] [<-|[]]. reflexivity.
  - intros E. destruct (record_round E _ HT) as (e & s' & H1 & H2 & H3). exists e, s'. repeat split; auto.
    intros (_ & HS). destruct H3 as (_ & HK). cbn [sd_devices] in HS, HK.
    inversion HS as [|d1 d2 l1 l2 HD _]; subst. inversion HK as [|d1' d2' l1' l2' HKD _]; subst.
    destruct HD as (_ & _ & _ & _ & _ & _ & _ & _ & HM). destruct HKD as (_ & _ & _ & _ & _ & _ & _ & _ & _ & _ & HKM).
    assert (d2 = d2') by congruence. subst d2'. cbn [dd_models] in HM, HKM.
    inversion HM as [|m1 m2 k1 k2 HMM _ EA EB]; subst. inversion HKM as [|m1' m2' k1' k2' HKMM _ EA' EB']; subst.
    assert (m2 = m2') by congruence. subst m2'.
    destruct HMM as (_ & _ & HX & _). destruct HKMM as (_ & _ & (_ & HY) & _). cbn [md_index] in HX, HY.
    rewrite HX in HY. specialize (HY ltac:(right; exists 1; split; [reflexivity|lia])). discriminate.
Qed.
(** A record can be turned into text when no model has an index above 1 ... *)
Theorem C62_to_text_partial E s : typed_record s -> no_later_index s ->
  exists e, to_xml_str E s = Ok e /\ sdata_to_xml E s = Ok e.
Proof. apply record_serializable. Qed.
Example C62_to_text_case : typed_record (ex_record (s_ "t") (VInt 1)) /\ no_later_index (ex_record (s_ "t") (VInt 1)).
Proof.
  split.
  - unfold typed_record, ex_record, ex_device, ex_model, typed_device, typed_model, typed_point, text_or_none, int_or_none. cbn. prove_plain.
  - unfold no_later_index. cbn [sd_devices ex_record]. repeat apply Forall_cons; try apply Forall_nil; cbn;
      repeat apply Forall_cons; try apply Forall_nil. intros z [= <-]. lia.
Qed.
(** ... and otherwise never: the index is put into the tree as a number, which the serializer rejects. *)
Theorem C62_to_text_refuted E s d m z :
  typed_record s -> In d (sd_devices s) -> In m (dd_models d) -> md_index m = VInt z -> 1 < z ->
  to_xml_str E s = Raise EType.
Proof. apply later_index_unserializable. Qed.
(** Reading rejects foreign elements: an element that is not a record, or has a child that is not a device, is refused
    with SunSpecDataError, whatever was read before. *)
Theorem C62_foreign_root E s e : e_tag e <> lit "sunSpecData"%string -> sdata_from_xml E s e = Raise ESunSpecData.
Proof.
  intros H. unfold sdata_from_xml. change SDX_SUNSPEC_DATA with (lit "sunSpecData"%string).
  rewrite (proj2 (eqb_list_neq _ _) H). reflexivity.
Qed.
Theorem C62_foreign_device E s t a x c r :
  e_tag c <> lit "d"%string -> sdata_from_xml E s (DE t a x (c :: r)) = Raise ESunSpecData.
Proof.
  intros H. unfold sdata_from_xml. cbn [e_tag e_children mapM]. destruct (eqb_list t SDX_SUNSPEC_DATA); [|reflexivity].
  unfold read_child at 1. change SDX_DEVICE with (lit "d"%string) at 1. rewrite (proj2 (eqb_list_neq _ _) H). reflexivity.
Qed.
(** Reading into a record that already has devices keeps them and appends the new ones. *)
Theorem C62_reading_appends E s e s' :
  sdata_from_xml E s e = Ok s' ->
  exists ds, sdata_new E e = Ok (mkSD (sd_version s') ds) /\ sd_devices s' = sd_devices s ++ ds.
Proof.
  unfold sdata_new, sdata_from_xml. destruct (eqb_list (e_tag e) SDX_SUNSPEC_DATA); [|discriminate].
  intros H. apply bind_ok in H as (ds & Hd & H). apply Ok_inj in H. subst s'. rewrite Hd. exists ds.
  cbn [bind sd_version sd_devices new_sdata app]. auto.
Qed.

(** ** C63 *)
(** model_add(model_id, index, namespace) stores index as the namespace and namespace as the index. *)
Theorem C63_model_add_refuted E d model_id index namespace :
  exists m, dd_models (model_add E d model_id index namespace) = dd_models d ++ [m] /\
  md_namespace m = index /\ md_index m = namespace /\ md_model_id m = VStr (suns_to_str E model_id) /\ md_points m = [].
Proof. exists (model_init E model_id namespace index). repeat split. Qed.
Theorem C63_model_add_index_lost_refuted : exists index, forall E d model_id,
  exists m, dd_models (model_add E d model_id index VNone) = dd_models d ++ [m] /\ md_index m <> index.
Proof. exists (VInt 2). intros. exists (model_init E model_id VNone (VInt 2)). split; [reflexivity|discriminate]. Qed.
(** A namespace given to model_add makes writing the record fail. *)
Theorem C63_namespace_unwritable_refuted E d model_id ns :
  device_to_xml E (model_add E (with_models d []) model_id VNone (VStr ns)) = Raise EType.
Proof. reflexivity. Qed.
(** It stores the arguments when they are equal (in particular both omitted), and changes nothing else. *)
Theorem C63_model_add_partial E d model_id x :
  exists m, model_add E d model_id x x = with_models d (dd_models d ++ [m]) /\
  md_index m = x /\ md_namespace m = x /\ md_model_id m = VStr (suns_to_str E model_id) /\ md_points m = [].
Proof. exists (model_init E model_id x x). repeat split. Qed.
(** point_add and device_add store the arguments they are given. *)
Theorem C63_point_add m point_id v index sf units desc time :
  exists p, md_points (point_add m point_id v index sf units desc time) = md_points m ++ [p] /\
  pd_point_id p = point_id /\ pd_value p = v /\ pd_index p = index /\ pd_sf p = sf /\ pd_units p = units /\
  pd_desc p = desc /\ pd_time p = time /\
  md_index (point_add m point_id v index sf units desc time) = md_index m /\
  md_model_id (point_add m point_id v index sf units desc time) = md_model_id m /\
  md_namespace (point_add m point_id v index sf units desc time) = md_namespace m.
Proof. exists (mkPD point_id v index sf units desc time). repeat split. Qed.
Theorem C63_device_add fmt s logger_id man mod_ sn ts cid device_id ifc namespace t :
  ts = VNone \/ fmt ts = Ok t ->
  exists s' d, device_add fmt s logger_id man mod_ sn ts cid device_id ifc namespace = Ok s' /\
  sd_version s' = sd_version s /\ sd_devices s' = sd_devices s ++ [d] /\
  dd_logger_id d = logger_id /\ dd_man d = man /\ dd_mod d = mod_ /\ dd_sn d = sn /\ dd_cid d = cid /\
  dd_device_id d = device_id /\ dd_ifc d = ifc /\ dd_namespace d = namespace /\ dd_models d = [] /\
  (ts = VNone -> dd_timestamp d = VNone) /\ (ts <> VNone -> dd_timestamp d = VStr t).
Proof.
  intros [-> | H]; unfold device_add, device_init; [|rewrite H; destruct ts];
    cbn [is_none bind]; eexists; eexists; repeat match goal with |- _ /\ _ => split end; try reflexivity; congruence.
Qed.
Example C63_device_add_case :
  VInt 0 = VNone \/ (fun _ : value => Ok (lit "1970-01-01T00:00:00Z"%string)) (VInt 0) = Ok (lit "1970-01-01T00:00:00Z"%string).
Proof. right. reflexivity. Qed.
(** A device timestamp never survives a round trip: it comes back under another name. *)
Theorem C63_timestamp_refuted E s : typed_record s -> (exists d, In d (sd_devices s) /\ dd_timestamp d <> VNone) ->
  exists e s', sdata_to_xml E s = Ok e /\ sdata_new E e = Ok s' /\ ~ same_timestamps s s'.
Proof.
  intros HT (d & Hd & Hts). destruct (record_round E s HT) as (e & s' & H1 & H2 & (_ & H3)). exists e, s'.
  split; [exact H1|]. split; [exact H2|]. unfold same_timestamps. clear H1 H2 HT.
  induction H3 as [|d0 d1 l l' HK _ IH]; [destruct Hd|]. cbn [map]. intros HE.
  apply (f_equal (fun l => match l with x :: r => (x, r) | [] => (VNone, []) end)) in HE. cbv beta iota in HE.
  apply pair_equal_spec in HE as [HE1 HE2].
  destruct Hd as [->|Hd]; [|exact (IH Hd HE2)].
  destruct HK as (_ & _ & _ & _ & _ & _ & _ & _ & HK & _). congruence.
Qed.
Example C63_timestamp_case : typed_record (ex_record (s_ "t") VNone) /\
  exists d, In d (sd_devices (ex_record (s_ "t") VNone)) /\ dd_timestamp d <> VNone.
Proof.
  split.
  - unfold typed_record, ex_record, ex_device, ex_model, typed_device, typed_model, typed_point, text_or_none, int_or_none. cbn. prove_plain.
  - eexists; split; [left; reflexivity|discriminate].
Qed.
(** It does survive when no device has one. *)
Theorem C63_timestamp_partial E s : typed_record s -> (forall d, In d (sd_devices s) -> dd_timestamp d = VNone) ->
  exists e s', sdata_to_xml E s = Ok e /\ sdata_new E e = Ok s' /\ same_timestamps s s'.
Proof.
  intros HT HN. destruct (record_round E s HT) as (e & s' & H1 & H2 & (_ & H3)). exists e, s'.
  split; [exact H1|]. split; [exact H2|]. unfold same_timestamps. clear H1 H2 HT.
  induction H3 as [|d0 d1 l l' HK _ IH]; [reflexivity|]. cbn [map]. f_equal; [|apply IH; intros; apply HN; right; auto].
  destruct HK as (_ & _ & _ & _ & _ & _ & _ & _ & HK & _). rewrite HK. symmetry. apply HN. left; reflexivity.
Qed.

Print Assumptions C62_what_is_kept.
Print Assumptions C62_round_trip_partial.
Print Assumptions C62_first_index_refuted.
Print Assumptions C62_to_text_partial.
Print Assumptions C62_to_text_refuted.
Print Assumptions C62_foreign_root.
Print Assumptions C62_foreign_device.
Print Assumptions C62_reading_appends.
Print Assumptions C63_model_add_refuted.
Print Assumptions C63_model_add_index_lost_refuted.
Print Assumptions C63_namespace_unwritable_refuted.
Print Assumptions C63_model_add_partial.
Print Assumptions C63_point_add.
Print Assumptions C63_device_add.
Print Assumptions C63_timestamp_refuted.
Print Assumptions C63_timestamp_partial.
