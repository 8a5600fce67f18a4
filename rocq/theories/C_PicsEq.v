(** * C_PicsEq: property C92: a device compared with the device loaded from its PICS document. *)
From Coq Require Import String.
From Verif Require C_Scan C_Client C_Device.
From Verif Require Import Py P_List M_Util M_Float M_Suns M_Point P_IntText M_Xml M_Mbmap M_Device M_Client M_Scan M_Pics M_NotEq S_Device S_Codec S_Client S_Scan S_Stack S_Pics S_NotEq S_PicsRead S_PicsEq P_PicsRead P_NotEq P_PicsEq C_Pics C_NotEq C_PicsRead.

(** not_equal answers, and says "equal" exactly if every point without a value has the scale factor that its scale factor point holds *)
Theorem C92_answer_partial :
  forall E fuel types d e a d', one_object_each types -> Forall (instance_of E fuel types) (d_models d) -> Forall no_gaps (d_models d) ->
  Forall (has_definition types) (d_models d) -> no_nans (d_models d) ->
  device_to_pics E false d = Ok e -> device_from_pics E fuel types (new_device a) e = (d', Ok tt) ->
  exists diff, device_not_equal (d_models d) (d_models d') = Ok diff /\ (diff = false <-> Forall unset_scaled (d_models d)).
Proof.
  intros E fuel types d e a d' HO HI HG HD HN HE HF. destruct (C54_roundtrip_partial E fuel types d e a HI HG HE) as (d2 & D1 & _ & D2 & _).
  rewrite HF in D1. apply pair_equal_spec in D1 as [<- _].
  destruct (device_restored E fuel types _ _ HO HI HD (device_from_meta _ _ _ _ _ _ _ HF) HN D2) as (L1 & L2 & L3 & L4).
  destruct (device_ne_spec _ _ L1 L2 L3) as (diff & A1 & A2). exists diff. split; [exact A1|]. rewrite A2. exact L4.
Qed.
Print Assumptions C92_answer_partial.
(** models with at most one repeating block, either kind of document *)
Theorem C92_answer_one_repeat :
  forall E fuel types single d e a d', one_object_each types -> Forall (instance_of E fuel types) (d_models d) -> Forall one_repeat (d_models d) ->
  Forall (has_definition types) (d_models d) -> no_nans (d_models d) ->
  device_to_pics E single d = Ok e -> device_from_pics E fuel types (new_device a) e = (d', Ok tt) ->
  exists diff, device_not_equal (d_models d) (d_models d') = Ok diff /\ (diff = false <-> Forall unset_scaled (d_models d)).
Proof.
  intros E fuel types single d e a d' HO HI HG HD HN HE HF. destruct (C53_roundtrip E fuel types single d e a HI HG HE) as (d2 & D1 & _ & D2 & _).
  rewrite HF in D1. apply pair_equal_spec in D1 as [<- _].
  destruct (device_restored E fuel types _ _ HO HI HD (device_from_meta _ _ _ _ _ _ _ HF) HN D2) as (L1 & L2 & L3 & L4).
  destruct (device_ne_spec _ _ L1 L2 L3) as (diff & A1 & A2). exists diff. split; [exact A1|]. rewrite A2. exact L4.
Qed.
Print Assumptions C92_answer_one_repeat.
(** scan, read, save, load, compare: equal exactly under that condition; in particular if no point without a value has a scale factor *)
Theorem C92_archive_partial :
  forall E lfuel types, float_texts E -> loads_end lfuel types -> (forall id t, types id = Ok t -> block_types_ok t) -> one_object_each types ->
  forall mem l ms ms', byte_memory mem -> Forall (readable lfuel types) l -> Forall2 (model_for lfuel types) l ms -> Forall2 (values_read mem) ms ms' ->
  Forall no_gaps ms' -> Forall (values_defined E) ms' -> Forall (has_definition types) ms' -> no_nans ms' ->
  forall base a, exists e d' diff, device_to_pics E false (mkDevice base ms') = Ok e /\ device_from_pics E lfuel types (new_device a) e = (d', Ok tt) /\
    device_not_equal ms' (d_models d') = Ok diff /\ (diff = false <-> Forall unset_scaled ms').
Proof.
  intros E lfuel types HE HLE HB HO mem l ms ms' HM HR HF HV HG HDV HD HN base a.
  destruct (C90_archive_partial E lfuel types HE HLE HB mem l ms ms' HM HR HF HV HG HDV base a) as (e & d' & X1 & X2 & _).
  pose proof (entries_instances E lfuel types mem HE HM HLE HB l ms ms' HR HF HV) as HI.
  destruct (C92_answer_partial E lfuel types (mkDevice base ms') e a d' HO HI HG HD HN X1 X2) as (diff & Y1 & Y2). exists e, d', diff. auto.
Qed.
Print Assumptions C92_archive_partial.
Theorem C92_values_everywhere m : (forall b p, In b (md_blocks m) -> In p (b_points b) -> p_base p = VNone -> p_link p = SfNone /\ p_sf p = VNone) -> unset_scaled m.
Proof. intros H b p Hb Hp HU. destruct (H b p Hb Hp HU) as [L ->]. unfold scale_factor. rewrite L. constructor. Qed.
Print Assumptions C92_values_everywhere.

(** REFUTED in general.  A is not implemented (FFFF), its scale factor point holds -2: read, saved and loaded, the device differs from itself. *)
Definition unimpl_image : bytes := [255; 255;  255; 255; 255; 156;  0; 0;  255; 254;  0; 3;   0; 7;  0; 0; 0; 5].
Definition unimpl_mem : memory := mem_store (fun _ => 0) 50004 unimpl_image.
Theorem C92_unimplemented_refuted : exists m m' e d',
  model_load 10 C_Device.ex_types (new_model 100 50004 9) = (m, Ok tt) /\ read_points mem_dev unimpl_mem m = (unimpl_mem, m', Ok tt) /\
  device_to_pics ex_env false (mkDevice (BInt 50000) [m']) = Ok e /\ device_from_pics ex_env 10 C_Device.ex_types (new_device 0) e = (d', Ok tt) /\
  device_not_equal [m'] [m'] = Ok false /\ device_not_equal [m'] (d_models d') = Ok true.
Proof.
  exists (fst (model_load 10 C_Device.ex_types (new_model 100 50004 9))), (snd (fst (read_points mem_dev unimpl_mem (fst (model_load 10 C_Device.ex_types (new_model 100 50004 9)))))).
  do 2 eexists. split; [vm_compute; reflexivity|]. split; [|split; [vm_compute; reflexivity|]].
  - destruct (read_points _ _ _) as [[s m] r] eqn:E. cbn [fst snd]. assert (HS : s = unimpl_mem).
    { assert (HX := f_equal (fun x => fst (fst x)) E). cbn [fst] in HX. rewrite <- HX. reflexivity. }
    assert (HX := f_equal snd E). cbn [snd] in HX. rewrite <- HX, HS. f_equal.
  - split; [vm_compute; reflexivity|]. split; vm_compute; reflexivity.
Qed.
Print Assumptions C92_unimplemented_refuted.
(** With a model whose definition is unknown, the comparison raises an AttributeError. *)
Theorem C92_unknown_refuted :
  forall E fuel types d m ms e a d', Forall (instance_of E fuel types) (d_models d) -> Forall no_gaps (d_models d) -> d_models d = m :: ms -> md_type m = None ->
  device_to_pics E false d = Ok e -> device_from_pics E fuel types (new_device a) e = (d', Ok tt) -> device_not_equal (d_models d) (d_models d') = Raise EAttr.
Proof.
  intros E fuel types d m ms e a d' HI HG HM HT HE HF. destruct (C54_roundtrip_partial E fuel types d e a HI HG HE) as (d2 & D1 & _ & D2 & _).
  rewrite HF in D1. apply pair_equal_spec in D1 as [<- _]. rewrite HM in *. apply C57_unknown_refuted; [exact HT|]. clear -D2. induction D2 as [|x y l k _ _ IH]; [reflexivity|cbn [length]; congruence].
Qed.
Print Assumptions C92_unknown_refuted.

(** ** the hypotheses can be met: model 100 with all values, and with the value of C (which has no scale factor) missing *)
Example C92_one_object : one_object_each C_Device.ex_types.
Proof.
  intros i j t u H1 H2 _. unfold C_Device.ex_types in *. destruct (i =? 100); [|discriminate]. destruct (j =? 100); [|discriminate]. congruence.
Qed.
Example C92_ex_hyp : Forall (instance_of ex_env 10 C_Device.ex_types) [ex_m ex_vals] /\ Forall no_gaps [ex_m ex_vals] /\ Forall (has_definition C_Device.ex_types) [ex_m ex_vals] /\
  no_nans [ex_m ex_vals] /\ Forall unset_scaled [ex_m ex_vals].
Proof.
  split; [constructor; [exact ex_m_instance|constructor]|]. split; [|split; [|split]].
  - constructor; [|constructor]. intros b0 b1 rest b HB Hb. vm_compute in HB. apply (f_equal (fun l => match l with x :: y :: r => (x, y, r) | _ => (b0, b1, rest) end)) in HB.
    apply pair_equal_spec in HB as [HB <-]. apply pair_equal_spec in HB as [_ <-]. destruct Hb as [<-|[]]. repeat constructor; cbn; try discriminate; auto.
  - constructor; [|constructor]. exists C_Device.ex_mt. split; reflexivity.
  - intros m b p [<-|[]] HB HP. vm_compute in HB. repeat (destruct HB as [<-|HB]; [vm_compute in HP; repeat (destruct HP as [<-|HP]; [split; discriminate|]); destruct HP|]). destruct HB.
  - constructor; [|constructor]. apply C92_values_everywhere. intros b p HB HP. vm_compute in HB.
    repeat (destruct HB as [<-|HB]; [vm_compute in HP; repeat (destruct HP as [<-|HP]; [cbn; intros HU; first [discriminate HU|split; reflexivity]|]); destruct HP|]). destruct HB.
Qed.
Definition compare (l : list (Z * string * (value * value))) : res bool :=
  match device_to_pics ex_env false (mkDevice (BInt 50000) [ex_m l]) with
  | Ok e => device_not_equal [ex_m l] (d_models (fst (device_from_pics ex_env 10 C_Device.ex_types (new_device 0) e)))
  | Raise x => Raise x
  end.
Example C92_ex : compare ex_vals = Ok false /\ compare [(0, "A_SF"%string, (VInt (-2), VNone)); (0, "C"%string, (VInt 3, VNone))] = Ok true.
Proof. split; vm_compute; reflexivity. Qed.
