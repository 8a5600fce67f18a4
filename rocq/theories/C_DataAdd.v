(** * C_DataAdd: reading a record into an object that already has content (C91). *)
From Coq Require Import String.
From Verif Require Import Py P_List M_Util M_Float M_Suns M_Point M_Data S_Data P_Data C_Data.

(** Reading into an object succeeds or fails as reading into a new one does; what the object had stays, and what the new
    one would have comes after it, in the order of the document.  The labels are those of the document. *)
Theorem C91_record : forall E s e, sdata_from_xml E s e =
  match sdata_new E e with Ok n => Ok (mkSD (sd_version n) (sd_devices s ++ sd_devices n)) | Raise x => Raise x end.
Proof.
  intros E s e. unfold sdata_new, sdata_from_xml. destruct (eqb_list (e_tag e) SDX_SUNSPEC_DATA); [|reflexivity].
  destruct (mapM _ (e_children e)); reflexivity.
Qed.
Print Assumptions C91_record.
Theorem C91_device : forall E d e, device_from_xml E d e =
  match device_from_xml E new_ddata e with
  | Ok n => Ok (mkDD (dd_logger_id n) (dd_namespace n) (dd_device_id n) (dd_ifc n) (dd_man n) (dd_mod n) (dd_sn n) (dd_timestamp d) (dd_time n) (dd_cid n)
                     (dd_models d ++ dd_models n))
  | Raise x => Raise x end.
Proof. intros E d e. unfold device_from_xml. destruct (mapM _ (e_children e)); reflexivity. Qed.
Print Assumptions C91_device.
Theorem C91_model : forall E m e, model_from_xml m e =
  match model_from_xml (new_mdata E) e with
  | Ok n => Ok (mkMD (md_model_id n) (md_namespace n) (md_index n) (md_points m ++ md_points n))
  | Raise x => Raise x end.
Proof. intros E m e. unfold model_from_xml. destruct (opt_int (e_get SDX_MODEL_INDEX e)); [|reflexivity]. cbn [bind]. destruct (mapM _ (e_children e)); reflexivity. Qed.
Print Assumptions C91_model.
(** so records read one after the other into one object leave the devices of all of them, in order *)
Fixpoint read_all (E : pyenv) (s : sdata) (es : list elem) : res sdata :=
  match es with [] => Ok s | e :: r => let! s1 := sdata_from_xml E s e in read_all E s1 r end.
Theorem C91_stream : forall E es ns s, Forall2 (fun e n => sdata_new E e = Ok n) es ns ->
  exists s', read_all E s es = Ok s' /\ sd_devices s' = sd_devices s ++ concat (map sd_devices ns).
Proof.
  intros E es ns s H. revert s. induction H as [|e n es ns HE _ IH]; intros s; cbn [read_all map concat].
  - exists s. now rewrite app_nil_r.
  - rewrite C91_record, HE. cbn [bind]. destruct (IH (mkSD (sd_version n) (sd_devices s ++ sd_devices n))) as (s' & H1 & H2). exists s'. split; [exact H1|].
    rewrite H2. cbn [sd_devices]. now rewrite app_assoc.
Qed.
Print Assumptions C91_stream.
(** a model with a point, read twice into the same object, has it twice *)
Definition add_elem : elem := DE (lit "m"%string) [(lit "id", s_ "103")]%string VNone [DE (lit "p"%string) [(lit "id", s_ "W")]%string (s_ "42") []].
Example C91_ex : exists n m, model_from_xml (new_mdata ex_env) add_elem = Ok n /\ model_from_xml n add_elem = Ok m /\
  map pd_value (md_points n) = [s_ "42"] /\ map pd_value (md_points m) = [s_ "42"; s_ "42"].
Proof. do 2 eexists. split; [vm_compute; reflexivity|]. split; [vm_compute; reflexivity|]. split; reflexivity. Qed.
Definition add_record : elem := DE (lit "sunSpecData"%string) [] VNone [DE (lit "d"%string) [(lit "id", s_ "dev")]%string VNone [add_elem]].
Example C91_stream_ex : exists n s', sdata_new ex_env add_record = Ok n /\ read_all ex_env n [add_record; add_record] = Ok s' /\
  map dd_device_id (sd_devices s') = [s_ "dev"; s_ "dev"; s_ "dev"].
Proof. do 2 eexists. split; [vm_compute; reflexivity|]. split; [vm_compute; reflexivity|]. reflexivity. Qed.
