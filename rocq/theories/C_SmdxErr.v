(** * C_SmdxErr: the exceptions of rejected model definitions (C59). *)
From Coq Require Import String.
From Verif Require Import Py P_List M_Suns M_Xml M_Mbmap M_Device M_Path M_Smdx S_Smdx P_Smdx P_SmdxErr C_Smdx.

(** A definition whose numbers are readable is accepted or rejected with a SunSpecError. *)
Theorem C59_error_partial oid root m e :
  model_element root m -> numbers_readable m -> model_from_smdx oid root = Raise e -> e = ESunSpec.
Proof.
  intros (r & HM) ((zi & si & HI & NI) & HL & HP) H.
  destruct (model_from_smdx_raise _ _ _ H) as (m' & r' & HF & HC).
  pose proof (findall_children SMDX_MODEL root) as HF'. rewrite HF in HF'. change SMDX_MODEL with (lit "model") in HF'.
  pose proof (children_of_fun _ _ _ _ HM HF') as HE. assert (m' = m) by congruence. subst m'.
  destruct HC as [HC|[HC|[(l & HC & HN)|(b & p & Hb & Hp & HN)]]]; [exact HC|exfalso..].
  - unfold attr, number in *. unfold x_get in HC. change (dget A_ID (x_attrs m)) with (dget (lit "id") (x_attrs m)) in HC.
    rewrite HI in HC. cbn [attr_int] in HC. congruence.
  - destruct (HL l HC) as (z & Hz). unfold number in Hz. congruence.
  - destruct (HP _ b _ p (findall_children SMDX_BLOCK m) Hb (findall_children SMDX_POINT b) Hp) as ((z & s & HO & NO) & HPL).
    destruct HN as [HN|(l & HN & HN')].
    + unfold attr, number, x_get in *. change (dget A_OFFSET (x_attrs p)) with (dget (lit "offset") (x_attrs p)) in HN.
      rewrite HO in HN. cbn [attr_int] in HN. congruence.
    + destruct (HPL l HN) as (z' & Hz). unfold number in Hz. congruence.
Qed.
(** a definition with a point without a type, in an otherwise good document *)
Definition err_doc (attrs : list (string * string)) : xml :=
  el "sunSpecModels" [] None
   [el "model" [("id", "100"); ("len", "2")]%string None
     [el "block" [("len", "2")]%string None
       [el "point" [("id", "A"); ("offset", "0"); ("type", "uint16")]%string None []; el "point" attrs None []]]].
Example C59_error_case : forall attrs, In attrs
   [[("offset", "1"); ("type", "uint16")]; [("id", "B"); ("offset", "1")]; [("id", "B"); ("offset", "1"); ("type", "word")];
    [("id", "B"); ("offset", "1"); ("type", "string")]; [("id", "B"); ("offset", "1"); ("type", "uint16"); ("mandatory", "yes")];
    [("id", "B"); ("offset", "1"); ("type", "uint16"); ("access", "w")]; [("id", "A"); ("offset", "1"); ("type", "uint16")]]%string ->
  (exists m, model_element (err_doc attrs) m /\ numbers_readable m) /\ model_from_smdx 0 (err_doc attrs) = Raise ESunSpec.
Proof.
  intros attrs HA.
  split.
  - eexists. split; [eexists; exact (findall_children SMDX_MODEL (err_doc attrs))|]. split.
    + exists 100, (lit "100"%string). split; [reflexivity|vm_compute; reflexivity].
    + split; [intros s Hs; apply Some_inj in Hs; subst s; exists 2; vm_compute; reflexivity|].
      intros bs b ps p Hbs Hb Hps Hp. rewrite (children_of_fun _ _ _ _ Hbs (findall_children SMDX_BLOCK (XE (lit "model"%string) _ _ _ _))) in Hb.
      destruct Hb as [<-|[]]. rewrite (children_of_fun _ _ _ _ Hps (findall_children SMDX_POINT (XE (lit "block"%string) _ _ _ _))) in Hp.
      destruct Hp as [<-|[<-|[]]].
      * split; [exists 0, (lit "0"%string); split; [reflexivity|vm_compute; reflexivity]|]. intros s Hs. discriminate Hs.
      * repeat (destruct HA as [<-|HA];
          [split; [exists 1, (lit "1"%string); split; [reflexivity|vm_compute; reflexivity]|intros s Hs; discriminate Hs]|]). destruct HA.
  - repeat (destruct HA as [<-|HA]; [vm_compute; reflexivity|]). destruct HA.
Qed.
(** In any case the exception is a SunSpecError, or the TypeError or ValueError of int(). *)
Theorem C59_error_kinds oid root e : model_from_smdx oid root = Raise e -> e = ESunSpec \/ e = EType \/ e = EValue.
Proof.
  intros H. destruct (model_from_smdx_raise _ _ _ H) as (m & r & _ & [HC|[HC|[(l & _ & HC)|(b & p & _ & _ & [HC|(l & _ & HC)])]]]);
    [auto|apply attr_int_raise in HC as [(_ & HC)|(s & _ & _ & HC)]; auto|apply int_of_str_raise in HC; auto
    |apply attr_int_raise in HC as [(_ & HC)|(s & _ & _ & HC)]; auto|apply int_of_str_raise in HC; auto].
Qed.
(** Both happen: a point without offset, and one with an offset that is no number. *)
Theorem C59_error_refuted :
  model_from_smdx 0 (err_doc [("id", "B"); ("type", "uint16")]%string) = Raise EType /\
  model_from_smdx 0 (err_doc [("id", "B"); ("offset", "one"); ("type", "uint16")]%string) = Raise EValue.
Proof. split; vm_compute; reflexivity. Qed.
(** Requests turn all of them into SunSpecErrors: when the document found for an id can be parsed, a failing request raises
    SunSpecError and registers nothing. *)
Theorem C59_request_error V st id d st' e :
  te_fs V (model_id_to_filename id) = Some (FFile d None) -> te_paths V = None ->
  (forall e, te_parse V d <> Raise e) -> model_type_get V st id = (st', Raise e) ->
  e = ESunSpec /\ ts_types st' = ts_types st.
Proof.
  intros HF HP HX. unfold model_type_get, smdx_data. rewrite HP. cbn [bind].
  destruct (tget _ _); [intros H; apply pair_equal_spec in H as [_ H]; discriminate|].
  unfold fs_exists. rewrite HF. cbv zeta. rewrite HF.
  destruct d as [|c d]; [intros H; apply pair_equal_spec in H as [<- H]; split; [congruence|reflexivity]|].
  destruct (te_parse V (c :: d)) as [root|e0] eqn:EP; [|exfalso; eapply HX; eauto].
  destruct (model_from_smdx (ts_next st) root); intros H; apply pair_equal_spec in H as [<- H]; [discriminate|].
  split; [congruence|reflexivity].
Qed.
Example C59_request_error_case : exists V st' e, te_fs V (model_id_to_filename 100) = Some (FFile [1] None) /\ te_paths V = None /\
  (forall e, te_parse V [1] <> Raise e) /\ model_type_get V initial_types 100 = (st', Raise e).
Proof.
  exists (mkTE (fun n => if eqb_list n (model_id_to_filename 100) then Some (FFile [1] None) else None) None []
            (fun _ => Ok (err_doc [("id", "B"); ("type", "uint16")]%string))).
  do 2 eexists. split; [vm_compute; reflexivity|]. split; [reflexivity|]. split; [discriminate|vm_compute; reflexivity].
Qed.
Print Assumptions C59_error_partial.
Print Assumptions C59_error_kinds.
Print Assumptions C59_error_refuted.
Print Assumptions C59_request_error.
