(** * C_Files: properties C78 (map and PICS files) and C79 (model definition files). *)
From Coq Require Import String.
From Verif Require Import Py P_List M_Xml M_Path M_Suns M_Float M_Mbmap M_Device M_Smdx M_Pics M_Files S_Files.
From Verif Require C_Mbmap.

Lemma try_nothing fs ps name : nothing fs ps name -> try_paths fs ps name = Ok [].
Proof. intros [->|(l & -> & [H|H])]; unfold try_paths; [reflexivity| |]; now rewrite H. Qed.
Lemma try_provides fs ps name d : provides fs ps name d -> try_paths fs ps name = Ok d.
Proof. intros (_ & l & -> & H). unfold try_paths. now rewrite H. Qed.
Lemma pics_data_found fs supplied current name d : pics_found fs supplied current name d -> pics_data fs supplied current name = Ok d.
Proof.
  unfold pics_data. destruct 1 as [d H|d H1 H2|d H1 H2 (z & H3)].
  - rewrite (try_provides _ _ _ _ H). cbn [bind]. destruct H as [Hd _]. destruct d; [congruence|reflexivity].
  - rewrite (try_nothing _ _ _ H1). cbn [bind]. rewrite (try_provides _ _ _ _ H2). cbn [bind]. destruct H2 as [Hd _]. destruct d; [congruence|reflexivity].
  - rewrite (try_nothing _ _ _ H1). cbn [bind]. rewrite (try_nothing _ _ _ H2). cbn [bind]. unfold open_read. now rewrite H3.
Qed.
Lemma try_ok fs ps name d : try_paths fs ps name = Ok d -> nothing fs ps name /\ d = [] \/ provides fs ps name d.
Proof.
  destruct ps as [l|]; cbn [try_paths].
  - destruct (pathlist_read fs l name) as [x|e] eqn:E.
    + intros H. apply Ok_inj in H. subst x. destruct d as [|c d].
      * left. split; [|reflexivity]. right. exists l. auto.
      * right. split; [discriminate|]. exists l. auto.
    + destruct e; try discriminate. intros H. apply Ok_inj in H. subst d. left. split; [|reflexivity]. right. exists l. auto.
  - intros H. apply Ok_inj in H. subst d. left. split; [now left|reflexivity].
Qed.
Lemma pics_data_ok fs supplied current name d : pics_data fs supplied current name = Ok d -> pics_found fs supplied current name d.
Proof.
  unfold pics_data. intros H. apply bind_ok in H as (d1 & H1 & H). apply bind_ok in H as (d2 & H2 & H).
  destruct (try_ok _ _ _ _ H1) as [[N1 ->]|P1].
  - destruct (try_ok _ _ _ _ H2) as [[N2 ->]|P2].
    + apply pf_local; auto. unfold open_read in H. destruct (fs name) as [[|c z]|] eqn:E; try discriminate.
      apply Ok_inj in H. subst c. exists z. exact E.
    + assert (d2 = d) as <- by (destruct P2 as [Hd _]; destruct d2; [congruence|now apply Ok_inj in H]). now apply pf_current.
  - destruct d1 as [|c d1]; [destruct P1; congruence|]. apply Ok_inj in H2. subst d2. apply Ok_inj in H. subst d. now apply pf_supplied.
Qed.

(** ** C78 *)
(** PICS: loading by name is loading the parsed content of the file found first in the documented order ... *)
Theorem C78_pics_file :
  forall E fuel types fs parse d name supplied current c root,
  pics_found fs supplied current name c -> parse c = Ok root ->
  device_from_file E fuel types fs parse d name supplied current = device_from_doc E fuel types d root.
Proof. intros. unfold device_from_file. rewrite (pics_data_found _ _ _ _ _ H). cbn [bind]. now rewrite H0. Qed.
Print Assumptions C78_pics_file.
(** ... and if there is none, or it is no XML, a SunSpecError is raised and the device is as it was *)
Theorem C78_pics_missing :
  forall E fuel types fs parse d name supplied current,
  (forall c root, pics_found fs supplied current name c -> parse c <> Ok root) ->
  device_from_file E fuel types fs parse d name supplied current = (d, Raise ESunSpec).
Proof.
  intros E fuel types fs parse d name supplied current H. unfold device_from_file.
  destruct (pics_data fs supplied current name) as [c|e] eqn:EC; cbn [bind]; [|reflexivity].
  destruct (parse c) as [root|e] eqn:ER; [|reflexivity]. destruct (H c root); [now apply pics_data_ok|exact ER].
Qed.
Print Assumptions C78_pics_missing.
(** maps: with a path list only the path list is searched, without one the name is opened; every failure to find or parse
    the file is a ModbusMapError and leaves the map as it was *)
Theorem C78_map_file :
  forall E fs parse m name pathlist c root,
  match pathlist with Some l => pathlist_read fs l name = Ok c | None => file_has fs name c end -> parse c = Ok root ->
  map_from_file E fs parse m name pathlist = map_from_xml E m root.
Proof.
  intros E fs parse m name pathlist c root H HP. unfold map_from_file, mbmap_data.
  destruct pathlist as [l|]; [rewrite H|destruct H as [z H]; unfold open_read; rewrite H]; cbn [bind]; now rewrite HP.
Qed.
Print Assumptions C78_map_file.
Theorem C78_map_missing :
  forall E fs parse m name pathlist,
  (forall c root, match pathlist with Some l => pathlist_read fs l name = Ok c | None => file_has fs name c end -> parse c <> Ok root) ->
  map_from_file E fs parse m name pathlist = (m, Raise EModbusMap).
Proof.
  intros E fs parse m name pathlist H. unfold map_from_file, mbmap_data. destruct pathlist as [l|].
  - destruct (pathlist_read fs l name) as [c|]; cbn [bind]; [|reflexivity]. destruct (parse c) eqn:EP; [|reflexivity]. destruct (H c a eq_refl EP).
  - unfold open_read. destruct (fs name) as [[|c z]|] eqn:EF; cbn [bind]; try reflexivity.
    destruct (parse c) eqn:EP; [|reflexivity]. destruct (H c a); [exists z; exact EF|exact EP].
Qed.
Print Assumptions C78_map_missing.
Example C78_ex :
  let fs : fsys := fun p => if eqb_list p (lit "a/f"%string) then Some (FFile [1] None) else if eqb_list p (lit "b/f"%string) then Some (FFile [2] None)
                     else if eqb_list p (lit "f"%string) then Some (FFile [3] None) else None in
  let f := lit "f"%string in
  pics_found fs (Some [lit "c"%string; lit "a"%string]) (Some [lit "b"%string]) f [1] /\
  pics_found fs (Some [lit "c"%string]) (Some [lit "b"%string]) f [2] /\
  pics_found fs (Some [lit "c"%string]) None f [3].
Proof.
  cbv zeta. split; [|split].
  - apply pf_supplied. split; [discriminate|]. eexists. split; [reflexivity|]. vm_compute. reflexivity.
  - apply pf_current.
    + right. eexists. split; [reflexivity|]. left. vm_compute. reflexivity.
    + split; [discriminate|]. eexists. split; [reflexivity|]. vm_compute. reflexivity.
  - apply pf_local; [|now left|].
    + right. eexists. split; [reflexivity|]. left. vm_compute. reflexivity.
    + exists None. vm_compute. reflexivity.
Qed.

(** ** C79 *)
(** the definition used for a model that is not in the cache is the content of the file found first, provided there is no
    empty file of that name in the working directory *)
Theorem C79_definition_file_partial :
  forall V st id d root t, tget (KText (str_of_int id)) (ts_types st) = None ->
  definition_found (te_fs V) (te_paths V) (te_default V) (model_id_to_filename id) d ->
  ~ file_has (te_fs V) (model_id_to_filename id) [] ->
  te_parse V d = Ok root -> model_from_smdx (ts_next st) root = Ok t ->
  snd (model_type_get V st id) = Ok t.
Proof.
  intros V st id d root t HC HF HE HP HM. unfold model_type_get. rewrite HC.
  assert (ED : smdx_data V (model_id_to_filename id) = Ok (Some d)).
  { unfold smdx_data. set (name := model_id_to_filename id) in *.
    destruct HF as [d (Hd & l & EL & HR)|d HN (z & HL) Hd|d HN HL (z & HPk) Hd].
    - rewrite EL, HR. cbn [bind]. destruct d; [congruence|reflexivity].
    - assert (exists o, match te_paths V with
             | None => Ok None
             | Some ps => match pathlist_read (te_fs V) ps name with Ok d => Ok (Some d) | Raise EName => Ok None | Raise e => Raise e end
             end = Ok o /\ (o = None \/ o = Some [])) as (o & -> & Ho).
      { destruct HN as [->|(l & -> & [HN|HN])]; [eauto| |]; rewrite HN; eauto. }
      cbn [bind]. unfold fs_exists. rewrite HL. cbv zeta. rewrite HL. destruct Ho as [-> | ->]; (destruct d; [congruence|reflexivity]).
    - assert (exists o, match te_paths V with
             | None => Ok None
             | Some ps => match pathlist_read (te_fs V) ps name with Ok d => Ok (Some d) | Raise EName => Ok None | Raise e => Raise e end
             end = Ok o /\ (o = None \/ o = Some [])) as (o & -> & Ho).
      { destruct HN as [->|(l & -> & [HN|HN])]; [eauto| |]; rewrite HN; eauto. }
      destruct HL as [HL|HL]; [|contradiction].
      cbn [bind]. unfold fs_exists. rewrite HL. cbv zeta. rewrite HPk. destruct Ho as [-> | ->]; (destruct d; [congruence|reflexivity]). }
  rewrite ED, HP, HM. reflexivity.
Qed.
Print Assumptions C79_definition_file_partial.
(** without that proviso it is false: an empty file in the working directory hides the definition of the package *)
Theorem C79_empty_file_hides_refuted :
  forall V st id d, tget (KText (str_of_int id)) (ts_types st) = None -> nothing (te_fs V) (te_paths V) (model_id_to_filename id) ->
  file_has (te_fs V) (model_id_to_filename id) [] -> file_has (te_fs V) (te_default V ++ [SEP] ++ model_id_to_filename id) d ->
  snd (model_type_get V st id) = Raise ESunSpec.
Proof.
  intros V st id d HC HN (z & HE) _. unfold model_type_get. rewrite HC. unfold smdx_data. set (name := model_id_to_filename id) in *.
  assert (exists o, match te_paths V with
             | None => Ok None
             | Some ps => match pathlist_read (te_fs V) ps name with Ok d => Ok (Some d) | Raise EName => Ok None | Raise e => Raise e end
             end = Ok o /\ (o = None \/ o = Some [])) as (o & -> & Ho).
  { destruct HN as [->|(l & -> & [HN|HN])]; [eauto| |]; rewrite HN; eauto. }
  cbn [bind]. unfold fs_exists. rewrite HE. cbv zeta. rewrite HE. destruct Ho as [-> | ->]; reflexivity.
Qed.
Print Assumptions C79_empty_file_hides_refuted.
(** a definition that is no XML is not reported as SunSpecError: whatever the parser raises comes through *)
Theorem C79_malformed_refuted :
  forall V st id d e, tget (KText (str_of_int id)) (ts_types st) = None ->
  definition_found (te_fs V) (te_paths V) (te_default V) (model_id_to_filename id) d -> te_paths V = None ->
  fs_exists (te_fs V) (model_id_to_filename id) = false -> te_parse V d = Raise e ->
  snd (model_type_get V st id) = Raise e.
Proof.
  intros V st id d e HC HF HN HX HP. unfold model_type_get. rewrite HC. unfold smdx_data. rewrite HN, HX. cbn [bind]. cbv zeta.
  unfold fs_exists in HX. destruct HF as [d (_ & l & EL & _)|d _ (z & HL) Hd|d _ _ (z & HPk) Hd].
  - congruence.
  - rewrite HL in HX. discriminate.
  - rewrite HPk. destruct d; [congruence|]. now rewrite HP.
Qed.
Print Assumptions C79_malformed_refuted.
Example C79_ex :
  let fs : fsys := fun p => if eqb_list p (lit "/m/smdx_00001.xml"%string) then Some (FFile [1] None) else None in
  definition_found fs (Some [lit "x"%string]) (lit "/m"%string) (model_id_to_filename 1) [1] /\
  ~ file_has fs (model_id_to_filename 1) [] /\ fs_exists fs (model_id_to_filename 1) = false.
Proof.
  cbv zeta. split; [|split].
  - apply df_package; [|left; vm_compute; reflexivity|exists None; vm_compute; reflexivity|discriminate].
    right. eexists. split; [reflexivity|]. left. vm_compute. reflexivity.
  - intros [z H]. vm_compute in H. discriminate.
  - vm_compute. reflexivity.
Qed.
(** check_for_models(pathlist) does not look into the path list it is given *)
Theorem C79_check_ignores_paths_refuted :
  exists V st ps d, pathlist_read (te_fs V) ps (model_id_to_filename 1) = Ok d /\ d <> [] /\
  snd (check_for_models V st (Some ps)) = false.
Proof.
  exists (mkTE (fun p => if eqb_list p (lit "/m/smdx_00001.xml"%string) then Some (FFile [1] None) else None) None (lit "."%string) (fun _ => Raise EType)),
    initial_types, [lit "/m"%string], [1].
  split; [vm_compute; reflexivity|]. split; [discriminate|]. vm_compute. reflexivity.
Qed.
Print Assumptions C79_check_ignores_paths_refuted.
(** it succeeds whenever the definition of model 1 can be loaded *)
Theorem C79_check_succeeds_partial :
  forall V st pathlist, (exists t, snd (model_type_get V st 1) = Ok t) <-> snd (check_for_models V st pathlist) = true.
Proof.
  intros V st pathlist. unfold check_for_models. destruct (model_type_get V st 1) as [st' [t|e]]; cbn [snd].
  - split; [reflexivity|eauto].
  - split; [intros [t H]; discriminate|discriminate].
Qed.
Print Assumptions C79_check_succeeds_partial.
