(** * C_Smdx: model definitions (C59-C61). *)
From Coq Require Import String.
From Verif Require Import Py P_List M_Util M_Float M_Suns P_IntText M_Xml M_Mbmap M_Device M_Path M_Smdx S_Codec S_Smdx P_Smdx P_SmdxGet.

(** ** Example document *)
Definition el (tag : string) (attrs : list (string * string)) (text : option string) (children : list xml) : xml :=
  XE (lit tag) (map (fun kv => (lit (fst kv), lit (snd kv))) attrs) (option_map lit text) None children.
Definition ex_doc : xml :=
  el "sunSpecModels" [] None
   [el "model" [("id", "100"); ("len", "4"); ("name", "demo")]%string None
     [el "block" [("len", "4")]%string None
       [el "point" [("id", "A"); ("offset", "0"); ("type", "uint16"); ("sf", "A_SF"); ("access", "rw"); ("mandatory", "true")]%string None
          [el "symbol" [("id", "OFF")]%string (Some "1"%string) []];
        el "point" [("id", "N"); ("offset", "1"); ("type", "string"); ("len", "2")]%string None [];
        el "point" [("id", "A_SF"); ("offset", "3"); ("type", "sunssf")]%string None []];
      el "block" [("len", "1"); ("type", "repeating")]%string None
       [el "point" [("id", "R"); ("offset", "0"); ("type", "int16")]%string None []]];
    el "strings" [("id", "100"); ("locale", "en")]%string None [el "model" [] None [el "label" [] (Some "Demo"%string) []]]].
Example ex_doc_loads : exists t, model_from_smdx 7 ex_doc = Ok t /\ mt_id t = Some 100 /\ mt_label t = Some (lit "Demo") /\
  map pt_id (bt_points (mt_fixed t)) = [lit "A"; lit "N"; lit "A_SF"] /\ map pt_len (bt_points (mt_fixed t)) = [1; 2; 1].
Proof. eexists. split; [vm_compute; reflexivity|]. repeat split; vm_compute; reflexivity. Qed.

(** ** C59 *)
(** Everything loaded is described by the document: the model element's id, length and name; the only fixed and the only
    repeating block; their points in document order with distinct ids; type, access and mandatory from the known sets. *)
Theorem C59_loaded oid root t m : model_from_smdx oid root = Ok t -> model_element root m -> model_described m t.
Proof.
  intros H (r & HM). destruct (model_from_smdx_sound _ _ _ H) as (_ & [(HN & _)|(m' & (r' & HM') & _ & HD)]).
  - pose proof (children_of_fun _ _ _ _ HM HN). discriminate.
  - pose proof (children_of_fun _ _ _ _ HM HM') as HE. assert (m = m') by congruence. now subst.
Qed.
Example C59_loaded_case : exists t m, model_from_smdx 7 ex_doc = Ok t /\ model_element ex_doc m.
Proof.
  destruct ex_doc_loads as (t & H & _). exists t. pose proof (findall_children SMDX_MODEL ex_doc) as HC.
  eexists. split; [exact H|]. eexists. exact HC.
Qed.
(** A document with a model element is accepted exactly when that element is valid. *)
Theorem C59_accepted_iff oid root m : model_element root m ->
  ((exists t, model_from_smdx oid root = Ok t) <-> valid_model m).
Proof.
  intros HM. split.
  - intros (t & H). destruct (model_from_smdx_sound _ _ _ H) as (_ & [(HN & _)|(m' & HM' & HV & _)]).
    + destruct HM as (r & HM). pose proof (children_of_fun _ _ _ _ HM HN). discriminate.
    + destruct HM as (r & HM), HM' as (r' & HM'). pose proof (children_of_fun _ _ _ _ HM HM') as HE.
      assert (m = m') by congruence. now subst.
  - intros HV. apply model_from_smdx_complete. right. eauto.
Qed.
Example C59_accepted_case : exists m, model_element ex_doc m /\ valid_model m.
Proof.
  destruct C59_loaded_case as (t & m & H & HM). exists m. split; [exact HM|]. apply (C59_accepted_iff 7 ex_doc m HM). eauto.
Qed.
(** Not every other definition is rejected: a document without a model element is accepted, as an empty model without id. *)
Theorem C59_no_model_refuted : forall oid root, no_model_element root ->
  exists t, model_from_smdx oid root = Ok t /\ mt_id t = None /\ mt_len t = None /\ mt_fixed t = empty_fixed_block /\ mt_rep t = None.
Proof.
  intros oid root HN. destruct (model_from_smdx_complete oid root (or_introl HN)) as (t & H). exists t. split; [exact H|].
  destruct (model_from_smdx_sound _ _ _ H) as (_ & [(_ & A & B & _ & C & D)|(m' & (r & HM') & _)]); [auto|].
  pose proof (children_of_fun _ _ _ _ HN HM'). discriminate.
Qed.
Example C59_no_model_case : no_model_element (el "sunSpecModels" [] None []).
Proof. constructor. Qed.
(** Nor are the lengths of blocks checked to be numbers, nor offsets to be distinct. *)
Definition bad_doc : xml :=
  el "sunSpecModels" [] None
   [el "model" [("id", "100"); ("len", "4")]%string None
     [el "block" [("len", "many")]%string None
       [el "point" [("id", "A"); ("offset", "0"); ("type", "uint16")]%string None [];
        el "point" [("id", "B"); ("offset", "0"); ("type", "uint16")]%string None []]]].
Theorem C59_layout_refuted : exists t p q, model_from_smdx 0 bad_doc = Ok t /\ bt_points (mt_fixed t) = [p; q] /\
  pt_offset p = pt_offset q /\ (forall z, bt_len (mt_fixed t) <> BInt z) /\ (forall s, bt_len (mt_fixed t) = BStr s -> forall z, int_of_str s <> Ok z).
Proof.
  do 3 eexists. split; [vm_compute; reflexivity|]. split; [reflexivity|]. split; [reflexivity|]. split; [discriminate|].
  intros s H z. cbn [bt_len mt_fixed] in H. assert (s = lit "many"%string) by (apply (f_equal (fun b => match b with BStr x => x | BInt _ => [] end)) in H; cbv beta iota in H; rewrite <- H; reflexivity).
  subst s. vm_compute. discriminate.
Qed.

(** ** C60 *)
(** Every request that succeeds reads and parses the definition file again, whatever was requested before. *)
Theorem C60_always_reads_refuted V ids st l : requests V initial_types ids = (st, l) ->
  ts_parsed st = flat_map (fun i => match smdx_data V (model_id_to_filename i) with Ok (Some d) => [d] | _ => [] end) ids /\
  (length (filter is_ok l) <= length (ts_parsed st))%nat.
Proof.
  intros H. destruct (requests_answers V ids initial_types st l ltac:(constructor) H) as (_ & HF & HP). cbn [ts_parsed initial_types app] in HP.
  split; [exact HP|]. rewrite HP. clear HP H. induction HF as [|i a ids l HA _ IH]; cbn [filter flat_map length]; [lia|].
  destruct a as [t|e]; cbn [is_ok].
  - unfold same_answer in HA. destruct (answer V i) as [t'|] eqn:EA; [|contradiction]. destruct (answer_ok_data _ _ _ EA) as (d & ->).
    cbn [app length]. lia.
  - rewrite app_length. lia.
Qed.
(** Two requests for the same, valid definition: it is read twice. *)
Definition ex_env : tenv := mkTE (fun p => if eqb_list p (lit "./smdx_00100.xml"%string) then Some (FFile [1] None) else None) None (lit "."%string) (fun _ => Ok ex_doc).
Theorem C60_second_read_refuted : exists V st a b, requests V initial_types [100; 100] = (st, [Ok a; Ok b]) /\
  length (ts_parsed st) = 2%nat /\ mt_oid a <> mt_oid b.
Proof. exists ex_env. do 3 eexists. split; [vm_compute; reflexivity|]. split; [reflexivity|discriminate]. Qed.
(** Every definition answered is an object of its own, with its own number. *)
Theorem C60_distinct_objects V ids st l : requests V initial_types ids = (st, l) ->
  NoDup (flat_map (fun a => match a with Ok t => [mt_oid t] | Raise _ => [] end) l).
Proof.
  assert (G : forall ids st st' l, requests V st ids = (st', l) -> Forall (fun kv : tkey * modeltype => exists i, fst kv = KId i) (ts_types st) ->
    NoDup (flat_map (fun a => match a with Ok t => [mt_oid t] | Raise _ => [] end) l) /\
    Forall (fun o => ts_next st <= o) (flat_map (fun a => match a with Ok t => [mt_oid t] | Raise _ => [] end) l)).
  { clear. induction ids as [|i ids IH]; intros st st' l H HO; cbn [requests] in H.
    - apply pair_equal_spec in H as [_ <-]. split; constructor.
    - destruct (model_type_get V st i) as [st1 a] eqn:E1. destruct (requests V st1 ids) as [st2 l2] eqn:E2.
      apply pair_equal_spec in H as [_ <-].
      assert (HA : Forall (fun kv : tkey * modeltype => exists i, fst kv = KId i) (ts_types st1) /\ ts_next st <= ts_next st1 /\
                   forall t, a = Ok t -> mt_oid t = ts_next st /\ ts_next st < ts_next st1).
      { split; [exact (proj1 (get_answer _ _ _ _ _ HO E1))|]. clear -E1 HO. unfold model_type_get in E1. rewrite only_ids_miss in E1 by auto.
        destruct (smdx_data V (model_id_to_filename i)) as [ [d|]|e].
        - destruct (te_parse V d) as [root|e].
          + rewrite model_from_smdx_oid in E1. destruct (model_from_smdx 0 root) as [t|e]; apply pair_equal_spec in E1 as [<- <-]; cbn [ts_next].
            * split; [lia|]. intros t' H. apply Ok_inj in H. subst t'. split; [reflexivity|lia].
            * split; [lia|]. discriminate.
          + apply pair_equal_spec in E1 as [<- <-]. cbn [ts_next]. split; [lia|discriminate].
        - apply pair_equal_spec in E1 as [<- <-]. split; [lia|discriminate].
        - apply pair_equal_spec in E1 as [<- <-]. split; [lia|discriminate]. }
      destruct HA as (HO1 & HN & HT). destruct (IH _ _ _ E2 HO1) as [H1 H2]. cbn [flat_map].
      assert (H3 : Forall (fun o => ts_next st <= o) (flat_map (fun a => match a with Ok t => [mt_oid t] | Raise _ => [] end) l2)).
      { eapply Forall_impl; [|exact H2]. intros o Ho. cbn beta in *. lia. }
      destruct a as [t|e]; cbn [app]; [|split; assumption]. destruct (HT t eq_refl) as [EO HL]. split.
      + constructor; [|exact H1]. intros HI. rewrite Forall_forall in H2. specialize (H2 _ HI). cbn beta in H2. lia.
      + constructor; [lia|exact H3]. }
  intros H. exact (proj1 (G ids initial_types st l H (Forall_nil _))).
Qed.
(** As long as the files do not change, all requests for an id give the same definition (or the same error). *)
Theorem C60_same_definition_partial V ids st l i j a b id :
  requests V initial_types ids = (st, l) ->
  nth_error ids i = Some id -> nth_error ids j = Some id -> nth_error l i = Some a -> nth_error l j = Some b ->
  same_answer a b.
Proof.
  intros H H1 H2 H3 H4. destruct (requests_answers V ids initial_types st l ltac:(constructor) H) as (_ & HF & _).
  assert (HG : forall k x, nth_error ids k = Some id -> nth_error l k = Some x -> same_answer x (answer V id)).
  { clear -HF. induction HF as [|i0 a0 ids l HA _ IH]; intros [|k] x Hx Hy; try discriminate.
    - cbn [nth_error] in Hx, Hy. apply Some_inj in Hx, Hy. subst. exact HA.
    - cbn [nth_error] in Hx, Hy. eapply IH; eauto. }
  eapply same_answer_trans; eauto.
Qed.
Example C60_same_case : exists st a b, requests ex_env initial_types [100; 5; 100] = (st, [Ok a; Raise ESunSpec; Ok b]).
Proof. do 3 eexists. vm_compute. reflexivity. Qed.
(** A missing definition is reported as SunSpecError. *)
Theorem C60_missing V st id : ts_types st = [] ->
  te_paths V = None -> te_fs V (model_id_to_filename id) = None -> te_fs V (te_default V ++ [SEP] ++ model_id_to_filename id) = None ->
  snd (model_type_get V st id) = Raise ESunSpec.
Proof.
  intros H1 H2 H3 H4. unfold model_type_get. rewrite H1. cbn [tget]. unfold smdx_data. rewrite H2. cbn [bind].
  unfold fs_exists. rewrite H3, H4. reflexivity.
Qed.

(** ** C61 *)
Theorem C61_round_trip z : model_filename_to_id (model_id_to_filename z) = Some z.
Proof. apply filename_spec. exists (format_05d z). split; [reflexivity|apply format_05d_reads]. Qed.
Theorem C61_injective a b : model_id_to_filename a = model_id_to_filename b -> a = b.
Proof. intros H. pose proof (C61_round_trip a) as HA. rewrite H, C61_round_trip in HA. now apply Some_inj in HA. Qed.
(** Exactly the names smdx_<number>.xml have an id. *)
Theorem C61_names f z : model_filename_to_id f = Some z <->
  exists t, f = lit "smdx_"%string ++ t ++ lit ".xml"%string /\ number t z.
Proof. apply filename_spec. Qed.
(** Ids of up to five digits are written with exactly five digits. *)
Theorem C61_five_digits z : 0 <= z < 100000 ->
  exists ds, model_id_to_filename z = lit "smdx_"%string ++ ds ++ lit ".xml"%string /\ length ds = 5%nat /\
             Forall (fun c => 48 <= c <= 57) ds.
Proof.
  intros Hz. exists (format_05d z). split; [reflexivity|]. unfold format_05d. rewrite (proj2 (Z.ltb_ge z 0)) by lia.
  unfold zfill. destruct (dec_digits_spec (S (Z.to_nat (Z.log2 z))) z ltac:(lia) ltac:(lia)) as (H1 & H2 & H3 & H4).
  fold (dec_nonneg z) in *. split.
  - rewrite app_length, repeat_length. enough (length (dec_nonneg z) <= 5)%nat by lia.
    destruct (Nat.le_gt_cases (length (dec_nonneg z)) 5) as [|Hgt]; [assumption|exfalso].
    destruct (dec_nonneg z) as [|c ds]; [congruence|]. cbn [length] in Hgt. pose proof (Forall_inv H3) as Hc. pose proof (Forall_inv_tail H3) as Hds. cbv beta in Hc.
    destruct (Z.eq_dec c 48) as [->|Hne]; [specialize (H2 eq_refl); apply (f_equal (@length Z)) in H2; cbn [length] in H2; lia|].
    assert (HB : forall l acc, Forall (fun c => 48 <= c <= 57) l -> 0 <= acc -> acc * 10 ^ zlen l <= fold_left (fun acc c => acc * 10 + (c - 48)) l acc).
    { clear. induction l as [|c l IH]; intros acc HF Ha; [cbn [fold_left]; change (zlen []) with 0; lia|].
      inversion HF; subst. cbn [fold_left]. rewrite zlen_cons, Z.pow_add_r by (pose proof (zlen_nonneg l); lia).
      pose proof (IH (acc * 10 + (c - 48)) H2 ltac:(lia)). pose proof (Z.pow_nonneg 10 (zlen l) ltac:(lia)). nia. }
    unfold dec_value in H4. cbn [fold_left] in H4. pose proof (HB ds (0 * 10 + (c - 48)) Hds ltac:(lia)) as HB1. rewrite H4 in HB1.
    assert (5 <= zlen ds) by (unfold zlen; lia). pose proof (Z.pow_le_mono_r 10 5 (zlen ds) ltac:(lia) ltac:(lia)).
    change (10 ^ 5) with 100000 in *. nia.
  - apply Forall_app. split; [|exact H3]. apply Forall_forall. intros x Hx. apply repeat_spec in Hx. subst. lia.
Qed.
Example C61_case : model_id_to_filename 103 = lit "smdx_00103.xml"%string /\ model_filename_to_id (lit "smdx_64001.xml"%string) = Some 64001 /\
  model_filename_to_id (lit "smdx_abc.xml"%string) = None.
Proof. repeat split; vm_compute; reflexivity. Qed.

Print Assumptions C59_loaded.
Print Assumptions C59_accepted_iff.
Print Assumptions C59_no_model_refuted.
Print Assumptions C59_layout_refuted.
Print Assumptions C60_always_reads_refuted.
Print Assumptions C60_second_read_refuted.
Print Assumptions C60_same_definition_partial.
Print Assumptions C60_missing.
Print Assumptions C61_round_trip.
Print Assumptions C61_injective.
Print Assumptions C61_names.
Print Assumptions C61_five_digits.
Print Assumptions C60_distinct_objects.
