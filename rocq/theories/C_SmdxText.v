(** * C_SmdxText: texts and symbols of loaded model definitions (C75, C76). *)
From Coq Require Import String.
From Verif Require Import Py P_List M_Util M_Float M_Suns M_Xml M_Mbmap M_Device M_Path M_Smdx S_Smdx P_Smdx P_SmdxText.

Definition el (tag : string) (attrs : list (string * string)) (text : option string) (children : list xml) : xml :=
  XE (lit tag) (map (fun kv => (lit (fst kv), lit (snd kv))) attrs) (option_map lit text) None children.
Definition txt (tag t : string) : xml := el tag [] (Some t) [].

(** ** C75 *)
(** A document with texts in the model, in strings sections and in a section for another model. *)
Definition ex_texts : xml :=
  el "sunSpecModels" [] None
   [el "model" [("id", "100"); ("len", "4")]%string None
     [el "block" [("len", "3")]%string None
       [el "point" [("id", "A"); ("offset", "0"); ("type", "uint16")]%string None [txt "label" "own label"; txt "notes" "own notes"];
        el "point" [("id", "Pad"); ("offset", "1"); ("type", "pad")]%string None []];
      el "block" [("len", "1"); ("type", "repeating")]%string None
       [el "point" [("id", "R"); ("offset", "0"); ("type", "int16")]%string None [];
        el "point" [("id", "Pad"); ("offset", "1"); ("type", "pad")]%string None []]];
    el "strings" [("id", "101")]%string None [el "model" [] None [txt "label" "other"]];
    el "strings" [("id", "100"); ("locale", "en")]%string None
     [el "model" [] None [txt "label" "first"; txt "label" "Demo"];
      el "point" [("id", "A")]%string None [txt "label" "Amps"];
      el "point" [("id", "R")]%string None [txt "description" "Repeats"];
      el "point" [("id", "Pad")]%string None [txt "label" "Padding"]]].
Example ex_texts_loads : exists t r, model_from_smdx 0 ex_texts = Ok t /\ mt_rep t = Some r /\
  mt_label t = Some (lit "Demo"%string) /\ map pt_label (bt_points (mt_fixed t)) = [Some (lit "Amps"%string); Some (lit "Padding"%string)] /\
  map pt_notes (bt_points (mt_fixed t)) = [Some (lit "own notes"%string); None] /\
  map pt_description (bt_points r) = [Some (lit "Repeats"%string); None] /\ map pt_label (bt_points r) = [None; None].
Proof. do 2 eexists. split; [vm_compute; reflexivity|]. repeat split; vm_compute; reflexivity. Qed.

(** The model: its label, description and notes are the last such elements of the model elements of its strings sections. *)
Theorem C75_model oid root t m id ss cs :
  model_from_smdx oid root = Ok t -> model_element root m -> attr_number "id" m id -> sections_for root id ss ->
  Forall2 section_model ss cs -> texts_given (concat cs) (mt_label t) (mt_description t) (mt_notes t).
Proof.
  intros H (ms & HM) HI HS HC. pose proof (children_of_fun _ _ _ _ (findall_children SMDX_MODEL root) HM) as HF.
  destruct (model_parts _ _ _ _ _ H HF) as (id' & HI' & _ & HT & _).
  assert (id' = id) by (apply attr_int_spec in HI, HI'; rewrite HI in HI'; now apply Ok_inj in HI'). subst id'.
  apply sections_for_filter in HS. rewrite <- HS in HT.
  assert (HE : concat cs = flat_map model_children ss).
  { clear -HC. induction HC as [|s c ss cs H _ IH]; cbn [concat flat_map]; [reflexivity|]. rewrite IH, (section_model_fun _ _ H). reflexivity. }
  rewrite HE. exact HT.
Qed.
(** The points of the fixed block: the last such elements of the point element, then of the strings for the point id. *)
Theorem C75_fixed oid root t m id ss bs fb ps :
  model_from_smdx oid root = Ok t -> model_element root m -> attr_number "id" m id -> sections_for root id ss ->
  children_of (lit "block"%string) (x_children m) bs -> of_kind Fixed bs [fb] -> children_of (lit "point"%string) (x_children fb) ps ->
  Forall2 (fun e p => forall cs, point_strings_for ss (pt_id p) cs -> point_texts (x_children e ++ cs) p) ps (bt_points (mt_fixed t)).
Proof.
  intros H (ms & HM) HI HS HB HK HP. pose proof (children_of_fun _ _ _ _ (findall_children SMDX_MODEL root) HM) as HF.
  destruct (model_parts _ _ _ _ _ H HF) as (id' & HI' & _ & _ & (_ & _ & TF & _)).
  assert (id' = id) by (apply attr_int_spec in HI, HI'; rewrite HI in HI'; now apply Ok_inj in HI'). subst id'.
  apply sections_for_filter in HS. rewrite <- HS in TF.
  rewrite (children_of_fun _ _ _ _ (findall_children SMDX_BLOCK m) HB), (elements_one _ _ _ _ HK HP) in TF.
  eapply Forall2_impl_in; [|exact TF]. intros e p _ _ HT cs HC. apply point_strings_sc in HC. rewrite HC. exact HT.
Qed.
(** The points of the repeating block: the same, unless the fixed block has a point with the same id. *)
Theorem C75_repeating_partial oid root t m id ss bs rb ps r :
  model_from_smdx oid root = Ok t -> model_element root m -> attr_number "id" m id -> sections_for root id ss ->
  children_of (lit "block"%string) (x_children m) bs -> of_kind Repeating bs [rb] -> children_of (lit "point"%string) (x_children rb) ps ->
  mt_rep t = Some r ->
  Forall2 (fun e p => ~ In (pt_id p) (map pt_id (bt_points (mt_fixed t))) ->
                      forall cs, point_strings_for ss (pt_id p) cs -> point_texts (x_children e ++ cs) p) ps (bt_points r).
Proof.
  intros H (ms & HM) HI HS HB HK HP HR. pose proof (children_of_fun _ _ _ _ (findall_children SMDX_MODEL root) HM) as HF.
  destruct (model_parts _ _ _ _ _ H HF) as (id' & HI' & _ & _ & (_ & _ & _ & TR & _)).
  assert (id' = id) by (apply attr_int_spec in HI, HI'; rewrite HI in HI'; now apply Ok_inj in HI'). subst id'.
  apply sections_for_filter in HS. rewrite <- HS, HR in TR. cbn [pts] in TR.
  rewrite (children_of_fun _ _ _ _ (findall_children SMDX_BLOCK m) HB), (elements_one _ _ _ _ HK HP) in TR.
  eapply Forall2_impl_in; [|exact TR]. intros e p _ _ HT HN cs HC. apply point_strings_sc in HC. rewrite HC. cbv beta in HT. unfold rep_sc in HT.
  destruct (mem (pt_id p) (pids (Some (mt_fixed t)))) eqn:E; [|exact HT]. apply mem_spec in E. contradiction.
Qed.
(** The strings for a point id the fixed block also has never reach the point of the repeating block. *)
Theorem C75_shadowed_refuted oid root t m bs rb ps r :
  model_from_smdx oid root = Ok t -> model_element root m ->
  children_of (lit "block"%string) (x_children m) bs -> of_kind Repeating bs [rb] -> children_of (lit "point"%string) (x_children rb) ps ->
  mt_rep t = Some r ->
  Forall2 (fun e p => In (pt_id p) (map pt_id (bt_points (mt_fixed t))) -> point_texts (x_children e) p) ps (bt_points r).
Proof.
  intros H (ms & HM) HB HK HP HR. pose proof (children_of_fun _ _ _ _ (findall_children SMDX_MODEL root) HM) as HF.
  destruct (model_parts _ _ _ _ _ H HF) as (id' & HI' & _ & _ & (_ & _ & _ & TR & _)).
  rewrite HR in TR. cbn [pts] in TR.
  rewrite (children_of_fun _ _ _ _ (findall_children SMDX_BLOCK m) HB), (elements_one _ _ _ _ HK HP) in TR.
  eapply Forall2_impl_in; [|exact TR]. intros e p _ _ HT HN. cbv beta in HT. unfold rep_sc in HT.
  apply mem_spec in HN. unfold pids, pts in HT. rewrite HN, app_nil_r in HT. exact HT.
Qed.
(** The hypotheses are met by the example: in particular by a point without the label its strings give it. *)
Example C75_case : exists t m ss bs fb rb ps r p cs,
  model_from_smdx 0 ex_texts = Ok t /\ model_element ex_texts m /\ attr_number "id" m 100 /\ sections_for ex_texts 100 ss /\
  children_of (lit "block"%string) (x_children m) bs /\ of_kind Fixed bs [fb] /\ of_kind Repeating bs [rb] /\
  children_of (lit "point"%string) (x_children rb) ps /\ mt_rep t = Some r /\ In p (bt_points r) /\ pt_label p = None /\
  point_strings_for ss (pt_id p) cs /\ last_text "label" cs (Some (lit "Padding"%string)).
Proof.
  destruct ex_texts_loads as (t & r & H & HR & _). exists t.
  pose proof (findall_children SMDX_MODEL ex_texts) as HM. destruct (findall SMDX_MODEL ex_texts) as [|m ms] eqn:EM; [discriminate|].
  exists m. exists (filter (fun s => eqb_list (x_tag s) SMDX_STRINGS && opt_eqb (x_get A_ID s) (Some (str_of_int 100))) (x_children ex_texts)).
  assert (Em : m = hd ex_texts (findall SMDX_MODEL ex_texts)) by (rewrite EM; reflexivity). clear EM.
  exists (findall SMDX_BLOCK m). subst m.
  do 2 eexists. exists (findall SMDX_POINT (nth 1 (findall SMDX_BLOCK (hd ex_texts (findall SMDX_MODEL ex_texts))) ex_texts)), r.
  vm_compute in H. apply Ok_inj in H. subst t. vm_compute in HR. apply Some_inj in HR. subst r. do 2 eexists.
  split; [vm_compute; reflexivity|]. split; [exists ms; exact HM|]. split; [exists (lit "100"%string); split; vm_compute; reflexivity|].
  split; [apply selected_filter; intros e; rewrite andb_true_iff, eqb_list_eq, opt_eqb_eq; reflexivity|].
  split; [apply findall_children|]. split; [exact (of_kind_filter Fixed _)|]. split; [exact (of_kind_filter Repeating _)|].
  split; [exact (findall_children _ _)|]. split; [reflexivity|]. split; [right; left; reflexivity|]. split; [reflexivity|].
  split.
  - eexists. split; [|reflexivity]. apply (selected_filter _ (fun q => eqb_list (x_tag q) SMDX_POINT && id_is (lit "Pad"%string) q)).
    intros q. rewrite andb_true_iff, eqb_list_eq, id_is_spec. reflexivity.
  - right. exists [], (txt "label" "Padding"), []. split; [vm_compute; reflexivity|]. split; [reflexivity|]. split; [reflexivity|constructor].
Qed.

(** ** C76 *)
Definition sym (id v : string) (l : list xml) : xml := el "symbol" [("id", id)]%string (Some v) l.
Definition ex_symbols (rep_points : list xml) (strs : list xml) : xml :=
  el "sunSpecModels" [] None
   [el "model" [("id", "100"); ("len", "2")]%string None
     [el "block" [("len", "1")]%string None
       [el "point" [("id", "St"); ("offset", "0"); ("type", "enum16")]%string None
          [sym "OFF" "0" []; sym "ON" "1" [txt "label" "own"]; sym "OFF" "2" []]];
      el "block" [("len", "1"); ("type", "repeating")]%string None rep_points];
    el "strings" [("id", "100")]%string None [el "point" [("id", "St")]%string None strs]].
Definition ex_symbols1 := ex_symbols [] [el "symbol" [("id", "OFF")]%string None [txt "label" "Switched off"]].

(** If no point id is in both blocks, the symbols with an id are exactly those of the point element, in order of first
    occurrence; each has the text of the last element with its id as value, and the last label, description and notes
    of the symbol elements with its id, those of the strings coming after those of the point.  If the strings only name symbols of the
    point element, there are no others. *)
Theorem C76_symbols_partial oid root t m id ss bs kind kb ps pl :
  model_from_smdx oid root = Ok t -> model_element root m -> attr_number "id" m id -> sections_for root id ss ->
  children_of (lit "block"%string) (x_children m) bs -> of_kind kind bs [kb] -> children_of (lit "point"%string) (x_children kb) ps ->
  pl = match kind with Fixed => bt_points (mt_fixed t) | Repeating => match mt_rep t with Some r => bt_points r | None => [] end end ->
  NoDup (map pt_id (bt_points (mt_fixed t)) ++ map pt_id (match mt_rep t with Some r => bt_points r | None => [] end)) ->
  Forall2 (fun e p => forall cs defs strs, point_strings_for ss (pt_id p) cs ->
             children_of (lit "symbol"%string) (x_children e) defs -> children_of (lit "symbol"%string) cs strs ->
             exists l, symbols_of t p l /\ symbols_described defs strs l /\
                       (Forall (fun c => exists x i, In x defs /\ attr "id" x i /\ attr "id" c i) strs -> Forall (fun y => sy_id y <> None) l))
          ps pl.
Proof.
  intros H (ms & HM) HI HS HB HK HP -> HN. pose proof (children_of_fun _ _ _ _ (findall_children SMDX_MODEL root) HM) as HF.
  destruct (model_parts _ _ _ _ _ H HF) as (id' & HI' & _ & _ & (_ & _ & _ & _ & HSI)).
  assert (id' = id) by (apply attr_int_spec in HI, HI'; rewrite HI in HI'; now apply Ok_inj in HI'). subst id'.
  apply sections_for_filter in HS. rewrite <- HS in HSI. destruct (HSI HN) as [SF SR].
  rewrite (children_of_fun _ _ _ _ (findall_children SMDX_BLOCK m) HB) in SF, SR.
  assert (HG : forall e p, SI (own e ++ map (pair true) (sc (flat_map (findall SMDX_POINT) ss) (pt_id p))) p (mt_symbols t) ->
     forall cs defs strs, point_strings_for ss (pt_id p) cs ->
             children_of (lit "symbol"%string) (x_children e) defs -> children_of (lit "symbol"%string) cs strs ->
             exists l, symbols_of t p l /\ symbols_described defs strs l /\
                       (Forall (fun c => exists x i, In x defs /\ attr "id" x i /\ attr "id" c i) strs -> Forall (fun y => sy_id y <> None) l)).
  { intros e p HSp cs defs strs HC HD HT. apply point_strings_sc in HC. rewrite <- HC in HSp. apply children_symbols in HD, HT. subst defs strs.
    exact (SI_symbols _ _ _ _ HSp). }
  destruct kind.
  - rewrite (elements_one _ _ _ _ HK HP) in SF. eapply Forall2_impl_in; [|exact SF]. intros e p _ _. apply HG.
  - rewrite (elements_one _ _ _ _ HK HP) in SR. eapply Forall2_impl_in; [|exact SR]. intros e p _ _. apply HG.
Qed.
Example C76_case : exists t p l, model_from_smdx 0 ex_symbols1 = Ok t /\ bt_points (mt_fixed t) = [p] /\
  NoDup (map pt_id (bt_points (mt_fixed t)) ++ map pt_id (match mt_rep t with Some r => bt_points r | None => [] end)) /\ symbols_of t p l /\
  map sy_id l = [Some (lit "OFF"%string); Some (lit "ON"%string)] /\ map sy_value l = [Some (lit "2"%string); Some (lit "1"%string)] /\
  map sy_label l = [Some (lit "Switched off"%string); Some (lit "own"%string)].
Proof.
  do 2 eexists. exists [mkSym (Some (lit "OFF"%string)) (Some (lit "2"%string)) (Some (lit "Switched off"%string)) None None;
                        mkSym (Some (lit "ON"%string)) (Some (lit "1"%string)) (Some (lit "own"%string)) None None].
  split; [vm_compute; reflexivity|]. split; [reflexivity|]. split; [cbn; repeat constructor; cbn; tauto|].
  split; [|repeat split]. repeat constructor; eexists; vm_compute; reflexivity.
Qed.
(** Points with the same id in the two blocks share their symbols: the value of the fixed block's symbol is that of the repeating block's. *)
Definition ex_symbols2 := ex_symbols [el "point" [("id", "St"); ("offset", "0"); ("type", "enum16")]%string None [sym "ON" "7" []]] [].
Theorem C76_shared_refuted : exists t p l, model_from_smdx 0 ex_symbols2 = Ok t /\ bt_points (mt_fixed t) = [p] /\ symbols_of t p l /\
  map sy_value l = [Some (lit "2"%string); Some (lit "7"%string)].
Proof.
  do 2 eexists. exists [mkSym (Some (lit "OFF"%string)) (Some (lit "2"%string)) None None None;
                        mkSym (Some (lit "ON"%string)) (Some (lit "7"%string)) (Some (lit "own"%string)) None None].
  split; [vm_compute; reflexivity|]. split; [reflexivity|]. split; [|reflexivity]. repeat constructor; eexists; vm_compute; reflexivity.
Qed.
(** Strings naming a symbol the point does not have add a symbol without id and value. *)
Definition ex_symbols3 := ex_symbols [] [el "symbol" [("id", "STANDBY")]%string None [txt "label" "Waiting"]].
Theorem C76_nameless_refuted : exists t p l, model_from_smdx 0 ex_symbols3 = Ok t /\ bt_points (mt_fixed t) = [p] /\ symbols_of t p l /\
  map sy_id l = [Some (lit "OFF"%string); Some (lit "ON"%string); None] /\ map sy_label l = [None; Some (lit "own"%string); Some (lit "Waiting"%string)].
Proof.
  do 2 eexists. exists [mkSym (Some (lit "OFF"%string)) (Some (lit "2"%string)) None None None;
                        mkSym (Some (lit "ON"%string)) (Some (lit "1"%string)) (Some (lit "own"%string)) None None;
                        mkSym None None (Some (lit "Waiting"%string)) None None].
  split; [vm_compute; reflexivity|]. split; [reflexivity|]. split; [|repeat split]. repeat constructor; eexists; vm_compute; reflexivity.
Qed.

Print Assumptions C75_model.
Print Assumptions C75_fixed.
Print Assumptions C75_repeating_partial.
Print Assumptions C75_shadowed_refuted.
Print Assumptions C76_symbols_partial.
Print Assumptions C76_shared_refuted.
Print Assumptions C76_nameless_refuted.
