(** * C_Classes: the wrapper objects of one device when other devices are created later (C100). *)
From Coq Require Import String.
From Verif Require Import Py P_List M_Util M_Float M_Suns M_Point M_Mbmap M_Device M_Wrapper M_Print M_Classes S_Classes P_Classes C_Wrapper.

(** [w] is the wrapper of a model [m] of a device; afterwards model_class_get is called any number of times, as the creation
    of other devices does ([later]).  If the definitions that can be loaded then have the same points for the id of [m], the
    list w.points and the text of [w] are what they were. *)
Theorem C100_same_definitions_partial :
  forall cs0 types ms m w later, In m ms -> made types m w ->
  (forall types', In (types', md_id m) later -> attribute_ids types' (md_id m) = attribute_ids types (md_id m)) ->
  let cs := calls (device_calls types ms ++ later) cs0 in
  points_now cs w = wm_points w /\ forall E, str_now E cs w = wmodel_str E w.
Proof.
  intros cs0 types ms m w later HI HM HS cs. destruct (made_fields _ _ _ HM) as [E1 E2].
  assert (HP : points_now cs w = wm_points w).
  { unfold points_now, class_of. rewrite E1, E2. subst cs. destruct (last_call_dec (md_id m) later) as [(t & HL)|HN].
    - destruct (last_call_points _ _ _ cs0 (last_call_app _ (device_calls types ms) _ _ HL)) as (props & ->). cbn [mc_points]. apply HS. now apply last_call_In.
    - rewrite calls_app, calls_other by exact HN. destruct (last_call_points _ _ _ cs0 (device_last types ms m HI)) as (props & ->). reflexivity. }
  split; [exact HP|]. intros E. now apply str_now_ext.
Qed.
Print Assumptions C100_same_definitions_partial.
(** Whatever is created later, an attribute of [w] gives the value of its point, and assigning to it sets the point. *)
Theorem C100_attributes_stay :
  forall E cs0 types ms m w later n, In m ms -> made types m w -> In n (wm_points w) ->
  let cs := calls (device_calls types ms ++ later) cs0 in
  attr_get E cs w n = wmodel_get E w n /\
  (forall v p, find_point n (model_points m) = Some p ->
     attr_set E cs w n v = let! m' := wmodel_set E m n v in Ok (ToPoint m')).
Proof.
  intros E cs0 types ms m w later n HI HM Hn cs. destruct (made_fields _ _ _ HM) as [E1 E2]. rewrite E2 in Hn.
  assert (HP : has_prop cs w n = true).
  { destruct (props_of_call (device_calls types ms ++ later) cs0 (md_id m) types n) as (c & G1 & G2); [|exact Hn|].
    - apply in_or_app. left. apply in_map_iff. now exists m.
    - eapply has_prop_In; [rewrite E1; exact G1|exact G2]. }
  unfold attr_get, attr_set. rewrite HP. split; [reflexivity|]. intros v p Hp. now rewrite E1, Hp.
Qed.
Print Assumptions C100_attributes_stay.
(** In general w.points is what the definition has that could be loaded at the last call for the id of the model, also if
    another device made it. *)
Theorem C100_points_of_last_call :
  forall cs0 before w types, last_call (md_id (wm_model w)) before types -> points_now (calls before cs0) w = attribute_ids types (md_id (wm_model w)).
Proof. intros cs0 before w types H. unfold points_now, class_of. destruct (last_call_points _ _ _ cs0 H) as (props & ->). reflexivity. Qed.
Print Assumptions C100_points_of_last_call.
(** So a device created while the definition cannot be loaded empties the list w.points of every existing wrapper of that id,
    and their texts no longer show a value of the fixed block. *)
Theorem C100_points_lost_refuted :
  forall cs types e m w, md_id m = md_id (wm_model w) -> types (md_id m) = Raise e ->
  let cs' := calls (device_calls types [m]) cs in
  points_now cs' w = [] /\
  forall E, str_now E cs' w = let! bs := wblocks_str E (tl (wm_repeating w)) in
    Ok ([10] ++ wm_name w ++ lit " ("%string ++ str_of_int (md_id (wm_model w)) ++ lit "):"%string ++ [10] ++ bs).
Proof.
  intros cs types e m w Em Et cs'. assert (HP : points_now cs' w = []).
  { unfold cs'. rewrite (C100_points_of_last_call cs (device_calls types [m]) w types) by (rewrite <- Em; apply device_last; now left).
    unfold attribute_ids. now rewrite <- Em, Et. }
  split; [exact HP|]. intros E. unfold str_now. rewrite HP. unfold wmodel_str. cbn [wm_model wm_points wm_repeating wm_name values_str bind].
  destruct (wblocks_str E (tl (wm_repeating w))); reflexivity.
Qed.
Print Assumptions C100_points_lost_refuted.

(** the first model of the device of C_Wrapper, and its wrapper *)
Definition ex_w : wmodel := match wrap_model (fst (model_class_get ex_types [] 160)) (snd (model_class_get ex_types [] 160)) (ex_model 100) (lit "mppt"%string) with Ok w => w | Raise _ => mkWM (ex_model 100) [] [] [] [] [] end.
Example C100_case : In (ex_model 100) ex_models /\ made ex_types (ex_model 100) ex_w /\ wm_points ex_w = [lit "A"%string] /\
  (forall types', In (types', 160) (device_calls ex_types ex_models) -> attribute_ids types' 160 = attribute_ids ex_types 160).
Proof.
  split; [now left|]. split; [exists [], (lit "mppt"%string); reflexivity|]. split; [reflexivity|].
  intros t H. apply in_map_iff in H as (x & E & _). now apply pair_equal_spec in E as [<- _].
Qed.
Example C100_lost_case : points_now (calls (device_calls ex_types ex_models) []) ex_w = [lit "A"%string] /\
  points_now (calls (device_calls ex_types ex_models ++ device_calls (fun _ => Raise ESunSpec) [ex_model 500]) []) ex_w = [].
Proof. split; vm_compute; reflexivity. Qed.
(** A later device with another definition of the same id gives existing wrappers attributes they have no points for: what was
    an AttributeError is None then, and an assignment that the object would have kept is ignored. *)
Definition other_type : modeltype :=
  mkMT 1 (Some 160) (Some 1) (Some (lit "mppt"%string)) None None None (mkBT Fixed (BStr (lit "1"%string)) (Some (lit "fixed"%string)) [pt0 "B" Tuint16]) None [].
Theorem C100_foreign_attribute_refuted :
  exists types ms m w types' m' n, In m ms /\ made types m w /\ md_id m' = md_id m /\ forall E v,
    let cs := calls (device_calls types ms) [] in let cs' := calls (device_calls types ms ++ device_calls types' [m']) [] in
    attr_get E cs w n = Raise EAttr /\ attr_get E cs' w n = Ok VNone /\
    attr_set E cs w n v = Ok (ToObject n v) /\ attr_set E cs' w n v = Ok Ignored.
Proof.
  exists ex_types, ex_models, (ex_model 100), ex_w, (fun _ => Ok other_type), (ex_model 500), (lit "B"%string).
  split; [now left|]. split; [exists [], (lit "mppt"%string); reflexivity|]. split; [reflexivity|]. intros E v. repeat split.
Qed.
Print Assumptions C100_foreign_attribute_refuted.
