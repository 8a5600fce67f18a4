(** * C_Wrapper: the scripting wrapper (C52). *)
From Coq Require Import String.
From Verif Require Import Py P_List M_Util M_Float M_Suns M_Point M_Mbmap M_Device M_Wrapper S_Wrapper P_Wrapper.

(** For every list of models with free names: construction succeeds, the list of names has the names of the models without
    duplicates in order of first appearance, and the attribute of each name holds the wrapper of the only model of that
    name or the list [None, first, second, ...] of all of them in device order.  Each wrapper has its model, the name,
    attributes for the points of the fixed block (no scale factors, no padding), and repeating = [None, block 1, block 2, ...],
    also under the names of the repeating blocks, with attributes for the points of the repeating block. *)
Theorem C52_models types inherited classes ms :
  Forall (wrappable types) ms -> Forall (fun m => forall n, named m n -> free_name inherited n) ms ->
  exists c w ws names, wrapper_init types inherited classes (Ok ms) = ((c, w), Ok tt) /\
    Forall2 (fun m wm => exists n, named m n /\ wraps types m n wm) ms ws /\
    wd_models w = map NName names /\ NoDup names /\ first_seen [] (map wm_name ws) names /\
    (forall n, In n names -> exists v, dget n (wd_dict w) = Some v /\ holds (filter (fun wm => eqb_list (wm_name wm) n) ws) v) /\
    wd_closed w = false.
Proof.
  intros HW HF. destruct (add_models_spec types inherited ms classes new_wdev [] HW HF (inv_new inherited)) as (c & w & ws & HA & H2 & I1 & I2 & (names & I3 & I4) & I5).
  cbn [app] in *. exists c, w, ws, names. unfold wrapper_init. rewrite HA. split; [reflexivity|]. split; [exact H2|]. split; [exact I3|].
  split; [apply (first_seen_NoDup _ _ _ I4)|]. split; [exact I4|]. split; [|exact I2].
  intros n Hn. assert (HFN : free_name inherited n).
  { apply (first_seen_sub _ _ _ _ I4) in Hn. apply in_map_iff in Hn as (wm & <- & Hin). clear -H2 HF Hin.
    induction H2 as [|m wm0 ms ws (n & Hn & HW) _ IH]; [destruct Hin|]. inversion HF; subst. destruct Hin as [->|Hin]; [|auto].
    destruct HW as (_ & -> & _). auto. }
  pose proof (I5 n HFN) as HX. apply (first_seen_sub _ _ _ _ I4) in Hn. apply of_name_in in Hn. unfold of_name in *.
  destruct (filter (fun w0 => eqb_list (wm_name w0) n) ws); [congruence|]. exact HX.
Qed.
(** a device with two instances of one model (with two repeating blocks), and one of unknown type *)
Definition pt0 (id : string) (t : ptype) : pointtype := mkPT (lit id) 0 t 1 (lit "false"%string) (lit "r"%string) None None None None None [].
Definition ex_rb : blocktype := mkBT Repeating (BStr (lit "1"%string)) (Some (lit "string"%string)) [pt0 "S" Tuint16].
Definition ex_type : modeltype :=
  mkMT 0 (Some 160) (Some 1) (Some (lit "mppt"%string)) None None None (mkBT Fixed (BStr (lit "1"%string)) (Some (lit "fixed"%string)) [pt0 "A" Tuint16]) (Some ex_rb) [].
Definition ex_model (a : Z) : model :=
  mkModel 160 (BInt 1) (Some ex_type) a 3 true
    [mkB a 1 (mt_fixed ex_type) 0 [new_point (pt0 "A" Tuint16) a] []; mkB (a + 1) 1 ex_rb 1 [] []; mkB (a + 2) 1 ex_rb 2 [] []] [a] None.
Definition ex_models : list model := [ex_model 100; mkModel 64001 (BInt 1) None 200 8 false [] [200] (Some ESunSpec); ex_model 300].
Definition ex_types (i : Z) : res modeltype := if i =? 160 then Ok ex_type else Raise ESunSpec.
Example C52_models_case : Forall (wrappable ex_types) ex_models /\ Forall (fun m => forall n, named m n -> free_name [] n) ex_models.
Proof.
  assert (A : wrappable ex_types (ex_model 100) /\ wrappable ex_types (ex_model 300)).
  { split; (split; [exists (lit "mppt"%string); left; exists ex_type; split; reflexivity|]);
      (split; [repeat constructor; discriminate|]); intros _; exists ex_type, ex_rb; split; reflexivity. }
  assert (B : wrappable ex_types (mkModel 64001 (BInt 1) None 200 8 false [] [200] (Some ESunSpec))).
  { split; [eexists; right; split; reflexivity|]. split; [constructor|]. cbn. congruence. }
  split; [repeat (apply Forall_cons; [tauto|]); apply Forall_nil|].
  assert (N : forall n, In n [lit "mppt"%string; lit "model_64001"%string] -> free_name [] n).
  { intros n HN. split; [|intros []]. intros HI. apply in_map_iff in HI as (k & <- & Hk).
    destruct HN as [HN|[HN|[]]]; repeat destruct Hk as [<-|Hk]; try destruct Hk; vm_compute in HN; discriminate. }
  repeat apply Forall_cons; try apply Forall_nil; intros n [(t & H1 & H2)|[H1 H2]]; try discriminate; apply N; cbn [md_type ex_model] in H1.
  - apply Some_inj in H1. subst t. apply Some_inj in H2. subst n. left. reflexivity.
  - subst n. right. left. reflexivity.
  - apply Some_inj in H1. subst t. apply Some_inj in H2. subst n. left. reflexivity.
Qed.
Example C52_models_example : exists c w w1 w2 w3, wrapper_init ex_types [] [] (Ok ex_models) = ((c, w), Ok tt) /\
  wd_models w = [NName (lit "mppt"%string); NName (lit "model_64001"%string)] /\
  dget (lit "mppt"%string) (wd_dict w) = Some (WList [None; Some (WModel w1); Some (WModel w2)]) /\
  dget (lit "model_64001"%string) (wd_dict w) = Some (WModel w3) /\ wm_repeating_name w1 = lit "string"%string.
Proof. do 5 eexists. split; [vm_compute; reflexivity|]. repeat split. Qed.

(** The name of a model can clash with the wrapper's own attributes: a model called "device" makes the device handle
    unreachable, so the wrapper cannot be closed. *)
Definition clash_type (n : string) : modeltype := mkMT 0 (Some 160) (Some 0) (Some (lit n)) None None None (mkBT Fixed (BInt 0) None []) None [].
Definition clash_model (n : string) : model := mkModel 160 (BInt 1) (Some (clash_type n)) 100 0 true [] [100] None.
Theorem C52_device_name_refuted : exists types ms c w l, wrapper_init types [] [] (Ok ms) = ((c, w), Ok tt) /\
  (forall m, In m ms -> wrappable types m) /\ dget (lit "device"%string) (wd_dict w) = Some (WList l) /\ ~ In (NName (lit "device"%string)) (wd_models w).
Proof.
  exists (fun _ => Ok (clash_type "device")), [clash_model "device"]. do 3 eexists. split; [vm_compute; reflexivity|]. split.
  - intros m [<-|[]]. split; [eexists; left; eexists; split; reflexivity|]. split; [constructor|]. cbn. congruence.
  - split; [reflexivity|]. intros [].
Qed.
(** A model called "models" makes construction fail. *)
Theorem C52_models_name_refuted : exists types ms, (forall m, In m ms -> wrappable types m) /\
  snd (wrapper_init types [] [] (Ok ms)) = Raise EAttr.
Proof.
  exists (fun _ => Ok (clash_type "models")), [clash_model "models"]. split.
  - intros m [<-|[]]. split; [eexists; left; eexists; split; reflexivity|]. split; [constructor|]. cbn. congruence.
  - vm_compute. reflexivity.
Qed.

(** Whatever goes wrong in the scan, the device is closed and the exception is passed on. *)
Theorem C52_scan_failure types inherited classes e : 
  snd (wrapper_init types inherited classes (Raise e)) = Raise e /\ wd_closed (snd (fst (wrapper_init types inherited classes (Raise e)))) = true.
Proof. split; reflexivity. Qed.
(** The same for an exception while the attributes are made, as long as no model is called "device". *)
Theorem C52_failure_closes types inherited classes ms e :
  Forall (fun m => ~ named m (lit "device"%string)) ms ->
  snd (wrapper_init types inherited classes (Ok ms)) = Raise e ->
  wd_closed (snd (fst (wrapper_init types inherited classes (Ok ms)))) = true.
Proof.
  intros HN. unfold wrapper_init.
  assert (HD : forall ms st, Forall (fun m => ~ named m (lit "device"%string)) ms ->
     dget (lit "device"%string) (wd_dict (snd st)) = Some WDevice -> dget (lit "device"%string) (wd_dict (snd (fst (add_models types inherited st ms)))) = Some WDevice).
  { clear. induction ms as [|m ms IH]; intros st HN HD; cbn [add_models]; [exact HD|]. inversion HN as [|m0 l0 H1 H2]; subst.
    destruct (add_model types inherited st m) as [st'|] eqn:E; [|exact HD]. apply IH; [exact H2|].
    destruct st as [c w]. unfold add_model in E. destruct (model_class_get types c (md_id m)) as [c' p].
    destruct (wrapper_name m) as [n|] eqn:EN; [|discriminate]. apply wrapper_name_spec in EN.
    assert (HNE : lit "device"%string <> n) by (intros <-; contradiction).
    apply bind_ok in E as (wm & _ & E). cbv zeta in E.
    destruct (getattr_w inherited w n) as [ex|].
    - destruct (w_truthy w ex).
      + destruct (dget n (wd_dict w)) as [[]|]; apply Ok_inj in E; subst st'; cbn [snd wd_dict] in *; rewrite ?dget_dset_other by auto; exact HD.
      + destruct ex; try discriminate; apply Ok_inj in E; subst st'; cbn [snd wd_dict] in *; rewrite dget_dset_other by auto; exact HD.
    - apply Ok_inj in E; subst st'; cbn [snd wd_dict] in *; rewrite dget_dset_other by auto; exact HD. }
  specialize (HD ms (classes, new_wdev) HN eq_refl).
  destruct (add_models types inherited (classes, new_wdev) ms) as [[c w] r]. cbn [fst snd] in HD.
  destruct r; cbn [snd fst]; [discriminate|]. rewrite HD. reflexivity.
Qed.
Example C52_failure_case : Forall (fun m => ~ named m (lit "device"%string)) [clash_model "models"] /\
  snd (wrapper_init (fun _ => Ok (clash_type "models")) [] [] (Ok [clash_model "models"])) = Raise EAttr.
Proof.
  split; [|vm_compute; reflexivity]. constructor; [|constructor]. intros [(t & H1 & H2)|[H _]]; [|discriminate].
  cbn [md_type clash_model] in H1. apply Some_inj in H1. subst t. cbn in H2. discriminate.
Qed.

(** Reading an attribute gives the value of the fixed block's point of that id (None if there is none). *)
Theorem C52_get E w id b r :
  md_exposed (wm_model w) = true -> md_blocks (wm_model w) = b :: r -> NoDup (map p_id (b_points b)) ->
  (forall p, In p (b_points b) -> p_id p = id -> wmodel_get E w id = value_getter E (p_base p) (p_sf p)) /\
  ((forall p, In p (b_points b) -> p_id p <> id) -> wmodel_get E w id = Ok VNone).
Proof.
  intros H1 H2 HN. unfold wmodel_get, model_points, get_in. rewrite H1, H2. split.
  - intros p Hp Hi. destruct (find_point id (b_points b)) as [q|] eqn:EF.
    + apply find_point_id in EF as [Hq Hiq]. assert (q = p); [|subst; reflexivity].
      clear -HN Hp Hq Hi Hiq. induction (b_points b) as [|x l IH]; [destruct Hp|]. cbn [map] in HN. inversion HN as [|y z Hy Hz]; subst.
      destruct Hp as [->|Hp], Hq as [->|Hq]; auto.
      * exfalso. apply Hy. rewrite <- Hiq. apply in_map. exact Hq.
      * exfalso. apply Hy. rewrite Hiq. apply in_map. exact Hp.
    + exfalso. unfold find_point in EF. pose proof (find_none _ _ EF p Hp) as HX. cbv beta in HX. rewrite Hi, eqb_list_refl in HX. discriminate.
  - intros HX. destruct (find_point id (b_points b)) as [q|] eqn:EF; [|reflexivity]. apply find_point_id in EF as [Hq Hiq]. exfalso. eapply HX; eauto.
Qed.
Example C52_get_case : md_exposed (wm_model (mkWM (ex_model 100) [] [] [] [] [])) = true /\
  exists b r, md_blocks (wm_model (mkWM (ex_model 100) [] [] [] [] [])) = b :: r /\ NoDup (map p_id (b_points b)) /\ exists p, In p (b_points b).
Proof. split; [reflexivity|]. do 2 eexists. split; [reflexivity|]. split; [repeat constructor; intros []|]. eexists. left. reflexivity. Qed.
(** Assigning changes exactly that point's value and marks it as modified; an id that is no point changes nothing. *)
Theorem C52_set E m id v m' : wmodel_set E m id v = Ok m' ->
  md_id m' = md_id m /\ md_addr m' = md_addr m /\ md_len m' = md_len m /\ tl (md_blocks m') = tl (md_blocks m) /\
  ((forall p, In p (model_points m) -> p_id p <> id) -> m' = m) /\
  forall a p c, model_points m = a ++ p :: c -> p_id p = id -> Forall (fun q => p_id q <> id) a ->
    exists p', model_points m' = a ++ p' :: c /\ p_type p' = p_type p /\ p_addr p' = p_addr p /\ p_sf p' = p_sf p /\ p_dirty p' = true /\
               value_setter E (pt_type (p_type p)) (p_sf p) v = Ok (p_base p').
Proof.
  unfold wmodel_set, model_points. destruct (md_exposed m) eqn:EX.
  2:{ intros H. apply Ok_inj in H. subst m'. rewrite EX. do 5 (split; [auto|]). intros [|q a] p c H; discriminate H. }
  destruct (md_blocks m) as [|b r] eqn:EB.
  { intros H. apply Ok_inj in H. subst m'. rewrite EX, EB. do 5 (split; [auto|]). intros [|q a] p c H; discriminate H. }
  intros H. apply bind_ok in H as (l & HS & H). apply Ok_inj in H. subst m'. cbn [md_id md_addr md_len md_blocks md_exposed tl set_points b_points].
  split; [reflexivity|]. split; [reflexivity|]. split; [reflexivity|]. split; [reflexivity|].
  destruct (set_in_spec _ _ _ _ _ HS) as [[HN ->]|(a & p & c & p' & H1 & -> & H3 & H4 & H5)].
  - split.
    + intros _. destruct m as [i1 i2 i3 i4 i5 i6 i7 i8 i9]. cbn [md_exposed md_blocks md_id md_index md_type md_addr md_len md_reads md_error] in *. subst.
      destruct b. reflexivity.
    + intros a p c HE Hp _. exfalso. unfold find_point in HN.
      pose proof (find_none _ _ HN p) as HX. cbv beta in HX. rewrite Hp, eqb_list_refl in HX.
      discriminate HX. rewrite HE. apply in_app_iff. right. left. reflexivity.
  - split.
    + intros HX. exfalso. apply (HX p); [|exact H3]. rewrite H1. apply in_app_iff. right. left. reflexivity.
    + intros a2 p2 c2 HE Hp2 HF2. assert (HEQ : a2 = a /\ p2 = p /\ c2 = c).
      { rewrite H1 in HE. clear -HE Hp2 HF2 H3 H4. revert a2 HE HF2. induction a as [|x a IH]; intros [|y a2] HE HF2; cbn [app] in HE.
        - assert (p = p2 /\ c = c2) by (split; congruence). intuition.
        - assert (p = y) by congruence. subst y. inversion HF2; subst. contradiction.
        - assert (x = p2) by congruence. subst x. inversion H4; subst. contradiction.
        - assert (x = y) by congruence. assert (a ++ p :: c = a2 ++ p2 :: c2) by congruence. inversion HF2; subst. inversion H4; subst.
          destruct (IH ltac:(auto) a2 ltac:(auto) ltac:(auto)) as (-> & -> & ->). auto. }
      destruct HEQ as (-> & -> & ->). exists p'. split; [reflexivity|].
      unfold point_set in H5. apply bind_ok in H5 as (bb & HB & H5). apply Ok_inj in H5. subst p'. cbn. repeat (split; [reflexivity|]). exact HB.
Qed.
Example C52_set_case : exists m', wmodel_set {| float_repr := fun _ => []; float_parse := fun _ => None; pow10 := fun _ => Raise EType |}
  (ex_model 100) (lit "A"%string) (VInt 5) = Ok m' /\ map p_base (model_points m') = [VInt 5] /\ map p_dirty (model_points m') = [true].
Proof. eexists. split; [vm_compute; reflexivity|]. split; reflexivity. Qed.

Print Assumptions C52_models.
Print Assumptions C52_device_name_refuted.
Print Assumptions C52_models_name_refuted.
Print Assumptions C52_scan_failure.
Print Assumptions C52_failure_closes.
Print Assumptions C52_get.
Print Assumptions C52_set.
