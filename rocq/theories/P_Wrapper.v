(** * P_Wrapper: proofs about M_Wrapper. *)
From Coq Require Import String.
From Verif Require Import Py P_List M_Util M_Float M_Suns M_Point M_Mbmap M_Device M_Wrapper S_Wrapper.

Lemma dget_dset_same {A} k (v : A) d : dget k (dset k v d) = Some v.
Proof.
  induction d as [|[k' v'] d IH]; cbn [dset dget]; [rewrite eqb_list_refl; reflexivity|].
  destruct (eqb_list k k') eqn:E; cbn [dget]; rewrite E; auto.
Qed.
Lemma dget_dset_other {A} k k2 (v : A) d : k2 <> k -> dget k2 (dset k v d) = dget k2 d.
Proof.
  intros H. induction d as [|[k' v'] d IH]; cbn [dset dget].
  - rewrite (proj2 (eqb_list_neq k2 k) H). reflexivity.
  - destruct (eqb_list k k') eqn:E; cbn [dget].
    + apply eqb_list_eq in E. subst k'. rewrite (proj2 (eqb_list_neq k2 k) H). reflexivity.
    + destruct (eqb_list k2 k'); [reflexivity|exact IH].
Qed.

(** ** Blocks *)
Lemma property_ids_spec l : exposes l (property_ids l).
Proof.
  intros id. unfold property_ids. rewrite in_map_iff. split.
  - intros (p & <- & H). apply filter_In in H as [H1 H2]. exists p. split; [exact H1|]. split; [reflexivity|].
    destruct (pt_type p); cbn in H2; split; congruence.
  - intros (p & H1 & <- & H2 & H3). exists p. split; [reflexivity|]. apply filter_In. split; [exact H1|].
    destruct (pt_type p); cbn; congruence.
Qed.
Lemma wrap_blocks_spec pts l : forall rname aliases reps,
  Forall (fun b => bt_name (b_type b) <> None) l -> In rname (lit "repeating"%string :: aliases) ->
  exists rname' aliases' reps', wrap_blocks (Some pts) rname aliases reps l = Ok (rname', aliases', reps') /\
    map (option_map wb_block) reps' = map (option_map wb_block) reps ++ map Some l /\
    (forall wb, In (Some wb) reps' -> In (Some wb) reps \/ (bt_name (b_type (wb_block wb)) = Some (wb_name wb) /\ wb_points wb = pts)) /\
    (forall a, In a (lit "repeating"%string :: aliases') <->
       In a (lit "repeating"%string :: aliases) \/ exists b, In b l /\ bt_name (b_type b) = Some a).
Proof.
  induction l as [|b l IH]; intros rname aliases reps HF HR; cbn [wrap_blocks].
  - exists rname, aliases, reps. rewrite app_nil_r. split; [auto|]. split; [auto|]. split; [auto|].
    intros a. split; [auto|]. intros [H|(b & [] & _)]. exact H.
  - inversion HF as [|b0 l0 Hb Hl]; subst. destruct (bt_name (b_type b)) as [n|] eqn:EN; [|congruence].
    assert (HX : exists a1, (if eqb_list n rname then Ok (rname, aliases) else Ok (n, aliases ++ [n])) = Ok (n, a1) /\
              forall a, In a (lit "repeating"%string :: a1) <-> In a (lit "repeating"%string :: aliases) \/ a = n).
    { destruct (eqb_list n rname) eqn:EE.
      - apply eqb_list_eq in EE. subst rname. exists aliases. split; [reflexivity|]. intros a. split; [auto|]. intros [H| ->]; auto.
      - exists (aliases ++ [n]). split; [reflexivity|]. intros a. cbn [In]. rewrite in_app_iff. cbn [In].
        split; [intros [H|[H|[H|[]]]]; auto|intros [[H|H]|H]; auto]. }
    destruct HX as (a1 & -> & HA). cbn [bind].
    destruct (IH n a1 (reps ++ [Some (mkWB b n pts)]) Hl ltac:(apply HA; auto)) as (r2 & a2 & p2 & -> & HE & HP & HAl).
    exists r2, a2, p2. split; [reflexivity|]. split; [rewrite HE, map_app, <- app_assoc; reflexivity|]. split.
    + intros wb HI. destruct (HP wb HI) as [H|H]; [|auto]. apply in_app_iff in H as [H|[H|[]]]; [auto|].
      apply Some_inj in H. subst wb. right. cbn [wb_block wb_name wb_points]. auto.
    + intros a. rewrite HAl, HA. split.
      * intros [[H| ->]|(b' & H1 & H2)]; [auto|right; exists b; split; [left; auto|auto]|right; exists b'; split; [right; auto|auto]].
      * intros [H|(b' & [<-|H1] & H2)]; [auto| |right; eauto]. rewrite EN in H2. apply Some_inj in H2. auto.
Qed.
Lemma wrap_blocks_nil cls rname aliases reps : wrap_blocks cls rname aliases reps [] = Ok (rname, aliases, reps).
Proof. reflexivity. Qed.
Lemma wrap_model_spec types classes classes' points m n :
  wrappable types m -> model_class_get types classes (md_id m) = (classes', points) ->
  exists w, wrap_model classes' points m n = Ok w /\ wraps types m n w.
Proof.
  intros (_ & HB & HT) HC. unfold wrap_model, model_class_get in *.
  assert (HPT : match types (md_id m) with Ok t => exposes (bt_points (mt_fixed t)) points | Raise _ => points = [] end).
  { destruct (types (md_id m)); apply pair_equal_spec in HC as [_ <-]; [apply property_ids_spec|reflexivity]. }
  destruct (tl (md_blocks m)) as [|b bs] eqn:EB.
  - rewrite wrap_blocks_nil. cbn [bind]. eexists; split; [reflexivity|]. unfold wraps.
    cbn [wm_model wm_name wm_repeating wm_points wm_aliases map option_map]. rewrite EB. do 4 (split; [auto|]). split.
    + intros wb [H|[]]. discriminate.
    + intros a. cbn [In]. split; [intros [H|[]]; auto|intros [H|(b & [] & _)]; auto].
  - destruct (HT ltac:(discriminate)) as (t & rb & H1 & H2). rewrite H1, H2 in HC.
    apply pair_equal_spec in HC as [<- HPP]. cbn [rget]. rewrite Z.eqb_refl.
    destruct (wrap_blocks_spec (property_ids (bt_points rb)) (b :: bs) (lit "repeating"%string) [] [None] HB ltac:(left; reflexivity)) as (r & a & ps & -> & HE & HP & HAl).
    cbn [bind]. eexists; split; [reflexivity|]. unfold wraps. cbn [wm_model wm_name wm_repeating wm_points wm_aliases]. rewrite EB.
    do 4 (split; [auto|]). split.
    + intros wb HI. destruct (HP wb HI) as [[H|[]]|[H3 H4]]; [discriminate|]. split; [exact H3|]. exists t, rb. rewrite H4.
      split; [exact H1|]. split; [exact H2|apply property_ids_spec].
    + intros al. rewrite HAl. cbn [In]. split; [intros [[H|[]]|H]; auto|intros [H|H]; auto].
Qed.
Lemma wrapper_name_spec m n : wrapper_name m = Some n <-> named m n.
Proof.
  unfold wrapper_name, named. destruct (md_type m) as [t|]; split.
  - intros H. left. eauto.
  - intros [(t' & H1 & H2)|[H _]]; [|discriminate]. apply Some_inj in H1. now subst.
  - intros H. apply Some_inj in H. right. auto.
  - intros [(t' & H & _)|[_ H]]; [discriminate|]. now subst.
Qed.

(** ** Names *)
Lemma first_seen_snoc_old s l r n : first_seen s l r -> In n s \/ In n r -> first_seen s (l ++ [n]) r.
Proof.
  induction 1 as [s|s n0 l r HI _ IH|s n0 l r HI _ IH]; intros HN; cbn [app].
  - destruct HN as [HN|[]]. apply fs_old; [exact HN|constructor].
  - apply fs_old; auto.
  - apply fs_new; [exact HI|]. apply IH. destruct HN as [HN|[->|HN]]; [left; right; auto|left; left; auto|right; auto].
Qed.
Lemma first_seen_snoc_new s l r n : first_seen s l r -> ~ In n s -> ~ In n r -> first_seen s (l ++ [n]) (r ++ [n]).
Proof.
  induction 1 as [s|s n0 l r HI _ IH|s n0 l r HI _ IH]; intros H1 H2; cbn [app].
  - apply fs_new; [exact H1|constructor].
  - apply fs_old; auto.
  - apply fs_new; [exact HI|]. apply IH; [intros [->|H]; [apply H2; left; reflexivity|contradiction]|intros H; apply H2; right; exact H].
Qed.
Lemma first_seen_NoDup s l r : first_seen s l r -> NoDup r /\ (forall n, In n r -> ~ In n s).
Proof.
  induction 1 as [s|s n0 l r HI _ [IH1 IH2]|s n0 l r HI _ [IH1 IH2]]; [split; [constructor|intros n []]|auto|].
  split.
  - constructor; [intros H; apply (IH2 _ H); left; reflexivity|exact IH1].
  - intros n [<-|H]; [exact HI|]. intros HS. apply (IH2 _ H). right. exact HS.
Qed.
Lemma first_seen_in s l r n : first_seen s l r -> In n l -> In n s \/ In n r.
Proof.
  induction 1 as [s|s n0 l r HI _ IH|s n0 l r HI _ IH]; intros HL; [destruct HL|..].
  - destruct HL as [<-|HL]; auto.
  - destruct HL as [<-|HL]; [right; left; reflexivity|]. destruct (IH HL) as [[<-|H]|H]; [right; left; reflexivity|auto|right; right; auto].
Qed.
Lemma first_seen_sub s l r n : first_seen s l r -> In n r -> In n l.
Proof.
  induction 1 as [s|s n0 l r HI _ IH|s n0 l r HI _ IH]; intros HL; [destruct HL|right; auto|].
  destruct HL as [<-|HL]; [left; reflexivity|right; auto].
Qed.

(** ** The loop *)
Definition of_name (n : str) (ws : list wmodel) : list wmodel := filter (fun w => eqb_list (wm_name w) n) ws.
Definition inv (inherited : list str) (ws : list wmodel) (w : wdev) : Prop :=
  dget (lit "device"%string) (wd_dict w) = Some WDevice /\ wd_closed w = false /\
  (exists names, wd_models w = map NName names /\ first_seen [] (map wm_name ws) names) /\
  (forall n, free_name inherited n -> match of_name n ws with
                                      | [] => dget n (wd_dict w) = None
                                      | l => exists v, dget n (wd_dict w) = Some v /\ holds l v
                                      end).
Lemma of_name_snoc n ws w : of_name n (ws ++ [w]) = of_name n ws ++ (if eqb_list (wm_name w) n then [w] else []).
Proof. unfold of_name. rewrite filter_app. cbn [filter]. destruct (eqb_list (wm_name w) n); reflexivity. Qed.
Lemma of_name_in n ws : of_name n ws <> [] <-> In n (map wm_name ws).
Proof.
  unfold of_name. induction ws as [|w ws IH]; cbn [filter map In]; [split; [congruence|contradiction]|].
  destruct (eqb_list (wm_name w) n) eqn:E.
  - apply eqb_list_eq in E. split; [auto|discriminate].
  - apply eqb_list_neq in E. rewrite IH. split; [auto|]. intros [H|H]; [contradiction|exact H].
Qed.
Lemma free_not_class inherited n : free_name inherited n -> existsb (eqb_list n) (class_attrs ++ inherited) = false.
Proof.
  intros [H1 H2]. destruct (existsb (eqb_list n) (class_attrs ++ inherited)) eqn:E; [|reflexivity].
  apply existsb_exists in E as (x & HI & HE). apply eqb_list_eq in HE. subst x. apply in_app_iff in HI as [HI|HI]; [|contradiction].
  exfalso. apply H1. unfold class_attrs in HI. cbn [map] in *. cbn [In] in *. intuition.
Qed.
Lemma free_not_device inherited n : free_name inherited n -> lit "device"%string <> n.
Proof. intros [H1 _] <-. apply H1. cbn [map In]. left. reflexivity. Qed.

Lemma add_model_step types inherited classes w ws m :
  wrappable types m -> (forall n, named m n -> free_name inherited n) -> inv inherited ws w ->
  exists classes' w' wm n, add_model types inherited (classes, w) m = Ok (classes', w') /\ named m n /\ wraps types m n wm /\ inv inherited (ws ++ [wm]) w'.
Proof.
  intros HW HF (I1 & I2 & (names & I3 & I4) & I5). pose proof HW as ((n & Hn) & _).
  specialize (HF n Hn). unfold add_model. pose proof (proj2 (wrapper_name_spec m n) Hn) as HWN.
  destruct (model_class_get types classes (md_id m)) as [classes' points] eqn:EC. rewrite HWN.
  destruct (wrap_model_spec types classes classes' points m n HW EC) as (wm & Hwm & HWR). rewrite Hwm. cbn [bind]. cbv zeta.
  pose proof HWR as (_ & HNM & _).
  assert (HPUT : forall v names', holds (of_name n ws ++ [wm]) v -> first_seen [] (map wm_name (ws ++ [wm])) names' ->
     inv inherited (ws ++ [wm]) (mkWD (dset n v (wd_dict w)) (map NName names') (wd_closed w))).
  { intros v names' Hv Hs. unfold inv. cbn [wd_dict wd_models wd_closed]. split; [rewrite dget_dset_other; [exact I1|eapply free_not_device; eauto]|].
    split; [exact I2|]. split; [exists names'; auto|]. intros n2 Hf2. rewrite of_name_snoc, HNM.
    destruct (eqb_list n n2) eqn:E2.
    - apply eqb_list_eq in E2. subst n2. destruct (of_name n ws ++ [wm]) eqn:EA; [destruct (of_name n ws); discriminate|].
      exists v. split; [apply dget_dset_same|exact Hv].
    - apply eqb_list_neq in E2. rewrite app_nil_r, dget_dset_other by congruence. apply I5, Hf2. }
  assert (HSEEN_OLD : of_name n ws <> [] -> first_seen [] (map wm_name (ws ++ [wm])) names).
  { intros HNE. rewrite map_app. cbn [map]. rewrite HNM. apply first_seen_snoc_old; [exact I4|]. apply of_name_in in HNE.
    apply (first_seen_in _ _ _ _ I4 HNE). }
  specialize (I5 n HF). unfold getattr_w.
  destruct (of_name n ws) as [|w1 [|w2 rest]] eqn:EW.
  - rewrite I5, (free_not_class inherited n HF). do 4 eexists. split; [reflexivity|]. split; [exact Hn|]. split; [exact HWR|].
    rewrite I3. change (map NName names ++ [NName n]) with (map NName names ++ map NName [n]). rewrite <- map_app. apply HPUT; [reflexivity|].
    rewrite map_app. cbn [map]. rewrite HNM. apply first_seen_snoc_new; [exact I4|intros []|].
    intros HI. apply (first_seen_sub _ _ _ _ I4) in HI. apply of_name_in in HI. congruence.
  - destruct I5 as (v & Hv & Hh). cbn [holds] in Hh. subst v. rewrite Hv. cbn [w_truthy]. do 4 eexists. split; [reflexivity|].
    split; [exact Hn|]. split; [exact HWR|]. rewrite I3. apply HPUT; [reflexivity|apply HSEEN_OLD; discriminate].
  - destruct I5 as (v & Hv & Hh). cbn [holds] in Hh. subst v. rewrite Hv. cbn [w_truthy]. do 4 eexists. split; [reflexivity|].
    split; [exact Hn|]. split; [exact HWR|]. rewrite I3. apply HPUT; [|apply HSEEN_OLD; discriminate].
    change ((w1 :: w2 :: rest) ++ [wm]) with (w1 :: w2 :: (rest ++ [wm])). cbn [holds].
    change (w1 :: w2 :: rest ++ [wm]) with ((w1 :: w2 :: rest) ++ [wm]). rewrite map_app. reflexivity.
Qed.
Lemma add_models_spec types inherited ms : forall classes w ws,
  Forall (wrappable types) ms -> Forall (fun m => forall n, named m n -> free_name inherited n) ms -> inv inherited ws w ->
  exists c w' ws', add_models types inherited (classes, w) ms = ((c, w'), Ok tt) /\
    Forall2 (fun m wm => exists n, named m n /\ wraps types m n wm) ms ws' /\ inv inherited (ws ++ ws') w'.
Proof.
  induction ms as [|m ms IH]; intros classes w ws HW HF HI; cbn [add_models].
  - exists classes, w, []. rewrite app_nil_r. auto.
  - inversion HW; subst. inversion HF; subst.
    destruct (add_model_step types inherited classes w ws m ltac:(auto) ltac:(auto) HI) as (c1 & w1 & wm & n & -> & Hn & HWR & HI1).
    destruct (IH c1 w1 (ws ++ [wm]) ltac:(auto) ltac:(auto) HI1) as (c2 & w2 & ws2 & -> & HF2 & HI2).
    exists c2, w2, (wm :: ws2). split; [reflexivity|]. split; [constructor; eauto|]. rewrite <- app_assoc in HI2. exact HI2.
Qed.
Lemma inv_new inherited : inv inherited [] new_wdev.
Proof.
  split; [reflexivity|]. split; [reflexivity|]. split; [exists []; split; [reflexivity|constructor]|].
  intros n [H1 _]. cbn [of_name filter new_wdev wd_dict dget].
  destruct (eqb_list n (lit "device")) eqn:E1; [apply eqb_list_eq in E1; subst; exfalso; apply H1; cbn [map In]; left; reflexivity|].
  destruct (eqb_list n (lit "models")) eqn:E2; [apply eqb_list_eq in E2; subst; exfalso; apply H1; cbn [map In]; right; left; reflexivity|]. reflexivity.
Qed.

(** ** Points *)
Lemma find_point_id id l p : find_point id l = Some p -> In p l /\ p_id p = id.
Proof. intros H. apply find_some in H as [H1 H2]. apply eqb_list_eq in H2. auto. Qed.
Lemma set_in_spec E l id v l' : set_in E l id v = Ok l' ->
  (find_point id l = None /\ l' = l) \/
  exists a p b p', l = a ++ p :: b /\ l' = a ++ p' :: b /\ p_id p = id /\ Forall (fun q => p_id q <> id) a /\ point_set E p v = Ok p'.
Proof.
  revert l'. induction l as [|p l IH]; intros l' H; cbn [set_in] in H.
  - apply Ok_inj in H. subst. left. auto.
  - unfold find_point. cbn [find]. destruct (eqb_list (p_id p) id) eqn:E0.
    + apply eqb_list_eq in E0. apply bind_ok in H as (p' & Hp & H). apply Ok_inj in H. subst l'. right.
      exists [], p, l, p'. cbn [app]. repeat (split; auto).
    + apply eqb_list_neq in E0. apply bind_ok in H as (r' & Hr & H). apply Ok_inj in H. subst l'.
      destruct (IH r' Hr) as [[H1 ->]|(a & q & b & q' & -> & -> & H3 & H4 & H5)].
      * left. auto.
      * right. exists (p :: a), q, b, q'. cbn [app]. repeat (split; auto).
Qed.
Lemma set_in_raise E l id v e : set_in E l id v = Raise e -> exists p, In p l /\ p_id p = id /\ point_set E p v = Raise e.
Proof.
  induction l as [|p l IH]; intros H; cbn [set_in] in H; [discriminate|].
  destruct (eqb_list (p_id p) id) eqn:E0.
  - apply eqb_list_eq in E0. apply bind_raise in H as [H|(x & _ & H)]; [|discriminate]. exists p. split; [left; auto|auto].
  - apply bind_raise in H as [H|(x & _ & H)]; [|discriminate]. destruct (IH H) as (q & A & B & C). exists q. split; [right; auto|auto].
Qed.
