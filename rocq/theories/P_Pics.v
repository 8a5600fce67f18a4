(** * P_Pics: proofs about PICS documents. *)
From Coq Require Import String ZifyBool.
From Verif Require Import Py P_List M_Util M_Float M_Suns M_Point M_Xml M_Mbmap M_Device M_Client M_Scan M_Pics S_Codec S_Device P_Codec P_IntText P_Device S_Pics.

Lemma nodup_app {A} (l m : list A) : NoDup (l ++ m) -> NoDup l /\ NoDup m /\ (forall x, In x l -> ~ In x m).
Proof.
  induction l as [|x l IH]; cbn [app]; intros H; [split; [constructor|]; split; [exact H|intros x []]|].
  apply NoDup_cons_iff in H as [H1 H2]. destruct (IH H2) as (I1 & I2 & I3). rewrite in_app_iff in H1. split; [constructor; tauto|]. split; [exact I2|].
  intros y [<-|Hy]; [tauto|auto].
Qed.

(** ** points *)
Lemma settled_text E p : settled E p -> p_base p <> VNone ->
  exists c r, rstrip0 (suns_to_str E (p_base p)) = c :: r /\ to_value E (pt_type (p_type p)) (VStr (c :: r)) = Ok (p_base p) /\
    is_impl (pt_type (p_type p)) (p_base p) = true.
Proof.
  intros [HS HI] HN. destruct HI as [HI|HI]; [congruence|]. destruct (p_base p) as [|z|s|f]; cbn [storable] in HS; [congruence| | |].
  - cbn [suns_to_str]. destruct (str_of_int_canonical z) as (ds & ES & HND & _ & HD & _).
    assert (HE : ~ ends_in_nul (str_of_int z)).
    { intros [r Hr]. rewrite ES in Hr. destruct (exists_last HND) as (l & x & ->). rewrite app_assoc in Hr.
      apply app_inj_tail in Hr as [_ ->]. apply Forall_app in HD as [_ HD]. inversion HD; subst. lia. }
    rewrite (rstrip0_id _ HE).
    destruct (str_of_int z) as [|c r] eqn:EZ.
    { destruct (z <? 0); destruct ds; cbn in ES; try discriminate; congruence. }
    exists c, r. split; [reflexivity|]. split; [|exact HI]. rewrite <- EZ.
    pose proof (int_text_roundtrip z) as HT. destruct (pt_type (p_type p)); try discriminate HS; cbn [to_value]; rewrite HT; reflexivity.
  - destruct HS as (HT & HNE & HE). cbn [suns_to_str]. rewrite (rstrip0_id _ HE). destruct s as [|c r]; [congruence|].
    exists c, r. split; [reflexivity|]. split; [|exact HI]. destruct HT as [->|[->| ->]]; reflexivity.
  - destruct HS as (HT & HNE & HE & HP). cbn [suns_to_str]. rewrite (rstrip0_id _ HE). destruct (float_repr E f) as [|c r] eqn:ER; [congruence|].
    exists c, r. split; [reflexivity|]. split; [|exact HI]. rewrite HT. cbn [to_value suns_to_float bind]. rewrite HP. reflexivity.
Qed.

Lemma point_to_pics_id E p e : point_to_pics E p = Ok e -> x_tag e = PICS_POINT /\ x_get PICS_ID e = Some (p_id p).
Proof.
  unfold point_to_pics. intros H. apply bind_ok in H as (v & _ & H). apply Ok_inj in H. subst e. split; [reflexivity|].
  unfold x_get. cbn [x_attrs dget]. rewrite eqb_list_refl. reflexivity.
Qed.

(** writing a point and loading it into a point that has a value only if the original has one *)
Lemma point_roundtrip E p e q : point_to_pics E p = Ok e -> settled E p -> p_type q = p_type p -> (p_base p = VNone -> p_base q = VNone) ->
  point_from_pics E q e = Ok (mkP (p_type q) (p_addr q) (p_link q) (negb (is_none (p_base p))) (p_base p) (p_sf q) (p_dirty q)).
Proof.
  unfold point_to_pics. intros H HS HT HQ. apply bind_ok in H as (v & HV & H). apply Ok_inj in H. subst e.
  unfold point_from_pics, x_get. cbn [x_attrs x_text].
  assert (HVN : is_none v = is_none (p_base p)).
  { unfold value_getter in HV. destruct (sf_truthy (p_sf p)).
    - apply bind_ok in HV as (w & _ & HV). destruct (p_base p) as [|z|s|f]; try discriminate.
      + apply bind_ok in HV as (g & _ & HV). apply Ok_inj in HV. subst v. reflexivity.
      + apply Ok_inj in HV. subst v. reflexivity.
    - apply Ok_inj in HV. subst v. reflexivity. }
  destruct (is_none (p_base p)) eqn:EN.
  - destruct v; try discriminate. destruct (p_base p) eqn:EB; try discriminate.
    change (dget PICS_IMPL ((PICS_ID, p_id p) :: [(PICS_IMPL, PICS_FALSE)])) with (Some PICS_FALSE).
    cbv iota. rewrite eqb_list_refl. cbn [negb bind p_impl with_impl andb is_none]. unfold with_impl. rewrite (HQ eq_refl). reflexivity.
  - assert (HD : dget PICS_IMPL ((PICS_ID, p_id p) :: match v with VNone => [(PICS_IMPL, PICS_FALSE)] | _ => if eqb_list (pt_access (p_type p)) SUNS_ACCESS_R then [] else [(PICS_ACCESS, PICS_RW)] end) = None).
    { destruct v; try discriminate; destruct (eqb_list (pt_access (p_type p)) SUNS_ACCESS_R); reflexivity. }
    rewrite HD. cbv iota.
    assert (HNN : p_base p <> VNone) by (intros HX; rewrite HX in EN; discriminate).
    destruct (settled_text E p HS HNN) as (c & r & H1 & H2 & H3).
    assert (HX : match p_base p with VNone => None | b => Some (rstrip0 (suns_to_str E b)) end = Some (c :: r))
      by (rewrite <- H1; clear -HNN; destruct (p_base p); [congruence|reflexivity|reflexivity|reflexivity]).
    rewrite HX.
    cbv iota. rewrite HT, H2. cbn [bind p_impl with_impl]. rewrite H3, EN. cbn [andb negb]. unfold with_base, with_impl. cbn [p_type p_addr p_link p_impl p_sf p_dirty]. rewrite HT. reflexivity.
Qed.

(** ** the elements of a block *)
Definition elem_id (e : xml) : option str := x_get PICS_ID e.
Definition upd_by (E : pyenv) (es : list xml) (q q' : point) : Prop :=
  match find (fun e => match elem_id e with Some i => eqb_list i (p_id q) | None => false end) es with
  | Some e => point_from_pics E q e = Ok q'
  | None => q' = q
  end.

Lemma point_from_pics_type E q e q' : point_from_pics E q e = Ok q' ->
  p_type q' = p_type q /\ p_addr q' = p_addr q /\ p_link q' = p_link q /\ p_sf q' = p_sf q /\ p_dirty q' = p_dirty q.
Proof.
  unfold point_from_pics. intros H. apply bind_ok in H as ([p1 v] & H1 & H). apply Ok_inj in H.
  assert (HP : p_type p1 = p_type q /\ p_addr p1 = p_addr q /\ p_link p1 = p_link q /\ p_sf p1 = p_sf q /\ p_dirty p1 = p_dirty q).
  { destruct (match x_get PICS_IMPL e with Some a => negb (eqb_list a PICS_FALSE) | None => true end).
    - destruct (x_text e) as [[|c r]|].
      + apply Ok_inj in H1. apply pair_equal_spec in H1 as [<- _]. auto.
      + apply bind_ok in H1 as (w & _ & H1). apply Ok_inj in H1. apply pair_equal_spec in H1 as [<- _]. repeat split.
      + apply Ok_inj in H1. apply pair_equal_spec in H1 as [<- _]. auto.
    - apply Ok_inj in H1. apply pair_equal_spec in H1 as [<- _]. repeat split. }
  subst q'. destruct (p_impl p1 && negb (is_none v)); cbn; exact HP.
Qed.

Lemma upd_point_none f id l : ~ In id (map p_id l) -> upd_point f id l = None.
Proof.
  induction l as [|p l IH]; intros H; [reflexivity|]. cbn [upd_point]. destruct (eqb_list (p_id p) id) eqn:EQ.
  - apply eqb_list_eq in EQ. exfalso. apply H. left. exact EQ.
  - rewrite IH; [reflexivity|]. intros HI. apply H. right. exact HI.
Qed.
Lemma upd_point_one f id a q c q' : p_id q = id -> ~ In id (map p_id a) -> f q = Ok q' -> upd_point f id (a ++ q :: c) = Some (Ok (a ++ q' :: c)).
Proof.
  intros HQ HA HF. induction a as [|x a IH]; cbn [app upd_point].
  - rewrite HQ, eqb_list_refl, HF. reflexivity.
  - destruct (eqb_list (p_id x) id) eqn:EQ.
    + apply eqb_list_eq in EQ. exfalso. apply HA. left. exact EQ.
    + rewrite IH; [reflexivity|]. intros HI. apply HA. right. exact HI.
Qed.

Lemma Forall2_same_id (R : point -> point -> Prop) l l' : (forall p q, R p q -> p_id q = p_id p) -> Forall2 R l l' -> map p_id l' = map p_id l.
Proof. intros HR H. induction H as [|p q l l' H1 _ IH]; [reflexivity|]. cbn [map]. rewrite (HR _ _ H1), IH. reflexivity. Qed.

Lemma upd_by_cons_other E e es q q' : elem_id e <> Some (p_id q) -> upd_by E (e :: es) q q' -> upd_by E es q q'.
Proof.
  intros HN. unfold upd_by. cbn [find]. destruct (elem_id e) as [i|]; [|auto]. destruct (eqb_list i (p_id q)) eqn:EQ; [|auto].
  apply eqb_list_eq in EQ. congruence.
Qed.
Lemma upd_by_cons_this E e es q q' : elem_id e = Some (p_id q) -> ~ In (elem_id e) (map elem_id es) -> upd_by E (e :: es) q q' ->
  point_from_pics E q e = Ok q' /\ upd_by E es q' q'.
Proof.
  intros HI HN. unfold upd_by. cbn [find]. rewrite HI, eqb_list_refl. intros H. split; [exact H|].
  assert (p_id q' = p_id q) as -> by (unfold p_id; now destruct (point_from_pics_type _ _ _ _ H) as [-> _]).
  destruct (find _ es) as [e'|] eqn:EF; [|reflexivity]. exfalso. apply find_some in EF as [HIn HE]. destruct (elem_id e') as [i|] eqn:EI; [|discriminate].
  apply eqb_list_eq in HE. subst i. apply HN. rewrite HI, <- EI. apply in_map. exact HIn.
Qed.
Lemma upd_by_id E es q q' : upd_by E es q q' -> p_id q' = p_id q.
Proof.
  unfold upd_by, p_id. destruct (find _ es); [|intros ->; reflexivity]. intros H. apply point_from_pics_type in H as [-> _]. reflexivity.
Qed.

Lemma in_split_id id l : In id (map p_id l) -> NoDup (map p_id l) -> exists a q c, l = a ++ q :: c /\ p_id q = id /\ ~ In id (map p_id a) /\ ~ In id (map p_id c).
Proof.
  intros HI HN. apply in_map_iff in HI as (q & Hq & HI). apply in_split in HI as (a & c & ->). exists a, q, c.
  split; [reflexivity|]. split; [exact Hq|]. rewrite map_app in HN. cbn [map] in HN. apply NoDup_remove_2 in HN. rewrite Hq, in_app_iff in HN. tauto.
Qed.

Lemma upd_by_rest E e es l l' : Forall (fun q => elem_id e <> Some (p_id q)) l -> Forall2 (upd_by E (e :: es)) l l' -> Forall2 (upd_by E es) l l'.
Proof.
  intros HF H. revert HF. induction H as [|q q' l l' H1 _ IH]; intros HF; constructor.
  - apply Forall_inv in HF. apply (upd_by_cons_other _ _ _ _ _ HF H1).
  - apply IH. apply (Forall_inv_tail HF).
Qed.
Lemma not_in_ids i l : ~ In i (map p_id l) -> Forall (fun q => Some i <> Some (p_id q)) l.
Proof. intros H. apply Forall_forall. intros q Hq [= ->]. apply H. apply in_map. exact Hq. Qed.

Lemma upd_list E e es i l l' : elem_id e = Some i -> ~ In (elem_id e) (map elem_id es) -> NoDup (map p_id l) -> In i (map p_id l) ->
  Forall2 (upd_by E (e :: es)) l l' ->
  exists l1, upd_point (fun p => point_from_pics E p e) i l = Some (Ok l1) /\ Forall2 (upd_by E es) l1 l' /\ map p_id l1 = map p_id l.
Proof.
  intros HI HES HN HIn H. destruct (in_split_id i l HIn HN) as (a & q & c & -> & Hq & HA & HC).
  apply Forall2_app_inv_l in H as (a' & r' & H1 & H2 & ->). inversion H2 as [|q0 q' c0 c' Hqq Hcc]; subst q0 c0 r'.
  assert (HQ1 : elem_id e = Some (p_id q)) by congruence.
  apply (upd_by_cons_this E e es q q' HQ1 HES) in Hqq as [F1 F2].
  exists (a ++ q' :: c). split; [apply upd_point_one; auto|]. split.
  - apply Forall2_app; [|constructor; [exact F2|]].
    + apply (upd_by_rest E e); [rewrite HI; apply not_in_ids; exact HA|exact H1].
    + apply (upd_by_rest E e); [rewrite HI; apply not_in_ids; exact HC|exact Hcc].
  - rewrite !map_app. cbn [map]. unfold p_id at 2 5. destruct (point_from_pics_type _ _ _ _ F1) as [-> _]. reflexivity.
Qed.

Lemma block_elems_spec E es : forall b pts' sfs',
  Forall (fun e => x_tag e = PICS_POINT) es -> Forall (fun e => elem_id e <> None) es -> NoDup (map elem_id es) ->
  NoDup (map p_id (b_points b ++ b_sfs b)) ->
  Forall2 (upd_by E es) (b_points b) pts' -> Forall2 (upd_by E es) (b_sfs b) sfs' ->
  block_elems E b es = (with_lists b pts' sfs', Ok tt).
Proof.
  induction es as [|e es IH]; intros b pts' sfs' HT HD HN HB HP HS.
  - assert (forall l l', Forall2 (upd_by E []) l l' -> l' = l) as HE by (induction 1 as [|x y l l' H1 _ IH]; [reflexivity|]; red in H1; cbn in H1; congruence).
    apply HE in HP, HS. subst. destruct b. reflexivity.
  - cbn [block_elems]. unfold block_elem. rewrite (Forall_inv HT), eqb_list_refl. cbn [negb].
    pose proof (Forall_inv HD) as HDe. pose proof (Forall_inv_tail HD) as HDt. pose proof (Forall_inv_tail HT) as HTt.
    cbn [map] in HN. apply NoDup_cons_iff in HN as [HN1 HN2].
    change (x_get PICS_ID e) with (elem_id e). destruct (elem_id e) as [i|] eqn:EI; [|congruence].
    rewrite map_app in HB.
    assert (HB1 : NoDup (map p_id (b_points b))) by (apply nodup_app in HB; tauto).
    assert (HB2 : NoDup (map p_id (b_sfs b))) by (apply nodup_app in HB; tauto).
    destruct (in_dec (list_eq_dec Z.eq_dec) i (map p_id (b_points b))) as [Hin|Hout].
    + rewrite <- EI in HN1. destruct (upd_list E e es i _ _ EI HN1 HB1 Hin HP) as (l1 & U1 & U2 & U3). unfold str in *. rewrite U1. cbn [bind].
      apply (IH (with_lists b l1 (b_sfs b)) pts' sfs'); auto.
      * cbn [with_lists b_points b_sfs]. rewrite map_app, U3. exact HB.
      * cbn [with_lists b_sfs]. apply (upd_by_rest E e); [|exact HS]. rewrite EI. apply not_in_ids.
        apply nodup_app in HB as (_ & _ & HB3). apply HB3. exact Hin.
    + rewrite (upd_point_none _ _ _ Hout). 
      assert (HP' : Forall2 (upd_by E es) (b_points b) pts') by (apply (upd_by_rest E e); [rewrite EI; apply not_in_ids; exact Hout|exact HP]).
      destruct (in_dec (list_eq_dec Z.eq_dec) i (map p_id (b_sfs b))) as [Hin|Hout2].
      * rewrite <- EI in HN1. destruct (upd_list E e es i _ _ EI HN1 HB2 Hin HS) as (l1 & U1 & U2 & U3). unfold str in *. rewrite U1. cbn [bind].
        apply (IH (with_lists b (b_points b) l1) pts' sfs'); auto. cbn [with_lists b_points b_sfs]. rewrite map_app, U3. exact HB.
      * rewrite (upd_point_none _ _ _ Hout2). apply IH; auto; [rewrite map_app; exact HB|].
        apply (upd_by_rest E e); [rewrite EI; apply not_in_ids; exact Hout2|exact HS].
Qed.

(** ** blocks *)
Lemma block_point_id b id p : block_point b id = Some p -> p_id p = id /\ In p (all_points b).
Proof.
  unfold block_point, find_point, all_points. destruct (find _ (b_points b)) as [x|] eqn:E1.
  - intros H. apply Some_inj in H. subst x. apply find_some in E1 as [H1 H2]. apply eqb_list_eq in H2. split; [exact H2|]. apply in_app_iff. auto.
  - intros E2. apply find_some in E2 as [H1 H2]. apply eqb_list_eq in H2. split; [exact H2|]. apply in_app_iff. auto.
Qed.
Lemma nodup_map_inj {A B} (f : A -> B) l x y : NoDup (map f l) -> In x l -> In y l -> f x = f y -> x = y.
Proof.
  induction l as [|z l IH]; [intros _ []|]. cbn [map]. intros H. apply NoDup_cons_iff in H as [H1 H2].
  intros [->|Hx] [->|Hy] HE; auto; exfalso; apply H1; [rewrite HE|rewrite <- HE]; apply in_map; assumption.
Qed.
Lemma block_point_of b p : NoDup (map p_id (all_points b)) -> In p (all_points b) -> block_point b (p_id p) = Some p.
Proof.
  intros HN HI. destruct (block_point b (p_id p)) as [q|] eqn:EQ.
  - apply block_point_id in EQ as [H1 H2]. f_equal. apply (nodup_map_inj p_id _ q p HN H2 HI H1).
  - exfalso. unfold block_point, find_point in EQ. destruct (find _ (b_points b)) eqn:E1; [discriminate|].
    unfold all_points in HI. apply in_app_iff in HI as [HI|HI]; [pose proof (find_none _ _ E1 p HI) as HX|pose proof (find_none _ _ EQ p HI) as HX];
      cbv beta in HX; rewrite eqb_list_refl in HX; discriminate.
Qed.

Lemma nodup_filter_map {A B} (f : A -> B) g l : NoDup (map f l) -> NoDup (map f (filter g l)).
Proof.
  induction l as [|x l IH]; cbn [filter map]; [auto|]. intros H. apply NoDup_cons_iff in H as [H1 H2]. destruct (g x); [|auto]. cbn [map]. constructor; [|auto].
  intros HI. apply H1. apply in_map_iff in HI as (y & <- & HY). apply filter_In in HY as [HY _]. apply in_map. exact HY.
Qed.
Lemma complete_nodup b : complete b -> NoDup (map p_id (all_points b)).
Proof.
  intros (H1 & H2 & H3). unfold all_points. rewrite map_app. unfold p_id. rewrite <- !(map_map p_type pt_id), H2, H3.
  assert (HD : forall x, In x (map pt_id (filter plain (bt_points (b_type b)))) -> ~ In x (map pt_id (filter scale (bt_points (b_type b))))).
  { intros x HX HY. apply in_map_iff in HX as (t & <- & HT). apply in_map_iff in HY as (u & HE & HU). apply filter_In in HT as [T1 T2]. apply filter_In in HU as [U1 U2].
    assert (u = t) by (apply (nodup_map_inj pt_id _ u t H1 U1 T1 HE)). subst u. unfold plain, scale in *. destruct (pt_type t); discriminate. }
  pose proof (nodup_filter_map pt_id plain _ H1) as HA. pose proof (nodup_filter_map pt_id scale _ H1) as HB. clear -HD HA HB.
  induction (map pt_id (filter plain (bt_points (b_type b)))) as [|x l IH]; cbn [app]; [exact HB|]. apply NoDup_cons_iff in HA as [N1 N2]. constructor.
  - rewrite in_app_iff. intros [HI|HI]; [auto|]. apply (HD x); [left; reflexivity|exact HI].
  - apply IH; [|exact N2]. intros y Hy. apply HD. right. exact Hy.
Qed.
Lemma complete_in b p : complete b -> In p (all_points b) -> In (p_type p) (bt_points (b_type b)).
Proof.
  intros (H1 & H2 & H3) HI. unfold all_points in HI. apply in_app_iff in HI as [HI|HI]; apply (in_map p_type) in HI; [rewrite H2 in HI|rewrite H3 in HI]; apply filter_In in HI; tauto.
Qed.

Lemma points_to_pics_spec E b l : forall es, points_to_pics E b l = Ok es ->
  Forall (fun e => exists t p, In t l /\ block_point b (pt_id t) = Some p /\ point_to_pics E p = Ok e) es /\
  (forall t p, In t l -> block_point b (pt_id t) = Some p -> exists e, In e es /\ point_to_pics E p = Ok e) /\
  (NoDup (map pt_id l) -> NoDup (map elem_id es)).
Proof.
  induction l as [|t l IH]; intros es H; cbn [points_to_pics] in H.
  - apply Ok_inj in H. subst es. split; [constructor|]. split; [intros t p []|constructor].
  - assert (HX : forall es', Forall (fun e => exists t p, In t l /\ block_point b (pt_id t) = Some p /\ point_to_pics E p = Ok e) es' ->
       Forall (fun e => exists t0 p, In t0 (t :: l) /\ block_point b (pt_id t0) = Some p /\ point_to_pics E p = Ok e) es').
    { intros es' HF. eapply Forall_impl; [|exact HF]. cbv beta. intros e (u & p & H1 & H2). exists u, p. split; [right; exact H1|exact H2]. }
    destruct (block_point b (pt_id t)) as [p|] eqn:EP.
    + apply bind_ok in H as (e & HE & H). apply bind_ok in H as (es' & HES & H). apply Ok_inj in H. subst es.
      destruct (IH _ HES) as (I1 & I2 & I3). split; [|split].
      * constructor; [exists t, p; split; [left; reflexivity|auto]|apply HX; exact I1].
      * intros u q [<-|Hu] HQ; [rewrite EP in HQ; apply Some_inj in HQ; subst q; exists e; split; [left; reflexivity|exact HE]|].
        destruct (I2 u q Hu HQ) as (e' & H1 & H2). exists e'. split; [right; exact H1|exact H2].
      * cbn [map]. intros HN. apply NoDup_cons_iff in HN as [N1 N2]. constructor; [|auto].
        intros HI. apply in_map_iff in HI as (e' & HE' & HI). rewrite Forall_forall in I1. destruct (I1 e' HI) as (u & q & H1 & H2 & H3).
        apply point_to_pics_id in H3 as [_ H3]. apply point_to_pics_id in HE as [_ HE]. unfold elem_id in HE'. rewrite HE, H3 in HE'.
        apply block_point_id in H2 as [H2 _]. apply block_point_id in EP as [EP _]. apply Some_inj in HE'. apply N1. rewrite <- EP, <- HE', H2. apply in_map. exact H1.
    + destruct (IH _ H) as (I1 & I2 & I3). split; [apply HX; exact I1|]. split.
      * intros u q [<-|Hu] HQ; [congruence|]. apply (I2 u q Hu HQ).
      * cbn [map]. intros HN. apply NoDup_cons_iff in HN as [N1 N2]. auto.
Qed.

(** the point q after loading what was written for p *)
Definition put (p q : point) : point := mkP (p_type q) (p_addr q) (p_link q) (negb (is_none (p_base p))) (p_base p) (p_sf q) (p_dirty q).
Fixpoint puts (l m : list point) : list point := match l, m with p :: l', q :: m' => put p q :: puts l' m' | _, _ => [] end.
Definition compat (p q : point) : Prop := p_type q = p_type p /\ (p_base p = VNone -> p_base q = VNone).
(** the block c after loading what was written for b *)
Definition put_block (fixed : option (list point)) (b c : block) : block :=
  let sfs := puts (b_sfs b) (b_sfs c) in
  let fx := match fixed with Some f => f | None => sfs end in
  with_lists c (map (resolve_sf sfs fx) (puts (b_points b) (b_points c))) sfs.
Definition compat_block (b c : block) : Prop := Forall2 compat (b_points b) (b_points c) /\ Forall2 compat (b_sfs b) (b_sfs c).

Lemma block_roundtrip E fixed b c e : complete b -> Forall (settled E) (all_points b) -> compat_block b c -> block_to_pics E b = Ok e ->
  block_from_pics E fixed c e = (put_block fixed b c, Ok tt).
Proof.
  intros HC HS (T4 & T5) H. unfold block_to_pics in H. apply bind_ok in H as (es & HES & H). apply Ok_inj in H. subst e.
  pose proof (complete_nodup b HC) as HN. destruct (points_to_pics_spec E b _ es HES) as (I1 & I2 & I3). specialize (I3 (proj1 HC)).
  assert (HU : forall l m, (forall p, In p l -> In p (all_points b)) -> Forall2 compat l m -> Forall2 (upd_by E es) m (puts l m)).
  { intros l m HL HF. induction HF as [|p q l m [H1 H3] _ IH]; [constructor|]. cbn [puts]. constructor; [|apply IH; intros x Hx; apply HL; right; exact Hx].
    assert (HP : In p (all_points b)) by (apply HL; left; reflexivity).
    assert (HID : p_id q = p_id p) by (unfold p_id; rewrite H1; reflexivity).
    unfold upd_by. destruct (find _ es) as [e|] eqn:EF.
    - apply find_some in EF as [F1 F2]. destruct (elem_id e) as [i|] eqn:EI; [|discriminate]. apply eqb_list_eq in F2. subst i.
      rewrite Forall_forall in I1. destruct (I1 e F1) as (t & p' & J1 & J2 & J3). pose proof (point_to_pics_id _ _ _ J3) as [_ J4].
      unfold elem_id in EI. rewrite EI in J4. apply Some_inj in J4. apply block_point_id in J2 as [_ J2].
      assert (p' = p) by (apply (nodup_map_inj p_id _ p' p HN J2 HP); congruence). subst p'.
      rewrite Forall_forall in HS. apply (point_roundtrip E p e q J3 (HS p HP) H1 H3).
    - exfalso. destruct (I2 (p_type p) p (complete_in b p HC HP) (block_point_of b p HN HP)) as (e & J1 & J2).
      apply point_to_pics_id in J2 as [_ J2]. pose proof (find_none _ _ EF e J1) as HX. cbv beta in HX. unfold elem_id in HX. rewrite J2, HID, eqb_list_refl in HX. discriminate. }
  unfold block_from_pics. cbn [x_children].
  rewrite (block_elems_spec E es c (puts (b_points b) (b_points c)) (puts (b_sfs b) (b_sfs c))).
  - reflexivity.
  - eapply Forall_impl; [|exact I1]. cbv beta. intros e (t & p & _ & _ & HE). apply point_to_pics_id in HE. tauto.
  - eapply Forall_impl; [|exact I1]. cbv beta. intros e (t & p & _ & _ & HE). apply point_to_pics_id in HE as [_ HE]. unfold elem_id. congruence.
  - exact I3.
  - assert (HM : forall l m, Forall2 compat l m -> map p_id m = map p_id l) by (intros l m HF; apply (Forall2_same_id compat); [intros p q [X _]; unfold p_id; rewrite X; reflexivity|exact HF]).
    rewrite map_app, (HM _ _ T4), (HM _ _ T5), <- map_app. exact HN.
  - apply HU; [|exact T4]. intros p Hp. unfold all_points. apply in_app_iff. auto.
  - apply HU; [|exact T5]. intros p Hp. unfold all_points. apply in_app_iff. auto.
Qed.

(** ** lists of blocks *)
Lemma upd_block_at E pre c post e c' fx : length pre <> O -> fx = fixed_sfs (pre ++ c :: post) -> block_from_pics E (Some fx) c e = (c', Ok tt) ->
  upd_block E (pre ++ c :: post) (length pre) e = (pre ++ c' :: post, Ok tt).
Proof.
  intros HL HF HB. unfold upd_block. rewrite nth_error_app2, Nat.sub_diag by lia. cbn [nth_error].
  replace (match length pre with O => None | S _ => Some (fixed_sfs (pre ++ c :: post)) end) with (Some fx) by (destruct (length pre); [congruence|subst; reflexivity]).
  rewrite HB. rewrite firstn_app, firstn_all, Nat.sub_diag. cbn [firstn]. rewrite app_nil_r.
  replace (skipn (S (length pre)) (pre ++ c :: post)) with post; [reflexivity|].
  replace (S (length pre)) with (length pre + 1)%nat by lia. rewrite skipn_app. rewrite skipn_all2 by lia. 
  replace (length pre + 1 - length pre)%nat with 1%nat by lia. reflexivity.
Qed.
Lemma fixed_sfs_app pre l : pre <> [] -> fixed_sfs (pre ++ l) = fixed_sfs pre.
Proof. destruct pre; [congruence|reflexivity]. Qed.

Lemma upd_all_spec E b e : complete b -> Forall (settled E) (all_points b) -> block_to_pics E b = Ok e ->
  forall cs pre, pre <> [] -> Forall (compat_block b) cs ->
  upd_all E (pre ++ cs) (length pre) (length cs) e = (pre ++ map (put_block (Some (fixed_sfs pre)) b) cs, Ok tt).
Proof.
  intros HC HS HE cs. induction cs as [|c cs IH]; intros pre HP HF; cbn [length upd_all map]; [reflexivity|].
  assert (HL : length pre <> O) by (destruct pre; [congruence|discriminate]).
  rewrite (upd_block_at E pre c cs e (put_block (Some (fixed_sfs pre)) b c) (fixed_sfs pre)).
  - change (put_block (Some (fixed_sfs pre)) b c :: cs) with ([put_block (Some (fixed_sfs pre)) b c] ++ cs). rewrite app_assoc.
    replace (S (length pre)) with (length (pre ++ [put_block (Some (fixed_sfs pre)) b c])) by (rewrite app_length; cbn; lia).
    rewrite IH; [|destruct pre; discriminate|apply (Forall_inv_tail HF)]. rewrite (fixed_sfs_app pre) by exact HP. rewrite <- app_assoc. reflexivity.
  - exact HL.
  - symmetry. apply fixed_sfs_app. exact HP.
  - apply block_roundtrip; auto. apply (Forall_inv HF).
Qed.

Lemma block_elem_attrs E b e : block_to_pics E b = Ok e -> x_tag e = PICS_BLOCK /\ x_attrs e = block_attrs b.
Proof. unfold block_to_pics. intros H. apply bind_ok in H as (es & _ & H). apply Ok_inj in H. subst e. split; reflexivity. Qed.

Fixpoint put_zip (F : list point) (bs cs : list block) : list block :=
  match bs, cs with b :: bs', c :: cs' => put_block (Some F) b c :: put_zip F bs' cs' | _, _ => [] end.

Lemma model_elems_rest E : forall bs cs es pre F, (2 <= length pre)%nat -> fixed_sfs pre = F ->
  (forall n b, nth_error bs n = Some b -> b_index b = zlen pre + Z.of_nat n) -> Forall (fun b => bt_type (b_type b) = Repeating) bs ->
  Forall complete bs -> Forall (fun b => Forall (settled E) (all_points b)) bs -> Forall2 compat_block bs cs ->
  Forall2 (fun b e => block_to_pics E b = Ok e) bs es ->
  model_elems E (pre ++ cs) es = (pre ++ put_zip F bs cs, Ok tt).
Proof.
  induction bs as [|b bs IH]; intros cs es pre F HP HF HI HT HC HS HCC HE; inversion HCC as [|b0 c bs0 cs' H1 H2]; subst; inversion HE as [|b1 e bs1 es' H3 H4]; subst.
  - reflexivity.
  - cbn [model_elems put_zip]. unfold model_elem. destruct (block_elem_attrs _ _ _ H3) as [-> HA]. rewrite eqb_list_refl. cbn [negb].
    unfold x_get. rewrite HA. unfold block_attrs. rewrite (Forall_inv HT). pose proof (HI O b eq_refl) as HIX. 
    replace (1 <? b_index b) with true by (unfold zlen in HIX; lia).
    change (dget PICS_TYPE ([(PICS_INDEX, str_of_int (b_index b))] ++ [(PICS_TYPE, PICS_REPEATING)])) with (Some PICS_REPEATING).
    change (dget PICS_INDEX ([(PICS_INDEX, str_of_int (b_index b))] ++ [(PICS_TYPE, PICS_REPEATING)])) with (Some (str_of_int (b_index b))).
    cbv iota. change (pics_block_type PICS_REPEATING) with (Some Repeating). cbv iota. rewrite int_of_str_roundtrip.
    replace (zlen (pre ++ c :: cs') <? b_index b) with false by (unfold zlen in *; rewrite app_length; cbn [length]; lia).
    unfold py_pos. replace (b_index b <? 0) with false by (unfold zlen in *; lia).
    replace (b_index b <? zlen (pre ++ c :: cs')) with true by (unfold zlen in *; rewrite app_length; cbn [length]; lia).
    replace (Z.to_nat (b_index b)) with (length pre) by (unfold zlen in *; lia).
    rewrite (upd_block_at E pre c cs' e (put_block (Some (fixed_sfs pre)) b c) (fixed_sfs pre)).
    + change (put_block (Some (fixed_sfs pre)) b c :: cs') with ([put_block (Some (fixed_sfs pre)) b c] ++ cs'). rewrite app_assoc.
      rewrite (IH cs' es' _ (fixed_sfs pre)).
      * rewrite <- app_assoc. reflexivity.
      * rewrite app_length. cbn. lia.
      * apply fixed_sfs_app. destruct pre; [cbn in HP; lia|discriminate].
      * intros n b' Hn. pose proof (HI (S n) b' Hn) as HX. unfold zlen in *. rewrite app_length. cbn [length]. lia.
      * apply (Forall_inv_tail HT).
      * apply (Forall_inv_tail HC).
      * apply (Forall_inv_tail HS).
      * exact H2.
      * exact H4.
    + destruct pre; [cbn in HP; lia|discriminate].
    + symmetry. apply fixed_sfs_app. destruct pre; [cbn in HP; lia|discriminate].
    + apply block_roundtrip; [apply (Forall_inv HC)|apply (Forall_inv HS)|exact H1|exact H3].
Qed.

(** all blocks of a model: what loading the written model makes of the blocks c0 :: cs *)
Definition put_model (bs cs : list block) : list block :=
  match bs, cs with
  | b0 :: br, c0 :: cr =>
    let d0 := put_block None b0 c0 in
    let F := b_sfs d0 in
    d0 :: match br with
          | [] => cr
          | b1 :: rest => match map (put_block (Some F) b1) cr with
                          | [] => []
                          | d1 :: dr => d1 :: put_zip F rest dr
                          end
          end
  | _, _ => cs
  end.

Lemma blocks_to_pics_all E single l : (single = true -> Forall (fun b => b_index b <= 1) l) -> forall es, blocks_to_pics E single l = Ok es ->
  Forall2 (fun b e => block_to_pics E b = Ok e) l es.
Proof.
  induction l as [|b l IH]; intros HS es H; cbn [blocks_to_pics] in H; [apply Ok_inj in H; subst; constructor|].
  replace (negb single || (b_index b <=? 1)) with true in H.
  - apply bind_ok in H as (e & HE & H). apply bind_ok in H as (es' & HES & H). apply Ok_inj in H. subst es. constructor; [exact HE|]. apply IH; [|exact HES].
    intros HX. apply (Forall_inv_tail (HS HX)).
  - destruct single; [|reflexivity]. cbn [negb orb]. specialize (HS eq_refl). apply Forall_inv in HS. lia.
Qed.

Lemma model_elems_spec E bs cs es :
  (forall n b, nth_error bs n = Some b -> b_index b = Z.of_nat n) ->
  Forall complete bs -> Forall (fun b => Forall (settled E) (all_points b)) bs ->
  (forall b0 br, bs = b0 :: br -> bt_type (b_type b0) = Fixed /\ Forall (fun b => bt_type (b_type b) = Repeating) br) ->
  length cs = length bs ->
  (forall b0 br c0 cr, bs = b0 :: br -> cs = c0 :: cr -> compat_block b0 c0) ->
  (forall b0 b1 br c0 cr, bs = b0 :: b1 :: br -> cs = c0 :: cr -> Forall (compat_block b1) cr) ->
  (forall b0 b1 br c0 c1 cr F, bs = b0 :: b1 :: br -> cs = c0 :: c1 :: cr -> Forall2 compat_block br (map (put_block (Some F) b1) cr)) ->
  Forall2 (fun b e => block_to_pics E b = Ok e) bs es ->
  model_elems E cs es = (put_model bs cs, Ok tt).
Proof.
  intros HI HC HS HT HLEN H0 H1 H2 HE. destruct bs as [|b0 br].
  { destruct cs; [|discriminate]. inversion HE; subst. reflexivity. }
  destruct cs as [|c0 cr]; [discriminate|]. inversion HE as [|b0' e0 br' er E0 ER]; subst. specialize (H0 _ _ _ _ eq_refl eq_refl).
  destruct (HT _ _ eq_refl) as [HT0 HTR]. cbn [model_elems put_model].
  assert (EL0 : model_elem E (c0 :: cr) e0 = (put_block None b0 c0 :: cr, Ok tt)).
  { unfold model_elem. destruct (block_elem_attrs _ _ _ E0) as [-> HA]. rewrite eqb_list_refl. cbn [negb]. unfold x_get. rewrite HA. unfold block_attrs. rewrite HT0.
    pose proof (HI O b0 eq_refl) as HIX. replace (1 <? b_index b0) with false by lia. cbn [app dget].
    change (pics_block_type PICS_FIXED) with (Some Fixed). cbv iota. unfold upd_block. cbn [nth_error].
    rewrite (block_roundtrip E None b0 c0 e0); [reflexivity|apply (Forall_inv HC)|apply (Forall_inv HS)|exact H0|exact E0]. }
  rewrite EL0. set (d0 := put_block None b0 c0) in *. cbv zeta.
  destruct br as [|b1 rest]; [inversion ER; subst; reflexivity|].
  inversion ER as [|b1' e1 rest' er' E1 ER']; subst. cbn [model_elems].
  specialize (H1 _ _ _ _ _ eq_refl eq_refl).
  assert (EL1 : model_elem E (d0 :: cr) e1 = (d0 :: map (put_block (Some (b_sfs d0)) b1) cr, Ok tt)).
  { unfold model_elem. destruct (block_elem_attrs _ _ _ E1) as [-> HA]. rewrite eqb_list_refl. cbn [negb]. unfold x_get. rewrite HA. unfold block_attrs. rewrite (Forall_inv HTR).
    pose proof (HI 1%nat b1 eq_refl) as HIX. replace (1 <? b_index b1) with false by lia. cbn [app].
    change (dget PICS_TYPE [(PICS_TYPE, PICS_REPEATING)]) with (Some PICS_REPEATING). change (dget PICS_INDEX [(PICS_TYPE, PICS_REPEATING)]) with (@None str). cbv iota.
    change (pics_block_type PICS_REPEATING) with (Some Repeating). cbv iota.
    replace (length (d0 :: cr) - 1)%nat with (length cr) by (cbn; lia).
    change (d0 :: cr) with ([d0] ++ cr). change 1%nat with (length [d0]).
    rewrite (upd_all_spec E b1 e1); [reflexivity|apply (Forall_inv (Forall_inv_tail HC))|apply (Forall_inv (Forall_inv_tail HS))|exact E1|discriminate|exact H1]. }
  rewrite EL1. destruct cr as [|c1 cr]; [discriminate|]. cbn [map].
  change (d0 :: put_block (Some (b_sfs d0)) b1 c1 :: map (put_block (Some (b_sfs d0)) b1) cr)
    with ([d0; put_block (Some (b_sfs d0)) b1 c1] ++ map (put_block (Some (b_sfs d0)) b1) cr).
  rewrite (model_elems_rest E rest (map (put_block (Some (b_sfs d0)) b1) cr) er' [d0; put_block (Some (b_sfs d0)) b1 c1] (b_sfs d0)).
  - reflexivity.
  - cbn. lia.
  - reflexivity.
  - intros n b Hn. pose proof (HI (S (S n)) b Hn) as HX. unfold zlen. cbn [length]. lia.
  - apply (Forall_inv_tail HTR).
  - apply (Forall_inv_tail (Forall_inv_tail HC)).
  - apply (Forall_inv_tail (Forall_inv_tail HS)).
  - apply (H2 _ _ _ _ _ _ _ eq_refl eq_refl).
  - exact ER'.
Qed.
