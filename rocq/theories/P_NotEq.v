(** * P_NotEq: lemmas for C57, C58. *)
From Coq Require Import String QArith Qpower.
From Verif Require Import Py P_List M_Util M_Float M_Suns M_Mbmap M_Device M_Smdx M_NotEq S_Device S_Pics S_NotEq P_Smdx P_Pics P_PicsModel.
Open Scope Z_scope.

(** ** values *)
Lemma scale_pow m e1 e : e <= e1 -> (inject_Z m * Qpower 2 e1 == inject_Z (m * 2 ^ (e1 - e)) * Qpower 2 e)%Q.
Proof.
  intros H. rewrite inject_Z_mult. rewrite Zpower_Qpower by lia. change (inject_Z 2) with 2%Q.
  rewrite <- Qmult_assoc. rewrite <- Qpower_plus by discriminate. replace (e1 - e + e) with e1 by lia. reflexivity.
Qed.
Lemma same_number_spec m1 e1 m2 e2 : same_number m1 e1 m2 e2 = true <-> (inject_Z m1 * Qpower 2 e1 == inject_Z m2 * Qpower 2 e2)%Q.
Proof.
  unfold same_number. cbv zeta. rewrite Z.eqb_eq. rewrite (scale_pow m1 e1 (Z.min e1 e2)) by lia. rewrite (scale_pow m2 e2 (Z.min e1 e2)) by lia.
  rewrite Qmult_inj_r by (apply Qpower_not_0; discriminate). rewrite inject_Z_injective. reflexivity.
Qed.
Lemma number_is_spec v x : number_is v x -> exists m e, value_number v = Some (m, e) /\ (x == inject_Z m * Qpower 2 e)%Q.
Proof.
  intros []; cbn [value_number]; do 2 eexists; (split; [reflexivity|]); try reflexivity.
  change (Qpower 2 0) with 1%Q. rewrite Qmult_1_r. reflexivity.
Qed.
Lemma number_is_of v m e : value_number v = Some (m, e) -> exists x, number_is v x /\ (x == inject_Z m * Qpower 2 e)%Q.
Proof.
  destruct v as [|z|s|[s|s| |s p e']]; cbn [value_number]; try discriminate; intros H; apply Some_inj in H; apply pair_equal_spec in H as [<- <-].
  - exists (inject_Z z). split; [constructor|]. change (Qpower 2 0) with 1%Q. rewrite Qmult_1_r. reflexivity.
  - exists 0%Q. split; [constructor|]. reflexivity.
  - destruct s; eexists; (split; [constructor|]); reflexivity.
Qed.
Lemma value_ne_spec a b : value_ne a b = false <-> same_value a b.
Proof.
  assert (HN : forall m1 e1 m2 e2, value_number a = Some (m1, e1) -> value_number b = Some (m2, e2) -> (negb (same_number m1 e1 m2 e2) = false <-> same_value a b)).
  { intros m1 e1 m2 e2 HA HB. rewrite negb_false_iff, same_number_spec. destruct (number_is_of _ _ _ HA) as (x & X1 & X2), (number_is_of _ _ _ HB) as (y & Y1 & Y2).
    rewrite <- X2, <- Y2. split; [intros H; econstructor; eassumption|]. intros H. inversion H as [E1 E2|s E1 E2|s E1 E2|a' b' x' y' N1 N2 HQ]; subst; try discriminate.
    destruct (number_is_spec _ _ N1) as (m & e & M1 & M2), (number_is_spec _ _ N2) as (m' & e' & M3 & M4).
    rewrite HA in M1. rewrite HB in M3. apply Some_inj in M1, M3. apply pair_equal_spec in M1 as [-> ->], M3 as [-> ->].
    rewrite X2, Y2, <- M2, <- M4. exact HQ. }
  assert (HX : value_number a = None \/ value_number b = None -> a <> b \/ is_nan a -> ~ same_value a b).
  { intros H HD HS. inversion HS as [E1 E2|s E1 E2|s E1 E2|a' b' x y N1 N2 HQ]; subst.
    - destruct HD; [congruence|discriminate].
    - destruct HD; [congruence|discriminate].
    - destruct HD; [congruence|discriminate].
    - destruct (number_is_spec _ _ N1) as (m & e & M1 & _), (number_is_spec _ _ N2) as (m' & e' & M3 & _). destruct H; congruence. }
  assert (HT : value_number a = None \/ value_number b = None -> a <> b \/ is_nan a -> (true = false <-> same_value a b)).
  { intros H HD. split; [discriminate|]. intros HS. destruct (HX H HD HS). }
  destruct a as [|z|s|[s|s| |s p e]], b as [|z'|s'|[s'|s'| |s' p' e']]; cbn [value_ne value_number] in *;
    try (apply HN; reflexivity); try (apply HT; [auto|left; discriminate]).
  - split; [constructor|reflexivity].
  - rewrite negb_false_iff, eqb_list_eq. split; [intros <-; constructor|]. intros H. inversion H as [|s0|s0|a' b' x y N1 N2 HQ]; subst; [reflexivity|inversion N1].
  - rewrite negb_false_iff, Bool.eqb_true_iff. split; [intros <-; constructor|]. intros H. inversion H as [|s0|s0|a' b' x y N1 N2 HQ]; subst; [reflexivity|inversion N1].
  - apply HT; [auto|right; reflexivity].
Qed.
Lemma same_value_refl v : ~ is_nan v -> same_value v v.
Proof.
  intros H. apply value_ne_spec. destruct v as [|z|s|[s|s| |s p e]]; cbn [value_ne value_number]; try reflexivity.
  - rewrite negb_false_iff. apply same_number_spec. reflexivity.
  - rewrite eqb_list_refl. reflexivity.
  - rewrite Bool.eqb_reflx. reflexivity.
  - destruct H. reflexivity.
  - rewrite negb_false_iff. apply same_number_spec. reflexivity.
Qed.
Lemma same_value_sym a b : same_value a b -> same_value b a.
Proof. intros H. inversion H; subst; try constructor. econstructor; try eassumption. symmetry. assumption. Qed.
Lemma same_value_trans a b c : same_value a b -> same_value b c -> same_value a c.
Proof.
  intros H K. inversion H as [|s|s|a' b' x y N1 N2 HQ]; subst; try exact K.
  inversion K as [|s|s|b'' c' y' z N3 N4 HQ']; subst; try (inversion N2; fail).
  econstructor; [exact N1|exact N4|]. rewrite HQ. rewrite <- HQ'. destruct (number_is_spec _ _ N2) as (m & e & M1 & M2), (number_is_spec _ _ N3) as (m' & e' & M3 & M4).
  rewrite M1 in M3. apply Some_inj, pair_equal_spec in M3 as [-> ->]. rewrite M2, M4. reflexivity.
Qed.

(** ** types *)
Lemma ptype_eqb_eq a b : ptype_eqb a b = true <-> a = b.
Proof. split; [|intros ->; destruct b; reflexivity]. destruct a, b; vm_compute; congruence. Qed.
Lemma btype_eqb_eq a b : btype_eqb a b = true <-> a = b.
Proof. destruct a, b; cbn [btype_eqb]; split; congruence. Qed.
Lemma base_eqb_eq a b : base_eqb a b = true <-> a = b.
Proof.
  destruct a as [x|x], b as [y|y]; cbn [base_eqb]; try (split; congruence).
  - rewrite Z.eqb_eq. split; [intros ->; reflexivity|congruence].
  - rewrite eqb_list_eq. split; [intros ->; reflexivity|congruence].
Qed.
Lemma opt_eqb_spec a b : opt_eqb a b = true <-> a = b.
Proof.
  destruct a as [x|], b as [y|]; cbn [opt_eqb]; try (split; congruence). rewrite eqb_list_eq. split; [intros ->; reflexivity|congruence].
Qed.
Lemma optz_eqb_spec a b : optz_eqb a b = true <-> a = b.
Proof.
  destruct a as [x|], b as [y|]; cbn [optz_eqb]; try (split; congruence). rewrite Z.eqb_eq. split; [intros ->; reflexivity|congruence].
Qed.
Lemma attr_ne_spec a b : attr_ne a b = false <-> agree a b.
Proof.
  unfold agree. destruct a as [x|], b as [y|]; cbn [attr_ne]; try (split; [intros _ ? ?; discriminate|reflexivity]).
  - rewrite negb_false_iff, eqb_list_eq. split; [intros -> ? ? [= <-] [= <-]; reflexivity|auto].
Qed.
Lemma same_list_spec a : forall b, (fix same (a b : list nat) := match a, b with
                                  | [], [] => true
                                  | x :: a', y :: b' => Nat.eqb x y && same a' b'
                                  | _, _ => false
                                  end) a b = true <-> a = b.
Proof.
  induction a as [|x a IH]; intros [|y b]; try (split; congruence).
  rewrite andb_true_iff, IH, Nat.eqb_eq. split; [intros [-> ->]; reflexivity|intros [= -> ->]; auto].
Qed.
Lemma symbols_ne_spec oa ob a b : symbols_ne oa ob a b = false <-> a = b /\ (oa = ob \/ a = []).
Proof.
  unfold symbols_ne. destruct a as [|x a], b as [|y b].
  - split; [auto|reflexivity].
  - rewrite negb_false_iff, andb_true_iff, Z.eqb_eq. split; [intros [? ?]; discriminate|intros [? _]; discriminate].
  - rewrite negb_false_iff, andb_true_iff, Z.eqb_eq. split; [intros [? ?]; discriminate|intros [? _]; discriminate].
  - rewrite negb_false_iff, andb_true_iff, Z.eqb_eq, (same_list_spec (x :: a) (y :: b)). split; [tauto|]. intros [H [K|K]]; [auto|discriminate].
Qed.
Lemma pointtype_ne_spec oa ob a b : pointtype_not_equal oa ob false a (Some b) = false <-> same_pointtype oa ob a b.
Proof.
  unfold pointtype_not_equal, same_pointtype. cbn [andb]. rewrite !orb_false_iff, !negb_false_iff, !eqb_list_eq, !Z.eqb_eq, ptype_eqb_eq, !attr_ne_spec, symbols_ne_spec. tauto.
Qed.

Lemma find_pt_some id l p : find_pt id l = Some p -> In p l /\ pt_id p = id.
Proof. unfold find_pt. intros H. apply find_some in H as [H1 H2]. apply eqb_list_eq in H2. auto. Qed.
Lemma find_pt_in l p : NoDup (map pt_id l) -> In p l -> find_pt (pt_id p) l = Some p.
Proof.
  intros HN HI. destruct (find_pt (pt_id p) l) as [q|] eqn:EF.
  - apply find_pt_some in EF as [H1 H2]. f_equal. eapply nodup_map_inj; eauto.
  - unfold find_pt in EF. eapply find_none in EF; [|exact HI]. cbv beta in EF. rewrite eqb_list_refl in EF. discriminate.
Qed.
Lemma same_pointtype_refl o p : same_pointtype o o p p.
Proof. unfold same_pointtype, agree. repeat (split; [congruence|]). auto. Qed.
Lemma same_blocktype_refl o b : same_blocktype o o b b.
Proof. unfold same_blocktype. repeat (split; [reflexivity|]). intros p HP. exists p. split; [exact HP|apply same_pointtype_refl]. Qed.

(** the same object only if it is the same *)
Definition same_object (oa ob : Z) (a b : blocktype) : Prop := oa = ob -> bt_type a = bt_type b -> a = b.
Lemma blocktype_ne_spec oa ob a b : NoDup (map pt_id (bt_points b)) -> same_object oa ob a b ->
  (blocktype_not_equal oa ob a (Some b) = false <-> same_blocktype oa ob a b).
Proof.
  intros HN HO. unfold blocktype_not_equal. destruct ((oa =? ob) && btype_eqb (bt_type a) (bt_type b)) eqn:EI.
  - apply andb_true_iff in EI as [E1 E2]. apply Z.eqb_eq in E1. apply btype_eqb_eq in E2. specialize (HO E1 E2). subst. split; [intros _; apply same_blocktype_refl|reflexivity].
  - rewrite !orb_false_iff, !negb_false_iff, btype_eqb_eq, base_eqb_eq, Nat.eqb_eq. unfold same_blocktype.
    assert (HG : existsb (fun p => pointtype_not_equal oa ob false p (find_pt (pt_id p) (bt_points b))) (bt_points a) = false <->
      (forall p, In p (bt_points a) -> exists q, In q (bt_points b) /\ same_pointtype oa ob p q)).
    { rewrite <- not_true_iff_false, existsb_exists. split.
      - intros H p HP. destruct (find_pt (pt_id p) (bt_points b)) as [q|] eqn:EF.
        + exists q. split; [apply (find_pt_some _ _ _ EF)|]. apply pointtype_ne_spec. apply not_true_iff_false. intros HT. apply H. exists p. rewrite EF. auto.
        + destruct H. exists p. rewrite EF. auto.
      - intros H (p & HP & HT). destruct (H p HP) as (q & HQ & HS). assert (EQ : pt_id p = pt_id q) by exact (proj1 HS). rewrite EQ, (find_pt_in _ _ HN HQ) in HT.
        apply pointtype_ne_spec in HS. congruence. }
    rewrite HG. tauto.
Qed.
Lemma modeltype_ne_spec a b : block_types_ok b -> (mt_oid a = mt_oid b -> a = b) ->
  (modeltype_not_equal a (Some b) = false <-> same_modeltype a b).
Proof.
  intros (B1 & B2 & B3) HO. unfold modeltype_not_equal. destruct (mt_oid a =? mt_oid b) eqn:EI.
  - apply Z.eqb_eq in EI. specialize (HO EI). subst a. split; [intros _|reflexivity]. unfold same_modeltype, same_rep. repeat (split; [reflexivity|]).
    split; [apply same_blocktype_refl|]. destruct (mt_rep b); [apply same_blocktype_refl|exact I].
  - apply Z.eqb_neq in EI. rewrite !orb_false_iff, !negb_false_iff, !optz_eqb_spec, !opt_eqb_spec, blocktype_ne_spec by (auto; intros ?; contradiction).
    unfold same_modeltype. enough (HR : match mt_rep a with
         | Some r => blocktype_not_equal (mt_oid a) (mt_oid b) r (mt_rep b)
         | None => match mt_rep b with None => false | Some _ => true end
         end = false <-> same_rep (mt_oid a) (mt_oid b) (mt_rep a) (mt_rep b)) by (rewrite HR; tauto).
    unfold same_rep. destruct (mt_rep a) as [r|].
    + destruct (mt_rep b) as [s|] eqn:ES; [|cbn [blocktype_not_equal]; split; [discriminate|contradiction]].
      apply blocktype_ne_spec; [apply (B3 s eq_refl)|intros ?; contradiction].
    + destruct (mt_rep b); split; auto; try discriminate; contradiction.
Qed.

(** ** instances *)
Lemma first_difference_ok {A} (f : A -> res bool) (P : A -> Prop) l :
  (forall x, In x l -> exists d, f x = Ok d /\ (d = false <-> P x)) ->
  exists d, first_difference f l = Ok d /\ (d = false <-> Forall P l).
Proof.
  induction l as [|x l IH]; intros H; cbn [first_difference].
  - exists false. split; [reflexivity|]. split; auto.
  - destruct (H x (or_introl eq_refl)) as (d & HD & HP). destruct (IH (fun y HY => H y (or_intror HY))) as (d' & HD' & HP').
    rewrite HD. cbn [bind]. destruct d.
    + exists true. split; [reflexivity|]. split; [discriminate|]. intros HF. apply Forall_inv in HF. apply HP in HF. discriminate.
    + exists d'. split; [exact HD'|]. rewrite HP'. split; [intros HF; constructor; [apply HP; reflexivity|exact HF]|apply Forall_inv_tail].
Qed.
Lemma points_types b p : complete b -> In p (b_points b) -> In (p_type p) (bt_points (b_type b)) /\ plain (p_type p) = true.
Proof.
  intros (_ & C2 & _) HP. assert (HI : In (p_type p) (map p_type (b_points b))) by (apply in_map; exact HP). rewrite C2 in HI. apply filter_In in HI. exact HI.
Qed.
Lemma type_point b t : complete b -> In t (bt_points (b_type b)) -> plain t = true -> exists p, In p (b_points b) /\ p_type p = t.
Proof.
  intros (_ & C2 & _) HT HP. assert (HI : In t (map p_type (b_points b))) by (rewrite C2; apply filter_In; auto). apply in_map_iff in HI as (p & H1 & H2). eauto.
Qed.
Lemma points_nodup b : complete b -> NoDup (map p_id (b_points b)).
Proof. intros H. apply complete_nodup in H. unfold all_points in H. rewrite map_app in H. now apply nodup_app in H. Qed.
Lemma find_point_in l p : NoDup (map p_id l) -> In p l -> find_point (p_id p) l = Some p.
Proof.
  intros HN HI. destruct (find_point (p_id p) l) as [q|] eqn:EF; unfold find_point in EF.
  - apply find_some in EF as [H1 H2]. apply eqb_list_eq in H2. f_equal. eapply nodup_map_inj; eauto.
  - eapply find_none in EF; [|exact HI]. cbv beta in EF. rewrite eqb_list_refl in EF. discriminate.
Qed.
Lemma block_ne_spec oa ob a b : complete a -> complete b -> same_object oa ob (b_type a) (b_type b) ->
  exists d, block_not_equal oa ob a b = Ok d /\ (d = false <-> same_blocktype oa ob (b_type a) (b_type b) /\ block_values a b).
Proof.
  intros HA HB HO. pose proof (blocktype_ne_spec oa ob (b_type a) (b_type b) (proj1 HB) HO) as HS. unfold block_not_equal.
  destruct (blocktype_not_equal oa ob (b_type a) (Some (b_type b))) eqn:EB.
  - exists true. split; [reflexivity|]. split; [discriminate|]. intros [K _]. apply HS in K. discriminate.
  - pose proof (proj1 HS eq_refl) as HT. cbv zeta. destruct HT as (T1 & T2 & T3 & T4).
    destruct (first_difference_ok (fun p => point_not_equal oa ob ((oa =? ob) && btype_eqb (bt_type (b_type a)) (bt_type (b_type b))) p (find_point (p_id p) (b_points b)))
                (fun p => exists q, In q (b_points b) /\ p_id q = p_id p /\ same_values p q) (b_points a)) as (d & D1 & D2).
    { intros p HP. destruct (points_types _ _ HA HP) as [P1 P2]. destruct (T4 _ P1) as (t & I1 & I2).
      assert (P3 : plain t = true) by (unfold plain in *; rewrite <- (proj1 (proj2 (proj2 I2))); exact P2).
      destruct (type_point _ _ HB I1 P3) as (q & Q1 & Q2). assert (EQ : p_id p = p_id q) by (unfold p_id; rewrite Q2; exact (proj1 I2)).
      rewrite EQ, (find_point_in _ _ (points_nodup _ HB) Q1). unfold point_not_equal.
      assert (EF : pointtype_not_equal oa ob ((oa =? ob) && btype_eqb (bt_type (b_type a)) (bt_type (b_type b))) (p_type p) (Some (p_type q)) = false).
      { destruct ((oa =? ob) && btype_eqb (bt_type (b_type a)) (bt_type (b_type b))).
        - cbn [pointtype_not_equal andb]. unfold p_id in EQ. rewrite EQ, eqb_list_refl. reflexivity.
        - apply pointtype_ne_spec. rewrite Q2. exact I2. }
      rewrite EF. eexists. split; [reflexivity|].
      assert (HV : forall x y, (negb (is_none x) || negb (is_none y)) && value_ne x y = value_ne x y) by (intros [] []; reflexivity).
      rewrite !HV, orb_false_iff, !value_ne_spec. split.
      - intros HX. exists q. auto.
      - intros (q' & R1 & R2 & R3). assert (q' = q) by (eapply nodup_map_inj; [apply (points_nodup _ HB)|assumption..]). subst. exact R3. }
    exists d. split; [exact D1|]. rewrite D2, Forall_forall. unfold block_values. split.
    + intros H. split; [|exact H]. repeat (split; [assumption|]). assumption.
    + intros [_ H]. exact H.
Qed.
Lemma combine_forall2 {A B} (R : A -> B -> Prop) l m : length l = length m -> (Forall (fun x => R (fst x) (snd x)) (combine l m) <-> Forall2 R l m).
Proof.
  revert m. induction l as [|x l IH]; intros [|y m] HL; try discriminate; cbn [combine].
  - split; constructor.
  - cbn [length] in HL. specialize (IH m ltac:(lia)). split.
    + intros H. constructor; [apply (Forall_inv H)|]. apply IH. apply (Forall_inv_tail H).
    + intros H. inversion H; subst. constructor; [assumption|]. now apply IH.
Qed.
Lemma model_ne_spec m n : (exists t, typed t m) -> (exists u, typed u n) ->
  (forall t u, md_type m = Some t -> md_type n = Some u -> mt_oid t = mt_oid u -> t = u) ->
  exists d, model_not_equal m n = Ok d /\ (d = false <-> equal_models m n).
Proof.
  intros (t & T1 & T2 & T3) (u & U1 & U2 & U3) HC. specialize (HC _ _ T1 U1). unfold model_not_equal, equal_models. rewrite T1, U1.
  destruct (Nat.eqb (length (md_blocks m)) (length (md_blocks n))) eqn:EL; cbn [negb].
  2: { exists true. split; [reflexivity|]. split; [discriminate|]. intros (t' & u' & _ & _ & _ & HF). apply Forall2_length in HF. apply Nat.eqb_neq in EL. congruence. }
  apply Nat.eqb_eq in EL. pose proof (modeltype_ne_spec t u U2 HC) as HS. destruct (modeltype_not_equal t (Some u)) eqn:EM.
  { exists true. split; [reflexivity|]. split; [discriminate|]. intros (t' & u' & E1 & E2 & K & _). apply Some_inj in E1, E2. subst t' u'. apply HS in K. discriminate. }
  destruct (first_difference_ok (fun bc => block_not_equal (mt_oid t) (mt_oid u) (fst bc) (snd bc))
    (fun bc => same_blocktype (mt_oid t) (mt_oid u) (b_type (fst bc)) (b_type (snd bc)) /\ block_values (fst bc) (snd bc)) (combine (md_blocks m) (md_blocks n))) as (d & D1 & D2).
  { intros [b c] HI. cbn [fst snd]. pose proof (in_combine_l _ _ _ _ HI) as I1. pose proof (in_combine_r _ _ _ _ HI) as I2.
    rewrite Forall_forall in T3, U3. destruct (T3 _ I1) as [K1 K2], (U3 _ I2) as [L1 L2]. apply block_ne_spec; [exact K2|exact L2|].
    intros HE HK. specialize (HC HE). subst u. destruct T2 as (B1 & _ & B3).
    destruct K1 as [K1|K1], L1 as [L1|L1].
    - congruence.
    - destruct (B3 _ L1) as [X _]. rewrite K1, B1, X in HK. discriminate.
    - destruct (B3 _ K1) as [X _]. rewrite L1, B1, X in HK. discriminate.
    - congruence. }
  exists d. split; [exact D1|]. rewrite D2. rewrite (combine_forall2 (fun b c => same_blocktype (mt_oid t) (mt_oid u) (b_type b) (b_type c) /\ block_values b c) _ _ EL). split.
  - intros HF. exists t, u. split; [reflexivity|]. split; [reflexivity|]. split; [apply HS; reflexivity|exact HF].
  - intros (t' & u' & E1 & E2 & _ & HF). apply Some_inj in E1, E2. subst t' u'. exact HF.
Qed.
Lemma device_ne_spec a b : loaded_device a -> loaded_device b -> coherent a b ->
  exists d, device_not_equal a b = Ok d /\ (d = false <-> equal_devices a b).
Proof.
  intros HA HB HC. unfold device_not_equal. destruct (Nat.eqb (length a) (length b)) eqn:EL; cbn [negb].
  2: { exists true. split; [reflexivity|]. split; [discriminate|]. intros HF. apply Forall2_length in HF. apply Nat.eqb_neq in EL. congruence. }
  apply Nat.eqb_eq in EL. unfold loaded_device in HA, HB. rewrite Forall_forall in HA, HB.
  destruct (first_difference_ok (fun mn => model_not_equal (fst mn) (snd mn)) (fun mn => equal_models (fst mn) (snd mn)) (combine a b)) as (d & D1 & D2).
  { intros [m n] HI. cbn [fst snd]. pose proof (in_combine_l _ _ _ _ HI) as I1. pose proof (in_combine_r _ _ _ _ HI) as I2.
    apply model_ne_spec; auto. intros t u E1 E2 EO. eapply HC; eauto. }
  exists d. split; [exact D1|]. rewrite D2. apply (combine_forall2 equal_models _ _ EL).
Qed.

(** ** the relation *)
Lemma agree_sym a b : agree a b -> agree b a.
Proof. unfold agree. intros H x y X Y. symmetry. eauto. Qed.
Lemma same_pointtype_sym oa ob a b : same_pointtype oa ob a b -> same_pointtype ob oa b a.
Proof.
  unfold same_pointtype. intros (H1 & H2 & H3 & H4 & H5 & H6 & H7 & H8 & H9 & H10 & H11 & H12 & H13).
  repeat (split; [first [congruence|apply agree_sym; assumption]|]). destruct H13; [auto|right; congruence].
Qed.
Lemma same_blocktype_sym oa ob a b : NoDup (map pt_id (bt_points a)) -> same_blocktype oa ob a b -> same_blocktype ob oa b a.
Proof.
  intros HN (H1 & H2 & H3 & H4). unfold same_blocktype. repeat (split; [congruence|]). intros q HQ.
  assert (HI : incl (map pt_id (bt_points b)) (map pt_id (bt_points a))).
  { apply NoDup_length_incl; [exact HN|rewrite !map_length; lia|]. intros i Hi. apply in_map_iff in Hi as (p & <- & HP). destruct (H4 p HP) as (r & R1 & R2).
    apply in_map_iff. exists r. split; [symmetry; exact (proj1 R2)|exact R1]. }
  assert (HJ : NoDup (map pt_id (bt_points b))).
  { apply (NoDup_incl_NoDup HN); [rewrite !map_length; lia|]. intros i Hi. apply in_map_iff in Hi as (p & <- & HP). destruct (H4 p HP) as (r & R1 & R2).
    apply in_map_iff. exists r. split; [symmetry; exact (proj1 R2)|exact R1]. }
  assert (HK : In (pt_id q) (map pt_id (bt_points a))) by (apply HI; apply in_map; exact HQ). apply in_map_iff in HK as (p & K1 & K2).
  destruct (H4 p K2) as (r & R1 & R2). assert (r = q). { eapply nodup_map_inj; [exact HJ|exact R1|exact HQ|]. rewrite <- K1. symmetry. exact (proj1 R2). }
  subst r. exists p. split; [exact K2|]. apply same_pointtype_sym. exact R2.
Qed.
Lemma same_modeltype_sym a b : block_types_ok a -> same_modeltype a b -> same_modeltype b a.
Proof.
  intros (B1 & B2 & B3) (H1 & H2 & H3 & H4 & H5 & H6 & H7). unfold same_modeltype. repeat (split; [congruence|]).
  split; [apply same_blocktype_sym; assumption|]. unfold same_rep in *. destruct (mt_rep a) as [r|], (mt_rep b) as [s|]; try contradiction; [|exact I].
  apply same_blocktype_sym; [apply (B3 r eq_refl)|exact H7].
Qed.
Lemma block_values_sym oa ob a b : complete a -> complete b -> same_blocktype oa ob (b_type a) (b_type b) -> block_values a b -> block_values b a.
Proof.
  intros HA HB HT HV q HQ. destruct (points_types _ _ HB HQ) as [P1 P2]. pose proof (same_blocktype_sym _ _ _ _ (proj1 HA) HT) as (_ & _ & _ & T4).
  destruct (T4 _ P1) as (t & I1 & I2). assert (P3 : plain t = true) by (unfold plain in *; rewrite <- (proj1 (proj2 (proj2 I2))); exact P2).
  destruct (type_point _ _ HA I1 P3) as (p & Q1 & Q2). assert (EQ : p_id p = p_id q) by (unfold p_id; rewrite Q2; symmetry; exact (proj1 I2)).
  destruct (HV p Q1) as (q' & R1 & R2 & R3 & R4). assert (q' = q) by (eapply nodup_map_inj; [apply (points_nodup _ HB)|assumption|assumption|congruence]). subst q'.
  exists p. split; [exact Q1|]. split; [exact EQ|]. split; apply same_value_sym; assumption.
Qed.
Lemma equal_models_sym m n : (exists t, typed t m) -> (exists u, typed u n) -> equal_models m n -> equal_models n m.
Proof.
  intros (t0 & T1 & T2 & T3) (u0 & U1 & U2 & U3) (t & u & E1 & E2 & E3 & E4). rewrite T1 in E1. rewrite U1 in E2. apply Some_inj in E1, E2. subst t0 u0.
  exists u, t. split; [exact U1|]. split; [exact T1|]. split; [apply same_modeltype_sym; assumption|].
  clear U1 T1 E3 T2 U2. rewrite Forall_forall in T3, U3. assert (TC : forall b, In b (md_blocks m) -> complete b) by (intros b HB; apply (T3 b HB)).
  assert (UC : forall b, In b (md_blocks n) -> complete b) by (intros b HB; apply (U3 b HB)). clear T3 U3.
  induction E4 as [|a b l k [H1 H2] _ IH]; constructor; [|apply IH; intros; [apply TC|apply UC]; now right].
  pose proof (TC a (or_introl eq_refl)) as CA. pose proof (UC b (or_introl eq_refl)) as CB.
  split; [apply same_blocktype_sym; [apply CA|exact H1]|eapply block_values_sym; eassumption].
Qed.
Lemma equal_devices_sym a b : loaded_device a -> loaded_device b -> equal_devices a b -> equal_devices b a.
Proof.
  intros HA HB H. unfold equal_devices in *. induction H as [|m n l k H _ IH]; constructor.
  - apply equal_models_sym; [apply (Forall_inv HA)|apply (Forall_inv HB)|exact H].
  - apply IH; [apply (Forall_inv_tail HA)|apply (Forall_inv_tail HB)].
Qed.
Lemma equal_devices_refl a : loaded_device a -> no_nans a -> equal_devices a a.
Proof.
  intros HA HN. unfold equal_devices. assert (HG : forall l, incl l a -> Forall2 equal_models l l).
  { induction l as [|m l IH]; intros HI; constructor; [|apply IH; intros x HX; apply HI; now right].
    assert (HM : In m a) by (apply HI; now left). unfold loaded_device in HA. rewrite Forall_forall in HA. destruct (HA m HM) as (t & T1 & T2 & T3).
    exists t, t. split; [exact T1|]. split; [exact T1|]. split.
    - unfold same_modeltype, same_rep. repeat (split; [reflexivity|]). split; [apply same_blocktype_refl|destruct (mt_rep t); [apply same_blocktype_refl|exact I]].
    - assert (HB : forall k, incl k (md_blocks m) -> Forall2 (fun x y => same_blocktype (mt_oid t) (mt_oid t) (b_type x) (b_type y) /\ block_values x y) k k).
      { induction k as [|b k IHk]; intros HJ; constructor; [|apply IHk; intros x HX; apply HJ; now right]. split; [apply same_blocktype_refl|].
        intros p HP. exists p. split; [exact HP|]. split; [reflexivity|]. destruct (HN m b p HM (HJ b (or_introl eq_refl)) HP). split; apply same_value_refl; assumption. }
      apply HB. apply incl_refl. }
  apply HG. apply incl_refl.
Qed.
