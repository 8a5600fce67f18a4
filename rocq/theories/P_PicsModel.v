(** * P_PicsModel: writing a model or device to PICS and loading it. *)
From Coq Require Import String ZifyBool.
From Verif Require Import Py P_List M_Util M_Float M_Suns M_Point M_Xml M_Mbmap M_Device M_Client M_Scan M_Pics S_Codec S_Device P_Codec P_IntText P_Device C_Device S_Pics P_Pics P_PicsLoad.

Lemma Forall2_length {A B} (R : A -> B -> Prop) l m : Forall2 R l m -> length l = length m.
Proof. induction 1; cbn [length]; congruence. Qed.

Definition idbase (l l' : list point) : Prop := Forall2 (fun p q => p_id q = p_id p /\ p_base q = p_base p) l l'.
Lemma idbase_link o o' f f' k : idbase o o' -> idbase f f' -> link_value o' f' k = link_value o f k.
Proof.
  intros HO HF. assert (HG : forall s l l', idbase l l' -> option_map p_base (find_point s l') = option_map p_base (find_point s l)).
  { clear. intros s l l' H. unfold find_point. induction H as [|p q l l' [H1 H2] _ IH]; [reflexivity|]. cbn [find]. rewrite H1. destruct (eqb_list (p_id p) s); [cbn; congruence|exact IH]. }
  destruct k; cbn [link_value]; auto.
Qed.
Lemma puts_idbase l m : Forall2 (fun p q => p_type q = p_type p) l m -> idbase l (puts l m).
Proof. induction 1 as [|p q l m H _ IH]; cbn [puts]; constructor; auto. split; [unfold p_id; cbn; rewrite H; reflexivity|reflexivity]. Qed.

(** a block [c] for [b] is like new for points without scale factor *)
Definition unlinked (Fo : list point) (b c : block) : Prop :=
  Forall (fun q => link_value (b_sfs b) Fo (p_link q) = None -> p_sf q = VNone) (b_points c).

Lemma same_types l m : Forall2 same_point l m -> Forall2 (fun p q => p_type q = p_type p) l m.
Proof. induction 1 as [|p q l m [H _] _ IH]; constructor; auto. Qed.

Lemma put_same b b1 c fx : same_block b c -> Forall2 (fun p q => p_type q = p_type p) (b_points b1) (b_points c) ->
  Forall2 (fun p q => p_type q = p_type p) (b_sfs b1) (b_sfs c) -> same_block b (put_block (Some fx) b1 c).
Proof.
  intros (T1 & T2 & T3 & T4 & T5) HP HS. unfold put_block. cbv zeta. unfold same_block. cbn [with_lists b_type b_len b_index b_points b_sfs].
  do 3 (split; [assumption|]).
  assert (HG : forall l l1 m, Forall2 same_point l m -> Forall2 (fun p q => p_type q = p_type p) l1 m -> Forall2 same_point l (puts l1 m)).
  { clear. intros l l1 m H. revert l1. induction H as [|p q l m [H1 H2] _ IH]; intros l1 HX; inversion HX as [|p1 q1 l2 m2 X1 X2]; subst; cbn [puts]; constructor; [split; assumption|apply IH; exact X2]. }
  split; [|apply HG; assumption].
  pose proof (HG _ _ _ T4 HP) as HF. clear -HF. revert HF. generalize (puts (b_sfs b1) (b_sfs c)). intros o HF.
  induction HF as [|p q l m [H1 H2] _ IH]; cbn [map]; constructor; auto. unfold resolve_sf. destruct (link_value o fx (p_link q)); split; assumption.
Qed.
Lemma put_unlinked Fo b b1 c fx : unlinked Fo b c -> same_block b c -> Forall2 (fun p q => p_type q = p_type p) (b_points b1) (b_points c) ->
  Forall2 (fun p q => p_type q = p_type p) (b_sfs b1) (b_sfs c) -> idbase Fo fx \/ map p_id fx = map p_id Fo ->
  unlinked Fo b (put_block (Some fx) b1 c).
Proof.
  intros HU (T1 & T2 & T3 & T4 & T5) HP HS HF. unfold unlinked, put_block. cbv zeta. cbn [with_lists b_points b_sfs].
  assert (HIF : map p_id fx = map p_id Fo).
  { destruct HF as [HF|HF]; [|exact HF]. clear -HF. induction HF as [|p q l m [H _] _ IH]; [reflexivity|]. cbn [map]. rewrite H, IH. reflexivity. }
  assert (HIS : map p_id (puts (b_sfs b1) (b_sfs c)) = map p_id (b_sfs b)).
  { clear -HS T5. revert HS T5. generalize (b_sfs b1) (b_sfs c) (b_sfs b). intros l m k HS. revert k. induction HS as [|p q l m H _ IH]; intros k HK; inversion HK as [|p' q' k' m' H1 H2]; subst; [reflexivity|].
    cbn [puts map]. rewrite (IH _ H2). f_equal. unfold p_id. cbn. destruct H1 as [H1 _]. congruence. }
  assert (HN : forall k o o' f f', map p_id o' = map p_id o -> map p_id f' = map p_id f -> link_value o f k = None -> link_value o' f' k = None).
  { clear. assert (HG : forall s l l', map p_id l' = map p_id l -> find_point s l = None -> find_point s l' = None).
    { intros s l. unfold find_point. induction l as [|p l IH]; intros [|q l'] HM; try discriminate; [reflexivity|]. cbn [map] in HM.
      assert (p_id q = p_id p) as HQ by congruence. assert (map p_id l' = map p_id l) as HQ' by congruence. cbn [find]. rewrite HQ. destruct (eqb_list (p_id p) s); [discriminate|auto]. }
    intros k o o' f f' HO HF. destruct k; cbn [link_value]; auto.
    - destruct (find_point id o) eqn:EQ; [discriminate|]. rewrite (HG _ _ _ HO EQ). reflexivity.
    - destruct (find_point id f) eqn:EQ; [discriminate|]. rewrite (HG _ _ _ HF EQ). reflexivity. }
  rewrite Forall_map.
  assert (HQ : Forall (fun q => link_value (b_sfs b) Fo (p_link q) = None -> p_sf q = VNone) (puts (b_points b1) (b_points c))).
  { clear -HU HP. unfold unlinked in HU. revert HU. induction HP as [|p q l m _ _ IH]; intros HU; cbn [puts]; constructor; [exact (Forall_inv HU)|apply IH; apply (Forall_inv_tail HU)]. }
  eapply Forall_impl; [|exact HQ]. cbv beta. intros q Hq. unfold resolve_sf.
  destruct (link_value (puts (b_sfs b1) (b_sfs c)) fx (p_link q)) as [v|] eqn:EL; [|exact Hq]. cbn [with_sf p_link]. intros HX.
  exfalso. rewrite (HN _ _ _ _ _ HIS HIF HX) in EL. discriminate.
Qed.

Lemma restored_put E Fo b c fx : same_block b c -> has_values E Fo b -> idbase Fo fx -> unlinked Fo b c -> restored_block Fo b (put_block (Some fx) b c).
Proof.
  intros HSB [HV1 HV2] HF HU. pose proof HSB as (T1 & T2 & T3 & T4 & T5).
  pose proof (puts_idbase _ _ (same_types _ _ T5)) as HIS.
  split; [apply put_same; [exact HSB|apply same_types; exact T4|apply same_types; exact T5]|]. unfold put_block. cbv zeta. cbn [with_lists b_points b_sfs]. split.
  - unfold unlinked in HU. revert HU HV2 T4. generalize (b_points b) (b_points c). intros l m HU HV2 T4. clear HSB HV1 T1 T2 T3.
    induction T4 as [|p q l m [H1 H2] _ IH]; cbn [puts map]; constructor; [|apply IH; [apply (Forall_inv_tail HU)|apply (Forall_inv_tail HV2)]].
    apply Forall_inv in HU, HV2. unfold restored, resolve_sf. cbn [put p_link]. rewrite (idbase_link _ _ _ _ (p_link q) HIS HF).
    unfold scaled in HV2. rewrite H2 in *. destruct (link_value (b_sfs b) Fo (p_link p)) as [v|] eqn:EL; cbn [with_sf put p_base p_impl p_sf p_type p_link].
    + split; [split; assumption|]. split; [reflexivity|]. split; [intros HB; destruct (p_base p); [congruence|reflexivity..]|]. split; [intros HB; symmetry; auto|]. unfold scaled. cbn [with_sf put p_link p_sf]. rewrite H2, EL. reflexivity.
    + split; [split; assumption|]. split; [reflexivity|]. split; [intros HB; destruct (p_base p); [congruence|reflexivity..]|]. split; [intros HB; rewrite (HV2 HB); apply HU; reflexivity|]. unfold scaled. cbn [put p_link p_sf]. rewrite H2, EL. apply HU. reflexivity.
  - clear -HIS. induction HIS as [|p q l m [_ H] _ IH]; constructor; auto.
Qed.

(** ** loaded models *)
Definition fresh (c : block) : Prop := Forall (fun q => p_base q = VNone /\ p_sf q = VNone) (all_points c).
Lemma block_of_facts bt a len i c : block_of bt a len i c -> NoDup (map pt_id (bt_points bt)) -> complete c /\ fresh c /\ b_index c = i /\ b_type c = bt.
Proof.
  intros (H1 & _ & _ & H4 & H5 & H6) HN. assert (HM : forall l m, Forall2 (instance a) l m -> map p_type m = l) by (induction 1 as [|t p l m (X & _) _ IH]; [reflexivity|cbn [map]; congruence]).
  split; [|split; [|split; [exact H4|exact H1]]].
  - unfold complete. rewrite H1. split; [exact HN|]. split; [apply HM; exact H5|apply HM; exact H6].
  - unfold fresh, all_points. apply Forall_app. assert (HG : forall l m, Forall2 (instance a) l m -> Forall (fun q => p_base q = VNone /\ p_sf q = VNone) m)
      by (induction 1 as [|t p l m (_ & _ & _ & X & Y & _) _ IH]; constructor; auto). split; eapply HG; eassumption.
Qed.
Lemma loaded_facts fuel types id a len n t : model_load fuel types (new_model id a len) = (n, Ok tt) -> types id = Ok t -> block_types_ok t ->
  exists c0 cr rt, md_blocks n = c0 :: cr /\ (complete c0 /\ fresh c0 /\ b_index c0 = 0 /\ b_type c0 = mt_fixed t) /\ bt_type (mt_fixed t) = Fixed /\
    (forall k c, nth_error cr k = Some c -> complete c /\ fresh c /\ b_index c = Z.of_nat (S k) /\ b_type c = rt) /\ (cr <> [] -> bt_type rt = Repeating).
Proof.
  intros H HT (B1 & B2 & B3). destruct (C40_model_layout _ _ _ _ _ _ H) as (mt & L & F & b & reps & L1 & _ & _ & _ & _ & _ & _ & L8 & L9 & L10).
  rewrite HT in L1. apply Ok_inj in L1. subst mt.
  destruct (mt_rep t) as [rt|] eqn:ER.
  - destruct (B3 rt eq_refl) as [B4 B5]. exists b, reps, rt. split; [exact L8|]. split; [apply (block_of_facts _ _ _ _ _ L9 B2)|]. split; [exact B1|].
    destruct L10 as (R & _ & _ & L10). split; [|intros _; exact B4]. intros k c Hk. pose proof (block_of_facts _ _ _ _ _ (L10 k c Hk) B5) as (X1 & X2 & X3 & X4).
    split; [exact X1|]. split; [exact X2|]. split; [lia|exact X4].
  - destruct L10 as [-> _]. exists b, [], (mt_fixed t). split; [exact L8|]. split; [apply (block_of_facts _ _ _ _ _ L9 B2)|]. split; [exact B1|].
    split; [intros [|k] c Hk; discriminate|intros []; reflexivity].
Qed.

Lemma same_sym b c : same_block b c -> same_block c b.
Proof.
  intros (H1 & H2 & H3 & H4 & H5). assert (HG : forall l m, Forall2 same_point l m -> Forall2 same_point m l) by (induction 1 as [|p q l m [X Y] _ IH]; constructor; auto; split; congruence).
  repeat split; auto.
Qed.
Lemma same_trans a b c : same_block a b -> same_block b c -> same_block a c.
Proof.
  intros (H1 & H2 & H3 & H4 & H5) (K1 & K2 & K3 & K4 & K5).
  assert (HG : forall l m k, Forall2 same_point l m -> Forall2 same_point m k -> Forall2 same_point l k).
  { clear. intros l m k H. revert k. induction H as [|p q l m [X Y] _ IH]; intros k HK; inversion HK as [|q' r m' k' [U V] W]; subst; constructor; auto. split; congruence. }
  unfold same_block. split; [congruence|]. split; [congruence|]. split; [congruence|]. split; eauto.
Qed.
Lemma same_complete b c : same_block b c -> complete b -> complete c.
Proof.
  intros (H1 & _ & _ & H4 & H5) (C1 & C2 & C3). unfold complete. rewrite H1.
  assert (HG : forall l m, Forall2 same_point l m -> map p_type m = map p_type l) by (induction 1 as [|p q l m [X Y] _ IH]; [reflexivity|cbn [map]; congruence]).
  split; [exact C1|]. rewrite (HG _ _ H4), (HG _ _ H5). auto.
Qed.
Lemma types_eq l m : map p_type m = map p_type l -> Forall2 (fun p q => p_type q = p_type p) l m.
Proof.
  revert m. induction l as [|p l IH]; intros [|q m] H; try discriminate; constructor.
  - cbn [map] in H. congruence.
  - apply IH. cbn [map] in H. congruence.
Qed.
Lemma complete_types b c : complete b -> complete c -> b_type c = b_type b ->
  Forall2 (fun p q => p_type q = p_type p) (b_points b) (b_points c) /\ Forall2 (fun p q => p_type q = p_type p) (b_sfs b) (b_sfs c).
Proof.
  intros (B1 & B2 & B3) (C1 & C2 & C3) HT. rewrite HT in *. split; apply types_eq; congruence.
Qed.
Lemma fresh_compat b c : complete b -> complete c -> b_type c = b_type b -> fresh c -> compat_block b c.
Proof.
  intros HB HC HT HF. destruct (complete_types _ _ HB HC HT) as [T1 T2]. unfold fresh, all_points in HF. apply Forall_app in HF as [F1 F2].
  assert (HG : forall l m, Forall2 (fun p q => p_type q = p_type p) l m -> Forall (fun q => p_base q = VNone /\ p_sf q = VNone) m -> Forall2 compat l m).
  { clear. induction 1 as [|p q l m H _ IH]; intros HF; constructor; [|apply IH; apply (Forall_inv_tail HF)]. split; [exact H|]. intros _. apply (Forall_inv HF). }
  split; auto.
Qed.
Lemma fresh_unlinked Fo b c : fresh c -> unlinked Fo b c.
Proof. intros HF. unfold fresh, all_points in HF. apply Forall_app in HF as [F1 _]. unfold unlinked. eapply Forall_impl; [|exact F1]. cbv beta. intros q [_ H] _. exact H. Qed.
Lemma gap_compat b1 b c F : complete b1 -> complete b -> complete c -> b_type b = b_type b1 -> b_type c = b_type b1 ->
  Forall2 (fun p q => p_base q = VNone -> p_base p = VNone) (all_points b1) (all_points b) -> compat_block b (put_block (Some F) b1 c).
Proof.
  intros H1 HB HC T1 T2 HG. destruct (complete_types _ _ H1 HB T1) as [P1 P2]. destruct (complete_types _ _ H1 HC T2) as [Q1 Q2].
  unfold all_points in HG. apply Forall2_app_inv_l in HG as (x & y & G1 & G2 & HE).
  assert (HL : length x = length (b_points b)) by (apply Forall2_length in G1, P1; congruence).
  assert (b_points b = x /\ b_sfs b = y) as [<- <-].
  { clear -HE HL. revert x HE HL. induction (b_points b) as [|q l IH]; intros [|z x] HE HL; try discriminate; [split; [reflexivity|exact HE]|].
    cbn [app] in HE. assert (q = z) by congruence. assert (l ++ b_sfs b = x ++ y) as HE' by congruence. destruct (IH x HE' ltac:(cbn in HL; lia)) as [-> ->]. subst. auto. }
  unfold put_block. cbv zeta. unfold compat_block. cbn [with_lists b_points b_sfs].
  assert (HX : forall l1 l m, Forall2 (fun p q => p_type q = p_type p) l1 l -> Forall2 (fun p q => p_type q = p_type p) l1 m ->
     Forall2 (fun p q => p_base q = VNone -> p_base p = VNone) l1 l -> Forall2 compat l (puts l1 m)).
  { clear. intros l1 l m H. revert m. induction H as [|p q l1 l H _ IH]; intros m HM HN; inversion HM; subst; inversion HN; subst; cbn [puts]; constructor; auto.
    split; [cbn; congruence|cbn; assumption]. }
  split; [|apply HX; assumption]. pose proof (HX _ _ _ P1 Q1 G1) as HY. clear -HY. revert HY. generalize (puts (b_sfs b1) (b_sfs c)). intros o HY.
  induction HY as [|p q l m [H1 H2] _ IH]; cbn [map]; constructor; auto. unfold resolve_sf. destruct (link_value o F (p_link q)); split; assumption.
Qed.
Lemma Forall2_nth {A B} (R : A -> B -> Prop) l m : Forall2 R l m -> forall k x y, nth_error l k = Some x -> nth_error m k = Some y -> R x y.
Proof. induction 1 as [|a b l m H _ IH]; intros [|k] x y HX HY; try discriminate; cbn [nth_error] in *; [congruence|eauto]. Qed.
Lemma Forall_nth {A} (P : A -> Prop) l : (forall k x, nth_error l k = Some x -> P x) -> Forall P l.
Proof. induction l as [|x l IH]; intros H; constructor; [apply (H O); reflexivity|apply IH; intros k y; apply (H (S k))]. Qed.

Lemma put_id_sfs b c fx : map p_id (b_sfs (put_block fx b c)) = map p_id (puts (b_sfs b) (b_sfs c)).
Proof. reflexivity. Qed.

Lemma rest_restored E F Fo b1 : idbase Fo F -> complete b1 -> forall rest cr,
  Forall2 same_block rest cr -> Forall complete rest -> Forall (fun c => complete c /\ fresh c /\ b_type c = b_type b1) cr ->
  Forall (has_values E Fo) rest -> Forall2 (restored_block Fo) rest (put_zip F rest (map (put_block (Some F) b1) cr)).
Proof.
  intros HF H1 rest cr H. induction H as [|b c rest cr HS _ IH]; intros HC HCC HV; cbn [map put_zip]; constructor.
  - apply Forall_inv in HC, HCC, HV. destruct HCC as (C1 & C2 & C3). destruct (complete_types _ _ H1 C1 C3) as [T1 T2].
    apply (restored_put E Fo); [apply put_same; auto|exact HV|exact HF|]. apply put_unlinked; auto. apply fresh_unlinked. exact C2.
  - apply IH; [apply (Forall_inv_tail HC)|apply (Forall_inv_tail HCC)|apply (Forall_inv_tail HV)].
Qed.

Lemma model_roundtrip E single m es cs (rt : blocktype) t :
  (single = true -> Forall (fun b => b_index b <= 1) (md_blocks m)) ->
  Forall (has_values E (fixed_sfs (md_blocks m))) (md_blocks m) -> no_gaps m ->
  (exists c0 cr, cs = c0 :: cr /\ (complete c0 /\ fresh c0 /\ b_index c0 = 0 /\ b_type c0 = mt_fixed t) /\ bt_type (mt_fixed t) = Fixed /\
    (forall k c, nth_error cr k = Some c -> complete c /\ fresh c /\ b_index c = Z.of_nat (S k) /\ b_type c = rt) /\ (cr <> [] -> bt_type rt = Repeating)) ->
  Forall2 same_block (md_blocks m) cs -> blocks_to_pics E single (md_blocks m) = Ok es ->
  exists ds, model_elems E cs es = (ds, Ok tt) /\ Forall2 (restored_block (fixed_sfs (md_blocks m))) (md_blocks m) ds.
Proof.
  intros HSI HV HG (c0 & cr & EC & (C1 & C2 & C3 & C4) & C5 & C6 & C7) HSB HE. subst cs. apply (blocks_to_pics_all E single _ HSI) in HE.
  exists (put_model (md_blocks m) (c0 :: cr)). 
  unfold no_gaps in HG. clear HSI. destruct (md_blocks m) as [|b0 br] eqn:EB; [inversion HSB|].
  assert (HS0 : same_block b0 c0) by (inversion HSB; assumption). assert (HSR : Forall2 same_block br cr) by (inversion HSB; assumption). clear HSB.
  assert (HCR : Forall (fun c => complete c /\ fresh c /\ b_type c = rt) cr) by (apply Forall_nth; intros k c Hk; destruct (C6 k c Hk) as (X1 & X2 & X3 & X4); auto).
  assert (HC0 : complete b0) by (apply (same_complete c0); [apply same_sym; exact HS0|exact C1]).
  assert (HT0 : b_type b0 = mt_fixed t) by (destruct HS0 as (X & _); congruence).
  assert (HBR : Forall (fun b => complete b /\ b_type b = rt) br).
  { clear -HSR HCR. induction HSR as [|b c br cr H _ IH]; constructor; [|apply IH; apply (Forall_inv_tail HCR)]. apply Forall_inv in HCR. destruct HCR as (X & _ & Y). split; [apply (same_complete c); [apply same_sym; exact H|exact X]|].
    destruct H as (Z & _). congruence. }
  assert (HLEN : length cr = length br) by (symmetry; apply (Forall2_length _ _ _ HSR)).
  cbn [fixed_sfs] in HV.
  split.
  - apply model_elems_spec.
    + intros [|k] b Hk; cbn [nth_error] in Hk.
      * apply Some_inj in Hk. subst b. destruct HS0 as (_ & _ & X & _). lia.
      * destruct (nth_error cr k) as [c|] eqn:EK; [|exfalso; apply nth_error_None in EK; assert (nth_error br k <> None) by congruence; apply nth_error_Some in H; lia].
        pose proof (Forall2_nth _ _ _ HSR k b c Hk EK) as (_ & _ & X & _). destruct (C6 k c EK) as (_ & _ & Y & _). lia.
    + constructor; [exact HC0|]. eapply Forall_impl; [|exact HBR]. cbv beta. tauto.
    + eapply Forall_impl; [|exact HV]. intros b [X _]. exact X.
    + intros x y HXY. assert (x = b0 /\ y = br) as [-> ->] by (split; congruence). split; [rewrite HT0; exact C5|].
      destruct br as [|b1 br]; [constructor|]. assert (cr <> []) as HN by (intros ->; discriminate). specialize (C7 HN).
      eapply Forall_impl; [|exact HBR]. cbv beta. intros b [_ ->]. exact C7.
    + cbn [length]. rewrite HLEN. reflexivity.
    + intros x y u v HXY HUV. assert (x = b0 /\ u = c0) as [-> ->] by (split; congruence). apply fresh_compat; auto. congruence.
    + intros x b1 y u v HXY HUV. assert (u = c0 /\ v = cr) as [-> ->] by (split; congruence). assert (br = b1 :: y) by congruence. subst br.
      destruct (Forall_inv HBR) as [X1 X2]. eapply Forall_impl; [|exact HCR]. cbv beta. intros c (Y1 & Y2 & Y3). apply fresh_compat; auto. congruence.
    + intros x b1 y u c1 v F HXY HUV. assert (u = c0 /\ cr = c1 :: v) as [-> ->] by (split; congruence). assert (br = b1 :: y) by congruence. subst br.
      destruct (Forall_inv HBR) as [X1 X2]. pose proof (Forall_inv_tail HBR) as HBR'. pose proof (Forall_inv_tail HCR) as HCR'.
      assert (HSR' : Forall2 same_block y v) by (inversion HSR; assumption).
      assert (HG' : forall b, In b y -> Forall2 (fun p q => p_base q = VNone -> p_base p = VNone) (all_points b1) (all_points b)) by (intros b Hb; apply (HG b0 b1 y b eq_refl Hb)).
      clear -X1 X2 HBR' HCR' HSR' HG'. induction HSR' as [|b c y v H _ IH]; cbn [map]; constructor.
      * apply Forall_inv in HBR', HCR'. destruct HBR' as [Y1 Y2], HCR' as (Z1 & Z2 & Z3). apply gap_compat; auto; [congruence|congruence|]. apply HG'. left. reflexivity.
      * apply IH; [apply (Forall_inv_tail HBR')|apply (Forall_inv_tail HCR')|]. intros b' Hb'. apply HG'. right. exact Hb'.
    + exact HE.
  - cbn [put_model]. cbv zeta. pose proof (puts_idbase _ _ (same_types _ _ ltac:(destruct HS0 as (_ & _ & _ & _ & X); exact X))) as HID.
    constructor.
    + change (put_block None b0 c0) with (put_block (Some (puts (b_sfs b0) (b_sfs c0))) b0 c0).
      apply (restored_put E (b_sfs b0)); [exact HS0|apply (Forall_inv HV)|exact HID|apply fresh_unlinked; exact C2].
    + change (b_sfs (put_block None b0 c0)) with (puts (b_sfs b0) (b_sfs c0)). set (F := puts (b_sfs b0) (b_sfs c0)) in *.
      destruct br as [|b1 br]; [destruct cr; [constructor|discriminate]|]. destruct cr as [|c1 cr]; [discriminate|]. cbn [map].
      assert (HS1 : same_block b1 c1) by (inversion HSR; assumption). assert (HSR' : Forall2 same_block br cr) by (inversion HSR; assumption).
      destruct (Forall_inv HBR) as [X1 X2]. destruct (Forall_inv HCR) as (Y1 & Y2 & Y3).
      constructor.
      * apply (restored_put E (b_sfs b0)); [exact HS1|apply (Forall_inv (Forall_inv_tail HV))|exact HID|apply fresh_unlinked; exact Y2].
      * apply (rest_restored E F (b_sfs b0) b1 HID X1); [exact HSR'| | |].
        -- apply Forall_inv_tail in HBR. eapply Forall_impl; [|exact HBR]. cbv beta. tauto.
        -- apply Forall_inv_tail in HCR. eapply Forall_impl; [|exact HCR]. cbv beta. intros c (Z1 & Z2 & Z3). split; [exact Z1|]. split; [exact Z2|congruence].
        -- apply (Forall_inv_tail (Forall_inv_tail HV)).
Qed.
