(** * P_Accuracy: lemmas for C115. *)
From Coq Require Import Reals Psatz.
From Flocq Require Import Core Relative BinarySingleNaN.
From Verif Require Import Py P_List M_Util M_Float M_Suns M_Point S_Scale S_Accuracy P_Float P_Scale.
From Coq Require Import ZifyBool.
Local Open Scope Z_scope.

Definition r10 : radix := Build_radix 10 eq_refl.
Lemma ten_bpow sf : ten sf = bpow r10 sf.
Proof. unfold ten. rewrite bpow_powerRZ. reflexivity. Qed.
Lemma ten_pos sf : (0 < ten sf)%R.
Proof. rewrite ten_bpow. apply bpow_gt_0. Qed.
Lemma ten_bounds sf : -300 <= sf <= 280 -> (bpow radix2 (-1000) <= ten sf <= bpow radix2 932)%R.
Proof.
  intros H. rewrite ten_bpow. split.
  - apply Rle_trans with (bpow r10 (-300)); [|apply bpow_le; lia]. change (-1000) with (- (1000)). change (-300) with (- (300)). rewrite !bpow_opp.
    apply Rinv_le; [apply bpow_gt_0|]. rewrite <- !IZR_Zpower by lia. apply IZR_le. vm_compute. congruence.
  - apply Rle_trans with (bpow r10 280); [apply bpow_le; lia|]. rewrite <- !IZR_Zpower by lia. apply IZR_le. vm_compute. congruence.
Qed.
Notation u := (bpow radix2 (-53)).
Lemma u_small : (0 < u <= 1 / 1000000)%R.
Proof. split; [apply bpow_gt_0|]. apply Rle_trans with (bpow radix2 (-20)); [apply bpow_le; lia|]. change (bpow radix2 (-20)) with (/ IZR 1048576)%R. lra. Qed.
Lemma u4 : bpow radix2 (-51) = (4 * u)%R.
Proof. change 4%R with (bpow radix2 2). rewrite <- bpow_plus. reflexivity. Qed.
Lemma u8 : bpow radix2 (-50) = (8 * u)%R.
Proof. change 8%R with (bpow radix2 3). rewrite <- bpow_plus. reflexivity. Qed.
Lemma u2 : bpow radix2 (-52) = (2 * u)%R.
Proof. change 2%R with (bpow radix2 1). rewrite <- bpow_plus. reflexivity. Qed.
(** a relative error as a factor *)
Lemma rel_factor e x y : (0 < y)%R -> within_rel e x y -> exists d, (Rabs d <= e)%R /\ x = (y * (1 + d))%R.
Proof.
  intros Hy H. exists ((x - y) / y)%R. split; [|field; lra]. unfold within_rel in H. rewrite (Rabs_pos_eq y) in H by lra.
  unfold Rdiv. rewrite Rabs_mult, Rabs_inv, (Rabs_pos_eq y) by lra. apply Rmult_le_reg_r with y; [exact Hy|]. rewrite Rmult_assoc, Rinv_l by lra. lra.
Qed.
Lemma pow_facts E sf : accurate_pow E -> -300 <= sf <= 280 -> exists p d, pow10 E sf = Ok p /\ good_scale p /\ (Rabs d <= 4 * u)%R /\ SF2R radix2 p = (ten sf * (1 + d))%R.
Proof.
  intros HA Hsf. destruct (HA sf Hsf) as (p & E1 & HV & HR). destruct (rel_factor _ _ _ (ten_pos sf) HR) as (d & Hd & Ep). rewrite u4 in Hd.
  exists p, d. split; [exact E1|]. split; [|auto]. split; [exact HV|]. rewrite Ep. destruct (ten_bounds sf Hsf) as [B1 B2]. pose proof u_small. apply Rabs_le_inv in Hd.
  pose proof (ten_pos sf).
  assert (bpow radix2 (-1022) <= bpow radix2 (-1000) / 2)%R by (change (bpow radix2 (-1000) / 2)%R with (bpow radix2 (-1000) * bpow radix2 (-1))%R; rewrite <- bpow_plus; apply bpow_le; lia).
  assert (bpow radix2 932 * 2 <= bpow radix2 970)%R by (change 2%R with (bpow radix2 1); rewrite <- bpow_plus; apply bpow_le; lia). nra.
Qed.
Lemma float_of_int_near n : Z.abs n <= 2 ^ 1000 -> exists (b : b64) d, float_of_int n = Ok (B2SF b) /\ is_finite b = true /\ (Rabs d <= u)%R /\ B2R b = (IZR n * (1 + d))%R.
Proof.
  intros Hn. destruct (Z.eq_dec n 0) as [->|Hn0].
  { destruct (float_of_int_exact 0 ltac:(lia)) as (b & E1 & E2 & E3). exists b, 0%R. split; [exact E1|]. split; [exact E3|]. rewrite Rabs_R0, E2. split; [apply bpow_ge_0|ring]. }
  unfold float_of_int. rewrite (sf_binary_normalize 53 1024 _ _).
  pose proof (binary_normalize_correct 53 1024 P53 L53 mode_NE n 0 false) as H. cbv zeta in H.
  assert (HF : F2R (Float radix2 n 0) = IZR n) by (unfold F2R; cbn; ring). rewrite HF in H. change (round_mode mode_NE) with ZnearestE in H.
  assert (H1 : (1 <= Rabs (IZR n))%R) by (rewrite <- abs_IZR; apply IZR_le; lia).
  destruct (rel_err (IZR n)) as (d & Hd & Er). { apply Rle_trans with 1%R; [change 1%R with (bpow radix2 0); apply bpow_le; lia|exact H1]. }
  rewrite Er in H. pose proof u_small as Hu. assert (Hd' := Rabs_le_inv _ _ Hd). rewrite Rlt_bool_true in H.
  - set (b := BinarySingleNaN.binary_normalize 53 1024 P53 L53 mode_NE n 0 false) in *. destruct H as (H2 & H3 & _). exists b, d.
    split; [clear -H3; destruct b; cbn in *; try discriminate; reflexivity|]. auto.
  - rewrite Rabs_mult, <- abs_IZR, (Rabs_pos_eq (1 + d)) by lra. apply IZR_le in Hn. change (2 ^ 1000) with (Zpower radix2 1000) in Hn. rewrite IZR_Zpower in Hn by lia.
    apply Rle_lt_trans with (bpow radix2 1000 * 2)%R; [apply Rmult_le_compat; try lra; apply IZR_le; lia|].
    change 2%R with (bpow radix2 1). rewrite <- bpow_plus. apply bpow_lt. lia.
Qed.

(** ** reading *)
Lemma value_read E sf n : accurate_pow E -> -300 <= sf <= 280 -> sf <> 0 -> Z.abs n <= 2 ^ 50 * 2 ^ 14 ->
  exists f, value_getter E (VInt n) (VInt sf) = Ok (VFlt f) /\ SpecFloat.valid_binary 53 1024 f = true /\ is_finite_SF f = true /\ within_rel (8 * u) (SF2R radix2 f) (IZR n * ten sf).
Proof.
  intros HA Hsf H0 Hn. destruct (pow_facts E sf HA Hsf) as (p & dp & HE & HG & Hdp & Ep).
  destruct (good_scale_b p HG) as (b & -> & Hfb & Hlo & Hhi). rewrite SF2R_B2SF in Ep.
  destruct (float_of_int_near n) as (x & dx & Hx & Hfx & Hdx & Ex); [change (2 ^ 50 * 2 ^ 14) with (2 ^ 64) in Hn; apply Z.le_trans with (2 ^ 64); [exact Hn|apply Z.pow_le_mono_r; lia]|].
  unfold value_getter. cbn [sf_truthy math_pow10]. rewrite (proj2 (Z.eqb_neq sf 0)) by exact H0. cbn [negb]. rewrite HE. cbn [bind]. rewrite Hx. cbn [bind].
  unfold fmul. rewrite (sf_mul 53 1024 _ _ x b). eexists. split; [reflexivity|].
  pose proof (Bmult_correct 53 1024 P53 L53 mode_NE x b) as HM. change (round_mode mode_NE) with ZnearestE in HM.
  pose proof u_small as Hu. assert (Hdp' := Rabs_le_inv _ _ Hdp). assert (Hdx' := Rabs_le_inv _ _ Hdx). pose proof (ten_pos sf) as HT.
  assert (Hrnd : exists d, (Rabs d <= u)%R /\ rnd64 (B2R x * B2R b) = (B2R x * B2R b * (1 + d))%R).
  { destruct (Z.eq_dec n 0) as [->|Hn0].
    - rewrite Ex, !Rmult_0_l. exists 0%R. rewrite Rabs_R0, round_0 by auto with typeclass_instances. split; [lra|ring].
    - apply rel_err. rewrite Rabs_mult, (Rabs_pos_eq (B2R b)) by (pose proof (bpow_gt_0 radix2 (-1022)); lra).
      rewrite Ex, Ep, Rabs_mult, (Rabs_pos_eq (1 + dx)) by lra. destruct (ten_bounds sf Hsf) as [B1 _].
      assert (1 <= Rabs (IZR n))%R by (rewrite <- abs_IZR; apply IZR_le; lia).
      apply Rle_trans with (1 * (1 / 2) * (bpow radix2 (-1000) * (1 / 2)))%R.
      + replace (1 * (1 / 2) * (bpow radix2 (-1000) * (1 / 2)))%R with (bpow radix2 (-1000) * bpow radix2 (-2))%R by (change (bpow radix2 (-2)) with (/ 4)%R; field). rewrite <- bpow_plus. apply bpow_le. lia.
      + pose proof (bpow_gt_0 radix2 (-1000)). apply Rmult_le_compat; try nra. }
  destruct Hrnd as (d & Hd & Er). rewrite Er in HM. assert (Hd' := Rabs_le_inv _ _ Hd).
  assert (EQ : (B2R x * B2R b * (1 + d) = IZR n * ten sf * ((1 + dx) * (1 + dp) * (1 + d)))%R) by (rewrite Ex, Ep; ring). rewrite EQ in HM.
  set (F := ((1 + dx) * (1 + dp) * (1 + d))%R) in *.
  assert (HF : (Rabs (F - 1) <= 8 * u)%R).
  { replace (F - 1)%R with (dx + dp + d + dx * dp + dx * d + dp * d + dx * dp * d)%R by (unfold F; ring).
    assert (Hm : forall a c, (Rabs a <= 4 * u -> Rabs c <= 4 * u -> Rabs (a * c) <= u / 100)%R).
    { intros a c Ha Hc. rewrite Rabs_mult. pose proof (Rabs_pos a). pose proof (Rabs_pos c). nra. }
    assert (A1 := Hm dx dp ltac:(lra) ltac:(lra)). assert (A2 := Hm dx d ltac:(lra) ltac:(lra)). assert (A3 := Hm dp d ltac:(lra) ltac:(lra)). assert (A4 := Hm (dx * dp)%R d ltac:(lra) ltac:(lra)).
    apply Rabs_le_inv in A1, A2, A3, A4. apply Rabs_le. lra. }
  assert (HF' := Rabs_le_inv _ _ HF).
  rewrite Rlt_bool_true in HM.
  2:{ rewrite !Rabs_mult, (Rabs_pos_eq (ten sf)), (Rabs_pos_eq F) by lra. destruct (ten_bounds sf Hsf) as [_ B2].
      assert (Hnb : (Rabs (IZR n) <= bpow radix2 64)%R) by (rewrite <- abs_IZR, <- (IZR_Zpower radix2) by lia; apply IZR_le; exact Hn).
      assert (HF2 : (F <= 2)%R) by lra. apply Rle_lt_trans with (bpow radix2 64 * bpow radix2 932 * 2)%R.
      - apply Rmult_le_compat; try lra; [apply Rmult_le_pos; [apply Rabs_pos|lra]|]. apply Rmult_le_compat; try lra. apply Rabs_pos.
      - change 2%R with (bpow radix2 1). rewrite <- !bpow_plus. apply bpow_lt. lia. }
  destruct HM as (M1 & M2 & _). rewrite Hfx, Hfb in M2. rewrite SF2R_B2SF, M1, is_finite_SF_B2SF. split; [apply valid_binary_B2SF|]. split; [exact M2|].
  unfold within_rel. replace (IZR n * ten sf * F - IZR n * ten sf)%R with (IZR n * ten sf * (F - 1))%R by ring. rewrite Rabs_mult, Rmult_comm. apply Rmult_le_compat_r; [apply Rabs_pos|exact HF].
Qed.

(** ** assigning *)
Lemma value_assigned E sf x t : accurate_pow E -> -300 <= sf <= 280 -> sf <> 0 -> SpecFloat.valid_binary 53 1024 x = true -> is_finite_SF x = true ->
  (Rabs (SF2R radix2 x / ten sf) <= bpow radix2 1000)%R ->
  exists k, value_setter E t (VInt sf) (VFlt x) = Ok (VInt k) /\
    (Rabs (IZR k - SF2R radix2 x / ten sf) <= 1 / 2 + 8 * u * Rabs (SF2R radix2 x / ten sf) + bpow radix2 (-1075))%R.
Proof.
  intros HA Hsf H0 HV HF Hq. destruct (pow_facts E sf HA Hsf) as (p & dp & HE & HG & Hdp & Ep). pose proof u_small as Hu. assert (Hdp' := Rabs_le_inv _ _ Hdp). pose proof (ten_pos sf) as HT.
  set (q := (SF2R radix2 x / ten sf)%R) in *. assert (EQ : (SF2R radix2 x / SF2R radix2 p = q * / (1 + dp))%R) by (rewrite Ep; unfold q; field; lra).
  assert (HI : (Rabs (/ (1 + dp) - 1) <= 5 * u)%R).
  { replace (/ (1 + dp) - 1)%R with (- dp * / (1 + dp))%R by (field; lra). rewrite Rabs_mult, Rabs_Ropp, Rabs_inv, (Rabs_pos_eq (1 + dp)) by lra.
    apply Rmult_le_reg_r with (1 + dp)%R; [lra|]. rewrite Rmult_assoc, Rinv_l by lra. nra. }
  set (c := (/ (1 + dp))%R) in *. assert (HI' := Rabs_le_inv _ _ HI).
  assert (Hqc : (Rabs (q * c) <= Rabs q * 2)%R) by (rewrite Rabs_mult, (Rabs_pos_eq c) by lra; apply Rmult_le_compat_l; [apply Rabs_pos|lra]).
  destruct (assign_nearest E sf p x t H0 HE HG HV HF) as (k & Ek & Hk).
  { rewrite EQ. apply Rle_trans with (bpow radix2 1000 * 2)%R; [lra|]. change 2%R with (bpow radix2 1). rewrite <- bpow_plus. apply bpow_le. lia. }
  exists k. split; [exact Ek|]. rewrite EQ in Hk.
  replace (IZR k - q)%R with ((IZR k - q * c) + q * (c - 1))%R by ring. eapply Rle_trans; [apply Rabs_triang|]. rewrite (Rabs_mult q (c - 1)). pose proof (Rabs_pos q).
  assert (Rabs q * Rabs (c - 1) <= Rabs q * (5 * u))%R by (apply Rmult_le_compat_l; assumption).
  assert (u * Rabs (q * c) <= u * (Rabs q * 2))%R by (apply Rmult_le_compat_l; lra). nra.
Qed.
(** the register value of a decimal number *)
Lemma decimal_stored E sf x t k : accurate_pow E -> -300 <= sf <= 280 -> sf <> 0 -> SpecFloat.valid_binary 53 1024 x = true -> is_finite_SF x = true ->
  Z.abs k <= 2 ^ 47 -> within_rel (bpow radix2 (-50)) (SF2R radix2 x) (IZR k * ten sf) -> value_setter E t (VInt sf) (VFlt x) = Ok (VInt k).
Proof.
  intros HA Hsf H0 HV HF Hk HR. rewrite u8 in HR. pose proof (ten_pos sf) as HT. pose proof u_small as Hu.
  set (q := (SF2R radix2 x / ten sf)%R).
  assert (Hkb : (Rabs (IZR k) <= bpow radix2 47)%R) by (rewrite <- abs_IZR, <- (IZR_Zpower radix2) by lia; apply IZR_le; exact Hk).
  assert (HQ : (Rabs (q - IZR k) <= 8 * u * Rabs (IZR k))%R).
  { unfold within_rel in HR. apply Rmult_le_reg_r with (ten sf); [exact HT|]. rewrite <- (Rabs_pos_eq (ten sf)) at 1 by lra. rewrite <- Rabs_mult.
    replace ((q - IZR k) * ten sf)%R with (SF2R radix2 x - IZR k * ten sf)%R by (unfold q; field; lra). rewrite Rabs_mult, (Rabs_pos_eq (ten sf)) in HR by lra. lra. }
  assert (HS : (8 * u * bpow radix2 47 = 1 / 8)%R).
  { rewrite <- u8, <- bpow_plus. change (bpow radix2 (-50 + 47)) with (/ 8)%R. lra. }
  assert (HQ4 : (Rabs (q - IZR k) <= 1 / 8)%R) by (rewrite <- HS; eapply Rle_trans; [exact HQ|]; apply Rmult_le_compat_l; lra).
  assert (Hqb : (Rabs q <= Rabs (IZR k) + 1 / 8)%R).
  { replace q with ((q - IZR k) + IZR k)%R by ring. eapply Rle_trans; [apply Rabs_triang|]. lra. }
  assert (H48 : (1 <= bpow radix2 47)%R) by (change 1%R with (bpow radix2 0); apply bpow_le; lia).
  destruct (value_assigned E sf x t HA Hsf H0 HV HF) as (z & Ez & Hz).
  { fold q. apply Rle_trans with (bpow radix2 47 * 2)%R; [lra|]. change 2%R with (bpow radix2 1). rewrite <- bpow_plus. apply bpow_le. lia. }
  rewrite Ez. do 2 f_equal. fold q in Hz.
  assert (Heta : (bpow radix2 (-1075) <= u)%R) by (apply bpow_le; lia).
  assert (HB : (8 * u * Rabs q <= 1 / 8 + 2 * u)%R).
  { apply Rle_trans with (8 * u * (bpow radix2 47 + 1 / 8))%R; [apply Rmult_le_compat_l; lra|]. rewrite Rmult_plus_distr_l, HS. lra. }
  assert (Hd : (Rabs (IZR (z - k)) < 1)%R).
  { rewrite minus_IZR. replace (IZR z - IZR k)%R with ((IZR z - q) + (q - IZR k))%R by ring. eapply Rle_lt_trans; [apply Rabs_triang|]. lra. }
  rewrite <- abs_IZR in Hd. apply lt_IZR in Hd. lia.
Qed.
(** ** a math.pow that is accurate *)
Definition near_pow (sf : Z) : res flt :=
  if 0 <=? sf then float_of_int (10 ^ sf) else let! one := float_of_int 1 in let! d := float_of_int (10 ^ (- sf)) in fdiv one d.
Lemma ten_abs_bound n : 0 <= n <= 300 -> Z.abs (10 ^ n) <= 2 ^ 1000.
Proof.
  intros H. rewrite Z.abs_eq by (apply Z.pow_nonneg; lia). apply Z.le_trans with (10 ^ 300); [apply Z.pow_le_mono_r; lia|]. vm_compute. congruence.
Qed.
Lemma near_pow_accurate sf : -300 <= sf <= 280 -> exists p, near_pow sf = Ok p /\ SpecFloat.valid_binary 53 1024 p = true /\ within_rel (bpow radix2 (-51)) (SF2R radix2 p) (ten sf).
Proof.
  intros Hsf. pose proof u_small as Hu. unfold near_pow. destruct (Z.leb_spec 0 sf) as [Hs|Hs].
  - destruct (float_of_int_near (10 ^ sf) (ten_abs_bound sf ltac:(lia))) as (b & d & E1 & Hf & Hd & E2). rewrite E1. eexists. split; [reflexivity|]. split; [apply valid_binary_B2SF|].
    rewrite SF2R_B2SF, E2. replace (IZR (10 ^ sf)) with (ten sf) by (rewrite ten_bpow; symmetry; apply (IZR_Zpower r10); lia).
    unfold within_rel. replace (ten sf * (1 + d) - ten sf)%R with (ten sf * d)%R by ring. rewrite Rabs_mult, Rmult_comm, u4. apply Rmult_le_compat_r; [apply Rabs_pos|lra].
  - destruct (float_of_int_exact 1 ltac:(lia)) as (o & O1 & O2 & O3). rewrite O1. cbn [bind].
    destruct (float_of_int_near (10 ^ (- sf)) (ten_abs_bound (- sf) ltac:(lia))) as (b & d & E1 & Hf & Hd & E2). rewrite E1. cbn [bind].
    assert (EI : IZR (10 ^ (- sf)) = (/ ten sf)%R). { rewrite ten_bpow, <- bpow_opp. apply (IZR_Zpower r10). lia. }
    pose proof (ten_pos sf) as HT. assert (Hd' := Rabs_le_inv _ _ Hd). assert (HTI := Rinv_0_lt_compat _ HT). rewrite EI in E2.
    assert (Hb0 : (0 < B2R b)%R) by (rewrite E2; nra). rewrite fdiv_ok by exact Hb0. eexists. split; [reflexivity|]. split; [apply valid_binary_B2SF|].
    pose proof (Bdiv_correct 53 1024 P53 L53 mode_NE o b ltac:(lra)) as HD. rewrite O2 in HD. change (round_mode mode_NE) with ZnearestE in HD.
    assert (EQ : (1 / B2R b = ten sf * / (1 + d))%R) by (rewrite E2; field; lra). rewrite EQ in HD.
    assert (HI : (Rabs (/ (1 + d) - 1) <= 3 / 2 * u)%R).
    { replace (/ (1 + d) - 1)%R with (- d * / (1 + d))%R by (field; lra). rewrite Rabs_mult, Rabs_Ropp, Rabs_inv, (Rabs_pos_eq (1 + d)) by lra.
      apply Rmult_le_reg_r with (1 + d)%R; [lra|]. rewrite Rmult_assoc, Rinv_l by lra. nra. }
    set (c := (/ (1 + d))%R) in *. assert (HI' := Rabs_le_inv _ _ HI). destruct (ten_bounds sf Hsf) as [B1 B2].
    assert (Hlow : (bpow radix2 (-1022) <= bpow radix2 (-1000) * (1 / 2))%R) by (change (1 / 2)%R with (1 * bpow radix2 (-1))%R; rewrite Rmult_1_l, <- bpow_plus; apply bpow_le; lia).
    pose proof (bpow_gt_0 radix2 (-1000)).
    destruct (rel_err (ten sf * c)) as (e & He & Er); [rewrite Rabs_pos_eq by nra; nra|]. rewrite Er in HD. assert (He' := Rabs_le_inv _ _ He).
    rewrite Rlt_bool_true in HD.
    2:{ rewrite Rabs_pos_eq by (apply Rmult_le_pos; [apply Rmult_le_pos|]; lra). apply Rle_lt_trans with (bpow radix2 932 * 2 * 2)%R.
        - apply Rmult_le_compat; try lra; [apply Rmult_le_pos; lra|]. apply Rmult_le_compat; lra.
        - change 2%R with (bpow radix2 1). rewrite <- !bpow_plus. apply bpow_lt. lia. }
    destruct HD as (D1 & _). rewrite SF2R_B2SF, D1. unfold within_rel.
    replace (ten sf * c * (1 + e) - ten sf)%R with (ten sf * ((c - 1) + e + (c - 1) * e))%R by ring. rewrite Rabs_mult, Rmult_comm, u4. apply Rmult_le_compat_r; [apply Rabs_pos|].
    assert (Rabs ((c - 1) * e) <= u)%R by (rewrite Rabs_mult; pose proof (Rabs_pos e); pose proof (Rabs_pos (c - 1)); nra).
    eapply Rle_trans; [apply Rabs_triang|]. eapply Rle_trans; [apply Rplus_le_compat_r, Rabs_triang|]. lra.
Qed.
