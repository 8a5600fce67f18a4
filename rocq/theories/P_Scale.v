(** * P_Scale: scaled values (C11-C13), through Flocq. *)
From Coq Require Import Reals Psatz.
From Flocq Require Import Core Relative BinarySingleNaN.
From Verif Require Import Py P_List M_Util M_Float M_Suns M_Point S_Scale P_Float.
From Coq Require Import ZifyBool.
Local Open Scope Z_scope.

Notation fexp64 := (SpecFloat.fexp 53 1024).
Notation rnd64 := (Generic_fmt.round radix2 fexp64 ZnearestE).

(** ** int(round(x)) is within one half *)
Lemma round_half_even_bound m e :
  0 < m -> (Rabs (IZR (round_half_even m e) - F2R (Float radix2 m e)) <= 1/2)%R.
Proof.
  intros Hm. unfold round_half_even, F2R; cbn [Fnum Fexp].
  destruct (Z.leb_spec 0 e) as [He|He].
  - rewrite <- (IZR_Zpower radix2) by lia. rewrite <- mult_IZR.
    change (Z.pow_pos) with Z.pow_pos. replace (m * 2 ^ e) with (m * Zpower radix2 e) by reflexivity.
    rewrite Rminus_eq_0, Rabs_R0. lra.
  - set (d := 2 ^ (- e)). assert (Hd : 0 < d) by (apply Z.pow_pos_nonneg; lia).
    pose proof (Z.div_mod m d ltac:(lia)) as HDM. pose proof (Z.mod_pos_bound m d Hd) as HB.
    set (q := m / d) in *. set (r := m mod d) in *.
    assert (Hx : (IZR m * bpow radix2 e = IZR q + IZR r / IZR d)%R).
    { replace (bpow radix2 e) with (/ IZR d)%R.
      - rewrite HDM, plus_IZR, mult_IZR. field. apply not_0_IZR. lia.
      - replace e with (- (- e)) by lia. rewrite bpow_opp. f_equal.
        unfold d. rewrite <- (IZR_Zpower radix2) by lia. reflexivity. }
    rewrite Hx.
    assert (Hd' : (0 < IZR d)%R) by now apply IZR_lt.
    assert (Hr : (IZR r / IZR d * IZR d = IZR r)%R) by (field; lra).
    assert (Hr0 : (0 <= IZR r / IZR d)%R).
    { apply Rmult_le_pos; [apply IZR_le; lia|]. left; now apply Rinv_0_lt_compat. }
    set (t := (IZR r / IZR d)%R) in *.
    assert (Hcase : forall k : Z, (k = q /\ 2 * r <= d) \/ (k = q + 1 /\ d <= 2 * r) ->
              (Rabs (IZR k - (IZR q + t)) <= 1/2)%R).
    { intros k [[-> Hk]|[-> Hk]].
      - apply IZR_le in Hk. rewrite mult_IZR in Hk.
        assert (t <= 1/2)%R by nra. apply Rabs_le. lra.
      - assert (Hk' := Hk). apply IZR_le in Hk. rewrite mult_IZR in Hk.
        assert (1/2 <= t)%R by nra.
        assert (Hlt : (IZR r < IZR d)%R) by (apply IZR_lt; lia).
        assert (t <= 1)%R by nra. rewrite plus_IZR. apply Rabs_le. lra. }
    apply Hcase.
    destruct (Z.ltb_spec (2 * r) d); [left; lia|].
    destruct (Z.ltb_spec d (2 * r)); [right; lia|].
    destruct (Z.even q); [left|right]; lia.
Qed.

Lemma int_round_bound (f : flt) z :
  int_round f = Ok z -> (Rabs (IZR z - SF2R radix2 f) <= 1/2)%R.
Proof.
  destruct f as [s|s| |s m e]; cbn [int_round SF2R]; try discriminate.
  - intros H; apply P_List.Ok_inj in H; subst z. rewrite Rminus_eq_0, Rabs_R0. lra.
  - intros H; apply P_List.Ok_inj in H; subst z.
    pose proof (round_half_even_bound (Zpos m) e ltac:(lia)) as HB.
    destruct s; cbn [cond_Zopp].
    + rewrite (F2R_Zopp radix2 (Zpos m)), opp_IZR.
      replace (- IZR (round_half_even (Z.pos m) e) - - F2R (Float radix2 (Z.pos m) e))%R
        with (- (IZR (round_half_even (Z.pos m) e) - F2R (Float radix2 (Z.pos m) e)))%R by ring.
      rewrite Rabs_Ropp. exact HB.
    + exact HB.
Qed.

Lemma int_round_finite (b : b64) : is_finite b = true -> exists z, int_round (B2SF b) = Ok z.
Proof. destruct b; cbn; try discriminate; eauto. Qed.

(** ** float(int) is exact up to 2^53 *)
Lemma small_int_format n : Z.abs n <= 2 ^ 53 -> generic_format radix2 fexp64 (IZR n).
Proof.
  intros Hn. destruct (Z.eq_dec (Z.abs n) (2 ^ 53)) as [He|He].
  - assert (n = 2 ^ 53 \/ n = - 2 ^ 53) as [-> | ->] by lia.
    + change (2 ^ 53) with (Zpower radix2 53). rewrite IZR_Zpower by lia.
      apply generic_format_bpow. unfold SpecFloat.fexp, SpecFloat.emin. lia.
    + rewrite opp_IZR. apply generic_format_opp.
      change (2 ^ 53) with (Zpower radix2 53). rewrite IZR_Zpower by lia.
      apply generic_format_bpow. unfold SpecFloat.fexp, SpecFloat.emin. lia.
  - apply generic_format_FLT. exists (Float radix2 n 0).
    + unfold F2R; cbn. ring.
    + cbn [Fnum]. apply Z.le_neq; split; [exact Hn|exact He].
    + cbn [Fexp]. unfold SpecFloat.emin; lia.
Qed.

Lemma float_of_int_exact n : Z.abs n <= 2 ^ 53 ->
  exists b : b64, float_of_int n = Ok (B2SF b) /\ B2R b = IZR n /\ is_finite b = true.
Proof.
  intros Hn. unfold float_of_int. rewrite (sf_binary_normalize 53 1024 _ _).
  pose proof (binary_normalize_correct 53 1024 P53 L53 mode_NE n 0 false) as H. cbv zeta in H.
  assert (HF : F2R (Float radix2 n 0) = IZR n) by (unfold F2R; cbn; ring).
  rewrite HF in H. rewrite round_generic in H; [|auto with typeclass_instances|now apply small_int_format].
  rewrite Rlt_bool_true in H.
  - set (b := BinarySingleNaN.binary_normalize 53 1024 P53 L53 mode_NE n 0 false) in *.
    destruct H as (H1 & H2 & _). exists b. split; [|split; [exact H1|exact H2]].
    clear -H2. destruct b; cbn in *; try discriminate; reflexivity.
  - rewrite <- abs_IZR. apply IZR_le in Hn. eapply Rle_lt_trans; [exact Hn|].
    change (2 ^ 53) with (Zpower radix2 53). rewrite IZR_Zpower by lia. apply bpow_lt. lia.
Qed.

Lemma float_of_int_overflow n : 2 ^ 1024 <= Z.abs n -> float_of_int n = Raise EOverflow.
Proof.
  intros Hn. unfold float_of_int. rewrite (sf_binary_normalize 53 1024 _ _).
  pose proof (binary_normalize_correct 53 1024 P53 L53 mode_NE n 0 false) as H. cbv zeta in H.
  assert (HF : F2R (Float radix2 n 0) = IZR n) by (unfold F2R; cbn; ring). rewrite HF in H. rewrite Rlt_bool_false in H.
  - rewrite H. reflexivity.
  - apply abs_round_ge_generic; [apply (fexp_correct 53 1024 P53)|auto with typeclass_instances| |].
    + apply generic_format_bpow. unfold SpecFloat.fexp, SpecFloat.emin. lia.
    + rewrite <- abs_IZR, <- IZR_Zpower by lia. apply IZR_le. exact Hn.
Qed.

(** ** rounding errors *)
Lemma rel_err x :
  (bpow radix2 (-1022) <= Rabs x)%R ->
  exists eps, (Rabs eps <= bpow radix2 (-53))%R /\ rnd64 x = (x * (1 + eps))%R.
Proof.
  intros Hx.
  destruct (relative_error_N_FLT_ex radix2 (-1074) 53 ltac:(lia) (fun x => negb (Z.even x)) x) as (eps & He & Hr).
  - exact Hx.
  - exists eps. split; [|exact Hr].
    replace (bpow radix2 (-53)) with (/ 2 * bpow radix2 (-53 + 1))%R; [exact He|].
    rewrite bpow_plus. change (bpow radix2 1) with 2%R. lra.
Qed.

Lemma abs_err x :
  exists eps eta, (Rabs eps <= bpow radix2 (-53))%R /\ (Rabs eta <= bpow radix2 (-1075))%R /\
    rnd64 x = (x * (1 + eps) + eta)%R.
Proof.
  destruct (error_N_FLT radix2 (-1074) 53 ltac:(lia) (fun x => negb (Z.even x)) x) as (eps & eta & H1 & H2 & _ & H3).
  exists eps, eta. split; [|split; [|exact H3]].
  - replace (bpow radix2 (-53)) with (/ 2 * bpow radix2 (-53 + 1))%R; [exact H1|].
    rewrite bpow_plus. change (bpow radix2 1) with 2%R. lra.
  - replace (bpow radix2 (-1075)) with (/ 2 * bpow radix2 (-1074))%R; [exact H2|].
    replace (-1074) with (-1075 + 1) by lia. rewrite bpow_plus. change (bpow radix2 1) with 2%R. lra.
Qed.

Lemma bpow_m53_small : (0 < bpow radix2 (-53) <= 1/1000)%R.
Proof.
  split; [apply bpow_gt_0|]. apply Rle_trans with (bpow radix2 (-10)); [apply bpow_le; lia|].
  change (bpow radix2 (-10)) with (/ 1024)%R. lra.
Qed.

(** the core bound: n -> fl(n p) -> fl(./p) stays within 1/2 of n *)
Lemma scale_roundtrip_bound (n : Z) (p eps1 eps2 : R) :
  Z.abs n <= 2 ^ 50 -> (Rabs eps1 <= bpow radix2 (-53))%R -> (Rabs eps2 <= bpow radix2 (-53))%R ->
  (Rabs (IZR n * (1 + eps1) * (1 + eps2) - IZR n) < 1/2)%R.
Proof.
  intros Hn H1 H2.
  set (u := bpow radix2 (-53)) in *. pose proof bpow_m53_small as Hu. fold u in Hu.
  replace (IZR n * (1 + eps1) * (1 + eps2) - IZR n)%R with (IZR n * (eps1 + eps2 + eps1 * eps2))%R by ring.
  rewrite Rabs_mult, <- abs_IZR.
  apply IZR_le in Hn. change (IZR (2 ^ 50)) with (IZR (Zpower radix2 50)) in Hn.
  rewrite IZR_Zpower in Hn by lia.
  assert (Hs : (Rabs (eps1 + eps2 + eps1 * eps2) <= 3 * u)%R).
  { eapply Rle_trans; [apply Rabs_triang|]. pose proof (Rabs_triang eps1 eps2).
    rewrite Rabs_mult. pose proof (Rabs_pos eps1). pose proof (Rabs_pos eps2). nra. }
  apply Rle_lt_trans with (bpow radix2 50 * (3 * u))%R.
  - apply Rmult_le_compat; auto using Rabs_pos. apply IZR_le. lia.
  - replace (bpow radix2 50 * (3 * u))%R with (3 * (bpow radix2 50 * u))%R by ring.
    unfold u. rewrite <- bpow_plus. change (bpow radix2 (50 + -53)) with (/ 8)%R. lra.
Qed.

Lemma good_scale_b p : good_scale p -> exists b : b64, p = B2SF b /\ is_finite b = true /\
  (bpow radix2 (-1022) <= B2R b <= bpow radix2 970)%R.
Proof.
  intros [HV HR]. exists (SF2B p HV). rewrite B2SF_SF2B. split; [reflexivity|].
  rewrite B2R_SF2B. split; [|exact HR]. rewrite is_finite_SF2B.
  pose proof (bpow_gt_0 radix2 (-1022)).
  destruct p; cbn in *; try reflexivity; lra.
Qed.

Lemma fdiv_ok (x p : b64) : (0 < B2R p)%R -> fdiv (B2SF x) (B2SF p) = Ok (B2SF (Bdiv mode_NE x p)).
Proof.
  intros Hp. unfold fdiv. rewrite (sf_div 53 1024 _ _ x p).
  destruct p; cbn in Hp; try lra; reflexivity.
Qed.

(** C11 *)
Lemma reassign_same E sf p n t :
  sf <> 0 -> pow10 E sf = Ok p -> good_scale p -> Z.abs n <= 2 ^ 50 ->
  exists v, value_getter E (VInt n) (VInt sf) = Ok v /\ value_setter E t (VInt sf) v = Ok (VInt n).
Proof.
  intros Hsf HE HG Hn.
  destruct (good_scale_b p HG) as (b & -> & Hfb & Hlo & Hhi).
  pose proof (bpow_gt_0 radix2 (-1022)) as Hpos.
  destruct (float_of_int_exact n ltac:(lia)) as (x & Hx & Hxr & Hxf).
  unfold value_getter, value_setter. cbn [sf_truthy math_pow10].
  rewrite (proj2 (Z.eqb_neq sf 0)) by exact Hsf. cbn [negb]. rewrite HE. cbn [bind].
  rewrite Hx. cbn [bind]. eexists; split; [reflexivity|]. cbn [to_float bind].
  unfold fmul. rewrite (sf_mul 53 1024 _ _ x b).
  assert (Hb0 : (0 < B2R b)%R) by lra.
  rewrite fdiv_ok by exact Hb0. cbn [bind].
  (* the product *)
  pose proof (Bmult_correct 53 1024 P53 L53 mode_NE x b) as HM. rewrite Hxr in HM.
  change (round_mode mode_NE) with ZnearestE in HM.
  destruct (Z.eq_dec n 0) as [Hn0|Hn0].
  { (* n = 0 *)
    subst n. rewrite Rmult_0_l, round_0 in HM by auto with typeclass_instances.
    rewrite Rabs_R0, Rlt_bool_true in HM by apply bpow_gt_0.
    destruct HM as (M1 & M2 & _). rewrite Hxf, Hfb in M2.
    pose proof (Bdiv_correct 53 1024 P53 L53 mode_NE (Bmult mode_NE x b) b ltac:(lra)) as HD.
    rewrite M1 in HD. unfold Rdiv in HD. rewrite Rmult_0_l, round_0 in HD by auto with typeclass_instances.
    rewrite Rabs_R0, Rlt_bool_true in HD by apply bpow_gt_0.
    destruct HD as (D1 & D2 & _).
    destruct (int_round_finite _ (eq_trans D2 M2)) as (z & Hz). rewrite Hz. cbn [bind].
    apply int_round_bound in Hz. rewrite SF2R_B2SF, D1 in Hz.
    do 2 f_equal. rewrite Rminus_0_r, <- abs_IZR in Hz.
    assert (Z.abs z < 1) by (apply lt_IZR; lra). lia. }
  assert (Hn1 : (1 <= Rabs (IZR n))%R) by (rewrite <- abs_IZR; apply IZR_le; lia).
  destruct (rel_err (IZR n * B2R b)) as (eps1 & He1 & Hr1).
  { rewrite Rabs_mult, (Rabs_pos_eq (B2R b)) by lra. nra. }
  pose proof bpow_m53_small as Hu.
  assert (He1' : (Rabs eps1 <= 1/1000)%R) by lra.
  apply Rabs_le_inv in He1'.
  assert (Hnb : (Rabs (IZR n) <= bpow radix2 50)%R).
  { rewrite <- abs_IZR. rewrite <- (IZR_Zpower radix2) by lia. apply IZR_le. exact Hn. }
  rewrite Hr1 in HM. rewrite Rlt_bool_true in HM.
  2:{ rewrite 2!Rabs_mult. rewrite (Rabs_pos_eq (B2R b)) by lra. rewrite (Rabs_pos_eq (1 + eps1)) by lra.
      apply Rle_lt_trans with (bpow radix2 50 * bpow radix2 970 * 2)%R.
      - apply Rmult_le_compat; try lra; [|apply Rmult_le_compat; try lra; apply Rabs_pos].
        apply Rmult_le_pos; [apply Rabs_pos|lra].
      - change 2%R with (bpow radix2 1). rewrite <- !bpow_plus. apply bpow_lt. lia. }
  destruct HM as (M1 & M2 & _). rewrite Hxf, Hfb in M2. cbn [andb] in M2.
  pose proof (Bdiv_correct 53 1024 P53 L53 mode_NE (Bmult mode_NE x b) b ltac:(lra)) as HD.
  rewrite M1 in HD. change (round_mode mode_NE) with ZnearestE in HD.
  replace (IZR n * B2R b * (1 + eps1) / B2R b)%R with (IZR n * (1 + eps1))%R in HD by (field; lra).
  destruct (rel_err (IZR n * (1 + eps1))) as (eps2 & He2 & Hr2).
  { rewrite Rabs_mult, (Rabs_pos_eq (1 + eps1)) by lra.
    apply Rle_trans with (bpow radix2 (-1)).
    - apply bpow_le; lia.
    - change (bpow radix2 (-1)) with (/ 2)%R. nra. }
  assert (He2' : (Rabs eps2 <= 1/1000)%R) by lra. apply Rabs_le_inv in He2'.
  rewrite Hr2 in HD. rewrite Rlt_bool_true in HD.
  2:{ rewrite !Rabs_mult. rewrite (Rabs_pos_eq (1 + eps1)), (Rabs_pos_eq (1 + eps2)) by lra.
      apply Rle_lt_trans with (bpow radix2 50 * 2 * 2)%R.
      - repeat (apply Rmult_le_compat); try lra; try apply Rabs_pos.
        apply Rmult_le_pos; [apply Rabs_pos|lra].
      - change 2%R with (bpow radix2 1). rewrite <- !bpow_plus. apply bpow_lt. lia. }
  destruct HD as (D1 & D2 & _).
  destruct (int_round_finite _ (eq_trans D2 M2)) as (z & Hz). rewrite Hz. cbn [bind].
  apply int_round_bound in Hz. rewrite SF2R_B2SF, D1 in Hz.
  pose proof (scale_roundtrip_bound n (B2R b) eps1 eps2 Hn He1 He2) as Hfin.
  do 2 f_equal. assert (Hd : (Rabs (IZR (z - n)) < 1)%R).
  { rewrite minus_IZR.
    replace (IZR z - IZR n)%R with ((IZR z - IZR n * (1 + eps1) * (1 + eps2)) +
      (IZR n * (1 + eps1) * (1 + eps2) - IZR n))%R by ring.
    eapply Rle_lt_trans; [apply Rabs_triang|]. lra. }
  rewrite <- abs_IZR in Hd. apply lt_IZR in Hd. lia.
Qed.

(** C12 *)
Lemma assign_nearest E sf p x t :
  sf <> 0 -> pow10 E sf = Ok p -> good_scale p ->
  SpecFloat.valid_binary 53 1024 x = true -> is_finite_SF x = true ->
  (Rabs (SF2R radix2 x / SF2R radix2 p) <= bpow radix2 1022)%R ->
  exists k, value_setter E t (VInt sf) (VFlt x) = Ok (VInt k) /\
    (Rabs (IZR k - SF2R radix2 x / SF2R radix2 p) <=
       1/2 + bpow radix2 (-53) * Rabs (SF2R radix2 x / SF2R radix2 p) + bpow radix2 (-1075))%R.
Proof.
  intros Hsf HE HG HVx HFx Hb.
  destruct (good_scale_b p HG) as (b & -> & Hfb & Hlo & Hhi).
  pose proof (bpow_gt_0 radix2 (-1022)) as Hpos.
  rewrite <- (B2SF_SF2B 53 1024 x HVx) in *. set (xb := SF2B x HVx) in *.
  rewrite is_finite_SF_B2SF in HFx. rewrite !SF2R_B2SF in *.
  unfold value_setter. cbn [sf_truthy math_pow10 to_float].
  rewrite (proj2 (Z.eqb_neq sf 0)) by exact Hsf. cbn [negb bind]. rewrite HE. cbn [bind].
  rewrite fdiv_ok by lra. cbn [bind].
  pose proof (Bdiv_correct 53 1024 P53 L53 mode_NE xb b ltac:(lra)) as HD.
  change (round_mode mode_NE) with ZnearestE in HD.
  set (q := (B2R xb / B2R b)%R) in *.
  destruct (abs_err q) as (eps & eta & He & Ht & Hr). rewrite Hr in HD.
  pose proof bpow_m53_small as Hu.
  assert (Heta : (bpow radix2 (-1075) <= 1)%R) by (change 1%R with (bpow radix2 0); apply bpow_le; lia).
  rewrite Rlt_bool_true in HD.
  2:{ eapply Rle_lt_trans; [apply Rabs_triang|]. rewrite Rabs_mult.
      assert (Rabs (1 + eps) <= 1 + 1/1000)%R.
      { eapply Rle_trans; [apply Rabs_triang|]. rewrite Rabs_R1. lra. }
      apply Rle_lt_trans with (bpow radix2 1022 * (1 + 1/1000) + 1)%R.
      - apply Rplus_le_compat; [apply Rmult_le_compat; auto using Rabs_pos|lra].
      - assert (2 <= bpow radix2 1022)%R by (change 2%R with (bpow radix2 1); apply bpow_le; lia).
        apply Rlt_le_trans with (bpow radix2 1022 * 4)%R; [lra|].
        change 4%R with (bpow radix2 2). rewrite <- bpow_plus. apply bpow_le; lia. }
  destruct HD as (D1 & D2 & _).
  destruct (int_round_finite _ (eq_trans D2 HFx)) as (z & Hz). rewrite Hz. cbn [bind].
  exists z. split; [reflexivity|]. apply int_round_bound in Hz. rewrite SF2R_B2SF, D1 in Hz.
  replace (IZR z - q)%R with ((IZR z - (q * (1 + eps) + eta)) + q * eps + eta)%R by ring.
  eapply Rle_trans; [apply Rabs_triang|]. apply Rplus_le_compat; [|exact Ht].
  eapply Rle_trans; [apply Rabs_triang|]. apply Rplus_le_compat; [exact Hz|].
  rewrite Rabs_mult, Rmult_comm. apply Rmult_le_compat_r; [apply Rabs_pos|exact He].
Qed.

(** scale values with a moderate exponent are good *)
Lemma good_scale_intro m e :
  SpecFloat.bounded 53 1024 m e = true -> -1022 <= e -> e + 53 <= 970 -> good_scale (S754_finite false m e).
Proof.
  intros HB Hlo Hhi. split; [exact HB|]. cbn [SF2R cond_Zopp].
  assert (Hd : Zpos m < 2 ^ 53).
  { unfold SpecFloat.bounded, SpecFloat.canonical_mantissa in HB. apply andb_prop in HB as [HB _].
    apply Zeq_bool_eq in HB. unfold SpecFloat.fexp, SpecFloat.emin in HB.
    pose proof (digits2_bounds m) as [_ HD].
    eapply Z.lt_le_trans; [exact HD|]. apply Z.pow_le_mono_r; lia. }
  unfold F2R; cbn [Fnum Fexp]. split.
  - apply Rle_trans with (1 * bpow radix2 e)%R.
    + rewrite Rmult_1_l. apply bpow_le; lia.
    + apply Rmult_le_compat_r; [apply bpow_ge_0|]. apply IZR_le; lia.
  - apply Rle_trans with (bpow radix2 53 * bpow radix2 e)%R.
    + apply Rmult_le_compat_r; [apply bpow_ge_0|]. rewrite <- (IZR_Zpower radix2) by lia.
      apply IZR_le. apply Z.lt_le_incl, Hd.
    + rewrite <- bpow_plus. apply bpow_le; lia.
Qed.

Definition int_type_value (t : ptype) : Prop :=
  match t with Tipv6addr | Tfloat32 | Tstring | Teui48 => False | _ => True end.
Lemma reassign_unscaled E n t : int_type_value t ->
  value_getter E (VInt n) VNone = Ok (VInt n) /\ value_setter E t VNone (VInt n) = Ok (VInt n) /\
  value_getter E (VInt n) (VInt 0) = Ok (VInt n) /\ value_setter E t (VInt 0) (VInt n) = Ok (VInt n).
Proof. destruct t; cbn; try tauto; auto. Qed.

Lemma reassign_64_refuted E :
  pow10 E 1 = Ok (S754_finite false 5629499534213120 (-49)) ->
  exists n v, 0 <= n < 2 ^ 63 /\ value_getter E (VInt n) (VInt 1) = Ok v /\
    value_setter E Tint64 (VInt 1) v = Ok (VInt (n - 1)).
Proof.
  intros HE. exists (2 ^ 53 + 1).
  unfold value_getter, value_setter, math_pow10. cbn [sf_truthy Z.eqb negb]. rewrite HE. cbn [bind].
  eexists. split; [lia|]. split.
  - vm_compute. reflexivity.
  - vm_compute. reflexivity.
Qed.
