(** * C_ScaledText: properties C117 and C118: decimal texts and decimal literals of scaled values. *)
From Coq Require Import String Reals Psatz.
From Flocq Require Import Core BinarySingleNaN.
From Verif Require C_Accuracy.
From Verif Require Import Py P_List M_Util M_Float M_Suns M_Point S_Scale S_Accuracy S_FloatText M_FloatText P_Float P_Scale P_Accuracy P_FloatText.
Local Open Scope Z_scope.

Lemma set_text pow t sf s f : sf <> 0 -> py_float s = Some f -> value_setter (py_env pow) t (VInt sf) (VStr s) = value_setter (py_env pow) t (VInt sf) (VFlt f).
Proof. intros H0 HF. unfold value_setter. cbn [sf_truthy to_float float_parse py_env]. rewrite HF. rewrite (proj2 (Z.eqb_neq sf 0)) by exact H0. reflexivity. Qed.
Lemma zero_text s : decimal_text (py_repr (S754_zero s)) s 0.
Proof.
  assert (H : denotes [48; 48] 0) by exact (denotes_zeros 2). replace 0%R with (IZR 0 * ten (0 - Z.of_nat (length [48])))%R by ring.
  destruct s; [exact (dec_text [] [45] true [48] [46; 48] [48] [] 0 [] 0 ltac:(constructor) ltac:(constructor) sg_minus (fr_some [48]) ex_none H ltac:(discriminate))|
               exact (dec_text [] [] false [48] [46; 48] [48] [] 0 [] 0 ltac:(constructor) ltac:(constructor) sg_none (fr_some [48]) ex_none H ltac:(discriminate))].
Qed.

(** ** C117 *)
(** A decimal text of k * 10^sf, however it is written, assigned to a point with scale factor sf, stores exactly k. *)
Theorem C117_text_stored : forall pow sf t s v ty k, accurate_pow (py_env pow) -> -300 <= sf <= 280 -> sf <> 0 -> Z.abs k <= 2 ^ 47 ->
  decimal_text t s v -> cond_Ropp s v = (IZR k * ten sf)%R -> value_setter (py_env pow) ty (VInt sf) (VStr t) = Ok (VInt k).
Proof.
  intros pow sf t s v ty k HA Hsf H0 Hk HT HV. destruct (float_read t s v HT) as (f & EF & (HVB & HS & HR)). rewrite (set_text _ _ _ _ _ H0 EF).
  assert (HAV : (Rabs v = Rabs (IZR k) * ten sf)%R) by (rewrite <- (abs_cond_Ropp s v), HV, Rabs_mult, (Rabs_pos_eq (ten sf)); [reflexivity|pose proof (ten_pos sf); lra]).
  pose proof u_small as Hu. destruct (ten_bounds sf Hsf) as [B1 B2]. rewrite nearest_rnd in HR.
  assert (HE : exists eps, (Rabs eps <= u)%R /\ rnd64 v = (v * (1 + eps))%R).
  { destruct (Z.eq_dec k 0) as [->|Hk0].
    - rewrite Rabs_R0, Rmult_0_l in HAV. assert (v = 0)%R by (destruct (Req_dec v 0) as [E|E]; [exact E|apply Rabs_no_R0 in E; lra]). subst v. exists 0%R. rewrite Rabs_R0, round_0 by auto with typeclass_instances. split; [lra|ring].
    - apply rel_err. rewrite HAV. assert (1 <= Rabs (IZR k))%R by (rewrite <- abs_IZR; apply IZR_le; lia).
      apply Rle_trans with (1 * bpow radix2 (-1000))%R; [rewrite Rmult_1_l; apply bpow_le; lia|]. apply Rmult_le_compat; try lra. apply bpow_ge_0. }
  destruct HE as (eps & He & ER). assert (He' := Rabs_le_inv _ _ He).
  assert (Hkb : (Rabs (IZR k) <= bpow radix2 47)%R) by (rewrite <- abs_IZR, <- (IZR_Zpower radix2) by lia; apply IZR_le; exact Hk).
  assert (HB : (rnd64 v < bpow radix2 1024)%R).
  { eapply Rle_lt_trans; [apply Rle_abs|]. rewrite ER, Rabs_mult, (Rabs_pos_eq (1 + eps)), HAV by lra.
    apply Rle_lt_trans with (bpow radix2 47 * bpow radix2 932 * 2)%R.
    - pose proof (Rabs_pos (IZR k)). pose proof (ten_pos sf). apply Rmult_le_compat; try lra; [apply Rmult_le_pos; lra|]. apply Rmult_le_compat; lra.
    - change 2%R with (bpow radix2 1). rewrite <- !bpow_plus. apply bpow_lt. lia. }
  destruct HR as [(_ & HF & HX)|(HC & _)]; [|lra]. apply decimal_stored; auto. rewrite HX, ER.
  assert (EX : cond_Ropp s (v * (1 + eps)) = (IZR k * ten sf * (1 + eps))%R) by (rewrite <- HV; destruct s; cbn [cond_Ropp]; ring). rewrite EX.
  unfold within_rel. replace (IZR k * ten sf * (1 + eps) - IZR k * ten sf)%R with (eps * (IZR k * ten sf))%R by ring. rewrite Rabs_mult. apply Rmult_le_compat_r; [apply Rabs_pos|]. rewrite u8. lra.
Qed.
Print Assumptions C117_text_stored.
(** The text of the value of a scaled point is a decimal text of n * 10^sf, to 49 bits; for registers of up to 50 bits, assigning this text again stores n. *)
Theorem C117_shown_text : forall pow sf n, accurate_pow (py_env pow) -> -300 <= sf <= 280 -> sf <> 0 -> Z.abs n <= 2 ^ 64 ->
  exists f s v, value_getter (py_env pow) (VInt n) (VInt sf) = Ok (VFlt f) /\ decimal_text (py_repr f) s v /\ within_rel (bpow radix2 (-49)) (cond_Ropp s v) (IZR n * ten sf) /\
    (Z.abs n <= 2 ^ 50 -> forall ty, value_setter (py_env pow) ty (VInt sf) (VStr (py_repr f)) = Ok (VInt n)).
Proof.
  intros pow sf n HA Hsf H0 Hn. destruct (value_read (py_env pow) sf n HA Hsf H0 Hn) as (f & E1 & HV & HF & HR).
  assert (HSET : Z.abs n <= 2 ^ 50 -> forall ty, value_setter (py_env pow) ty (VInt sf) (VStr (py_repr f)) = Ok (VInt n)).
  { intros Hn' ty. rewrite (set_text _ _ _ _ f H0) by (apply text_read; [exact HV|intros ->; discriminate]).
    destruct (C_Accuracy.C115_reassign (py_env pow) sf n ty HA Hsf H0 Hn') as (v & G & S). assert (v = VFlt f) by congruence. now subst v. }
  pose proof u_small as Hu. assert (E49 : bpow radix2 (-49) = (16 * u)%R) by (change 16%R with (bpow radix2 4); rewrite <- bpow_plus; reflexivity).
  exists f. destruct f as [s|s| |s m e]; try discriminate HF.
  - exists s, 0%R. split; [exact E1|]. split; [apply zero_text|]. split; [|exact HSET]. cbn [SF2R] in HR. unfold within_rel in *.
    replace (cond_Ropp s 0) with 0%R by (destruct s; cbn [cond_Ropp]; lra). eapply Rle_trans; [exact HR|]. apply Rmult_le_compat_r; [apply Rabs_pos|]. rewrite E49. lra.
  - destruct (shortest_text m e s HV) as (v & HT & (_ & _ & HX)). exists s, v. split; [exact E1|]. split; [exact HT|]. split; [|exact HSET].
    destruct HX as [(_ & _ & HX)|(_ & HX)]; [|discriminate]. rewrite nearest_rnd in HX. set (x := SF2R radix2 (S754_finite s m e)) in *. set (N := (IZR n * ten sf)%R) in *.
    assert (Hx0 : (x <> 0)%R) by (unfold x; cbn [SF2R]; rewrite F2R_cond_Zopp; destruct s; cbn [cond_Ropp]; [apply Ropp_neq_0_compat|]; apply Rgt_not_eq, F2R_gt_0; reflexivity).
    unfold within_rel in *. assert (HN0 : (N <> 0)%R).
    { intros E. rewrite E, Rminus_0_r, Rabs_R0, Rmult_0_r in HR. apply Rabs_no_R0 in Hx0. pose proof (Rabs_pos x). lra. }
    assert (Hnz : n <> 0) by (intros ->; apply HN0; unfold N; ring).
    assert (HNb : (bpow radix2 (-1000) <= Rabs N)%R).
    { unfold N. rewrite Rabs_mult, (Rabs_pos_eq (ten sf)) by (pose proof (ten_pos sf); lra). destruct (ten_bounds sf Hsf) as [B1 _].
      assert (1 <= Rabs (IZR n))%R by (rewrite <- abs_IZR; apply IZR_le; lia). rewrite <- (Rmult_1_l (bpow radix2 (-1000))). apply Rmult_le_compat; try lra. apply bpow_ge_0. }
    assert (HXN : (Rabs x <= 2 * Rabs N /\ Rabs N <= 2 * Rabs x)%R).
    { pose proof (Rabs_triang (x - N) N) as T1. replace (x - N + N)%R with x in T1 by ring. pose proof (Rabs_triang (N - x) x) as T2. replace (N - x + x)%R with N in T2 by ring. rewrite (Rabs_minus_sym N x) in T2. pose proof (Rabs_pos N). nra. }
    (* the decimal is within half a unit of x *)
    set (w := cond_Ropp s v). assert (Ew : rnd64 w = x) by (rewrite HX; unfold w; destruct s; cbn [cond_Ropp]; [apply round_NE_opp|reflexivity]).
    pose proof (error_le_half_ulp_round radix2 fexp64 (fun z => negb (Z.even z)) w) as HE. rewrite Ew in HE.
    assert (HU : (ulp radix2 fexp64 x <= Rabs x * bpow radix2 (1 - 53))%R).
    { apply (ulp_FLT_le radix2 (-1074) 53). apply Rle_trans with (bpow radix2 (-1000) / 2)%R; [|lra]. replace (bpow radix2 (-1000) / 2)%R with (bpow radix2 (-1000) * bpow radix2 (-1))%R by (change (bpow radix2 (-1)) with (/ 2)%R; reflexivity).
      rewrite <- bpow_plus. apply bpow_le. lia. }
    change (1 - 53) with (-52) in HU. rewrite u2 in HU.
    assert (HW : (Rabs (w - x) <= u * Rabs x)%R) by (rewrite Rabs_minus_sym; lra).
    replace (w - N)%R with ((w - x) + (x - N))%R by ring. eapply Rle_trans; [apply Rabs_triang|]. rewrite E49. pose proof (Rabs_pos N). nra.
Qed.
Print Assumptions C117_shown_text.
(** Different register values of up to 50 bits are shown as different texts. *)
Theorem C117_texts_differ : forall pow sf n n' f f', accurate_pow (py_env pow) -> -300 <= sf <= 280 -> sf <> 0 -> Z.abs n <= 2 ^ 50 -> Z.abs n' <= 2 ^ 50 ->
  value_getter (py_env pow) (VInt n) (VInt sf) = Ok (VFlt f) -> value_getter (py_env pow) (VInt n') (VInt sf) = Ok (VFlt f') -> py_repr f = py_repr f' -> n = n'.
Proof.
  intros pow sf n n' f f' HA Hsf H0 Hn Hn' E1 E2 E.
  destruct (C117_shown_text pow sf n HA Hsf H0 ltac:(lia)) as (g & _ & _ & G1 & _ & _ & G2). destruct (C117_shown_text pow sf n' HA Hsf H0 ltac:(lia)) as (g' & _ & _ & G1' & _ & _ & G2').
  assert (g = f) by congruence. assert (g' = f') by congruence. subst. specialize (G2 Hn Tint64). specialize (G2' Hn' Tint64). rewrite E in G2. congruence.
Qed.
Print Assumptions C117_texts_differ.

Definition near_env : pyenv := py_env near_pow.
Example C117_ex_accurate : accurate_pow near_env.
Proof. exact near_pow_accurate. Qed.
Example C117_ex : map (fun t => value_setter near_env Tint16 (VInt (-2)) (VStr (lit t))) ["12.34"; " +1.234e1 "; "-0.05"; "7"; "0"; "12.345"; "12,3"]%string =
  [Ok (VInt 1234); Ok (VInt 1234); Ok (VInt (-5)); Ok (VInt 700); Ok (VInt 0); Ok (VInt 1234); Raise EValue].
Proof. vm_compute. reflexivity. Qed.

(** ** C118 *)
(** REFUTED: register 3 with scale factor -1 is not 0.3: with the math.pow(10, -1) every C library gives (the float 0.1) its value is
    0.30000000000000004 *)
Theorem C118_negative_scale_refuted : forall pow, pow (-1) = Ok (S754_finite false 7205759403792794 (-56)) ->
  py_float (lit "0.1"%string) = Some (S754_finite false 7205759403792794 (-56)) /\
  exists f, value_getter (py_env pow) (VInt 3) (VInt (-1)) = Ok (VFlt f) /\ py_repr f = lit "0.30000000000000004"%string /\ py_float (lit "0.3"%string) <> Some f.
Proof.
  intros pow HP. split; [vm_compute; reflexivity|]. exists (S754_finite false 5404319552844596 (-54)). split.
  - unfold value_getter. cbn [sf_truthy math_pow10 pow10 py_env]. change (negb (-1 =? 0)) with true. cbv iota. rewrite HP. vm_compute. reflexivity.
  - split; [vm_compute; reflexivity|]. vm_compute. discriminate.
Qed.
Print Assumptions C118_negative_scale_refuted.
(** With a positive scale factor whose power of ten is exact (up to 22, the largest power of ten that is a float), it is the float nearest
    to n * 10^sf: the one a decimal text of this number is read as. *)
Theorem C118_positive_scale_partial : forall pow sf n p, sf <> 0 -> pow sf = Ok p -> SpecFloat.valid_binary 53 1024 p = true -> is_finite_SF p = true -> SF2R radix2 p = ten sf ->
  0 < sf <= 22 -> Z.abs n <= 2 ^ 53 -> n <> 0 ->
  exists f, value_getter (py_env pow) (VInt n) (VInt sf) = Ok (VFlt f) /\
    forall t s v, decimal_text t s v -> cond_Ropp s v = (IZR n * ten sf)%R -> (0 <= v)%R -> py_float t = Some f.
Proof.
  intros pow sf n p H0 HP HV HF HX Hsf Hn Hn0. destruct (valid_float p HV) as (b & ->). rewrite SF2R_B2SF in HX. rewrite is_finite_SF_B2SF in HF.
  destruct (float_of_int_exact n Hn) as (x & Ex & Rx & Fx).
  exists (fmul (B2SF x) (B2SF b)). split.
  { unfold value_getter. cbn [sf_truthy math_pow10 pow10 py_env]. rewrite (proj2 (Z.eqb_neq sf 0)) by exact H0. cbn [negb]. rewrite HP. cbn [bind]. rewrite Ex. reflexivity. }
  intros t s v HT HS Hv. destruct (float_read t s v HT) as (g & EG & HG). rewrite EG. f_equal.
  pose proof (ten_pos sf) as HT0. assert (Hxb : (B2R x * B2R b = cond_Ropp s v)%R) by (rewrite Rx, HX, HS; reflexivity).
  assert (Hvp : (0 < v)%R). { destruct Hv as [Hv|Hv]; [exact Hv|]. subst v. exfalso. assert (cond_Ropp s 0 = 0)%R as EZ by (destruct s; cbn [cond_Ropp]; lra). rewrite EZ in HS. symmetry in HS. apply Rmult_integral in HS as [HS|HS]; [apply (eq_IZR n 0) in HS; lia|lra]. }
  unfold fmul. rewrite (sf_mul 53 1024 _ _ x b). apply (rounds_to_eq s v); [exact HG|].
  pose proof (Bmult_correct 53 1024 P53 L53 mode_NE x b) as HM. change (round_mode mode_NE) with ZnearestE in HM. rewrite Hxb in HM.
  assert (HRE : rnd64 (cond_Ropp s v) = cond_Ropp s (rnd64 v)) by (destruct s; cbn [cond_Ropp]; [apply round_NE_opp|reflexivity]).
  assert (HLT : (rnd64 v < bpow radix2 1024)%R).
  { apply Rle_lt_trans with (bpow radix2 1000); [|apply bpow_lt; lia]. apply round_le_generic; [apply V64|auto with typeclass_instances|apply generic_format_bpow; unfold SpecFloat.fexp, SpecFloat.emin; lia|].
    assert (EA : v = (Rabs (IZR n) * ten sf)%R) by (rewrite <- (Rabs_pos_eq v), <- (abs_cond_Ropp s v), HS, Rabs_mult, (Rabs_pos_eq (ten sf)) by lra; reflexivity).
    rewrite EA. apply Rle_trans with (bpow radix2 53 * bpow radix2 932)%R; [|rewrite <- bpow_plus; apply bpow_le; lia].
    destruct (ten_bounds sf ltac:(lia)) as [_ B2]. apply Rmult_le_compat; [apply Rabs_pos|lra| |exact B2]. rewrite <- abs_IZR, <- (IZR_Zpower radix2) by lia. apply IZR_le. exact Hn. }
  assert (H0r : (0 <= rnd64 v)%R) by (apply round_ge_generic; [apply V64|auto with typeclass_instances|apply generic_format_0|lra]).
  rewrite HRE, abs_cond_Ropp, Rabs_pos_eq in HM by exact H0r. rewrite Rlt_bool_true in HM by exact HLT. destruct HM as (M1 & M2 & M3).
  rewrite Fx, HF in M2. cbn [andb] in M2.
  split; [apply valid_binary_B2SF|]. split.
  - assert (HNN : is_nan (Bmult mode_NE x b) = false) by (destruct (Bmult mode_NE x b); [reflexivity..|discriminate|reflexivity]). specialize (M3 HNN).
    assert (ES : sign_SF (B2SF (Bmult mode_NE x b)) = Bsign (Bmult mode_NE x b)) by (destruct (Bmult mode_NE x b); reflexivity). rewrite ES, M3.
    assert (Sx : Bsign x = s).
    { clear - Rx HS Hvp HT0 Fx. destruct x as [sx|sx| |sx mx ex Hx]; try discriminate Fx.
      - exfalso. cbn in Rx. rewrite <- Rx, Rmult_0_l in HS. destruct s; cbn [cond_Ropp] in HS; lra.
      - cbn [B2R] in Rx. rewrite F2R_cond_Zopp in Rx. assert (0 < F2R (Float radix2 (Z.pos mx) ex))%R by (apply F2R_gt_0; reflexivity). rewrite <- Rx in HS. destruct sx, s; cbn [cond_Ropp Bsign] in *; try reflexivity; exfalso; nra. }
    assert (Sb : Bsign b = false).
    { clear - HX HT0 HF. destruct b as [sb|sb| |sb mb eb Hb]; try discriminate HF.
      - exfalso. cbn in HX. lra.
      - cbn [B2R] in HX. rewrite F2R_cond_Zopp in HX. assert (0 < F2R (Float radix2 (Z.pos mb) eb))%R by (apply F2R_gt_0; reflexivity). destruct sb; cbn [cond_Ropp Bsign] in *; [exfalso; lra|reflexivity]. }
    rewrite Sx, Sb. destruct s; reflexivity.
  - left. rewrite nearest_rnd, is_finite_SF_B2SF, SF2R_B2SF. auto.
Qed.
Print Assumptions C118_positive_scale_partial.
(** ... and in general it is that number to 50 bits (C115). *)
Theorem C118_close_partial : forall pow sf n t s v f, accurate_pow (py_env pow) -> -300 <= sf <= 280 -> sf <> 0 -> Z.abs n <= 2 ^ 47 ->
  decimal_text t s v -> cond_Ropp s v = (IZR n * ten sf)%R -> value_getter (py_env pow) (VInt n) (VInt sf) = Ok (VFlt f) ->
  within_rel (bpow radix2 (-50)) (SF2R radix2 f) (IZR n * ten sf) /\
  forall ty, value_setter (py_env pow) ty (VInt sf) (VStr t) = value_setter (py_env pow) ty (VInt sf) (VFlt f).
Proof.
  intros pow sf n t s v f HA Hsf H0 Hn HT HV E. destruct (C_Accuracy.C115_value_read (py_env pow) sf n HA Hsf H0 ltac:(lia)) as (g & E1 & _ & E2). assert (g = f) by congruence. subst g.
  split; [exact E2|]. intros ty. rewrite (C117_text_stored pow sf t s v ty n HA Hsf H0 Hn HT HV).
  destruct (C_Accuracy.C115_reassign (py_env pow) sf n ty HA Hsf H0 ltac:(lia)) as (w & W1 & W2). assert (w = VFlt f) by congruence. subst w. now rewrite W2.
Qed.
Print Assumptions C118_close_partial.
Example C118_ex : near_pow (-1) = Ok (S754_finite false 7205759403792794 (-56)) /\ near_pow 3 = Ok (S754_finite false 8796093022208000 (-43)) /\
  value_getter near_env (VInt (-12)) (VInt 3) = match py_float (lit "-12000"%string) with Some f => Ok (VFlt f) | None => Raise EType end.
Proof. vm_compute. auto. Qed.
Example C118_exact_power : SF2R radix2 (S754_finite false 8796093022208000 (-43)) = ten 3 /\ SpecFloat.valid_binary 53 1024 (S754_finite false 8796093022208000 (-43)) = true.
Proof.
  split; [|vm_compute; reflexivity]. rewrite ten_IZR by lia. change (10 ^ 3) with 1000. unfold SF2R, F2R. cbn [cond_Zopp Fnum Fexp]. change (bpow radix2 (-43)) with (/ IZR 8796093022208)%R. lra.
Qed.
