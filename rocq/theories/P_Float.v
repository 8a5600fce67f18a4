(** * P_Float: the float codecs (C07), through Flocq. *)
From Coq Require Import String Reals Psatz.
From Flocq Require Import Core BinarySingleNaN.
From Verif Require Import Py P_List M_Util M_Float M_Suns S_Codec P_Codec.
From Coq Require Import ZifyBool.
Local Open Scope Z_scope.

(** ** Coq's [SpecFloat] operations are Flocq's (round to nearest even) *)
Section Equiv.
  Variable prec emax : Z.
  Context (Hprec : Prec_gt_0 prec).
  Context (Hmax : Prec_lt_emax prec emax).

  Lemma sf_round_nearest_even s m l :
    SpecFloat.round_nearest_even m l = choice_mode mode_NE s m l.
  Proof.
    case l; [reflexivity|intro c]. case c; [ | reflexivity..].
    now simpl; unfold Round.cond_incr; case Z.even.
  Qed.
  Lemma sf_binary_round_aux sx mx ex lx :
    SpecFloat.binary_round_aux prec emax sx mx ex lx
    = BinarySingleNaN.binary_round_aux prec emax mode_NE sx mx ex lx.
  Proof.
    unfold SpecFloat.binary_round_aux, BinarySingleNaN.binary_round_aux.
    set (mrse' := SpecFloat.shr_fexp _ _ _ _ _).
    case mrse'; intros mrs' e'; simpl.
    now rewrite (sf_round_nearest_even sx).
  Qed.
  Lemma sf_binary_round s m e :
    SpecFloat.binary_round prec emax s m e = BinarySingleNaN.binary_round prec emax mode_NE s m e.
  Proof.
    unfold SpecFloat.binary_round, BinarySingleNaN.binary_round, shl_align_fexp.
    set (mez := SpecFloat.shl_align _ _ _); case mez as [mz ez].
    apply sf_binary_round_aux.
  Qed.
  Lemma sf_binary_normalize m e szero :
    SpecFloat.binary_normalize prec emax m e szero
    = B2SF (BinarySingleNaN.binary_normalize prec emax Hprec Hmax mode_NE m e szero).
  Proof.
    case m as [ | p | p].
    - now simpl.
    - simpl; rewrite B2SF_SF2B; apply sf_binary_round.
    - simpl; rewrite B2SF_SF2B; apply sf_binary_round.
  Qed.
  Lemma sf_mul (x y : binary_float prec emax) :
    SFmul prec emax (B2SF x) (B2SF y) = B2SF (Bmult mode_NE x y).
  Proof.
    case x as [sx|sx| |sx mx ex Bx]; case y as [sy|sy| |sy my ey By]; [now trivial.. | ].
    simpl. rewrite B2SF_SF2B. apply sf_binary_round_aux.
  Qed.
  Lemma sf_div (x y : binary_float prec emax) :
    SFdiv prec emax (B2SF x) (B2SF y) = B2SF (Bdiv mode_NE x y).
  Proof.
    case x as [sx|sx| |sx mx ex Bx]; case y as [sy|sy| |sy my ey By]; [now trivial.. | ].
    simpl. rewrite B2SF_SF2B.
    set (melz := SFdiv_core_binary _ _ _ _ _ _). case melz as [[mz ez] lz].
    apply sf_binary_round_aux.
  Qed.

  (** a representable number is normalised exactly *)
  Lemma sf_normalize_exact s m e :
    let x := F2R (Float radix2 (cond_Zopp s (Zpos m)) e) in
    generic_format radix2 (SpecFloat.fexp prec emax) x -> (Rabs x < bpow radix2 emax)%R ->
    exists b : binary_float prec emax,
      SpecFloat.binary_normalize prec emax (cond_Zopp s (Zpos m)) e s = B2SF b /\
      B2R b = x /\ is_finite b = true /\ Bsign b = s.
  Proof.
    intros x Hg Hl. rewrite sf_binary_normalize.
    eexists; split; [reflexivity|].
    pose proof (binary_normalize_correct prec emax Hprec Hmax mode_NE (cond_Zopp s (Zpos m)) e s) as H.
    cbv zeta in H. fold x in H. rewrite round_generic in H by (auto with typeclass_instances).
    rewrite Rlt_bool_true in H by exact Hl. destruct H as (H1 & H2 & H3).
    split; [exact H1|]. split; [exact H2|]. rewrite H3. unfold x.
    destruct s; cbn [cond_Zopp].
    - rewrite Rcompare_Lt; [reflexivity|]. apply F2R_lt_0. cbn. lia.
    - rewrite Rcompare_Gt; [reflexivity|]. apply F2R_gt_0. cbn. lia.
  Qed.
End Equiv.

Global Instance P53 : Prec_gt_0 53. Proof. reflexivity. Qed.
Global Instance P24 : Prec_gt_0 24. Proof. reflexivity. Qed.
Global Instance L53 : Prec_lt_emax 53 1024. Proof. reflexivity. Qed.
Global Instance L24 : Prec_lt_emax 24 128. Proof. reflexivity. Qed.
Notation b64 := (binary_float 53 1024).
Notation b32 := (binary_float 24 128).

(** every binary32 number is a binary64 number *)
Lemma b32_in_b64 (b : b32) :
  generic_format radix2 (SpecFloat.fexp 53 1024) (B2R b) /\ (Rabs (B2R b) < bpow radix2 1024)%R.
Proof.
  split.
  - pose proof (FLT_format_B2R 24 128 P24 b) as H. destruct H as [f Hf Hm He].
    apply generic_format_FLT. exists f; auto.
    + eapply Z.lt_le_trans; [exact Hm|]. apply Zpower_le; lia.
    + eapply Z.le_trans; [|exact He]. unfold SpecFloat.emin; lia.
  - eapply Rlt_le_trans; [apply abs_B2R_lt_emax|]. apply bpow_le; lia.
Qed.

Lemma to_double_single s m e :
  SpecFloat.bounded 24 128 m e = true ->
  exists m' e', to_double (S754_finite s m e) = S754_finite s m' e' /\
    SpecFloat.bounded 53 1024 m' e' = true /\
    F2R (Float radix2 (Zpos m') e') = F2R (Float radix2 (Zpos m) e) /\
    to_single (S754_finite s m' e') = S754_finite s m e.
Proof.
  intros HB. set (b := B754_finite s m e HB : b32).
  destruct (b32_in_b64 b) as [Hg Hl].
  destruct (sf_normalize_exact 53 1024 _ _ s m e Hg Hl) as (g & H1 & H2 & H3 & H4).
  cbn [to_double]. unfold f64_of. change (if s then - Z.pos m else Z.pos m) with (cond_Zopp s (Zpos m)).
  rewrite H1.
  assert (Hnz : (B2R g <> 0)%R).
  { rewrite H2. destruct s; cbn [cond_Zopp].
    - apply Rlt_not_eq, F2R_lt_0. cbn; lia.
    - apply Rgt_not_eq, F2R_gt_0. cbn; lia. }
  destruct g as [sg|sg| |sg mg eg Bg]; try (cbn in Hnz; congruence).
  cbn in H4. subst sg. exists mg, eg. cbn [B2SF]. split; [reflexivity|]. split; [exact Bg|].
  assert (H2' : F2R (Float radix2 (cond_Zopp s (Zpos mg)) eg) = F2R (Float radix2 (cond_Zopp s (Zpos m)) e))
    by exact H2.
  split.
  - destruct s; cbn [cond_Zopp] in H2'; [|exact H2'].
    rewrite (F2R_Zopp radix2 (Z.pos mg)), (F2R_Zopp radix2 (Z.pos m)) in H2'. lra.
  - cbn [to_single]. unfold f32_of.
    change (if s then - Z.pos mg else Z.pos mg) with (cond_Zopp s (Zpos mg)).
    assert (Hg' : generic_format radix2 (SpecFloat.fexp 24 128) (F2R (Float radix2 (cond_Zopp s (Zpos mg)) eg))).
    { rewrite H2'. apply (generic_format_B2R 24 128 b). }
    assert (Hl' : (Rabs (F2R (Float radix2 (cond_Zopp s (Zpos mg)) eg)) < bpow radix2 128)%R).
    { rewrite H2'. apply (abs_B2R_lt_emax 24 128 b). }
    destruct (sf_normalize_exact 24 128 _ _ s mg eg Hg' Hl') as (h & K1 & K2 & K3 & K4).
    rewrite K1. change (S754_finite s m e) with (B2SF b). f_equal.
    apply B2R_Bsign_inj; auto. rewrite K2, H2'. reflexivity.
Qed.

(** ** bit patterns *)
Lemma split_bits_join mw ew x :
  0 < mw -> 0 < ew -> 0 <= x < 2 ^ (mw + ew + 1) ->
  x = (if 2 ^ (mw + ew) <=? x then 2 ^ (mw + ew) else 0) + (x / 2 ^ mw) mod 2 ^ ew * 2 ^ mw + x mod 2 ^ mw.
Proof.
  intros Hm He Hx.
  assert (0 < 2 ^ mw) by (apply Z.pow_pos_nonneg; lia).
  assert (0 < 2 ^ ew) by (apply Z.pow_pos_nonneg; lia).
  pose proof (Z.div_mod x (2 ^ mw) ltac:(lia)).
  pose proof (Z.div_mod (x / 2 ^ mw) (2 ^ ew) ltac:(lia)).
  rewrite Z.div_div in H2 by lia. rewrite <- Z.pow_add_r in H2 by lia.
  assert (Hq : x / 2 ^ (mw + ew) = if 2 ^ (mw + ew) <=? x then 1 else 0).
  { replace (mw + ew + 1) with (Z.succ (mw + ew)) in Hx by lia.
    rewrite Z.pow_succ_r in Hx by lia. destruct (Z.leb_spec (2 ^ (mw + ew)) x).
    - symmetry. apply Z.div_unique with (r := x - 2 ^ (mw + ew)); lia.
    - apply Z.div_small; lia. }
  rewrite Hq in H2. rewrite Z.pow_add_r in * by lia.
  destruct (2 ^ mw * 2 ^ ew <=? x); nia.
Qed.

Lemma digits2_bounds p : 2 ^ (Zpos (digits2_pos p) - 1) <= Zpos p < 2 ^ Zpos (digits2_pos p).
Proof.
  pose proof (Digits.Zdigits_correct radix2 (Zpos p)) as H.
  rewrite <- (Zdigits2_Zdigits (Zpos p)) in H. cbn [SpecFloat.Zdigits2 Z.abs] in H.
  exact H.
Qed.

Section Bits.
  Variables mw ew : Z.
  Hypothesis Hmw : 1 < mw.
  Hypothesis Hew : 1 < ew.
  Hypothesis Hlt : mw + 1 < 2 ^ (ew - 1).
  Let prec := mw + 1.
  Let emax := 2 ^ (ew - 1).

  Lemma two_ew : 2 ^ ew = 2 * emax.
  Proof. unfold emax. rewrite <- Z.pow_succ_r by lia. f_equal; lia. Qed.

  Lemma float_of_bits_valid x : 0 <= x < 2 ^ (mw + ew + 1) ->
    SpecFloat.valid_binary prec emax (float_of_bits mw ew x) = true.
  Proof.
    intros Hx. unfold float_of_bits, split_bits.
    assert (0 < 2 ^ mw) by (apply Z.pow_pos_nonneg; lia).
    assert (0 < 2 ^ ew) by (apply Z.pow_pos_nonneg; lia).
    pose proof (Z.mod_pos_bound x (2 ^ mw) H). pose proof (Z.mod_pos_bound (x / 2 ^ mw) (2 ^ ew) H0).
    set (m := x mod 2 ^ mw) in *. set (e := (x / 2 ^ mw) mod 2 ^ ew) in *.
    pose proof two_ew as HT.
    destruct (Z.eqb_spec e 0) as [He|He].
    - destruct m as [|p|p]; try reflexivity. cbn [SpecFloat.valid_binary].
      unfold SpecFloat.bounded, SpecFloat.canonical_mantissa, SpecFloat.fexp, SpecFloat.emin, prec, emax in *.
      pose proof (digits2_bounds p) as HD.
      assert (Zpos (digits2_pos p) <= mw).
      { destruct (Z_le_gt_dec (Zpos (digits2_pos p)) mw); auto. exfalso.
        assert (2 ^ mw <= 2 ^ (Zpos (digits2_pos p) - 1)) by (apply Z.pow_le_mono_r; lia). lia. }
      apply andb_true_intro; split; [apply Zeq_is_eq_bool|]; lia.
    - destruct (Z.eqb_spec e (2 ^ ew - 1)) as [He'|He'].
      + destruct (m =? 0); reflexivity.
      + destruct (m + 2 ^ mw) as [|p|p] eqn:Ep; try reflexivity. cbn [SpecFloat.valid_binary].
        unfold SpecFloat.bounded, SpecFloat.canonical_mantissa, SpecFloat.fexp, SpecFloat.emin, prec, emax in *.
        pose proof (digits2_bounds p) as HD.
        assert (Zpos (digits2_pos p) = mw + 1).
        { assert (2 ^ (mw + 1) = 2 * 2 ^ mw) by (replace (mw + 1) with (Z.succ mw) by lia; apply Z.pow_succ_r; lia).
          destruct (Z_lt_ge_dec (Zpos (digits2_pos p)) (mw + 1)).
          - exfalso. assert (2 ^ Zpos (digits2_pos p) <= 2 ^ mw) by (apply Z.pow_le_mono_r; lia). lia.
          - destruct (Z_le_gt_dec (Zpos (digits2_pos p)) (mw + 1)); [lia|]. exfalso.
            assert (2 ^ (mw + 1) <= 2 ^ (Zpos (digits2_pos p) - 1)) by (apply Z.pow_le_mono_r; lia). lia. }
        apply andb_true_intro; split; [apply Zeq_is_eq_bool|]; lia.
  Qed.

  Lemma float_of_bits_nan x :
    (float_of_bits mw ew x = S754_nan <-> nan_bits mw ew x).
  Proof.
    unfold float_of_bits, split_bits, nan_bits.
    assert (0 < 2 ^ mw) by (apply Z.pow_pos_nonneg; lia).
    assert (1 < 2 ^ ew) by (change 1 with (2 ^ 0); apply Z.pow_lt_mono_r; lia).
    pose proof (Z.mod_pos_bound x (2 ^ mw) H).
    set (m := x mod 2 ^ mw) in *. set (e := (x / 2 ^ mw) mod 2 ^ ew) in *.
    destruct (Z.eqb_spec e 0) as [He|He].
    - split; [|lia]. destruct m; discriminate.
    - destruct (Z.eqb_spec e (2 ^ ew - 1)) as [He'|He'].
      + destruct (Z.eqb_spec m 0); split; auto; [discriminate|tauto].
      + split; [|tauto]. destruct (m + 2 ^ mw) eqn:E; [lia|discriminate|lia].
  Qed.

  Lemma bits_of_float_of_bits x : 0 <= x < 2 ^ (mw + ew + 1) -> ~ nan_bits mw ew x ->
    bits_of_float mw ew (float_of_bits mw ew x) = x.
  Proof.
    intros Hx Hn. unfold nan_bits in Hn.
    pose proof (split_bits_join mw ew x ltac:(lia) ltac:(lia) Hx) as HJ.
    unfold float_of_bits, split_bits.
    assert (0 < 2 ^ mw) by (apply Z.pow_pos_nonneg; lia).
    assert (0 < 2 ^ ew) by (apply Z.pow_pos_nonneg; lia).
    pose proof (Z.mod_pos_bound x (2 ^ mw) H). pose proof (Z.mod_pos_bound (x / 2 ^ mw) (2 ^ ew) H0).
    set (m := x mod 2 ^ mw) in *. set (e := (x / 2 ^ mw) mod 2 ^ ew) in *.
    destruct (Z.eqb_spec e 0) as [He|He].
    - destruct m as [|p|p] eqn:Em; [| |lia]; cbn [bits_of_float].
      + rewrite HJ at 2. lia.
      + destruct (Z.ltb_spec (Zpos p) (2 ^ mw)); [|lia]. rewrite HJ at 2. lia.
    - destruct (Z.eqb_spec e (2 ^ ew - 1)) as [He'|He'].
      + destruct (Z.eqb_spec m 0); [|exfalso; tauto]. cbn [bits_of_float].
        rewrite HJ at 2. rewrite <- He'. lia.
      + destruct (m + 2 ^ mw) as [|p|p] eqn:Ep; [lia| |lia]. cbn [bits_of_float].
        destruct (Z.ltb_spec (Zpos p) (2 ^ mw)); [lia|].
        rewrite HJ at 2. rewrite <- Ep.
        replace (e + (3 - 2 ^ (ew - 1) - (mw + 1)) - 1 - (3 - 2 ^ (ew - 1) - (mw + 1)) + 1) with e by lia. lia.
  Qed.
End Bits.

Lemma float32_cases (g : flt) :
  SpecFloat.valid_binary 24 128 g = true -> g <> S754_nan ->
  to_double g <> S754_nan /\ pack_f (to_double g) = Ok (be_bytes 4 (bits_of_float 23 8 g)).
Proof.
  intros HV Hn. destruct g as [s|s| |s m e]; try congruence; try (split; [discriminate|reflexivity]).
  cbn [SpecFloat.valid_binary] in HV.
  destruct (to_double_single s m e HV) as (m' & e' & H1 & _ & _ & H2).
  rewrite H1. split; [discriminate|]. unfold pack_f. rewrite H2. reflexivity.
Qed.

Lemma float32_exact d :
  Forall is_byte d -> zlen d = 4 ->
  (nan_bits 23 8 (positional d) -> data_to_float d = Ok None) /\
  (~ nan_bits 23 8 (positional d) ->
     exists f, data_to_float d = Ok (Some f) /\ f <> S754_nan /\ float_to_data32 f = Ok d).
Proof.
  intros HB HL.
  assert (Hu : unpack_int 4 false d = Ok (positional d)).
  { apply unpack_int_spec; [lia|auto|]. split; [exact HL|]. split; [auto|reflexivity]. }
  pose proof (be_int_bound d HB) as Hb0. rewrite <- positional_be_int, HL in Hb0.
  change (256 ^ 4) with (2 ^ (23 + 8 + 1)) in Hb0.
  unfold data_to_float, unpack_f. rewrite Hu. cbn [bind].
  split; intros Hn.
  - rewrite (proj2 (float_of_bits_nan 23 8 ltac:(lia) ltac:(lia) (positional d))) by exact Hn.
    reflexivity.
  - assert (Hne : float_of_bits 23 8 (positional d) <> S754_nan).
    { rewrite float_of_bits_nan by lia. exact Hn. }
    pose proof (float_of_bits_valid 23 8 ltac:(lia) ltac:(lia) ltac:(reflexivity) _ Hb0) as HV.
    change (23 + 1) with 24 in HV. change (2 ^ (8 - 1)) with 128 in HV.
    destruct (float32_cases _ HV Hne) as [H1 H2].
    exists (to_double (float_of_bits 23 8 (positional d))).
    split; [destruct (to_double _); congruence|]. split; [exact H1|].
    unfold float_to_data32. rewrite H2. rewrite bits_of_float_of_bits by (auto; lia).
    rewrite positional_be_int. f_equal. rewrite <- (be_bytes_be_int d HB) at 2.
    unfold zlen in HL. f_equal. lia.
Qed.

Lemma float32_bad_len d : zlen d <> 4 -> data_to_float d = Raise EStruct.
Proof. intros H. unfold data_to_float, unpack_f. rewrite unpack_int_reject by exact H. reflexivity. Qed.

(** what a float32 register decodes to is a binary64 number *)
Lemma float32_valid d f : Forall is_byte d -> data_to_float d = Ok (Some f) -> SpecFloat.valid_binary 53 1024 f = true.
Proof.
  intros HB HF. destruct (Z.eq_dec (zlen d) 4) as [HL|HL]; [|rewrite float32_bad_len in HF by exact HL; discriminate].
  assert (Hu : unpack_int 4 false d = Ok (positional d)).
  { apply unpack_int_spec; [lia|auto|]. split; [exact HL|]. split; [auto|reflexivity]. }
  pose proof (be_int_bound d HB) as Hb0. rewrite <- positional_be_int, HL in Hb0.
  change (256 ^ 4) with (2 ^ (23 + 8 + 1)) in Hb0.
  pose proof (float_of_bits_valid 23 8 ltac:(lia) ltac:(lia) ltac:(reflexivity) _ Hb0) as HV.
  change (23 + 1) with 24 in HV. change (2 ^ (8 - 1)) with 128 in HV.
  unfold data_to_float, unpack_f in HF. rewrite Hu in HF. cbn [bind] in HF.
  assert (HT : SpecFloat.valid_binary 53 1024 (to_double (float_of_bits 23 8 (positional d))) = true).
  { destruct (float_of_bits 23 8 (positional d)) as [s|s| |s m e]; try reflexivity. destruct (to_double_single s m e HV) as (m' & e' & -> & HB' & _). exact HB'. }
  destruct (to_double _); try discriminate; apply Ok_inj, Some_inj in HF; subst f; exact HT.
Qed.

(** the double format, exactly *)
Lemma float64_exact d :
  Forall is_byte d -> zlen d = 8 ->
  (nan_bits 52 11 (positional d) -> data_to_double d = Ok None) /\
  (~ nan_bits 52 11 (positional d) ->
     exists f, data_to_double d = Ok (Some f) /\ f <> S754_nan /\ float_to_data f = Ok d).
Proof.
  intros HB HL.
  assert (Hu : unpack_int 8 false d = Ok (positional d)).
  { apply unpack_int_spec; [lia|auto|]. split; [exact HL|]. split; [auto|reflexivity]. }
  pose proof (be_int_bound d HB) as Hb0. rewrite <- positional_be_int, HL in Hb0.
  change (256 ^ 8) with (2 ^ (52 + 11 + 1)) in Hb0.
  unfold data_to_double, unpack_d. rewrite Hu. cbn [bind].
  split; intros Hn.
  - rewrite (proj2 (float_of_bits_nan 52 11 ltac:(lia) ltac:(lia) (positional d))) by exact Hn.
    reflexivity.
  - assert (Hne : float_of_bits 52 11 (positional d) <> S754_nan).
    { rewrite float_of_bits_nan by lia. exact Hn. }
    exists (float_of_bits 52 11 (positional d)).
    split; [destruct (float_of_bits _ _ _); congruence|]. split; [exact Hne|].
    unfold float_to_data, pack_d. rewrite bits_of_float_of_bits by (auto; lia).
    rewrite positional_be_int. f_equal. rewrite <- (be_bytes_be_int d HB) at 2.
    unfold zlen in HL. f_equal. lia.
Qed.

(** the real value of a decoded float32 *)
Lemma float32_value d f :
  Forall is_byte d -> zlen d = 4 -> data_to_float d = Ok (Some f) ->
  let x := positional d in
  let m := x mod 2 ^ 23 in
  let e := (x / 2 ^ 23) mod 2 ^ 8 in
  let sgn := if 2 ^ 31 <=? x then (-1)%R else 1%R in
  SF2R radix2 f =
    if e =? 255 then 0%R       (* infinity: SF2R is 0 by convention *)
    else if e =? 0 then (sgn * (IZR m * bpow radix2 (-149)))%R
    else (sgn * (IZR (m + 2 ^ 23) * bpow radix2 (e - 150)))%R.
Proof.
  intros HB HL HF. cbv zeta.
  assert (Hu : unpack_int 4 false d = Ok (positional d)).
  { apply unpack_int_spec; [lia|auto|]. split; [exact HL|]. split; [auto|reflexivity]. }
  pose proof (be_int_bound d HB) as Hb0. rewrite <- positional_be_int, HL in Hb0.
  change (256 ^ 4) with (2 ^ (23 + 8 + 1)) in Hb0.
  unfold data_to_float, unpack_f in HF. rewrite Hu in HF. cbn [bind] in HF.
  pose proof (float_of_bits_valid 23 8 ltac:(lia) ltac:(lia) ltac:(reflexivity) _ Hb0) as HV.
  change (23 + 1) with 24 in HV. change (2 ^ (8 - 1)) with 128 in HV.
  assert (HR : SF2R radix2 (to_double (float_of_bits 23 8 (positional d))) =
               SF2R radix2 (float_of_bits 23 8 (positional d))).
  { destruct (float_of_bits 23 8 (positional d)) as [s|s| |s m e] eqn:E; try reflexivity.
    cbn [SpecFloat.valid_binary] in HV.
    destruct (to_double_single s m e HV) as (m' & e' & H1 & _ & H2 & _).
    rewrite H1. cbn [SF2R]. destruct s; cbn [cond_Zopp]; [|exact H2].
    rewrite (F2R_Zopp radix2 (Z.pos m')), (F2R_Zopp radix2 (Z.pos m)). now rewrite H2. }
  assert (Hf : f = to_double (float_of_bits 23 8 (positional d))).
  { destruct (to_double _); congruence. }
  rewrite Hf, HR. clear HR HF Hf HV. unfold float_of_bits, split_bits.
  change (23 + 8) with 31. change (3 - 2 ^ (8 - 1) - (23 + 1)) with (-149).
  pose proof (Z.mod_pos_bound (positional d) (2 ^ 23) ltac:(lia)).
  set (m := positional d mod 2 ^ 23) in *. set (e := (positional d / 2 ^ 23) mod 2 ^ 8) in *.
  change (2 ^ 8 - 1) with 255.
  assert (Hc : forall (s : bool) p k, F2R (Float radix2 (cond_Zopp s (Zpos p)) k) =
     ((if s then -1 else 1) * (IZR (Zpos p) * bpow radix2 k))%R).
  { intros s p k. destruct s; cbn [cond_Zopp]; rewrite ?F2R_Zopp; unfold F2R; cbn [Fnum Fexp]; lra. }
  destruct (Z.eqb_spec e 0) as [He|He].
  - destruct (Z.eqb_spec e 255); [lia|]. destruct m as [|p|p]; [|apply Hc|lia].
    cbn [SF2R]. rewrite Rmult_0_l, Rmult_0_r. reflexivity.
  - destruct (Z.eqb_spec e 255); [destruct (m =? 0); reflexivity|].
    destruct (m + 2 ^ 23) as [|p|p] eqn:E; [lia| |lia]. cbn [SF2R].
    rewrite Hc. replace (e + -149 - 1) with (e - 150) by lia. reflexivity.
Qed.
