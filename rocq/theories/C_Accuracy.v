(** * C_Accuracy: C115, scaled values are the register values times the power of ten. *)
From Coq Require Import Reals SpecFloat Psatz.
From Flocq Require Import Core BinarySingleNaN.
From Verif Require Import Py P_List M_Util M_Float M_Suns M_Point S_Scale S_Accuracy P_Float P_Scale P_Accuracy.
Local Open Scope Z_scope.

(** The value of a scaled point is the register value times 10^sf, to 50 bits, for registers of up to 64 bits. *)
Theorem C115_value_read : forall E sf n, accurate_pow E -> -300 <= sf <= 280 -> sf <> 0 -> Z.abs n <= 2 ^ 64 ->
  exists f, value_getter E (VInt n) (VInt sf) = Ok (VFlt f) /\ is_finite_SF f = true /\ within_rel (bpow radix2 (-50)) (SF2R radix2 f) (IZR n * ten sf).
Proof.
  intros E sf n HA Hsf H0 Hn. destruct (value_read E sf n HA Hsf H0 Hn) as (f & E1 & _ & E2 & E3). exists f. rewrite u8. auto.
Qed.
(** Without a scale factor, or with scale factor 0, it is the register value. *)
Theorem C115_value_read_unscaled : forall E n, value_getter E (VInt n) VNone = Ok (VInt n) /\ value_getter E (VInt n) (VInt 0) = Ok (VInt n).
Proof. intros. split; reflexivity. Qed.

(** Assigning a float stores an integer within one half of the float divided by 10^sf, to 50 bits. *)
Theorem C115_value_assigned : forall E sf x t, accurate_pow E -> -300 <= sf <= 280 -> sf <> 0 -> SpecFloat.valid_binary 53 1024 x = true -> is_finite_SF x = true ->
  (Rabs (SF2R radix2 x / ten sf) <= bpow radix2 1000)%R ->
  exists k, value_setter E t (VInt sf) (VFlt x) = Ok (VInt k) /\
    (Rabs (IZR k - SF2R radix2 x / ten sf) <= 1 / 2 + bpow radix2 (-50) * Rabs (SF2R radix2 x / ten sf) + bpow radix2 (-1075))%R.
Proof. intros E sf x t HA Hsf H0 HV HF Hq. rewrite u8. now apply value_assigned. Qed.

(** Assigning the float nearest to k * 10^sf, or one near it, stores exactly k: 12.3 with scale factor -1 stores 123. *)
Theorem C115_decimal_stored : forall E sf x t k, accurate_pow E -> -300 <= sf <= 280 -> sf <> 0 -> SpecFloat.valid_binary 53 1024 x = true -> is_finite_SF x = true ->
  Z.abs k <= 2 ^ 47 -> within_rel (bpow radix2 (-50)) (SF2R radix2 x) (IZR k * ten sf) -> value_setter E t (VInt sf) (VFlt x) = Ok (VInt k).
Proof. exact decimal_stored. Qed.
(** Assigning the integer k * 10^sf stores exactly k: 1200 with scale factor 2 stores 12, and 12 with scale factor -1 stores 120. *)
Theorem C115_whole_stored : forall E sf z t k, accurate_pow E -> -300 <= sf <= 280 -> sf <> 0 -> Z.abs k <= 2 ^ 47 -> Z.abs z <= 2 ^ 1000 ->
  IZR z = (IZR k * ten sf)%R -> value_setter E t (VInt sf) (VInt z) = Ok (VInt k).
Proof.
  intros E sf z t k HA Hsf H0 Hk Hz EQ. destruct (float_of_int_near z Hz) as (b & d & Eb & Hf & Hd & Er).
  assert (ES : value_setter E t (VInt sf) (VInt z) = value_setter E t (VInt sf) (VFlt (B2SF b))).
  { unfold value_setter. cbn [sf_truthy to_float]. rewrite Eb. rewrite (proj2 (Z.eqb_neq sf 0)) by exact H0. reflexivity. }
  rewrite ES. apply decimal_stored; auto; [apply valid_binary_B2SF|now rewrite is_finite_SF_B2SF|].
  rewrite SF2R_B2SF, Er, EQ. unfold within_rel. rewrite u8. pose proof u_small.
  replace (IZR k * ten sf * (1 + d) - IZR k * ten sf)%R with (d * (IZR k * ten sf))%R by ring. rewrite Rabs_mult. apply Rmult_le_compat_r; [apply Rabs_pos|lra].
Qed.

(** A value just read, assigned again, stores the same register value, for every such scale factor. *)
Theorem C115_reassign : forall E sf n t, accurate_pow E -> -300 <= sf <= 280 -> sf <> 0 -> Z.abs n <= 2 ^ 50 ->
  exists v, value_getter E (VInt n) (VInt sf) = Ok v /\ value_setter E t (VInt sf) v = Ok (VInt n).
Proof.
  intros E sf n t HA Hsf H0 Hn. destruct (pow_facts E sf HA Hsf) as (p & _ & HE & HG & _). now apply (reassign_same E sf p n t).
Qed.
(** Different register values of up to 50 bits have different values. *)
Theorem C115_values_differ : forall E sf n n' v, accurate_pow E -> -300 <= sf <= 280 -> sf <> 0 -> Z.abs n <= 2 ^ 50 -> Z.abs n' <= 2 ^ 50 ->
  value_getter E (VInt n) (VInt sf) = Ok v -> value_getter E (VInt n') (VInt sf) = Ok v -> n = n'.
Proof.
  intros E sf n n' v HA Hsf H0 Hn Hn' E1 E2. destruct (C115_reassign E sf n Tint64 HA Hsf H0 Hn) as (v1 & G1 & S1). destruct (C115_reassign E sf n' Tint64 HA Hsf H0 Hn') as (v2 & G2 & S2).
  assert (v1 = v) by congruence. assert (v2 = v) by congruence. subst. congruence.
Qed.

(** ** a math.pow that is accurate: one or two correctly rounded operations *)
Definition ex_env : pyenv := {| float_repr := fun _ => []; float_parse := fun _ => None; pow10 := near_pow |}.
Example C115_ex_accurate : accurate_pow ex_env.
Proof. exact near_pow_accurate. Qed.
(** register 123 with scale factor -1 is the float 12.3; assigning it stores 123; 12345 with scale factor 7 is 123450000000.0 *)
Example C115_ex :
  value_getter ex_env (VInt 123) (VInt (-1)) = Ok (VFlt (S754_finite false 6924284427082138 (-49))) /\
  value_setter ex_env Tint16 (VInt (-1)) (VFlt (S754_finite false 6924284427082138 (-49))) = Ok (VInt 123) /\
  value_setter ex_env Tint16 (VInt 2) (VInt 1200) = Ok (VInt 12) /\ value_setter ex_env Tint16 (VInt (-1)) (VInt 12) = Ok (VInt 120).
Proof. vm_compute. repeat split. Qed.
Example C115_ex_decimal : within_rel (bpow radix2 (-50)) (SF2R radix2 (S754_finite false 6924284427082138 (-49))) (IZR 123 * ten (-1)).
Proof.
  assert (ET : ten (-1) = (/ 10)%R) by (unfold ten, powerRZ; change (Pos.to_nat 1) with 1%nat; now rewrite pow_1).
  unfold within_rel. rewrite ET, (Rabs_pos_eq (IZR 123 * / 10)) by lra. unfold SF2R, F2R. cbn [cond_Zopp Fnum Fexp].
  change (bpow radix2 (-49)) with (/ IZR 562949953421312)%R. change (bpow radix2 (-50)) with (/ IZR 1125899906842624)%R. apply Rabs_le. lra.
Qed.

Print Assumptions C115_value_read.
Print Assumptions C115_value_read_unscaled.
Print Assumptions C115_value_assigned.
Print Assumptions C115_decimal_stored.
Print Assumptions C115_whole_stored.
Print Assumptions C115_reassign.
Print Assumptions C115_values_differ.
