(** * C_Assign: property C87 — assigning to an unscaled point (device.py:518-525 and the to_value
    column of suns.py:170-192). *)
From Coq Require Import Reals String.
From Flocq Require Import Core BinarySingleNaN.
From Verif Require Import Py P_List M_Util M_Float M_Suns M_Point S_Codec S_Assign P_IntText P_Float P_Scale P_Assign.
From Verif Require Import M_Device M_Client C_Scale.
Local Open Scope Z_scope.

(** an integer point stores exactly the integer the assigned object denotes, and nothing else *)
Theorem C87_assign_int_point :
  forall E t sf v r, unscaled sf -> holds_int t ->
  (value_setter E t sf v = Ok r <-> exists z, denotes_int v z /\ r = VInt z).
Proof. exact set_int. Qed.
Print Assumptions C87_assign_int_point.

(** every other object is rejected *)
Theorem C87_assign_int_point_rejects :
  forall E t sf v, unscaled sf -> holds_int t -> (forall z, ~ denotes_int v z) ->
  value_setter E t sf v =
  Raise (match v with VNone => EType | VFlt (S754_infinity _) => EOverflow | _ => EValue end).
Proof. exact set_int_error. Qed.
Print Assumptions C87_assign_int_point_rejects.

(** a text point stores the text *)
Theorem C87_assign_text_point_partial :
  forall E t sf v s, unscaled sf -> holds_text t -> denotes_text v s ->
  value_setter E t sf v = Ok (VStr s).
Proof. exact set_text. Qed.
Print Assumptions C87_assign_text_point_partial.

(** ... but None is stored as the four letter text "None", not rejected and not "no value" *)
Theorem C87_assign_text_none_refuted :
  forall E t sf, unscaled sf -> holds_text t ->
  value_setter E t sf VNone = Ok (VStr (lit "None"%string)).
Proof. intros E t sf U T. now rewrite (set_unscaled E t sf _ U), (text_to_value E t _ T). Qed.
Print Assumptions C87_assign_text_none_refuted.

(** a float point stores floats as they are and integers up to 2^53 exactly *)
Theorem C87_assign_float_point_partial :
  forall E sf, unscaled sf ->
  (forall f, value_setter E Tfloat32 sf (VFlt f) = Ok (VFlt f)) /\
  (forall z, Z.abs z <= 2 ^ 53 -> exists f, value_setter E Tfloat32 sf (VInt z) = Ok (VFlt f) /\
     is_finite_SF f = true /\ SF2R radix2 f = IZR z) /\
  (forall s f, float_parse E s = Some f -> value_setter E Tfloat32 sf (VStr s) = Ok (VFlt f)) /\
  value_setter E Tfloat32 sf VNone = Raise EType.
Proof.
  intros E sf U. repeat split; intros; rewrite (set_unscaled E _ sf _ U); cbn [to_value suns_to_float bind].
  - reflexivity.
  - destruct (float_of_int_exact z H) as (b & -> & Hb & Hf). exists (B2SF b). cbn [bind].
    rewrite is_finite_SF_B2SF, SF2R_B2SF. auto.
  - now rewrite H.
  - reflexivity.
Qed.
Print Assumptions C87_assign_float_point_partial.

(** an integer beyond the range of floats is rejected, on float points and on every scaled point *)
Theorem C87_assign_huge_rejected :
  forall E z, 2 ^ 1024 <= Z.abs z ->
  (forall sf, unscaled sf -> value_setter E Tfloat32 sf (VInt z) = Raise EOverflow) /\
  (forall t sf, sf <> 0 -> value_setter E t (VInt sf) (VInt z) = Raise EOverflow).
Proof.
  intros E z H. pose proof (float_of_int_overflow z H) as HO. split.
  - intros sf U. rewrite (set_unscaled E _ sf _ U). cbn [to_value suns_to_float bind]. now rewrite HO.
  - intros t sf NZ. unfold value_setter. replace (sf_truthy (VInt sf)) with true; [cbn [to_float]; now rewrite HO|].
    symmetry. unfold sf_truthy. destruct (Z.eqb_spec sf 0); [contradiction|reflexivity].
Qed.
Print Assumptions C87_assign_huge_rejected.

(** ... nor is anything stored under a scale factor whose power of ten is no usable number: too small a one (math.pow gives
    0.0, e.g. scale factor -400) is a ZeroDivisionError, too large a one whatever math.pow raises. *)
Theorem C87_assign_extreme_scale_rejected :
  forall E t sf v x, sf <> 0 -> to_float E v = Ok x ->
  (forall s, pow10 E sf = Ok (S754_zero s) -> value_setter E t (VInt sf) v = Raise EZeroDiv) /\
  (forall e, pow10 E sf = Raise e -> value_setter E t (VInt sf) v = Raise e).
Proof.
  intros E t sf v x NZ HX. unfold value_setter. replace (sf_truthy (VInt sf)) with true; [|symmetry; unfold sf_truthy; destruct (Z.eqb_spec sf 0); [contradiction|reflexivity]].
  rewrite HX. cbn [bind math_pow10]. split; intros y H; rewrite H; reflexivity.
Qed.
Print Assumptions C87_assign_extreme_scale_rejected.

(** ... and neither a NaN nor an infinity is a value of a scaled point: ValueError, OverflowError. *)
Theorem C87_assign_scaled_nonfinite_rejected :
  forall E t sf sg m e, sf <> 0 -> pow10 E sf = Ok (S754_finite sg m e) ->
  value_setter E t (VInt sf) (VFlt S754_nan) = Raise EValue /\
  forall s, value_setter E t (VInt sf) (VFlt (S754_infinity s)) = Raise EOverflow.
Proof.
  intros E t sf sg m e NZ HP. unfold value_setter. replace (sf_truthy (VInt sf)) with true; [|symmetry; unfold sf_truthy; destruct (Z.eqb_spec sf 0); [contradiction|reflexivity]].
  cbn [to_float bind math_pow10]. rewrite HP. split; reflexivity.
Qed.
Print Assumptions C87_assign_scaled_nonfinite_rejected.

(** ... nor texts that are no numbers (ValueError) and None (TypeError) under a scale factor *)
Theorem C87_assign_scaled_no_number_rejected :
  forall E t sf, sf <> 0 ->
  (forall s, float_parse E s = None -> value_setter E t (VInt sf) (VStr s) = Raise EValue) /\ value_setter E t (VInt sf) VNone = Raise EType.
Proof.
  intros E t sf NZ. unfold value_setter. replace (sf_truthy (VInt sf)) with true; [|symmetry; unfold sf_truthy; destruct (Z.eqb_spec sf 0); [contradiction|reflexivity]].
  cbn [to_float bind]. split; [intros s HS; now rewrite HS|reflexivity].
Qed.
Print Assumptions C87_assign_scaled_no_number_rejected.

(** ... but a text that is no number is silently stored as "no value" and the point marked dirty *)
Theorem C87_assign_float_text_refuted :
  forall E sf s, unscaled sf -> float_parse E s = None ->
  value_setter E Tfloat32 sf (VStr s) = Ok VNone.
Proof. intros E sf s U H. rewrite (set_unscaled E _ sf _ U). cbn [to_value suns_to_float bind]. now rewrite H. Qed.
Print Assumptions C87_assign_float_text_refuted.

(** the effect on the point: the new value is stored and pending, nothing else changes *)
Theorem C87_assign_marks_pending :
  forall E v p p', unscaled (p_sf p) -> point_set E v p = Ok p' ->
  value_setter E (pt_type (p_type p)) (p_sf p) v = Ok (p_base p') /\ p_dirty p' = true /\
  p_type p' = p_type p /\ p_addr p' = p_addr p /\ p_link p' = p_link p /\ p_impl p' = p_impl p /\
  p_sf p' = p_sf p /\ value_getter E (p_base p') (p_sf p') = Ok (p_base p').
Proof.
  intros E v p p' U H. unfold point_set in H. apply bind_ok in H as (b & H1 & H2).
  apply Ok_inj in H2. subst p'. cbn [p_base p_dirty p_type p_addr p_link p_impl p_sf].
  repeat split; auto. unfold value_getter. now rewrite (unscaled_falsy _ U).
Qed.
Print Assumptions C87_assign_marks_pending.

(** non-vacuity: 2.75 to an int16 point stores 2, -2.75 stores -2, "0x10" stores 16; "3.5" is refused *)
Example C87_ex :
  unscaled VNone /\ unscaled (VInt 0) /\ holds_int Tint16 /\ holds_int Tbitfield32 /\ holds_text Tstring /\
  value_setter env_ex Tint16 VNone (VFlt (S754_finite false 11 (-2))) = Ok (VInt 2) /\
  value_setter env_ex Tint16 VNone (VFlt (S754_finite true 11 (-2))) = Ok (VInt (-2)) /\
  value_setter env_ex Tbitfield32 (VInt 0) (VStr (lit "0x10"%string)) = Ok (VInt 16) /\
  value_setter env_ex Tint16 VNone (VStr (lit "3.5"%string)) = Raise EValue /\
  value_setter env_ex Tstring VNone (VInt (-7)) = Ok (VStr (lit "-7"%string)) /\
  value_setter env_ex Tfloat32 VNone (VStr (lit "abc"%string)) = Ok VNone.
Proof.
  repeat split; try (vm_compute; reflexivity); try discriminate; try (left; reflexivity); try (right; reflexivity);
    try (intros [K|[K|[K|[]]]]; discriminate).
Qed.
