(** * C_Scale: properties C11-C13 (device.Point.value). *)
From Coq Require Import Reals.
From Flocq Require Import Core BinarySingleNaN.
From Verif Require Import Py M_Float M_Suns M_Point S_Scale P_Scale.
Local Open Scope Z_scope.

(** ** C11: point.value = point.value keeps the register value, for any scale factor whose power
    of ten is a usable float and any register value up to 2^50 (all 16 and 32 bit points). *)
Theorem C11_reassign_keeps_registers :
  forall E sf p n t, sf <> 0 -> pow10 E sf = Ok p -> good_scale p -> Z.abs n <= 2 ^ 50 ->
  exists v, value_getter E (VInt n) (VInt sf) = Ok v /\ value_setter E t (VInt sf) v = Ok (VInt n).
Proof. exact reassign_same. Qed.
Print Assumptions C11_reassign_keeps_registers.
(** without a scale factor (absent or zero) the value is the register value *)
Theorem C11_reassign_unscaled :
  forall E n t, int_type_value t ->
  value_getter E (VInt n) VNone = Ok (VInt n) /\ value_setter E t VNone (VInt n) = Ok (VInt n) /\
  value_getter E (VInt n) (VInt 0) = Ok (VInt n) /\ value_setter E t (VInt 0) (VInt n) = Ok (VInt n).
Proof. exact reassign_unscaled. Qed.
Print Assumptions C11_reassign_unscaled.

(** an environment whose math.pow(10, n) is right for -2, 1, 2 *)
Definition env_ex : pyenv := {|
  float_repr := fun _ => []; float_parse := fun _ => None;
  pow10 := fun n => if n =? -2 then Ok (S754_finite false 5764607523034235 (-59))
                    else if n =? 1 then Ok (S754_finite false 5629499534213120 (-49))
                    else if n =? 2 then Ok (S754_finite false 7036874417766400 (-46)) else Raise EOverflow |}.
Example C11_ex :
  pow10 env_ex (-2) = Ok (S754_finite false 5764607523034235 (-59)) /\
  good_scale (S754_finite false 5764607523034235 (-59)) /\
  value_getter env_ex (VInt 12345) (VInt (-2)) = Ok (VFlt (S754_finite false 8687021468732621 (-46))) /\
  value_setter env_ex Tint32 (VInt (-2)) (VFlt (S754_finite false 8687021468732621 (-46))) = Ok (VInt 12345).
Proof.
  split; [reflexivity|]. split; [apply good_scale_intro; [reflexivity|lia|lia]|].
  split; vm_compute; reflexivity.
Qed.

(** ** C12 *)
Theorem C12_assign_stores_nearest :
  forall E sf p x t, sf <> 0 -> pow10 E sf = Ok p -> good_scale p ->
  SpecFloat.valid_binary 53 1024 x = true -> is_finite_SF x = true ->
  (Rabs (SF2R radix2 x / SF2R radix2 p) <= bpow radix2 1022)%R ->
  exists k, value_setter E t (VInt sf) (VFlt x) = Ok (VInt k) /\
    (Rabs (IZR k - SF2R radix2 x / SF2R radix2 p) <=
       1/2 + bpow radix2 (-53) * Rabs (SF2R radix2 x / SF2R radix2 p) + bpow radix2 (-1075))%R.
Proof. exact assign_nearest. Qed.
Print Assumptions C12_assign_stores_nearest.
(** 1.5 with scale factor -2 is stored as 150; 250.0 with scale factor 2 is 2.5 units, half to even: 2 *)
Example C12_ex :
  value_setter env_ex Tint16 (VInt (-2)) (VFlt (S754_finite false 6755399441055744 (-52))) = Ok (VInt 150) /\
  value_setter env_ex Tint16 (VInt 2) (VFlt (S754_finite false 8796093022208000 (-45))) = Ok (VInt 2).
Proof. split; vm_compute; reflexivity. Qed.

(** ** C13: false for 64-bit registers, whatever the rest of the environment is. *)
Theorem C13_reassign_64bit_refuted :
  forall E, pow10 E 1 = Ok (S754_finite false 5629499534213120 (-49)) (* 10.0 *) ->
  exists n v, 0 <= n < 2 ^ 63 /\ value_getter E (VInt n) (VInt 1) = Ok v /\
    value_setter E Tint64 (VInt 1) v = Ok (VInt (n - 1)).
Proof. exact reassign_64_refuted. Qed.
Print Assumptions C13_reassign_64bit_refuted.
Example C13_ex : pow10 env_ex 1 = Ok (S754_finite false 5629499534213120 (-49)).
Proof. reflexivity. Qed.
