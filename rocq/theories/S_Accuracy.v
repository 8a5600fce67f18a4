(** * S_Accuracy: powers of ten and accuracy (specification, C115). *)
From Coq Require Import Reals SpecFloat.
From Flocq Require Import Core BinarySingleNaN.
From Verif Require Import Py M_Suns.

(** the real number 10^sf *)
Definition ten (sf : Z) : R := powerRZ 10 sf.
(** [x] is [y] up to a relative error of [e] *)
Definition within_rel (e x y : R) : Prop := (Rabs (x - y) <= e * Rabs y)%R.
(** math.pow(10, sf) is a binary64 number within two units in the last place of 10^sf, for scale factors from -300 to 280 (SunSpec
    allows -10 to 10).  This is all that is assumed of it; C libraries are more accurate. *)
Definition accurate_pow (E : pyenv) : Prop :=
  forall sf, -300 <= sf <= 280 -> exists p, pow10 E sf = Ok p /\ SpecFloat.valid_binary 53 1024 p = true /\
    within_rel (bpow radix2 (-51)) (SF2R radix2 p) (ten sf).
