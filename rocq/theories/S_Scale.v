(** * S_Scale: specification vocabulary for C11-C13. *)
From Coq Require Import Reals SpecFloat.
From Flocq Require Import Core BinarySingleNaN.

(** [p] is a binary64 number between 2^-1022 and 2^970.  Every power of ten 10^sf with
    -307 <= sf <= 291 rounds to such a number; nothing else is assumed of math.pow. *)
Definition good_scale (p : spec_float) : Prop :=
  SpecFloat.valid_binary 53 1024 p = true /\
  (bpow radix2 (-1022) <= SF2R radix2 p <= bpow radix2 970)%R.
