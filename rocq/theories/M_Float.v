(** * M_Float: Python floats (IEEE binary64) and struct formats '>f', '>d'
    (used by util.py:88-96 and util.py:133-141) and the arithmetic the scale factor code uses
    (device.py:511-527).

    A Python float is a [spec_float] (Coq.Floats.SpecFloat: sign, positive mantissa, exponent) in
    the canonical form of binary64.  There is a single NaN: Python code of /repo cannot observe
    NaN payloads except by packing a NaN, which the codecs of /repo never produce
    (data_to_float returns None instead). *)
From Verif Require Import Py.
From Coq Require Export SpecFloat.

Definition flt := spec_float.

(** conversion of [(-1)^s * m * 2^e] to binary64 / binary32, round to nearest even *)
Definition f64_of (s : bool) (m : Z) (e : Z) : flt :=
  binary_normalize 53 1024 (if s then - m else m) e s.
Definition f32_of (s : bool) (m : Z) (e : Z) : flt :=
  binary_normalize 24 128 (if s then - m else m) e s.

(** float(z) for an int: OverflowError when it rounds beyond the largest float. *)
Definition float_of_int (z : Z) : res flt :=
  match binary_normalize 53 1024 z 0 false with
  | S754_infinity _ => Raise EOverflow
  | f => Ok f
  end.

(** C double -> C float, as in CPython's PyFloat_Pack4 *)
Definition to_single (f : flt) : flt :=
  match f with
  | S754_finite s m e => f32_of s (Zpos m) e
  | _ => f
  end.
(** C float -> C double (exact) *)
Definition to_double (f : flt) : flt :=
  match f with
  | S754_finite s m e => f64_of s (Zpos m) e
  | _ => f
  end.

(** IEEE interchange format with [mw] mantissa bits and [ew] exponent bits (standard library
    struct: '>f' is mw=23, ew=8; '>d' is mw=52, ew=11). *)
Definition split_bits (mw ew : Z) (x : Z) : bool * Z * Z :=
  (2 ^ (mw + ew) <=? x, x mod 2 ^ mw, (x / 2 ^ mw) mod 2 ^ ew).

Definition float_of_bits (mw ew : Z) (x : Z) : flt :=
  let '(s, m, e) := split_bits mw ew x in
  let emin := 3 - 2 ^ (ew - 1) - (mw + 1) in
  if e =? 0 then
    match m with Zpos p => S754_finite s p emin | _ => S754_zero s end
  else if e =? 2 ^ ew - 1 then
    (if m =? 0 then S754_infinity s else S754_nan)
  else match m + 2 ^ mw with Zpos p => S754_finite s p (e + emin - 1) | _ => S754_nan end.

Definition bits_of_float (mw ew : Z) (f : flt) : Z :=
  let sgn (s : bool) := if s then 2 ^ (mw + ew) else 0 in
  let emin := 3 - 2 ^ (ew - 1) - (mw + 1) in
  match f with
  | S754_zero s => sgn s
  | S754_infinity s => sgn s + (2 ^ ew - 1) * 2 ^ mw
  | S754_nan => (2 ^ ew - 1) * 2 ^ mw + 2 ^ (mw - 1)
  | S754_finite s m e =>
      if Zpos m <? 2 ^ mw then sgn s + Zpos m
      else sgn s + (e - emin + 1) * 2 ^ mw + (Zpos m - 2 ^ mw)
  end.

(** struct.unpack('>f', d)[0] *)
Definition unpack_f (d : bytes) : res flt :=
  let! u := unpack_int 4 false d in Ok (to_double (float_of_bits 23 8 u)).
(** struct.unpack('>d', d)[0] *)
Definition unpack_d (d : bytes) : res flt :=
  let! u := unpack_int 8 false d in Ok (float_of_bits 52 11 u).

(** struct.pack('>f', f): OverflowError if a finite value becomes infinite *)
Definition pack_f (f : flt) : res bytes :=
  match f, to_single f with
  | S754_finite _ _ _, S754_infinity _ => Raise EOverflow
  | _, g => Ok (be_bytes 4 (bits_of_float 23 8 g))
  end.
(** struct.pack('>d', f) *)
Definition pack_d (f : flt) : res bytes := Ok (be_bytes 8 (bits_of_float 52 11 f)).

(** util.py:88-91: str(f) != 'nan' *)
Definition data_to_float (d : bytes) : res (option flt) :=
  let! f := unpack_f d in
  Ok (match f with S754_nan => None | _ => Some f end).
(** util.py:93-96 *)
Definition data_to_double (d : bytes) : res (option flt) :=
  let! f := unpack_d d in
  Ok (match f with S754_nan => None | _ => Some f end).
(** util.py:133-137 (float_to_data32 and float32_to_data are the same) *)
Definition float_to_data32 (f : flt) : res bytes := pack_f f.
(** util.py:139-141 *)
Definition float_to_data (f : flt) : res bytes := pack_d f.

(** ** arithmetic *)
Definition fmul (a b : flt) : flt := SFmul 53 1024 a b.
(** [a / b] on floats: ZeroDivisionError on a zero divisor (only used with
    [b = math.pow(10, sf)], which is never zero unless it underflows). *)
Definition fdiv (a b : flt) : res flt :=
  match b with
  | S754_zero _ => Raise EZeroDiv
  | _ => Ok (SFdiv 53 1024 a b)
  end.

(** [int(round(f))]: round half to even; OverflowError on infinities, ValueError on NaN. *)
Definition round_half_even (m : Z) (e : Z) : Z :=
  if 0 <=? e then m * 2 ^ e
  else
    let d := 2 ^ (- e) in
    let q := m / d in
    let r := m mod d in
    if 2 * r <? d then q
    else if d <? 2 * r then q + 1
    else if Z.even q then q else q + 1.
Definition int_round (f : flt) : res Z :=
  match f with
  | S754_zero _ => Ok 0
  | S754_infinity _ => Raise EOverflow
  | S754_nan => Raise EValue
  | S754_finite s m e => Ok (let r := round_half_even (Zpos m) e in if s then - r else r)
  end.
(** [int(f)]: truncation *)
Definition int_trunc (f : flt) : res Z :=
  match f with
  | S754_zero _ => Ok 0
  | S754_infinity _ => Raise EOverflow
  | S754_nan => Raise EValue
  | S754_finite s m e =>
      Ok (let r := if 0 <=? e then Zpos m * 2 ^ e else Zpos m / 2 ^ (- e) in if s then - r else r)
  end.
