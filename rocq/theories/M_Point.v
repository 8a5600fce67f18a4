(** * M_Point: the value property of a point, sunspec/core/device.py:511-527. *)
From Verif Require Import Py M_Util M_Float M_Suns.

(** [if self.value_sf:] — None and 0 are false *)
Definition sf_truthy (sf : value) : bool :=
  match sf with
  | VNone => false
  | VInt z => negb (z =? 0)
  | VStr s => match s with [] => false | _ => true end
  | VFlt f => match f with S754_zero _ => false | _ => true end
  end.

(** math.pow(10, value_sf); scale factor values are ints (decoder of sunssf, int() of a constant) *)
Definition math_pow10 (E : pyenv) (sf : value) : res flt :=
  match sf with VInt z => pow10 E z | _ => Raise EType end.

(** device.py:511-516 *)
Definition value_getter (E : pyenv) (value_base value_sf : value) : res value :=
  if sf_truthy value_sf then
    let! p := math_pow10 E value_sf in
    match value_base with
    | VInt z => let! f := float_of_int z in Ok (VFlt (fmul f p))
    | VFlt f => Ok (VFlt (fmul f p))
    | VStr _ | VNone => Raise EType
    end
  else Ok value_base.

(** float(v) *)
Definition to_float (E : pyenv) (v : value) : res flt :=
  match v with
  | VFlt f => Ok f
  | VInt z => float_of_int z
  | VStr s => match float_parse E s with Some f => Ok f | None => Raise EValue end
  | VNone => Raise EType
  end.

(** device.py:518-525: the new value_base; dirty is set afterwards *)
Definition value_setter (E : pyenv) (t : ptype) (value_sf v : value) : res value :=
  if sf_truthy value_sf then
    let! x := to_float E v in
    let! p := math_pow10 E value_sf in
    let! q := fdiv x p in
    let! r := int_round q in
    Ok (VInt r)
  else to_value E t v.
