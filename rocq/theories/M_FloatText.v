(** * M_FloatText: Python's texts of floats, float(text) and str(float) (Python 3; used by suns.py:99-104, device.py:490, 496-521, 576
    and mbmap.py:244-247).

    [M_Suns.pyenv] leaves both open.  Here they are: CPython's PyFloat_FromString (floatobject.c, with the correctly rounded
    _Py_dg_strtod) and float_repr (the shortest decimal that reads back, the nearest of these, in repr layout).
    Simplification: digits and blanks outside ASCII, which float() also accepts, are rejected; the algorithms are the mathematical
    definitions (exact integers), not the ones of dtoa.c. *)
From Coq Require Import String.
From Verif Require Import Py M_Util M_Float M_Suns.

Definition is_digit (c : Z) : bool := (48 <=? c) && (c <=? 57).
(** the decimal digits at the start, and the rest *)
Fixpoint span_digits (s : str) : str * str :=
  match s with
  | c :: r => if is_digit c then let '(d, t) := span_digits r in (c :: d, t) else ([], s)
  | [] => ([], [])
  end.
Definition digits_val (d : str) : Z := fold_left (fun a c => a * 10 + (c - 48)) d 0.

(** the binary64 number nearest to (-1)^s * n * 10^k (ties to even), an infinity if it is too large: the exact quotient of two
    integers, rounded once *)
Definition decimal_float (s : bool) (n k : Z) : flt :=
  match n with
  | Zpos p => SFdiv 53 1024 (S754_finite s (if k <? 0 then p else Z.to_pos (n * 10 ^ k)) 0)
                            (S754_finite false (if k <? 0 then Z.to_pos (10 ^ (- k)) else 1%positive) 0)
  | _ => S754_zero s
  end.

(** single underscores between digits are dropped (_Py_string_to_number_with_underscores); [prev]: the last character was a digit *)
Fixpoint drop_under (s : str) (prev : bool) : option str :=
  match s with
  | [] => Some []
  | c :: r =>
      if c =? 95 then (if prev && match r with d :: _ => is_digit d | [] => false end then drop_under r false else None)
      else match drop_under r (is_digit c) with Some t => Some (c :: t) | None => None end
  end.
Definition take_sign (s : str) : bool * str :=
  match s with c :: r => if c =? 45 then (true, r) else if c =? 43 then (false, r) else (false, s) | [] => (false, s) end.
Definition lower (c : Z) : Z := if (65 <=? c) && (c <=? 90) then c + 32 else c.
(** digits [ '.' digits ] [ 'e' [sign] digits ], with a digit before the exponent *)
Definition exponent_of (s : str) : option Z :=
  match s with
  | [] => Some 0
  | c :: r => if lower c =? 101 then
                let '(neg, t) := take_sign r in
                let '(d, u) := span_digits t in
                match d, u with _ :: _, [] => Some (if neg then - digits_val d else digits_val d) | _, _ => None end
              else None
  end.
Definition parse_decimal (s : str) : option (Z * Z) :=
  let '(i, r) := span_digits s in
  let '(f, r2) := match r with c :: t => if c =? 46 then span_digits t else ([], r) | [] => ([], r) end in
  match (i ++ f)%list, exponent_of r2 with
  | _ :: _, Some x => Some (digits_val (i ++ f)%list, x - Z.of_nat (length f))
  | _, _ => None
  end.
(** float(text) *)
Definition py_float (s : str) : option flt :=
  match drop_under (strip_blank s) false with
  | None => None
  | Some t =>
      let '(neg, r) := take_sign t in
      let l := map lower r in
      if eqb_list l (lit "inf") || eqb_list l (lit "infinity") then Some (S754_infinity neg)
      else if eqb_list l (lit "nan") then Some S754_nan
      else match parse_decimal r with Some (n, k) => Some (decimal_float neg n k) | None => None end
  end.

(** ** str(float) *)
(** a / b < 10^p *)
Definition below_pow (a b p : Z) : bool := if p <? 0 then a * 10 ^ (- p) <? b else a <? b * 10 ^ p.
(** the decimal point: the least p with a / b < 10^p *)
Fixpoint find_point10 (fuel : nat) (a b p : Z) : Z :=
  match fuel with O => p | S k => if below_pow a b p then p else find_point10 k a b (p + 1) end.
(** where to begin: an estimate from the size in bits, [l], if it is not too large *)
Definition first_point (a b l : Z) : Z :=
  let p := l * 30103 / 100000 in
  if (p <? -400) || below_pow a b (p - 1) then -400 else p.
(** a / b * 10^k, rounded to the nearest integer (ties to even), and the other neighbour *)
Definition near_digits (a b k : Z) : Z * Z :=
  let a := if k <? 0 then a else a * 10 ^ k in
  let b := if k <? 0 then b * 10 ^ (- k) else b in
  let q := a / b in
  let r := a mod b in
  if (2 * r <? b) || ((2 * r =? b) && Z.even q) then (q, q + 1) else (q + 1, q).
Definition same_float (f g : flt) : bool :=
  match f, g with
  | S754_finite s m e, S754_finite t n d => Bool.eqb s t && (m =? n)%positive && (e =? d)
  | _, _ => false
  end.
(** the shortest decimal that reads back, of those the nearest: from [n] digits on *)
Fixpoint shortest (fuel : nat) (f : flt) (s : bool) (a b p n : Z) : Z * Z :=
  let '(x, y) := near_digits a b (n - p) in
  match fuel with
  | O => (x, p - n)
  | S k => if same_float (decimal_float s x (p - n)) f then (x, p - n)
           else if same_float (decimal_float s y (p - n)) f then (y, p - n)
           else shortest k f s a b p (n + 1)
  end.
(** no zeros at the end *)
Fixpoint strip_zeros (fuel : nat) (n k : Z) : Z * Z :=
  match fuel with O => (n, k) | S j => if n mod 10 =? 0 then strip_zeros j (n / 10) (k + 1) else (n, k) end.
(** the layout: positional if the decimal point is after the first -3 to 16 digits, otherwise with an exponent of two digits or more *)
Definition layout (n k : Z) : str :=
  let d := dec_nonneg n in
  let nd := Z.of_nat (length d) in
  let pt := nd + k in
  if (-4 <? pt) && (pt <=? 16) then
    if pt <=? 0 then (lit "0." ++ repeat 48 (Z.to_nat (- pt)) ++ d)%list
    else if pt <? nd then (firstn (Z.to_nat pt) d ++ 46 :: skipn (Z.to_nat pt) d)%list
    else (d ++ repeat 48 (Z.to_nat (pt - nd)) ++ lit ".0")%list
  else
    let x := pt - 1 in
    let xd := dec_nonneg (Z.abs x) in
    (firstn 1 d ++ (if 1 <? nd then 46 :: skipn 1 d else []) ++ 101 :: (if x <? 0 then 45 else 43) ::
       repeat 48 (2 - length xd) ++ xd)%list.
Definition sign_text (s : bool) : str := if s then [45] else [].
(** str(f) *)
Definition py_repr (f : flt) : str :=
  match f with
  | S754_nan => lit "nan"
  | S754_infinity s => (sign_text s ++ lit "inf")%list
  | S754_zero s => (sign_text s ++ lit "0.0")%list
  | S754_finite s m e =>
      let a := if e <? 0 then Zpos m else Zpos m * 2 ^ e in
      let b := if e <? 0 then 2 ^ (- e) else 1 in
      let p := find_point10 720 a b (first_point a b (Z.log2 (Zpos m) + e)) in
      let '(n, k) := shortest 16 f s a b p 1 in
      let '(n, k) := strip_zeros 20 n k in
      (sign_text s ++ layout n k)%list
  end.

(** Python's texts, with some math.pow *)
Definition py_env (pow : Z -> res flt) : pyenv := {| float_repr := py_repr; float_parse := py_float; pow10 := pow |}.
