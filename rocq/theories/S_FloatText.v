(** * S_FloatText: decimal texts of real numbers (specification, C116). *)
From Coq Require Import Reals SpecFloat.
From Flocq Require Import Core BinarySingleNaN.
From Verif Require Import Py M_Float M_Suns S_Accuracy.

Definition digit (c : Z) : Prop := 48 <= c <= 57.
Definition blank (c : Z) : Prop := c = 32 \/ 9 <= c <= 13.
(** digits and the natural number they denote *)
Inductive denotes : str -> Z -> Prop :=
| den_nil : denotes [] 0
| den_snoc d n c : denotes d n -> digit c -> denotes (d ++ [c]) (10 * n + (c - 48)).
Inductive sign_of : str -> bool -> Prop :=
| sg_none : sign_of [] false
| sg_plus : sign_of [43] false
| sg_minus : sign_of [45] true.
(** "e" or "E", a sign and digits; or nothing *)
Inductive exponent : str -> Z -> Prop :=
| ex_none : exponent [] 0
| ex_some c sg s d n : c = 101 \/ c = 69 -> sign_of sg s -> denotes d n -> d <> [] -> exponent (c :: sg ++ d) (if s then - n else n).
(** a point and digits; or nothing *)
Inductive fraction : str -> str -> Prop :=
| fr_none : fraction [] []
| fr_some f : fraction (46 :: f) f.
(** the text is a decimal with this sign and this magnitude: [ip] before the point, [f] after it *)
Inductive decimal_text : str -> bool -> R -> Prop :=
| dec_text l sg s ip fr f ex x r n :
    Forall blank l -> Forall blank r -> sign_of sg s -> fraction fr f -> exponent ex x ->
    denotes (ip ++ f) n -> ip ++ f <> [] ->
    decimal_text (l ++ sg ++ ip ++ fr ++ ex ++ r) s (IZR n * ten (x - Z.of_nat (length f)))%R.

(** the binary64 number nearest to the real number (of two, the even one) *)
Definition nearest64 (x : R) : R := Generic_fmt.round radix2 (FLT_exp (-1074) 53) ZnearestE x.
(** the float a sign and a magnitude are rounded to; an infinity if the nearest number is 2^1024 or more *)
Definition rounds_to (s : bool) (x : R) (f : flt) : Prop :=
  SpecFloat.valid_binary 53 1024 f = true /\ sign_SF f = s /\
  ((nearest64 x < bpow radix2 1024)%R /\ is_finite_SF f = true /\ SF2R radix2 f = cond_Ropp s (nearest64 x) \/
   (bpow radix2 1024 <= nearest64 x)%R /\ f = S754_infinity s).
