(** * S_Assign: what assigning a value to an unscaled point should store.
    Independent of the model's converters: integers by the literal grammar of [S_Codec] and by real
    truncation, texts by canonical decimal notation. *)
From Coq Require Import Reals.
From Flocq Require Import Core BinarySingleNaN.
From Verif Require Import Py M_Suns S_Codec.
Local Open Scope Z_scope.

(** a point whose scale factor is absent or zero *)
Definition unscaled (sf : value) : Prop := sf = VNone \/ sf = VInt 0.

(** the integer an assigned object denotes: an int denotes itself, a text the integer literal it
    spells, a finite float its value with the fraction dropped (towards zero) *)
Inductive denotes_int : value -> Z -> Prop :=
| di_int z : denotes_int (VInt z) z
| di_text s z : int_literal s z -> denotes_int (VStr s) z
| di_float f : is_finite_SF f = true -> denotes_int (VFlt f) (Ztrunc (SF2R radix2 f)).

(** the text an assigned object denotes *)
Inductive denotes_text : value -> str -> Prop :=
| dt_text s : denotes_text (VStr s) s
| dt_int z s : canonical_decimal z s -> denotes_text (VInt z) s.

(** the point types holding texts, and those holding integers *)
Definition holds_text (t : ptype) : Prop := In t [Tstring; Tipv6addr; Teui48].
Definition holds_int (t : ptype) : Prop := ~ holds_text t /\ t <> Tfloat32.
