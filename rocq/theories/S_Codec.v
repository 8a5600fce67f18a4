(** * S_Codec: specification vocabulary for properties C01-C10 (independent of the model). *)
From Coq Require Import String.
From Verif Require Import Py M_Float M_Suns.
(* only the type names [value] and [ptype] are used from M_Suns *)

(** ** C01: big-endian two's complement *)
(** positional value: the first byte is the most significant *)
Fixpoint positional (d : bytes) : Z :=
  match d with
  | [] => 0
  | b :: r => b * 256 ^ zlen r + positional r
  end.

(** [d] is the big-endian representation of [v] in [w] bytes, two's complement if [sgn] *)
Definition represents (w : Z) (sgn : bool) (v : Z) (d : bytes) : Prop :=
  zlen d = w /\ Forall is_byte d /\
  if sgn
  then - (256 ^ w / 2) <= v < 256 ^ w / 2 /\
       positional d = (if v <? 0 then v + 256 ^ w else v)
  else positional d = v.

Definition in_range (w : Z) (sgn : bool) (v : Z) : Prop :=
  if sgn then - (256 ^ w / 2) <= v < 256 ^ w / 2 else 0 <= v < 256 ^ w.

(** ** C02: text *)
Definition latin1 (s : str) : Prop := Forall is_byte s.
Definition ends_in_nul (s : str) : Prop := exists r, s = r ++ [0].

(** ** C04, C05: canonical hexadecimal text *)
Definition hex_upper : list Z := lit "0123456789ABCDEF"%string.
Definition hex_pair (b : Z) : str :=
  [nth (Z.to_nat (b / 16)) hex_upper 0; nth (Z.to_nat (b mod 16)) hex_upper 0].
(** sixteen bytes as four groups of four, or six bytes, separated by colons *)
Definition ipv6_text (d : bytes) : str :=
  concat (map hex_pair (firstn 4 d)) ++ lit ":"%string ++
  concat (map hex_pair (firstn 4 (skipn 4 d))) ++ lit ":"%string ++
  concat (map hex_pair (firstn 4 (skipn 8 d))) ++ lit ":"%string ++
  concat (map hex_pair (firstn 4 (skipn 12 d))).
Definition eui48_text (a b c d e f : Z) : str :=
  hex_pair a ++ lit ":"%string ++ hex_pair b ++ lit ":"%string ++ hex_pair c ++ lit ":"%string ++
  hex_pair d ++ lit ":"%string ++ hex_pair e ++ lit ":"%string ++ hex_pair f.

(** ** C08: the SunSpec "not implemented" patterns *)
Definition all_bytes (b : Z) (d : bytes) : Prop := Forall (fun x => x = b) d.
(** the bit pattern [x] of an IEEE format with [mw] mantissa and [ew] exponent bits is a NaN:
    exponent bits all ones and mantissa bits not all zero *)
Definition nan_bits (mw ew x : Z) : Prop :=
  (x / 2 ^ mw) mod 2 ^ ew = 2 ^ ew - 1 /\ x mod 2 ^ mw <> 0.
Definition int_type (t : ptype) : bool :=
  match t with Tipv6addr | Tfloat32 | Tstring | Teui48 => false | _ => true end.
Definition signed_type (t : ptype) : bool :=
  match t with Tint16 | Tpad | Tsunssf | Tint32 | Tint64 => true | _ => false end.
(** size in bytes of the fixed-size types *)
Definition type_bytes (t : ptype) : Z :=
  match t with
  | Tint16 | Tuint16 | Tcount | Tacc16 | Tenum16 | Tbitfield16 | Tpad | Tsunssf => 2
  | Tint32 | Tuint32 | Tacc32 | Tenum32 | Tbitfield32 | Tipaddr | Tfloat32 => 4
  | Tint64 | Tuint64 | Tacc64 | Teui48 => 8
  | Tipv6addr => 16
  | Tstring => 0
  end.
(** the unimplemented register pattern of the integer types *)
Definition not_implemented_int (t : ptype) (d : bytes) : Prop :=
  match t with
  | Tint16 | Tpad | Tsunssf | Tint32 | Tint64 =>
      d = 0x80 :: repeat 0 (Z.to_nat (type_bytes t - 1))
  | Tacc16 | Tacc32 | Tacc64 | Tipaddr => d = repeat 0 (Z.to_nat (type_bytes t))
  | _ => d = repeat 0xff (Z.to_nat (type_bytes t))
  end.

(** what [read] reports for a point of type [t] whose registers hold [d]: the decoded value, or
    None if the decoded value is the unimplemented one (client.py:381-400) *)
Definition reported (t : ptype) (d : bytes) : res value :=
  let! v := data_to t d in Ok (if is_impl t v then v else VNone).

(** ** C10: integer literals (Python's base-0 grammar, ASCII) *)
Definition digit_of (base c v : Z) : Prop :=
  0 <= v < base /\
  (c = 48 + v /\ v < 10 \/ c = 97 + (v - 10) /\ 10 <= v \/ c = 65 + (v - 10) /\ 10 <= v).

(** digits with optional single underscores between them, and their value *)
Inductive numeral (base : Z) : str -> Z -> Prop :=
| num_one c v : digit_of base c v -> numeral base [c] v
| num_more s n c v : numeral base s n -> digit_of base c v -> numeral base (s ++ [c]) (n * base + v)
| num_under s n c v :
    numeral base s n -> digit_of base c v -> numeral base (s ++ [95; c]) (n * base + v).

Definition blanks (w : str) : Prop :=
  Forall (fun c => c = 32 \/ 9 <= c <= 13) w.

Inductive unsigned_literal : str -> Z -> Prop :=
| ul_dec c r n : numeral 10 (c :: r) n -> (c <> 48 \/ n = 0) -> unsigned_literal (c :: r) n
| ul_pre p base u s n :
    (p = 120 \/ p = 88) /\ base = 16 \/ (p = 111 \/ p = 79) /\ base = 8 \/
      (p = 98 \/ p = 66) /\ base = 2 ->
    (u = [] \/ u = [95]) ->
    numeral base s n -> unsigned_literal ([48; p] ++ u ++ s) n.

Inductive int_literal : str -> Z -> Prop :=
| il_plain w1 s w2 n : blanks w1 -> blanks w2 -> unsigned_literal s n -> int_literal (w1 ++ s ++ w2) n
| il_plus w1 s w2 n : blanks w1 -> blanks w2 -> unsigned_literal s n -> int_literal (w1 ++ (43 :: s) ++ w2) n
| il_minus w1 s w2 n : blanks w1 -> blanks w2 -> unsigned_literal s n -> int_literal (w1 ++ (45 :: s) ++ w2) (- n).

(** canonical decimal text: sign, then decimal digits without leading zero *)
Definition canonical_decimal (z : Z) (s : str) : Prop :=
  exists ds, s = (if z <? 0 then [45] else []) ++ ds /\
    ds <> [] /\ (hd 0 ds = 48 -> ds = [48]) /\
    Forall (fun c => 48 <= c <= 57) ds /\
    fold_left (fun acc c => acc * 10 + (c - 48)) ds 0 = Z.abs z.
