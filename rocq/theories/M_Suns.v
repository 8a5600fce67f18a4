(** * M_Suns: model of sunspec/core/suns.py (point types, unimplemented values, text conversion). *)
From Coq Require Import String.
From Verif Require Import Py M_Util M_Float.

(** ** Values of points: Python objects that can be stored in [value_base]. *)
Inductive value : Type :=
| VNone
| VInt (z : Z)
| VStr (s : str)
| VFlt (f : flt).

Definition is_none (v : value) : bool := match v with VNone => true | _ => false end.

(** The parts of Python's floating point library the model does not define: repr(float),
    float(text) and math.pow(10, n).  Theorems quantify over all of them and state what
    they need. *)
Record pyenv : Type := {
  float_repr : flt -> str;
  float_parse : str -> option flt;
  pow10 : Z -> res flt
}.

(** ** str(int) *)
Fixpoint dec_digits (fuel : nat) (n : Z) : str :=
  match fuel with
  | O => []
  | S k => if n <? 10 then [48 + n] else dec_digits k (n / 10) ++ [48 + n mod 10]
  end.
(** decimal text of a non-negative integer; the fuel is an upper bound on the digit count *)
Definition dec_nonneg (n : Z) : str := dec_digits (S (Z.to_nat (Z.log2 n))) n.
Definition str_of_int (z : Z) : str :=
  if z <? 0 then 45 :: dec_nonneg (- z) else dec_nonneg z.

(** ** int(text, 0) (Python 3 standard library).
    Leading/trailing ASCII blanks are skipped; optional sign; prefixes 0x, 0o, 0b (either case);
    underscores between digits (and after a prefix); without a prefix, a leading 0 is only allowed
    if all digits are 0.  Simplification: non-ASCII digits and blanks, which Python also
    accepts, are rejected. *)
Definition is_blank (c : Z) : bool := (c =? 32) || ((9 <=? c) && (c <=? 13)).

Fixpoint lstrip_blank (s : str) : str :=
  match s with
  | c :: r => if is_blank c then lstrip_blank r else s
  | [] => []
  end.
Definition strip_blank (s : str) : str := rev (lstrip_blank (rev (lstrip_blank s))).

Definition digit_val (base c : Z) : option Z :=
  let v := if (48 <=? c) && (c <=? 57) then c - 48
           else if (97 <=? c) && (c <=? 122) then c - 87
           else if (65 <=? c) && (c <=? 90) then c - 55 else -1 in
  if (0 <=? v) && (v <? base) then Some v else None.

(** digits with single underscores between them; [under]: an underscore may come here *)
Fixpoint parse_digits (base : Z) (s : str) (under : bool) (acc : Z) : option Z :=
  match s with
  | [] => if under then Some acc else None
  | c :: r =>
      if c =? 95 then (if under then parse_digits base r false acc else None)
      else match digit_val base c with
           | Some v => parse_digits base r true (acc * base + v)
           | None => None
           end
  end.

Definition is_prefix (c lo up : Z) : bool := (c =? lo) || (c =? up).

(** one underscore is allowed after a base prefix *)
Definition skip_under (s : str) : str :=
  match s with c :: r => if c =? 95 then r else s | [] => [] end.

(** magnitude of an unsigned literal *)
Definition parse_unsigned (s : str) : option Z :=
  match s with
  | z :: c :: r =>
      if z =? 48 then
        if is_prefix c 120 88 then parse_digits 16 (skip_under r) false 0
        else if is_prefix c 111 79 then parse_digits 8 (skip_under r) false 0
        else if is_prefix c 98 66 then parse_digits 2 (skip_under r) false 0
        else match parse_digits 10 s false 0 with
             | Some n => if n =? 0 then Some 0 else None      (* all digits are zero *)
             | None => None
             end
      else parse_digits 10 s false 0
  | _ => parse_digits 10 s false 0
  end.

(** optional sign, then a magnitude *)
Definition parse_signed (mag : str -> option Z) (s : str) : res Z :=
  match s with
  | c :: r =>
      if c =? 45 then match mag r with Some n => Ok (- n) | None => Raise EValue end
      else if c =? 43 then match mag r with Some n => Ok n | None => Raise EValue end
      else match mag s with Some n => Ok n | None => Raise EValue end
  | [] => Raise EValue
  end.

Definition int_of_str0 (s : str) : res Z := parse_signed parse_unsigned (strip_blank s).

(** int(text) in base 10: leading zeros allowed *)
Definition parse_dec (s : str) : option Z := parse_digits 10 s false 0.
Definition int_of_str (s : str) : res Z := parse_signed parse_dec (strip_blank s).

(** suns.py:87-97: int(x, 0) is a TypeError unless x is text; then int(x). *)
Definition suns_to_int (v : value) : res Z :=
  match v with
  | VStr s => int_of_str0 s
  | VInt z => Ok z
  | VFlt f => int_trunc f
  | VNone => Raise EType
  end.

(** suns.py:99-100 *)
Definition suns_to_str (E : pyenv) (v : value) : str :=
  match v with
  | VStr s => s
  | VInt z => str_of_int z
  | VFlt f => float_repr E f
  | VNone => lit "None"
  end.

(** suns.py:102-106 *)
Definition suns_to_float (E : pyenv) (v : value) : res (option flt) :=
  match v with
  | VStr s => Ok (float_parse E s)
  | VInt z => let! f := float_of_int z in Ok (Some f)
  | VFlt f => Ok (Some f)
  | VNone => Raise EType
  end.

(** ** Point types, suns.py:34-54 *)
Inductive ptype : Type :=
| Tint16 | Tuint16 | Tcount | Tacc16 | Tenum16 | Tbitfield16 | Tpad
| Tint32 | Tuint32 | Tacc32 | Tenum32 | Tbitfield32 | Tipaddr
| Tint64 | Tuint64 | Tacc64 | Tipv6addr | Tfloat32 | Tstring | Tsunssf | Teui48.

(** the keys of suns_point_type_info, suns.py:170-192 *)
Definition ptype_name (t : ptype) : str :=
  lit (match t with
  | Tint16 => "int16" | Tuint16 => "uint16" | Tcount => "count" | Tacc16 => "acc16"
  | Tenum16 => "enum16" | Tbitfield16 => "bitfield16" | Tpad => "pad" | Tint32 => "int32"
  | Tuint32 => "uint32" | Tacc32 => "acc32" | Tenum32 => "enum32"
  | Tbitfield32 => "bitfield32" | Tipaddr => "ipaddr" | Tint64 => "int64"
  | Tuint64 => "uint64" | Tacc64 => "acc64" | Tipv6addr => "ipv6addr"
  | Tfloat32 => "float32" | Tstring => "string" | Tsunssf => "sunssf" | Teui48 => "eui48"
  end)%string.
Definition all_ptypes : list ptype :=
  [Tint16; Tuint16; Tcount; Tacc16; Tenum16; Tbitfield16; Tpad; Tint32; Tuint32; Tacc32;
   Tenum32; Tbitfield32; Tipaddr; Tint64; Tuint64; Tacc64; Tipv6addr; Tfloat32; Tstring;
   Tsunssf; Teui48].
(** suns_point_type_info.get(name) *)
Definition ptype_of_name (s : str) : option ptype :=
  find (fun t => eqb_list s (ptype_name t)) all_ptypes.
Definition ptype_eqb (a b : ptype) : bool := eqb_list (ptype_name a) (ptype_name b).

(** first component of suns_point_type_info: length in registers *)
Definition type_len (t : ptype) : option Z :=
  match t with
  | Tint16 | Tuint16 | Tcount | Tacc16 | Tenum16 | Tbitfield16 | Tpad | Tsunssf => Some 1
  | Tint32 | Tuint32 | Tacc32 | Tenum32 | Tbitfield32 | Tipaddr | Tfloat32 => Some 2
  | Tint64 | Tuint64 | Tacc64 | Teui48 => Some 4
  | Tipv6addr => Some 8
  | Tstring => None
  end.

(** [value == k] for an int constant k.  (A float value never reaches this comparison: the
    decoder and the text converter of these types produce ints.) *)
Definition eq_int (v : value) (k : Z) : bool :=
  match v with VInt z => z =? k | _ => false end.

(** the unimplemented constants, suns.py:62-80 *)
Definition unimpl_int (t : ptype) : Z :=
  match t with
  | Tint16 | Tpad | Tsunssf => -32768
  | Tuint16 | Tcount | Tenum16 | Tbitfield16 => 0xffff
  | Tacc16 | Tacc32 | Tacc64 | Tipaddr => 0
  | Tint32 => -2147483648
  | Tuint32 | Tenum32 | Tbitfield32 => 0xffffffff
  | Tint64 => -9223372036854775808
  | Tuint64 => 0xffffffffffffffff
  | _ => 0
  end.

(** second component: suns.py:108-167 *)
Definition is_impl (t : ptype) (v : value) : bool :=
  match t with
  | Tipv6addr | Tstring =>
      match v with VStr (c :: _) => negb (c =? 0) | _ => false end
  | Tfloat32 =>
      match v with VNone => false | VFlt S754_nan => false | _ => true end
  | Teui48 =>
      match v with VStr s => negb (eqb_list s (lit "FF:FF:FF:FF:FF:FF"%string)) | _ => true end
  | _ => negb (eq_int v (unimpl_int t))
  end.

(** third component: data_to functions, as in the table (note int64/uint64/acc64 all use data_to_s64) *)
Definition opt_str (o : option str) : value := match o with Some s => VStr s | None => VNone end.
Definition data_to (t : ptype) (d : bytes) : res value :=
  match t with
  | Tint16 | Tpad | Tsunssf => let! z := data_to_s16 d in Ok (VInt z)
  | Tuint16 | Tcount | Tacc16 | Tenum16 | Tbitfield16 => let! z := data_to_u16 d in Ok (VInt z)
  | Tint32 => let! z := data_to_s32 d in Ok (VInt z)
  | Tuint32 | Tacc32 | Tenum32 | Tbitfield32 | Tipaddr => let! z := data_to_u32 d in Ok (VInt z)
  | Tint64 | Tuint64 | Tacc64 => let! z := data_to_s64 d in Ok (VInt z)
  | Tipv6addr => Ok (opt_str (data_to_ipv6addr d))
  | Tfloat32 => let! f := data_to_float d in
                Ok (match f with Some x => VFlt x | None => VNone end)
  | Tstring => Ok (VStr (data_to_str d))
  | Teui48 => Ok (opt_str (data_to_eui48 d))
  end.

(** struct.pack of an integer format with a Python object: struct.error unless it is an int *)
Definition pack_obj (f : Z -> res bytes) (v : value) : res bytes :=
  match v with VInt z => f z | _ => Raise EStruct end.

(** fourth component: to_data functions, called as [to_data(value, nbytes)] (client.py:427, 504).
    eui48_to_data (util.py:153) takes one argument, so the call is a TypeError. *)
Definition to_data (t : ptype) (v : value) (nbytes : Z) : res bytes :=
  match t with
  | Tint16 | Tpad | Tsunssf => pack_obj s16_to_data v
  | Tuint16 | Tcount | Tacc16 | Tenum16 | Tbitfield16 => pack_obj u16_to_data v
  | Tint32 => pack_obj s32_to_data v
  | Tuint32 | Tacc32 | Tenum32 | Tbitfield32 | Tipaddr => pack_obj u32_to_data v
  | Tint64 | Tuint64 | Tacc64 => pack_obj s64_to_data v
  | Tipv6addr => match v with
                 | VStr s => ipv6addr_to_data s (Some nbytes)
                 | _ => Raise EAttr            (* no attribute 'replace' *)
                 end
  | Tfloat32 => match v with
                | VFlt f => float_to_data32 f
                | VInt z => match float_of_int z with
                            | Ok f => float_to_data32 f
                            | Raise _ => Raise EStruct
                            end
                | _ => Raise EStruct
                end
  | Tstring => match v with
               | VStr s => str_to_data s (Some nbytes)
               | _ => Raise EType
               end
  | Teui48 => Raise EType
  end.

(** fifth component: to_value functions *)
Definition to_value (E : pyenv) (t : ptype) (v : value) : res value :=
  match t with
  | Tipv6addr | Tstring | Teui48 => Ok (VStr (suns_to_str E v))
  | Tfloat32 => let! f := suns_to_float E v in
                Ok (match f with Some x => VFlt x | None => VNone end)
  | _ => let! z := suns_to_int v in Ok (VInt z)
  end.
