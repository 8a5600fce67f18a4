(** * M_Util: model of sunspec/core/util.py:37-154 (codecs). *)
From Verif Require Import Py.

(** util.py:37-59 — struct.unpack with '>h' '>H' '>l' '>L' '>q' '>Q'. *)
Definition data_to_s16 (d : bytes) : res Z := unpack_int 2 true d.   (* util.py:37-39 *)
Definition data_to_u16 (d : bytes) : res Z := unpack_int 2 false d.  (* util.py:41-43 *)
Definition data_to_s32 (d : bytes) : res Z := unpack_int 4 true d.   (* util.py:45-47 *)
Definition data_to_u32 (d : bytes) : res Z := unpack_int 4 false d.  (* util.py:49-51 *)
Definition data_to_s64 (d : bytes) : res Z := unpack_int 8 true d.   (* util.py:53-55 *)
Definition data_to_u64 (d : bytes) : res Z := unpack_int 8 false d.  (* util.py:57-59 *)

(** util.py:109-125 — struct.pack; the optional [len] argument is ignored by the code. *)
Definition s16_to_data (v : Z) : res bytes := pack_int 2 true v.     (* util.py:109-110 *)
Definition u16_to_data (v : Z) : res bytes := pack_int 2 false v.    (* util.py:112-113 *)
Definition s32_to_data (v : Z) : res bytes := pack_int 4 true v.     (* util.py:115-116 *)
Definition u32_to_data (v : Z) : res bytes := pack_int 4 false v.    (* util.py:118-119 *)
Definition s64_to_data (v : Z) : res bytes := pack_int 8 true v.     (* util.py:121-122 *)
Definition u64_to_data (v : Z) : res bytes := pack_int 8 false v.    (* util.py:124-125 *)

(** '{:02X}'.format(b) for a byte (Python format mini-language). *)
Definition hex_digit_up (n : Z) : Z := if n <? 10 then 48 + n else 55 + n.
Definition hex2_up (b : Z) : str := [hex_digit_up (b / 16); hex_digit_up (b mod 16)].

Definition colon : str := [58].

Fixpoint hex_all (d : bytes) : str :=
  match d with [] => [] | b :: r => hex2_up b ++ hex_all r end.

Definition any_nonzero (d : bytes) : bool := existsb (fun b => negb (b =? 0)) d.

(** util.py:61-73 — None unless some byte is non-zero and there are 16 bytes. *)
Definition data_to_ipv6addr (d : bytes) : option str :=
  if any_nonzero d && (length d =? 16)%nat then
    Some (hex_all (slice 0 4 d) ++ colon ++ hex_all (slice 4 8 d) ++ colon ++
          hex_all (slice 8 12 d) ++ colon ++ hex_all (slice 12 16 d))
  else None.

(** 'XX:XX:...:XX' *)
Fixpoint hex_colon (d : bytes) : str :=
  match d with
  | [] => []
  | [b] => hex2_up b
  | b :: r => hex2_up b ++ colon ++ hex_colon r
  end.

(** util.py:75-86 — None unless some byte is non-zero and there are 8 bytes. *)
Definition data_to_eui48 (d : bytes) : option str :=
  if any_nonzero d && (length d =? 8)%nat then Some (hex_colon (slice 2 8 d)) else None.

(** [s.replace(':', '')] *)
Definition strip_colons (s : str) : str := filter (fun c => negb (c =? 58)) s.

(** base64.b16decode (standard library): ASCII upper-case hex digits only, even length. *)
Definition hex_val_up (c : Z) : option Z :=
  if (48 <=? c) && (c <=? 57) then Some (c - 48)
  else if (65 <=? c) && (c <=? 70) then Some (c - 55) else None.

Fixpoint unhex_up (s : str) : res bytes :=
  match s with
  | [] => Ok []
  | [_] => Raise EBinascii
  | a :: b :: r =>
      match hex_val_up a, hex_val_up b with
      | Some x, Some y => let! t := unhex_up r in Ok ((x * 16 + y) :: t)
      | _, _ => Raise EBinascii
      end
  end.

Definition b16decode (s : str) : res bytes :=
  if forallb (fun c => (0 <=? c) && (c <? 128)) s
  then if forallb (fun c => match hex_val_up c with Some _ => true | None => false end) s
       then unhex_up s else Raise EBinascii
  else Raise EValue.

(** util.py:127-131 *)
Definition ipv6addr_to_data (addr : str) (slen : option Z) : res bytes :=
  let! s := b16decode (strip_colons addr) in
  let n := match slen with Some n => n | None => zlen s end in
  pack_s n s.

(** util.py:153-154 — one argument only; callers that pass a length get a TypeError
    (see [M_Suns.to_data]). *)
Definition eui48_to_data (eui48 : str) : res bytes :=
  let! s := b16decode (strip_colons eui48) in Ok ([0; 0] ++ s).

(** [s.rstrip('\0')] *)
Fixpoint rstrip0 (s : str) : str :=
  match s with
  | [] => []
  | c :: r => match rstrip0 r with
              | [] => if c =? 0 then [] else [c]
              | r' => c :: r'
              end
  end.

(** util.py:98-107 — latin-1 decoding is the identity on byte values. *)
Definition data_to_str (d : bytes) : str :=
  match d with
  | c :: ((_ :: _) as r) => c :: rstrip0 r
  | _ => d
  end.

(** util.py:143-151 *)
Definition str_to_data (s : str) (slen : option Z) : res bytes :=
  let n := match slen with Some n => n | None => zlen s end in
  let! b := latin1_encode s in
  if n <? 16 then pack_s (n + 1) (b ++ [0]) else pack_s n b.
