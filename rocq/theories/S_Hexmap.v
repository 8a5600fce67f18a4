(** * S_Hexmap: hexadecimal register files (specification, C77). *)
From Verif Require Import Py S_Codec.

(** blanks within a line: spaces and tabs *)
Definition gap (w : str) : Prop := Forall (fun c => c = 32 \/ c = 9) w.
(** two-digit hexadecimal bytes with blanks between them *)
Inductive byte_line : str -> bytes -> Prop :=
| bl_end w : gap w -> byte_line w []
| bl_byte w c1 c2 v1 v2 s d :
    gap w -> digit_of 16 c1 v1 -> digit_of 16 c2 v2 -> (s = [] \/ exists r, s = 32 :: r \/ s = 9 :: r) -> byte_line s d ->
    byte_line (w ++ c1 :: c2 :: s) (16 * v1 + v2 :: d).
Inductive hex_line : str -> bytes -> Prop :=
| hl_bytes l d : byte_line l d -> hex_line l d
| hl_comment t : Forall (fun c => c <> 10 /\ c <> 13) t -> hex_line (35 :: t) [].   (* '#' *)
(** lines ended by LF or CR LF (the last one possibly not ended), and all their bytes *)
Inductive hex_file : str -> bytes -> Prop :=
| hf_last l d : hex_line l d -> hex_file l d
| hf_line l d nl s ds : hex_line l d -> nl = [10] \/ nl = [13; 10] -> hex_file s ds -> hex_file (l ++ nl ++ s) (d ++ ds).

(** the integers int(text, 16) reads in a text without blanks: an optional sign, an optional prefix 0x or 0X (possibly
    followed by one underscore), and hexadecimal digits with single underscores between them *)
Inductive hex_integer : str -> Z -> Prop :=
| hi_plain s n : hex_magnitude s n -> hex_integer s n
| hi_plus s n : hex_magnitude s n -> hex_integer (43 :: s) n
| hi_minus s n : hex_magnitude s n -> hex_integer (45 :: s) (- n)
with hex_magnitude : str -> Z -> Prop :=
| hm_digits s n : numeral 16 s n -> hex_magnitude s n
| hm_prefix p u s n : p = 120 \/ p = 88 -> u = [] \/ u = [95] -> numeral 16 s n -> hex_magnitude ([48; p] ++ u ++ s) n.
