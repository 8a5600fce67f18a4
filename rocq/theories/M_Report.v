(** * M_Report: the text report of scripts/suns.py:84-116.

    The command line, the timestamp line and the construction of the device are not modelled here (M_Construct,
    M_Wrapper); the report is a function of the models of the device after sd.read().  A print is one line of output;
    an exception ends the script after what was printed before it. *)
From Coq Require Import String.
From Verif Require Import Py M_Util M_Float M_Suns M_Point M_Mbmap M_Device M_Smdx.

(** '%-40s' and '%20s': blanks after or before, nothing is cut *)
Definition ljust (n : nat) (s : str) : str := s ++ repeat 32 (n - length s).
Definition rjust (n : nat) (s : str) : str := repeat 32 (n - length s) ++ s.
(** lower case hexadecimal digits of a number, no leading zeros *)
Definition hex_digit_low (n : Z) : Z := if n <? 10 then 48 + n else 87 + n.
Fixpoint hex_low (fuel : nat) (n : Z) : str :=
  match fuel with
  | O => []
  | S f => if n <? 16 then [hex_digit_low n] else hex_low f (n / 16) ++ [hex_digit_low (n mod 16)]
  end.
Definition hex_nonneg (n : Z) : str := hex_low (S (Z.to_nat (Z.log2 n))) n.
(** '0x%04x' and '0x%08x': zeros up to the width, the sign included; a float or a text is a TypeError *)
Definition format_hex (w : nat) (v : value) : res str :=
  match v with
  | VInt z => Ok (lit "0x"%string ++ (if z <? 0 then 45 :: zfill (w - 1) (hex_nonneg (- z)) else zfill w (hex_nonneg z)))
  | _ => Raise EType
  end.
(** the truth value of an optional text *)
Definition text_set (s : option str) : option str := match s with Some (c :: r) => Some (c :: r) | _ => None end.

(** '%02d:' or three blanks, suns.py:97-100 *)
Definition index_text (index : Z) : str :=
  if 0 <? index then zfill 2 (dec_nonneg index) ++ lit ":"%string else lit "   "%string.
(** suns.py:103-106 *)
Definition point_label (index : Z) (t : pointtype) : str :=
  match text_set (pt_label t) with
  | Some l => lit "   "%string ++ index_text index ++ l ++ lit " ("%string ++ pt_id t ++ lit "):"%string
  | None => lit "   "%string ++ index_text index ++ lit "("%string ++ pt_id t ++ lit "):"%string
  end.
(** suns.py:110-115 *)
Definition value_text (E : pyenv) (t : ptype) (v : value) : res str :=
  match t with
  | Tbitfield16 => format_hex 4 v
  | Tbitfield32 => format_hex 8 v
  | _ => Ok (rstrip0 (suns_to_str E v))
  end.
(** one point, suns.py:101-116: the line printed, if any *)
Definition point_line (E : pyenv) (index : Z) (p : point) : res (option str) :=
  let! v := value_getter E (p_base p) (p_sf p) in
  if is_none v then Ok None
  else
    let units := match pt_units (p_type p) with Some u => u | None => [] end in
    let! x := value_text E (pt_type (p_type p)) v in
    Ok (Some (ljust 40 (point_label index (p_type p)) ++ [32] ++ rjust 20 x ++ [32] ++ ljust 10 units)).
(** the loops, suns.py:96-116 *)
Fixpoint point_lines (E : pyenv) (index : Z) (l : list point) : list str * res unit :=
  match l with
  | [] => ([], Ok tt)
  | p :: r =>
    match point_line E index p with
    | Raise e => ([], Raise e)
    | Ok o => let '(ls, x) := point_lines E index r in
              (match o with Some s => s :: ls | None => ls end, x)
    end
  end.
Fixpoint block_lines (E : pyenv) (l : list block) : list str * res unit :=
  match l with
  | [] => ([], Ok tt)
  | b :: r =>
    match point_lines E (b_index b) (b_points b) with
    | (ls, Raise e) => (ls, Raise e)
    | (ls, Ok _) => let '(ls', x) := block_lines E r in (ls ++ ls', x)
    end
  end.
(** '\nmodel: %s\n', suns.py:91-95 *)
Definition model_header (t : modeltype) (id : Z) : str :=
  [10] ++ lit "model: "%string ++
  (match text_set (mt_label t) with
   | Some l => l ++ lit " ("%string ++ str_of_int id ++ lit ")"%string
   | None => lit "("%string ++ str_of_int id ++ lit ")"%string
   end) ++ [10].
(** suns.py:90-116; model.model_type.label of a model without a type is an AttributeError *)
Fixpoint report (E : pyenv) (l : list model) : list str * res unit :=
  match l with
  | [] => ([], Ok tt)
  | m :: r =>
    match md_type m with
    | None => ([], Raise EAttr)
    | Some t =>
      match block_lines E (md_blocks m) with
      | (ls, Raise e) => (model_header t (md_id m) :: ls, Raise e)
      | (ls, Ok _) => let '(ls', x) := report E r in (model_header t (md_id m) :: ls ++ ls', x)
      end
    end
  end.
