(** * S_Mbmap: Modbus register maps (specification, C14-C21). *)
From Coq Require Import String.
From Verif Require Import Py S_Codec M_Util M_Suns M_Float M_Xml M_Mbmap.

(** blocks in strictly ascending order, none overlapping or touching another; positions are
    compared through [num2] (twice the number, which may be a float) *)
Definition ascending (l : list mregs) : Prop :=
  ForallOrdPairs (fun g h => num2 (g_offset g) + num2 (g_count g) < num2 (g_offset h)) l /\
  Forall (fun g => 0 <= num2 (g_offset g) /\ 0 <= num2 (g_count g)) l.

(** a block with integer bounds that has exactly its two bytes per register *)
Definition whole_block (g : mregs) : Prop :=
  exists o c d, g_offset g = NI o /\ g_count g = NI c /\ g_data g = Some d /\ 0 <= c /\ zlen d = 2 * c /\ Forall is_byte d.
Definition whole (l : list mregs) : Prop := ascending l /\ Forall whole_block l.

(** the register at an offset: the two bytes stored for it, if some block has it *)
Definition num_z (n : num) : Z := num2 n / 2.
Definition has_reg (o : Z) (g : mregs) : bool := (num_z (g_offset g) <=? o) && (o <? num_z (g_offset g) + num_z (g_count g)).
Definition block_bytes (g : mregs) : bytes := match g_data g with Some d => d | None => [] end.
Definition block_word (g : mregs) (o : Z) : bytes :=
  let i := 2 * (o - num_z (g_offset g)) in slice i (i + 2) (block_bytes g).
Definition register (l : list mregs) (o : Z) : option bytes :=
  option_map (fun g => block_word g o) (find (has_reg o) l).

(** n consecutive registers: their bytes in order, if all exist *)
Fixpoint registers (l : list mregs) (o : Z) (n : nat) : option bytes :=
  match n with
  | O => Some []
  | S n' => match register l o, registers l (o + 1) n' with
            | Some w, Some r => Some (w ++ r)
            | _, _ => None
            end
  end.
(** how many of n registers from o on exist without a gap *)
Fixpoint available (l : list mregs) (o : Z) (n : nat) : nat :=
  match n with
  | O => O
  | S n' => match register l o with Some _ => S (available l (o + 1) n') | None => O end
  end.

(** ** what a <regs> element declares *)
Definition elem_type (r : xml) : str := dget_default A_TYPE (lit "hexstr"%string) r.
Definition elem_text (r : xml) (dflt : str) : str := match x_text r with Some (c :: t) => c :: t | _ => dflt end.
Definition no_blanks (s : str) : str := filter (fun c => negb (c =? 32)) s.
Definition elem_len (r : xml) (n : Z) : Prop := exists s, x_get A_LEN r = Some s /\ int_of_str s = Ok n.

(** hexadecimal text, two digits per byte *)
Inductive hex_text : str -> bytes -> Prop :=
| hex_nil : hex_text [] []
| hex_cons c1 c2 v1 v2 s d : digit_of 16 c1 v1 -> digit_of 16 c2 v2 -> hex_text s d ->
    hex_text (c1 :: c2 :: s) (16 * v1 + v2 :: d).

(** integer types: width in bytes and signedness *)
Definition int_elem_type (t : str) : option (nat * bool) :=
  if eqb_list t (lit "s16"%string) then Some (2%nat, true)
  else if eqb_list t (lit "u16"%string) then Some (2%nat, false)
  else if eqb_list t (lit "s32"%string) then Some (4%nat, true)
  else if eqb_list t (lit "u32"%string) then Some (4%nat, false)
  else if eqb_list t (lit "s64"%string) then Some (8%nat, true)
  else if eqb_list t (lit "u64"%string) then Some (8%nat, false) else None.

(** the bytes an element stands for *)
Inductive declares (E : pyenv) (r : xml) : bytes -> Prop :=
| decl_int w sgn v :                (* no text: 0 *)
    int_elem_type (elem_type r) = Some (w, sgn) -> int_literal (elem_text r [48]) v ->
    int_lo w sgn <= v <= int_hi w sgn -> declares E r (be_bytes w v)
| decl_f32 f d :
    elem_type r = lit "f32"%string -> float_parse E (elem_text r [48]) = Some f -> float_to_data32 f = Ok d -> declares E r d
| decl_f64 f d :
    elem_type r = lit "f64"%string -> float_parse E (elem_text r [48]) = Some f -> float_to_data f = Ok d -> declares E r d
| decl_string n :                   (* cut or padded with NUL *)
    elem_type r = lit "string"%string -> elem_len r n -> 0 < n -> Forall is_byte (elem_text r []) ->
    declares E r (ztake (2 * n) (elem_text r []) ++ repeat 0 (Z.to_nat (2 * n - zlen (elem_text r []))))
| decl_hex n d :                    (* padded with zeros *)
    elem_type r = lit "hexstr"%string -> elem_len r n -> 0 < n -> hex_text (no_blanks (elem_text r [])) d ->
    zlen d <= 2 * n -> zlen d mod 2 = 0 ->
    declares E r (d ++ repeat 0 (Z.to_nat (2 * n - zlen d))).

(** elements with a length attribute, if they need one, that their text fits *)
Definition fits (r : xml) : Prop :=
  elem_type r = lit "hexstr"%string -> exists n d, elem_len r n /\ 0 < n /\
    hex_text (no_blanks (elem_text r [])) d /\ zlen d <= 2 * n.

(** declared placement of a list of elements: an element without offset follows the one before *)
Inductive layout (E : pyenv) : Z -> list xml -> list (Z * bytes) -> Prop :=
| lay_nil next : layout E next [] []
| lay_cons next r rs o d ds :
    match x_get A_OFFSET r with None => o = next | Some s => int_of_str s = Ok o end ->
    declares E r d -> layout E (o + zlen d / 2) rs ds -> layout E next (r :: rs) ((o, d) :: ds).

(** non-negative len attributes *)
Definition len_nonneg (r : xml) : Prop := forall s n, x_get A_LEN r = Some s -> int_of_str s = Ok n -> 0 <= n.

(** what a program can do with a map *)
Inductive mop :=
| MLoad (root : xml)
| MAdd (addr offset : option Z) (count : Z) (access : str)
| MWrite (addr : Z) (data : bytes)
| MRead (addr count op : Z).
Definition map_step (E : pyenv) (m : mbmap) (o : mop) : mbmap :=
  match o with
  | MLoad root => fst (map_from_xml E m root)
  | MAdd addr offset count access => fst (regs_add m addr offset count access)
  | MWrite addr data => fst (map_write m addr data)
  | MRead _ _ _ => m
  end.
Definition map_run (E : pyenv) (ops : list mop) (m : mbmap) : mbmap := fold_left (map_step E) ops m.
Definition op_len_ok (o : mop) : Prop :=
  match o with MLoad root => Forall len_nonneg (findall T_REGS root) | _ => True end.
