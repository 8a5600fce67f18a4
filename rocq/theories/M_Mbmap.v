(** * M_Mbmap: model of sunspec/core/modbus/mbmap.py (ModbusMap, ModbusMapRegs).

    Reading files (mbmap.py:170-178) is in M_Files and parsing XML text in M_XmlText: from_xml is given the
    root element.  Python 3.  Slave id is left out; __str__ and what read prints are in M_Output. *)
From Coq Require Import String.
From Verif Require Import Py M_Suns M_Float M_Xml.

(** mbmap.py:36-60 *)
Definition A_ADDR := lit "addr"%string.
Definition A_FUNC := lit "func"%string.
Definition V_INPUT := lit "input"%string.
Definition V_HOLDING := lit "holding"%string.
Definition A_NS := lit "ns"%string.
Definition A_LID := lit "lid"%string.
Definition A_MAPID := lit "mapid"%string.
Definition A_TIME := lit "time"%string.
Definition T_MBMAP := lit "mbmap"%string.
Definition T_REGS := lit "regs"%string.
Definition A_OFFSET := lit "offset"%string.
Definition A_LEN := lit "len"%string.
Definition A_TYPE := lit "type"%string.
Definition A_ACCESS := lit "access"%string.
Definition ACCESS_R := lit "r"%string.
Definition ACCESS_RW := lit "rw"%string.

(** func_value and func_name, mbmap.py:66-67 *)
Definition func_value (f : str) : option Z :=
  if eqb_list f V_INPUT then Some 4 else if eqb_list f V_HOLDING then Some 3 else None.
Definition func_name (f : Z) : str := if f =? 4 then V_INPUT else V_HOLDING.

(** ModbusMapRegs, mbmap.py:514-518.  [data] can be None; counts (and, in principle, offsets) can
    be floats because they come out of a division. *)
Record mregs := mkRegs { g_offset : num; g_count : num; g_data : option bytes; g_access : str }.
(** base_addr is an int by default and the attribute text after from_xml *)
Inductive mbase := BInt (z : Z) | BStr (s : str).
(** ModbusMap, mbmap.py:107-121 *)
Record mbmap := mkMap { m_func : Z; m_base : mbase; m_ns : option str; m_lid : option str;
  m_mapid : option str; m_time : option str; m_regs : list mregs }.
(** mbmap.py:107-121 *)
Definition new_map (func : str) (base : Z) : res mbmap :=
  match func_value func with
  | None => Raise EModbusMap
  | Some f => Ok (mkMap f (BInt base) None None None None [])
  end.

(** int(self.base_addr) *)
Definition base_int (b : mbase) : res Z := match b with BInt z => Ok z | BStr s => int_of_str s end.

Definition regs_end (g : mregs) : num := num_add (g_offset g) (g_count g).

(** ** ModbusMapRegs *)

(** mbmap.py:520-546; the result None of Python (nothing to read) is [Ok None] *)
Definition regs_read (g : mregs) (offset count : num) : res (option bytes) :=
  let fin := regs_end g in
  if num_leb (g_offset g) offset && num_ltb offset fin then
    let read_count := if num_ltb fin (num_add offset count) then num_sub fin offset else count in
    if num_ltb (NI 0) read_count then
      let start := num_double (num_sub offset (g_offset g)) in
      let stop := num_add start (num_double read_count) in
      match g_data g with
      | None => Raise EType
      | Some d =>
        let! a := num_index start in
        let! b := num_index stop in
        Ok (Some (py_slice a b d))
      end
    else Ok None
  else Raise EModbusMap.

(** mbmap.py:548-565; count = len(data)/2 is a float *)
Definition regs_write (g : mregs) (offset : num) (data : bytes) : res mregs :=
  let count := NF (zlen data) in
  if num_leb (g_offset g) offset && num_leb (num_add offset count) (regs_end g) then
    let start := num_double (num_sub offset (g_offset g)) in
    let stop := num_int (num_add start (num_double count)) in
    match g_data g with
    | None => Raise EType
    | Some d =>
      let! a := num_index start in
      Ok (mkRegs (g_offset g) (g_count g) (Some (ztake (py_bound a d) d ++ data ++ zdrop (py_bound stop d) d)) (g_access g))
    end
  else Raise EModbusMap.

(** mbmap.py:567-588: None + bytes and bytes + None are TypeErrors *)
Definition regs_append (g : mregs) (count : num) (data : option bytes) : res mregs :=
  match g_data g, data with
  | Some a, Some b => Ok (mkRegs (g_offset g) (num_add (g_count g) count) (Some (a ++ b)) (g_access g))
  | _, _ => Raise EType
  end.

(** ** reading and writing the map *)

(** the for loop of mbmap.py:384-397 *)
Fixpoint read_regs (l : list mregs) (offset remaining : num) (data : bytes) : res bytes :=
  match l with
  | [] => Ok data
  | g :: l' =>
    if num_ltb (NI 0) remaining then
      let fin := regs_end g in
      if num_leb (g_offset g) offset && num_ltb offset fin then
        let rc0 := num_sub fin offset in
        let rc := if num_ltb remaining rc0 then remaining else rc0 in
        let! d := regs_read g offset rc in
        match d with
        | None => Raise EType
        | Some d => read_regs l' (num_add offset rc) (num_sub remaining rc) (data ++ d)
        end
      else read_regs l' offset remaining data
    else Ok data
  end.
(** ModbusMap.read, mbmap.py:361-404; [op] 0 stands for None *)
Definition map_read (m : mbmap) (addr count op : Z) : res bytes :=
  if negb (op =? 0) && negb (op =? m_func m) then Raise EModbusMap
  else
    let! base := base_int (m_base m) in
    let! data := read_regs (m_regs m) (NI (addr - base)) (NI count) [] in
    if zlen data =? 2 * count then Ok data else Raise EModbusMap.

(** the for loop of mbmap.py:426-444: the blocks afterwards, and what is left to write *)
Fixpoint write_regs (l : list mregs) (offset remaining data_offset : num) (data : bytes) : list mregs * res num :=
  match l with
  | [] => ([], Ok remaining)
  | g :: l' =>
    if num_ltb (NI 0) remaining then
      let fin := regs_end g in
      if num_leb (g_offset g) offset && num_ltb offset fin then
        let wc0 := num_sub fin offset in
        let wc := if num_ltb remaining wc0 then remaining else wc0 in
        match num_index data_offset with
        | Raise e => (l, Raise e)
        | Ok start =>
          let stop := num_int (num_add data_offset (num_double wc)) in
          match regs_write g offset (py_slice start stop data) with
          | Raise e => (l, Raise e)
          | Ok g' =>
            let '(l2, r) := write_regs l' (num_add offset wc) (num_sub remaining wc) (num_add data_offset wc) data in
            (g' :: l2, r)
          end
        end
      else let '(l2, r) := write_regs l' offset remaining data_offset data in (g :: l2, r)
    else (l, Ok remaining)
  end.
Definition with_regs (m : mbmap) (l : list mregs) : mbmap :=
  mkMap (m_func m) (m_base m) (m_ns m) (m_lid m) (m_mapid m) (m_time m) l.
(** ModbusMap.write, mbmap.py:406-448; an exception leaves what was written before it *)
Definition map_write (m : mbmap) (addr : Z) (data : bytes) : mbmap * res unit :=
  if negb (zlen data mod 2 =? 0) then (m, Raise EModbusMap)
  else
    match base_int (m_base m) with
    | Raise e => (m, Raise e)
    | Ok base =>
      let '(l, r) := write_regs (m_regs m) (NI (addr - base)) (NF (zlen data)) (NI 0) data in
      (with_regs m l, match r with
                      | Raise e => Raise e
                      | Ok remaining => if num_ltb (NI 0) remaining then Raise EModbusMap else Ok tt
                      end)
    end.

(** ** building a map *)

(** the two loops' common end: start a new block or append to the last one, mbmap.py:286-292, 351-357.
    The list is kept in document order; [rev] gives the last block. *)
Definition last_next (l : list mregs) : option mregs * num :=
  match rev l with
  | [] => (None, NI 0)
  | g :: _ => (Some g, regs_end g)
  end.
Definition put_regs (l : list mregs) (offset count : num) (data : option bytes) (access : str) : res (list mregs) :=
  let '(lastg, next) := last_next l in
  match lastg with
  | Some g =>
    if num_ltb next offset then Ok (l ++ [mkRegs offset count data access])
    else let! g' := regs_append g count data in Ok (removelast l ++ [g'])
  | None => Ok (l ++ [mkRegs offset count data access])
  end.

(** ModbusMap.regs_add, mbmap.py:332-359, for an integer count.  Comparing an int address with a
    text base address, or None with an int, is a TypeError. *)
Definition regs_add (m : mbmap) (addr offset : option Z) (count : Z) (access : str) : mbmap * res unit :=
  let off :=
    match addr with
    | Some a => match m_base m with
                | BInt b => if a <? b then Raise EModbusMap else Ok (a - b)
                | BStr _ => Raise EType
                end
    | None => match offset with Some o => Ok o | None => Raise EType end
    end in
  match off with
  | Raise e => (m, Raise e)
  | Ok o =>
    if num_ltb (NI o) (snd (last_next (m_regs m))) then (m, Raise EModbusMap)
    else match pack_s (2 * count) [] with
         | Raise e => (m, Raise e)
         | Ok d => match put_regs (m_regs m) (NI o) (NI count) (Some d) access with
                   | Raise e => (m, Raise e)
                   | Ok l => (with_regs m l, Ok tt)
                   end
         end
  end.

(** int(text, 16) *)
Definition parse_hex_mag (s : str) : option Z :=
  match s with
  | z :: c :: r => if (z =? 48) && is_prefix c 120 88 then parse_digits 16 (skip_under r) false 0
                   else parse_digits 16 s false 0
  | _ => parse_digits 16 s false 0
  end.
Definition int_of_hex (s : str) : res Z := parse_signed parse_hex_mag (strip_blank s).

(** the loop of mbmap.py:267-274 over the text two characters at a time *)
Fixpoint hex_bytes (fuel : nat) (s : str) : res bytes :=
  match fuel, s with
  | _, [] => Ok []
  | O, _ => Raise EFuel
  | S k, _ =>
    let! v := int_of_hex (ztake 2 s) in
    let! b := pack_int 1 false v in
    let! r := hex_bytes k (zdrop 2 s) in
    Ok (b ++ r)
  end.

(** data and length of one <regs> element, mbmap.py:217-282.  [rlen0] is the len attribute. *)
Definition regs_data (E : pyenv) (rtype : str) (rlen0 : Z) (text0 : option str) : res (option bytes * num) :=
  let is t := eqb_list rtype (lit t) in
  let text := match text0 with
              | Some (c :: r) => c :: r
              | _ => if is "string"%string || is "hexstr"%string then [] else [48]
              end in
  let int_data (w : nat) (sgn : bool) (n : Z) :=
    let! v := int_of_str0 text in
    let! d := pack_int w sgn v in Ok (Some d, NI n) in
  let flt_data (pack : flt -> res bytes) (n : Z) :=
    match float_parse E text with
    | None => Raise EValue
    | Some f => let! d := pack f in Ok (Some d, NI n)
    end in
  if is "s16"%string then int_data 2%nat true 1
  else if is "u16"%string then int_data 2%nat false 1
  else if is "s32"%string then int_data 4%nat true 2
  else if is "u32"%string then int_data 4%nat false 2
  else if is "s64"%string then int_data 8%nat true 4
  else if is "u64"%string then int_data 8%nat false 4
  else if is "f32"%string then flt_data pack_f 2
  else if is "f64"%string then flt_data pack_d 4
  else if is "string"%string then
    (* rlen = (len(text)+3)/4 is a float, whose format '2.0s' struct rejects *)
    if rlen0 =? 0 then let! _ := latin1_encode text in Raise EStruct
    else
      let! b := latin1_encode text in
      let! d := pack_s (2 * rlen0) b in Ok (Some d, NI rlen0)
  else if is "hexstr"%string then
    let text' := filter (fun c => negb (c =? 32)) text in
    let text_len := zlen text' in
    if negb (text_len mod 4 =? 0) then Raise EModbusMap
    else
      let rlen := if rlen0 =? 0 then NF (text_len / 2) else NI rlen0 in
      let! b := hex_bytes (List.length text') text' in
      let data := match text' with [] => None | _ => Some b end in
      (* 2 * int(rlen - text_len/4) *)
      let padding := 2 * num_int (num_sub rlen (NF (text_len / 2))) in
      if 0 <? padding
      then Ok (Some (match data with None => [] | Some d => d end ++ repeat 0 (Z.to_nat padding)), rlen)
      else Ok (data, rlen)
  else Raise EModbusMap.

Definition dget_default (k : str) (dflt : str) (x : xml) : str :=
  match x_get k x with Some v => v | None => dflt end.

(** one iteration of the loop of mbmap.py:195-292.  All exceptions become ModbusMapError (294-295),
    except that the message needs [offset] to be a number: an offset attribute that is not an
    integer makes the formatting itself a TypeError. *)
Definition load_regs1 (E : pyenv) (l : list mregs) (next_offset : num) (r : xml) : res (list mregs * num) :=
  match match x_get A_OFFSET r with
        | None => Ok next_offset
        | Some s => match int_of_str s with Ok z => Ok (NI z) | Raise _ => Raise EType end
        end with
  | Raise e => Raise e
  | Ok offset =>
    match
      (let! rlen := match x_get A_LEN r with None => Ok 0 | Some s => int_of_str s end in
      let rtype := dget_default A_TYPE (lit "hexstr"%string) r in
      let access := dget_default A_ACCESS ACCESS_R r in
      if num_ltb offset (snd (last_next l)) then Raise EModbusMap
      else
        let! (data, n) := regs_data E rtype rlen (x_text r) in
        let! l' := put_regs l offset n data access in
        Ok (l', num_add offset n))
    with
    | Ok x => Ok x
    | Raise _ => Raise EModbusMap
    end
  end.
Fixpoint load_regs (E : pyenv) (l : list mregs) (next_offset : num) (rs : list xml) : list mregs * res unit :=
  match rs with
  | [] => (l, Ok tt)
  | r :: rs' =>
    match load_regs1 E l next_offset r with
    | Raise e => (l, Raise e)
    | Ok (l', next') => load_regs E l' next' rs'
    end
  end.
(** ModbusMap.from_xml(element=root), mbmap.py:153-295; what was loaded before an error stays *)
Definition map_from_xml (E : pyenv) (m : mbmap) (root : xml) : mbmap * res unit :=
  match func_value (dget_default A_FUNC V_HOLDING root) with
  | None => (m, Raise EModbusMap)
  | Some f =>
    let base := match x_get A_ADDR root with Some s => BStr s | None => BInt 40000 end in
    let '(l, r) := load_regs E (m_regs m) (NI 0) (findall T_REGS root) in
    (mkMap f base (x_get A_NS root) (x_get A_LID root) (x_get A_MAPID root) (x_get A_TIME root) l, r)
  end.

(** '%02x' % b *)
Definition hex_digit_lo (n : Z) : Z := if n <? 10 then 48 + n else 87 + n.
Definition hex2_lo (b : Z) : str := [hex_digit_lo (b / 16); hex_digit_lo (b mod 16)].
(** str(n): floats with an integral value print as '2.0'; others as 'n.5' *)
Definition str_of_num (n : num) : str :=
  match n with
  | NI z => str_of_int z
  | NF h => (if h <? 0 then [45] else []) ++ dec_nonneg (Z.abs h / 2) ++ [46; if Z.even h then 48 else 53]
  end.
Definition opt_attr (k : str) (v : option str) : list (str * str) :=
  match v with Some s => [(k, s)] | None => [] end.
(** the <regs> element of a block, mbmap.py:316-328 (no_data False); iterating None is a TypeError *)
Definition regs_to_xml (g : mregs) : res xml :=
  match g_data g with
  | None => Raise EType
  | Some d => Ok (XE T_REGS [(A_OFFSET, str_of_num (g_offset g)); (A_LEN, str_of_num (g_count g))]
                     (Some (concat (map hex2_lo d))) None [])
  end.
Fixpoint map_res {A B} (f : A -> res B) (l : list A) : res (list B) :=
  match l with
  | [] => Ok []
  | x :: r => let! y := f x in let! ys := map_res f r in Ok (y :: ys)
  end.
(** ModbusMap.to_xml(), mbmap.py:297-330 *)
Definition map_to_xml (m : mbmap) : res xml :=
  let! cs := map_res regs_to_xml (m_regs m) in
  Ok (XE T_MBMAP
        ([(A_ADDR, match m_base m with BInt z => str_of_int z | BStr s => s end); (A_FUNC, func_name (m_func m))]
         ++ opt_attr A_NS (m_ns m) ++ opt_attr A_LID (m_lid m) ++ opt_attr A_MAPID (m_mapid m) ++ opt_attr A_TIME (m_time m))
        None None cs).

(** ModbusMapRegs.not_equal, mbmap.py:590-607: [true] if a difference is reported.  Indexing past
    the end of the other data is an IndexError, len(None) a TypeError. *)
Fixpoint data_differs (a b : bytes) : res bool :=
  match a, b with
  | [], _ => Ok false
  | x :: a', y :: b' => if x =? y then data_differs a' b' else Ok true
  | _ :: _, [] => Raise EIndex
  end.
Definition opt_bytes_eqb (a b : option bytes) : bool :=
  match a, b with Some x, Some y => eqb_list x y | None, None => true | _, _ => false end.
Definition regs_not_equal (g h : mregs) : res bool :=
  if negb (num_eqb (g_offset g) (g_offset h)) then Ok true
  else if negb (num_eqb (g_count g) (g_count h)) then Ok true
  else
    let! d := if opt_bytes_eqb (g_data g) (g_data h) then Ok false
              else match g_data g, g_data h with
                   | Some a, Some b => data_differs a b
                   | Some [], None => Ok false
                   | _, _ => Raise EType
                   end in
    if d then Ok true else Ok (negb (eqb_list (g_access g) (g_access h))).
Definition base_eqb (a b : mbase) : bool :=
  match a, b with BInt x, BInt y => x =? y | BStr x, BStr y => eqb_list x y | _, _ => false end.
Fixpoint regs_list_not_equal (a b : list mregs) : res bool :=
  match a, b with
  | g :: a', h :: b' => let! d := regs_not_equal g h in if d then Ok true else regs_list_not_equal a' b'
  | _, _ => Ok false
  end.
(** ModbusMap.not_equal, mbmap.py:450-468 *)
Definition map_not_equal (m n : mbmap) : res bool :=
  if negb (base_eqb (m_base m) (m_base n)) then Ok true
  else if negb (m_func m =? m_func n) then Ok true
  else if negb (List.length (m_regs m) =? List.length (m_regs n))%nat then Ok true
  else regs_list_not_equal (m_regs m) (m_regs n).
