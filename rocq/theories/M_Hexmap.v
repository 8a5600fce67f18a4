(** * M_Hexmap: model of ModbusMap.from_hex, sunspec/core/modbus/mbmap.py:124-151.

    The file is given as the text open(name, 'r') decodes, or None if it cannot be opened or decoded.  Numerals are
    ASCII (as everywhere in this model).  The pathlist argument is ignored by the code. *)
From Coq Require Import String.
From Verif Require Import Py M_Suns M_Path M_Mbmap.

(** text mode with the default newline argument: '\r\n' and '\r' are read as '\n' *)
Fixpoint univ_newlines (s : str) : str :=
  match s with
  | [] => []
  | c :: r =>
    if c =? 13 then 10 :: match r with
                          | d :: r' => if d =? 10 then univ_newlines r' else univ_newlines r
                          | [] => []
                          end
    else c :: univ_newlines r
  end.
(** the lines, without the final newline.  (A line read from a file is never empty, so line[0] exists; a line that is
    just a newline, and the empty rest after the last newline, are [] here and have no effect either way.) *)
Fixpoint split_lines (s : str) : list str :=
  match s with
  | [] => [[]]
  | c :: r => if c =? 10 then [] :: split_lines r
              else match split_lines r with [] => [[c]] | w :: l => (c :: w) :: l end
  end.
(** str.split(): maximal runs of non-blank characters *)
Definition flush (w : str) (l : list str) : list str := match w with [] => l | _ => w :: l end.
Fixpoint split_words (w s : str) : list str :=
  match s with
  | [] => flush w []
  | c :: r => if is_space c then flush w (split_words [] r) else split_words (w ++ [c]) r
  end.
(** struct.pack('B', int(b, 16)), mbmap.py:136-141 *)
Fixpoint pack_words (ws : list str) : res bytes :=
  match ws with
  | [] => Ok []
  | w :: r => let! v := int_of_hex w in
              let! b := pack_int 1 false v in
              let! d := pack_words r in Ok (b ++ d)
  end.
(** mbmap.py:130-141 *)
Fixpoint hex_lines (ls : list str) : res bytes :=
  match ls with
  | [] => Ok []
  | l :: r =>
    let! a := match l with
              | c :: _ => if c =? 35 then Ok [] else pack_words (split_words [] l)
              | [] => Ok []
              end in
    let! d := hex_lines r in Ok (a ++ d)
  end.
(** mbmap.py:124-151: len(None) without any data is a TypeError, and every exception becomes a ModbusMapError.  The
    count is len(data)/2, a float; the block is appended without looking at the blocks the map has. *)
Definition map_from_hex (m : mbmap) (file : option str) : mbmap * res unit :=
  match file with
  | None => (m, Raise EModbusMap)
  | Some text =>
    match hex_lines (split_lines (univ_newlines text)) with
    | Raise _ => (m, Raise EModbusMap)
    | Ok [] => (m, Raise EModbusMap)
    | Ok data => (with_regs m (m_regs m ++ [mkRegs (NI 0) (NF (zlen data)) (Some data) ACCESS_RW]), Ok tt)
    end
  end.
