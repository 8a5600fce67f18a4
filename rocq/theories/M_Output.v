(** * M_Output: what the library itself prints while a mapped device is used: __str__ of ModbusMap and ModbusMapRegs
    (sunspec/core/modbus/mbmap.py:470-474, 609-611) and the print(self) of ModbusMap.read (mbmap.py:399-402).

    The library has three more print calls: ET.dump of a duplicate point definition (device.py:1179), and two debugging lines of
    Point.not_equal (device.py:596-598).  They are not modelled. *)
From Coq Require Import String.
From Verif Require Import Py M_Suns M_Float M_Mbmap M_Client M_Scan M_TypeText M_FloatText.

(** str() of an offset or count: an int, or a float with at most one binary digit after the point *)
Definition num_str (x : num) : str := match x with NI z => str_of_int z | NF h => py_repr (f64_of false h (-1)) end.
(** ModbusMapRegs.__str__, mbmap.py:609-611 *)
Definition regs_str (g : mregs) : str :=
  lit "  offset = "%string ++ num_str (g_offset g) ++ lit " count = "%string ++ num_str (g_count g) ++ lit " access = "%string ++ g_access g.
(** ModbusMap.__str__, mbmap.py:470-474.  [slave]: the slave_id of the map, which M_Mbmap leaves out. *)
Definition map_str (slave : option Z) (m : mbmap) : str :=
  lit "modbus_map: slave id = "%string ++ opt_int_str slave ++ lit " func = "%string ++ str_of_int (m_func m) ++
  lit " base_addr = "%string ++ base_str (m_base m) ++ flat_map (fun g => [10] ++ regs_str g) (m_regs m).
(** ModbusMap.read, mbmap.py:361-404, as M_Mbmap.map_read, with what it prints (each text followed by a line feed) *)
Definition map_read_out (slave : option Z) (m : mbmap) (addr count op : Z) : res bytes * list str :=
  if negb (op =? 0) && negb (op =? m_func m) then (Raise EModbusMap, [])
  else
    match base_int (m_base m) with
    | Raise e => (Raise e, [])
    | Ok base =>
      match read_regs (m_regs m) (NI (addr - base)) (NI count) [] with
      | Raise e => (Raise e, [])
      | Ok data => if zlen data =? 2 * count then (Ok data, []) else (Raise EModbusMap, [map_str slave m])
      end
    end.
(** ModbusClientDeviceMapped, modbus/client.py:998-1053, as M_Scan.map_client; the state also holds what has been printed so far *)
Definition printing_client (slave : option Z) : sclient (mbmap * list str) :=
  mkScl (mbmap * list str)
    (mkDev (mbmap * list str)
      (fun s a n => let '(r, o) := map_read_out slave (fst s) a n 0 in
                    ((fst s, snd s ++ o), match r with Ok d => Ok (Some d) | Raise e => Raise e end))
      (fun s a d => let '(m', r) := map_write (fst s) a d in ((m', snd s), r))) None.
