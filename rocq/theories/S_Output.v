(** * S_Output: what a program with a mapped device makes the library print (specification, C120). *)
From Coq Require Import String.
From Verif Require Import Py M_Util M_Suns M_Mbmap S_Mbmap M_Client M_Scan.

(** the registers at [addr] .. [addr + count - 1] are in the map, whose base address is [base] *)
Definition in_map (m : mbmap) (base : Z) (q : Z * Z) : Prop :=
  let '(addr, count) := q in 0 <= count /\ forall a, addr <= a < addr + count -> register (m_regs m) (a - base) <> None.
(** one [text] for every request that is not [held], in order *)
Inductive one_each (held : Z * Z -> Prop) (text : str) : list (Z * Z) -> list str -> Prop :=
| oe_nil : one_each held text [] []
| oe_held q l o : held q -> one_each held text l o -> one_each held text (q :: l) o
| oe_lacks q l o : ~ held q -> one_each held text l o -> one_each held text (q :: l) (text :: o).
(** a mapped device that notes the reads it is asked for *)
Definition noting_client : sclient (mbmap * list (Z * Z)) :=
  mkScl (mbmap * list (Z * Z))
    (mkDev (mbmap * list (Z * Z))
      (fun s a n => let '(m', r) := dv_read (scl_dev map_client) (fst s) a n in ((m', snd s ++ [(a, n)]), r))
      (fun s a d => let '(m', r) := dv_write (scl_dev map_client) (fst s) a d in ((m', snd s), r))) None.
(** what the text of a map is to tell *)
Definition map_layout (slave : option Z) (m : mbmap) :=
  (slave, m_func m, match m_base m with BInt z => str_of_int z | BStr s => s end, map (fun g => (num2 (g_offset g), num2 (g_count g), g_access g)) (m_regs m)).
