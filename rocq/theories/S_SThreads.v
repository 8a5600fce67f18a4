(** * S_SThreads: calls of a single thread (specification, C109). *)
From Verif Require Import Py M_Wire M_Rtu S_Modbus M_SThreads.

(** what a call does and returns in a program with one thread *)
Definition sequential {D} (dev : sdev D) (slave : Z) (c : scall) (s : D) : D * sres :=
  match c with
  | SRead addr count op mc => let '(s', r) := rtu_read dev false true slave addr count op mc s in (s', RRead r)
  | SWrite addr data mc => let '(s', r) := rtu_write dev true slave addr data mc s in (s', RWrite r)
  end.
(** what is attached to the ports sends bytes *)
Definition sends_bytes {D} (dev : sdev D) : Prop :=
  forall s req s' w, dev s req = (s', Some w) -> Forall is_byte (w_bytes w).
Definition max_count_of (c : scall) : Z := match c with SRead _ _ _ mc => mc | SWrite _ _ mc => mc end.
(** registers to transfer *)
Definition size_of (c : scall) : Z := match c with SRead _ count _ _ => count | SWrite _ data _ => zlen data end.
(** threads about to call, each with a device on a port of its own *)
Definition own_ports {D} (w : sworld D) : Prop :=
  NoDup (map st_port (sw_threads w)) /\ Forall (fun t => st_pc t = begins (st_call t)) (sw_threads w).
(** turns thread [i] gets in a schedule *)
Definition turns (i : nat) (sched : list nat) : list nat := filter (Nat.eqb i) sched.
(** turns that are enough for a call *)
Definition enough (c : scall) : Z := 2 + 300 * Z.max 0 (size_of c).

(** a slave that holds the registers [mem] and serves the call, which is within the Modbus limits *)
Definition served {D} (dev : sdev D) (mem : D -> memory) (slave : Z) (c : scall) : Prop :=
  is_byte slave /\ (forall s, mem_ok (mem s)) /\
  match c with
  | SRead addr count op mc => serves_reads dev mem slave op /\ 0 <= op < 128 /\ 1 <= mc <= 125 /\ 0 <= count /\ 0 <= addr /\ addr + count <= 65536
  | SWrite addr data mc => exists lim, serves_writes dev mem slave lim /\ lim <= 127 /\ 1 <= mc <= lim /\ Forall is_byte data /\ zlen data mod 2 = 0 /\
                           0 <= addr /\ addr + zlen data / 2 <= 65536
  end.
(** what the call should return, and the registers it should leave *)
Definition right_answer (c : scall) (m : memory) : sres :=
  match c with SRead addr count _ _ => RRead (Ok (Some (regs m addr (Z.to_nat count)))) | SWrite _ _ _ => RWrite (Ok tt) end.
Definition right_effect (c : scall) (m : memory) : memory :=
  match c with SRead _ _ _ _ => m | SWrite addr data _ => store m addr data end.
