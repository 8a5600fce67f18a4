(** * S_Stack: what connects the transports (registers) with the models (bytes) (specification, C73, C74). *)
From Verif Require Import Py M_Mbmap S_Mbmap M_Device S_Device M_Client M_Scan.
From Verif Require S_Client S_Modbus.

(** the byte view of a memory of 16-bit registers *)
Definition byte_view (regs : S_Modbus.memory) : S_Client.memory :=
  fun x => if Z.even x then regs (x / 2) / 256 else regs (x / 2) mod 256.

(** an entry of a device's map whose model is unknown, or has a good definition that fits its length *)
Definition readable (lfuel : nat) (types : Z -> res modeltype) (x : Z * Z * Z) : Prop :=
  let '(id, addr, len) := x in
  (exists e, types id = Raise e) \/
  (0 < len /\ snd (model_load lfuel types (new_model id addr len)) = Ok tt /\
   exists mt F, types id = Ok mt /\ fixed_length mt id len F /\ S_Client.good_def mt F).
(** a model after reading the device: the values decoded from the memory; unknown models stay as they are *)
Definition values_read (mem : S_Client.memory) (m m' : model) : Prop :=
  match md_type m with None => m' = m | Some _ => S_Client.model_read mem m m' end.
(** [b] is the first of the addresses tried at which the memory has the marker SunS *)
Definition first_marker (mem : S_Client.memory) (b : Z) : Prop :=
  exists pre post, [40000; 0; 50000] = pre ++ b :: post /\ Forall (fun a => S_Client.mem_bytes mem a 2 <> [83; 117; 110; 83]) pre.

(** a mapped device whose map has all registers from [lo] to [hi] *)
Definition map_holds (lo hi : Z) (m : mbmap) (mem : S_Client.memory) : Prop :=
  whole (m_regs m) /\ exists b, base_int (m_base m) = Ok b /\
  forall a, lo <= a < hi -> register (m_regs m) (a - b) = Some [mem (2 * a); mem (2 * a + 1)].
