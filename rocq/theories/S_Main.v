(** * S_Main: what the program scripts/suns.py should print (C105). *)
From Coq Require Import String.
From Verif Require Import Py M_Xml M_Suns M_Mbmap M_Path M_Files S_Files M_Device M_Client M_Wire M_Tcp S_Tcp M_Wrapper S_Wrapper S_Client S_Scan S_Stack S_Report M_Main.

(** the model of an entry of the register map, with the values its registers decode to *)
Definition as_read (lfuel : nat) (types : Z -> res modeltype) (mem : memory) (x : Z * Z * Z) (m' : model) : Prop :=
  exists m, model_for lfuel types x m /\ values_read mem m m'.
(** definitions with a name of its own, and named repeating blocks *)
Definition presentable (types : Z -> res modeltype) (inherited : list str) (x : Z * Z * Z) : Prop :=
  let '(id, _, _) := x in
  match types id with
  | Raise _ => free_name inherited (lit "model_"%string ++ str_of_int id)
  | Ok t => (exists n, mt_name t = Some n /\ free_name inherited n) /\ forall b, mt_rep t = Some b -> bt_name b <> None
  end.
(** everything is shown: the time, then the sections of all models *)
Definition complete_report (E : pyenv) (ms : list model) (x : list output * ending) : Prop :=
  exists secs, Forall2 (section_of E) ms secs /\ x = (OTime :: map OLine (concat secs), Finished).
(** the report ends early with exception [e], after everything up to the value that cannot be shown *)
Definition stopped_report (E : pyenv) (ms : list model) (x : list output * ending) : Prop :=
  exists e ls, stopped E ms e ls /\ x = (OTime :: map OLine ls, Traceback e).

(** the options lead to a device with the registers [mem]: a slave with the right number that answers with the baud rate, no parity and the
    timeout on a serial port that can be opened, a server at the address and port that answers within the timeout, or a file with a map that has all registers from 40000 to the end [e] of the SunSpec map *)
Section Reach.
  Context {D1 D2 : Type} (ports : str -> Z -> str -> Z -> sdev D1 * D1) (can_open : str -> bool) (hosts : str -> Z -> Z -> server D2 * D2)
          (E : pyenv) (fs : fsys) (parse : bytes -> res xml).
  Inductive reaches (mem : memory) (b e : Z) (o : options) : Prop :=
  | by_rtu dev s regs : o_t o = lit "rtu"%string -> can_open (o_p o) = true -> 0 <= o_T o -> ports (o_p o) (o_b o) (lit "N"%string) (o_T o) = (dev, s) ->
      S_Modbus.serves_reads dev regs (o_a o) 3 -> (forall s, S_Modbus.mem_ok (regs s)) -> is_byte (o_a o) ->
      (forall x, mem x = byte_view (regs s) x) -> reaches mem b e o
  | by_tcp srv s regs : o_t o = lit "tcp"%string -> hosts (o_i o) (o_P o) (o_T o) = (srv, s) ->
      tcp_serves_reads srv regs (o_a o) 3 -> tcp_accepts srv regs -> is_byte (o_a o) ->
      (forall x, mem x = byte_view (regs s) x) -> reaches mem b e o
  | by_map name c root m : o_t o = lit "mapped"%string -> o_m o = Some name -> file_has fs name c -> parse c = Ok root ->
      map_from_xml E (mkMap 3 (BInt 40000) None None None None []) root = (m, Ok tt) ->
      b = 40000 -> map_holds 40000 (e + 1) m mem -> reaches mem b e o.
End Reach.
