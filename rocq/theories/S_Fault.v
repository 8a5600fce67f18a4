(** * S_Fault: serial lines on which exchanges fail, and lines with several slaves (specification, C83, C84). *)
From Verif Require Import Py M_Wire S_Crc S_Modbus.

(** A line on which a write request may get lost, or be executed while its answer gets lost, is altered or delayed.  Only
    this is certain: nothing but the addressed registers can change, by the whole request being executed; and an
    acknowledgement of this very request is only received if it was executed. *)
Definition unreliable {D} (dev : sdev D) (mem : D -> memory) (slave : Z) : Prop :=
  forall s addr data s' w, is_byte slave -> 0 <= addr < 65536 -> zlen data < 256 -> Forall is_byte data ->
  dev s (write_frame slave addr data) = (s', w) ->
  ((forall a, mem s' a = mem s a) \/ (forall a, mem s' a = store (mem s) addr data a)) /\
  (forall stream sched fin, w = Some (mkWire stream sched fin) -> Forall is_byte stream /\
     (ztake 8 stream = write_reply slave addr (zlen data / 2) -> forall a, mem s' a = store (mem s) addr data a)).

(** a number of failed attempts of an operation, one after the other *)
Inductive failures {D} (op : D -> D * res unit) : D -> D -> Prop :=
| fl_none s : failures op s s
| fl_more s s1 e s2 : op s = (s1, Raise e) -> failures op s1 s2 -> failures op s s2.

(** ** Several slaves on one line *)
(** every slave answers the requests sent to it, and no other slave is affected by them *)
Definition shared_line {D} (dev : sdev D) (mem : D -> Z -> memory) (slaves : list Z) (op lim : Z) : Prop :=
  forall sl, In sl slaves ->
    is_byte sl /\
    serves_reads dev (fun s => mem s sl) sl op /\ serves_writes dev (fun s => mem s sl) sl lim /\
    (forall s, mem_ok (mem s sl)) /\
    (forall s body other, In other slaves -> other <> sl -> forall a, mem (fst (dev s (sl :: body))) other a = mem s other a).

(** what the programs on the line do, and what they get *)
Inductive bus_op := BRead (slave addr count : Z) | BWrite (slave addr : Z) (data : bytes).
Inductive bus_res := RData (d : bytes) | RDone.
(** the memories of the slaves, seen from outside *)
Definition memories := Z -> memory.
Definition bus_spec (o : bus_op) (m : memories) : memories * bus_res :=
  match o with
  | BRead sl a n => (m, RData (regs (m sl) a (Z.to_nat n)))
  | BWrite sl a d => ((fun x => if x =? sl then store (m sl) a d else m x), RDone)
  end.
Fixpoint bus_spec_run (os : list bus_op) (m : memories) : memories * list bus_res :=
  match os with
  | [] => (m, [])
  | o :: os => let '(m1, r) := bus_spec o m in let '(m2, rs) := bus_spec_run os m1 in (m2, r :: rs)
  end.
Definition bus_ok (slaves : list Z) (o : bus_op) : Prop :=
  match o with
  | BRead sl a n => In sl slaves /\ 0 <= n /\ 0 <= a /\ a + n <= 65536
  | BWrite sl a d => In sl slaves /\ Forall is_byte d /\ zlen d mod 2 = 0 /\ 0 <= a /\ a + zlen d / 2 <= 65536
  end.
