(** * S_Threads: calls that take effect at one moment (specification, C103). *)
From Verif Require Import Py M_Wire S_Modbus M_Tcp S_Tcp M_Threads.

(** The ideal device: a call is made, waits, takes effect at once, and returns what it found. *)
Inductive acall := Idle (c : tcall) | Waiting (c : tcall) | Answered (r : res bytes) | Returned (r : res bytes).
(** the effect of a call on the registers, and its result *)
Definition effect (c : tcall) (m : memory) : memory :=
  match c with CRead _ _ _ => m | CWrite addr data => store m addr data end.
Definition answer (c : tcall) (m : memory) : res bytes :=
  match c with CRead _ addr count => Ok (regs m addr (Z.to_nat count)) | CWrite _ _ => Ok [] end.
Inductive ideal : memory * list acall -> memory * list acall -> Prop :=
| id_call m l c r : ideal (m, l ++ Idle c :: r) (m, l ++ Waiting c :: r)
| id_effect m l c r : ideal (m, l ++ Waiting c :: r) (effect c m, l ++ Answered (answer c m) :: r)
| id_return m l x r : ideal (m, l ++ Answered x :: r) (m, l ++ Returned x :: r).
Inductive ideal_run : memory * list acall -> memory * list acall -> Prop :=
| ir_refl s : ideal_run s s
| ir_step s t u : ideal_run s t -> ideal t u -> ideal_run s u.
(** what can be seen of a thread: whether it has begun its call, and whether the call has returned, and what *)
Definition seen (t : thread) (a : acall) : Prop :=
  (th_pc t = TStart <-> exists c, a = Idle c) /\ forall r, th_pc t = TDone r <-> a = Returned r.
Definition looks_like {D} (mem : D -> memory) (w : world D) (s : memory * list acall) : Prop :=
  Forall2 seen (w_threads w) (snd s) /\ forall a, mem (w_srv w) a = fst s a.
(** the ideal device keeps up with the threads: after every turn of the schedule it has made some steps and looks the same *)
Fixpoint keeps_up {D} (srv : server D) (mem : D -> memory) (w : world D) (sched : list (nat * Z)) (s : memory * list acall) : Prop :=
  looks_like mem w s /\
  match sched with
  | [] => True
  | (i, k) :: rest => exists s', ideal_run s s' /\ keeps_up srv mem (tstep srv w i k) rest s'
  end.

(** calls within the Modbus limits, on a server that serves them *)
Definition call_ok {D} (srv : server D) (mem : D -> memory) (slave : Z) (c : tcall) : Prop :=
  is_byte slave /\
  match c with
  | CRead op addr count => tcp_serves_reads srv mem slave op /\ 0 <= op < 128 /\ 1 <= count <= 125 /\ 0 <= addr /\ addr + count <= 65536
  | CWrite addr data => tcp_serves_writes srv mem slave 123 /\ Forall is_byte data /\ zlen data mod 2 = 0 /\ 1 <= zlen data / 2 <= 123 /\
                        0 <= addr /\ addr + zlen data / 2 <= 65536
  end.
(** threads about to call, each with a device object of its own; a device is not connected, or has a connection of its own with
    nothing left over *)
Definition own_devices {D} (w : world D) : Prop :=
  NoDup (map th_dev (w_threads w)) /\ Forall (fun t => th_pc t = TStart) (w_threads w) /\
  (forall d c, In d (map th_dev (w_threads w)) -> w_sock w d = Some c -> (c < w_next w)%nat /\ w_conn w c = [] /\
     forall d', In d' (map th_dev (w_threads w)) -> w_sock w d' = Some c -> d' = d).
