(** * S_MThreads: requests that take effect at one moment (specification, C114). *)
From Verif Require Import Py M_Wire S_Modbus M_Tcp S_Tcp M_Threads S_Threads M_MThreads.

(** The ideal device: a thread begins a call, each request of the call takes effect at once, and the call returns what its
    requests found.  A thread of the ideal program: the calls to make, how far the current one is ([None]: not begun; otherwise
    the registers done and the data found), what the calls returned. *)
Record athread := mkA { a_todo : list ucall; a_now : option (Z * bytes); a_out : list (res bytes) }.
(** registers to transfer in all, and in the next request *)
Definition size (c : ucall) : Z := match c with URead _ _ count _ => count | UWrite _ data _ => zlen data / 2 end.
Definition width (c : ucall) (off : Z) : Z := match c with URead _ _ count mc => Z.min mc (count - off) | UWrite _ data _ => zlen data / 2 end.
Definition found (c : ucall) (off : Z) (m : memory) : bytes :=
  match c with URead _ addr _ _ => regs m (addr + off) (Z.to_nat (width c off)) | UWrite _ _ _ => [] end.
Definition change (c : ucall) (m : memory) : memory := match c with URead _ _ _ _ => m | UWrite addr data _ => store m addr data end.
Inductive astep : memory * athread -> memory * athread -> Prop :=
| as_begin m c rest o : astep (m, mkA (c :: rest) None o) (m, mkA (c :: rest) (Some (0, [])) o)
| as_request m c rest off acc o : off < size c ->
    astep (m, mkA (c :: rest) (Some (off, acc)) o) (change c m, mkA (c :: rest) (Some (off + width c off, acc ++ found c off m)) o)
| as_return m c rest off acc o : size c <= off -> astep (m, mkA (c :: rest) (Some (off, acc)) o) (m, mkA rest None (o ++ [Ok acc])).
(** thread [i] of the ideal program makes a step *)
Definition ideal_step (i : nat) (s s' : memory * list athread) : Prop :=
  exists l a a' r, snd s = l ++ a :: r /\ length l = i /\ snd s' = l ++ a' :: r /\ astep (fst s, a) (fst s', a').
(** what can be seen: the calls left and the results of each thread, whether it has begun a call, and the registers *)
Definition seen_as (t : uthread) (a : athread) : Prop :=
  u_prog t = a_todo a /\ u_out t = a_out a /\ (u_prog t <> [] -> (u_pc t = UStart <-> a_now a = None)).
Definition looks_as {D} (mem : D -> memory) (w : uworld D) (s : memory * list athread) : Prop :=
  Forall2 seen_as (v_threads w) (snd s) /\ forall a, mem (v_srv w) a = fst s a.

(** calls within the Modbus limits, on a server that serves them *)
Definition ucall_ok {D} (srv : server D) (mem : D -> memory) (slave : Z) (c : ucall) : Prop :=
  is_byte slave /\
  match c with
  | URead op addr count mc => tcp_serves_reads srv mem slave op /\ 0 <= op < 128 /\ 1 <= mc <= 125 /\ 0 <= addr /\ addr + count <= 65536
  | UWrite addr data mc => tcp_serves_writes srv mem slave 123 /\ Forall is_byte data /\ zlen data mod 2 = 0 /\ zlen data / 2 <= mc <= 123 /\
                           0 <= addr /\ addr + zlen data / 2 <= 65536
  end.
(** threads that have not begun, each with a device object of its own; a device is not connected, or has a connection of its own
    with nothing left over *)
Definition own_objects {D} (w : uworld D) : Prop :=
  NoDup (map u_dev (v_threads w)) /\ Forall (fun t => u_pc t = UStart /\ u_out t = []) (v_threads w) /\
  (forall d c, In d (map u_dev (v_threads w)) -> v_sock w d = Some c -> (c < v_next w)%nat /\ v_conn w c = [] /\
     forall d', In d' (map u_dev (v_threads w)) -> v_sock w d' = Some c -> d' = d).
Definition calls_ok {D} (srv : server D) (mem : D -> memory) (w : uworld D) : Prop :=
  Forall (fun t => Forall (ucall_ok srv mem (u_slave t)) (u_prog t)) (v_threads w).
(** the ideal program that does nothing yet *)
Definition ideal_start {D} (mem : D -> memory) (w : uworld D) : memory * list athread :=
  (mem (v_srv w), map (fun t => mkA (u_prog t) None (u_out t)) (v_threads w)).

(** ** Moments *)
(** the world and the registers after [n] turns *)
Definition after {D} (srv : server D) (w : uworld D) (sched : list (nat * Z)) (n : nat) : uworld D := usched srv w (firstn n sched).
Definition held {D} (srv : server D) (mem : D -> memory) (w : uworld D) (sched : list (nat * Z)) (n : nat) : memory :=
  mem (v_srv (after srv w sched n)).
(** thread [i] is in its [j]-th call (counted from 0): it has begun it and not returned from it *)
Definition in_call {D} (w : uworld D) (i j : nat) : Prop :=
  exists t, nth_error (v_threads w) i = Some t /\ length (u_out t) = j /\ u_prog t <> [] /\ u_pc t <> UStart.
(** the [j]-th call of thread [i] has returned or raised [r] *)
Definition returned {D} (w : uworld D) (i j : nat) (r : res bytes) : Prop :=
  exists t, nth_error (v_threads w) i = Some t /\ nth_error (u_out t) j = Some r.
(** turn [n] of the schedule is one of thread [i] in its [j]-th call *)
Definition turn_in {D} (srv : server D) (w : uworld D) (sched : list (nat * Z)) (i j n : nat) : Prop :=
  (exists k, nth_error sched n = Some (i, k)) /\ in_call (after srv w sched n) i j.
(** registers from [addr] on, [mc] at a time, each portion as it was at one of the moments [l] *)
Fixpoint portions (H : nat -> memory) (addr count mc : Z) (l : list nat) : bytes :=
  match l with
  | [] => []
  | n :: r => regs (H n) addr (Z.to_nat (Z.min mc count)) ++ portions H (addr + mc) (count - mc) mc r
  end.
Fixpoint ascend (l : list nat) : Prop := match l with [] => True | n :: r => Forall (fun m => (n < m)%nat) r /\ ascend r end.
(** turns that are enough for a call *)
Definition enough (c : ucall) : Z := 4 + 264 * Z.max 0 (size c).
Definition turns_of (i : nat) (sched : list (nat * Z)) : Z := zlen (filter (fun x => (fst x =? i)%nat) sched).
