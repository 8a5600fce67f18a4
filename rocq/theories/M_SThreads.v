(** * M_SThreads: serial devices used from several threads (sunspec/core/modbus/client.py:224-448, 519-552).

    The library has no locks.  A call of read or write is a sequence of steps, between which other threads run: the test of the
    loop, building the request and flushInput (230-239, 310-317, 341-361, 431-439), serial.write (240-243, 363-366), each
    serial.read of the receive loop (245-264, 370-388), and the check of the complete response (272-279, 397-408).  What lies
    between these touches only local variables.  The objects ModbusClientRTU (one per port, M_Registry) are numbers here; their
    ports are open, no trace function is set.

    Simplified: flushInput discards everything that was sent so far (as in M_Rtu); bytes of a response sent while earlier ones
    are unread come after them. *)
From Verif Require Import Py M_Crc M_Wire M_Rtu.

(** a port: what is attached to it, and the input on its way to the program *)
Record port (D : Type) := mkPort { pt_dev : D; pt_in : wire }.
Arguments mkPort {D}. Arguments pt_dev {D}. Arguments pt_in {D}.

(** ModbusClientDeviceRTU.read(addr, count, op) and write(addr, data) of a device with the attribute max_count *)
Inductive scall := SRead (addr count op max_count : Z) | SWrite (addr : Z) (data : bytes) (max_count : Z).
Inductive sres := RRead (r : res (option bytes)) | RWrite (r : res unit).

(** where a thread is, with the local variables: [count] registers left (for a write: bytes left), [offset] and, for a read, what
    was read so far *)
Inductive spc :=
| PLoop (count offset : Z) (acc : bytes)
| PSend (count offset : Z) (acc : bytes) (req : bytes)
| PRecv (count offset : Z) (acc : bytes) (resp : bytes) (remaining : Z) (found : bool) (exc : option Z)
| PDone (r : sres).

Definition fails (c : scall) (e : exn) : spc :=
  PDone (match c with SRead _ _ _ _ => RRead (Raise e) | SWrite _ _ _ => RWrite (Raise e) end).
(** the call begins: client.py:305-310, 425-431 *)
Definition begins (c : scall) : spc :=
  match c with SRead _ count _ _ => PLoop count 0 [] | SWrite _ data _ => PLoop (zlen data) 0 [] end.
(** the loop is left: client.py:333, 446 *)
Definition leaves (c : scall) (acc : bytes) : spc :=
  PDone (match c with SRead _ _ _ _ => RRead (Ok (Some acc)) | SWrite _ _ _ => RWrite (Ok tt) end).
(** registers (bytes) of the next request: client.py:311-314, 432-435 *)
Definition chunk (c : scall) (count : Z) : Z :=
  match c with
  | SRead _ _ _ mc => if mc <? count then mc else count
  | SWrite _ _ mc => if 2 * mc <? count then 2 * mc else count
  end.
(** the next request: client.py:230-231, 315 and 341-349, 436-440 *)
Definition request (slave : Z) (c : scall) (count offset : Z) : res bytes :=
  match c with
  | SRead addr _ op _ => rtu_read_req slave op (addr + offset) (chunk c count)
  | SWrite addr data _ => rtu_write_req slave (addr + offset) (slice (2 * offset) (2 * offset + chunk c count) data)
  end.
Definition total (c : scall) : bytes -> Z := match c with SRead _ _ _ _ => read_total | SWrite _ _ _ => write_total end.
(** a complete response: client.py:272-279, 316-321 and 397-408, 441-443 *)
Definition checked (slave : Z) (c : scall) (count offset : Z) (acc resp : bytes) (exc : option Z) : spc :=
  if negb (rtu_crc_ok resp) then fails c EModbusClient else
  match exc_raise exc with
  | Some e => fails c e
  | None =>
    match c with
    | SRead _ _ _ _ =>
      match slice 3 (zlen resp - 2) resp with
      | [] => PDone (RRead (Ok None))
      | d => PLoop (count - chunk c count) (offset + chunk c count) (acc ++ d)
      end
    | SWrite addr data _ =>
      if negb (zlen resp =? 8) then fails c EStruct else
      if negb (znth 0 resp =? slave) || negb (znth 1 resp =? FUNC_WRITE_MULTIPLE)
         || negb (be_int (slice 2 4 resp) =? addr + offset)
         || negb (be_int (slice 4 6 resp) =? zlen (slice (2 * offset) (2 * offset + chunk c count) data) / 2)
      then fails c EModbusClient
      else PLoop (count - chunk c count) (offset + chunk c count / 2) []
    end
  end.

Definition no_input : wire := mkWire [] [] WEmpty.
(** input that comes when [p] is still unread *)
Definition behind (p w : wire) : wire :=
  match w_bytes p with [] => w | _ => mkWire (w_bytes p ++ w_bytes w) (w_sched w) (w_end w) end.

Section Threads.
  Context {D : Type}.
  Variable dev : sdev D.

  (** one step of a thread, and what it does to the port it uses *)
  Definition local_step (slave : Z) (c : scall) (pc : spc) (p : port D) : spc * port D :=
    match pc with
    | PLoop count offset acc =>
      if 0 <? count then
        match request slave c count offset with
        | Raise e => (fails c e, p)
        | Ok req => (PSend count offset acc req, mkPort (pt_dev p) no_input)
        end
      else (leaves c acc, p)
    | PSend count offset acc req =>
      match dev (pt_dev p) req with
      | (s', None) => (fails c EModbusClient, mkPort s' (pt_in p))
      | (s', Some w) => (PRecv count offset acc [] 5 false None, mkPort s' (behind (pt_in p) w))
      end
    | PRecv count offset acc resp remaining found exc =>
      if 0 <? remaining then
        match wread remaining (pt_in p) with
        | Raise e => (fails c e, p)
        | Ok (b, w') =>
          let p' := mkPort (pt_dev p) w' in
          let go remaining' found' exc' := (PRecv count offset acc (resp ++ b) remaining' found' exc', p') in
          if 0 <? zlen b then
            if negb found && (5 <=? zlen (resp ++ b)) then
              if Z.land (znth 1 (resp ++ b)) 0x80 =? 0
              then go (total c (resp ++ b) - zlen (resp ++ b)) true exc
              else go (remaining - zlen b) found (Some (znth 2 (resp ++ b)))
            else go (remaining - zlen b) found exc
          else (fails c EModbusTimeout, p')
        end
      else (checked slave c count offset acc resp exc, p)
    | PDone _ => (pc, p)
    end.
End Threads.

(** a thread: the port and slave id of the device it uses, the call, and where it is *)
Record sthread := mkS { st_port : nat; st_slave : Z; st_call : scall; st_pc : spc }.
Record sworld (D : Type) := mkSW { sw_ports : nat -> port D; sw_threads : list sthread }.
Arguments mkSW {D}. Arguments sw_ports {D}. Arguments sw_threads {D}.
Definition upd {A} (f : nat -> A) (i : nat) (x : A) : nat -> A := fun j => if (j =? i)%nat then x else f j.
Fixpoint put_nth {A} (l : list A) (i : nat) (x : A) : list A :=
  match l, i with [], _ => [] | _ :: r, O => x :: r | y :: r, S i' => y :: put_nth r i' x end.
(** the next step of thread [i]; [dev]: how what is attached to a port answers *)
Definition sstep {D} (dev : nat -> sdev D) (w : sworld D) (i : nat) : sworld D :=
  match nth_error (sw_threads w) i with
  | None => w
  | Some t =>
    let '(pc, p) := local_step (dev (st_port t)) (st_slave t) (st_call t) (st_pc t) (sw_ports w (st_port t)) in
    mkSW (upd (sw_ports w) (st_port t) p) (put_nth (sw_threads w) i (mkS (st_port t) (st_slave t) (st_call t) pc))
  end.
(** a schedule: whose turn it is *)
Definition ssched {D} (dev : nat -> sdev D) (w : sworld D) (l : list nat) : sworld D := fold_left (sstep dev) l w.
