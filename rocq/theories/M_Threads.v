(** * M_Threads: TCP devices used from several threads (sunspec/core/modbus/client.py:702-953).

    The library has no locks.  A call of read or write is a sequence of steps, between which other threads run; the object
    attribute [socket] is looked up anew in every step.  The steps are: the test [self.socket is None] (823, 936), connect (825,
    938: one step), sendall (758-761, 873-876), each recv of the receive loop (763-774, 878-901), and disconnect in the finally
    clause (842-844, 951-953).  Simplified: calls that fit one request (the loops of read and write make one round); all
    connections lead to one server, which answers every request; a recv without input waits (no timeout), and looks the socket up
    again when it goes on; connect closes an older socket of the object by replacing it. *)
From Verif Require Import Py M_Wire M_Rtu M_Tcp.

(** what a thread calls: read(addr, count, op) or write(addr, data) *)
Inductive tcall := CRead (op addr count : Z) | CWrite (addr : Z) (data : bytes).
(** the request of a call: client.py:750, 859-865 *)
Definition call_req (slave : Z) (c : tcall) : res bytes :=
  match c with CRead op addr count => tcp_read_req slave op addr count | CWrite addr data => tcp_write_req slave addr data end.
(** what it returns for a response: client.py:782-797, 842-849 and 903-916 (None is [[]]) *)
Definition call_result (c : tcall) (resp : bytes) : res bytes :=
  match tcp_exception resp with
  | Some e => Raise e
  | None => match c with CRead _ _ _ => Ok (zdrop (TCP_HDR_LEN + 3) resp) | CWrite _ _ => Ok [] end
  end.

(** where a thread is; [mine]: the local variable local_connect *)
Inductive pc :=
| TStart | TConnect
| TSend (mine : bool)
| TRecv (mine : bool) (resp : bytes) (remaining : Z)
| TEnd (mine : bool) (r : res bytes)
| TDone (r : res bytes).
(** a thread: the device object it uses, the slave id of that object, the call, and where it is *)
Record thread := mkT { th_dev : nat; th_slave : Z; th_call : tcall; th_pc : pc }.
Definition at_pc (t : thread) (p : pc) : thread := mkT (th_dev t) (th_slave t) (th_call t) p.

(** everything: the server, the connections made so far with the bytes that arrived on each and were not read, the attribute
    socket of each device object, and the threads *)
Record world (D : Type) := mkW {
  w_srv : D; w_next : nat; w_conn : nat -> bytes; w_sock : nat -> option nat; w_threads : list thread }.
Arguments mkW {D}. Arguments w_srv {D}. Arguments w_next {D}. Arguments w_conn {D}. Arguments w_sock {D}. Arguments w_threads {D}.
Definition fupd {A} (f : nat -> A) (i : nat) (x : A) : nat -> A := fun j => if (j =? i)%nat then x else f j.
Fixpoint set_nth {A} (l : list A) (i : nat) (x : A) : list A :=
  match l, i with [], _ => [] | _ :: r, O => x :: r | y :: r, S i' => y :: set_nth r i' x end.

Section Threads.
  Context {D : Type}.
  Variable srv : server D.

  (** the next step of thread [i]; a recv takes [k] bytes if that many are there and wanted, at least one *)
  Definition tstep (w : world D) (i : nat) (k : Z) : world D :=
    match nth_error (w_threads w) i with
    | None => w
    | Some t =>
      let d := th_dev t in
      let go p := mkW (w_srv w) (w_next w) (w_conn w) (w_sock w) (set_nth (w_threads w) i (at_pc t p)) in
      match th_pc t with
      | TStart => go (match w_sock w d with None => TConnect | Some _ => TSend false end)
      | TConnect =>
        mkW (w_srv w) (S (w_next w)) (fupd (w_conn w) (w_next w) []) (fupd (w_sock w) d (Some (w_next w)))
            (set_nth (w_threads w) i (at_pc t (TSend true)))
      | TSend mine =>
        match call_req (th_slave t) (th_call t) with
        | Raise e => go (TEnd mine (Raise e))
        | Ok req =>
          match w_sock w d with
          | None => go (TEnd mine (Raise EModbusClient))        (* AttributeError of None, caught: client.py:760-761 *)
          | Some c =>
            match srv_send srv (w_srv w) req with
            | (s', None) => mkW s' (w_next w) (w_conn w) (w_sock w) (set_nth (w_threads w) i (at_pc t (TEnd mine (Raise EModbusClient))))
            | (s', Some wi) =>
              mkW s' (w_next w) (fupd (w_conn w) c (w_conn w c ++ w_bytes wi)) (w_sock w)
                  (set_nth (w_threads w) i (at_pc t (TRecv mine [] (TCP_HDR_LEN + TCP_RESP_MIN_LEN))))
            end
          end
        end
      | TRecv mine resp remaining =>
        if 0 <? remaining then
          match w_sock w d with
          | None => go (TEnd mine (Raise EAttr))                (* AttributeError of None *)
          | Some c =>
            match w_conn w c with
            | [] => w
            | p =>
              let n := Z.min remaining (Z.max 1 k) in
              let resp' := resp ++ ztake n p in
              let remaining' :=
                if TCP_HDR_LEN + TCP_RESP_MIN_LEN <=? zlen resp'
                then be_int (slice 4 6 resp') - (zlen resp' - TCP_HDR_LEN)
                else remaining - zlen (ztake n p) in
              mkW (w_srv w) (w_next w) (fupd (w_conn w) c (zdrop n p)) (w_sock w)
                  (set_nth (w_threads w) i (at_pc t (TRecv mine resp' remaining')))
            end
          end
        else go (TEnd mine (call_result (th_call t) resp))
      | TEnd mine r =>
        mkW (w_srv w) (w_next w) (w_conn w) (if mine then fupd (w_sock w) d None else w_sock w)
            (set_nth (w_threads w) i (at_pc t (TDone r)))
      | TDone _ => w
      end
    end.
  (** a schedule: whose turn it is, and how much a recv gives *)
  Definition tsched (w : world D) (l : list (nat * Z)) : world D := fold_left (fun w x => tstep w (fst x) (snd x)) l w.
End Threads.
