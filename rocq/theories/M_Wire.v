(** * M_Wire: what the client sees of a serial port or a TCP socket (environment model).

    pyserial and the operating system are not part of /repo; this file fixes what the model
    assumes about [serial.read(n)] and [socket.recv(n)], as used in
    sunspec/core/modbus/client.py:246, 371, 764, 879. *)
From Verif Require Import Py.

(** What happens when no more bytes arrive: [read] returns an empty string (serial timeout, TCP
    connection closed by the peer) or raises (socket.timeout, device unplugged). *)
Inductive wend := WEmpty | WRaise (e : exn).

(** Input still to come: the bytes in order, how many are available at each successive call (the
    schedule; once it is exhausted everything is available), and the end. *)
Record wire := mkWire { w_bytes : bytes; w_sched : list Z; w_end : wend }.

(** [read(n)], n > 0: between 1 and n of the pending bytes, chosen by the schedule.  A timeout in
    the middle of a response is the end of the wire (what arrives later is in the next wire). *)
Definition wread (n : Z) (w : wire) : res (bytes * wire) :=
  match w_bytes w with
  | [] => match w_end w with WEmpty => Ok ([], w) | WRaise e => Raise e end
  | _ =>
    let avail := match w_sched w with [] => zlen (w_bytes w) | k :: _ => Z.max 1 k end in
    let k := Z.min n avail in
    Ok (ztake k (w_bytes w), mkWire (zdrop k (w_bytes w)) (tl (w_sched w)) (w_end w))
  end.

(** A serial device: receives a request, changes state, and either makes the write fail
    ([None], an exception inside serial.write) or produces the input that follows. *)
Definition sdev (D : Type) := D -> bytes -> D * option wire.

(** the same device, with the requests it receives recorded in order *)
Definition logged {D} (dev : sdev D) : sdev (D * list bytes) :=
  fun s req => let '(d', w) := dev (fst s) req in ((d', snd s ++ [req]), w).
