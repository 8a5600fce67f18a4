(** * M_Tcp: model of sunspec/core/modbus/client.py:698-953, class ModbusClientDeviceTCP.

    Python 3 branch, integer arguments, [data] of a write is a bytes object, no TLS and not the
    fake test socket.  Closing a socket (732-741) is assumed not to raise.  What a trace function
    prints is not modelled, only whether there is one. *)
From Verif Require Import Py M_Wire M_Rtu.

Definition TCP_HDR_LEN : Z := 6.             (* client.py:554 *)
Definition TCP_RESP_MIN_LEN : Z := 3.        (* client.py:555 *)
Definition TCP_READ_REQ_LEN : Z := 6.        (* client.py:557 *)
Definition TCP_WRITE_MULT_REQ_LEN : Z := 7.  (* client.py:558 *)

(** The network and server (environment): whether a connection is accepted, and what a request
    sent on the connection brings back ([None]: sendall raises).  The bytes of the wire are
    queued behind those still unread. *)
Record server (D : Type) := mkServer {
  srv_connect : D -> D * bool;
  srv_send : D -> bytes -> D * option wire }.
Arguments srv_connect {D} _ _.
Arguments srv_send {D} _ _ _.

(** the attribute [socket]: None; a socket object whose connect() failed; a connected socket with
    the bytes received but not yet read *)
Inductive sock := SNone | SDead | SConn (pending : bytes).
Definition connected (k : sock) : bool := match k with SConn _ => true | _ => false end.

(** struct.pack('>HHHBBHH', 0, 0, 6, slave, op, addr, count), client.py:750 *)
Definition tcp_read_req (slave op addr count : Z) : res bytes :=
  let! b1 := pack_int 1 false slave in
  let! b2 := pack_int 1 false op in
  let! b3 := pack_int 2 false addr in
  let! b4 := pack_int 2 false count in
  Ok ([0; 0; 0; 0] ++ be_bytes 2 TCP_READ_REQ_LEN ++ b1 ++ b2 ++ b3 ++ b4).
(** struct.pack('>HHHBBHHB', 0, 0, 7 + len, slave, 16, addr, len/2, len) + data, client.py:859-865 *)
Definition tcp_write_req (slave addr : Z) (data : bytes) : res bytes :=
  let write_len := zlen data in
  let! b0 := pack_int 2 false (TCP_WRITE_MULT_REQ_LEN + write_len) in
  let! b1 := pack_int 1 false slave in
  let! b2 := pack_int 1 false FUNC_WRITE_MULTIPLE in
  let! b3 := pack_int 2 false addr in
  let! b4 := pack_int 2 false (write_len / 2) in
  let! b5 := pack_int 1 false write_len in
  Ok (([0; 0; 0; 0] ++ b0 ++ b1 ++ b2 ++ b3 ++ b4 ++ b5) ++ data).

(** The receive loop, client.py:763-774 (read, an empty answer is ModbusClientError) and 878-901
    (write, ModbusClientTimeout).  [len_found] stays False in the loop, so the length is
    recomputed after every piece. *)
Fixpoint tcp_recv (fuel : nat) (closed : exn) (resp : bytes) (remaining : Z) (w : wire) : res (bytes * wire) :=
  match fuel with
  | O => Raise EFuel
  | S fuel' =>
    if 0 <? remaining then
      let! (c, w') := wread remaining w in
      let len_read := zlen c in
      if 0 <? len_read then
        let resp' := resp ++ c in
        let remaining' :=
          if TCP_HDR_LEN + TCP_RESP_MIN_LEN <=? zlen resp'
          then be_int (slice 4 6 resp') - (zlen resp' - TCP_HDR_LEN)
          else remaining - len_read in
        tcp_recv fuel' closed resp' remaining' w'
      else Raise closed
    else Ok (resp, w)
  end.
(** one iteration per non-empty piece, plus the last *)
Definition tcp_fuel (w : wire) : nat := S (S (length (w_bytes w))).

(** client.py:782-796 and 903-916: exception bit in the function code *)
Definition tcp_exception (resp : bytes) : option exn :=
  if Z.land (znth (TCP_HDR_LEN + 1) resp) 0x80 =? 0 then None
  else exc_raise (Some (znth (TCP_HDR_LEN + 2) resp)).

Section Tcp.
  Context {D : Type}.
  Variable srv : server D.
  Variables (slave max_count : Z) (trace : bool).

  (** the attributes that change, and the outside world *)
  Definition tcp := (sock * D)%type.

  (** self.socket.sendall(req), client.py:758-761, 873-876: pending input afterwards *)
  Definition tcp_send (req : bytes) (st : tcp) : tcp * res wire :=
    match fst st with
    | SConn p =>
      match srv_send srv (snd st) req with
      | (d', None) => ((SConn p, d'), Raise EModbusClient)
      | (d', Some w) => ((SConn p, d'), Ok (mkWire (p ++ w_bytes w) (w_sched w) (w_end w)))
      end
    | _ => (st, Raise EModbusClient)
    end.

  (** reception; an exception leaves nothing unread *)
  Definition tcp_receive (closed : exn) (w : wire) (st : tcp) : tcp * res bytes :=
    match tcp_recv (tcp_fuel w) closed [] (TCP_HDR_LEN + TCP_RESP_MIN_LEN) w with
    | Raise e => ((SConn [], snd st), Raise e)
    | Ok (resp, w') => ((SConn (w_bytes w'), snd st), Ok resp)
    end.

  (** ModbusClientDeviceTCP._read, client.py:743-797 *)
  Definition tcp_read1 (addr count op : Z) (st : tcp) : tcp * res bytes :=
    match tcp_read_req slave op addr count with
    | Raise e => (st, Raise e)
    | Ok req =>
      if trace then (st, Raise EType) else     (* client.py:752-756: ord() of an int *)
      match tcp_send req st with
      | (st1, Raise e) => (st1, Raise e)
      | (st1, Ok w) =>
        match tcp_receive EModbusClient w st1 with
        | (st2, Raise e) => (st2, Raise e)
        | (st2, Ok resp) =>
          match tcp_exception resp with
          | Some e => (st2, Raise e)
          | None => (st2, Ok (zdrop (TCP_HDR_LEN + 3) resp))
          end
        end
      end
    end.

  (** ModbusClientDeviceTCP.connect, client.py:702-730 *)
  Definition tcp_connect (st : tcp) : tcp * res unit :=
    match srv_connect srv (snd st) with
    | (d', true) => ((SConn [], d'), Ok tt)
    | (d', false) => ((SDead, d'), Raise EModbusClient)
    end.
  (** client.py:698-700, 732-741 *)
  Definition tcp_disconnect (st : tcp) : tcp := (SNone, snd st).

  (** ModbusClientDeviceTCP.read, loop of client.py:829-841 *)
  Fixpoint tcp_read_loop (fuel : nat) (addr count op read_offset : Z) (resp : bytes) (st : tcp) : tcp * res bytes :=
    match fuel with
    | O => (st, Raise EFuel)
    | S fuel' =>
      if 0 <? count then
        let read_count := if max_count <? count then max_count else count in
        match tcp_read1 (addr + read_offset) read_count op st with
        | (st', Raise e) => (st', Raise e)
        | (st', Ok []) => (st', Ok resp)
        | (st', Ok data) =>
          tcp_read_loop fuel' addr (count - read_count) op (read_offset + read_count) (resp ++ data) st'
        end
      else (st, Ok resp)
    end.

  (** the connect / try / finally frame shared by read and write, client.py:823-845, 936-953.
      A failing connect is outside the try block. *)
  Definition with_connection {A} (body : tcp -> tcp * res A) (st : tcp) : tcp * res A :=
    match fst st with
    | SNone =>
      match tcp_connect st with
      | (st1, Raise e) => (st1, Raise e)
      | (st1, Ok _) => let '(st2, r) := body st1 in (tcp_disconnect st2, r)
      end
    | _ => body st
    end.

  (** client.py:799-849 *)
  Definition tcp_read (addr count op : Z) (st : tcp) : tcp * res bytes :=
    with_connection (tcp_read_loop (S (Z.to_nat count)) addr count op 0 []) st.

  (** ModbusClientDeviceTCP._write, client.py:851-916; the response is not compared with the request *)
  Definition tcp_write1 (addr : Z) (data : bytes) (st : tcp) : tcp * res unit :=
    match tcp_write_req slave addr data with
    | Raise e => (st, Raise e)
    | Ok req =>
      if trace then (st, Raise EType) else     (* client.py:867-871 *)
      match tcp_send req st with
      | (st1, Raise e) => (st1, Raise e)
      | (st1, Ok w) =>
        match tcp_receive EModbusTimeout w st1 with
        | (st2, Raise e) => (st2, Raise e)
        | (st2, Ok resp) =>
          match tcp_exception resp with
          | Some e => (st2, Raise e)
          | None => (st2, Ok tt)
          end
        end
      end
    end.

  (** ModbusClientDeviceTCP.write, loop of client.py:941-950.  [bounds]: the local variables start and
      end, unassigned at first and assigned only in the else branch; counts are doubled as in
      M_Rtu.rtu_write_loop. *)
  Fixpoint tcp_write_loop (fuel : nat) (addr count2 write_offset : Z) (bounds : option (Z * Z)) (data : bytes)
      (st : tcp) : tcp * res unit :=
    match fuel with
    | O => (st, Raise EFuel)
    | S fuel' =>
      if 0 <? count2 then
        let '(write_count2, bounds') :=
          if 2 * max_count <? count2 then (2 * max_count, bounds)
          else (count2, Some (2 * write_offset, 2 * write_offset + count2)) in
        match bounds' with
        | None => (st, Raise EUnbound)
        | Some (start, stop) =>
          match tcp_write1 (addr + write_offset) (slice start stop data) st with
          | (st', Raise e) => (st', Raise e)
          | (st', Ok _) =>
            tcp_write_loop fuel' addr (count2 - write_count2) (write_offset + write_count2 / 2) bounds' data st'
          end
        end
      else (st, Ok tt)
    end.
  (** client.py:918-953 *)
  Definition tcp_write (addr : Z) (data : bytes) (st : tcp) : tcp * res unit :=
    with_connection (tcp_write_loop (S (length data)) addr (zlen data) 0 None data) st.
End Tcp.
