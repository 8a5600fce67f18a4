(** * S_Tcp: Modbus/TCP frames and conforming servers (specification, C31-C37). *)
From Verif Require Import Py M_Wire S_Modbus M_Tcp.

(** MBAP header with transaction id 0: protocol 0, number of bytes that follow *)
Definition mbap (body : bytes) : bytes := [0; 0; 0; 0] ++ word (zlen body) ++ body.
Definition tcp_read_frame (slave op addr count : Z) : bytes := mbap ([slave; op] ++ word addr ++ word count).
Definition tcp_write_frame (slave addr : Z) (data : bytes) : bytes :=
  mbap ([slave; 16] ++ word addr ++ word (zlen data / 2) ++ [zlen data] ++ data).

(** length of the response the stream starts with: what the header announces, but the client
    always reads nine bytes *)
Definition tcp_frame_len (stream : bytes) : Z := Z.max 9 (6 + be_int (slice 4 6 stream)).

(** outcome of receiving one response: its bytes and what is left unread; [closed] is what the
    client reports when the peer closes the connection *)
Definition tcp_starved (closed : exn) (fin : wend) : exn :=
  match fin with WEmpty => closed | WRaise e => e end.
Definition tcp_complete (stream : bytes) : Prop := 9 <= zlen stream /\ tcp_frame_len stream <= zlen stream.

(** the answers of a conforming server *)
Definition tcp_read_reply (slave op : Z) (m : memory) (addr count : Z) : bytes :=
  mbap ([slave; op; 2 * count] ++ regs m addr (Z.to_nat count)).
Definition tcp_write_reply (slave addr count : Z) : bytes := mbap ([slave; 16] ++ word addr ++ word count).

Definition tcp_serves_reads {D} (srv : server D) (mem : D -> memory) (slave op : Z) : Prop :=
  forall s addr count, 1 <= count <= 125 -> 0 <= addr -> addr + count <= 65536 ->
  exists s' sched fin,
    srv_send srv s (tcp_read_frame slave op addr count)
      = (s', Some (mkWire (tcp_read_reply slave op (mem s) addr count) sched fin)) /\
    (forall a, mem s' a = mem s a).
Definition tcp_serves_writes {D} (srv : server D) (mem : D -> memory) (slave lim : Z) : Prop :=
  forall s addr data, Forall is_byte data -> zlen data mod 2 = 0 -> 1 <= zlen data / 2 <= lim ->
  0 <= addr -> addr + zlen data / 2 <= 65536 ->
  exists s' sched fin,
    srv_send srv s (tcp_write_frame slave addr data)
      = (s', Some (mkWire (tcp_write_reply slave addr (zlen data / 2)) sched fin)) /\
    (forall a, mem s' a = store (mem s) addr data a).
(** connections are accepted and do not change the memory *)
Definition tcp_accepts {D} (srv : server D) (mem : D -> memory) : Prop :=
  forall s, exists s', srv_connect srv s = (s', true) /\ forall a, mem s' a = mem s a.

(** a server with its requests recorded *)
Definition tcp_logged {D} (srv : server D) : server (D * list bytes) := {|
  srv_connect := fun s => let '(d, b) := srv_connect srv (fst s) in ((d, snd s), b);
  srv_send := fun s req => let '(d, w) := srv_send srv (fst s) req in ((d, snd s ++ [req]), w) |}.
