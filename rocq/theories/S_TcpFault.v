(** * S_TcpFault: connections on which exchanges fail (specification, C94). *)
From Verif Require Import Py M_Wire S_Modbus M_Tcp S_Tcp.

(** A connection on which a write request may get lost, or be executed while its answer gets lost or is refused.  Connecting changes no
    register; of a write request, either nothing is executed or all of it. *)
Definition tcp_unreliable {D} (srv : server D) (mem : D -> memory) (slave : Z) : Prop :=
  (forall s s' ok, srv_connect srv s = (s', ok) -> forall a, mem s' a = mem s a) /\
  (forall s addr data s' w, is_byte slave -> 0 <= addr < 65536 -> zlen data < 256 -> Forall is_byte data ->
     srv_send srv s (tcp_write_frame slave addr data) = (s', w) ->
     (forall a, mem s' a = mem s a) \/ (forall a, mem s' a = store (mem s) addr data a)).
(** an exception response: exception bit in the function code, and a code *)
Definition refusal (stream : bytes) : Prop := 128 <= znth 7 stream /\ znth 8 stream <> 0.
(** what arrives after a write request is the answer to it: if it is not a refusal, the request was executed *)
Definition answers_own {D} (srv : server D) (mem : D -> memory) (slave : Z) : Prop :=
  forall s addr data s' stream sched fin, is_byte slave -> 0 <= addr < 65536 -> zlen data < 256 -> Forall is_byte data ->
  srv_send srv s (tcp_write_frame slave addr data) = (s', Some (mkWire stream sched fin)) ->
  Forall is_byte stream /\ (tcp_complete stream -> ~ refusal stream -> forall a, mem s' a = store (mem s) addr data a).
