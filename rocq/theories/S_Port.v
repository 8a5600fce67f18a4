(** * S_Port: how a serial port can fail. *)
From Verif Require Import Py M_Wire M_Port S_Modbus.

(** the exception [e] comes out of the port itself: while discarding old input, or while waiting for the response to some
    request *)
Definition port_raises {D} (p : port D) (e : exn) : Prop :=
  (exists s s', pt_flush p s = (s', Some e)) \/
  (exists s req s' w, pt_send p s req = (s', Some w) /\ w_end w = WRaise e).
(** nothing but serial.write raises; when no more bytes arrive, a read times out *)
Definition only_sending_fails {D} (p : port D) : Prop := forall e, ~ port_raises p e.
(** what arrives are bytes *)
Definition port_bytes {D} (p : port D) : Prop :=
  forall s req s' w, pt_send p s req = (s', Some w) -> Forall is_byte (w_bytes w).
(** no response is a Modbus exception with the code 0, which the protocol does not define *)
Definition codes_defined {D} (p : port D) : Prop :=
  forall s req s' w, pt_send p s req = (s', Some w) -> 5 <= zlen (w_bytes w) ->
  is_exception (w_bytes w) = true -> znth 2 (w_bytes w) <> 0.
