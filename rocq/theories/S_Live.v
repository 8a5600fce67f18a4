(** * S_Live: devices whose registers change on their own while they are read (specification, C106). *)
From Verif Require Import Py M_Wire M_Tcp S_Modbus S_Tcp S_Stack.
From Verif Require S_Client.

(** [dev] is a serial line with a slave on it that answers every read of 1..125 registers with their content at the moment
    of the request.  Nothing is said about the registers afterwards: [mem s'] may be anything. *)
Definition live_reads {D} (dev : sdev D) (mem : D -> memory) (slave op : Z) : Prop :=
  forall s addr count, 1 <= count <= 125 -> 0 <= addr -> addr + count <= 65536 ->
  exists s' noise sched fin, Forall is_byte noise /\
    dev s (read_frame slave op addr count)
      = (s', Some (mkWire (read_reply slave op (mem s) addr count ++ noise) sched fin)).
(** the same for a TCP server *)
Definition tcp_live_reads {D} (srv : server D) (mem : D -> memory) (slave op : Z) : Prop :=
  forall s addr count, 1 <= count <= 125 -> 0 <= addr -> addr + count <= 65536 ->
  exists s' sched fin,
    srv_send srv s (tcp_read_frame slave op addr count)
      = (s', Some (mkWire (tcp_read_reply slave op (mem s) addr count) sched fin)).
Definition tcp_live_accepts {D} (srv : server D) : Prop := forall s, exists s', srv_connect srv s = (s', true).

(** the states [ts] of the device in which it got requests, in order, on its way from [s] to [s'] *)
Inductive moments {D} (dev : sdev D) : D -> list D -> D -> Prop :=
| mo_nil s : moments dev s [] s
| mo_cons s req s1 w ts s' : dev s req = (s1, w) -> moments dev s1 ts s' -> moments dev s (s :: ts) s'.
Inductive tcp_moments {D} (srv : server D) : D -> list D -> D -> Prop :=
| tm_nil s : tcp_moments srv s [] s
| tm_connect s s1 b ts s' : srv_connect srv s = (s1, b) -> tcp_moments srv s1 ts s' -> tcp_moments srv s ts s'
| tm_cons s req s1 w ts s' : srv_send srv s req = (s1, w) -> tcp_moments srv s1 ts s' -> tcp_moments srv s (s :: ts) s'.

(** [m] agrees with one of the memories [mems] on the [n] registers from [a] on *)
Definition held (mems : list S_Client.memory) (m : S_Client.memory) (a n : Z) : Prop :=
  exists mt, In mt mems /\ forall x, 2 * a <= x < 2 * (a + n) -> m x = mt x.
