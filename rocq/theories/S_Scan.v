(** * S_Scan: the SunSpec register map of a device and what scanning it should give
    (specification, C48-C51, C70-C72). *)
From Verif Require Import Py M_Mbmap M_Device M_Client S_Client M_Wire M_Tcp M_Scan.

(** the number in register [a] *)
Definition reg (mem : memory) (a : Z) : Z := 256 * mem (2 * a) + mem (2 * a + 1).
Definition byte_memory (mem : memory) : Prop := forall x, is_byte (mem x).

(** models in the registers from [a] on: id, length and that many registers each, up to the id 0xFFFF at [e].
    A model is listed with its id, the address of its data and its length. *)
Inductive model_chain (mem : memory) : Z -> list (Z * Z * Z) -> Z -> Prop :=
| chain_end a : reg mem a = 65535 -> model_chain mem a [] a
| chain_model a l e : reg mem a <> 65535 -> model_chain mem (a + 2 + reg mem (a + 1)) l e ->
    model_chain mem a ((reg mem a, a + 2, reg mem (a + 1)) :: l) e.
(** a SunSpec map at [b] *)
Definition sunspec_map (mem : memory) (b : Z) (l : list (Z * Z * Z)) (e : Z) : Prop :=
  mem_bytes mem b 2 = [83; 117; 110; 83] (* SunS *) /\ model_chain mem (b + 2) l e.

(** [m] is the model object for an entry of the chain: loaded from its definition, or with the reason why it
    could not be *)
Definition model_for (lfuel : nat) (types : Z -> res modeltype) (x : Z * Z * Z) (m : model) : Prop :=
  let '(id, addr, len) := x in
  md_id m = id /\ md_addr m = addr /\ (len <> 0 -> md_len m = len) /\
  let '(m', r) := model_load lfuel types (new_model id addr len) in
  match r with
  | Ok _ => m = m'
  | Raise e => md_error m = Some e /\ md_blocks m = md_blocks m' /\ md_type m = md_type m'
  end.

(** [lfuel] rounds are enough to load every model a register map can have (the theorem C48_loads_end says when that is so) *)
Definition loads_end (lfuel : nat) (types : Z -> res modeltype) : Prop :=
  (forall id, types id <> Raise EFuel) /\
  forall id addr len, 0 <= len <= 65535 -> snd (model_load lfuel types (new_model id addr len)) <> Raise EFuel.

(** connection of a TCP device *)
Definition opens {D} (c : sclient D) (s s' : D) : Prop :=
  match scl_connect c with None => s' = s | Some (conn, _) => conn s = (s', Ok tt) end.
Definition closes {D} (c : sclient D) (s s' : D) : Prop :=
  match scl_connect c with None => s' = s | Some (_, disc) => s' = disc s end.

(** a base address at which no map is found: a Modbus error, or other data.  (A SunSpecClientError raised below
    this layer would be treated like a Modbus error.) *)
Definition missed {D} (dv : mdev D) (s : D) (a : Z) (s' : D) : Prop :=
  (exists e, dv_read dv s a 3 = (s', Raise e) /\ (is_modbus_client_error e = true \/ e = ESunSpecClient)) \/
  (exists d, dv_read dv s a 3 = (s', Ok (Some d)) /\ ztake 4 d <> [83; 117; 110; 83]).
Inductive all_missed {D} (dv : mdev D) : D -> list Z -> D -> Prop :=
| am_nil s : all_missed dv s [] s
| am_cons s a s1 l s2 : missed dv s a s1 -> all_missed dv s1 l s2 -> all_missed dv s (a :: l) s2.

(** devices that always answer (with bytes, if they return any) or fail, and refuse addresses above 65535; [inv]:
    a property of their states that reading preserves *)
Definition well_behaved {D} (dv : mdev D) (inv : D -> Prop) : Prop :=
  forall s a n s' r, inv s -> dv_read dv s a n = (s', r) ->
  inv s' /\ r <> Raise EFuel /\ (forall d, r = Ok (Some d) -> Forall is_byte d) /\ (65535 < a -> 0 < n -> exists e, r = Raise e).
(** transports deliver bytes *)
Definition byte_wire (w : wire) : Prop := Forall is_byte (w_bytes w) /\ w_end w <> WRaise EFuel.
Definition byte_line {D} (dev : sdev D) : Prop := forall s req s' w, dev s req = (s', Some w) -> byte_wire w.
Definition byte_server {D} (srv : server D) : Prop := forall s req s' w, srv_send srv s req = (s', Some w) -> byte_wire w.
(** what is still unread on a connection are bytes, too *)
Definition sock_bytes {D} (st : tcp (D := D)) : Prop := match fst st with SConn p => Forall is_byte p | _ => True end.

(** definitions whose repeating blocks, if any, are not empty *)
Definition good_types (types : Z -> res modeltype) : Prop :=
  (forall id, types id <> Raise EFuel) /\
  forall id mt rb r, types id = Ok mt -> mt_rep mt = Some rb -> base_int (bt_len rb) = Ok r -> 0 < r.

(** a device that records the writes it gets *)
Definition with_write_log {D} (dv : mdev D) : mdev (D * list (Z * bytes)) :=
  mkDev _ (fun s a n => let '(s', r) := dv_read dv (fst s) a n in ((s', snd s), r))
          (fun s a d => let '(s', r) := dv_write dv (fst s) a d in ((s', snd s ++ [(a, d)]), r)).
Definition log_client {D} (c : sclient D) : sclient (D * list (Z * bytes)) :=
  mkScl _ (with_write_log (scl_dev c))
    (match scl_connect c with
     | None => None
     | Some (conn, disc) => Some ((fun s => let '(s', r) := conn (fst s) in ((s', snd s), r)), fun s => (disc (fst s), snd s))
     end).
