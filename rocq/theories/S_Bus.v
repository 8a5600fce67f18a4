(** * S_Bus: histories of opening, closing, reading and writing on serial ports (specification, C96). *)
From Verif Require Import Py M_Wire M_Rtu M_Registry S_Registry M_Bus.

(** what a program does with its serial devices; device d is the d-th one it has created *)
Inductive bevent :=
| BOpen (slave : Z) (name : str) (baud : option Z) (parity : option str) (timeout : option Z) (can_open : bool)
| BClose (d : nat)
| BRead (d : nat) (a n : Z)
| BWrite (d : nat) (a : Z) (data : bytes).
Inductive bresult := ROpened (r : res nat) | RClosed | RData (r : res (option bytes)) | RDone (r : res unit).

(** the opening and closing of a history *)
Definition registry_events (evs : list bevent) : list revent :=
  flat_map (fun ev => match ev with
    | BOpen slave name baud parity _ can => [EvOpen slave name baud parity can]
    | BClose d => [EvClose d]
    | _ => []
    end) evs.
Definition in_use_after (evs : list bevent) : in_use := snd (run (registry_events evs)).

(** the timeout in force on a port: the last one given when a device was opened there, 500 ms for a port newly opened *)
Definition port_used (u : in_use) (name : str) : bool := existsb (fun x => eqb_list (snd (snd x)) name) u.
Definition opened (before after : in_use) : bool := (length before <? length after)%nat.
Fixpoint timeouts (done rest : list bevent) (t : str -> Z) : str -> Z :=
  match rest with
  | [] => t
  | ev :: r =>
    timeouts (done ++ [ev]) r
      (match ev with
       | BOpen _ name _ _ timeout _ =>
         if opened (in_use_after done) (in_use_after (done ++ [ev]))
         then fun x => if eqb_list x name then match timeout with Some v => v | None => if port_used (in_use_after done) name then t x else 500 end else t x
         else t
       | _ => t
       end)
  end.
Definition timeout_in_force (evs : list bevent) (name : str) : Z := timeouts [] evs (fun _ => 500) name.

(** ** Running a history *)
Section Run.
  Context {D : Type} (dev : str -> Z -> sdev D).
  Definition bus0 (ports : str -> D) : bus D := mkBus rstate0 ports (fun _ => 500).
  Definition bstep (ev : bevent) (b : bus D) : bus D * bresult :=
    match ev with
    | BOpen slave name baud parity timeout can => let '(b', r) := bus_open slave name baud parity timeout can b in (b', ROpened r)
    | BClose d => (bus_close d b, RClosed)
    | BRead d a n => let '(b', r) := bus_read dev d a n b in (b', RData r)
    | BWrite d a data => let '(b', r) := bus_write dev d a data b in (b', RDone r)
    end.
  (** final state, and the events with their results in order *)
  Fixpoint bruns (evs : list bevent) (b : bus D) : bus D * list (bevent * bresult) :=
    match evs with
    | [] => (b, [])
    | ev :: r => let '(b1, x) := bstep ev b in let '(b2, l) := bruns r b1 in (b2, (ev, x) :: l)
    end.
End Run.

(** the port a device was opened on *)
Definition port_of {D} (b : bus D) (d : nat) : option str := option_map d_name (nth_error (r_devices (bus_reg b)) d).
(** an event that is no request, or a request on a device of port [name] *)
Definition concerns (ports : nat -> option str) (name : str) (ev : bevent) : bool :=
  match ev with
  | BRead d _ _ | BWrite d _ _ => match ports d with Some n => eqb_list n name | None => false end
  | _ => true
  end.
