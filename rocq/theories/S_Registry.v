(** * S_Registry: histories of opening and closing serial devices (specification, C38, C39). *)
From Verif Require Import Py M_Registry.

(** what a program does: open a device (the environment says whether the port can be opened), or
    close a device it has created *)
Inductive revent :=
| EvOpen (slave : Z) (name : str) (baud : option Z) (parity : option str) (can_open : bool)
| EvClose (d : nat).

(** the devices in use from the program's point of view: those whose creation returned and that
    have not been closed since, with slave id and port *)
Definition in_use := list (nat * (Z * str)).

Definition run1 (ev : revent) (st : rstate * in_use) : rstate * in_use :=
  match ev with
  | EvOpen slave name baud parity can_open =>
    match dev_open slave name baud parity can_open (fst st) with
    | (s, Ok d) => (s, (d, (slave, name)) :: snd st)
    | (s, Raise _) => (s, snd st)
    end
  | EvClose d => (dev_close d (fst st), filter (fun p => negb (fst p =? d)%nat) (snd st))
  end.
Definition run (evs : list revent) : rstate * in_use := fold_left (fun st ev => run1 ev st) evs (rstate0, []).

(** the program opens a slave id on a port only if it is not using it there already, and closes
    only devices in use *)
Definition allowed (ev : revent) (u : in_use) : Prop :=
  match ev with
  | EvOpen slave name _ _ _ => forall d, ~ In (d, (slave, name)) u
  | EvClose d => exists x, In (d, x) u
  end.
Inductive disciplined : list revent -> Prop :=
| disc_nil : disciplined []
| disc_snoc evs ev : disciplined evs -> allowed ev (snd (run evs)) -> disciplined (evs ++ [ev]).

(** the client object registered for a port, the client object of a device, and whether its port is open *)
Definition registered (s : rstate) (name : str) : option nat := dget name (r_registry s).
Definition client_of (s : rstate) (d : nat) : option nat := option_map d_client (nth_error (r_devices s) d).
Definition port_open (s : rstate) (c : nat) : bool := c_open (get_client s c).
