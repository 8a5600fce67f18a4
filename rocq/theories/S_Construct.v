(** * S_Construct: histories of creating and closing serial devices with timeouts (specification, C80, C81). *)
From Verif Require Import Py M_Registry S_Registry M_Construct.

(** what a program does *)
Inductive pevent :=
| PMake (slave : Z) (name : str) (baud : option Z) (parity : option str) (timeout : option Z) (can_open : bool)
| PClose (d : nat).
(** the state, and what was seen: for every device created the serial client it uses and the timeout it asked for *)
Definition made := list (nat * option Z).
Definition pstep (ev : pevent) (st : pstate * made) : pstate * made :=
  match ev with
  | PMake slave name baud parity timeout can_open =>
    match rtu_construct slave name baud parity timeout can_open (fst st) with
    | (s, Ok d) => (s, snd st ++ match client_of (pt_reg s) d with Some c => [(c, timeout)] | None => [] end)
    | (s, Raise _) => (s, snd st)
    end
  | PClose d => (client_close (MRtu d) (fst st), snd st)
  end.
Definition prun (evs : list pevent) : pstate * made := fold_left (fun st ev => pstep ev st) evs (pstate0, []).

(** the last timeout asked for by a device of a serial client, or half a second *)
Definition last_given (c : nat) (l : made) : Z :=
  fold_left (fun t e => if (fst e =? c)%nat then match snd e with Some x => x | None => t end else t) l 500.
