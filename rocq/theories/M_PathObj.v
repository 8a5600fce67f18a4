(** * M_PathObj: PathList objects (sunspec/core/util.py:178-197, 253-260) and the Python lists they are made from.

    A PathList keeps the list object it is given (self.path = path_list): [list_of] is a reference.  Reading is M_Path.  The
    attribute path is not used by programs here. *)
From Coq Require Import String.
From Verif Require Import Py M_Mbmap M_Path.

(** ** repr() of text: CPython's unicode_repr (environment).  [printable]: str.isprintable of a character outside ASCII. *)
Fixpoint hex_low_w (w : nat) (c : Z) : str := match w with O => [] | S w' => hex_low_w w' (c / 16) ++ [hex_digit_lo (c mod 16)] end.
Definition esc (printable : Z -> bool) (q c : Z) : str :=
  if (c =? q) || (c =? 92) then [92; c]
  else if c =? 9 then [92; 116]
  else if c =? 10 then [92; 110]
  else if c =? 13 then [92; 114]
  else if (c <? 32) || (c =? 127) then 92 :: 120 :: hex_low_w 2 c
  else if c <? 127 then [c]
  else if printable c then [c]
  else if c <=? 255 then 92 :: 120 :: hex_low_w 2 c
  else if c <=? 65535 then 92 :: 117 :: hex_low_w 4 c
  else 92 :: 85 :: hex_low_w 8 c.
Definition quote_for (s : str) : Z := if existsb (Z.eqb 39) s && negb (existsb (Z.eqb 34) s) then 34 else 39.
Definition str_repr (printable : Z -> bool) (s : str) : str := let q := quote_for s in [q] ++ flat_map (esc printable q) s ++ [q].
(** str() of a list of texts *)
Fixpoint commas (l : list str) : str := match l with [] => [] | [a] => a | a :: r => a ++ [44; 32] ++ commas r end.
Definition list_str (printable : Z -> bool) (l : list str) : str := [91] ++ commas (map (str_repr printable) l) ++ [93].
(** PathList.__str__, util.py:253-260 *)
Definition pathlist_str := list_str.

(** ** the objects of a program *)
Record pstate := mkPS { ps_lists : list (list str); ps_objs : list nat }.
(** operations: the program makes a list, appends to it, makes a PathList without or from a list, adds a path, reads, prints *)
Inductive pop := PNewList (l : list str) | PAppend (r : nat) (p : str) | PNew (r : option nat) | PAdd (o : nat) (p : str) | PRead (o : nat) (f : str) | PStr (o : nat).
(** what an operation gives; [OBad]: there is no such object *)
Inductive pout := ONum (n : nat) | OUnit | OData (d : res bytes) | OText (s : str) | OBad.
Fixpoint upd {A} (f : A -> A) (n : nat) (l : list A) : list A :=
  match l, n with [], _ => [] | a :: r, O => f a :: r | a :: r, S n' => a :: upd f n' r end.
Definition list_of (s : pstate) (o : nat) : option (nat * list str) :=
  match nth_error (ps_objs s) o with
  | Some k => match nth_error (ps_lists s) k with Some l => Some (k, l) | None => None end
  | None => None
  end.
Definition pstep (printable : Z -> bool) (fs : fsys) (s : pstate) (a : pop) : pstate * pout :=
  match a with
  | PNewList l => (mkPS (ps_lists s ++ [l]) (ps_objs s), ONum (length (ps_lists s)))
  | PAppend r p => if (r <? length (ps_lists s))%nat then (mkPS (upd (fun l => l ++ [p]) r (ps_lists s)) (ps_objs s), OUnit) else (s, OBad)
  (* PathList.__init__, util.py:180-185 *)
  | PNew None => (mkPS (ps_lists s ++ [[]]) (ps_objs s ++ [length (ps_lists s)]), ONum (length (ps_objs s)))
  | PNew (Some r) => if (r <? length (ps_lists s))%nat then (mkPS (ps_lists s) (ps_objs s ++ [r]), ONum (length (ps_objs s))) else (s, OBad)
  (* PathList.add, util.py:195-197 *)
  | PAdd o p => match list_of s o with Some (k, _) => (mkPS (upd (fun l => l ++ [p]) k (ps_lists s)) (ps_objs s), OUnit) | None => (s, OBad) end
  (* PathList.read, util.py:205-251 *)
  | PRead o f => match list_of s o with Some (_, l) => (s, OData (pathlist_read fs l f)) | None => (s, OBad) end
  | PStr o => match list_of s o with Some (_, l) => (s, OText (pathlist_str printable l)) | None => (s, OBad) end
  end.
(** a program: the file system may change between the operations *)
Fixpoint prun (printable : Z -> bool) (s : pstate) (h : list (fsys * pop)) : pstate * list (pop * pout) :=
  match h with
  | [] => (s, [])
  | (fs, a) :: r => let '(s1, o) := pstep printable fs s a in let '(s2, t) := prun printable s1 r in (s2, (a, o) :: t)
  end.
Definition no_objects : pstate := mkPS [] [].
