(** * S_RThreads: threads that open and close serial devices, and what a program with one thread does (specification, C113). *)
From Verif Require Import Py M_Registry S_Registry M_RThreads.

(** a thread may still touch the port [n]: it has a device on it, is in a call about it, or will open a device on it *)
Definition act_name (a : act) : option str := match a with AOpen _ name _ _ _ => Some name | AClose _ => None end.
Definition pc_name (pc : qpc) : option str :=
  match pc with
  | QIdle => None
  | QNew _ n _ _ _ | QSet _ n _ | QAdd _ n _ => Some n
  | QDel d | QLen d | QShut d | QGet d | QUnreg d => Some (qd_name d)
  end.
Definition uses (t : qthread) (n : str) : Prop :=
  (exists a, In a (t_prog t) /\ act_name a = Some n) \/ pc_name (t_pc t) = Some n \/ (exists d, In d (t_devs t) /\ qd_name d = n).
(** a group of threads whose ports are used by no thread outside the group *)
Definition own_ports (w : qworld) (G : nat -> Prop) : Prop :=
  forall i j t u n, nth_error (w_threads w) i = Some t -> nth_error (w_threads w) j = Some u -> G i -> ~ G j -> uses t n -> ~ uses u n.

(** ** The same calls one after the other, in a program with one thread (M_Registry). *)
(** [fst]: the objects and the registry; the devices each thread has made; what the calls returned or raised *)
Record oneworld := mkOne { o_state : rstate; o_devs : nat -> list nat; o_out : nat -> list (res (option nat)) }.
Definition one0 : oneworld := mkOne rstate0 (fun _ => []) (fun _ => []).
Definition add_at {A} (i : nat) (x : A) (f : nat -> list A) : nat -> list A := fun j => if (i =? j)%nat then f i ++ [x] else f j.
Definition one_call (ia : nat * act) (o : oneworld) : oneworld :=
  let '(i, a) := ia in
  match a with
  | AOpen slave name baud parity can =>
    match dev_open slave name baud parity can (o_state o) with
    | (s, Ok d) => mkOne s (add_at i d (o_devs o)) (add_at i (Ok (Some (length (o_devs o i)))) (o_out o))
    | (s, Raise e) => mkOne s (o_devs o) (add_at i (Raise e) (o_out o))
    end
  | AClose k =>
    mkOne (match nth_error (o_devs o i) k with Some d => dev_close d (o_state o) | None => o_state o end) (o_devs o) (add_at i (Ok None) (o_out o))
  end.
Definition one_run (h : list (nat * act)) : oneworld := fold_left (fun o ia => one_call ia o) h one0.

(** Two states with the same objects, up to how objects are named: [names] lists, for each client object of [s], its name in [w]. *)
Definition same_client (g : nat -> list nat) (n : str) (q : qclient) (k : rclient) : Prop :=
  c_name k = n /\ c_baud k = q_baud q /\ c_parity k = q_parity q /\ c_open k = q_open q /\
  Forall2 (fun e e' => fst e = fst e' /\ nth_error (g (fst (snd e))) (snd (snd e)) = Some (snd e')) (q_devs q) (c_devs k).
Definition same_device (s : rstate) (names : list (str * nat)) (d : qdev) (x : nat) : Prop :=
  exists c, nth_error (r_devices s) x = Some (mkRD (qd_slave d) (qd_name d) c) /\ nth_error names c = Some (qd_name d, qd_client d).
Record same_objects (P : str -> qport) (s : rstate) (g : nat -> list nat) (names : list (str * nat)) : Prop := {
  so_once : NoDup names;
  so_len : length names = length (r_clients s);
  so_client : forall c n k, nth_error names c = Some (n, k) -> exists q, nth_error (q_clients (P n)) k = Some q /\ same_client g n q (get_client s c);
  so_all : forall n k, (k < length (q_clients (P n)))%nat -> In (n, k) names;
  so_reg : forall n, match q_reg (P n), registered s n with Some k, Some c => nth_error names c = Some (n, k) | None, None => True | _, _ => False end }.
Definition agrees (w : qworld) (o : oneworld) : Prop :=
  exists names, same_objects (w_ports w) (o_state o) (o_devs o) names /\
  forall i t, nth_error (w_threads w) i = Some t -> Forall2 (same_device (o_state o) names) (t_devs t) (o_devs o i) /\ t_out t = o_out o i.

(** One at a time: [h] lists the calls in the order in which they were made, each finished before the next begins. *)
Inductive one_at_a_time (w : qworld) : list (nat * act) -> qworld -> Prop :=
| oat_nil : one_at_a_time w [] w
| oat_call h w1 i t a rest n : one_at_a_time w h w1 ->
    nth_error (w_threads w1) i = Some t -> t_pc t = QIdle -> t_prog t = a :: rest ->
    (forall m, (0 < m < n)%nat -> exists u, nth_error (w_threads (qsched (repeat i m) w1)) i = Some u /\ t_pc u <> QIdle) ->
    (exists u, nth_error (w_threads (qsched (repeat i n) w1)) i = Some u /\ t_pc u = QIdle /\ t_prog u = rest) ->
    one_at_a_time w (h ++ [(i, a)]) (qsched (repeat i n) w1).

(** the calls as events of S_Registry: with one thread, its [k]-th device is the [k]-th of all *)
Definition ev_of (a : act) : revent :=
  match a with AOpen slave name baud parity can => EvOpen slave name baud parity can | AClose k => EvClose k end.
