(** * M_MThreads: programs of TCP calls in several threads, with reads of any length (sunspec/core/modbus/client.py:702-953).

    As in M_Threads the library has no locks, and a call is a sequence of steps between which other threads run: the test
    [self.socket is None] (823, 936), connect (825, 938), for each request of the loop (827-840, 941-950) sendall (758-761,
    873-876) and each recv (763-774, 878-901), and disconnect in the finally clause (842-844, 951-953).  Here a read makes as many
    requests as max_count asks for, and each thread makes any number of calls one after the other.  Simplified as M_Threads: all
    connections lead to one server, which answers every request; a recv without input waits. *)
From Verif Require Import Py M_Wire M_Rtu M_Tcp.
From Verif Require Import M_Threads.

(** read(addr, count, op) and write(addr, data) of a device with this max_count *)
Inductive ucall := URead (op addr count mc : Z) | UWrite (addr : Z) (data : bytes) (mc : Z).
(** the request at [off] registers: client.py:829-833, 943-948 *)
Definition part (c : ucall) (off : Z) : tcall :=
  match c with
  | URead op addr count mc => CRead op (addr + off) (if mc <? count - off then mc else count - off)
  | UWrite addr data _ => CWrite addr data
  end.
Inductive upc :=
| UStart | UConnect
| USend (mine : bool) (off : Z) (acc : bytes)                                  (* the test of the loop: [off] registers done *)
| URecv (mine : bool) (off : Z) (acc : bytes) (resp : bytes) (remaining : Z)
| UEnd (mine : bool) (r : res bytes).
(** a thread: its device object, the slave id of that object, the calls to make (the first is the current one), where it is in it,
    what the calls returned or raised *)
Record uthread := mkU { u_dev : nat; u_slave : Z; u_prog : list ucall; u_pc : upc; u_out : list (res bytes) }.
Definition to_pc (t : uthread) (p : upc) : uthread := mkU (u_dev t) (u_slave t) (u_prog t) p (u_out t).
Definition next_call (t : uthread) (r : res bytes) : uthread := mkU (u_dev t) (u_slave t) (tl (u_prog t)) UStart (u_out t ++ [r]).

Record uworld (D : Type) := mkV {
  v_srv : D; v_next : nat; v_conn : nat -> bytes; v_sock : nat -> option nat; v_threads : list uthread }.
Arguments mkV {D}. Arguments v_srv {D}. Arguments v_next {D}. Arguments v_conn {D}. Arguments v_sock {D}. Arguments v_threads {D}.

Section MThreads.
  Context {D : Type}.
  Variable srv : server D.

  (** the next step of thread [i]; a recv takes [k] bytes if that many are there and wanted, at least one *)
  Definition ustep (w : uworld D) (i : nat) (k : Z) : uworld D :=
    match nth_error (v_threads w) i with
    | None => w
    | Some t =>
      match u_prog t with
      | [] => w                                                    (* the thread has ended *)
      | c :: _ =>
        let d := u_dev t in
        let go p := mkV (v_srv w) (v_next w) (v_conn w) (v_sock w) (set_nth (v_threads w) i (to_pc t p)) in
        match u_pc t with
        | UStart => go (match v_sock w d with None => UConnect | Some _ => USend false 0 [] end)
        | UConnect =>
          mkV (v_srv w) (S (v_next w)) (fupd (v_conn w) (v_next w) []) (fupd (v_sock w) d (Some (v_next w)))
              (set_nth (v_threads w) i (to_pc t (USend true 0 [])))
        | USend mine off acc =>
          if match c with URead _ _ count _ => count - off <=? 0 | UWrite _ data _ => zlen data <=? 0 end then go (UEnd mine (Ok acc))
          else if match c with URead _ _ _ _ => false | UWrite _ data mc => 2 * mc <? zlen data end
          then go (UEnd mine (Raise EUnbound))                     (* start and end are not assigned: client.py:942-948 *)
          else
          match call_req (u_slave t) (part c off) with
          | Raise e => go (UEnd mine (Raise e))
          | Ok req =>
            match v_sock w d with
            | None => go (UEnd mine (Raise EModbusClient))
            | Some cn =>
              match srv_send srv (v_srv w) req with
              | (s', None) => mkV s' (v_next w) (v_conn w) (v_sock w) (set_nth (v_threads w) i (to_pc t (UEnd mine (Raise EModbusClient))))
              | (s', Some wi) =>
                mkV s' (v_next w) (fupd (v_conn w) cn (v_conn w cn ++ w_bytes wi)) (v_sock w)
                    (set_nth (v_threads w) i (to_pc t (URecv mine off acc [] (TCP_HDR_LEN + TCP_RESP_MIN_LEN))))
              end
            end
          end
        | URecv mine off acc resp remaining =>
          if 0 <? remaining then
            match v_sock w d with
            | None => go (UEnd mine (Raise EAttr))
            | Some cn =>
              match v_conn w cn with
              | [] => w
              | p =>
                let n := Z.min remaining (Z.max 1 k) in
                let resp' := resp ++ ztake n p in
                let remaining' :=
                  if TCP_HDR_LEN + TCP_RESP_MIN_LEN <=? zlen resp'
                  then be_int (slice 4 6 resp') - (zlen resp' - TCP_HDR_LEN)
                  else remaining - zlen (ztake n p) in
                mkV (v_srv w) (v_next w) (fupd (v_conn w) cn (zdrop n p)) (v_sock w)
                    (set_nth (v_threads w) i (to_pc t (URecv mine off acc resp' remaining')))
              end
            end
          else
            match call_result (part c off) resp with
            | Raise e => go (UEnd mine (Raise e))
            | Ok data =>
              match c with
              | URead _ _ count mc =>                              (* client.py:834-840 *)
                match data with
                | [] => go (UEnd mine (Ok acc))
                | _ => go (USend mine (off + (if mc <? count - off then mc else count - off)) (acc ++ data))
                end
              | UWrite _ _ _ => go (UEnd mine (Ok []))             (* client.py:949-950: nothing left *)
              end
            end
        | UEnd mine r =>
          mkV (v_srv w) (v_next w) (v_conn w) (if mine then fupd (v_sock w) d None else v_sock w)
              (set_nth (v_threads w) i (next_call t r))
        end
      end
    end.
  Definition usched (w : uworld D) (l : list (nat * Z)) : uworld D := fold_left (fun w x => ustep w (fst x) (snd x)) l w.
End MThreads.
