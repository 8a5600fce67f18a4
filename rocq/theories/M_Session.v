(** * M_Session: a program using one ClientDevice (sunspec/core/client.py:112-506 as modelled in M_Client, M_Scan, M_Wrapper).

    The operations are those of the API: scan, ClientDevice.read_points, ClientModel.read_points and write_points,
    ClientDevice.read and write, ClientPoint.write, and getting and assigning values as the scripting wrapper does.  A
    program chooses its next operation from all the results it has got before; an exception is a result (the program may
    catch it and go on).  Not included: close (C96) and the reading of single models through the wrapper object. *)
From Verif Require Import Py M_Util M_Float M_Suns M_Point M_Mbmap M_Device M_Client M_Scan M_Wrapper.

(** models are numbered by their place in models_list, blocks by their place in the model *)
Inductive op : Type :=
| OpScan (progress : option (list Z -> bool))          (* ClientDevice.scan, client.py:229-307 *)
| OpReadAll                                            (* ClientDevice.read_points, client.py:220-226 *)
| OpRead (k : nat)                                     (* ClientModel.read_points, client.py:343-411 *)
| OpWrite (k : nat)                                    (* ClientModel.write_points, client.py:413-441 *)
| OpGet (k i : nat) (id : str)                         (* m[id] or m.repeating[i][id], client.py:568-571, 639-642 *)
| OpSet (k i : nat) (id : str) (v : value)             (* m[id] = v, client.py:573-576, 644-647 *)
| OpPointWrite (k i : nat) (id : str)                  (* ClientPoint.write, client.py:500-506 *)
| OpRawRead (a n : Z)                                  (* ClientDevice.read, client.py:177-198 *)
| OpRawWrite (a : Z) (d : bytes).                      (* ClientDevice.write, client.py:200-218 *)
(** what an operation returns or raises *)
Inductive obs : Type := RUnit (r : res unit) | RBytes (r : res (option bytes)) | RValue (r : res value).

(** replacing an element of a list (the objects are updated in place) *)
Fixpoint set_nth {A} (n : nat) (x : A) (l : list A) : list A :=
  match l, n with
  | [], _ => []
  | _ :: r, O => x :: r
  | y :: r, S k => y :: set_nth k x r
  end.
(** the place of the point with the given id in a block's list *)
Fixpoint point_place (id : str) (l : list point) : option nat :=
  match l with
  | [] => None
  | p :: r => if eqb_list (p_id p) id then Some O else option_map S (point_place id r)
  end.
Definition with_models (cd : cdevice) (l : list model) : cdevice := mkCD (cd_base cd) l.

Section Session.
  Context {D : Type} (c : sclient D) (E : pyenv) (lfuel fuel : nat) (types : Z -> res modeltype).

  (** one operation; a number out of range is an IndexError, an id that is not in the block a KeyError *)
  Definition do_op (s : D) (cd : cdevice) (o : op) : D * cdevice * obs :=
    match o with
    | OpScan progress => let '(s', cd', r) := scan c lfuel types progress fuel s cd in (s', cd', RUnit r)
    | OpReadAll => let '(s', ms, r) := device_read_points (scl_dev c) s (cd_models cd) in (s', with_models cd ms, RUnit r)
    | OpRead k =>
      match nth_error (cd_models cd) k with
      | None => (s, cd, RUnit (Raise EIndex))
      | Some m => let '(s', m', r) := read_points (scl_dev c) s m in (s', with_models cd (set_nth k m' (cd_models cd)), RUnit r)
      end
    | OpWrite k =>
      match nth_error (cd_models cd) k with
      | None => (s, cd, RUnit (Raise EIndex))
      | Some m => let '(s', m', r) := write_points (scl_dev c) s m in (s', with_models cd (set_nth k m' (cd_models cd)), RUnit r)
      end
    | OpGet k i id =>
      match nth_error (cd_models cd) k with
      | None => (s, cd, RValue (Raise EIndex))
      | Some m => (s, cd, RValue (script_get E m i id))
      end
    | OpSet k i id v =>
      match nth_error (cd_models cd) k with
      | None => (s, cd, RUnit (Raise EIndex))
      | Some m => match script_set E m i id v with
                  | Ok m' => (s, with_models cd (set_nth k m' (cd_models cd)), RUnit (Ok tt))
                  | Raise e => (s, cd, RUnit (Raise e))
                  end
      end
    | OpPointWrite k i id =>
      match nth_error (cd_models cd) k with
      | None => (s, cd, RUnit (Raise EIndex))
      | Some m =>
        match nth_error (md_blocks m) i with
        | None => (s, cd, RUnit (Raise EIndex))
        | Some b =>
          match point_place id (b_points b) with
          | None => (s, cd, RUnit (Raise EKey))
          | Some j =>
            match nth_error (b_points b) j with
            | None => (s, cd, RUnit (Raise EKey))
            | Some p =>
              let '(s', p', r) := point_write (scl_dev c) s p in
              (s', with_models cd (set_nth k (with_blocks m (set_nth i (with_points b (set_nth j p' (b_points b))) (md_blocks m))) (cd_models cd)), RUnit r)
            end
          end
        end
      end
    | OpRawRead a n => let '(s', r) := cl_read (scl_dev c) s a n in (s', cd, RBytes r)
    | OpRawWrite a d => let '(s', r) := cl_write (scl_dev c) s a d in (s', cd, RUnit r)
    end.
  (** the first [n] steps of a program, and all results *)
  Fixpoint program (n : nat) (next : list obs -> option op) (s : D) (cd : cdevice) (hist : list obs) : D * cdevice * list obs :=
    match n with
    | O => (s, cd, hist)
    | S k => match next hist with
             | None => (s, cd, hist)
             | Some o => let '(s', cd', x) := do_op s cd o in program k next s' cd' (hist ++ [x])
             end
    end.
End Session.
