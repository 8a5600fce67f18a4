(** * S_Wrapper: what the scripting wrapper should expose (C52). *)
From Coq Require Import String.
From Verif Require Import Py M_Suns M_Mbmap M_Device M_Wrapper.

(** the name of a model: that of its definition, or model_<id> *)
Definition named (m : model) (n : str) : Prop :=
  (exists t, md_type m = Some t /\ mt_name t = Some n) \/
  (md_type m = None /\ n = lit "model_"%string ++ str_of_int (md_id m)).

(** names in order of first appearance *)
Inductive first_seen : list str -> list str -> list str -> Prop :=     (* names seen before, all names, the new ones *)
| fs_nil s : first_seen s [] []
| fs_old s n l r : In n s -> first_seen s l r -> first_seen s (n :: l) r
| fs_new s n l r : ~ In n s -> first_seen (n :: s) l r -> first_seen s (n :: l) (n :: r).

(** names that do not clash with attributes of the wrapper itself *)
Definition free_name (inherited : list str) (n : str) : Prop :=
  ~ In n (map lit ["device"; "models"; "close"; "read"; "__init__"; "__getitem__"; "__setitem__"; "__str__"]%string) /\ ~ In n inherited.

(** the points of a block definition with an attribute: all but scale factors and padding *)
Definition exposes (l : list pointtype) (ids : list str) : Prop :=
  forall id, In id ids <-> exists p, In p l /\ pt_id p = id /\ pt_type p <> Tsunssf /\ pt_type p <> Tpad.
(** the wrapper of a model: it has attributes for the points of the fixed block (none when the definition cannot be loaded);
    repeating[0] is None, repeating[i] wraps block i, has its name, and attributes for the points of the repeating block;
    the same list is reachable under the name of every repeating block *)
Definition wraps (types : Z -> res modeltype) (m : model) (n : str) (w : wmodel) : Prop :=
  wm_model w = m /\ wm_name w = n /\
  match types (md_id m) with Ok t => exposes (bt_points (mt_fixed t)) (wm_points w) | Raise _ => wm_points w = [] end /\
  map (option_map wb_block) (wm_repeating w) = None :: map Some (tl (md_blocks m)) /\
  (forall wb, In (Some wb) (wm_repeating w) ->
     bt_name (b_type (wb_block wb)) = Some (wb_name wb) /\
     exists t b, types (md_id m) = Ok t /\ mt_rep t = Some b /\ exposes (bt_points b) (wb_points wb)) /\
  (forall a, In a (lit "repeating"%string :: wm_aliases w) <->
     a = lit "repeating"%string \/ exists b, In b (tl (md_blocks m)) /\ bt_name (b_type b) = Some a).

(** models whose repeating blocks have names, and whose definition can (still) be loaded *)
Definition wrappable (types : Z -> res modeltype) (m : model) : Prop :=
  (exists n, named m n) /\
  Forall (fun b => bt_name (b_type b) <> None) (tl (md_blocks m)) /\
  (tl (md_blocks m) <> [] -> exists t b, types (md_id m) = Ok t /\ mt_rep t = Some b).

(** what the attribute of a name holds: the wrapper of the only model, or a list with the wrappers at 1, 2, ... *)
Definition holds (ws : list wmodel) (v : wval) : Prop :=
  match ws with
  | [] => False
  | [w] => v = WModel w
  | _ => v = WList (None :: map (fun w => Some (WModel w)) ws)
  end.
