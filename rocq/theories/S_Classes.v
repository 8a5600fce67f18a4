(** * S_Classes: wrapper objects that do not depend on each other (specification, C100). *)
From Coq Require Import String.
From Verif Require Import Py M_Suns M_Mbmap M_Device M_Wrapper M_Classes.

(** the ids of the points for which a wrapper of a model gets attributes *)
Definition attribute_ids (types : Z -> res modeltype) (id : Z) : list str :=
  match types id with
  | Ok t => map pt_id (filter (fun p => match pt_type p with Tsunssf | Tpad => false | _ => true end) (bt_points (mt_fixed t)))
  | Raise _ => []
  end.
(** [w] is the wrapper of the model [m], made while [types] can be loaded *)
Definition made (types : Z -> res modeltype) (m : model) (w : wmodel) : Prop :=
  exists classes n, wrap_model (fst (model_class_get types classes (md_id m))) (snd (model_class_get types classes (md_id m))) m n = Ok w.
(** the last of some calls that is for a model id *)
Inductive last_call (id : Z) : list call -> (Z -> res modeltype) -> Prop :=
| lc l types r : (forall x, In x r -> snd x <> id) -> last_call id (l ++ (types, id) :: r) types.
