(** * S_Attr: names the wrapper classes use themselves (sunspec/core/client.py:547-604, 637-666). *)
From Coq Require Import String.
From Verif Require Import Py M_Device M_Wrapper.

(** attributes and methods of the wrapper of a model, and of a repeating block *)
Definition model_names : list str :=
  map lit ["model"; "name"; "repeating"; "repeating_name"; "points"; "read"; "write"; "_get_property"; "_set_property"]%string.
Definition block_names : list str := map lit ["block"; "name"; "points"; "_get_property"; "_set_property"]%string.
(** the points of a definition that become attributes: all but scale factors and padding *)
Definition fixed_ids (t : modeltype) : list str := property_ids (bt_points (mt_fixed t)).
Definition rep_ids (t : modeltype) : list str := match mt_rep t with Some b => property_ids (bt_points b) | None => [] end.
(** a definition without clashes: no point is named like an attribute of its wrapper, and the repeating block is named
    'repeating' or else like no point and no attribute *)
Definition no_clash (t : modeltype) : Prop :=
  (forall i, In i (fixed_ids t) -> ~ In i model_names) /\
  (forall i, In i (rep_ids t) -> ~ In i block_names) /\
  (forall b n, mt_rep t = Some b -> bt_name b = Some n ->
     n = lit "repeating"%string \/ (~ In n model_names /\ ~ In n (fixed_ids t))).
(** the model was loaded from the definition *)
Definition loaded_from (t : modeltype) (m : model) : Prop :=
  match md_blocks m with
  | [] => True
  | b :: r => Forall (fun c => mt_rep t = Some (b_type c) /\ exists n, bt_name (b_type c) = Some n) r
  end.
