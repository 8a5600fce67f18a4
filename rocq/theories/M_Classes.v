(** * M_Classes: the classes of the wrapper objects, sunspec/core/client.py:668-712.

    The class Model<id> is created once per process and kept in globals(); every later model_class_get(id) replaces its
    attribute [points] and adds properties to it, for all wrapper objects of that id, those of other devices included.  (The
    class Model<id>Repeating is a new one each time, so the wrapper objects of repeating blocks keep theirs: M_Wrapper.)
    M_Wrapper describes the objects at the time they are made; here they are looked at later. *)
From Coq Require Import String.
From Verif Require Import Py M_Util M_Float M_Suns M_Point M_Mbmap M_Device M_Wrapper M_Print.

(** a class Model<id>: its attribute points, and the names of its properties *)
Record mclass := mkMC { mc_points : list str; mc_props : list str }.
(** the classes in globals(), by model id *)
Definition mclasses := list (Z * mclass).
Fixpoint mget (i : Z) (cs : mclasses) : option mclass :=
  match cs with [] => None | (j, c) :: r => if i =? j then Some c else mget i r end.
(** model_class_get, client.py:668-712: a definition that cannot be loaded leaves points empty (682, 686-688) *)
Definition class_get (types : Z -> res modeltype) (cs : mclasses) (id : Z) : mclasses :=
  let old := match mget id cs with Some c => mc_props c | None => [] end in
  match types id with
  | Raise _ => (id, mkMC [] old) :: cs
  | Ok t => let ids := property_ids (bt_points (mt_fixed t)) in (id, mkMC ids (old ++ ids)) :: cs
  end.
(** calls of model_class_get, each with the definitions that can be loaded at that time *)
Definition call := ((Z -> res modeltype) * Z)%type.
Definition calls (l : list call) (cs : mclasses) : mclasses := fold_left (fun cs x => class_get (fst x) cs (snd x)) l cs.
(** those SunSpecClientDevice.__init__ makes for a device with these models, client.py:820-823 *)
Definition device_calls (types : Z -> res modeltype) (ms : list model) : list call := map (fun m => (types, md_id m)) ms.

(** ** a wrapper object [w] looked at when the classes are [cs] *)
Definition class_of (cs : mclasses) (w : wmodel) : mclass :=
  match mget (md_id (wm_model w)) cs with Some c => c | None => mkMC [] [] end.
(** w.points *)
Definition points_now (cs : mclasses) (w : wmodel) : list str := mc_points (class_of cs w).
Definition has_prop (cs : mclasses) (w : wmodel) (n : str) : bool := existsb (eqb_list n) (mc_props (class_of cs w)).
(** w.n for a name that is no attribute of the object itself or of its base class: the property (672-673, 568-571) or an
    AttributeError *)
Definition attr_get (E : pyenv) (cs : mclasses) (w : wmodel) (n : str) : res value :=
  if has_prop cs w n then wmodel_get E w n else Raise EAttr.
(** w.n = v: the property (674, 573-576), which ignores names that are no points; otherwise the object gets an attribute *)
Inductive assigned := ToPoint (m : model) | Ignored | ToObject (n : str) (v : value).
Definition attr_set (E : pyenv) (cs : mclasses) (w : wmodel) (n : str) (v : value) : res assigned :=
  if has_prop cs w n then
    match find_point n (model_points (wm_model w)) with
    | None => Ok Ignored
    | Some _ => let! m := wmodel_set E (wm_model w) n v in Ok (ToPoint m)
    end
  else Ok (ToObject n v).
(** str(w), client.py:594-604: the loop is over w.points *)
Definition str_now (E : pyenv) (cs : mclasses) (w : wmodel) : res str :=
  wmodel_str E (mkWM (wm_model w) (wm_name w) (wm_repeating w) (wm_repeating_name w) (wm_aliases w) (points_now cs w)).
