(** * M_Wrapper: the scripting wrapper, sunspec/core/client.py:547-712 and 808-873.

    Not modelled: TLS and connection parameters (passed through to ClientDevice), __str__.  Precondition on model
    definitions: no point id is 'model', 'name', 'repeating', 'repeating_name' or 'points' (the property of such a point
    would replace the attribute of the wrapper object), and no repeating block is named like a point of its model.  M_Attr
    models the attributes of the wrappers without this precondition (C102). *)
From Coq Require Import String.
From Verif Require Import Py M_Util M_Float M_Suns M_Point M_Mbmap M_Device.

(** wrapper of a repeating block, client.py:637-639 *)
Record wblock := mkWB { wb_block : block; wb_name : str; wb_points : list str }.
(** wrapper of a model, client.py:547-563: [repeating] (its first element is None), the names under which the same list
    is also set, and [points] *)
Record wmodel := mkWM { wm_model : model; wm_name : str; wm_repeating : list (option wblock); wm_repeating_name : str;
                        wm_aliases : list str; wm_points : list str }.

(** the ids of the points that become properties, client.py:694-697, 707-710 *)
Definition property_ids (l : list pointtype) : list str :=
  map pt_id (filter (fun t => negb (is_sunssf (pt_type t)) && negb (is_pad (pt_type t))) l).

(** model_class_get, client.py:668-712, for the decimal text of an id.  [classes] are the ids n for which a class
    Model<n>Repeating exists in globals(), with its points.  Result: the classes afterwards and the points of the class.
    (model_type_get takes the text; M_Smdx.model_type_get turns it into the same file name.) *)
Definition rclasses := list (Z * list str).
Fixpoint rget (i : Z) (c : rclasses) : option (list str) :=
  match c with [] => None | (j, p) :: r => if i =? j then Some p else rget i r end.
Definition model_class_get (types : Z -> res modeltype) (classes : rclasses) (id : Z) : rclasses * list str :=
  match types id with
  | Raise _ => (classes, [])
  | Ok t =>
    ((match mt_rep t with Some b => (id, property_ids (bt_points b)) :: classes | None => classes end),
     property_ids (bt_points (mt_fixed t)))
  end.

(** the loop of client.py:555-563; calling None (no class) is a TypeError, as is setattr with a name None *)
Fixpoint wrap_blocks (cls : option (list str)) (rname : str) (aliases : list str) (reps : list (option wblock)) (l : list block)
  : res (str * list str * list (option wblock)) :=
  match l with
  | [] => Ok (rname, aliases, reps)
  | b :: r =>
    let! (rname', aliases') :=
      match bt_name (b_type b) with
      | None => Raise EType
      | Some n => if eqb_list n rname then Ok (rname, aliases) else Ok (n, aliases ++ [n])
      end in
    match cls with
    | None => Raise EType
    | Some pts => wrap_blocks cls rname' aliases' (reps ++ [Some (mkWB b rname' pts)]) r
    end
  end.
(** SunSpecClientModelBase.__init__, client.py:547-563 *)
Definition wrap_model (classes : rclasses) (points : list str) (m : model) (name : str) : res wmodel :=
  let! (rname, aliases, reps) :=
    wrap_blocks (rget (md_id m) classes) (lit "repeating"%string) [] [None] (tl (md_blocks m)) in
  Ok (mkWM m name reps rname aliases points).

(** ** SunSpecClientDevice *)
(** what an attribute of the wrapper can be: the ClientDevice, the list [models] (kept apart), a method, a model wrapper,
    or the list of the wrappers of several models *)
Inductive wval := WDevice | WNames | WMethod (n : str) | WModel (m : wmodel) | WList (l : list (option wval)).
(** entries of self.models *)
Inductive wname := NName (s : str) | NModel (m : wmodel).
Record wdev := mkWD { wd_dict : list (str * wval); wd_models : list wname; wd_closed : bool }.
(** client.py:812-813 *)
Definition new_wdev : wdev := mkWD [(lit "device"%string, WDevice); (lit "models"%string, WNames)] [] false.
(** methods of the class, and [inherited] names every object has (simplification: all of them are treated as methods) *)
Definition class_attrs : list str := map lit ["close"; "read"; "__init__"; "__getitem__"; "__setitem__"; "__str__"]%string.
Definition getattr_w (inherited : list str) (w : wdev) (n : str) : option wval :=
  match dget n (wd_dict w) with
  | Some v => Some v
  | None => if existsb (eqb_list n) (class_attrs ++ inherited) then Some (WMethod n) else None
  end.
(** truth value: only lists can be false *)
Definition w_truthy (w : wdev) (v : wval) : bool :=
  match v with
  | WNames => match wd_models w with [] => false | _ => true end
  | WList [] => false
  | _ => true
  end.
(** model.model_type.name or 'model_' + id, client.py:824-827 *)
Definition wrapper_name (m : model) : option str :=
  match md_type m with Some t => mt_name t | None => Some (lit "model_"%string ++ str_of_int (md_id m)) end.
(** one round of the loop, client.py:820-841 *)
Definition add_model (types : Z -> res modeltype) (inherited : list str) (st : rclasses * wdev) (m : model) : res (rclasses * wdev) :=
  let '(classes, w) := st in
  let '(classes', points) := model_class_get types classes (md_id m) in
  match wrapper_name m with
  | None => Raise EType
  | Some name =>
    let! wm := wrap_model classes' points m name in
    let put v := mkWD (dset name v (wd_dict w)) (wd_models w) (wd_closed w) in
    match getattr_w inherited w name with
    | Some existing =>
      if w_truthy w existing then
        match dget name (wd_dict w) with                       (* self[name] *)
        | Some (WList l) => Ok (classes', put (WList (l ++ [Some (WModel wm)])))
        | Some WNames => Ok (classes', mkWD (wd_dict w) (wd_models w ++ [NModel wm]) (wd_closed w))
        | _ => Ok (classes', put (WList [None; Some existing; Some (WModel wm)]))
        end
      else
        match existing with
        | WNames => Raise EAttr                                (* self.models is now the wrapper: no append *)
        | _ => Ok (classes', mkWD (dset name (WModel wm) (wd_dict w)) (wd_models w ++ [NName name]) (wd_closed w))
        end
    | None => Ok (classes', mkWD (dset name (WModel wm) (wd_dict w)) (wd_models w ++ [NName name]) (wd_closed w))
    end
  end.
Fixpoint add_models (types : Z -> res modeltype) (inherited : list str) (st : rclasses * wdev) (l : list model)
  : (rclasses * wdev) * res unit :=
  match l with
  | [] => (st, Ok tt)
  | m :: r => match add_model types inherited st m with
              | Raise e => (st, Raise e)
              | Ok st' => add_models types inherited st' r
              end
  end.
(** SunSpecClientDevice.__init__, client.py:808-848, from the outcome of the scan (models_list).  Any exception closes the
    device — the attribute self.device, which a model of that name replaces by a list without close. *)
Definition wrapper_init (types : Z -> res modeltype) (inherited : list str) (classes : rclasses) (scanned : res (list model))
  : (rclasses * wdev) * res unit :=
  let '((c, w), r) := match scanned with
                      | Raise e => ((classes, new_wdev), Raise e)
                      | Ok l => add_models types inherited (classes, new_wdev) l
                      end in
  match r with
  | Ok _ => ((c, w), Ok tt)
  | Raise e =>
    match dget (lit "device"%string) (wd_dict w) with
    | Some WDevice => ((c, mkWD (wd_dict w) (wd_models w) true), Raise e)
    | _ => ((c, w), Raise EAttr)
    end
  end.

(** ** Access to points: _get_property and _set_property, client.py:565-573 and 641-649 *)
(** the dict points of a model: the points of blocks[0] (M_Device.md_exposed) *)
Definition model_points (m : model) : list point :=
  if md_exposed m then match md_blocks m with b :: _ => b_points b | [] => [] end else [].
Definition get_in (E : pyenv) (l : list point) (id : str) : res value :=
  match find_point id l with Some p => value_getter E (p_base p) (p_sf p) | None => Ok VNone end.
(** the value setter of a point, device.py:518-525 *)
Definition point_set (E : pyenv) (p : point) (v : value) : res point :=
  let! b := value_setter E (pt_type (p_type p)) (p_sf p) v in
  Ok (mkP (p_type p) (p_addr p) (p_link p) (p_impl p) b (p_sf p) true).
Fixpoint set_in (E : pyenv) (l : list point) (id : str) (v : value) : res (list point) :=
  match l with
  | [] => Ok []
  | p :: r => if eqb_list (p_id p) id then let! p' := point_set E p v in Ok (p' :: r)
              else let! r' := set_in E r id v in Ok (p :: r')
  end.
(** m[id], and m.id for a property *)
Definition wmodel_get (E : pyenv) (w : wmodel) (id : str) : res value := get_in E (model_points (wm_model w)) id.
Definition wblock_get (E : pyenv) (w : wblock) (id : str) : res value := get_in E (b_points (wb_block w)) id.
(** m[id] = v: the model afterwards *)
Definition set_points (b : block) (l : list point) : block := mkB (b_addr b) (b_len b) (b_type b) (b_index b) l (b_sfs b).
Definition wmodel_set (E : pyenv) (m : model) (id : str) (v : value) : res model :=
  if md_exposed m then
    match md_blocks m with
    | b :: r => let! l := set_in E (b_points b) id v in
                Ok (mkModel (md_id m) (md_index m) (md_type m) (md_addr m) (md_len m) (md_exposed m) (set_points b l :: r)
                            (md_reads m) (md_error m))
    | [] => Ok m
    end
  else Ok m.

(** ** A script: values read and assigned through the wrapper of one model.  [i] = 0: the attributes of the model itself;
    [i] >= 1: those of the wrapper [repeating[i]] (client.py:563, 641-649), IndexError if there is no such block. *)
Definition script_get (E : pyenv) (m : model) (i : nat) (id : str) : res value :=
  match i with
  | O => get_in E (model_points m) id
  | S k => match nth_error (tl (md_blocks m)) k with Some b => get_in E (b_points b) id | None => Raise EIndex end
  end.
(** assignment in one block of a list of blocks: _set_property, client.py:646-649 *)
Fixpoint set_block (E : pyenv) (l : list block) (k : nat) (id : str) (v : value) : res (list block) :=
  match l, k with
  | [], _ => Raise EIndex
  | b :: r, O => let! ps := set_in E (b_points b) id v in Ok (set_points b ps :: r)
  | b :: r, S k' => let! r' := set_block E r k' id v in Ok (b :: r')
  end.
Definition script_set (E : pyenv) (m : model) (i : nat) (id : str) (v : value) : res model :=
  match i with
  | O => wmodel_set E m id v
  | S k => let! r := set_block E (tl (md_blocks m)) k id v in
           Ok (mkModel (md_id m) (md_index m) (md_type m) (md_addr m) (md_len m) (md_exposed m)
                       (match md_blocks m with b :: _ => b :: r | [] => r end) (md_reads m) (md_error m))
  end.
(** several assignments, one after the other *)
Fixpoint script_sets (E : pyenv) (m : model) (ops : list (nat * str * value)) : res model :=
  match ops with
  | [] => Ok m
  | (i, id, v) :: r => let! m' := script_set E m i id v in script_sets E m' r
  end.
