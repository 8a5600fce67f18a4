(** * M_Attr: the attributes of the wrapper objects (sunspec/core/client.py:547-573, 637-649, 668-712) for any point ids.

    M_Wrapper assumes that the ids of the points differ from the names the wrapper classes use themselves.  Here every
    attribute access goes through Python's lookup: a property of the class (made for each point) comes before the dict of
    the object, which comes before the methods of the class.  Left out: ids that begin and end with two underscores (they
    could replace Python's own methods of the class).  Unbounded recursion (RecursionError in Python) is [EFuel]. *)
From Coq Require Import String.
From Verif Require Import Py M_Util M_Float M_Suns M_Point M_Mbmap M_Device M_Wrapper.

(** what an attribute can be: a value of a point or a text, the Model or Block object, the list [repeating], a method *)
Inductive aval := AVal (v : value) | AObject | AList | AMethod (n : str) | APoints.
Definition mem_str (n : str) (l : list str) : bool := existsb (eqb_list n) l.

(** the properties of a class, client.py:694-697 and 707-710: after each add_property, [class_.points] is looked up — and is
    the property once there is a point of that name; a property has no [append] *)
Fixpoint class_props (props : list str) (ids : list str) : res (list str) :=
  match ids with
  | [] => Ok props
  | i :: r => if mem_str (lit "points"%string) (props ++ [i]) then Raise EAttr else class_props (props ++ [i]) r
  end.

Section Attr.
  Variable E : pyenv.
  (** str() of a list of n elements; it shows the addresses of the objects *)
  Variable list_text : nat -> str.

  (** point.value = x, device.py:518-525: no number can be made of a list, but a text can ([n]: its length) *)
  Definition point_assign (n : nat) (p : point) (a : aval) : res point :=
    match a with
    | AVal v => point_set E p v
    | AList =>
      if sf_truthy (p_sf p) then Raise EType
      else match pt_type (p_type p) with
           | Tipv6addr | Tstring | Teui48 =>
             Ok (mkP (p_type p) (p_addr p) (p_link p) (p_impl p) (VStr (list_text n)) (p_sf p) true)
           | _ => Raise EType
           end
    | _ => Raise EType               (* does not occur: only texts, values and the list are assigned *)
    end.
  Fixpoint assign_in (n : nat) (l : list point) (id : str) (a : aval) : res (list point) :=
    match l with
    | [] => Ok []
    | p :: r => if eqb_list (p_id p) id then let! p' := point_assign n p a in Ok (p' :: r)
                else let! r' := assign_in n r id a in Ok (p :: r')
    end.

  (** ** Wrapper of a repeating block *)
  Record bobj := mkBO { bo_props : list str; bo_dict : list (str * aval); bo_block : block }.
  Definition block_methods : list str := map lit ["_get_property"; "_set_property"]%string.
  (** getattr(block wrapper, n); a property calls self._get_property, which looks up self.block (client.py:641-644) *)
  Definition b_getattr (o : bobj) (n : str) : res aval :=
    if mem_str n (bo_props o) then
      if mem_str (lit "_get_property"%string) (bo_props o) || mem_str (lit "block"%string) (bo_props o) then Raise EFuel
      else match dget (lit "block"%string) (bo_dict o) with
           | Some AObject => let! v := get_in E (b_points (bo_block o)) n in Ok (AVal v)
           | _ => Raise EAttr
           end
    else match dget n (bo_dict o) with
         | Some a => Ok a
         | None => if mem_str n block_methods then Ok (AMethod n)
                   else if eqb_list n (lit "points"%string) then Ok APoints else Raise EAttr
         end.
  (** setattr: a property calls self._set_property (client.py:646-649) *)
  Definition b_setattr (n : nat) (o : bobj) (k : str) (a : aval) : res bobj :=
    if mem_str k (bo_props o) then
      let! f := b_getattr o (lit "_set_property"%string) in
      match f with
      | AMethod _ =>
        let! _ := b_getattr o (lit "block"%string) in
        let! l := assign_in n (b_points (bo_block o)) k a in
        Ok (mkBO (bo_props o) (bo_dict o) (set_points (bo_block o) l))
      | _ => Raise EType
      end
    else Ok (mkBO (bo_props o) (dset k a (bo_dict o)) (bo_block o)).
  (** SunSpecClientBlockBase.__init__, client.py:637-639 *)
  Definition b_init (n : nat) (props : list str) (b : block) (name : aval) : res bobj :=
    let! o := b_setattr n (mkBO props [] b) (lit "block"%string) AObject in
    b_setattr n o (lit "name"%string) name.

  (** ** Wrapper of a model *)
  Record mobj := mkMO { mo_props : list str; mo_dict : list (str * aval); mo_model : model; mo_list : list (option bobj) }.
  Definition model_methods : list str := map lit ["_get_property"; "_set_property"; "read"; "write"]%string.
  (** getattr(model wrapper, n); a property calls self._get_property, which looks up self.model (client.py:565-568) *)
  Definition m_getattr (o : mobj) (n : str) : res aval :=
    if mem_str n (mo_props o) then
      if mem_str (lit "_get_property"%string) (mo_props o) || mem_str (lit "model"%string) (mo_props o) then Raise EFuel
      else match dget (lit "model"%string) (mo_dict o) with
           | Some AObject => let! v := get_in E (model_points (mo_model o)) n in Ok (AVal v)
           | _ => Raise EAttr                     (* not set yet, or something that has no points *)
           end
    else match dget n (mo_dict o) with
         | Some a => Ok a
         | None => if mem_str n model_methods then Ok (AMethod n)
                   else if eqb_list n (lit "points"%string) then Ok APoints else Raise EAttr
         end.
  (** the points of the model with one assigned (client.py:570-573) *)
  Definition m_assign (n : nat) (m : model) (k : str) (a : aval) : res model :=
    if md_exposed m then
      match md_blocks m with
      | b :: r => let! l := assign_in n (b_points b) k a in
                  Ok (mkModel (md_id m) (md_index m) (md_type m) (md_addr m) (md_len m) (md_exposed m) (set_points b l :: r)
                              (md_reads m) (md_error m))
      | [] => Ok m
      end
    else Ok m.
  Definition m_setattr (o : mobj) (k : str) (a : aval) : res mobj :=
    if mem_str k (mo_props o) then
      let! f := m_getattr o (lit "_set_property"%string) in
      match f with
      | AMethod _ =>
        let! x := m_getattr o (lit "model"%string) in
        match x with
        | AObject =>
          let! m := m_assign (length (mo_list o)) (mo_model o) k a in
          Ok (mkMO (mo_props o) (mo_dict o) m (mo_list o))
        | _ => Raise EAttr
        end
      | _ => Raise EType
      end
    else Ok (mkMO (mo_props o) (dset k a (mo_dict o)) (mo_model o) (mo_list o)).

  (** block.block_type.name != self.repeating_name *)
  Definition same_name (n : option str) (a : aval) : bool :=
    match n, a with
    | Some s, AVal (VStr t) => eqb_list s t
    | None, AVal VNone => true
    | _, _ => false
    end.
  Definition name_val (n : option str) : aval := AVal (match n with Some s => VStr s | None => VNone end).
  (** one round of the loop, client.py:555-563.  [cls]: the points of the class of the block wrappers, if there is one.  The
      block is the [k]-th block of the model: what its wrapper assigns is visible there. *)
  Definition put_block (m : model) (k : nat) (b : block) : model :=
    mkModel (md_id m) (md_index m) (md_type m) (md_addr m) (md_len m) (md_exposed m)
            (firstn k (md_blocks m) ++ b :: skipn (S k) (md_blocks m)) (md_reads m) (md_error m).
  Definition m_block (cls : option (list str)) (o : mobj) (k : nat) (b : block) : res mobj :=
    let! rn := m_getattr o (lit "repeating_name"%string) in
    let! o1 :=
      if same_name (bt_name (b_type b)) rn then Ok o
      else
        let! o1 := m_setattr o (lit "repeating_name"%string) (name_val (bt_name (b_type b))) in
        let! rn1 := m_getattr o1 (lit "repeating_name"%string) in
        let! l1 := m_getattr o1 (lit "repeating"%string) in
        match rn1 with
        | AVal (VStr s) => m_setattr o1 s l1
        | _ => Raise EType
        end in
    let! rn2 := m_getattr o1 (lit "repeating_name"%string) in
    match cls with
    | None => Raise EType
    | Some props =>
      let! c := b_init (length (mo_list o1)) props b rn2 in
      let! l2 := m_getattr o1 (lit "repeating"%string) in
      match l2 with
      | AList => Ok (mkMO (mo_props o1) (mo_dict o1) (put_block (mo_model o1) k (bo_block c)) (mo_list o1 ++ [Some c]))
      | _ => Raise EAttr
      end
    end.
  Fixpoint m_blocks (cls : option (list str)) (o : mobj) (k : nat) (l : list block) : res mobj :=
    match l with
    | [] => Ok o
    | b :: r => let! o' := m_block cls o k b in m_blocks cls o' (S k) r
    end.
  (** SunSpecClientModelBase.__init__, client.py:547-563 *)
  Definition m_init (props : list str) (cls : option (list str)) (m : model) (name : str) : res mobj :=
    let! o1 := m_setattr (mkMO props [] m [None]) (lit "model"%string) AObject in
    let! o2 := m_setattr o1 (lit "name"%string) (AVal (VStr name)) in
    let! o3 := m_setattr o2 (lit "repeating"%string) AList in
    let! o4 := m_setattr o3 (lit "repeating_name"%string) (AVal (VStr (lit "repeating"%string))) in
    m_blocks cls o4 1 (tl (md_blocks m)).
  (** model_class_get(id)(model, name) for a definition [t]: client.py:668-712, 822-828 *)
  Definition wrap_object (t : modeltype) (m : model) (name : str) : res mobj :=
    let! props := class_props [] (property_ids (bt_points (mt_fixed t))) in
    let! cls := match mt_rep t with
                | Some b => let! p := class_props [] (property_ids (bt_points b)) in Ok (Some p)
                | None => Ok None
                end in
    m_init props cls m name.
End Attr.
