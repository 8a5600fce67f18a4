(** * M_Print: the text of devices: __str__ of Device, Model, Block, Point (sunspec/core/device.py:258-264, 405-410, 602-607,
    875-884) and of the scripting wrapper (client.py:594-604, 659-666, 867-873). *)
From Coq Require Import String.
From Verif Require Import Py M_Util M_Float M_Suns M_Point M_Mbmap M_Device M_Client M_Scan M_Wrapper.

(** ** sunspec/core/device.py *)
Definition bool_str (b : bool) : str := if b then lit "True"%string else lit "False"%string.
(** Point.__str__, device.py:602-607.  [own], [fixed]: the scale factor points of the block and of the fixed block.  (In
    Python str(value) of a text is the text.) *)
Definition point_str (E : pyenv) (own fixed : list point) (p : point) : str :=
  lit "Point: id = "%string ++ pt_id (p_type p) ++ lit " impl = "%string ++ bool_str (p_impl p) ++ lit " addr = "%string ++ str_of_int (p_addr p) ++
  lit " value_base = "%string ++ suns_to_str E (p_base p) ++
  (match link_value own fixed (p_link p) with Some v => lit " sf_value = "%string ++ suns_to_str E v | None => [] end).
Definition block_kind (b : block) : str := match bt_type (b_type b) with Fixed => lit "fixed"%string | Repeating => lit "repeating"%string end.
(** the lines of a list of points, device.py:407-409 and 879-881: '  ' + str(point) + '\n' *)
Definition points_str (E : pyenv) (own fixed : list point) (l : list point) : str :=
  flat_map (fun p => lit "  "%string ++ point_str E own fixed p ++ [10]) l.
(** Block.__str__, device.py:405-410 *)
Definition block_str (E : pyenv) (fixed : list point) (b : block) : str :=
  lit "Block: type: "%string ++ block_kind b ++ lit " index: "%string ++ str_of_int (b_index b) ++ lit ":"%string ++ [10] ++
  points_str E (b_sfs b) fixed (b_points b).
(** Model.__str__, device.py:877-884; points_list is that of blocks[0] (md_exposed) *)
Definition model_str (E : pyenv) (m : model) : str :=
  let fixed := match md_blocks m with b :: _ => b_sfs b | [] => [] end in
  lit "Model "%string ++ str_of_int (md_id m) ++ lit ":"%string ++ [10] ++
  points_str E fixed fixed (model_points m) ++ flat_map (block_str E fixed) (tl (md_blocks m)).
(** Device.__str__, device.py:258-263 *)
Definition device_str (E : pyenv) (l : list model) : str := flat_map (model_str E) l.

(** ** sunspec/core/client.py *)
(** the loops of client.py:596-599 and 661-664, over the attribute names; getattr can raise *)
Fixpoint values_str (E : pyenv) (points : list point) (names : list str) : res str :=
  match names with
  | [] => Ok []
  | n :: r =>
    let! v := get_in E points n in
    let! t := values_str E points r in
    Ok (if is_none v then t else n ++ lit ":  "%string ++ suns_to_str E v ++ [10] ++ t)
  end.
(** SunSpecClientBlockBase.__str__, client.py:659-666 *)
Definition wblock_str (E : pyenv) (w : wblock) : res str :=
  let! t := values_str E (b_points (wb_block w)) (wb_points w) in
  Ok ([10] ++ wb_name w ++ lit "["%string ++ str_of_int (b_index (wb_block w)) ++ lit "]:"%string ++ [10] ++ t).
(** client.py:601-602 over repeating[1:]; str(None) cannot occur there *)
Fixpoint wblocks_str (E : pyenv) (l : list (option wblock)) : res str :=
  match l with
  | [] => Ok []
  | Some w :: r => let! a := wblock_str E w in let! b := wblocks_str E r in Ok (a ++ b)
  | None :: r => let! b := wblocks_str E r in Ok (lit "None"%string ++ b)
  end.
(** SunSpecClientModelBase.__str__, client.py:594-604 *)
Definition wmodel_str (E : pyenv) (w : wmodel) : res str :=
  let! t := values_str E (model_points (wm_model w)) (wm_points w) in
  let! bs := wblocks_str E (tl (wm_repeating w)) in
  Ok ([10] ++ wm_name w ++ lit " ("%string ++ str_of_int (md_id (wm_model w)) ++ lit "):"%string ++ [10] ++ t ++ bs).
(** SunSpecClientDevice.__str__, client.py:867-873: str(self[name]) of every entry of self.models.  The text of a list shows
    its elements by repr, which for an object is its class and address: [repr] gives them by their place in the list;
    [other] stands for the texts of the other attributes. *)
Section Wrapper.
  Variables (E : pyenv) (repr : str -> nat -> str) (other : str -> str).
  Fixpoint list_items (n : str) (i : nat) (l : list (option wval)) : list str :=
    match l with
    | [] => []
    | None :: r => lit "None"%string :: list_items n (S i) r
    | Some _ :: r => repr n i :: list_items n (S i) r
    end.
  Fixpoint comma (l : list str) : str :=
    match l with [] => [] | [x] => x | x :: r => x ++ lit ", "%string ++ comma r end.
  Definition item_str (w : wdev) (x : wname) : res str :=
    match x with
    | NModel _ => Ok (lit "None"%string)              (* self[wrapper] is None *)
    | NName n =>
      match dget n (wd_dict w) with
      | None => Ok (lit "None"%string)
      | Some (WModel m) => wmodel_str E m
      | Some (WList l) => Ok (lit "["%string ++ comma (list_items n 0 l) ++ lit "]"%string)
      | Some _ => Ok (other n)
      end
    end.
  Fixpoint items_str (w : wdev) (l : list wname) : res str :=
    match l with
    | [] => Ok []
    | x :: r => let! a := item_str w x in let! b := items_str w r in Ok (a ++ b)
    end.
  Definition wdev_str (w : wdev) : res str := items_str w (wd_models w).
End Wrapper.
