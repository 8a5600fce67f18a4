(** * M_Pics: PICS documents, sunspec/core/device.py:113-236, 329-381, 529-576, 790-851 and sunspec/core/pics.py.

    Element trees are M_Xml.xml.  Not modelled: finding and parsing the file (device.py:131-156; the document is given by its
    root element), the messages of exceptions, and the partial tree that to_pics leaves on the parent when it raises.
    As in M_Device, the dicts [points] and [points_sf] of a block are given by [points_list] and by the values of points_sf. *)
From Coq Require Import String.
From Verif Require Import Py M_Util M_Float M_Suns M_Point M_Xml M_Mbmap M_Device M_Client M_Scan.

(** pics.py:25-54 *)
Definition PICS_ROOT := lit "sunSpecPics"%string.
Definition PICS_VERSION_ATTR := lit "v"%string.
Definition PICS_VERSION := lit "1"%string.
Definition PICS_DEVICE := lit "device"%string.
Definition PICS_BASE_ADDR := lit "addr"%string.
Definition PICS_MODEL := lit "model"%string.
Definition PICS_BLOCK := lit "block"%string.
Definition PICS_POINT := lit "point"%string.
Definition PICS_ID := lit "id"%string.
Definition PICS_LEN := lit "len"%string.
Definition PICS_INDEX := lit "index"%string.
Definition PICS_TYPE := lit "type"%string.
Definition PICS_FIXED := lit "fixed"%string.
Definition PICS_REPEATING := lit "repeating"%string.
Definition PICS_ACCESS := lit "access"%string.
Definition PICS_RW := lit "rw"%string.
Definition PICS_IMPL := lit "impl"%string.
Definition PICS_FALSE := lit "false"%string.
(** suns.SUNS_ACCESS_R, suns.py:56 *)
Definition SUNS_ACCESS_R := lit "r"%string.
(** pics_block_types.get, pics.py:61-65 *)
Definition pics_block_type (s : str) : option btype :=
  if eqb_list s PICS_FIXED then Some Fixed else if eqb_list s PICS_REPEATING then Some Repeating else None.

(** ** Points *)
(** Point.to_pics, device.py:556-576: the element added (rstrip0 is rstrip('\0')).  Reading [self.value] can raise. *)
Definition point_to_pics (E : pyenv) (p : point) : res xml :=
  let! v := value_getter E (p_base p) (p_sf p) in
  let attrs :=
    (PICS_ID, p_id p) ::
    (match v with
     | VNone => [(PICS_IMPL, PICS_FALSE)]
     | _ => if eqb_list (pt_access (p_type p)) SUNS_ACCESS_R then [] else [(PICS_ACCESS, PICS_RW)]
     end) in
  let text := match p_base p with VNone => None | b => Some (rstrip0 (suns_to_str E b)) end in
  Ok (XE PICS_POINT attrs text None []).

Definition with_base (p : point) (b : value) : point := mkP (p_type p) (p_addr p) (p_link p) (p_impl p) b (p_sf p) (p_dirty p).
Definition with_sf (p : point) (s : value) : point := mkP (p_type p) (p_addr p) (p_link p) (p_impl p) (p_base p) s (p_dirty p).
Definition with_impl (p : point) (i : bool) : point := mkP (p_type p) (p_addr p) (p_link p) i (p_base p) (p_sf p) (p_dirty p).

(** Point.from_pics, device.py:529-554.  The empty text of an attribute is false, but it is not 'false' either. *)
Definition point_from_pics (E : pyenv) (p : point) (e : xml) : res point :=
  let impl := match x_get PICS_IMPL e with Some a => negb (eqb_list a PICS_FALSE) | None => true end in
  let! (p1, v) :=
    (if impl then
       match x_text e with
       | Some (c :: r) =>
         let! v := to_value E (pt_type (p_type p)) (VStr (c :: r)) in
         Ok (with_impl p (is_impl (pt_type (p_type p)) v), v)
       | _ => Ok (p, VNone)
       end
     else Ok (with_impl p false, VNone)) in
  Ok (if p_impl p1 && negb (is_none v) then with_base p1 v else p1).

(** ** Blocks *)
(** Block.to_pics, device.py:355-381: attributes *)
Definition block_attrs (b : block) : list (str * str) :=
  (if 1 <? b_index b then [(PICS_INDEX, str_of_int (b_index b))] else []) ++
  (match bt_type (b_type b) with Repeating => [(PICS_TYPE, PICS_REPEATING)] | Fixed => [] end).
(** self.points.get(id), else self.points_sf.get(id) *)
Definition block_point (b : block) (id : str) : option point :=
  match find_point id (b_points b) with Some p => Some p | None => find_point id (b_sfs b) end.
Fixpoint points_to_pics (E : pyenv) (b : block) (l : list pointtype) : res (list xml) :=
  match l with
  | [] => Ok []
  | t :: r =>
    match block_point b (pt_id t) with
    | None => points_to_pics E b r
    | Some p => let! e := point_to_pics E p in
                let! es := points_to_pics E b r in
                Ok (e :: es)
    end
  end.
Definition block_to_pics (E : pyenv) (b : block) : res xml :=
  let! es := points_to_pics E b (bt_points (b_type b)) in
  Ok (XE PICS_BLOCK (block_attrs b) None None es).

(** update of the first point of that id; [None] if there is none *)
Fixpoint upd_point (f : point -> res point) (id : str) (l : list point) : option (res (list point)) :=
  match l with
  | [] => None
  | p :: r => if eqb_list (p_id p) id then Some (let! p' := f p in Ok (p' :: r))
              else option_map (fun x => let! r' := x in Ok (p :: r')) (upd_point f id r)
  end.
Definition with_lists (b : block) (pts sfs : list point) : block := mkB (b_addr b) (b_len b) (b_type b) (b_index b) pts sfs.
(** one round of the loop, device.py:339-347 *)
Definition block_elem (E : pyenv) (b : block) (e : xml) : res block :=
  if negb (eqb_list (x_tag e) PICS_POINT) then Raise ESunSpec
  else
    match x_get PICS_ID e with
    | None => Ok b
    | Some id =>
      match upd_point (fun p => point_from_pics E p e) id (b_points b) with
      | Some r => let! l := r in Ok (with_lists b l (b_sfs b))
      | None =>
        match upd_point (fun p => point_from_pics E p e) id (b_sfs b) with
        | Some r => let! l := r in Ok (with_lists b (b_points b) l)
        | None => Ok b
        end
      end
    end.
Fixpoint block_elems (E : pyenv) (b : block) (l : list xml) : block * res unit :=
  match l with
  | [] => (b, Ok tt)
  | e :: r => match block_elem E b e with
              | Raise x => (b, Raise x)
              | Ok b' => block_elems E b' r
              end
  end.
(** device.py:349-352; [fixed]: points_sf of blocks[0], None if this is blocks[0] *)
Definition resolve_sf (own fixed : list point) (p : point) : point :=
  match link_value own fixed (p_link p) with Some v => with_sf p v | None => p end.
(** Block.from_pics, device.py:330-353 *)
Definition block_from_pics (E : pyenv) (fixed : option (list point)) (b : block) (e : xml) : block * res unit :=
  match block_elems E b (x_children e) with
  | (b1, Raise x) => (b1, Raise x)
  | (b1, Ok _) =>
    let fx := match fixed with Some f => f | None => b_sfs b1 end in
    (with_lists b1 (map (resolve_sf (b_sfs b1) fx) (b_points b1)) (b_sfs b1), Ok tt)
  end.

(** ** Models *)
(** Model.to_pics, device.py:827-851; [self.index != 1] is true for any text *)
Definition str_of_base (b : mbase) : str := match b with BInt z => str_of_int z | BStr s => s end.
Definition model_attrs (m : model) : list (str * str) :=
  (PICS_ID, str_of_int (md_id m)) :: (PICS_LEN, str_of_int (md_len m)) ::
  (if match md_index m with BInt z => z =? 1 | BStr _ => false end then [] else [(PICS_INDEX, str_of_base (md_index m))]).
Fixpoint blocks_to_pics (E : pyenv) (single : bool) (l : list block) : res (list xml) :=
  match l with
  | [] => Ok []
  | b :: r =>
    if negb single || (b_index b <=? 1) then
      let! e := block_to_pics E b in
      let! es := blocks_to_pics E single r in
      Ok (e :: es)
    else blocks_to_pics E single r
  end.
Definition model_to_pics (E : pyenv) (single : bool) (m : model) : res xml :=
  let! es := blocks_to_pics E single (md_blocks m) in
  Ok (XE PICS_MODEL (model_attrs m) None None es).

(** blocks[i].from_pics(e) for a position in the list *)
Definition upd_block (E : pyenv) (l : list block) (i : nat) (e : xml) : list block * res unit :=
  match nth_error l i with
  | None => (l, Raise EIndex)
  | Some b =>
    let '(b', r) := block_from_pics E (match i with O => None | S _ => Some (fixed_sfs l) end) b e in
    (firstn i l ++ b' :: skipn (S i) l, r)
  end.
(** for block in self.blocks[1:]: positions i, i+1, ... (n of them) *)
Fixpoint upd_all (E : pyenv) (l : list block) (i n : nat) (e : xml) : list block * res unit :=
  match n with
  | O => (l, Ok tt)
  | S k => match upd_block E l i e with
           | (l', Raise x) => (l', Raise x)
           | (l', Ok _) => upd_all E l' (S i) k e
           end
  end.
(** self.blocks[block_index]: negative indices count from the end *)
Definition py_pos (i : Z) (n : Z) : option nat :=
  if i <? 0 then (if 0 <=? i + n then Some (Z.to_nat (i + n)) else None)
  else (if i <? n then Some (Z.to_nat i) else None).
(** one round of the loop, device.py:803-825 *)
Definition model_elem (E : pyenv) (l : list block) (e : xml) : list block * res unit :=
  if negb (eqb_list (x_tag e) PICS_BLOCK) then (l, Raise ESunSpec)
  else
    match pics_block_type (match x_get PICS_TYPE e with Some t => t | None => PICS_FIXED end) with
    | None => (l, Raise ESunSpec)
    | Some Fixed => match l with [] => (l, Ok tt) | _ => upd_block E l 0 e end
    | Some Repeating =>
      match x_get PICS_INDEX e with
      | None => upd_all E l 1 (length l - 1) e
      | Some s =>
        match int_of_str s with
        | Raise x => (l, Raise x)
        | Ok i =>
          if zlen l <? i then (l, Raise ESunSpec)
          else match py_pos i (zlen l) with
               | None => (l, Raise EIndex)
               | Some k => upd_block E l k e
               end
        end
      end
    end.
Fixpoint model_elems (E : pyenv) (l : list block) (es : list xml) : list block * res unit :=
  match es with
  | [] => (l, Ok tt)
  | e :: r => match model_elem E l e with
              | (l', Raise x) => (l', Raise x)
              | (l', Ok _) => model_elems E l' r
              end
  end.
Definition with_index (m : model) (i : mbase) : model :=
  mkModel (md_id m) i (md_type m) (md_addr m) (md_len m) (md_exposed m) (md_blocks m) (md_reads m) (md_error m).
(** Model.from_pics, device.py:790-825 *)
Definition model_from_pics (E : pyenv) (m : model) (e : xml) : model * res unit :=
  let m1 := with_index m (match x_get PICS_INDEX e with Some s => BStr s | None => md_index m end) in
  let '(bs, r) := model_elems E (md_blocks m1) (x_children e) in
  (with_blocks m1 bs, r).

(** ** Devices *)
(** Device.__init__, device.py:90-94; base_addr is a number or (after from_pics) the text of the attribute.  The dict
    [models] is not stored: models[id] is the list of the models with that id (device.py:96-111). *)
Record device : Type := mkDevice { d_base : mbase; d_models : list model }.
Definition BASE_ADDR_DEFAULT : Z := 40000.
Definition new_device (addr : Z) : device := mkDevice (BInt addr) [].

(** one round of the loop, device.py:165-193; [addr] is where the id of the model would be.  Results: the models of the
    device and the next address. *)
Definition device_elem (E : pyenv) (fuel : nat) (types : Z -> res modeltype) (l : list model) (addr : Z) (e : xml)
  : list model * res Z :=
  if negb (eqb_list (x_tag e) PICS_MODEL) then (l, Raise ESunSpec)
  else
    match x_get PICS_ID e with
    | None => (l, Raise ESunSpec)
    | Some ids =>
      match x_get PICS_LEN e with
      | None => (l, Raise EType)                             (* Model(...) calls int(None) *)
      | Some lens =>
        match int_of_str lens with
        | Raise x => (l, Raise x)
        | Ok len =>
          match int_of_str ids with
          | Raise x => (l, Raise x)
          | Ok id =>
            let '(m0, r) := model_load fuel types (new_model id (addr + 2) len) in
            match r with
            | Raise EFuel => (l, Raise EFuel)
            | _ =>
              let m1 := match r with Ok _ => m0 | Raise x => with_error m0 x end in
              match model_from_pics E m1 e with
              | (_, Raise x) => (l, Raise x)
              | (m2, Ok _) =>
                let l' := l ++ [m2] in
                match md_type m2 with
                | Some t => if (len =? 0) && match mt_len t with None => true | _ => false end
                            then (l', Raise EType)           (* model.len is None *)
                            else (l', Ok (addr + (md_len m2 + 2)))
                | None => (l', Ok (addr + (md_len m2 + 2)))
                end
              end
            end
          end
        end
      end
    end.
Fixpoint device_elems (E : pyenv) (fuel : nat) (types : Z -> res modeltype) (l : list model) (addr : Z) (es : list xml)
  : list model * res unit :=
  match es with
  | [] => (l, Ok tt)
  | e :: r => match device_elem E fuel types l addr e with
              | (l', Raise x) => (l', Raise x)
              | (l', Ok addr') => device_elems E fuel types l' addr' r
              end
  end.
(** [except Exception as e: raise SunSpecError], device.py:195-196 (running out of fuel is not an exception) *)
Definition wrap_pics (e : exn) : exn := match e with EFuel => EFuel | _ => ESunSpec end.
(** Device.from_pics of a device element, device.py:157-197; text + 2 is a TypeError *)
Definition device_from_pics (E : pyenv) (fuel : nat) (types : Z -> res modeltype) (d : device) (e : xml) : device * res unit :=
  if negb (eqb_list (x_tag e) PICS_DEVICE) then (d, Raise ESunSpec)
  else
    match x_get PICS_BASE_ADDR e with
    | Some s => (mkDevice (BStr s) (d_models d), Raise ESunSpec)
    | None =>
      let '(l, r) := device_elems E fuel types (d_models d) (BASE_ADDR_DEFAULT + 2) (x_children e) in
      (mkDevice (BInt BASE_ADDR_DEFAULT) l, match r with Ok _ => Ok tt | Raise x => Raise (wrap_pics x) end)
    end.
(** Device.from_pics of a parsed document, device.py:148-156 *)
Definition device_from_doc (E : pyenv) (fuel : nat) (types : Z -> res modeltype) (d : device) (root : xml) : device * res unit :=
  if negb (eqb_list (x_tag root) PICS_ROOT) then (d, Raise ESunSpec)
  else match xfind PICS_DEVICE root with
       | None => (d, Raise ESunSpec)
       | Some e => device_from_pics E fuel types d e
       end.

Fixpoint models_to_pics (E : pyenv) (single : bool) (l : list model) : res (list xml) :=
  match l with
  | [] => Ok []
  | m :: r => let! e := model_to_pics E single m in
              let! es := models_to_pics E single r in
              Ok (e :: es)
  end.
(** Device.to_pics, device.py:215-236: the element added to the parent *)
Definition device_to_pics (E : pyenv) (single : bool) (d : device) : res xml :=
  let! es := models_to_pics E single (d_models d) in
  Ok (XE PICS_DEVICE [(PICS_VERSION_ATTR, PICS_VERSION)] None None es).
