(** * M_Device: model, block and point types, and Model.load (sunspec/core/device.py).

    Python objects are records; references between objects are replaced by lookups:
    a scale factor link names the scale factor point it refers to.  The dictionaries [points] of
    a block and of a block type are not stored: they are determined by [points_list] because point
    ids are pairwise distinct (BlockType.from_smdx, device.py:1178-1180, rejects duplicates). *)
From Coq Require Import String.
From Verif Require Import Py M_Util M_Float M_Suns M_Xml M_Mbmap.

(** suns.SUNS_BLOCK_FIXED / SUNS_BLOCK_REPEATING, suns.py:82-83 *)
Inductive btype : Type := Fixed | Repeating.
Definition btype_eqb (a b : btype) : bool :=
  match a, b with Fixed, Fixed | Repeating, Repeating => true | _, _ => false end.

(** PointType, device.py:1313-1333, after from_smdx.  The codec functions (is_impl, data_to, to_data,
    to_value, value_default) are those of the table entry of the type (M_Suns).  [pt_symbols] refers
    to the Symbol objects by their position in [mt_symbols] (device.py:1383-1400). *)
Record pointtype : Type := mkPT {
  pt_id : str; pt_offset : Z; pt_type : ptype; pt_len : Z;
  pt_mandatory : str; pt_access : str; pt_units : option str; pt_sf : option str;
  pt_label : option str; pt_description : option str; pt_notes : option str;
  pt_symbols : list nat }.

(** BlockType, device.py:1142-1148.  [len] is the text of the attribute (or the default 0). *)
Record blocktype : Type := mkBT { bt_type : btype; bt_len : mbase; bt_name : option str; bt_points : list pointtype }.

(** Symbol, device.py:1449-1454 *)
Record symbol : Type := mkSym {
  sy_id : option str; sy_value : option str; sy_label : option str; sy_description : option str; sy_notes : option str }.

(** ModelType, device.py:979-989.  [mt_oid] stands for the identity of the object: every
    ModelType() creates a new one.  [id] and [len] are None if the document has no model element.
    [mt_symbols] lists all Symbol objects created while loading, in order of creation, with the key under which symbol_add
    (device.py:1057-1058) put each into the dict [symbols]; the dict maps a key to the last of its entries. *)
Record modeltype : Type := mkMT {
  mt_oid : Z; mt_id : option Z; mt_len : option Z; mt_name : option str;
  mt_label : option str; mt_description : option str; mt_notes : option str;
  mt_fixed : blocktype; mt_rep : option blocktype;
  mt_symbols : list ((option str * str) * symbol) }.

(** Point.sf_point, device.py:746-768: none, a ScaleFactor with a constant, a scale factor point of
    the same block, or one of the fixed block *)
Inductive sflink : Type := SfNone | SfConst (z : Z) | SfOwn (id : str) | SfFixed (id : str).

(** Point, device.py:472-482.  [addr] is kept as a number (the code stores its decimal text). *)
Record point : Type := mkP {
  p_type : pointtype; p_addr : Z; p_link : sflink; p_impl : bool;
  p_base : value; p_sf : value; p_dirty : bool }.
Definition p_id (p : point) : str := pt_id (p_type p).
Definition new_point (t : pointtype) (addr : Z) : point := mkP t addr SfNone true VNone VNone false.

(** Block, device.py:316-327: [b_points] is points_list, [b_sfs] the values of points_sf in insertion
    order *)
Record block : Type := mkB {
  b_addr : Z; b_len : Z; b_type : blocktype; b_index : Z; b_points : list point; b_sfs : list point }.
Definition find_point (id : str) (l : list point) : option point := find (fun p => eqb_list (p_id p) id) l.

(** Model, device.py:677-690.  [index] is 1 unless a PICS document sets it (as text).
    [md_exposed]: points_list, points and points_sf of the model are those of blocks[0]
    (device.py:782-788). *)
Record model : Type := mkModel {
  md_id : Z; md_index : mbase; md_type : option modeltype; md_addr : Z; md_len : Z;
  md_exposed : bool; md_blocks : list block; md_reads : list Z; md_error : option exn }.
Definition new_model (id addr len : Z) : model := mkModel id (BInt 1) None addr len false [] [] None.

(** MAX_READ_COUNT, device.py:62 *)
Definition MAX_READ_COUNT : Z := 125.

Definition is_pad (t : ptype) : bool := match t with Tpad => true | _ => false end.
Definition is_sunssf (t : ptype) : bool := match t with Tsunssf => true | _ => false end.

(** the loop over the point types of a block, device.py:733-744.  Results: where the last read block
    starts, all read block addresses, points_list, points_sf. *)
Fixpoint load_points (baddr : Z) (l : list pointtype) (last : Z) (reads : list Z) (pts sfs : list point)
  : Z * list Z * list point * list point :=
  match l with
  | [] => (last, reads, pts, sfs)
  | t :: l' =>
    if is_pad (pt_type t) then load_points baddr l' last reads pts sfs
    else
      let a := baddr + pt_offset t in
      let p := new_point t a in
      let split := MAX_READ_COUNT <? a + pt_len t - last in
      let last' := if split then a else last in
      let reads' := if split then reads ++ [a] else reads in
      if is_sunssf (pt_type t) then load_points baddr l' last' reads' pts (sfs ++ [p])
      else load_points baddr l' last' reads' (pts ++ [p]) sfs
  end.

(** device.py:748-768 for one point: its link, None if it cannot be resolved *)
Definition resolve1 (own fixed : list point) (index : Z) (p : point) : option sflink :=
  match pt_sf (p_type p) with
  | None => Some SfNone
  | Some s =>
    match int_of_str s with
    | Ok z => Some (SfConst z)
    | Raise _ =>
      match find_point s own with
      | Some _ => Some (SfOwn s)
      | None => if 0 <? index then match find_point s fixed with Some _ => Some (SfFixed s) | None => None end
                else None
      end
    end
  end.
(** the loop of device.py:747-768; [false]: an exception was raised.  It is a TypeError: the message
    at 767-768 has three placeholders and one argument. *)
Fixpoint resolve (own fixed : list point) (index : Z) (l : list point) : list point * bool :=
  match l with
  | [] => ([], true)
  | p :: l' =>
    match resolve1 own fixed index p with
    | None => (l, false)
    | Some k => let '(r, ok) := resolve own fixed index l' in
                (mkP (p_type p) (p_addr p) k (p_impl p) (p_base p) (p_sf p) (p_dirty p) :: r, ok)
    end
  end.

Definition fixed_sfs (l : list block) : list point := match l with b :: _ => b_sfs b | [] => [] end.

(** the while loop of device.py:719-777.  Results: the blocks and read block addresses, and how the
    loop ended. *)
Fixpoint load_loop (fuel : nat) (rep : option blocktype) (end_addr baddr blen : Z) (bt : blocktype) (index last : Z)
  (blocks : list block) (reads : list Z) : list block * list Z * res unit :=
  match fuel with
  | O => (blocks, reads, Raise EFuel)
  | S k =>
    let bend := baddr + blen in
    if end_addr <? bend then (blocks, reads, Raise ESunSpec)
    else
      let '(last', reads', pts, sfs) := load_points baddr (bt_points bt) last reads [] [] in
      let '(pts', ok) := resolve sfs (fixed_sfs (blocks ++ [mkB baddr blen bt index pts sfs])) index pts in
      let blocks' := blocks ++ [mkB baddr blen bt index pts' sfs] in
      if ok then
        match rep with
        | None => (blocks', reads', Ok tt)
        | Some rb =>
          match base_int (bt_len rb) with
          | Raise e => (blocks', reads', Raise e)
          | Ok rlen =>
            if end_addr =? bend then (blocks', reads', Ok tt)
            else load_loop k rep end_addr bend rlen rb (index + 1) last' blocks' reads'
          end
        end
      else (blocks', reads', Raise EType)
  end.

(** Model.load, device.py:692-788.  [types] is what model_type_get returns or raises for the model's
    id.  A length that is None (model type without a len) is a TypeError at device.py:711; the model
    keeps length 0 then (the code stores None). *)
Definition model_load (fuel : nat) (types : Z -> res modeltype) (m : model) : model * res unit :=
  let reads := md_reads m ++ [md_addr m] in
  match types (md_id m) with
  | Raise e =>
    (mkModel (md_id m) (md_index m) None (md_addr m) (md_len m) (md_exposed m) (md_blocks m) reads (md_error m), Raise e)
  | Ok mt =>
    let keep len blocks reads exposed :=
      mkModel (md_id m) (md_index m) (Some mt) (md_addr m) len exposed blocks reads (md_error m) in
    match (if md_len m =? 0 then mt_len mt else Some (md_len m)) with
    | None => (keep (md_len m) (md_blocks m) reads (md_exposed m), Raise EType)
    | Some len =>
      match base_int (bt_len (mt_fixed mt)) with
      | Raise e => (keep len (md_blocks m) reads (md_exposed m), Raise e)
      | Ok blen0 =>
        let blen := if (md_id m =? 1) && (len =? 65) then len else blen0 in
        let '(blocks, reads', r) :=
          load_loop fuel (mt_rep mt) (md_addr m + len) (md_addr m) blen (mt_fixed mt) 0 (md_addr m) (md_blocks m) reads in
        (keep len blocks reads' (match r with Ok _ => true | Raise _ => md_exposed m end), r)
      end
    end
  end.
