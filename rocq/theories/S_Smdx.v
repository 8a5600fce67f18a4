(** * S_Smdx: what a model definition document describes.  Specification of C59-C61, C75 and C76; documents are
    element trees (M_Xml), results are M_Device's model types. *)
From Coq Require Import String.
From Verif Require Import Py M_Suns M_Xml M_Mbmap M_Device.

(** ** Documents *)
Definition tagged (t : string) (e : xml) : Prop := x_tag e = lit t.
(** the children with a tag, in document order *)
Inductive children_of (t : str) : list xml -> list xml -> Prop :=
| co_nil : children_of t [] []
| co_in e l r : x_tag e = t -> children_of t l r -> children_of t (e :: l) (e :: r)
| co_out e l r : x_tag e <> t -> children_of t l r -> children_of t (e :: l) r.
(** attribute [k] of [e] is [v]; or missing, and [v] is the default *)
Definition attr (k : string) (e : xml) (v : str) : Prop := dget (lit k) (x_attrs e) = Some v.
Definition no_attr (k : string) (e : xml) : Prop := dget (lit k) (x_attrs e) = None.
Definition attr_or (k : string) (d : string) (e : xml) (v : str) : Prop := attr k e v \/ (no_attr k e /\ v = lit d).
Definition attr_opt (k : string) (e : xml) (v : option str) : Prop := dget (lit k) (x_attrs e) = v.
(** a text int() accepts, and its number *)
Definition number (s : str) (z : Z) : Prop := int_of_str s = Ok z.
Definition attr_number (k : string) (e : xml) (z : Z) : Prop := exists s, attr k e s /\ number s z.

(** ** Points *)
(** what the attributes of a point element say *)
Definition point_described (e : xml) (p : pointtype) : Prop :=
  attr "id" e (pt_id p) /\ attr_number "offset" e (pt_offset p) /\
  attr "type" e (ptype_name (pt_type p)) /\
  (attr_number "len" e (pt_len p) \/ (no_attr "len" e /\ type_len (pt_type p) = Some (pt_len p))) /\
  attr_or "mandatory" "false" e (pt_mandatory p) /\ In (pt_mandatory p) [lit "true"; lit "false"]%string /\
  attr_or "access" "r" e (pt_access p) /\ In (pt_access p) [lit "r"; lit "rw"]%string /\
  attr_opt "units" e (pt_units p) /\ attr_opt "sf" e (pt_sf p).
(** the symbols of a point element have ids *)
Definition symbols_named (e : xml) : Prop :=
  Forall (fun c => tagged "symbol" c -> ~ no_attr "id" c) (x_children e).
Definition valid_point (e : xml) : Prop := symbols_named e /\ exists p, point_described e p.

(** ** Blocks *)
Definition block_kind (e : xml) (k : btype) : Prop :=
  attr_or "type" "fixed" e (match k with Fixed => lit "fixed" | Repeating => lit "repeating" end)%string.
Definition block_described (e : xml) (b : blocktype) : Prop :=
  block_kind e (bt_type b) /\
  (exists l, attr "len" e l /\ bt_len b = BStr l) /\
  (exists n, bt_name b = Some n /\
     (attr "name" e n \/ (no_attr "name" e /\ n = match bt_type b with Fixed => lit "fixed" | Repeating => lit "repeating" end)%string)) /\
  exists ps, children_of (lit "point") (x_children e) ps /\ Forall2 point_described ps (bt_points b) /\
             NoDup (map pt_id (bt_points b)).
Definition valid_block (e : xml) : Prop :=
  (exists k, block_kind e k) /\ (exists l, attr "len" e l) /\
  exists ps, children_of (lit "point") (x_children e) ps /\ Forall valid_point ps /\
             NoDup (map (fun p => dget (lit "id"%string) (x_attrs p)) ps).
(** the blocks of one kind among block elements *)
Inductive of_kind (k : btype) : list xml -> list xml -> Prop :=
| ok_nil : of_kind k [] []
| ok_in e l r : block_kind e k -> of_kind k l r -> of_kind k (e :: l) (e :: r)
| ok_out e l r : ~ block_kind e k -> of_kind k l r -> of_kind k (e :: l) r.

(** ** Models *)
(** the block of one kind: none, or the only one *)
Definition one_block (k : btype) (bs : list xml) (r : option blocktype) : Prop :=
  (of_kind k bs [] /\ r = None) \/ exists e b, of_kind k bs [e] /\ r = Some b /\ block_described e b.
Definition at_most_one (k : btype) (bs : list xml) : Prop := of_kind k bs [] \/ exists e, of_kind k bs [e].
Definition empty_fixed_block : blocktype := mkBT Fixed (BInt 0) None [].

Definition valid_model (m : xml) : Prop :=
  (exists z, attr_number "id" m z) /\ (exists z, attr_number "len" m z) /\
  exists bs, children_of (lit "block") (x_children m) bs /\ Forall valid_block bs /\
             at_most_one Fixed bs /\ at_most_one Repeating bs.
(** the model element of a document is its first *)
Definition model_element (root m : xml) : Prop := exists r, children_of (lit "model") (x_children root) (m :: r).
Definition no_model_element (root : xml) : Prop := children_of (lit "model") (x_children root) [].
Definition model_described (m : xml) (t : modeltype) : Prop :=
  exists id, attr_number "id" m id /\ mt_id t = Some id /\
  (exists len, attr_number "len" m len /\ mt_len t = Some len) /\
  (exists n, mt_name t = Some n /\ (attr "name" m n \/ (no_attr "name" m /\ n = lit "model_" ++ str_of_int id))) /\
  exists bs, children_of (lit "block") (x_children m) bs /\
    (one_block Fixed bs (Some (mt_fixed t)) \/ (one_block Fixed bs None /\ mt_fixed t = empty_fixed_block)) /\
    one_block Repeating bs (mt_rep t).

(** all numbers the loader reads are there and readable: the id and the length of the model, the offsets and lengths of points *)
Definition numeric_if_given (k : string) (e : xml) : Prop := forall s, attr k e s -> exists z, number s z.
Definition numbers_readable (m : xml) : Prop :=
  (exists z, attr_number "id" m z) /\ numeric_if_given "len" m /\
  forall bs b ps p, children_of (lit "block"%string) (x_children m) bs -> In b bs ->
    children_of (lit "point"%string) (x_children b) ps -> In p ps ->
    (exists z, attr_number "offset" p z) /\ numeric_if_given "len" p.

(** ** Texts (C75) *)
(** the text of the last element with the tag; None if there is none *)
Definition last_text (t : string) (l : list xml) (r : option str) : Prop :=
  (Forall (fun e => x_tag e <> lit t) l /\ r = None) \/
  exists a e b, l = a ++ e :: b /\ x_tag e = lit t /\ r = x_text e /\ Forall (fun e => x_tag e <> lit t) b.

(** the children satisfying a condition, in document order *)
Inductive selected (P : xml -> Prop) : list xml -> list xml -> Prop :=
| sel_nil : selected P [] []
| sel_in e l r : P e -> selected P l r -> selected P (e :: l) (e :: r)
| sel_out e l r : ~ P e -> selected P l r -> selected P (e :: l) r.
(** the strings sections for a model id *)
Definition sections_for (root : xml) (id : Z) (ss : list xml) : Prop :=
  selected (fun s => tagged "strings" s /\ attr "id" s (str_of_int id)) (x_children root) ss.
(** the elements of the first model element of a section *)
Definition section_model (s : xml) (cs : list xml) : Prop :=
  (exists m r, children_of (lit "model") (x_children s) (m :: r) /\ cs = x_children m) \/
  (children_of (lit "model") (x_children s) [] /\ cs = []).
(** the elements of the point elements for a point id in the sections *)
Definition point_strings_for (ss : list xml) (pid : str) (cs : list xml) : Prop :=
  exists qs, selected (fun q => tagged "point" q /\ attr "id" q pid) (flat_map x_children ss) qs /\ cs = flat_map x_children qs.
(** label, description and notes as given by a list of elements *)
Definition texts_given (cs : list xml) (label description notes : option str) : Prop :=
  last_text "label" cs label /\ last_text "description" cs description /\ last_text "notes" cs notes.
Definition point_texts (cs : list xml) (p : pointtype) : Prop := texts_given cs (pt_label p) (pt_description p) (pt_notes p).

(** ** Symbols (C76) *)
(** the symbol objects of a point type *)
Definition symbols_of (t : modeltype) (p : pointtype) (l : list symbol) : Prop :=
  Forall2 (fun n s => exists k, nth_error (mt_symbols t) n = Some (k, s)) (pt_symbols p) l.
(** a list without the later repetitions *)
Fixpoint firsts (l : list str) : list str :=
  match l with [] => [] | i :: r => i :: filter (fun j => negb (eqb_list j i)) (firsts r) end.
(** symbol [i] of a point, given the symbol elements of the point element ([defs]) and of its strings ([strs]) *)
Definition symbol_described (defs strs : list xml) (i : str) (s : symbol) : Prop :=
  sy_id s = Some i /\
  (exists a d b, defs = a ++ d :: b /\ attr "id" d i /\ sy_value s = x_text d /\ Forall (fun x => ~ attr "id" x i) b) /\
  exists es, selected (fun x => attr "id" x i) (defs ++ strs) es /\
             texts_given (flat_map x_children es) (sy_label s) (sy_description s) (sy_notes s).
Definition has_id (s : symbol) : bool := match sy_id s with Some _ => true | None => false end.
(** the symbols with an id are those of the point element, in the order of their first occurrence *)
Definition symbols_described (defs strs : list xml) (l : list symbol) : Prop :=
  exists ids, Forall2 (fun d i => attr "id" d i) defs ids /\
              Forall2 (symbol_described defs strs) (firsts ids) (filter has_id l).

(** ** Requests for model types (C60) *)
(** the same definition, possibly a different object *)
Definition same_definition (a b : modeltype) : Prop :=
  mt_id a = mt_id b /\ mt_len a = mt_len b /\ mt_name a = mt_name b /\ mt_label a = mt_label b /\
  mt_description a = mt_description b /\ mt_notes a = mt_notes b /\ mt_fixed a = mt_fixed b /\ mt_rep a = mt_rep b /\
  mt_symbols a = mt_symbols b.
Definition same_answer (a b : res modeltype) : Prop :=
  match a, b with Ok x, Ok y => same_definition x y | Raise e, Raise f => e = f | _, _ => False end.
