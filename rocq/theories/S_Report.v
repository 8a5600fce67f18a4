(** * S_Report: what the report of a device should contain. *)
From Coq Require Import String.
From Verif Require Import Py M_Float M_Suns M_Point M_Device S_Codec.

(** the values to be shown: every point that has a value, with its block index, type and value, in the order of the
    device *)
Record entry := mkEntry { en_index : Z; en_type : pointtype; en_value : value }.
Definition point_entry (E : pyenv) (i : Z) (p : point) : list entry :=
  match value_getter E (p_base p) (p_sf p) with
  | Ok VNone => []
  | Ok v => [mkEntry i (p_type p) v]
  | Raise _ => []
  end.
Definition model_entries (E : pyenv) (m : model) : list entry :=
  flat_map (fun b => flat_map (point_entry E (b_index b)) (b_points b)) (md_blocks m).

(** a text that shows a value: that of an integer is an integer literal of it (in any base), that of a text point is the
    text without its NUL padding, that of a float its repr *)
Inductive shows (E : pyenv) : value -> str -> Prop :=
| sh_int z s : int_literal s z -> shows E (VInt z) s
| sh_text s n : ~ ends_in_nul s -> shows E (VStr (s ++ repeat 0 n)) s
| sh_float f s n : ~ ends_in_nul s -> float_repr E f = s ++ repeat 0 n -> shows E (VFlt f) s.

(** a label, if the definition has one that is not empty *)
Definition label_of (o : option str) : str := match o with Some (c :: r) => (c :: r) ++ lit " "%string | _ => [] end.
(** a line shows an entry: the number of a repeating block, the label, the id in parentheses, the value, the units *)
Definition shows_entry (E : pyenv) (en : entry) (line : str) : Prop :=
  exists ix w1 val w2,
    line = lit "   "%string ++ ix ++ label_of (pt_label (en_type en)) ++ lit "("%string ++ pt_id (en_type en) ++ lit "):"%string ++
           w1 ++ val ++ [32] ++ (match pt_units (en_type en) with Some u => u | None => [] end) ++ w2 /\
    blanks w1 /\ w1 <> [] /\ blanks w2 /\ shows E (en_value en) val /\
    (if 0 <? en_index en then exists d, ix = d ++ lit ":"%string /\ numeral 10 d (en_index en) else ix = lit "   "%string).
(** the heading of a model *)
Definition heading (t : modeltype) (id : Z) (line : str) : Prop :=
  exists d, canonical_decimal id d /\
  line = [10] ++ lit "model: "%string ++ label_of (mt_label t) ++ lit "("%string ++ d ++ lit ")"%string ++ [10].
(** the lines about one model *)
Definition section_of (E : pyenv) (m : model) (ls : list str) : Prop :=
  exists t h r, md_type m = Some t /\ ls = h :: r /\ heading t (md_id m) h /\ Forall2 (shows_entry E) (model_entries E m) r.

(** points the report can show: their value can be computed, and bit fields are unscaled and not negative *)
Definition showable (E : pyenv) (p : point) : Prop :=
  exists v, value_getter E (p_base p) (p_sf p) = Ok v /\
  (pt_type (p_type p) = Tbitfield16 \/ pt_type (p_type p) = Tbitfield32 -> v = VNone \/ exists z, v = VInt z /\ 0 <= z).
Definition showable_model (E : pyenv) (m : model) : Prop :=
  Forall (fun b => Forall (showable E) (b_points b)) (md_blocks m).

(** every value that can be computed can be shown *)
Definition shown_if_computed (E : pyenv) (p : point) : Prop := forall v, value_getter E (p_base p) (p_sf p) = Ok v -> showable E p.
Definition block_entries (E : pyenv) (b : block) : list entry := flat_map (point_entry E (b_index b)) (b_points b).
(** a report that ends with exception [e]: complete sections of the models before some model; of that model nothing, because
    its definition is unknown, or the heading and the values before a point whose value cannot be computed *)
Definition stopped (E : pyenv) (l : list model) (e : exn) (ls : list str) : Prop :=
  exists pre m post secs part, l = pre ++ m :: post /\ Forall2 (section_of E) pre secs /\ ls = concat secs ++ part /\
  ((md_type m = None /\ part = []) \/
   exists t h r bs1 b bs2 ps1 p ps2, md_type m = Some t /\ part = h :: r /\ heading t (md_id m) h /\
     md_blocks m = bs1 ++ b :: bs2 /\ b_points b = ps1 ++ p :: ps2 /\ value_getter E (p_base p) (p_sf p) = Raise e /\
     Forall2 (shows_entry E) (flat_map (block_entries E) bs1 ++ flat_map (point_entry E (b_index b)) ps1) r).
