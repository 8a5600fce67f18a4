(** * S_Print: what the text of a device should tell (specification, C98). *)
From Coq Require Import String.
From Verif Require Import Py M_Suns M_Point M_Device M_Client M_Wrapper S_Codec.

(** ** str(Device) *)
(** what there is to be told about a point: id, whether it is implemented, its address, its value and scale factor (as texts) *)
Record told_point := mkTP { tp_id : str; tp_impl : bool; tp_addr : Z; tp_value : str }.
Record told_block := mkTB { tb_type : btype; tb_index : Z; tb_points : list told_point }.
Record told_model := mkTM { tm_id : Z; tm_points : list told_point; tm_blocks : list told_block }.
(** the text of the value, followed by that of the scale factor if the point refers to one *)
Definition value_told (E : pyenv) (own fixed : list point) (p : point) : str :=
  suns_to_str E (p_base p) ++
  match link_value own fixed (p_link p) with Some v => lit " sf_value = "%string ++ suns_to_str E v | None => [] end.
Definition tell_point (E : pyenv) (own fixed : list point) (p : point) : told_point :=
  mkTP (pt_id (p_type p)) (p_impl p) (p_addr p) (value_told E own fixed p).
Definition tell_block (E : pyenv) (fixed : list point) (b : block) : told_block :=
  mkTB (bt_type (b_type b)) (b_index b) (map (tell_point E (b_sfs b) fixed) (b_points b)).
(** all points of the model: those of the fixed block (the first one), and the other blocks *)
Definition tell (E : pyenv) (m : model) : told_model :=
  match md_blocks m with
  | [] => mkTM (md_id m) [] []
  | f :: r => mkTM (md_id m) (if md_exposed m then map (tell_point E (b_sfs f) (b_sfs f)) (b_points f) else []) (map (tell_block E (b_sfs f)) r)
  end.
(** texts that do not disturb the layout: no blank or line feed in an id, no line feed in the text of a value *)
Definition layout_ok (t : told_point) : Prop := ~ In 32 (tp_id t) /\ ~ In 10 (tp_id t) /\ ~ In 10 (tp_value t).
Definition layout_ok_model (t : told_model) : Prop :=
  Forall layout_ok (tm_points t) /\ Forall (fun b => Forall layout_ok (tb_points b)) (tm_blocks t).

(** ** str(SunSpecClientDevice) *)
(** one line per attribute that has a value: its name, a colon, two blanks, the value *)
Definition value_line (E : pyenv) (x : str * value) : str := fst x ++ lit ":  "%string ++ suns_to_str E (snd x) ++ [10].
(** the attributes that have a value *)
Definition attributes (E : pyenv) (points : list point) (names : list str) : list (str * value) :=
  flat_map (fun n => match get_in E points n with Ok VNone => [] | Ok v => [(n, v)] | Raise _ => [] end) names.
Definition shown_block (E : pyenv) (w : wblock) : str :=
  [10] ++ wb_name w ++ lit "["%string ++ str_of_int (b_index (wb_block w)) ++ lit "]:"%string ++ [10] ++
  flat_map (value_line E) (attributes E (b_points (wb_block w)) (wb_points w)).
Definition shown_model (E : pyenv) (w : wmodel) : str :=
  [10] ++ wm_name w ++ lit " ("%string ++ str_of_int (md_id (wm_model w)) ++ lit "):"%string ++ [10] ++
  flat_map (value_line E) (attributes E (model_points (wm_model w)) (wm_points w)) ++
  flat_map (fun o => match o with Some b => shown_block E b | None => [] end) (wm_repeating w).
(** every value of the model can be computed *)
Definition computable (E : pyenv) (points : list point) : Prop :=
  Forall (fun p => exists v, value_getter E (p_base p) (p_sf p) = Ok v) points.
Definition computable_model (E : pyenv) (m : model) : Prop :=
  computable E (model_points m) /\ Forall (fun b => computable E (b_points b)) (tl (md_blocks m)).
