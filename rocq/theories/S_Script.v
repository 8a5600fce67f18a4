(** * S_Script: what assignments through the scripting wrapper should do (specification, C95). *)
From Verif Require Import Py M_Util M_Float M_Suns M_Point M_Mbmap M_Device M_Wrapper S_Client.

(** [p] is the point behind the attribute [id] of the model itself (i = 0) or of its repeating block number i *)
Definition attribute (m : model) (i : nat) (id : str) (p : point) : Prop :=
  exists b before after, nth_error (md_blocks m) i = Some b /\ b_points b = before ++ p :: after /\
    pt_id (p_type p) = id /\ Forall (fun q => pt_id (p_type q) <> id) before.
(** a script is a list of assignments (block, attribute, value); the last one to an attribute counts *)
Definition last_assigned (ops : list (nat * str * value)) (i : nat) (id : str) (v : value) : Prop :=
  exists a c, ops = a ++ (i, id, v) :: c /\ forall w, ~ In (i, id, w) c.
Definition untouched (ops : list (nat * str * value)) (i : nat) (id : str) : Prop := forall w, ~ In (i, id, w) ops.

(** an assignment the script may make: the attribute exists, the value converts to a register value that the registers
    can hold, and the device implements the point or the point refers to no scale factor *)
Definition accepted (E : pyenv) (m : model) (op : nat * str * value) : Prop :=
  let '(i, id, v) := op in
  exists p b, attribute m i id p /\ value_setter E (pt_type (p_type p)) (p_sf p) v = Ok b /\
    storable (mkP (p_type p) (p_addr p) (p_link p) (p_impl p) b (p_sf p) true) /\
    (p_base p <> VNone \/ p_link p = SfNone).

(** what the attributes of [m'] show after a script on [m]: what was assigned last (converted to a register value and
    back), and otherwise what they showed before *)
Definition shows (E : pyenv) (m : model) (ops : list (nat * str * value)) (m' : model) : Prop :=
  forall i id p, attribute m i id p ->
  (untouched ops i id -> script_get E m' i id = script_get E m i id) /\
  (forall v, last_assigned ops i id v ->
     exists b, value_setter E (pt_type (p_type p)) (p_sf p) v = Ok b /\ script_get E m' i id = value_getter E b (p_sf p)).
