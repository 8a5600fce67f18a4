(** * S_PicsRead: archiving what was read from a device (specification, C90). *)
From Verif Require Import Py M_Float M_Suns M_Point M_Device S_Device S_Codec M_Client S_Pics.

(** the part of Python that texts of floats need: the text of a float (a binary64 number, an infinity, not NaN) denotes it.  Python's
    texts have this: [C116_float_texts]. *)
Definition float_texts (E : pyenv) : Prop :=
  forall f, SpecFloat.valid_binary 53 1024 f = true -> f <> S754_nan -> float_repr E f <> [] /\ ~ ends_in_nul (float_repr E f) /\ float_parse E (float_repr E f) = Some f.
(** no point's value raises when it is asked for (scale factors beyond the range of floats, scaled texts) *)
Definition values_defined (E : pyenv) (m : model) : Prop :=
  forall b p, In b (md_blocks m) -> In p (all_points b) -> exists v, value_getter E (p_base p) (p_sf p) = Ok v.
(** at most one repeating block *)
Definition one_repeat (m : model) : Prop := (length (md_blocks m) <= 2)%nat.
