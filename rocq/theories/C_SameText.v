(** * C_SameText: property C122: two devices have the same text only if they show the same values, with Python's own texts of
    numbers (py_env, C116). *)
From Coq Require Import String.
From Verif Require Import Py P_List M_Util M_Float M_Suns M_Point M_Mbmap M_Device M_Client S_Client M_Wrapper S_Codec M_Print S_Print P_Print P_IntText S_FloatText M_FloatText P_FloatText.
From Verif Require Import M_TypeText P_TypeText S_SameText.
From Verif Require P_Float C_Print C_FloatText C_Client.

(** ** texts of values *)
Lemma repr_no c f : c <= 42 \/ 58 <= c <= 68 \/ 70 <= c <= 96 -> ~ In c (py_repr f).
Proof. intros Hc HI. pose proof (repr_core f) as H. rewrite Forall_forall in H. specialize (H c HI). unfold core, digit in H. lia. Qed.
Lemma repr_all_inj f g : SpecFloat.valid_binary 53 1024 f = true -> SpecFloat.valid_binary 53 1024 g = true -> py_repr f = py_repr g -> f = g.
Proof.
  assert (HN : forall h, SpecFloat.valid_binary 53 1024 h = true -> py_repr S754_nan = py_repr h -> h = S754_nan).
  { intros h HV E. destruct h as [s|s| |s m e]; try reflexivity; exfalso; pose proof (text_read _ HV ltac:(discriminate)) as HR; rewrite <- E in HR;
    vm_compute in HR; discriminate HR. }
  intros H1 H2 E. destruct f as [s|s| |s m e] eqn:EF; [| |symmetry; now apply HN|]; destruct g as [s'|s'| |s' m' e'] eqn:EG;
    try (apply C_FloatText.C116_texts_differ; auto; discriminate); symmetry in E; apply HN in E; auto.
Qed.
Section Texts.
  Context (pow : Z -> res flt).
  Let E := py_env pow.
  Lemma value_text_inj v w : same_kind v w -> proper v -> proper w -> suns_to_str E v = suns_to_str E w -> v = w.
  Proof.
    assert (HI : forall z, str_of_int z <> lit "None"%string) by exact none_no_int.
    assert (HF : forall f, py_repr f <> lit "None"%string).
    { intros f H. apply (repr_no 78 f); [lia|]. rewrite H. left. reflexivity. }
    destruct v as [|z|s|f], w as [|z'|s'|f']; cbn [same_kind proper suns_to_str]; intros K P1 P2 H; try contradiction; try reflexivity.
    - exfalso. symmetry in H. now apply HI in H.
    - exfalso. exact (P2 (eq_sym H)).
    - exfalso. symmetry in H. now apply HF in H.
    - exfalso. now apply HI in H.
    - f_equal. now apply str_of_int_inj.
    - now f_equal.
    - exfalso. now apply HF in H.
    - f_equal. now apply repr_all_inj.
  Qed.
  Lemma number_no_blank v : is_number v -> ~ In 32 (suns_to_str E v).
  Proof.
    destruct v as [|z|s|f]; cbn [is_number suns_to_str]; intros H; [|apply str_of_int_no; lia|contradiction|apply repr_no; lia].
    vm_compute. intros HI; repeat destruct HI as [HI|HI]; lia || contradiction.
  Qed.
  Definition shown (x : value * option value) : str :=
    suns_to_str E (fst x) ++ match snd x with Some v => lit " sf_value = "%string ++ suns_to_str E v | None => [] end.
  Lemma shown_inj x y : comparable x y -> shown x = shown y -> x = y.
  Proof.
    destruct x as [v o], y as [w o']. unfold shown, comparable. cbn [fst snd]. intros (K & P1 & P2 & HO) H. destruct o as [a|], o' as [b|]; try contradiction.
    - destruct HO as (KA & PA & PB & NA & NB).
      assert (HR : rev (suns_to_str E a) ++ 32 :: lit "= eulav_fs "%string ++ rev (suns_to_str E v) = rev (suns_to_str E b) ++ 32 :: lit "= eulav_fs "%string ++ rev (suns_to_str E w)).
      { apply (f_equal (@rev Z)) in H. rewrite !rev_app_distr, <- !app_assoc in H. exact H. }
      apply split_at in HR as [R1 R2]; [|rewrite <- in_rev; now apply number_no_blank..]. apply app_inv_head in R2.
      apply (f_equal (@rev Z)) in R1, R2. rewrite !rev_involutive in R1, R2. f_equal; [now apply value_text_inj|f_equal; now apply value_text_inj].
    - rewrite !app_nil_r in H. f_equal. now apply value_text_inj.
  Qed.
  Lemma shown_map l1 l2 : Forall2 comparable l1 l2 -> map shown l1 = map shown l2 -> l1 = l2.
  Proof.
    induction 1 as [|x y l1 l2 H F IH]; intros EQ; [reflexivity|]. cbn [map] in EQ. f_equal; [apply shown_inj; [exact H|congruence]|apply IH; congruence].
  Qed.
  Lemma shown_maps l1 l2 : Forall2 (Forall2 comparable) l1 l2 -> map (map shown) l1 = map (map shown) l2 -> l1 = l2.
  Proof.
    induction 1 as [|x y l1 l2 H F IH]; intros EQ; [reflexivity|]. cbn [map] in EQ. f_equal; [apply shown_map; [exact H|congruence]|apply IH; congruence].
  Qed.
  Lemma told_block fx b : map tp_value (tb_points (tell_block E fx b)) = map shown (block_values fx b).
  Proof. unfold tell_block, block_values. cbn [tb_points]. rewrite !map_map. reflexivity. Qed.
  Lemma told_values m1 m2 : tell E m1 = tell E m2 -> Forall2 (Forall2 comparable) (model_values m1) (model_values m2) -> model_values m1 = model_values m2.
  Proof.
    unfold tell, model_values. intros H F. apply shown_maps; [exact F|].
    destruct (md_blocks m1) as [|f1 r1], (md_blocks m2) as [|f2 r2]; [reflexivity|inversion F|inversion F|].
    assert (H1 := f_equal tm_points H). assert (H2 := f_equal tm_blocks H). cbn [tm_points tm_blocks] in H1, H2. cbn [map]. f_equal.
    - apply (f_equal (map tp_value)) in H1. unfold block_values.
      destruct (md_exposed m1), (md_exposed m2); cbn [map] in H1 |- *; rewrite ?map_map in H1; rewrite ?map_map; exact H1.
    - apply (f_equal (map (fun b => map tp_value (tb_points b)))) in H2. rewrite !map_map in H2. rewrite !map_map.
      rewrite (map_ext _ (fun b => map shown (block_values (b_sfs f1) b))) in H2 by (intros b; apply told_block). rewrite H2. apply map_ext. intros b. apply told_block.
  Qed.
End Texts.

(** ** two devices whose values can be compared (of the same kinds place by place) and do not disturb the layout of the text: if
    the texts are the same, so are the values and the scale factors *)
Theorem C122_same_text_same_values :
  forall pow l1 l2, let E := py_env pow in
  Forall layout_ok_model (map (tell E) l1) -> Forall layout_ok_model (map (tell E) l2) ->
  Forall2 (fun m1 m2 => Forall2 (Forall2 comparable) (model_values m1) (model_values m2)) l1 l2 ->
  device_str E l1 = device_str E l2 -> map model_values l1 = map model_values l2.
Proof.
  intros pow l1 l2 E L1 L2 F H. apply (C_Print.C98_device_text_tells_all E l1 l2 L1 L2) in H. clear L1 L2.
  induction F as [|m1 m2 l1 l2 HF F IH]; [reflexivity|]. cbn [map] in H |- *. f_equal; [apply (told_values pow); [unfold E in H; congruence|exact HF]|apply IH; congruence].
Qed.
Print Assumptions C122_same_text_same_values.

(** ** and of single values: no two values of one point have the same text, be they whole numbers, floats (down to the last bit, the
    sign of a zero included), texts or None *)
Theorem C122_value_texts_differ :
  forall pow v w, same_kind v w -> proper v -> proper w -> v <> w -> suns_to_str (py_env pow) v <> suns_to_str (py_env pow) w.
Proof. intros pow v w HK HV HW HN HE. apply HN. exact (value_text_inj pow v w HK HV HW HE). Qed.
Print Assumptions C122_value_texts_differ.
Example C122_zeros_ex : forall pow, suns_to_str (py_env pow) (VFlt (SpecFloat.S754_zero true)) <> suns_to_str (py_env pow) (VFlt (SpecFloat.S754_zero false)).
Proof. intros pow. apply C122_value_texts_differ; [exact Logic.I|reflexivity|reflexivity|discriminate]. Qed.

(** ** in particular of the values that any two register contents of one point have: read with the decoder of its type, and None if
    the point is not implemented *)
Definition value_read (t : ptype) (d : bytes) (v : value) : Prop := exists u, data_to t d = Ok u /\ v = (if is_impl t u then u else VNone).
Theorem C122_read_values_told :
  forall pow t d1 d2 v w, Forall is_byte d1 -> Forall is_byte d2 -> value_read t d1 v -> value_read t d2 w ->
  v <> VStr (lit "None"%string) -> w <> VStr (lit "None"%string) -> suns_to_str (py_env pow) v = suns_to_str (py_env pow) w -> v = w.
Proof.
  assert (HP : forall t d v, Forall is_byte d -> value_read t d v -> v <> VStr (lit "None"%string) -> proper v).
  { intros t d v HB (u & HD & ->) HN. destruct (is_impl t u); [|exact Logic.I].
    destruct u as [|z|s|f]; [exact Logic.I|exact Logic.I|cbn [proper]; intros ->; now apply HN|]. cbn [proper].
    destruct t; cbn [data_to] in HD;
      try (match type of HD with context [bind ?x _] => destruct x; cbn [bind] in HD; congruence end);
      try (match type of HD with context [M_Suns.opt_str ?x] => destruct x; cbn [M_Suns.opt_str] in HD; congruence end); try congruence.
    destruct (data_to_float d) as [[x|]|] eqn:EF; cbn in HD; try congruence. assert (x = f) by congruence. subst x.
    exact (P_Float.float32_valid d f HB EF). }
  assert (HK : forall t d v, value_read t d v -> same_kind v (match t with Tfloat32 => VFlt SpecFloat.S754_nan | Tstring | Tipv6addr | Teui48 => VStr [] | _ => VInt 0 end)).
  { intros t d v (u & HD & ->). destruct (is_impl t u); [|exact Logic.I].
    destruct t; cbn [data_to] in HD;
      try (match type of HD with context [bind ?x _] => destruct x as [[]|]; cbn [bind] in HD end); try congruence;
      try (match type of HD with context [bind ?x _] => destruct x; cbn [bind] in HD end); try congruence;
      try (match type of HD with context [M_Suns.opt_str ?x] => destruct x; cbn [M_Suns.opt_str] in HD end);
      destruct u; cbn [same_kind]; try exact Logic.I; congruence. }
  intros pow t d1 d2 v w B1 B2 R1 R2 N1 N2 H. apply (value_text_inj pow v w); [|exact (HP _ _ _ B1 R1 N1)|exact (HP _ _ _ B2 R2 N2)|exact H].
  pose proof (HK _ _ _ R1) as K1. pose proof (HK _ _ _ R2) as K2. destruct t, v, w; cbn [same_kind] in *; try exact Logic.I; contradiction.
Qed.
Print Assumptions C122_read_values_told.
Example C122_read_ex : value_read Tfloat32 [63; 128; 0; 0] (VFlt (SpecFloat.S754_finite false 4503599627370496 (-52))) /\ value_read Tint16 [128; 0] VNone /\ value_read Tint16 [255; 255] (VInt (-1)).
Proof. repeat split; eexists; (split; [vm_compute; reflexivity|reflexivity]). Qed.

(** ** one model read at two times; a register of point C differs (40009), and so does the text *)
Definition ex_env : pyenv := py_env (fun _ => Raise EOverflow).
Definition ex_at (mem : memory) : model := snd (fst (read_points mem_dev mem C_Client.ex_model)).
Definition ex_mem2 : memory := fun a => if a =? 2 * 40009 + 1 then 4 else C_Client.ex_mem a.
Definition same_kindb (v w : value) : bool := match v, w with VNone, _ | _, VNone | VInt _, VInt _ => true | _, _ => false end.
Definition comparableb (x y : value * option value) : bool :=
  same_kindb (fst x) (fst y) && match fst x with VInt _ | VNone => true | _ => false end && match fst y with VInt _ | VNone => true | _ => false end &&
  match snd x, snd y with None, None => true | Some (VInt _), Some (VInt _) => true | _, _ => false end.
Lemma comparableb_ok x y : comparableb x y = true -> comparable x y.
Proof.
  destruct x as [v o], y as [w o']. unfold comparableb, comparable. cbn [fst snd]. rewrite !andb_true_iff. intros [[[H1 H2] H3] H4].
  destruct v, w; try discriminate; cbn [same_kind proper]; destruct o as [[]|], o' as [[]|]; try discriminate; cbn [same_kind proper is_number]; repeat split; exact Logic.I.
Qed.
Fixpoint all2b {A} (f : A -> A -> bool) (l1 l2 : list A) : bool := match l1, l2 with [], [] => true | a :: r, b :: t => f a b && all2b f r t | _, _ => false end.
Lemma all2b_ok {A} (f : A -> A -> bool) (R : A -> A -> Prop) : (forall x y, f x y = true -> R x y) -> forall l1 l2, all2b f l1 l2 = true -> Forall2 R l1 l2.
Proof. intros H. induction l1 as [|a l1 IH]; intros [|b l2] HB; try discriminate; constructor; cbn [all2b] in HB; apply andb_true_iff in HB as [H1 H2]; auto. Qed.
Definition layout_mb (t : told_model) : bool := forallb C_Print.layout_b (tm_points t) && forallb (fun b => forallb C_Print.layout_b (tb_points b)) (tm_blocks t).
Lemma layout_mb_ok t : layout_mb t = true -> layout_ok_model t.
Proof.
  unfold layout_mb. rewrite andb_true_iff. intros [H1 H2]. split; [now apply C_Print.layout_b_ok|]. apply Forall_forall. intros b Hb. apply C_Print.layout_b_ok. rewrite forallb_forall in H2. now apply H2.
Qed.
Example C122_ex :
  Forall layout_ok_model (map (tell ex_env) [ex_at C_Client.ex_mem]) /\ Forall layout_ok_model (map (tell ex_env) [ex_at ex_mem2]) /\
  Forall2 (fun m1 m2 => Forall2 (Forall2 comparable) (model_values m1) (model_values m2)) [ex_at C_Client.ex_mem] [ex_at ex_mem2] /\
  model_values (ex_at ex_mem2) <> model_values (ex_at C_Client.ex_mem) /\ device_str ex_env [ex_at ex_mem2] <> device_str ex_env [ex_at C_Client.ex_mem].
Proof.
  split; [apply Forall_cons; [apply layout_mb_ok; vm_compute; reflexivity|constructor]|]. split; [apply Forall_cons; [apply layout_mb_ok; vm_compute; reflexivity|constructor]|].
  split; [|split; vm_compute; discriminate]. constructor; [|constructor]. apply (all2b_ok (all2b comparableb)); [|vm_compute; reflexivity]. intros x y. apply all2b_ok. exact comparableb_ok.
Qed.
(** the conditions are needed: a text that is called None is shown like no value *)
Example C122_none_needed : suns_to_str ex_env (VStr (lit "None"%string)) = suns_to_str ex_env VNone.
Proof. reflexivity. Qed.
