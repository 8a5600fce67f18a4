(** * P_Print: lemmas for C98. *)
From Coq Require Import String ZifyBool.
From Verif Require Import Py P_List M_Util M_Float M_Suns M_Point M_Mbmap M_Device M_Client M_Scan M_Wrapper S_Codec P_IntText M_Print S_Print.

Lemma split_at (c : Z) : forall a b x y, ~ In c a -> ~ In c b -> a ++ c :: x = b ++ c :: y -> a = b /\ x = y.
Proof.
  induction a as [|u a IH]; intros [|v b] x y HA HB H; cbn [app] in H.
  - inversion H; auto.
  - inversion H; subst. exfalso. apply HB. now left.
  - inversion H; subst. exfalso. apply HA. now left.
  - inversion H; subst. destruct (IH b x y) as [-> ->]; auto; intros HI; [apply HA|apply HB]; now right.
Qed.
Lemma str_of_int_no z c : c < 45 \/ 57 < c -> ~ In c (str_of_int z).
Proof.
  intros HC HI. destruct (str_of_int_canonical z) as (ds & E & _ & _ & HF & _). rewrite E in HI. apply in_app_or in HI as [HI|HI].
  - destruct (z <? 0); [|destruct HI]. destruct HI as [HI|[]]. lia.
  - rewrite Forall_forall in HF. specialize (HF c HI). lia.
Qed.
Lemma str_of_int_inj a b : str_of_int a = str_of_int b -> a = b.
Proof.
  intros H. destruct (str_of_int_canonical a) as (d1 & E1 & _ & _ & F1 & V1). destruct (str_of_int_canonical b) as (d2 & E2 & N2 & _ & F2 & V2).
  rewrite E1, E2 in H. destruct (Z.ltb_spec a 0), (Z.ltb_spec b 0); cbn [app] in H.
  - assert (d1 = d2) by (inversion H; auto). subst d2. lia.
  - exfalso. destruct d2 as [|x d2]; [discriminate|]. inversion H; subst. apply Forall_inv in F2. lia.
  - exfalso. destruct d1 as [|x d1]; [discriminate|]. inversion H; subst. apply Forall_inv in F1. lia.
  - subst d2. lia.
Qed.

(** ** lines *)
Definition line (s : str) : str := s ++ [10].
Lemma lines_inj : forall l1 l2, Forall (fun s => ~ In 10 s) l1 -> Forall (fun s => ~ In 10 s) l2 -> flat_map line l1 = flat_map line l2 -> l1 = l2.
Proof.
  induction l1 as [|a l1 IH]; intros [|b l2] H1 H2 H; [reflexivity| | |].
  - exfalso. unfold line in H. cbn [flat_map] in H. rewrite <- app_assoc in H. destruct b; discriminate.
  - exfalso. unfold line in H. cbn [flat_map] in H. rewrite <- app_assoc in H. destruct a; discriminate.
  - cbn [flat_map] in H. unfold line in H at 1 3. rewrite <- !app_assoc in H. cbn [app] in H. inversion H1; subst. inversion H2; subst.
    apply split_at in H as [-> H]; auto. f_equal. auto.
Qed.

Definition tp_line (t : told_point) : str :=
  lit "  Point: id = "%string ++ tp_id t ++ lit " impl = "%string ++ bool_str (tp_impl t) ++ lit " addr = "%string ++ str_of_int (tp_addr t) ++
  lit " value_base = "%string ++ tp_value t.
Definition tb_head (b : told_block) : str :=
  lit "Block: type: "%string ++ (match tb_type b with Fixed => lit "fixed"%string | Repeating => lit "repeating"%string end) ++ lit " index: "%string ++ str_of_int (tb_index b) ++ lit ":"%string.
Definition tm_head (m : told_model) : str := lit "Model "%string ++ str_of_int (tm_id m) ++ lit ":"%string.
Definition tb_lines (b : told_block) : list str := tb_head b :: map tp_line (tb_points b).
Definition tm_lines (m : told_model) : list str := tm_head m :: map tp_line (tm_points m) ++ flat_map tb_lines (tm_blocks m).

Lemma tp_line_inj a b : layout_ok a -> layout_ok b -> tp_line a = tp_line b -> a = b.
Proof.
  intros (A1 & _ & _) (B1 & _ & _) H. unfold tp_line in H. apply app_inv_head in H.
  change (lit " impl = "%string) with (32 :: lit "impl = "%string) in H. change (lit " addr = "%string) with (32 :: lit "addr = "%string) in H.
  change (lit " value_base = "%string) with (32 :: lit "value_base = "%string) in H. rewrite <- !app_comm_cons in H.
  apply split_at in H as [E1 H]; auto. apply app_inv_head in H.
  apply split_at in H as [E2 H].
  2:{ destruct (tp_impl a); vm_compute; intros HI; repeat destruct HI as [HI|HI]; discriminate || contradiction. }
  2:{ destruct (tp_impl b); vm_compute; intros HI; repeat destruct HI as [HI|HI]; discriminate || contradiction. }
  apply app_inv_head in H. apply split_at in H as [E3 H]; [|apply str_of_int_no; lia..]. apply app_inv_head in H.
  apply str_of_int_inj in E3. destruct a as [i1 m1 a1 v1], b as [i2 m2 a2 v2]. cbn in *. subst. destruct m1, m2; try reflexivity; discriminate.
Qed.
Lemma tb_head_inj a b : tb_head a = tb_head b -> tb_type a = tb_type b /\ tb_index a = tb_index b.
Proof.
  unfold tb_head. intros H. apply app_inv_head in H.
  change (lit " index: "%string) with (32 :: lit "index: "%string) in H. rewrite <- !app_comm_cons in H.
  apply split_at in H as [E1 H].
  2:{ destruct (tb_type a); vm_compute; intros HI; repeat destruct HI as [HI|HI]; discriminate || contradiction. }
  2:{ destruct (tb_type b); vm_compute; intros HI; repeat destruct HI as [HI|HI]; discriminate || contradiction. }
  apply app_inv_head in H. change (lit ":"%string) with [58] in H. apply split_at in H as [E2 _]; [|apply str_of_int_no; lia..].
  apply str_of_int_inj in E2. split; [|exact E2]. destruct (tb_type a), (tb_type b); try reflexivity; discriminate.
Qed.
Lemma tm_head_inj a b : tm_head a = tm_head b -> tm_id a = tm_id b.
Proof.
  unfold tm_head. intros H. apply app_inv_head in H. change (lit ":"%string) with [58] in H. apply split_at in H as [E2 _]; [|apply str_of_int_no; lia..].
  now apply str_of_int_inj in E2.
Qed.
Definition starts (c : Z) (r : list str) : Prop := match r with (x :: _) :: _ => x = c | _ => False end.
Lemma tp_line_starts t r : starts 32 (tp_line t :: r).
Proof. reflexivity. Qed.
Lemma points_span : forall p1 p2 r1 r2, Forall layout_ok p1 -> Forall layout_ok p2 -> ~ starts 32 r1 -> ~ starts 32 r2 ->
  map tp_line p1 ++ r1 = map tp_line p2 ++ r2 -> p1 = p2 /\ r1 = r2.
Proof.
  induction p1 as [|a p1 IH]; intros [|b p2] r1 r2 H1 H2 N1 N2 H; cbn [map app] in H.
  - auto.
  - exfalso. apply N1. rewrite H. apply tp_line_starts.
  - exfalso. apply N2. rewrite <- H. apply tp_line_starts.
  - assert (HH : tp_line a = tp_line b /\ map tp_line p1 ++ r1 = map tp_line p2 ++ r2) by (split; [exact (f_equal (hd []) H)|exact (f_equal (@tl _) H)]). destruct HH as [HA HB].
    inversion H1; subst. inversion H2; subst. apply tp_line_inj in HA; auto. destruct (IH p2 r1 r2) as [-> ->]; auto. now subst b.
Qed.
Lemma blocks_starts l r : ~ starts 32 r -> ~ starts 32 (flat_map tb_lines l ++ r).
Proof. intros N. destruct l as [|b l]; [exact N|]. cbn. discriminate. Qed.
Lemma blocks_span : forall b1 b2 r1 r2, Forall (fun b => Forall layout_ok (tb_points b)) b1 -> Forall (fun b => Forall layout_ok (tb_points b)) b2 ->
  ~ starts 32 r1 -> ~ starts 32 r2 -> ~ starts 66 r1 -> ~ starts 66 r2 ->
  flat_map tb_lines b1 ++ r1 = flat_map tb_lines b2 ++ r2 -> b1 = b2 /\ r1 = r2.
Proof.
  induction b1 as [|a b1 IH]; intros [|b b2] r1 r2 H1 H2 N1 N2 M1 M2 H; cbn [flat_map] in H.
  - auto.
  - exfalso. apply M1. cbn [app] in H. rewrite H. reflexivity.
  - exfalso. apply M2. cbn [app] in H. rewrite <- H. reflexivity.
  - unfold tb_lines at 1 3 in H. cbn [app] in H. inversion H1; subst. inversion H2; subst.
    assert (HH : tb_head a = tb_head b /\ (map tp_line (tb_points a) ++ flat_map tb_lines b1) ++ r1 = (map tp_line (tb_points b) ++ flat_map tb_lines b2) ++ r2).
    { split; [exact (f_equal (hd []) H)|exact (f_equal (@tl _) H)]. }
    destruct HH as [HA HB]. rewrite <- !app_assoc in HB. apply points_span in HB as [HP HB]; auto using blocks_starts.
    apply tb_head_inj in HA as [HT HX]. destruct (IH b2 r1 r2) as [-> ->]; auto. split; [|reflexivity]. f_equal.
    destruct a, b; cbn in *; now subst.
Qed.
Lemma models_starts c l : c <> 77 -> ~ starts c (flat_map tm_lines l).
Proof. intros N. destruct l as [|b l]; [exact (fun x => x)|]. cbn. intros H. apply N. symmetry. exact H. Qed.
Lemma models_inj : forall l1 l2, Forall layout_ok_model l1 -> Forall layout_ok_model l2 -> flat_map tm_lines l1 = flat_map tm_lines l2 -> l1 = l2.
Proof.
  induction l1 as [|a l1 IH]; intros [|b l2] H1 H2 H; try reflexivity; try discriminate.
  cbn [flat_map] in H. unfold tm_lines at 1 3 in H. cbn [app] in H. inversion H1 as [|? ? [A1 A2] F1]; subst. inversion H2 as [|? ? [B1 B2] F2]; subst.
  pose proof (f_equal (hd []) H) as HA. pose proof (f_equal (@tl _) H) as HB. cbn [hd tl] in HA, HB. rewrite <- !app_assoc in HB.
  apply points_span in HB as [HP HB]; auto; try (apply blocks_starts, models_starts; lia).
  apply blocks_span in HB as [HQ HB]; auto; try (apply models_starts; lia).
  apply tm_head_inj in HA. f_equal; [|auto]. destruct a, b; cbn in *; now subst.
Qed.

(** ** the text of a device consists of these lines *)
Lemma point_line_told E own fixed p : lit "  "%string ++ point_str E own fixed p ++ [10] = line (tp_line (tell_point E own fixed p)).
Proof.
  unfold line, tp_line, tell_point, point_str, value_told. cbn [tp_id tp_impl tp_addr tp_value].
  change (lit "  Point: id = "%string) with (lit "  "%string ++ lit "Point: id = "%string). now rewrite !app_assoc.
Qed.
Lemma points_str_told E own fixed l : points_str E own fixed l = flat_map line (map tp_line (map (tell_point E own fixed) l)).
Proof. unfold points_str. induction l as [|p l IH]; [reflexivity|]. cbn [flat_map map]. now rewrite point_line_told, IH. Qed.
Lemma block_str_told E fixed b : block_str E fixed b = flat_map line (tb_lines (tell_block E fixed b)).
Proof.
  unfold block_str, tb_lines, tell_block. cbn [flat_map map tb_points]. rewrite points_str_told. unfold line at 2. unfold tb_head. cbn [tb_type tb_index].
  unfold block_kind. now rewrite <- !app_assoc.
Qed.
Lemma flat_map_app {A B} (f : A -> list B) : forall l l', flat_map f (l ++ l') = flat_map f l ++ flat_map f l'.
Proof. induction l as [|x l IH]; intros l'; [reflexivity|]. cbn [app flat_map]. now rewrite IH, app_assoc. Qed.
Lemma flat_map_flat {A B C} (f : B -> list C) (g : A -> list B) : forall l, flat_map f (flat_map g l) = flat_map (fun x => flat_map f (g x)) l.
Proof. induction l as [|x l IH]; [reflexivity|]. cbn [flat_map]. now rewrite flat_map_app, IH. Qed.
Lemma model_str_told E m : model_str E m = flat_map line (tm_lines (tell E m)).
Proof.
  unfold model_str, tm_lines, tell, model_points. destruct (md_blocks m) as [|f r].
  - cbn [flat_map tl app tm_head tm_id tm_points tm_blocks map]. unfold line, tm_head. cbn [tm_id]. destruct (md_exposed m); cbn [points_str flat_map app]; now rewrite <- !app_assoc.
  - cbn [flat_map tl tm_points tm_blocks]. unfold line at 1, tm_head. cbn [tm_id]. rewrite flat_map_app, flat_map_flat. rewrite points_str_told. rewrite <- !app_assoc.
    do 4 f_equal. f_equal.
    + destruct (md_exposed m); reflexivity.
    + clear. induction r as [|b r IH]; [reflexivity|]. cbn [flat_map map]. now rewrite block_str_told, IH.
Qed.
Lemma device_str_told E l : device_str E l = flat_map line (flat_map tm_lines (map (tell E) l)).
Proof. unfold device_str. rewrite flat_map_flat. induction l as [|m l IH]; [reflexivity|]. cbn [flat_map map]. now rewrite model_str_told, IH. Qed.

(** no line feed inside a line *)
Lemma no_app (c : Z) a b : ~ In c a -> ~ In c b -> ~ In c (a ++ b).
Proof. intros HA HB HI. apply in_app_or in HI as [HI|HI]; auto. Qed.
Ltac no_lit := let HI := fresh in vm_compute; intros HI; repeat destruct HI as [HI|HI]; discriminate || contradiction.
Lemma tp_line_no t : layout_ok t -> ~ In 10 (tp_line t).
Proof.
  intros (_ & H1 & H2). unfold tp_line. repeat apply no_app; auto; try no_lit.
  - destruct (tp_impl t); no_lit.
  - apply str_of_int_no. lia.
Qed.
Lemma tb_lines_no b : Forall layout_ok (tb_points b) -> Forall (fun s => ~ In 10 s) (tb_lines b).
Proof.
  intros H. constructor.
  - unfold tb_head. repeat apply no_app; try no_lit; [destruct (tb_type b); no_lit|apply str_of_int_no; lia].
  - apply Forall_map. eapply Forall_impl; [|exact H]. apply tp_line_no.
Qed.
Lemma tm_lines_no m : layout_ok_model m -> Forall (fun s => ~ In 10 s) (tm_lines m).
Proof.
  intros [H1 H2]. constructor.
  - unfold tm_head. repeat apply no_app; try no_lit. apply str_of_int_no; lia.
  - apply Forall_app. split; [apply Forall_map; eapply Forall_impl; [|exact H1]; apply tp_line_no|].
    apply Forall_flat_map. eapply Forall_impl; [|exact H2]. apply tb_lines_no.
Qed.

(** ** the wrapper *)
Lemma find_point_in id : forall l p, find_point id l = Some p -> In p l.
Proof. intros l p H. exact (proj1 (find_some _ _ H)). Qed.
Lemma values_str_shown E points : computable E points -> forall names, values_str E points names = Ok (flat_map (value_line E) (attributes E points names)).
Proof.
  intros HC. induction names as [|n names IH]; [reflexivity|]. cbn [values_str]. unfold attributes. cbn [flat_map]. fold (attributes E points names).
  assert (HG : exists v, get_in E points n = Ok v).
  { unfold get_in. destruct (find_point n points) as [p|] eqn:EF; [|eauto]. apply find_point_in in EF. unfold computable in HC. rewrite Forall_forall in HC. exact (HC p EF). }
  destruct HG as [v HG]. rewrite HG. cbn [bind]. rewrite IH. cbn [bind]. destruct v as [|z|t|f]; [reflexivity|..]; cbn [is_none app flat_map]; f_equal;
  match goal with |- _ = value_line E (n, ?v) ++ _ => change (value_line E (n, v)) with (n ++ lit ":  "%string ++ suns_to_str E v ++ [10]) end;
  now rewrite <- !app_assoc.
Qed.
Lemma wblocks_str_shown E : forall l, Forall (fun o => match o with Some w => computable E (b_points (wb_block w)) | None => False end) l ->
  wblocks_str E l = Ok (flat_map (fun o => match o with Some b => shown_block E b | None => [] end) l).
Proof.
  induction l as [|[w|] l IH]; intros H; [reflexivity| |inversion H; contradiction]. inversion H; subst. cbn [wblocks_str flat_map]. unfold wblock_str.
  rewrite values_str_shown by assumption. cbn [bind]. rewrite IH by assumption. cbn [bind]. unfold shown_block. now rewrite <- !app_assoc.
Qed.
Lemma wmodel_str_shown E w reps : wm_repeating w = None :: map Some reps -> computable E (model_points (wm_model w)) ->
  Forall (fun b => computable E (b_points (wb_block b))) reps -> wmodel_str E w = Ok (shown_model E w).
Proof.
  intros HR HC HF. unfold wmodel_str. rewrite values_str_shown by exact HC. cbn [bind]. rewrite HR. cbn [tl]. rewrite wblocks_str_shown.
  - cbn [bind]. unfold shown_model. rewrite HR. reflexivity.
  - apply Forall_map. eapply Forall_impl; [|exact HF]. auto.
Qed.
