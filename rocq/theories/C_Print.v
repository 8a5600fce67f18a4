(** * C_Print: property C98: the text of a device. *)
From Coq Require Import String ZifyBool.
From Verif Require Import Py P_List M_Util M_Float M_Suns M_Point M_Mbmap M_Device M_Client S_Client M_Scan M_Wrapper S_Wrapper P_Wrapper S_Codec M_Print S_Print P_Print.
From Verif Require C_Wrapper C_Client C_Device C_Scale.

(** ** str(Device) tells everything it should: two devices with the same text have the same models, in the same order, with
    the same points, addresses, values and scale factors.  (It never raises: [device_str] is a text, not a result.) *)
Theorem C98_device_text_tells_all :
  forall E l1 l2, Forall layout_ok_model (map (tell E) l1) -> Forall layout_ok_model (map (tell E) l2) ->
  device_str E l1 = device_str E l2 <-> map (tell E) l1 = map (tell E) l2.
Proof.
  intros E l1 l2 H1 H2. split; [|intros H; rewrite !device_str_told; now rewrite H]. rewrite !device_str_told. intros H.
  apply models_inj; auto. apply lines_inj; [| |exact H]; apply Forall_flat_map; (eapply Forall_impl; [|eassumption]); apply tm_lines_no.
Qed.
Print Assumptions C98_device_text_tells_all.
(** a model read from a device (C_Client.ex_model), and its text *)
Definition ex_read : model := snd (fst (read_points mem_dev C_Client.ex_mem C_Client.ex_model)).
Definition no_c (c : Z) (s : str) : bool := negb (existsb (Z.eqb c) s).
Lemma no_c_In c s : no_c c s = true -> ~ In c s.
Proof. unfold no_c. intros H HI. apply negb_true_iff in H. rewrite <- not_true_iff_false in H. apply H. apply existsb_exists. exists c. split; [exact HI|apply Z.eqb_refl]. Qed.
Definition layout_b (t : told_point) : bool := no_c 32 (tp_id t) && no_c 10 (tp_id t) && no_c 10 (tp_value t).
Lemma layout_b_ok l : forallb layout_b l = true -> Forall layout_ok l.
Proof.
  intros H. apply Forall_forall. intros t Ht. rewrite forallb_forall in H. specialize (H t Ht). unfold layout_b in H. apply andb_true_iff in H as [H H3]. apply andb_true_iff in H as [H1 H2].
  repeat split; now apply no_c_In.
Qed.
Example C98_ex : layout_ok_model (tell C_Scale.env_ex ex_read) /\ device_str C_Scale.env_ex [ex_read] =
  flat_map (fun x => lit x ++ [10]) ["Model 100:"; "  Point: id = A impl = True addr = 40004 value_base = 300 sf_value = -2";
    "  Point: id = B impl = True addr = 40005 value_base = -100 sf_value = -2"; "  Point: id = C impl = True addr = 40009 value_base = 3";
    "Block: type: repeating index: 1:"; "  Point: id = V impl = True addr = 40010 value_base = 7 sf_value = -2";
    "  Point: id = W impl = True addr = 40011 value_base = 9"]%string.
Proof.
  split; [|vm_compute; reflexivity]. split; [apply layout_b_ok; vm_compute; reflexivity|].
  assert (H : forallb (fun b => forallb layout_b (tb_points b)) (tm_blocks (tell C_Scale.env_ex ex_read)) = true) by (vm_compute; reflexivity).
  apply Forall_forall. intros b Hb. apply layout_b_ok. rewrite forallb_forall in H. exact (H b Hb).
Qed.

(** ** str(SunSpecClientDevice), when no two models have the same name: for every model, in order, its name and id, and one
    line with the (scaled) value of every point that has one, block by block *)
Lemma filter_none {A} (f : A -> bool) l : (forall x, In x l -> f x = false) -> filter f l = [].
Proof. induction l as [|x l IH]; intros H; [reflexivity|]. cbn [filter]. rewrite (H x) by now left. apply IH. intros y Hy. apply H. now right. Qed.
Lemma holds_one ws wm n v : NoDup (map wm_name ws) -> In wm ws -> wm_name wm = n -> holds (filter (fun w => eqb_list (wm_name w) n) ws) v -> v = WModel wm.
Proof.
  intros HN HI <- HH. assert (HF : filter (fun w => eqb_list (wm_name w) (wm_name wm)) ws = [wm]).
  { clear HH. induction ws as [|w ws IH]; [destruct HI|]. cbn [map] in HN. inversion HN as [|? ? N1 N2]; subst. cbn [filter].
    destruct HI as [->|HI].
    - rewrite eqb_list_refl. f_equal. apply filter_none. intros x Hx. apply not_true_is_false. intros EQ. apply eqb_list_eq in EQ. apply N1. rewrite <- EQ. now apply in_map.
    - destruct (eqb_list (wm_name w) (wm_name wm)) eqn:EQ; [|auto]. apply eqb_list_eq in EQ. exfalso. apply N1. rewrite EQ. now apply in_map. }
  rewrite HF in HH. exact HH.
Qed.
Lemma first_seen_all : forall l s, NoDup l -> (forall n, In n l -> ~ In n s) -> forall r, first_seen s l r -> r = l.
Proof.
  induction l as [|n l IH]; intros s HN HS r H; inversion H; subst; [reflexivity| |].
  - exfalso. eapply HS; [left; reflexivity|assumption].
  - inversion HN; subst. f_equal. eapply IH; [assumption| |eassumption]. intros k Hk [<-|Hs]; [contradiction|]. eapply HS; [right; exact Hk|exact Hs].
Qed.
Lemma named_fun m n n' : named m n -> named m n' -> n = n'.
Proof. intros [(t & A & B)|[A B]] [(t' & A' & B')|[A' B']]; congruence. Qed.
Lemma repeating_reps w bs : map (option_map wb_block) (wm_repeating w) = None :: map Some bs ->
  exists reps, wm_repeating w = None :: map Some reps /\ map wb_block reps = bs.
Proof.
  destruct (wm_repeating w) as [|[x|] l]; cbn [map option_map]; intros H; try discriminate.
  assert (HL : map (option_map wb_block) l = map Some bs) by exact (f_equal (@tl _) H). clear H.
  assert (HX : exists reps, l = map Some reps /\ map wb_block reps = bs).
  { revert bs HL. induction l as [|[x|] l IH]; intros [|b bs] HL; cbn [map option_map] in HL; try discriminate.
    - exists []. auto.
    - pose proof (f_equal (hd None) HL) as HA. pose proof (f_equal (@tl _) HL) as HB. cbn [hd tl] in HA, HB. apply Some_inj in HA.
      destruct (IH bs HB) as (reps & -> & <-). exists (x :: reps). cbn [map]. now rewrite HA. }
  destruct HX as (reps & -> & E). exists reps. auto.
Qed.
Theorem C98_wrapper_text_partial :
  forall types inherited classes E repr other ms,
  Forall (wrappable types) ms -> Forall (fun m => forall n, named m n -> free_name inherited n) ms ->
  (exists names, Forall2 named ms names /\ NoDup names) -> Forall (computable_model E) ms ->
  exists c w ws, wrapper_init types inherited classes (Ok ms) = ((c, w), Ok tt) /\
    Forall2 (fun m wm => exists n, named m n /\ wraps types m n wm) ms ws /\
    wdev_str E repr other w = Ok (flat_map (shown_model E) ws).
Proof.
  intros types inherited classes E repr other ms HW HF (names0 & HNM & HND) HC.
  destruct (C_Wrapper.C52_models types inherited classes ms HW HF) as (c & w & ws & names & EI & H2 & EM & _ & HS & HH & _).
  exists c, w, ws. split; [exact EI|]. split; [exact H2|].
  assert (EN : map wm_name ws = names0).
  { clear -HNM H2. revert ws H2. induction HNM as [|m n ms ns HN _ IH]; intros ws H2; inversion H2 as [|? wm ? ws' (n' & N1 & W) H3]; subst; [reflexivity|].
    cbn [map]. f_equal; [|auto]. destruct W as (_ & -> & _). eapply named_fun; eauto. }
  rewrite <- EN in HND. apply first_seen_all in HS; [|exact HND|intros n _ []]. subst names.
  unfold wdev_str. rewrite EM.
  assert (HALL : forall wm, In wm ws -> dget (wm_name wm) (wd_dict w) = Some (WModel wm)).
  { intros wm HI. destruct (HH (wm_name wm) (in_map _ _ _ HI)) as (v & ED & HV). rewrite ED. f_equal. eapply holds_one; eauto. }
  assert (HST : forall wm, In wm ws -> wmodel_str E wm = Ok (shown_model E wm)).
  { intros wm HI. clear -H2 HC HI. induction H2 as [|m wm0 ms ws (n & _ & W) _ IH]; [destruct HI|]. inversion HC as [|? ? [C1 C2] HC']; subst.
    destruct HI as [->|HI]; [|auto]. destruct W as (E1 & _ & _ & E2 & _). destruct (repeating_reps _ _ E2) as (reps & ER & EB).
    apply (wmodel_str_shown E wm reps ER); [now rewrite E1|]. rewrite <- EB in C2. rewrite Forall_forall in *. intros b Hb. apply (C2 (wb_block b)). now apply in_map. }
  assert (HX : forall l, (forall wm, In wm l -> dget (wm_name wm) (wd_dict w) = Some (WModel wm)) -> (forall wm, In wm l -> wmodel_str E wm = Ok (shown_model E wm)) ->
    items_str E repr other w (map NName (map wm_name l)) = Ok (flat_map (shown_model E) l)).
  { induction l as [|wm l IH]; intros HA HB; [reflexivity|]. cbn [map items_str item_str flat_map]. rewrite (HA wm) by now left. rewrite (HB wm) by now left.
    cbn [bind]. rewrite IH; [reflexivity| |]; intros; [apply HA|apply HB]; now right. }
  apply HX; assumption.
Qed.
Print Assumptions C98_wrapper_text_partial.

(** ** REFUTED: with two models of one name (as in a device with two inverters), str() shows the addresses of the wrapper
    objects instead of the values: the text is the same for all values *)
Definition with_value (m : model) (v : value) : model :=
  with_blocks m (map (fun b => with_points b (map (fun p => with_values p v (p_sf p)) (b_points b))) (md_blocks m)).
Theorem C98_repeated_model_refuted :
  forall E repr other v,
  exists c w, wrapper_init C_Wrapper.ex_types [] [] (Ok (map (fun a => with_value (C_Wrapper.ex_model a) v) [100; 200])) = ((c, w), Ok tt) /\
    wdev_str E repr other w = Ok (lit "[None, "%string ++ repr (lit "mppt"%string) 1%nat ++ lit ", "%string ++ repr (lit "mppt"%string) 2%nat ++ lit "]"%string) /\
    script_get E (with_value (C_Wrapper.ex_model 100) v) 0 (lit "A"%string) = Ok v.
Proof.
  intros E repr other v. eexists. eexists. split; [vm_compute; reflexivity|]. split.
  - transitivity (Ok ((lit "["%string ++ (lit "None"%string ++ lit ", "%string ++ (repr (lit "mppt"%string) 1%nat ++ lit ", "%string ++ repr (lit "mppt"%string) 2%nat)) ++ lit "]"%string) ++ [])).
    + vm_compute. reflexivity.
    + rewrite app_nil_r, <- !app_assoc. reflexivity.
  - destruct v; reflexivity.
Qed.
Print Assumptions C98_repeated_model_refuted.
(** the first of them alone, with a model of unknown type after it: the hypotheses of C98_wrapper_text_partial hold *)
Definition ex_ms : list model := [with_value (C_Wrapper.ex_model 100) (VInt 7); mkModel 64001 (BInt 1) None 200 8 false [] [200] (Some ESunSpec)].
Example C98_wrapper_ex : Forall (wrappable C_Wrapper.ex_types) ex_ms /\ (exists names, Forall2 named ex_ms names /\ NoDup names) /\ Forall (computable_model C_Scale.env_ex) ex_ms /\
  exists c w, wrapper_init C_Wrapper.ex_types [] [] (Ok ex_ms) = ((c, w), Ok tt) /\
  wdev_str C_Scale.env_ex (fun _ _ => []) (fun s => s) w = Ok (flat_map (fun x => lit x ++ [10]) [""; "mppt (160):"; "A:  7"; ""; "string[1]:"; ""; "string[2]:"; ""; "model_64001 (64001):"]%string).
Proof.
  split.
  { constructor.
    - split; [exists (lit "mppt"%string); left; exists C_Wrapper.ex_type; split; reflexivity|].
      split; [repeat constructor; discriminate|]. intros _. exists C_Wrapper.ex_type, C_Wrapper.ex_rb. split; reflexivity.
    - constructor; [|constructor]. split; [eexists; right; split; reflexivity|]. split; [constructor|]. cbn. congruence. }
  split.
  { exists [lit "mppt"%string; lit "model_64001"%string]. split.
    - constructor; [left; exists C_Wrapper.ex_type; split; reflexivity|]. constructor; [right; split; reflexivity|constructor].
    - constructor; [intros [H|[]]; discriminate|]. constructor; [exact (fun x => x)|constructor]. }
  split.
  { constructor; [|constructor; [|constructor]]; split; repeat constructor; eexists; reflexivity. }
  do 2 eexists. split; vm_compute; reflexivity.
Qed.

(** ** REFUTED: one point whose value cannot be computed (scale factor of 309 or more, or -324 or less) and str() raises *)
Theorem C98_value_error_refuted :
  forall E w n r p z, wm_points w = n :: r -> find_point n (model_points (wm_model w)) = Some p ->
  p_sf p = VInt z -> z <> 0 -> pow10 E z = Raise EOverflow -> wmodel_str E w = Raise EOverflow.
Proof.
  intros E w n r p z H1 H2 H3 H4 H5. unfold wmodel_str. rewrite H1. cbn [values_str]. unfold get_in. rewrite H2. unfold value_getter. rewrite H3. cbn [sf_truthy].
  destruct (Z.eqb_spec z 0); [contradiction|]. cbn [negb math_pow10]. rewrite H5. reflexivity.
Qed.
Print Assumptions C98_value_error_refuted.
