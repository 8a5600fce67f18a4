(** * C_TypeText: property C119: the text of a model definition tells how its devices are read. *)
From Coq Require Import String.
From Verif Require C_Smdx.
From Verif Require Import Py P_List M_Suns M_Point M_Mbmap M_Device M_Smdx M_Client S_TypeText M_TypeText P_Print P_TypeText.

(** Two definitions have the same text exactly if they have the same id, length, blocks and points (id, offset, type, length, scale
    factor, access, mandatory), in the same order. *)
Theorem C119_text_tells_layout : forall t1 t2, words_mt (tell_mtype t1) -> words_mt (tell_mtype t2) ->
  modeltype_str t1 = modeltype_str t2 <-> tell_mtype t1 = tell_mtype t2.
Proof.
  intros t1 t2 W1 W2. rewrite !mtype_told. split; [|now intros ->]. intros H. apply lines_inj in H; [|now apply mt_lines_no..]. now apply mt_lines_inj.
Qed.
Print Assumptions C119_text_tells_layout.
(** Then models loaded from them have the same points at the same addresses, and reading them from a device makes the same requests and
    gives the same values, errors included. *)
Theorem C119_same_text_same_values : forall t1 t2, words_mt (tell_mtype t1) -> words_mt (tell_mtype t2) -> modeltype_str t1 = modeltype_str t2 ->
  forall fuel id addr len D (dv : mdev D) s,
  let '(m1, r1) := model_load fuel (fun _ => Ok t1) (new_model id addr len) in
  let '(m2, r2) := model_load fuel (fun _ => Ok t2) (new_model id addr len) in
  r1 = r2 /\ seen m1 = seen m2 /\
  let '(s1, m1', x1) := read_points dv s m1 in
  let '(s2, m2', x2) := read_points dv s m2 in
  s1 = s2 /\ x1 = x2 /\ seen m1' = seen m2'.
Proof.
  intros t1 t2 W1 W2 H fuel id addr len D dv s. apply C119_text_tells_layout in H; auto. apply told_laid in H.
  pose proof (model_load_laid fuel t1 (new_model id addr len)) as L1. pose proof (model_load_laid fuel t2 (new_model id addr len)) as L2.
  rewrite H in L1. destruct (model_load fuel (fun _ => Ok t1) (new_model id addr len)) as [m1 r1]. destruct (model_load fuel (fun _ => Ok t2) (new_model id addr len)) as [m2 r2].
  rewrite L1 in L2. assert (EM : laid_m m1 = laid_m m2) by congruence. assert (ER : r1 = r2) by congruence. split; [exact ER|]. split; [now rewrite <- (seen_laid m1), EM, seen_laid|].
  pose proof (read_points_laid D dv s m1) as R1. pose proof (read_points_laid D dv s m2) as R2. rewrite EM in R1.
  destruct (read_points dv s m1) as [[s1 m1'] x1]. destruct (read_points dv s m2) as [[s2 m2'] x2]. rewrite R1 in R2.
  assert (s1 = s2) by congruence. assert (x1 = x2) by congruence. assert (EM' : laid_m m1' = laid_m m2') by congruence.
  split; [assumption|]. split; [assumption|]. now rewrite <- (seen_laid m1'), EM', seen_laid.
Qed.
Print Assumptions C119_same_text_same_values.
(** The conditions on names are needed: a point whose scale factor is called None looks like one without. *)
Theorem C119_restriction_needed : exists t1 t2, modeltype_str t1 = modeltype_str t2 /\ tell_mtype t1 <> tell_mtype t2 /\
  words_mt (tell_mtype t1) /\ ~ words_mt (tell_mtype t2).
Proof.
  pose (T := fun sf => mkMT 0 (Some 1) (Some 1) None None None None
    (mkBT Fixed (BStr (lit "1"%string)) None [mkPT (lit "A"%string) 0 Tuint16 1 (lit "false"%string) (lit "r"%string) None sf None None None []]) None []).
  exists (T None), (T (Some (lit "None"%string))). split; [vm_compute; reflexivity|]. split; [intros H; vm_compute in H; discriminate H|].
  assert (HW : forall s, forallb (fun c => negb (c =? 32) && negb (c =? 10)) s = true -> word s).
  { intros s HS. rewrite forallb_forall in HS. split; intros HI; specialize (HS _ HI); discriminate. }
  split.
  - split; [|intros b [=]]. split; [apply HW; reflexivity|]. apply Forall_cons; [|constructor]. split; [apply HW; reflexivity|]. split; [apply HW; reflexivity|]. split; [apply HW; reflexivity|intros s [=]].
  - intros [[_ HF] _]. apply Forall_inv in HF as (_ & _ & _ & HS). destruct (HS _ eq_refl) as [_ HN]. now apply HN.
Qed.
Print Assumptions C119_restriction_needed.

(** a definition loaded from a document, and one that differs in labels only *)
Example C119_ex : exists t, model_from_smdx 7 C_Smdx.ex_doc = Ok t /\ words_mt (tell_mtype t) /\
  let t' := mkMT 8 (mt_id t) (mt_len t) None None None None (mt_fixed t) (mt_rep t) [] in t' <> t /\ modeltype_str t' = modeltype_str t /\
  tell_mtype t <> tell_mtype (mkMT 7 (mt_id t) (mt_len t) (mt_name t) (mt_label t) None None (mt_fixed t) None []).
Proof.
  eexists. split; [vm_compute; reflexivity|]. split; [apply words_mtb_ok; vm_compute; reflexivity|]. split; [discriminate|]. split; [reflexivity|discriminate].
Qed.
Definition nl : string := String (Ascii.ascii_of_nat 10) EmptyString.
Example C119_ex_text : match model_from_smdx 7 C_Smdx.ex_doc with Ok t => modeltype_str t | Raise _ => [] end = lit (
  "ModelType: id = 100 len = 4" ++ nl ++
  "BlockType: type = fixed len = 4" ++ nl ++
  "  PointType: id = A offset = 0 type = uint16 len = 1 sf = A_SF access = rw mandatory = true" ++ nl ++
  "  PointType: id = N offset = 1 type = string len = 2 sf = None access = r mandatory = false" ++ nl ++
  "  PointType: id = A_SF offset = 3 type = sunssf len = 1 sf = None access = r mandatory = false" ++ nl ++
  "BlockType: type = repeating len = 1" ++ nl ++
  "  PointType: id = R offset = 0 type = int16 len = 1 sf = None access = r mandatory = false" ++ nl)%string.
Proof. vm_compute. reflexivity. Qed.
