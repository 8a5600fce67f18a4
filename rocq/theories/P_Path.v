(** * P_Path: proofs about path lists, pretty printing and temporary path lists. *)
From Coq Require Import String.
From Verif Require Import Py P_List M_Xml M_Path S_Path.

(** ** strings *)
Lemma split_name e : ~ In SEP e -> split_sep e = [e].
Proof.
  induction e as [|c e IH]; intros H; [reflexivity|]. cbn [split_sep]. destruct (Z.eqb_spec c SEP) as [->|]; [destruct H; now left|].
  rewrite IH by (intros G; apply H; now right). reflexivity.
Qed.
Lemma split_app e s : ~ In SEP e -> split_sep (e ++ SEP :: s) = e :: split_sep s.
Proof.
  induction e as [|c e IH]; intros H; [reflexivity|]. cbn [app split_sep]. destruct (Z.eqb_spec c SEP) as [->|]; [destruct H; now left|].
  rewrite IH by (intros G; apply H; now right). reflexivity.
Qed.
Lemma split_join l : l <> [] -> Forall name_ok l -> split_sep (join l) = l.
Proof.
  induction l as [|e l IH]; intros HN HF; [congruence|]. inversion HF as [|? ? [H1 H2] H3]; subst. destruct l as [|e' l]; [now apply split_name|].
  change (join (e :: e' :: l)) with (e ++ SEP :: join (e' :: l)). rewrite split_app by exact H2. rewrite IH by (congruence || assumption). reflexivity.
Qed.
Lemma join_app l l' : l <> [] -> l' <> [] -> join (l ++ l') = join l ++ [SEP] ++ join l'.
Proof.
  intros H H'. induction l as [|e l IH]; [congruence|]. destruct l as [|e2 l].
  - cbn [app join]. destruct l'; [congruence|reflexivity].
  - change (join ((e :: e2 :: l) ++ l')) with (e ++ [SEP] ++ join ((e2 :: l) ++ l')). rewrite IH by congruence.
    change (join (e :: e2 :: l)) with (e ++ [SEP] ++ join (e2 :: l)). now rewrite <- !app_assoc.
Qed.
Lemma ends_with_spec e : ends_with ZIP e = true <-> zip_name e.
Proof.
  unfold ends_with, zip_name. rewrite andb_true_iff, eqb_list_eq, Z.leb_le. split.
  - intros [H1 H2]. exists (ztake (zlen e - zlen ZIP) e). rewrite <- (ztake_zdrop (zlen e - zlen ZIP) e) at 1. now rewrite H2.
  - intros (s & ->). rewrite zlen_app. pose proof (zlen_nonneg s). split; [lia|]. replace (zlen s + zlen ZIP - zlen ZIP) with (zlen s) by lia.
    rewrite zdrop_app_r by lia. rewrite Z.sub_diag. reflexivity.
Qed.
Lemma ends_with_false e : ends_with ZIP e = false <-> ~ zip_name e.
Proof. rewrite <- ends_with_spec. destruct (ends_with ZIP e); split; congruence. Qed.
Lemma zip_name_ne e : zip_name e -> e <> [].
Proof. intros (s & ->) E. apply (f_equal (@length Z)) in E. rewrite app_length in E. cbn in E. lia. Qed.

(** ** the element loop *)
(** what the loop appends before a name *)
Definition pre_of (fp : str) : str := if negb (eqb_list fp []) && negb (eqb_list fp [SEP]) then fp ++ [SEP] else fp.
Lemma pre_of_nil : pre_of [] = [].
Proof. reflexivity. Qed.
Lemma pre_of_sep : pre_of [SEP] = [SEP].
Proof. reflexivity. Qed.
Lemma pre_of_other fp : fp <> [] -> fp <> [SEP] -> pre_of fp = fp ++ [SEP].
Proof. intros H1 H2. unfold pre_of. apply eqb_list_neq in H1. apply eqb_list_neq in H2. now rewrite H1, H2. Qed.
Lemma name_not_sep fp e : name_ok e -> fp ++ e <> [] /\ fp ++ e <> [SEP].
Proof.
  intros [H1 H2]. split; intros E; [apply app_eq_nil in E; tauto|]. apply H2. destruct fp as [|c fp]; [cbn in E; rewrite E; now left|].
  assert (HL : length ((c :: fp) ++ e) = 1%nat) by (rewrite E; reflexivity). rewrite app_length in HL. cbn [length] in HL. destruct e; [congruence|cbn [length] in HL; lia].
Qed.
Lemma loop_cons fs e r fp zp : name_ok e -> path_loop fs (e :: r) fp zp =
  (if ends_with ZIP e then if fs_exists fs (pre_of fp ++ e) then path_loop fs r [] (pre_of fp ++ e) else (pre_of fp ++ e, [])
   else path_loop fs r (pre_of fp ++ e) zp).
Proof. intros [H _]. cbn [path_loop]. destruct e as [|c e]; [congruence|]. reflexivity. Qed.
(** names without .zip are joined *)
Lemma loop_plain fs l : forall fp zp r, Forall name_ok l -> Forall (fun e => ~ zip_name e) l -> l <> [] ->
  path_loop fs (l ++ r) fp zp = path_loop fs r (pre_of fp ++ join l) zp.
Proof.
  induction l as [|e l IH]; intros fp zp r H1 H2 HN; [congruence|]. inversion H1; subst. inversion H2 as [|? ? Z1 Z2]; subst.
  cbn [app]. rewrite loop_cons by assumption. apply ends_with_false in Z1. rewrite Z1. destruct l as [|e2 l]; [reflexivity|].
  rewrite IH by (assumption || congruence). destruct (name_not_sep (pre_of fp) e) as [N1 N2]; [assumption|].
  rewrite (pre_of_other _ N1 N2). change (join (e :: e2 :: l)) with (e ++ [SEP] ++ join (e2 :: l)). f_equal. now rewrite <- !app_assoc.
Qed.
Definition root (abs : bool) : str := if abs then [SEP] else [].
Lemma loop_start fs p zp : path_ok p -> path_loop fs (split_sep (path_text p)) [] zp = path_loop fs (cp_names p) (root (cp_abs p)) zp.
Proof.
  intros [H1 H2]. unfold path_text, root. destruct (cp_abs p).
  - change ([SEP] ++ join (cp_names p)) with ([] ++ SEP :: join (cp_names p)). rewrite split_app by auto. rewrite split_join by assumption. reflexivity.
  - cbn [app]. now rewrite split_join by assumption.
Qed.
Lemma pre_of_root b : pre_of (root b) = root b.
Proof. destruct b; reflexivity. Qed.
Lemma join_last l (e : str) : l <> [] -> Forall name_ok l -> forall fp, fp ++ join l <> [] /\ fp ++ join l <> [SEP].
Proof.
  intros HN HF fp. destruct (exists_last HN) as (l' & x & ->). apply Forall_app in HF as [_ HF]. inversion HF; subst.
  destruct l' as [|y l']; [apply name_not_sep; assumption|]. rewrite join_app by congruence. cbn [join]. rewrite !app_assoc. apply name_not_sep. assumption.
Qed.

(** ** one path *)
Definition file_after (fp f : str) : str := pre_of fp ++ f.
Lemma plain_path fs p zp f : path_ok p -> Forall (fun e => ~ zip_name e) (cp_names p) ->
  exists fp, path_loop fs (split_sep (path_text p)) [] zp = (fp, zp) /\ file_after fp f = path_text p ++ [SEP] ++ f.
Proof.
  intros HP HZ. rewrite loop_start by exact HP. destruct HP as [H1 H2]. exists (root (cp_abs p) ++ join (cp_names p)). split.
  - rewrite <- (app_nil_r (cp_names p)) at 1. rewrite loop_plain by assumption. cbn [path_loop]. now rewrite pre_of_root.
  - unfold file_after. destruct (join_last (cp_names p) [] H1 H2 (root (cp_abs p))) as [N1 N2].
    rewrite pre_of_other by assumption. unfold path_text, root. now rewrite <- !app_assoc.
Qed.
Lemma zip_path fs p zp pre z post : path_ok p -> cp_names p = pre ++ z :: post -> zip_name z -> Forall (fun e => ~ zip_name e) pre -> Forall (fun e => ~ zip_name e) post ->
  let zpath := path_text (mkCP (cp_abs p) (pre ++ [z])) in
  path_loop fs (split_sep (path_text p)) [] zp = if fs_exists fs zpath then (join post, zpath) else (zpath, []).
Proof.
  intros HP EN HZ Z1 Z2 zpath. rewrite loop_start by exact HP. destruct HP as [H1 H2]. rewrite EN in *. apply Forall_app in H2 as [G1 G2]. inversion G2 as [|? ? G3 G4]; subst.
  assert (EZ : zpath = pre_of (root (cp_abs p) ++ join pre) ++ z).
  { unfold zpath, path_text. cbn [cp_abs cp_names]. fold (root (cp_abs p)). destruct pre as [|e pre]; [cbn [app join]; rewrite app_nil_r, pre_of_root; reflexivity|].
    rewrite join_app by congruence. cbn [join]. destruct (join_last (e :: pre) [] ltac:(congruence) G1 (root (cp_abs p))) as [N1 N2]. rewrite pre_of_other by assumption. now rewrite <- !app_assoc. }
  assert (E1 : path_loop fs (pre ++ z :: post) (root (cp_abs p)) zp = if fs_exists fs zpath then path_loop fs post [] zpath else (zpath, [])).
  { pose proof HZ as HZ'. apply ends_with_spec in HZ'. destruct pre as [|e pre].
    - cbn [app]. rewrite loop_cons by assumption. rewrite HZ'. rewrite EZ. cbn [join]. now rewrite app_nil_r.
    - rewrite loop_plain by (assumption || congruence). rewrite loop_cons by assumption. rewrite HZ', pre_of_root, <- EZ. reflexivity. }
  rewrite E1. destruct (fs_exists fs zpath); [|reflexivity]. destruct post as [|e post]; [reflexivity|].
  rewrite <- (app_nil_r (e :: post)) at 1. rewrite loop_plain by (assumption || congruence). reflexivity.
Qed.
Lemma member_path post f : Forall name_ok post -> file_after (join post) f = join (post ++ [f]).
Proof.
  intros HF. unfold file_after. destruct post as [|e post]; [reflexivity|]. rewrite join_app by congruence. cbn [join].
  destruct (join_last (e :: post) [] ltac:(congruence) HF []) as [N1 N2]. cbn [app] in N1, N2. rewrite pre_of_other by assumption. now rewrite <- app_assoc.
Qed.
Lemma path_text_ne p : path_ok p -> path_text p <> [].
Proof.
  intros [H1 H2] E. unfold path_text in E. destruct (join_last (cp_names p) [] H1 H2 (if cp_abs p then [SEP] else [])) as [N _]. congruence.
Qed.
(** a zip name appears once *)
Lemma zip_split_unique pre z post pre' z' post' : pre ++ z :: post = pre' ++ z' :: post' -> zip_name z -> zip_name z' ->
  Forall (fun e => ~ zip_name e) pre -> Forall (fun e => ~ zip_name e) post -> pre' = pre /\ z' = z /\ post' = post.
Proof.
  revert pre'. induction pre as [|e pre IH]; intros pre' E Hz Hz' H1 H2.
  - destruct pre' as [|e' pre']; cbn [app] in E; [split; [reflexivity|]; split; congruence|]. assert (E2 : post = pre' ++ z' :: post') by congruence. subst post.
    apply Forall_app in H2 as [_ H2]. inversion H2; subst. contradiction.
  - destruct pre' as [|e' pre']; cbn [app] in E.
    + assert (e = z') by congruence. subst. inversion H1; subst. contradiction.
    + assert (e = e') by congruence. subst e'. inversion H1; subst. destruct (IH pre') as (A & B & C); auto; [congruence|]. subst. auto.
Qed.

Definition hit (fs : fsys) (f : str) (ps : list cpath) (d : bytes) : Prop :=
  exists a p b, ps = a ++ p :: b /\ contains fs p f d /\ forall q d', In q a -> ~ contains fs q f d'.
Lemma pathlist_spec fs f (HF : fs_ok fs f) ps : forall zp, Forall documented ps ->
  ForallOrdPairs (fun p q => archive_exists fs p -> archive q) ps ->
  (zp = [] \/ Forall archive ps) ->
  match pathlist_loop fs (map path_text ps) f zp with
  | Ok d => hit fs f ps d
  | Raise e => e = EName /\ forall q d, In q ps -> ~ contains fs q f d
  end.
Proof.
  destruct HF as (T1 & T2 & T3).
  induction ps as [|p ps IH]; intros zp HD HO HZP; cbn [map pathlist_loop]; [split; [reflexivity|intros q d []]|].
  inversion HD as [|? ? (HP & HC) HD2]; subst. inversion HO as [|? ? HO1 HO2]; subst.
  assert (STEP : forall zp', (zp' = [] \/ Forall archive ps) -> (forall d, ~ contains fs p f d) ->
    match pathlist_loop fs (map path_text ps) f zp' with Ok d => hit fs f (p :: ps) d | Raise e => e = EName /\ forall q d, In q (p :: ps) -> ~ contains fs q f d end).
  { intros zp' Hz HN. specialize (IH zp' HD2 HO2 Hz). destruct (pathlist_loop fs (map path_text ps) f zp') as [d|e].
    - destruct IH as (a & q & b & -> & A & B). exists (p :: a), q, b. split; [reflexivity|]. split; [exact A|]. intros q' d' [<-|HI]; [apply HN|eauto].
    - destruct IH as [-> IH]. split; [reflexivity|]. intros q d [<-|HI]; [apply HN|eauto]. }
  assert (HERE : forall d, contains fs p f d -> hit fs f (p :: ps) d).
  { intros d Hc. exists [], p, ps. split; [reflexivity|]. split; [exact Hc|]. intros q d' []. }
  destruct HC as [HPL|(pre & z & post & EN & HZ & Z1 & Z2)].
  - destruct (plain_path fs p zp f HP HPL) as (fp & E1 & E2). rewrite E1. change ((if negb (eqb_list fp []) && negb (eqb_list fp [SEP]) then fp ++ [SEP] else fp) ++ f) with (file_after fp f). rewrite E2.
    assert (zp = []) as ->.
    { destruct HZP as [->|HZP]; [reflexivity|]. inversion HZP as [|? ? (z & A & B) _]; subst. rewrite Forall_forall in HPL. destruct (HPL z A B). }
    cbn [eqb_list negb]. destruct (fs (path_text p ++ [SEP] ++ f)) as [[|d m]|] eqn:EF.
    + destruct (T2 (path_text p) EF).
    + apply HERE. eapply in_dir; eauto.
    + apply STEP; [now left|]. intros d Hc. inversion Hc as [d0 m A B|pre z post c members d0 A B]; subst; [congruence|].
      rewrite Forall_forall in HPL. apply (HPL z); [rewrite A; apply in_elt|exact B].
  - pose proof (zip_path fs p zp pre z post HP EN HZ Z1 Z2) as E1. cbv zeta in E1. rewrite E1.
    assert (UNIQ : forall d, contains fs p f d -> exists c m, fs (path_text (mkCP (cp_abs p) (pre ++ [z]))) = Some (FFile c (Some m)) /\ m (join (post ++ [f])) = Some d).
    { intros d Hc. inversion Hc as [d0 m A B|pre' z' post' c members d0 A B C D]; subst.
      - rewrite Forall_forall in A. destruct (A z); [rewrite EN; apply in_elt|exact HZ].
      - rewrite EN in A. destruct (zip_split_unique _ _ _ _ _ _ A HZ B Z1 Z2) as (-> & -> & ->). eauto. }
    pose proof HP as [HN1 HN2]. rewrite EN in HN2. apply Forall_app in HN2 as [N1 N2]. inversion N2 as [|? ? N3 N4]; subst.
    assert (HPZ : path_ok (mkCP (cp_abs p) (pre ++ [z]))).
    { split; cbn [cp_names]; [destruct pre; discriminate|]. apply Forall_app. split; [exact N1|]. constructor; [exact N3|constructor]. }
    assert (HZN : zip_name (path_text (mkCP (cp_abs p) (pre ++ [z])))).
    { destruct HZ as (s & ->). unfold path_text. cbn [cp_abs cp_names]. destruct pre as [|e pre].
      - cbn [app join]. rewrite app_assoc. eexists; reflexivity.
      - rewrite join_app by congruence. cbn [join]. rewrite !app_assoc. eexists; reflexivity. }
    unfold fs_exists. destruct (fs (path_text (mkCP (cp_abs p) (pre ++ [z])))) as [n|] eqn:EZ.
    + pose proof (path_text_ne _ HPZ) as HNE. apply eqb_list_neq in HNE. rewrite HNE. cbn [negb].
      destruct (T3 _ _ HZN EZ) as (c & m & ->). rewrite EZ. pose proof (member_path post f N4) as EM. change ((if negb (eqb_list (join post) []) && negb (eqb_list (join post) [SEP]) then join post ++ [SEP] else join post) ++ f) with (file_after (join post) f). rewrite EM.
      destruct (m (join (post ++ [f]))) as [d|] eqn:EMM.
      * apply HERE. eapply in_zip; eauto.
      * apply STEP.
        -- right. assert (HAE : archive_exists fs p) by (exists pre, z, post; rewrite EZ; split; [exact EN|]; split; [exact HZ|discriminate]).
           eapply Forall_impl; [|exact HO1]. intros q HQ. now apply HQ.
        -- intros d Hc. destruct (UNIQ d Hc) as (c' & m' & A & B). assert (m' = m) by congruence. subst. congruence.
    + cbn [eqb_list negb]. destruct (join_last (pre ++ [z]) [] ltac:(destruct pre; discriminate) (proj2 HPZ) (if cp_abs p then [SEP] else [])) as [Q1 Q2].
      unfold path_text in *. cbn [cp_abs cp_names] in *. set (zz := (if cp_abs p then [SEP] else []) ++ join (pre ++ [z])) in *.
      change (if negb (eqb_list zz []) && negb (eqb_list zz [SEP]) then zz ++ [SEP] else zz) with (pre_of zz). rewrite pre_of_other by assumption.
      rewrite <- app_assoc. destruct (fs (zz ++ [SEP] ++ f)) as [n|] eqn:EF.
      * exfalso. apply (T1 zz); [rewrite EF; discriminate|exact EZ].
      * apply STEP; [now left|]. intros d Hc. destruct (UNIQ d Hc) as (c' & m' & A & B). congruence.
Qed.

(** ** indent *)
Section XmlInd.
  Variable P : xml -> Prop.
  Hypothesis HP : forall tag attrs text tail cs, Forall P cs -> P (XE tag attrs text tail cs).
  Fixpoint xml_ind' (x : xml) : P x :=
    match x with
    | XE tag attrs text tail cs => HP tag attrs text tail cs ((fix go (l : list xml) : Forall P l := match l with [] => Forall_nil P | c :: r => Forall_cons c (xml_ind' c) (go r) end) cs)
    end.
End XmlInd.
Lemma blank_spaces n : forallb is_space (repeat 32 n) = true.
Proof. induction n; [reflexivity|exact IHn]. Qed.
Lemma blank_nl n : blank (Some (nl n)) = true.
Proof. cbn [blank nl forallb]. rewrite blank_spaces. reflexivity. Qed.
Lemma nl_S n : nl n ++ [32; 32] = nl (S n).
Proof. unfold nl. cbn [app]. f_equal. replace (2 * S n)%nat with (2 * n + 2)%nat by lia. rewrite repeat_app. reflexivity. Qed.
Lemma is_space_spec c : is_space c = true <-> In c white_space.
Proof. unfold is_space, white_space. cbn [In]. lia. Qed.
Lemma blank_white s : blank s = true <-> white s.
Proof.
  destruct s as [t|]; [|cbn; tauto]. cbn [blank white]. rewrite forallb_forall, Forall_forall. split; intros H c HC; apply is_space_spec, H, HC.
Qed.
Lemma nl_line_start n : nl n = line_start n.
Proof. unfold nl, line_start. f_equal. induction n as [|n IH]; [reflexivity|]. replace (2 * S n)%nat with (S (S (2 * n))) by lia. cbn [repeat concat app]. now rewrite IH. Qed.
Lemma set_if_blank_kept i s : blank (Some i) = true -> kept s (set_if_blank i s).
Proof. intros H. unfold kept, set_if_blank. destruct (blank s) eqn:E; [right; rewrite <- !blank_white; auto|now left]. Qed.
Lemma set_if_blank_idem i s : blank (Some i) = true -> set_if_blank i (set_if_blank i s) = set_if_blank i s.
Proof. intros H. unfold set_if_blank. destruct (blank s) eqn:E; [now rewrite H|now rewrite E]. Qed.
Lemma set_if_blank_over i j s : blank (Some j) = true -> set_if_blank i (set_if_blank j s) = set_if_blank i s.
Proof. intros H. unfold set_if_blank at 2. destruct (blank s) eqn:E; unfold set_if_blank; [now rewrite H, E|now rewrite E]. Qed.
Lemma same_content_refl x : same_content x x.
Proof.
  induction x as [tag attrs text tail cs IH] using xml_ind'. apply sc_node; [now left|now left|]. induction IH; constructor; auto.
Qed.
Lemma kept_trans a b c : kept a b -> kept b c -> kept a c.
Proof. unfold kept. intros [->|[A B]] [->|[C D]]; auto. Qed.
Lemma set_tail_same x y i : blank (Some i) = true -> same_content x y -> same_content x (set_tail (set_if_blank i (x_tail y)) y).
Proof.
  intros Hi H. inversion H; subst; cbn [set_tail x_tail]; [apply sc_leaf|apply sc_node; auto]; eapply kept_trans; eauto; now apply set_if_blank_kept.
Qed.
Lemma on_last_rel {A} (R : A -> A -> Prop) f l l' : (forall x y, R x y -> R x (f y)) -> Forall2 R l l' -> Forall2 R l (on_last f l').
Proof.
  intros HF H. induction H as [|x y l l' HR HRS IH]; [constructor|]. cbn [on_last]. destruct HRS as [|x2 y2 k k' G1 G2]; [constructor; [auto|constructor]|].
  constructor; [exact HR|exact IH].
Qed.
Lemma indent_same x : forall level, same_content x (indent level x).
Proof.
  induction x as [tag attrs text tail cs IH] using xml_ind'. intros level. cbn [indent]. destruct cs as [|c cs].
  - apply sc_leaf. destruct level; [now left|]. apply set_if_blank_kept, blank_nl.
  - apply sc_node; [apply set_if_blank_kept; rewrite nl_S; apply blank_nl|apply set_if_blank_kept, blank_nl|].
    apply on_last_rel; [intros; apply set_tail_same; auto; apply blank_nl|].
    clear - IH. induction IH; cbn [map]; constructor; auto.
Qed.
(** twice *)
Lemma indent_set_tail level c i : (0 < level)%nat -> indent level (set_tail (set_if_blank i (x_tail (indent level c))) (indent level c)) =
  set_tail (set_if_blank (nl level) (set_if_blank i (x_tail (indent level c)))) (indent level (indent level c)).
Proof.
  intros HL. destruct (indent level c) as [tag attrs text tail cs]. cbn [set_tail x_tail indent]. destruct cs; destruct level; try lia; reflexivity.
Qed.
Lemma on_last_map {A} (f g : A -> A) l : map g (on_last f l) = on_last (fun x => x) (map g (on_last f l)).
Proof. generalize (map g (on_last f l)). induction l0 as [|x [|y r] IH]; [reflexivity|reflexivity|]. cbn [on_last]. f_equal. exact IH. Qed.
Lemma indent_idem x : forall level, indent level (indent level x) = indent level x.
Proof.
  induction x as [tag attrs text tail cs IH] using xml_ind'. intros level. cbn [indent]. destruct cs as [|c cs].
  - cbn [indent]. f_equal. destruct level; [reflexivity|]. apply set_if_blank_idem, blank_nl.
  - remember (on_last (fun c0 => set_tail (set_if_blank (nl level) (x_tail c0)) c0) (map (indent (S level)) (c :: cs))) as k eqn:EK.
    assert (HK : on_last (fun c0 => set_tail (set_if_blank (nl level) (x_tail c0)) c0) (map (indent (S level)) k) = k).
    { subst k. clear - IH. induction IH as [|d ds H1 H2 IH2]; [reflexivity|]. destruct ds as [|d2 ds].
      - cbn [map on_last]. f_equal. rewrite indent_set_tail by lia. rewrite H1.
        destruct (indent (S level) d) as [a b e g h]. cbn [set_tail x_tail]. f_equal.
        rewrite (set_if_blank_over (nl level) (nl (S level))) by apply blank_nl. apply set_if_blank_idem, blank_nl.
      - cbn [map on_last] in *. rewrite H1. 
        destruct (match map (indent (S level)) ds with [] => _ | _ :: _ => _ end) as [|e es] eqn:EE; [destruct ds; discriminate|].
        cbn [map] in *. rewrite IH2. reflexivity. }
    destruct k as [|c' k']; [destruct cs; discriminate|]. cbn [indent]. rewrite HK. f_equal; apply set_if_blank_idem; [rewrite nl_S|]; apply blank_nl.
Qed.
(** layout *)
Lemma laid_set_tail level t t' x : laid_out level t x -> laid_out level t' (set_tail (Some t') x).
Proof. intros H. inversion H; subst; cbn [set_tail]; constructor; auto. Qed.
Lemma laid_tail level t x : laid_out level t x -> x_tail x = Some t.
Proof. intros H. inversion H; reflexivity. Qed.
Lemma on_last_app {A} (f : A -> A) l x : on_last f (l ++ [x]) = l ++ [f x].
Proof. induction l as [|y l IH]; [reflexivity|]. cbn [app on_last]. destruct (l ++ [x]) eqn:E; [destruct l; discriminate|]. now rewrite IH. Qed.
Lemma indent_layout x : no_mixed_text x -> forall level, (0 < level)%nat \/ x_children x <> [] -> laid_out level (line_start level) (indent level x).
Proof.
  induction x as [tag attrs text tail cs IH] using xml_ind'. intros H level HL. cbn [indent x_children] in *. destruct cs as [|c cs].
  - destruct HL as [HL|HL]; [|congruence]. destruct level; [lia|]. assert (HT : blank tail = true) by (apply blank_white; inversion H; auto). unfold set_if_blank. rewrite HT, nl_line_start. constructor.
  - assert (HA : blank text = true /\ blank tail = true /\ Forall no_mixed_text (c :: cs)) by (rewrite !blank_white; inversion H; auto). destruct HA as (H1 & H2 & H3).
    unfold set_if_blank at 1 2. rewrite H1, H2. remember (c :: cs) as l. rewrite nl_S.
    assert (HLL : Forall (laid_out (S level) (line_start (S level))) (map (indent (S level)) l)).
    { clear - IH H3. induction IH as [|d ds G1 G2 IH2]; [constructor|]. inversion H3; subst. cbn [map]. constructor; [apply G1; [assumption|left; lia]|auto]. }
    assert (HNE : map (indent (S level)) l <> []) by (subst; discriminate). destruct (exists_last HNE) as (k & y & EK). rewrite EK in *.
    rewrite on_last_app. apply Forall_app in HLL as [L1 L2]. inversion L2 as [|? ? L3 _]; subst.
    rewrite !nl_line_start. constructor; [exact L1|]. rewrite (laid_tail _ _ _ L3). unfold set_if_blank. rewrite <- (nl_line_start (S level)), blank_nl. eapply laid_set_tail; eauto.
Qed.

(** ** path lists in effect *)
Lemma fspaths_ok paths : Forall (fun a => a <> None) paths -> exists l, fspaths paths = (l, true) /\ paths = map Some l.
Proof.
  induction 1 as [|[p|] r H1 H2 (l & E & ->)]; [exists []; auto| |congruence]. exists (p :: l). cbn [fspaths map]. now rewrite E.
Qed.
Lemma fspaths_some l : fspaths (map Some l) = (l, true).
Proof. induction l as [|p l IH]; [reflexivity|]. cbn [map fspaths]. now rewrite IH. Qed.
Lemma fspaths_bad l r : fspaths (map Some l ++ None :: r) = (l, false).
Proof. induction l as [|p l IH]; [reflexivity|]. cbn [map app fspaths]. now rewrite IH. Qed.
Lemma run_cur p : args_are_paths p -> forall s s' r, run p s = (s', r) -> ps_cur s' = ps_cur s.
Proof.
  induction p as [| |path|a IHa b IHb|e|a IHa h IHh|paths body IH]; intros HA s s' r H; cbn [run] in H; cbn [args_are_paths] in HA.
  - congruence.
  - apply pair_equal_spec in H as [<- _]. reflexivity.
  - destruct (ps_cur s) eqn:E; apply pair_equal_spec in H as [<- _]; [reflexivity|exact E].
  - destruct HA as [HA1 HA2]. destruct (run a s) as [s1 [u|e]] eqn:E1.
    + rewrite (IHb HA2 _ _ _ H). eapply IHa; eauto.
    + apply pair_equal_spec in H as [<- _]. eapply IHa; eauto.
  - congruence.
  - destruct HA as [HA1 HA2]. destruct (run a s) as [s1 [u|e]] eqn:E1.
    + apply pair_equal_spec in H as [<- _]. eapply IHa; eauto.
    + rewrite (IHh HA2 _ _ _ H). eapply IHa; eauto.
  - destruct HA as [HA1 HA2]. destruct (fspaths_ok _ HA1) as (l & El & _). rewrite El in H.
    destruct (run body _) as [s2 r2] eqn:E. apply pair_equal_spec in H as [<- _]. reflexivity.
Qed.
Lemma fresh_cur paths body s s' r : Forall (fun a => a <> None) paths -> run (PFresh paths body) s = (s', r) -> ps_cur s' = ps_cur s.
Proof.
  intros HA H. cbn [run] in H. destruct (fspaths_ok _ HA) as (l & El & _). rewrite El in H.
  destruct (run body _) as [s2 r2] eqn:E. apply pair_equal_spec in H as [<- _]. reflexivity.
Qed.
Lemma heap_add_other h : forall n m p, n <> m -> nth_error (heap_add h n p) m = nth_error h m.
Proof. induction h as [|l h IH]; intros [|n] [|m] p H; try reflexivity; try congruence. cbn [heap_add nth_error]. apply IH. congruence. Qed.
Lemma heap_add_length h : forall n p, length (heap_add h n p) = length h.
Proof. induction h as [|l h IH]; intros [|n] p; cbn [heap_add length]; try reflexivity. now rewrite IH. Qed.
(** the list in effect afterwards is the one before, or a new one *)
Definition moved (s s' : pstate) : Prop := ps_cur s' = ps_cur s \/ exists m, ps_cur s' = Some m /\ (length (ps_heap s) <= m)%nat.
(** lists other than the current one do not change *)
Lemma run_others p : forall s s' r, run p s = (s', r) -> (length (ps_heap s) <= length (ps_heap s'))%nat /\ moved s s' /\
  forall m, (m < length (ps_heap s))%nat -> ps_cur s <> Some m -> nth_error (ps_heap s') m = nth_error (ps_heap s) m.
Proof.
  assert (SEQ : forall s s1 s', (length (ps_heap s) <= length (ps_heap s1))%nat -> moved s s1 -> moved s1 s' -> moved s s').
  { intros s s1 s' L [M1|(m & M1 & M2)] [N1|(n & N1 & N2)]; [left; congruence|right; exists n; split; [assumption|lia]|right; exists m; split; [congruence|assumption]|right; exists n; split; [assumption|lia]]. }
  assert (KEEP : forall s s1 m, moved s s1 -> (m < length (ps_heap s))%nat -> ps_cur s <> Some m -> ps_cur s1 <> Some m).
  { intros s s1 m [M|(k & M1 & M2)] L HM; [congruence|]. rewrite M1. intros G. apply Some_inj in G. lia. }
  induction p as [| |path|a IHa b IHb|e|a IHa h IHh|paths body IH]; intros s s' r H; cbn [run] in H.
  - apply pair_equal_spec in H as [<- _]. repeat split; auto. now left.
  - apply pair_equal_spec in H as [<- _]. cbn [ps_heap]. repeat split; auto. now left.
  - destruct (ps_cur s) as [n|] eqn:E; apply pair_equal_spec in H as [<- _]; [|repeat split; auto; now left]. cbn [ps_heap]. rewrite heap_add_length.
    split; [lia|]. split; [now left|]. intros m _ Hm. apply heap_add_other. congruence.
  - destruct (run a s) as [s1 [u|e]] eqn:E1.
    + destruct (IHa _ _ _ E1) as (A1 & AM & A2). destruct (IHb _ _ _ H) as (B1 & BM & B2). split; [lia|]. split; [eapply SEQ; eauto|].
      intros m H1 H2. rewrite B2; [apply A2; auto|lia|]. eapply KEEP; eauto.
    + apply pair_equal_spec in H as [<- _]. eapply IHa; eauto.
  - apply pair_equal_spec in H as [<- _]. repeat split; auto. now left.
  - destruct (run a s) as [s1 [u|e]] eqn:E1.
    + apply pair_equal_spec in H as [<- _]. eapply IHa; eauto.
    + destruct (IHa _ _ _ E1) as (A1 & AM & A2). destruct (IHh _ _ _ H) as (B1 & BM & B2). split; [lia|]. split; [eapply SEQ; eauto|].
      intros m H1 H2. rewrite B2; [apply A2; auto|lia|]. eapply KEEP; eauto.
  - destruct (fspaths paths) as [added ok]. destruct ok.
    + destruct (run body _) as [s2 r2] eqn:E. apply pair_equal_spec in H as [<- _]. cbn [ps_heap ps_cur]. destruct (IH _ _ _ E) as (A1 & _ & A2). cbn [ps_heap ps_cur] in *.
      rewrite app_length in *. cbn [length] in *. split; [lia|]. split; [now left|]. intros m H1 H2. rewrite A2; [now rewrite nth_error_app1 by lia|lia|]. intros G. apply Some_inj in G. lia.
    + apply pair_equal_spec in H as [<- _]. cbn [ps_heap ps_cur]. rewrite app_length. split; [lia|]. split; [right; eexists; split; [reflexivity|lia]|].
      intros m H1 H2. now rewrite nth_error_app1 by lia.
Qed.
