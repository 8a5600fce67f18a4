(** * P_XmlDoc: what the loaders see of a document does not depend on how it was written *)
From Coq Require Import String.
From Verif Require Import Py P_List M_Util M_Suns M_Point M_Xml M_Device M_Path M_Mbmap M_Pics M_XmlText S_XmlText P_XmlText P_Path.
Open Scope Z_scope.

(** same elements and attributes, and texts that are the same up to '' and None in the elements with tag [P] *)
Inductive like (P : str) : xml -> xml -> Prop :=
| like_elem tag attrs text text' tail tail' cs cs' : (tag = P -> text' = norm_text text) -> Forall2 (like P) cs cs' ->
    like P (XE tag attrs text tail cs) (XE tag attrs text' tail' cs').
(** elements with tag [P] have no children *)
Inductive leaves (P : str) : xml -> Prop :=
| leaves_elem tag attrs text tail cs : (tag = P -> cs = []) -> Forall (leaves P) cs -> leaves P (XE tag attrs text tail cs).
Lemma like_norm P x : like P x (norm x).
Proof.
  induction x as [tag attrs text tail cs IH] using xml_ind'. cbn [norm]. constructor; [auto|].
  induction IH as [|x l Hx _ IHl]; cbn [map]; constructor; auto.
Qed.
Lemma norm_text_idem t : norm_text (norm_text t) = norm_text t.
Proof. destruct t as [[|c s]|]; reflexivity. Qed.
Lemma like_set_tail P x y t : like P x y -> like P x (set_tail t y).
Proof. intros []. cbn [set_tail]. now constructor. Qed.
Lemma like_with_tail P x y t : like P x y -> like P x (with_tail y t).
Proof. intros []. cbn [with_tail]. now constructor. Qed.
Lemma like_on_last P (f : xml -> xml) : (forall x y, like P x y -> like P x (f y)) -> forall cs cs', Forall2 (like P) cs cs' -> Forall2 (like P) cs (on_last f cs').
Proof.
  intros Hf cs cs' H. induction H as [|x y cs cs' HX H IH]; [constructor|]. cbn [on_last]. destruct cs' as [|z cs'].
  - inversion H; subst. constructor; [now apply Hf|constructor].
  - constructor; assumption.
Qed.
Lemma norm_set_tail t x : norm (set_tail t x) = set_tail (norm_text t) (norm x).
Proof. destruct x; reflexivity. Qed.
Lemma like_indent P x : leaves P x -> forall level, like P x (norm (indent level x)).
Proof.
  induction x as [tag attrs text tail cs IH] using xml_ind'. intros HL level. inversion HL as [? ? ? ? ? H1 H2]; subst.
  destruct cs as [|c0 cs0].
  - cbn [indent]. cbn [norm map]. constructor; [auto|constructor].
  - set (cs := c0 :: cs0) in *. assert (E : indent level (XE tag attrs text tail cs) = XE tag attrs (set_if_blank (nl level ++ [32; 32]) text) (set_if_blank (nl level) tail)
      (on_last (fun c => set_tail (set_if_blank (nl level) (x_tail c)) c) (map (indent (S level)) cs))) by reflexivity.
    rewrite E. cbn [norm]. constructor; [intros HP; apply H1 in HP; discriminate|]. clear E H1 HL.
    assert (HF : Forall2 (like P) cs (map norm (map (indent (S level)) cs))).
    { rewrite map_map. clear - IH H2. induction IH as [|x l Hx _ IHl]; cbn [map]; [constructor|]. inversion H2; subst. constructor; auto. }
    revert HF. generalize (map (indent (S level)) cs) as l. intros l. generalize cs. clear.
    induction l as [|x l IH]; intros cs HF; [exact HF|]. cbn [on_last]. destruct l as [|y l].
    + cbn [map] in *. inversion HF as [|c ? cr ? HC HR]; subst. inversion HR; subst. constructor; [|constructor]. rewrite norm_set_tail. now apply like_set_tail.
    + cbn [map] in *. inversion HF as [|c ? cr ? HC HR]; subst. constructor; [exact HC|]. now apply IH.
Qed.
Lemma like_tag P x y : like P x y -> x_tag y = x_tag x.
Proof. now intros []. Qed.
Lemma like_get P x y k : like P x y -> x_get k y = x_get k x.
Proof. now intros []. Qed.
Lemma like_children P x y : like P x y -> Forall2 (like P) (x_children x) (x_children y).
Proof. now intros []. Qed.
Lemma like_text P x y : like P x y -> x_tag x = P -> x_text y = norm_text (x_text x).
Proof. intros []; cbn; auto. Qed.
Lemma like_findall P x y t : like P x y -> Forall2 (like P) (findall t x) (findall t y).
Proof.
  intros H. apply like_children in H. unfold findall. induction H as [|a b l l' H _ IH]; cbn [filter]; [constructor|].
  rewrite (like_tag _ _ _ H). destruct (eqb_list (x_tag a) t); [constructor; assumption|exact IH].
Qed.

(** ** PICS documents *)
Lemma point_like E p x y : like PICS_POINT x y -> x_tag x = PICS_POINT -> point_from_pics E p y = point_from_pics E p x.
Proof.
  intros H HT. unfold point_from_pics. rewrite (like_get _ _ _ _ H), (like_text _ _ _ H HT). destruct (x_text x) as [[|c s]|]; reflexivity.
Qed.
Lemma upd_point_ext f g id l : (forall p, f p = g p) -> upd_point f id l = upd_point g id l.
Proof. intros H. induction l as [|p l IH]; cbn [upd_point]; [reflexivity|]. now rewrite H, IH. Qed.
Lemma block_elem_like E b x y : like PICS_POINT x y -> block_elem E b y = block_elem E b x.
Proof.
  intros H. unfold block_elem. rewrite (like_tag _ _ _ H), (like_get _ _ _ _ H). destruct (eqb_list (x_tag x) PICS_POINT) eqn:ET; [|reflexivity].
  apply eqb_list_eq in ET. cbn [negb]. destruct (x_get PICS_ID x) as [id|]; [|reflexivity].
  rewrite !(upd_point_ext (fun p => point_from_pics E p y) (fun p => point_from_pics E p x)) by (intros; now apply point_like). reflexivity.
Qed.
Lemma block_elems_like E l l' : Forall2 (like PICS_POINT) l l' -> forall b, block_elems E b l' = block_elems E b l.
Proof.
  induction 1 as [|x y l l' H _ IH]; intros b; [reflexivity|]. cbn [block_elems]. rewrite (block_elem_like E b x y H).
  destruct (block_elem E b x); [apply IH|reflexivity].
Qed.
Lemma block_like E fx b x y : like PICS_POINT x y -> block_from_pics E fx b y = block_from_pics E fx b x.
Proof. intros H. unfold block_from_pics. now rewrite (block_elems_like E _ _ (like_children _ _ _ H)). Qed.
Lemma upd_block_like E l i x y : like PICS_POINT x y -> upd_block E l i y = upd_block E l i x.
Proof. intros H. unfold upd_block. destruct (nth_error l i) as [b|]; [|reflexivity]. now rewrite (block_like E _ b x y H). Qed.
Lemma upd_all_like E n x y : like PICS_POINT x y -> forall l i, upd_all E l i n y = upd_all E l i n x.
Proof.
  intros H. induction n as [|n IH]; intros l i; [reflexivity|]. cbn [upd_all]. rewrite (upd_block_like E l i x y H).
  destruct (upd_block E l i x) as [l' [?|?]]; [apply IH|reflexivity].
Qed.
Lemma model_elem_like E l x y : like PICS_POINT x y -> model_elem E l y = model_elem E l x.
Proof.
  intros H. unfold model_elem. rewrite (like_tag _ _ _ H), !(like_get _ _ _ _ H). destruct (negb _); [reflexivity|].
  destruct (pics_block_type _) as [[|]|]; [|destruct (x_get PICS_INDEX x) as [s|]|reflexivity].
  - destruct l; [reflexivity|]. now apply upd_block_like.
  - destruct (int_of_str s) as [i|]; [|reflexivity]. destruct (zlen l <? i); [reflexivity|]. destruct (py_pos i (zlen l)); [|reflexivity]. now apply upd_block_like.
  - now apply upd_all_like.
Qed.
Lemma model_elems_like E l l' : Forall2 (like PICS_POINT) l l' -> forall bs, model_elems E bs l' = model_elems E bs l.
Proof.
  induction 1 as [|x y l l' H _ IH]; intros bs; [reflexivity|]. cbn [model_elems]. rewrite (model_elem_like E bs x y H).
  destruct (model_elem E bs x) as [b' [?|?]]; [apply IH|reflexivity].
Qed.
Lemma model_like E m x y : like PICS_POINT x y -> model_from_pics E m y = model_from_pics E m x.
Proof. intros H. unfold model_from_pics. now rewrite (like_get _ _ _ _ H), (model_elems_like E _ _ (like_children _ _ _ H)). Qed.
Lemma device_elem_like E fuel types l addr x y : like PICS_POINT x y -> device_elem E fuel types l addr y = device_elem E fuel types l addr x.
Proof.
  intros H. unfold device_elem. rewrite (like_tag _ _ _ H), !(like_get _ _ _ _ H). destruct (negb _); [reflexivity|].
  destruct (x_get PICS_ID x); [|reflexivity]. destruct (x_get PICS_LEN x); [|reflexivity]. destruct (int_of_str _); [|reflexivity]. destruct (int_of_str _); [|reflexivity].
  destruct (model_load _ _ _) as [m0 [?|ex]]; [now rewrite (model_like E _ x y H)|]. destruct ex; try reflexivity; now rewrite (model_like E _ x y H).
Qed.
Lemma device_elems_like E fuel types l l' : Forall2 (like PICS_POINT) l l' -> forall ms addr, device_elems E fuel types ms addr l' = device_elems E fuel types ms addr l.
Proof.
  induction 1 as [|x y l l' H _ IH]; intros ms addr; [reflexivity|]. cbn [device_elems]. rewrite (device_elem_like E fuel types ms addr x y H).
  destruct (device_elem E fuel types ms addr x) as [b' [?|?]]; [apply IH|reflexivity].
Qed.
Lemma device_like E fuel types d x y : like PICS_POINT x y -> device_from_pics E fuel types d y = device_from_pics E fuel types d x.
Proof. intros H. unfold device_from_pics. now rewrite (like_tag _ _ _ H), (like_get _ _ _ _ H), (device_elems_like E fuel types _ _ (like_children _ _ _ H)). Qed.
Lemma doc_like E fuel types d x y : like PICS_POINT x y -> device_from_doc E fuel types d y = device_from_doc E fuel types d x.
Proof.
  intros H. unfold device_from_doc. rewrite (like_tag _ _ _ H). destruct (negb _); [reflexivity|]. unfold xfind.
  pose proof (like_findall _ _ _ PICS_DEVICE H) as HF. destruct HF as [|a b l l' HAB _]; [reflexivity|]. cbn [hd_error]. now apply device_like.
Qed.

(** ** maps *)
Lemma load_regs_like E l l' : Forall2 (like T_REGS) l l' -> Forall (fun x => x_tag x = T_REGS) l -> forall gs o, load_regs E gs o l' = load_regs E gs o l.
Proof.
  induction 1 as [|x y l l' H _ IH]; intros HT gs o; [reflexivity|]. inversion HT; subst. cbn [load_regs].
  assert (E1 : load_regs1 E gs o y = load_regs1 E gs o x).
  { unfold load_regs1, dget_default. rewrite !(like_get _ _ _ _ H), (like_text _ _ _ H) by assumption. destruct (x_text x) as [[|c s]|]; reflexivity. }
  rewrite E1. destruct (load_regs1 E gs o x) as [[? ?]|]; [now apply IH|reflexivity].
Qed.
Lemma map_like E m x y : like T_REGS x y -> map_from_xml E m y = map_from_xml E m x.
Proof.
  intros H. unfold map_from_xml, dget_default. rewrite !(like_get _ _ _ _ H). rewrite (load_regs_like E _ _ (like_findall _ _ _ T_REGS H)); [reflexivity|].
  unfold findall. rewrite Forall_forall. intros c Hc. apply filter_In in Hc as [_ Hc]. now apply eqb_list_eq in Hc.
Qed.

(** ** documents through text *)
Lemma clean_blank t n : clean_opt t -> clean_opt (set_if_blank (nl n) t) /\ clean_opt (set_if_blank (nl n ++ [32; 32]) t).
Proof.
  intros H. assert (HN : clean (nl n)).
  { unfold nl, clean. constructor; [unfold xml_char; lia|]. apply Forall_forall. intros c Hc. apply repeat_spec in Hc. subst. unfold xml_char; lia. }
  assert (HN2 : clean (nl n ++ [32; 32])) by (apply Forall_app; split; [exact HN|repeat constructor; unfold xml_char; lia]).
  unfold set_if_blank. destruct (blank t); split; try assumption; intros s [= <-]; assumption.
Qed.
Lemma writable_set_tail x t : writable x -> clean_opt t -> writable (set_tail t x).
Proof. intros [] HT. cbn [set_tail]. now constructor. Qed.
Lemma writable_tail x : writable x -> clean_opt (x_tail x).
Proof. now intros []. Qed.
Lemma indent_writable x : writable x -> forall level, writable (indent level x).
Proof.
  induction x as [tag attrs text tail cs IH] using xml_ind'. intros HW level. inversion HW as [? ? ? ? ? HN HA HD HT HTT HC]; subst.
  destruct cs as [|c0 cs0].
  - cbn [indent]. constructor; auto. destruct level; [assumption|]. now apply clean_blank.
  - set (cs := c0 :: cs0) in *. assert (E : indent level (XE tag attrs text tail cs) = XE tag attrs (set_if_blank (nl level ++ [32; 32]) text) (set_if_blank (nl level) tail)
      (on_last (fun c => set_tail (set_if_blank (nl level) (x_tail c)) c) (map (indent (S level)) cs))) by reflexivity.
    rewrite E. constructor; auto; try now apply clean_blank.
    assert (HF : Forall writable (map (indent (S level)) cs)).
    { clear - IH HC. induction IH as [|x l Hx _ IHl]; cbn [map]; [constructor|]. inversion HC; subst. constructor; auto. }
    revert HF. generalize (map (indent (S level)) cs) as l. clear. intros l HF. induction HF as [|x l Hx HF IH]; [constructor|]. cbn [on_last]. destruct l as [|y l].
    + constructor; [|constructor]. apply writable_set_tail; [exact Hx|]. now apply clean_blank, writable_tail.
    + constructor; assumption.
Qed.
Lemma indent_tail x : white_opt (x_tail x) -> white_opt (x_tail (indent 0 x)).
Proof.
  destruct x as [tag attrs text tail cs]. cbn [x_tail]. intros H. destruct cs; cbn [indent x_tail]; [exact H|]. unfold set_if_blank. destruct (blank tail); [|exact H].
  intros s [= <-]. constructor; [lia|constructor].
Qed.
(** an element of tag [P] never has children: reading what was written is like reading the element *)
Lemma text_like P x : writable x -> white_opt (x_tail x) -> exists y, fromstring (tostring x) = Ok y /\ like P x y.
Proof.
  intros HW HT. exists (with_tail (norm x) None). split; [now apply writable_round|]. apply like_with_tail, like_norm.
Qed.
Lemma pretty_like P x : writable x -> white_opt (x_tail x) -> leaves P x -> exists y, fromstring (tostring (indent 0 x)) = Ok y /\ like P x y.
Proof.
  intros HW HT HL. exists (with_tail (norm (indent 0 x)) None). split.
  - apply writable_round; [now apply indent_writable|now apply indent_tail].
  - now apply like_with_tail, like_indent.
Qed.
