(** * P_SmdxErr: which exceptions loading a model definition raises (C59). *)
From Coq Require Import String.
From Verif Require Import Py P_List M_Suns M_Xml M_Mbmap M_Device M_Smdx S_Smdx P_Smdx.

Lemma int_of_str_raise s e : int_of_str s = Raise e -> e = EValue.
Proof.
  unfold int_of_str, parse_signed. intros H.
  repeat match type of H with context [match ?x with _ => _ end] => destruct x end; congruence.
Qed.
Lemma attr_int_raise a e : attr_int a = Raise e -> (a = None /\ e = EType) \/ (exists s, a = Some s /\ int_of_str s = Raise e /\ e = EValue).
Proof.
  unfold attr_int. destruct a as [s|]; intros H.
  - right. exists s. pose proof (int_of_str_raise _ _ H). auto.
  - left. split; [reflexivity|]. congruence.
Qed.
Lemma foldM_raise {A B} (f : A -> B -> res A) l a e : foldM f l a = Raise e -> exists x a', In x l /\ f a' x = Raise e.
Proof.
  revert a. induction l as [|x l IH]; intros a H; cbn [foldM] in H; [discriminate|].
  apply bind_raise in H as [H|(a' & _ & H)].
  - exists x, a. split; [left; reflexivity|exact H].
  - destruct (IH _ H) as (y & b & H1 & H2). exists y, b. split; [right; exact H1|exact H2].
Qed.

(** the error kinds of a point header *)
Lemma point_header_raise x e : point_header x = Raise e ->
  e = ESunSpec \/ attr_int (x_get A_OFFSET x) = Raise e \/ exists l, x_get A_LEN x = Some l /\ int_of_str l = Raise e.
Proof.
  unfold point_header. intros H. apply bind_raise in H as [H|(o & _ & H)]; [auto|].
  destruct (x_get A_ID x); [|left; congruence]. destruct (x_get A_TYPE x) as [ty|]; [|left; congruence].
  destruct (x_get A_LEN x) as [l|] eqn:EL.
  - rewrite andb_false_r in H. destruct (ptype_of_name ty); [|left; congruence].
    destruct (in_table mandatory_types _); [|left; congruence]. destruct (in_table access_types _); [|left; congruence].
    apply bind_raise in H as [H|(n & _ & H)]; [|discriminate]. right. right. eauto.
  - rewrite andb_true_r in H. destruct (eqb_list ty (lit "string")) eqn:ES; [left; congruence|].
    destruct (ptype_of_name ty) as [t|] eqn:ET; [|left; congruence].
    destruct (in_table mandatory_types _); [|left; congruence]. destruct (in_table access_types _); [|left; congruence].
    apply ptype_of_name_spec in ET. apply eqb_list_neq in ES.
    destruct t; cbn [type_len bind] in H; try discriminate. exfalso. apply ES. rewrite ET. reflexivity.
Qed.
Lemma symbol_from_raise s x e strings : symbol_from_smdx strings s x = Raise e -> e = ESunSpec.
Proof. unfold symbol_from_smdx. destruct strings; [discriminate|]. destruct (x_get A_ID x); congruence. Qed.
Lemma point_child_raise strings st x e : point_child strings st x = Raise e -> e = ESunSpec.
Proof.
  destruct st as [p log]. unfold point_child. destruct (eqb_list (x_tag x) SMDX_SYMBOL); [|discriminate]. intros H.
  apply bind_raise in H as [H|([n l1] & _ & H)].
  - destruct (symbol_get _ _); [discriminate|]. apply bind_raise in H as [H|(s & _ & H)]; [|discriminate]. now apply symbol_from_raise in H.
  - apply bind_raise in H as [H|(s & _ & H)]; [|discriminate]. now apply symbol_from_raise in H.
Qed.
Definition point_number_error (x : xml) (e : exn) : Prop :=
  attr_int (x_get A_OFFSET x) = Raise e \/ exists l, x_get A_LEN x = Some l /\ int_of_str l = Raise e.
Lemma block_raise log x e : block_from_smdx log x = Raise e ->
  e = ESunSpec \/ exists p, In p (findall SMDX_POINT x) /\ point_number_error p e.
Proof.
  unfold block_from_smdx. destruct (btype_of_name _); [|intros; left; congruence]. destruct (x_get A_LEN x); [|intros; left; congruence].
  intros H. apply bind_raise in H as [H|([pts l1] & _ & H)]; [|discriminate].
  apply foldM_raise in H as (p & [pts l1] & HI & H). unfold block_point in H.
  apply bind_raise in H as [H|([q l2] & _ & H)].
  - unfold point_from_smdx in H. apply bind_raise in H as [H|(p0 & _ & H)].
    + apply point_header_raise in H as [H|H]; [auto|]. right. exists p. auto.
    + apply foldM_raise in H as (c & st & _ & H). left. now apply point_child_raise in H.
  - destruct (find_pt _ _); [left; congruence|discriminate].
Qed.
Lemma strings_total id ss st : exists st', foldM (strings_section id) ss st = Ok st'.
Proof. destruct (strings_sections_ok id ss st) as (st' & H & _). eauto. Qed.
Lemma model_from_smdx_raise oid root e : model_from_smdx oid root = Raise e ->
  exists m r, findall SMDX_MODEL root = m :: r /\
   (e = ESunSpec \/ attr_int (x_get A_ID m) = Raise e \/ (exists l, x_get A_LEN m = Some l /\ int_of_str l = Raise e) \/
    exists b p, In b (findall SMDX_BLOCK m) /\ In p (findall SMDX_POINT b) /\ point_number_error p e).
Proof.
  unfold model_from_smdx. intros H. apply bind_raise in H as [H|([[[id len] name] ms] & _ & H)].
  2:{ destruct (strings_total id (findall SMDX_STRINGS root) (mkTexts None None None, ms)) as ([t [[f r] l]] & HS). rewrite HS in H. discriminate. }
  destruct (findall SMDX_MODEL root) as [|m r]; [discriminate|]. exists m, r. split; [reflexivity|].
  apply bind_raise in H as [H|(id & _ & H)]; [auto|]. destruct (x_get A_LEN m) as [l|]; [|left; congruence].
  apply bind_raise in H as [H|(n & _ & H)]; [right; right; left; eauto|].
  apply bind_raise in H as [H|(ms & _ & H)]; [|discriminate].
  apply foldM_raise in H as (b & [[f0 r0] l0] & HI & H). unfold model_block in H.
  apply bind_raise in H as [H|([bt l1] & _ & H)].
  - apply block_raise in H as [H|(p & HP & H)]; [auto|]. right. right. right. exists b, p. auto.
  - destruct (bt_type bt); [destruct f0|destruct r0]; try discriminate; left; congruence.
Qed.
