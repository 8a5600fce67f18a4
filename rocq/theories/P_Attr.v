(** * P_Attr: proofs about the attributes of the wrapper objects. *)
From Coq Require Import String.
From Verif Require Import Py P_List M_Util M_Float M_Suns M_Point M_Mbmap M_Device M_Wrapper M_Attr S_Attr.

Lemma mem_str_In n l : mem_str n l = true <-> In n l.
Proof. unfold mem_str. rewrite existsb_exists. split; [intros (x & H & E); apply eqb_list_eq in E as ->; auto|intros H; exists n; rewrite eqb_list_refl; auto]. Qed.
Lemma mem_str_false n l : mem_str n l = false <-> ~ In n l.
Proof. rewrite <- mem_str_In. destruct (mem_str n l); split; congruence. Qed.

Lemma class_props_ok ids : forall props, ~ In (lit "points"%string) (props ++ ids) -> class_props props ids = Ok (props ++ ids).
Proof.
  induction ids as [|i r IH]; intros props H; [now rewrite app_nil_r|]. cbn [class_props].
  rewrite (proj2 (mem_str_false _ _)).
  - rewrite IH; rewrite <- app_assoc; [reflexivity|exact H].
  - intros HI. apply H. apply in_app_or in HI as [HI|[<-|[]]]; apply in_or_app; cbn; auto.
Qed.
Lemma class_props_clash ids : forall props, In (lit "points"%string) ids -> class_props props ids = Raise EAttr.
Proof.
  induction ids as [|i r IH]; intros props H; [destruct H|]. cbn [class_props]. destruct H as [->|H].
  - rewrite (proj2 (mem_str_In _ _)); [reflexivity|apply in_or_app; cbn; auto].
  - destruct (mem_str _ _); [reflexivity|now apply IH].
Qed.

Lemma dget_dset_same {A} k (v : A) d : dget k (dset k v d) = Some v.
Proof. induction d as [|[k' v'] d IH]; cbn; [now rewrite eqb_list_refl|]. destruct (eqb_list k k') eqn:H; cbn; rewrite H; auto. Qed.
Lemma dget_dset_other {A} k k' (v : A) d : k <> k' -> dget k (dset k' v d) = dget k d.
Proof.
  intros H. induction d as [|[j w] d IH]; cbn; [now rewrite (proj2 (eqb_list_neq k k') H)|].
  destruct (eqb_list k' j) eqn:E; cbn; [|now rewrite IH].
  apply eqb_list_eq in E as <-. now rewrite (proj2 (eqb_list_neq k k') H).
Qed.

Lemma skipn_S {A} k (l : list A) x r : skipn k l = x :: r -> skipn (S k) l = r.
Proof. revert l. induction k as [|k IH]; intros [|y l] H; try discriminate; [now injection H|]. cbn [skipn] in *. rewrite <- (IH _ H). destruct l; reflexivity. Qed.

Section P.
  Variables (E : pyenv) (lt : nat -> str).

  Lemma m_setattr_plain o k a : ~ In k (mo_props o) ->
    m_setattr E lt o k a = Ok (mkMO (mo_props o) (dset k a (mo_dict o)) (mo_model o) (mo_list o)).
  Proof. intros H. unfold m_setattr. now rewrite (proj2 (mem_str_false _ _) H). Qed.
  Lemma m_getattr_dict o k a : ~ In k (mo_props o) -> dget k (mo_dict o) = Some a -> m_getattr E o k = Ok a.
  Proof. intros H D. unfold m_getattr. now rewrite (proj2 (mem_str_false _ _) H), D. Qed.
  Lemma m_getattr_prop o k : In k (mo_props o) -> ~ In (lit "_get_property"%string) (mo_props o) ->
    ~ In (lit "model"%string) (mo_props o) -> dget (lit "model"%string) (mo_dict o) = Some AObject ->
    m_getattr E o k = let! v := get_in E (model_points (mo_model o)) k in Ok (AVal v).
  Proof.
    intros H G M D. unfold m_getattr. rewrite (proj2 (mem_str_In _ _) H), (proj2 (mem_str_false _ _) G), (proj2 (mem_str_false _ _) M), D.
    reflexivity.
  Qed.
  Lemma m_getattr_method o k : ~ In k (mo_props o) -> dget k (mo_dict o) = None -> In k model_methods -> m_getattr E o k = Ok (AMethod k).
  Proof. intros H D M. unfold m_getattr. now rewrite (proj2 (mem_str_false _ _) H), D, (proj2 (mem_str_In _ _) M). Qed.

  Lemma assign_val n l id v : assign_in E lt n l id (AVal v) = set_in E l id v.
  Proof. induction l as [|p r IH]; [reflexivity|]. cbn [assign_in set_in point_assign]. now rewrite IH. Qed.
  Lemma m_assign_val n m id v : m_assign E lt n m id (AVal v) = wmodel_set E m id v.
  Proof. unfold m_assign, wmodel_set. destruct (md_exposed m); [|reflexivity]. destruct (md_blocks m); [reflexivity|]. now rewrite assign_val. Qed.

  (** the wrapper of a block whose points clash with nothing *)
  Definition plain_bobj (props : list str) (b : block) (a : aval) : bobj :=
    mkBO props [(lit "block"%string, AObject); (lit "name"%string, a)] b.
  Lemma b_init_plain n props b a : (forall i, In i props -> ~ In i block_names) -> b_init E lt n props b a = Ok (plain_bobj props b a).
  Proof.
    intros H. unfold b_init, b_setattr. cbn [bo_props].
    rewrite (proj2 (mem_str_false _ _)) by (intros HI; apply (H _ HI); cbn; auto). cbn [bind bo_props bo_dict bo_block].
    rewrite (proj2 (mem_str_false _ _)) by (intros HI; apply (H _ HI); cbn; auto). reflexivity.
  Qed.
  Lemma b_getattr_plain props b a i : (forall i, In i props -> ~ In i block_names) -> In i props ->
    b_getattr E (plain_bobj props b a) i = let! v := get_in E (b_points b) i in Ok (AVal v).
  Proof.
    intros H HI. unfold b_getattr, plain_bobj. cbn [bo_props bo_dict bo_block]. rewrite (proj2 (mem_str_In _ _) HI).
    rewrite (proj2 (mem_str_false _ _)) by (intros X; apply (H _ X); cbn; auto).
    rewrite (proj2 (mem_str_false _ _)) by (intros X; apply (H _ X); cbn; auto). reflexivity.
  Qed.

  Lemma put_block_same m k b r : skipn k (md_blocks m) = b :: r -> put_block m k b = m.
  Proof.
    intros H. unfold put_block. rewrite (skipn_S _ _ _ _ H), <- H, firstn_skipn. now destruct m.
  Qed.

  Definition named_rep (o : mobj) (n : str) : Prop :=
    dget (lit "repeating"%string) (mo_dict o) = Some AList /\ dget (lit "repeating_name"%string) (mo_dict o) = Some (AVal (VStr n)).
  Lemma m_block_named props o k b n : ~ In (lit "repeating"%string) (mo_props o) -> ~ In (lit "repeating_name"%string) (mo_props o) ->
    (forall i, In i props -> ~ In i block_names) -> named_rep o n -> bt_name (b_type b) = Some n -> nth_error (md_blocks (mo_model o)) k = Some b ->
    m_block E lt (Some props) o k b = Ok (mkMO (mo_props o) (mo_dict o) (mo_model o) (mo_list o ++ [Some (plain_bobj props b (AVal (VStr n)))])).
  Proof.
    intros H1 H2 HB [D1 D2] HN HK. unfold m_block. rewrite (m_getattr_dict _ _ _ H2 D2). cbn [bind same_name]. rewrite HN.
    cbn [same_name]. rewrite eqb_list_refl. cbn [bind]. rewrite (m_getattr_dict _ _ _ H2 D2). cbn [bind].
    rewrite b_init_plain by exact HB. cbn [bind]. rewrite (m_getattr_dict _ _ _ H1 D1). cbn [bind plain_bobj bo_block].
    destruct (nth_error_split _ _ HK) as (l1 & l2 & EB & EL).
    rewrite (put_block_same _ _ _ l2); [reflexivity|]. rewrite EB, <- EL, skipn_app, skipn_all, Nat.sub_diag. reflexivity.
  Qed.
  Lemma m_blocks_named props n l : forall o k, ~ In (lit "repeating"%string) (mo_props o) -> ~ In (lit "repeating_name"%string) (mo_props o) ->
    (forall i, In i props -> ~ In i block_names) -> named_rep o n -> Forall (fun b => bt_name (b_type b) = Some n) l -> skipn k (md_blocks (mo_model o)) = l ->
    m_blocks E lt (Some props) o k l =
      Ok (mkMO (mo_props o) (mo_dict o) (mo_model o) (mo_list o ++ map (fun b => Some (plain_bobj props b (AVal (VStr n)))) l)).
  Proof.
    induction l as [|b r IH]; intros o k H1 H2 HB HD HN HK.
    - cbn [m_blocks map]. rewrite app_nil_r. now destruct o.
    - cbn [m_blocks map]. inversion HN as [|? ? HN1 HN2]; subst.
      assert (HK1 : nth_error (md_blocks (mo_model o)) k = Some b).
      { rewrite <- (firstn_skipn k (md_blocks (mo_model o))), HK.
        rewrite nth_error_app2; rewrite firstn_length; [|lia].
        assert (k < length (md_blocks (mo_model o)))%nat.
        { destruct (Nat.lt_ge_cases k (length (md_blocks (mo_model o)))); [auto|]. rewrite skipn_all2 in HK by lia. discriminate. }
        rewrite Nat.min_l by lia. rewrite Nat.sub_diag. reflexivity. }
      rewrite (m_block_named _ _ _ _ n) by auto. cbn [bind].
      rewrite IH; cbn [mo_props mo_dict mo_model mo_list]; auto.
      + now rewrite <- app_assoc.
      + exact (skipn_S _ _ _ _ HK).
  Qed.

  Definition dict_ok (name : str) (d : list (str * aval)) : Prop :=
    dget (lit "model"%string) d = Some AObject /\ dget (lit "name"%string) d = Some (AVal (VStr name)) /\
    dget (lit "repeating"%string) d = Some AList /\ Forall (fun k => dget k d = None) model_methods.
  Definition start_dict (name : str) : list (str * aval) :=
    [(lit "model"%string, AObject); (lit "name"%string, AVal (VStr name)); (lit "repeating"%string, AList);
     (lit "repeating_name"%string, AVal (VStr (lit "repeating"%string)))].
  Lemma start_ok name : dict_ok name (start_dict name).
  Proof. unfold dict_ok, start_dict, model_methods. repeat split. repeat constructor. Qed.

  Lemma m_init_start props cls m name : (forall i, In i props -> ~ In i model_names) ->
    m_init E lt props cls m name = m_blocks E lt cls (mkMO props (start_dict name) m [None]) 1 (tl (md_blocks m)).
  Proof.
    intros H. unfold m_init.
    assert (HN : forall k, In k model_names -> ~ In k props) by (intros k HK HI; exact (H _ HI HK)).
    rewrite m_setattr_plain by (apply HN; cbn; auto). cbn [bind mo_props mo_dict mo_model mo_list].
    rewrite m_setattr_plain by (apply HN; cbn; auto). cbn [bind mo_props mo_dict mo_model mo_list].
    rewrite m_setattr_plain by (apply HN; cbn; auto). cbn [bind mo_props mo_dict mo_model mo_list].
    rewrite m_setattr_plain by (apply HN; cbn; auto). cbn [bind mo_props mo_dict mo_model mo_list]. reflexivity.
  Qed.

  (** the first block gives the list its other name *)
  Lemma m_block_alias cls o k b n old : ~ In (lit "repeating"%string) (mo_props o) -> ~ In (lit "repeating_name"%string) (mo_props o) ->
    ~ In n (mo_props o) -> ~ In n model_names -> named_rep o old -> n <> old -> bt_name (b_type b) = Some n ->
    let o' := mkMO (mo_props o) (dset n AList (dset (lit "repeating_name"%string) (AVal (VStr n)) (mo_dict o))) (mo_model o) (mo_list o) in
    named_rep o' n /\ m_block E lt cls o k b = m_block E lt cls o' k b.
  Proof.
    intros H1 H2 H3 H4 [D1 D2] HD HN o'.
    assert (NR : named_rep o' n).
    { unfold named_rep, o'. cbn [mo_dict]. split.
      - rewrite !dget_dset_other; [exact D1|apply eqb_list_neq; reflexivity|intros <-; apply H4; cbn; auto].
      - rewrite dget_dset_other by (intros <-; apply H4; cbn; auto). apply dget_dset_same. }
    split; [exact NR|]. destruct NR as [D1' D2']. unfold m_block. rewrite (m_getattr_dict _ _ _ H2 D2).
    rewrite (m_getattr_dict o' _ _ H2 D2'). cbn [bind]. rewrite HN. cbn [same_name].
    rewrite (proj2 (eqb_list_neq n old) HD), eqb_list_refl.
    set (S1 := m_setattr E lt o (lit "repeating_name"%string) (name_val (Some n))).
    replace S1 with (Ok (mkMO (mo_props o) (dset (lit "repeating_name"%string) (AVal (VStr n)) (mo_dict o)) (mo_model o) (mo_list o)))
      by (unfold S1; now rewrite m_setattr_plain). cbn [bind].
    rewrite (m_getattr_dict (mkMO (mo_props o) (dset (lit "repeating_name"%string) (AVal (VStr n)) (mo_dict o)) (mo_model o) (mo_list o)) _ (AVal (VStr n)) H2)
      by apply dget_dset_same. cbn [bind].
    rewrite (m_getattr_dict (mkMO (mo_props o) (dset (lit "repeating_name"%string) (AVal (VStr n)) (mo_dict o)) (mo_model o) (mo_list o)) _ AList H1)
      by (cbn [mo_dict]; rewrite dget_dset_other; [exact D1|apply eqb_list_neq; reflexivity]). cbn [bind].
    rewrite m_setattr_plain by exact H3. cbn [bind mo_props mo_dict mo_model mo_list]. reflexivity.
  Qed.

  Lemma dict_ok_dset name d k a : ~ In k model_names -> dict_ok name d -> dict_ok name (dset k a d).
  Proof.
    intros H (A & B & C & D). unfold dict_ok.
    rewrite !dget_dset_other by (intros <-; apply H; cbn; auto 10). repeat split; auto.
    apply Forall_forall. intros x Hx. rewrite Forall_forall in D. rewrite dget_dset_other; [auto|]. intros ->. apply H.
    cbn in Hx. destruct Hx as [<-|[<-|[<-|[<-|[]]]]]; cbn; auto 12.
  Qed.
  Lemma dict_ok_rname name d a : dict_ok name d -> dict_ok name (dset (lit "repeating_name"%string) a d).
  Proof.
    intros (A & B & C & D). unfold dict_ok. rewrite !dget_dset_other by (apply eqb_list_neq; reflexivity). repeat split; auto.
    apply Forall_forall. intros x Hx. rewrite Forall_forall in D. rewrite dget_dset_other; [auto|].
    cbn in Hx. destruct Hx as [<-|[<-|[<-|[<-|[]]]]]; apply eqb_list_neq; reflexivity.
  Qed.

  Definition set_names : list str := map lit ["model"; "name"; "repeating"; "repeating_name"]%string.
  Lemma start_none name k : ~ In k set_names -> dget k (start_dict name) = None.
  Proof.
    intros H. unfold start_dict. cbn [dget].
    repeat match goal with |- context [eqb_list ?a ?b] => let E := fresh in destruct (eqb_list a b) eqn:E;
      [apply eqb_list_eq in E; exfalso; apply H; try (rewrite <- E); try (rewrite E); unfold set_names; cbn [map In]; auto 10|] end. reflexivity.
  Qed.
  Lemma init_shape props rprops m name n : (forall i, In i props -> ~ In i model_names) -> (forall i, In i rprops -> ~ In i block_names) ->
    Forall (fun b => bt_name (b_type b) = Some n) (tl (md_blocks m)) -> n = lit "repeating"%string \/ (~ In n model_names /\ ~ In n props) ->
    exists d, m_init E lt props (Some rprops) m name =
                Ok (mkMO props d m (None :: map (fun b => Some (plain_bobj rprops b (AVal (VStr n)))) (tl (md_blocks m)))) /\
              dict_ok name d /\ (tl (md_blocks m) <> [] -> dget n d = Some AList) /\
              forall k, (tl (md_blocks m) = [] \/ k <> n) -> ~ In k set_names -> dget k d = None.
  Proof.
    intros HP HR HB HN. rewrite m_init_start by exact HP.
    assert (HM : forall k, In k model_names -> ~ In k props) by (intros k HK HI; exact (HP _ HI HK)).
    assert (N1 : ~ In (lit "repeating"%string) props) by (apply HM; cbn; auto).
    assert (N2 : ~ In (lit "repeating_name"%string) props) by (apply HM; cbn; auto).
    assert (SK : skipn 1 (md_blocks m) = tl (md_blocks m)) by (destruct (md_blocks m); reflexivity).
    assert (NR : named_rep (mkMO props (start_dict name) m [None]) (lit "repeating"%string)) by (split; reflexivity).
    destruct HN as [->|[HN1 HN2]].
    - exists (start_dict name). rewrite (m_blocks_named rprops (lit "repeating"%string)); auto.
      split; [reflexivity|]. split; [apply start_ok|]. split; [reflexivity|]. intros k _ HK. now apply start_none.
    - destruct (tl (md_blocks m)) as [|b r] eqn:EB.
      + exists (start_dict name). split; [reflexivity|]. split; [apply start_ok|]. split; [congruence|]. intros k _ HK. now apply start_none.
      + inversion HB as [|? ? HB1 HB2]; subst.
        assert (ND : n <> lit "repeating"%string) by (intros ->; apply HN1; cbn; auto).
        destruct (m_block_alias (Some rprops) (mkMO props (start_dict name) m [None]) 1 b n (lit "repeating"%string) N1 N2 HN2 HN1 NR ND HB1) as [NR' EQ].
        cbn [mo_props mo_dict mo_model mo_list] in NR', EQ.
        set (d := dset n AList (dset (lit "repeating_name"%string) (AVal (VStr n)) (start_dict name))) in *.
        exists d. split.
        * change (m_blocks E lt (Some rprops) (mkMO props (start_dict name) m [None]) 1 (b :: r)) with
            (let! o' := m_block E lt (Some rprops) (mkMO props (start_dict name) m [None]) 1 b in m_blocks E lt (Some rprops) o' 2 r).
          rewrite EQ.
          change (let! o' := m_block E lt (Some rprops) (mkMO props d m [None]) 1 b in m_blocks E lt (Some rprops) o' 2 r) with
            (m_blocks E lt (Some rprops) (mkMO props d m [None]) 1 (b :: r)).
          rewrite (m_blocks_named rprops n); auto.
        * split; [apply dict_ok_dset; [exact HN1|]; apply dict_ok_rname, start_ok|]. split; [intros _; apply dget_dset_same|].
          intros k [X|Hk] HK; [discriminate|]. unfold d. rewrite !dget_dset_other; [now apply start_none| |congruence].
          intros X; rewrite X in *. apply HK. unfold set_names. cbn [map In]. auto 10.
  Qed.
End P.
