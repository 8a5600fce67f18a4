(** * P_XmlWrite: what the library writes is writable *)
From Coq Require Import String.
From Verif Require Import Py P_List M_Util M_Suns M_Float M_Point M_Xml M_Device M_Path M_Mbmap M_Pics M_Data M_XmlText M_DataText S_Codec S_XmlText P_XmlText P_Path P_XmlDoc P_IntText P_Codec.
Open Scope Z_scope.

Definition plain_nameb (n : str) : bool := match n with c :: r => is_alpha c && forallb is_name_char r | [] => false end.
Lemma name_char_conv c : is_name_char c = true -> name_char c.
Proof. unfold is_name_char, is_alpha, name_char, letter. rewrite !Bool.orb_true_iff, !Bool.andb_true_iff, !Z.leb_le, !Z.eqb_eq. tauto. Qed.
Lemma letter_conv c : is_alpha c = true -> letter c.
Proof. unfold is_alpha, letter. rewrite !Bool.orb_true_iff, !Bool.andb_true_iff, !Z.leb_le, !Z.eqb_eq. tauto. Qed.
Lemma plain_b n : plain_nameb n = true -> plain_name n.
Proof.
  destruct n as [|c r]; [discriminate|]. cbn [plain_nameb]. rewrite Bool.andb_true_iff, forallb_forall. intros [H1 H2]. exists c, r.
  split; [reflexivity|]. split; [now apply letter_conv|]. apply Forall_forall. intros x Hx. now apply name_char_conv, H2.
Qed.
Lemma chars_b s : forallb is_xml_char s = true -> Forall xml_char s.
Proof.
  rewrite forallb_forall. intros H. apply Forall_forall. intros c Hc. apply H in Hc. unfold is_xml_char, xml_char in *.
  rewrite !Bool.orb_true_iff, !Bool.andb_true_iff, !Z.leb_le, !Z.eqb_eq in Hc. tauto.
Qed.
Fixpoint nodupb (l : list str) : bool := match l with [] => true | x :: r => negb (existsb (eqb_list x) r) && nodupb r end.
Lemma nodup_b l : nodupb l = true -> NoDup l.
Proof.
  induction l as [|x r IH]; [constructor|]. cbn [nodupb]. rewrite Bool.andb_true_iff, Bool.negb_true_iff. intros [H1 H2]. constructor; [|now apply IH].
  intros HI. assert (existsb (eqb_list x) r = true) by (apply existsb_exists; exists x; split; [exact HI|apply eqb_list_refl]). congruence.
Qed.
Lemma int_clean z : clean (str_of_int z).
Proof.
  destruct (str_of_int_canonical z) as (ds & E & _ & _ & HF & _). rewrite E. unfold clean. apply Forall_app. split.
  - destruct (z <? 0); repeat constructor; unfold xml_char; lia.
  - eapply Forall_impl; [|exact HF]. cbv beta. unfold xml_char. lia.
Qed.
Lemma clean_chars s : clean s -> Forall xml_char s.
Proof. intros H. eapply Forall_impl; [|exact H]. now intros c []. Qed.
Lemma int_chars z : Forall xml_char (str_of_int z).
Proof. apply clean_chars, int_clean. Qed.
Lemma clean_strip s : padded_clean s -> clean (rstrip0 s).
Proof.
  intros (t & n & -> & H). rewrite rstrip0_app_zeros. destruct (rstrip0_decomp t) as [k E]. unfold clean in *. rewrite E in H. now apply Forall_app in H.
Qed.
Lemma clean_strip' s : clean s -> clean (rstrip0 s).
Proof. intros H. apply clean_strip. exists s, 0%nat. cbn [repeat]. now rewrite app_nil_r. Qed.
Lemma clean_none : clean_opt None.
Proof. intros s [=]. Qed.
#[local] Hint Resolve clean_none int_chars : core.

(** ** PICS *)
Definition fine_elem (P : str) (x : xml) : Prop := writable x /\ leaves P x.
Definition clean_pt (p : point) : Prop := Forall xml_char (pt_id (p_type p)) /\ (forall s, p_base p = VStr s -> padded_clean s).
Lemma point_fine E p e : clean_floats E -> clean_pt p -> point_to_pics E p = Ok e -> fine_elem PICS_POINT e.
Proof.
  intros HE [H1 H2] H. unfold point_to_pics in H. apply bind_ok in H as (v & HV & H). apply Ok_inj in H. subst e. split.
  - constructor; [apply plain_b; reflexivity| | | |exact clean_none|constructor].
    + constructor; [split; [apply plain_b; reflexivity|exact H1]|]. destruct v; [constructor; [|constructor]| | |];
        [split; [apply plain_b|apply chars_b]; reflexivity|..];
        (destruct (eqb_list _ _); constructor; [|constructor]; split; [apply plain_b|apply chars_b]; reflexivity).
    + cbn [map fst]. apply nodup_b. destruct v; [reflexivity| | |]; destruct (eqb_list _ _); reflexivity.
    + destruct (p_base p) as [|z|s|f] eqn:EB; [exact clean_none| | |]; intros t [= <-]; cbn [suns_to_str].
      * apply clean_strip', int_clean.
      * apply clean_strip, H2. reflexivity.
      * apply clean_strip', HE.
  - constructor; [auto|constructor].
Qed.
Definition clean_bl (b : block) : Prop := forall p, In p (b_points b) \/ In p (b_sfs b) -> clean_pt p.
Lemma find_point_in id l p : find_point id l = Some p -> In p l.
Proof. unfold find_point. intros H. now apply find_some in H. Qed.
Lemma points_fine E b l : clean_floats E -> clean_bl b -> forall es, points_to_pics E b l = Ok es -> Forall (fine_elem PICS_POINT) es.
Proof.
  intros HE HB. induction l as [|t l IH]; intros es H; cbn [points_to_pics] in H; [apply Ok_inj in H; subst; constructor|].
  destruct (block_point b (pt_id t)) as [p|] eqn:EP; [|now apply IH].
  apply bind_ok in H as (e & H1 & H). apply bind_ok in H as (es' & H2 & H). apply Ok_inj in H. subst es. constructor; [|now apply IH].
  apply (point_fine E p); auto. apply HB. unfold block_point in EP. destruct (find_point (pt_id t) (b_points b)) eqn:E1; [left|right].
  - apply find_point_in in E1. congruence.
  - now apply find_point_in in EP.
Qed.
Lemma fine_node P tag attrs cs : plain_nameb tag = true -> eqb_list tag P = false ->
  Forall (fun kv => plain_name (fst kv) /\ Forall xml_char (snd kv)) attrs -> NoDup (map fst attrs) -> Forall (fine_elem P) cs ->
  fine_elem P (XE tag attrs None None cs).
Proof.
  intros HT HP HA HD HC. split.
  - constructor; auto; [now apply plain_b|]. eapply Forall_impl; [|exact HC]. now intros x [].
  - constructor.
    + intros ->. rewrite eqb_list_refl in HP. discriminate.
    + eapply Forall_impl; [|exact HC]. now intros x [].
Qed.
Lemma block_fine E b e : clean_floats E -> clean_bl b -> block_to_pics E b = Ok e -> fine_elem PICS_POINT e.
Proof.
  intros HE HB H. unfold block_to_pics in H. apply bind_ok in H as (es & H1 & H). apply Ok_inj in H. subst e.
  apply fine_node; [reflexivity|reflexivity| | |now apply (points_fine E b (bt_points (b_type b)))].
  - unfold block_attrs. apply Forall_app. split.
    + destruct (1 <? b_index b); [|apply Forall_nil]. apply Forall_cons; [|apply Forall_nil]. split; [apply plain_b; reflexivity|cbn [snd]; auto].
    + destruct (bt_type (b_type b)); [apply Forall_nil|]. apply Forall_cons; [|apply Forall_nil]. split; [apply plain_b; reflexivity|apply chars_b; reflexivity].
  - unfold block_attrs. apply nodup_b. destruct (1 <? b_index b), (bt_type (b_type b)); reflexivity.
Qed.
Lemma blocks_fine E single l : clean_floats E -> Forall clean_bl l -> forall es, blocks_to_pics E single l = Ok es -> Forall (fine_elem PICS_POINT) es.
Proof.
  intros HE HB. induction HB as [|b l H _ IH]; intros es HS; cbn [blocks_to_pics] in HS; [apply Ok_inj in HS; subst; constructor|].
  destruct (_ || _); [|now apply IH]. apply bind_ok in HS as (e & H1 & HS). apply bind_ok in HS as (es' & H2 & HS). apply Ok_inj in HS. subst es.
  constructor; [now apply (block_fine E b)|now apply IH].
Qed.
Lemma model_fine E single m e : clean_floats E -> clean_model m -> model_to_pics E single m = Ok e -> fine_elem PICS_POINT e.
Proof.
  intros HE [HI HP] H. unfold model_to_pics in H. apply bind_ok in H as (es & H1 & H). apply Ok_inj in H. subst e.
  apply fine_node; [reflexivity|reflexivity| | |].
  - unfold model_attrs. constructor; [split; [apply plain_b; reflexivity|cbn [snd]; auto]|]. constructor; [split; [apply plain_b; reflexivity|cbn [snd]; auto]|].
    destruct (M_Device.md_index m) as [z|s] eqn:EI; [destruct (z =? 1); [apply Forall_nil|]|]; (apply Forall_cons; [|apply Forall_nil]);
      (split; [apply plain_b; reflexivity|cbn [snd str_of_base]; auto]).
  - unfold model_attrs. apply nodup_b. destruct (M_Device.md_index m) as [z|s]; [destruct (z =? 1)|]; reflexivity.
  - apply (blocks_fine E single (md_blocks m)); auto. apply Forall_forall. intros b Hb p Hp. now apply (HP b p Hb).
Qed.
Lemma models_fine E single l : clean_floats E -> Forall clean_model l -> forall es, models_to_pics E single l = Ok es -> Forall (fine_elem PICS_POINT) es.
Proof.
  intros HE HB. induction HB as [|b l H _ IH]; intros es HS; cbn [models_to_pics] in HS; [apply Ok_inj in HS; subst; constructor|].
  apply bind_ok in HS as (e & H1 & HS). apply bind_ok in HS as (es' & H2 & HS). apply Ok_inj in HS. subst es.
  constructor; [now apply (model_fine E single b)|now apply IH].
Qed.
Lemma device_fine E single d e : clean_floats E -> Forall clean_model (d_models d) -> device_to_pics E single d = Ok e ->
  fine_elem PICS_POINT e /\ x_tag e = PICS_DEVICE.
Proof.
  intros HE HM H. unfold device_to_pics in H. apply bind_ok in H as (es & H1 & H). apply Ok_inj in H. subst e. split; [|reflexivity].
  apply fine_node; [reflexivity|reflexivity| | |now apply (models_fine E single (d_models d))].
  - constructor; [|constructor]. split; [apply plain_b|apply chars_b]; reflexivity.
  - apply nodup_b. reflexivity.
Qed.
Lemma white_none : white_opt None.
Proof. intros s [=]. Qed.
Lemma pics_text E single d e pretty fuel types d0 : clean_floats E -> Forall clean_model (d_models d) -> device_to_pics E single d = Ok e ->
  exists y, fromstring (tostring (pics_document pretty e)) = Ok y /\ device_from_doc E fuel types d0 y = device_from_pics E fuel types d0 e.
Proof.
  intros HE HM H. destruct (device_fine E single d e HE HM H) as [HF HT].
  assert (HR : fine_elem PICS_POINT (XE PICS_ROOT [] None None [e])) by (apply fine_node; [reflexivity|reflexivity|constructor|constructor|now constructor]).
  destruct HR as [HW HL].
  assert (HD : device_from_doc E fuel types d0 (XE PICS_ROOT [] None None [e]) = device_from_pics E fuel types d0 e).
  { unfold device_from_doc. cbn [x_tag]. rewrite eqb_list_refl. cbn [negb]. unfold xfind, findall. cbn [x_children filter]. rewrite HT, eqb_list_refl. reflexivity. }
  unfold pics_document. destruct pretty.
  - destruct (pretty_like PICS_POINT _ HW white_none HL) as (y & Y1 & Y2). exists y. split; [exact Y1|]. rewrite (doc_like _ _ _ _ _ _ Y2). exact HD.
  - destruct (text_like PICS_POINT _ HW white_none) as (y & Y1 & Y2). exists y. split; [exact Y1|]. rewrite (doc_like _ _ _ _ _ _ Y2). exact HD.
Qed.

(** ** maps *)
Lemma num_chars n : Forall xml_char (str_of_num n).
Proof.
  destruct n as [z|h]; cbn [str_of_num]; [auto|]. apply Forall_app. split; [destruct (h <? 0); repeat constructor; unfold xml_char; lia|].
  apply Forall_app. split.
  - assert (E : dec_nonneg (Z.abs h / 2) = str_of_int (Z.abs h / 2)).
    { unfold str_of_int. destruct (Z.ltb_spec (Z.abs h / 2) 0); [|reflexivity]. pose proof (Z.div_pos (Z.abs h) 2). lia. }
    rewrite E. auto.
  - destruct (Z.even h); apply chars_b; reflexivity.
Qed.
Lemma hex_clean d : Forall (fun b => 0 <= b < 256) d -> clean (concat (map hex2_lo d)).
Proof.
  induction 1 as [|b d H _ IH]; cbn [map concat]; [constructor|]. apply Forall_app. split; [|exact IH].
  assert (HD : forall n, 0 <= n < 16 -> xml_char (hex_digit_lo n) /\ hex_digit_lo n <> 13) by (intros n Hn; unfold hex_digit_lo, xml_char; destruct (Z.ltb_spec n 10); lia).
  unfold hex2_lo. pose proof (Z.div_lt_upper_bound b 16 16). pose proof (Z.div_pos b 16). pose proof (Z.mod_pos_bound b 16).
  constructor; [apply HD; lia|]. constructor; [apply HD; lia|constructor].
Qed.
Lemma map_fine m x : clean_map m -> byte_map m -> map_to_xml m = Ok x -> fine_elem T_REGS x /\ x_tail x = None.
Proof.
  intros [HB HA] HD H. unfold map_to_xml in H. apply bind_ok in H as (cs & H1 & H). apply Ok_inj in H. subst x. split; [|reflexivity].
  apply fine_node; [reflexivity|reflexivity| | |].
  - assert (HO : forall k v, plain_nameb k = true -> In v [m_ns m; m_lid m; m_mapid m; m_time m] -> Forall (fun kv => plain_name (fst kv) /\ Forall xml_char (snd kv)) (opt_attr k v)).
    { intros k v Hk Hv. destruct v as [s|]; [|constructor]. constructor; [|constructor]. split; [now apply plain_b|]. cbn [snd]. now apply HA. }
    rewrite !Forall_app. repeat split; try (apply HO; [reflexivity|cbn; tauto]).
    constructor; [split; [apply plain_b; reflexivity|]|constructor; [split; [apply plain_b; reflexivity|]|constructor]]; cbn [snd].
    + destruct (m_base m) as [z|s] eqn:EB; [auto|now apply HB].
    + unfold func_name. repeat match goal with |- context[if ?b then _ else _] => destruct b end; apply chars_b; reflexivity.
  - apply nodup_b. destruct (m_ns m), (m_lid m), (m_mapid m), (m_time m); reflexivity.
  - revert cs H1 HD. unfold byte_map. generalize (m_regs m) as l. clear. induction l as [|g l IH]; intros cs H1 HD; cbn [map_res] in H1; [apply Ok_inj in H1; subst; constructor|].
    apply bind_ok in H1 as (y & Hy & H1). apply bind_ok in H1 as (ys & Hys & H1). apply Ok_inj in H1. subst cs. constructor; [|apply IH; [exact Hys|intros; eapply HD; [right|]; eassumption]].
    unfold regs_to_xml in Hy. destruct (g_data g) as [d|] eqn:EG; [|discriminate]. apply Ok_inj in Hy. subst y. split.
    + constructor; [apply plain_b; reflexivity| | | |exact clean_none|constructor].
      * constructor; [|constructor; [|constructor]]; (split; [apply plain_b; reflexivity|apply num_chars]).
      * apply nodup_b. reflexivity.
      * intros s [= <-]. apply hex_clean. apply (HD g d); [now left|exact EG].
    + constructor; [auto|constructor].
Qed.
Lemma map_text m x pretty E m0 : clean_map m -> byte_map m -> map_to_xml m = Ok x ->
  exists y, fromstring (tostring (if pretty : bool then indent 0 x else x)) = Ok y /\ map_from_xml E m0 y = map_from_xml E m0 x.
Proof.
  intros HC HB H. destruct (map_fine m x HC HB H) as [[HW HL] HT].
  assert (HWT : white_opt (x_tail x)) by (rewrite HT; apply white_none).
  destruct pretty; [destruct (pretty_like T_REGS x HW HWT HL) as (y & Y1 & Y2)|destruct (text_like T_REGS x HW HWT) as (y & Y1 & Y2)];
    exists y; (split; [exact Y1|]); now apply map_like.
Qed.

(** ** data records *)
Lemma put_ok rest K b k v : NoDup (map fst rest) -> incl (map fst rest) K -> ~ In k K ->
  NoDup (map fst (attr_if b k v ++ rest)) /\ incl (map fst (attr_if b k v ++ rest)) (k :: K).
Proof.
  intros H1 H2 H3. destruct b; cbn [attr_if app map fst].
  - split; [constructor; [intros HI; apply H3, H2, HI|exact H1]|]. intros x [->|Hx]; [now left|right; now apply H2].
  - split; [exact H1|]. intros x Hx. right. now apply H2.
Qed.
Lemma notin_b (k : str) K : existsb (eqb_list k) K = false -> ~ In k K.
Proof. intros H HI. assert (existsb (eqb_list k) K = true) by (apply existsb_exists; exists k; split; [exact HI|apply eqb_list_refl]). congruence. Qed.
Definition fine_attr (kv : str * value) : Prop := plain_name (fst kv) /\ Forall xml_char (attr_text (snd kv)).
Lemma fine_put E b k v : plain_nameb k = true -> attr_clean E v -> Forall fine_attr (attr_if b k v).
Proof.
  intros Hk Hv. destruct b; [|constructor]. constructor; [|constructor]. split; [now apply plain_b|]. cbn [snd]. destruct v; cbn [attr_text]; try constructor. exact Hv.
Qed.
Lemma fine_put_str E b k v : plain_nameb k = true -> attr_clean E v -> Forall fine_attr (attr_if b k (VStr (suns_to_str E v))).
Proof. intros Hk Hv. destruct b; [|constructor]. constructor; [|constructor]. split; [now apply plain_b|exact Hv]. Qed.
Inductive full : xml -> Prop :=
| full_elem tag attrs text tail cs : (tag = SDX_POINT -> text <> Some []) -> Forall full cs -> full (XE tag attrs text tail cs).
Definition fine_rec (x : xml) : Prop := fine_elem SDX_POINT x /\ full x /\ x_tail x = None.
Lemma xml_attrs_ok attrs : Forall fine_attr attrs -> Forall (fun kv => plain_name (fst kv) /\ Forall xml_char (snd kv)) (map (fun kv => (fst kv, attr_text (snd kv))) attrs).
Proof. induction 1; cbn [map]; constructor; auto. Qed.
Lemma xml_keys (attrs : list (str * value)) : map fst (map (fun kv => (fst kv, attr_text (snd kv))) attrs) = map fst attrs.
Proof. rewrite map_map. reflexivity. Qed.
Lemma fine_inner tag attrs cs : plain_nameb tag = true -> eqb_list tag SDX_POINT = false -> Forall fine_attr attrs -> NoDup (map fst attrs) ->
  Forall (fun e => fine_rec (xml_of e)) cs -> fine_rec (xml_of (DE tag attrs VNone cs)).
Proof.
  intros HT HP HA HD HC. cbn [xml_of text_of]. split; [|split; [|reflexivity]].
  - apply fine_node; auto; [now apply xml_attrs_ok|now rewrite xml_keys|]. apply Forall_map. eapply Forall_impl; [|exact HC]. now intros e (? & _).
  - constructor; [discriminate|]. apply Forall_map. eapply Forall_impl; [|exact HC]. now intros e (_ & ? & _).
Qed.
Lemma pdata_fine E p : clean_pdata E p -> fine_rec (xml_of (point_to_xml E p)).
Proof.
  intros [HA HV]. inversion HA as [|? ? A1 HA1]; subst. inversion HA1 as [|? ? A2 HA2]; subst. inversion HA2 as [|? ? A3 HA3]; subst. inversion HA3 as [|? ? A4 _]; subst.
  unfold point_to_xml. set (attrs := _ :: _).
  assert (HF : Forall fine_attr attrs).
  { unfold attrs. constructor; [split; [apply plain_b; reflexivity|exact A1]|]. rewrite !Forall_app. repeat split.
    - apply fine_put_str; [reflexivity|exact A2].
    - apply fine_put_str; [reflexivity|exact A3].
    - apply (fine_put E); [reflexivity|exact A4]. }
  assert (HD : NoDup (map fst attrs)).
  { unfold attrs. rewrite <- (app_nil_r (attr_if (sf_truthy (pd_time p)) _ _)).
    destruct (put_ok [] [] (sf_truthy (pd_time p)) SDX_POINT_TIME (pd_time p)) as [D1 I1]; [constructor|intros ? []|intros []|].
    destruct (put_ok _ _ (negb (is_none (pd_sf p))) SDX_POINT_SF (VStr (suns_to_str E (pd_sf p))) D1 I1) as [D2 I2]; [apply notin_b; reflexivity|].
    destruct (put_ok _ _ (sf_truthy (pd_index p)) SDX_POINT_INDEX (VStr (suns_to_str E (pd_index p))) D2 I2) as [D3 I3]; [apply notin_b; reflexivity|].
    destruct (put_ok _ _ true SDX_POINT_ID (VStr (suns_to_str E (pd_point_id p))) D3 I3) as [D4 I4]; [apply notin_b; reflexivity|]. exact D4. }
  clearbody attrs. clear - HF HD HV. cbn [xml_of map].
  assert (HT : clean_opt (text_of (if is_none (pd_value p) then VNone else VStr (suns_to_str E (pd_value p)))) /\
               text_of (if is_none (pd_value p) then VNone else VStr (suns_to_str E (pd_value p))) <> Some []).
  { destruct (is_none (pd_value p)) eqn:EN; [split; [exact clean_none|discriminate]|]. assert (pd_value p <> VNone) as HN by (intros EV; rewrite EV in EN; discriminate).
    destruct (HV HN) as [V1 V2]. split; cbn [text_of]; [intros s [= <-]; exact V2|congruence]. }
  destruct HT as [HT1 HT2]. split; [|split; [|reflexivity]].
  - split.
    + constructor; [apply plain_b; reflexivity|now apply xml_attrs_ok|now rewrite xml_keys|exact HT1|exact clean_none|constructor].
    + constructor; [auto|constructor].
  - constructor; [auto|constructor].
Qed.
Lemma mdata_fine E m e : clean_mdata E m -> model_to_xml E m = Ok e -> fine_rec (xml_of e).
Proof.
  intros [HA HP] H. unfold model_to_xml in H. apply bind_ok in H as (gt & _ & H). apply Ok_inj in H. subst e.
  inversion HA as [|? ? A1 HA1]; subst. inversion HA1 as [|? ? A2 HA2]; subst. inversion HA2 as [|? ? A3 _]; subst.
  apply fine_inner; [reflexivity|reflexivity| | |].
  - constructor; [split; [apply plain_b; reflexivity|exact A1]|]. rewrite Forall_app. split; apply (fine_put E); auto.
  - rewrite <- (app_nil_r (attr_if (sf_truthy (md_namespace m)) _ _)).
    destruct (put_ok [] [] (sf_truthy (md_namespace m)) SDX_MODEL_NAMESPACE (md_namespace m)) as [D1 I1]; [constructor|intros ? []|intros []|].
    destruct (put_ok _ _ gt SDX_MODEL_INDEX (M_Data.md_index m) D1 I1) as [D2 I2]; [apply notin_b; reflexivity|].
    destruct (put_ok _ _ true SDX_MODEL_ID (VStr (suns_to_str E (md_model_id m))) D2 I2) as [D4 I4]; [apply notin_b; reflexivity|]. exact D4.
  - apply Forall_map. eapply Forall_impl; [|exact HP]. intros p. apply pdata_fine.
Qed.
Lemma mapM_fine {A} (f : A -> res elem) (Q : A -> Prop) l : (forall a e, Q a -> f a = Ok e -> fine_rec (xml_of e)) -> Forall Q l -> forall es, mapM f l = Ok es ->
  Forall (fun e => fine_rec (xml_of e)) es.
Proof.
  intros HF. induction 1 as [|a l HQ _ IH]; intros es H; cbn [mapM] in H; [apply Ok_inj in H; subst; constructor|].
  apply bind_ok in H as (y & Hy & H). apply bind_ok in H as (ys & Hys & H). apply Ok_inj in H. subst es. constructor; [now apply (HF a)|now apply IH].
Qed.
Lemma ddata_fine E d e : clean_ddata E d -> device_to_xml E d = Ok e -> fine_rec (xml_of e).
Proof.
  intros [HA HM] H. unfold device_to_xml in H. apply bind_ok in H as (ms & H1 & H). apply Ok_inj in H. subst e.
  apply fine_inner; [reflexivity|reflexivity| | |eapply mapM_fine; [|exact HM|exact H1]; intros a e; apply mdata_fine].
  - rewrite Forall_forall in HA. rewrite !Forall_app. repeat split; apply (fine_put E); try reflexivity; apply HA; cbn [In]; tauto.
  - rewrite <- (app_nil_r (attr_if (sf_truthy (dd_cid d)) _ _)).
    destruct (put_ok [] [] (sf_truthy (dd_cid d)) SDX_DEVICE_CORRELATION_ID (dd_cid d)) as [D I]; [constructor|intros ? []|intros []|].
    destruct (put_ok _ _ (sf_truthy (dd_timestamp d)) SDX_DEVICE_TIME (dd_timestamp d) D I) as [D1 I1]; [apply notin_b; reflexivity|]. clear D I.
    destruct (put_ok _ _ (sf_truthy (dd_sn d)) SDX_DEVICE_SN (dd_sn d) D1 I1) as [D I]; [apply notin_b; reflexivity|]. clear D1 I1.
    destruct (put_ok _ _ (sf_truthy (dd_mod d)) SDX_DEVICE_MOD (dd_mod d) D I) as [D1 I1]; [apply notin_b; reflexivity|]. clear D I.
    destruct (put_ok _ _ (sf_truthy (dd_man d)) SDX_DEVICE_MAN (dd_man d) D1 I1) as [D I]; [apply notin_b; reflexivity|]. clear D1 I1.
    destruct (put_ok _ _ (sf_truthy (dd_ifc d)) SDX_DEVICE_IFC (dd_ifc d) D I) as [D1 I1]; [apply notin_b; reflexivity|]. clear D I.
    destruct (put_ok _ _ (sf_truthy (dd_device_id d)) SDX_DEVICE_ID (dd_device_id d) D1 I1) as [D I]; [apply notin_b; reflexivity|]. clear D1 I1.
    destruct (put_ok _ _ (sf_truthy (dd_namespace d)) SDX_DEVICE_NAMESPACE (dd_namespace d) D I) as [D1 I1]; [apply notin_b; reflexivity|]. clear D I.
    destruct (put_ok _ _ (sf_truthy (dd_logger_id d)) SDX_DEVICE_LOGGER_ID (dd_logger_id d) D1 I1) as [D I]; [apply notin_b; reflexivity|]. exact D.
Qed.
Lemma record_fine E s e : clean_record E s -> sdata_to_xml E s = Ok e -> fine_rec (xml_of e).
Proof.
  intros [HA HM] H. unfold sdata_to_xml in H. apply bind_ok in H as (ms & H1 & H). apply Ok_inj in H. subst e.
  apply fine_inner; [reflexivity|reflexivity| | |eapply mapM_fine; [|exact HM|exact H1]; intros a e; apply ddata_fine].
  - now apply (fine_put E).
  - destruct (sf_truthy (sd_version s)); apply nodup_b; reflexivity.
Qed.

(** reading: what is written as text is what M_Data reads from the element *)
Section elem_ind.
  Variable P : elem -> Prop.
  Hypothesis H : forall tag attrs text cs, Forall P cs -> P (DE tag attrs text cs).
  Fixpoint elem_ind' (e : elem) : P e :=
    match e with DE tag attrs text cs => H tag attrs text cs ((fix go l : Forall P l := match l with [] => Forall_nil P | x :: r => Forall_cons x (elem_ind' x) (go r) end) cs) end.
End elem_ind.
Inductive texts : elem -> Prop :=
| texts_elem tag attrs text cs : (text = VNone \/ exists s, text = VStr s) -> Forall texts cs -> texts (DE tag attrs text cs).
Lemma elem_xml e : serializable e = true -> texts e -> elem_of (xml_of e) = e.
Proof.
  induction e as [tag attrs text cs IH] using elem_ind'. cbn [serializable]. rewrite Bool.andb_true_iff. intros [H1 H2] HT. inversion HT as [? ? ? ? T1 T2]; subst.
  cbn [xml_of elem_of]. rewrite !map_map. cbn [fst snd].
  assert (E1 : map (fun kv => (fst kv, VStr (attr_text (snd kv)))) attrs = attrs).
  { clear - H1. induction attrs as [|[k v] l IH]; [reflexivity|]. cbn [forallb map fst snd] in *. apply Bool.andb_true_iff in H1 as [Hv H1]. rewrite (IH H1). destruct v; try discriminate. reflexivity. }
  assert (E2 : map (fun x => elem_of (xml_of x)) cs = cs).
  { clear - IH H2 T2. induction IH as [|x l Hx _ IHl]; [reflexivity|]. cbn [forallb map] in *. apply Bool.andb_true_iff in H2 as [Hv H2]. inversion T2; subst. rewrite Hx, IHl; auto. }
  rewrite E1, E2. destruct T1 as [->|[s ->]]; reflexivity.
Qed.
Lemma mapM_texts {A} (f : A -> res elem) l : (forall a e, f a = Ok e -> texts e) -> forall es, mapM f l = Ok es -> Forall texts es.
Proof.
  intros HF. induction l as [|a l IH]; intros es H; cbn [mapM] in H; [apply Ok_inj in H; subst; constructor|].
  apply bind_ok in H as (y & Hy & H). apply bind_ok in H as (ys & Hys & H). apply Ok_inj in H. subst es. constructor; [now apply (HF a)|now apply IH].
Qed.
Lemma record_texts E s e : sdata_to_xml E s = Ok e -> texts e.
Proof.
  intros H. unfold sdata_to_xml in H. apply bind_ok in H as (ms & H1 & H). apply Ok_inj in H. subst e. constructor; [now left|].
  eapply mapM_texts; [|exact H1]. clear. intros d e H. unfold device_to_xml in H. apply bind_ok in H as (ms & H1 & H). apply Ok_inj in H. subst e. constructor; [now left|].
  eapply mapM_texts; [|exact H1]. clear. intros m e H. unfold model_to_xml in H. apply bind_ok in H as (ms & H1 & H). apply Ok_inj in H. subst e. constructor; [now left|].
  apply Forall_map. apply Forall_forall. intros p _. unfold point_to_xml. constructor; [|constructor]. destruct (is_none (pd_value p)); [now left|right; eauto].
Qed.
Lemma like_eget x y k : like SDX_POINT x y -> e_get k (elem_of y) = e_get k (elem_of x).
Proof. now intros []. Qed.
Lemma like_etag x y : like SDX_POINT x y -> e_tag (elem_of y) = e_tag (elem_of x).
Proof. now intros []. Qed.
Lemma like_mapM {A} (f : elem -> res A) (l l' : list xml) : Forall2 (like SDX_POINT) l l' -> Forall full l ->
  (forall x y, like SDX_POINT x y -> full x -> f (elem_of y) = f (elem_of x)) -> mapM f (map elem_of l') = mapM f (map elem_of l).
Proof.
  intros H HF HX. induction H as [|x y l l' H _ IH]; [reflexivity|]. inversion HF; subst. cbn [map mapM]. rewrite (HX x y) by assumption. now rewrite IH.
Qed.
Lemma like_point p x y : like SDX_POINT x y -> full x -> read_child SDX_POINT (point_from_xml p) (elem_of y) = read_child SDX_POINT (point_from_xml p) (elem_of x).
Proof.
  intros H HF. unfold read_child, point_from_xml. rewrite (like_etag _ _ H), !(like_eget _ _ _ H). destruct (eqb_list (e_tag (elem_of x)) SDX_POINT) eqn:ET; [|reflexivity].
  apply eqb_list_eq in ET. replace (e_text (elem_of y)) with (e_text (elem_of x)); [reflexivity|].
  assert (H1 : x_tag x = SDX_POINT -> x_text x <> Some []) by (destruct HF; auto).
  destruct H as [tag attrs text text' tail tail' cs cs' HT _]. cbn [elem_of e_tag e_text x_tag x_text] in *. rewrite (HT ET).
  specialize (H1 ET). destruct text as [[|c s]|]; [exfalso; now apply H1|reflexivity|reflexivity].
Qed.
Lemma children_elem x : e_children (elem_of x) = map elem_of (x_children x).
Proof. destruct x; reflexivity. Qed.
Lemma full_children x : full x -> Forall full (x_children x).
Proof. now intros []. Qed.
Lemma like_model m x y : like SDX_POINT x y -> full x -> read_child SDX_MODEL (model_from_xml m) (elem_of y) = read_child SDX_MODEL (model_from_xml m) (elem_of x).
Proof.
  intros H HF. unfold read_child, model_from_xml. rewrite (like_etag _ _ H), !(like_eget _ _ _ H), !children_elem.
  rewrite (like_mapM (read_child SDX_POINT (point_from_xml new_pdata)) _ _ (like_children _ _ _ H) (full_children x HF) (like_point new_pdata)). reflexivity.
Qed.
Lemma like_device E d x y : like SDX_POINT x y -> full x -> read_child SDX_DEVICE (device_from_xml E d) (elem_of y) = read_child SDX_DEVICE (device_from_xml E d) (elem_of x).
Proof.
  intros H HF. unfold read_child, device_from_xml. rewrite (like_etag _ _ H), !(like_eget _ _ _ H), !children_elem.
  rewrite (like_mapM (read_child SDX_MODEL (model_from_xml (new_mdata E))) _ _ (like_children _ _ _ H) (full_children x HF) (like_model (new_mdata E))). reflexivity.
Qed.
Lemma like_record E s x y : like SDX_POINT x y -> full x -> sdata_from_xml E s (elem_of y) = sdata_from_xml E s (elem_of x).
Proof.
  intros H HF. unfold sdata_from_xml. rewrite (like_etag _ _ H), !(like_eget _ _ _ H), !children_elem.
  rewrite (like_mapM (read_child SDX_DEVICE (device_from_xml E new_ddata)) _ _ (like_children _ _ _ H) (full_children x HF) (like_device E new_ddata)). reflexivity.
Qed.
Lemma record_reads E s pretty t : clean_record E s -> record_text E pretty s = Ok t ->
  exists e, sdata_to_xml E s = Ok e /\ forall s0, sdata_from_text E s0 t = sdata_from_xml E s0 e.
Proof.
  intros HC H. unfold record_text, to_xml_str in H. apply bind_ok in H as (e' & H & HT). apply bind_ok in H as (e & HE & HS).
  destruct (serializable e) eqn:ES; [|discriminate]. apply Ok_inj in HS. subst e'. apply Ok_inj in HT. exists e. split; [exact HE|]. intros s0.
  destruct (record_fine E s e HC HE) as ([HW HL] & HF & HTL).
  assert (HWT : white_opt (x_tail (xml_of e))) by (rewrite HTL; apply white_none).
  assert (HY : exists y, fromstring t = Ok y /\ like SDX_POINT (xml_of e) y).
  { subst t. destruct pretty; [now apply pretty_like|now apply text_like]. }
  destruct HY as (y & Y1 & Y2). unfold sdata_from_text. rewrite Y1. cbn [bind]. rewrite (like_record E s0 _ _ Y2 HF).
  now rewrite elem_xml by (assumption || now apply (record_texts E s)).
Qed.
