(** * P_Smdx: proofs about M_Smdx: file names, what is accepted, what is loaded. *)
From Coq Require Import String FinFun.
From Verif Require Import Py P_List M_Util M_Float M_Suns P_IntText M_Xml M_Mbmap M_Device M_Path M_Smdx S_Codec S_Smdx.

(** ** File names *)
Lemma slice_prefix (a b : str) : py_slice 0 (zlen a) (a ++ b) = a.
Proof.
  rewrite py_slice_nonneg by (pose proof (zlen_nonneg a); lia). unfold slice. rewrite zdrop_neg by lia.
  apply ztake_app_exact. lia.
Qed.
Lemma slice_suffix (a b : str) n : zlen b = n -> 0 < n -> py_slice (- n) (zlen (a ++ b)) (a ++ b) = b.
Proof.
  intros Hn Hp. unfold py_slice, py_bound. pose proof (zlen_nonneg a). rewrite zlen_app.
  rewrite (proj2 (Z.ltb_lt (- n) 0)) by lia. rewrite (proj2 (Z.ltb_ge (zlen a + zlen b) 0)) by lia.
  rewrite Z.min_id. unfold slice. replace (Z.max 0 (zlen a + zlen b + - n)) with (zlen a) by lia.
  rewrite zdrop_app_exact by reflexivity. apply ztake_all. lia.
Qed.
Lemma slice_mid (a b c : str) n m : zlen a = n -> zlen c = m -> 0 < m -> py_slice n (- m) (a ++ b ++ c) = b.
Proof.
  intros Hn Hm Hp. unfold py_slice, py_bound. pose proof (zlen_nonneg a). pose proof (zlen_nonneg b).
  rewrite !zlen_app. rewrite (proj2 (Z.ltb_ge n 0)) by lia. rewrite (proj2 (Z.ltb_lt (- m) 0)) by lia.
  unfold slice. rewrite (Z.min_l n) by lia. rewrite zdrop_app_exact by lia.
  rewrite ztake_app_l by lia. apply ztake_all. lia.
Qed.

Lemma py_slice_suffix_inv (f : str) n : 0 < n -> n <= zlen f -> py_slice (- n) (zlen f) f = zdrop (zlen f - n) f.
Proof.
  intros Hn Hl. unfold py_slice, py_bound. rewrite (proj2 (Z.ltb_lt (- n) 0)) by lia.
  rewrite (proj2 (Z.ltb_ge (zlen f) 0)) by lia. rewrite Z.min_id. unfold slice.
  replace (Z.max 0 (zlen f + - n)) with (zlen f - n) by lia.
  apply ztake_all. rewrite zlen_zdrop by lia. lia.
Qed.

Lemma filename_inv f : eqb_list (py_slice 0 5 f) SMDX_PREFIX && eqb_list (py_slice (-4) (zlen f) f) SMDX_SUFFIX = true ->
  exists t, f = SMDX_PREFIX ++ t ++ SMDX_SUFFIX.
Proof.
  intros H. apply andb_prop in H as [H1 H2]. apply eqb_list_eq in H1, H2.
  rewrite py_slice_nonneg in H1 by lia. unfold slice in H1. rewrite zdrop_neg in H1 by lia.
  assert (HL : 5 <= zlen f).
  { assert (zlen (ztake (5 - 0) f) = 5) by (rewrite H1; reflexivity). rewrite zlen_ztake in H by lia. lia. }
  change (-4) with (- (4)) in H2. rewrite py_slice_suffix_inv in H2 by lia.
  pose proof (ztake_zdrop 5 f) as HD. change (5 - 0) with 5 in H1. rewrite H1 in HD.
  set (g := zdrop 5 f) in *.
  assert (HZ : zlen g = zlen f - 5) by (unfold g; rewrite zlen_zdrop by lia; lia).
  assert (HG : 4 <= zlen g).
  { destruct (Z.lt_ge_cases (zlen g) 4) as [Hlt|]; [|lia]. exfalso.
    rewrite <- HD in H2. rewrite zlen_app in H2. change (zlen SMDX_PREFIX) with 5 in H2.
    pose proof (zlen_nonneg g).
    assert (HC : zlen g = 0 \/ zlen g = 1 \/ zlen g = 2 \/ zlen g = 3) by lia.
    rewrite zdrop_app_l in H2 by (change (zlen SMDX_PREFIX) with 5; lia).
    destruct HC as [E|[E|[E|E]]]; rewrite E in H2; vm_compute in H2; discriminate. }
  exists (ztake (zlen g - 4) g). rewrite <- HD in H2. rewrite zdrop_app_r in H2 by (rewrite zlen_app; change (zlen SMDX_PREFIX) with 5; lia).
  rewrite <- H2. rewrite zlen_app. replace (zlen SMDX_PREFIX + zlen g - 4 - zlen SMDX_PREFIX) with (zlen g - 4) by lia.
  rewrite ztake_zdrop. symmetry. exact HD.
Qed.
Lemma filename_spec f z : model_filename_to_id f = Some z <-> exists t, f = SMDX_PREFIX ++ t ++ SMDX_SUFFIX /\ int_of_str t = Ok z.
Proof.
  unfold model_filename_to_id. change (-4) with (- (4)). split.
  - destruct (eqb_list (py_slice 0 5 f) SMDX_PREFIX && eqb_list (py_slice (- (4)) (zlen f) f) SMDX_SUFFIX) eqn:HB; [|discriminate].
    destruct (filename_inv f HB) as (t & ->). rewrite (slice_mid SMDX_PREFIX t SMDX_SUFFIX 5 4) by reflexivity.
    intros H. exists t. split; [reflexivity|]. destruct (int_of_str t); congruence.
  - intros (t & -> & Ht). pose proof (slice_prefix SMDX_PREFIX (t ++ SMDX_SUFFIX)) as H1. change (zlen SMDX_PREFIX) with 5 in H1.
    rewrite H1, eqb_list_refl. cbn [andb]. rewrite (app_assoc SMDX_PREFIX t SMDX_SUFFIX).
    rewrite (slice_suffix (SMDX_PREFIX ++ t) SMDX_SUFFIX 4 ltac:(reflexivity) ltac:(lia)), eqb_list_refl.
    rewrite <- app_assoc, (slice_mid SMDX_PREFIX t SMDX_SUFFIX 5 4) by reflexivity. rewrite Ht. reflexivity.
Qed.

Lemma numeral_zeros n s v : numeral 10 s v -> numeral 10 (repeat 48 n ++ s) v.
Proof.
  intros H. assert (HR : forall k s v, numeral 10 s v -> numeral 10 (48 :: s) v -> numeral 10 (repeat 48 (S k) ++ s) v).
  { clear. induction k as [|k IH]; intros s v H1 H2; [exact H2|].
    cbn [repeat app]. replace (48 :: 48 :: repeat 48 k ++ s) with (repeat 48 (S k) ++ 48 :: s).
    2:{ change (48 :: s) with ([48] ++ s). rewrite app_assoc. change (repeat 48 (S k) ++ [48]) with (repeat 48 (S k) ++ repeat 48 1).
        rewrite <- repeat_app. replace (S k + 1)%nat with (S (S k)) by lia. reflexivity. }
    apply IH; [exact H2|]. clear IH. revert H2. remember (48 :: s) as t. intros H2.
    clear -H2. induction H2.
    - change [48; c] with ([48] ++ [c]). replace v with (0 * 10 + v) by lia. apply num_more; [|exact H].
      apply num_one. unfold digit_of. lia.
    - rewrite app_comm_cons. now apply num_more.
    - rewrite app_comm_cons. now apply num_under. }
  destruct n as [|n]; [exact H|]. apply HR; [exact H|]. clear -H. induction H.
  - change [48; c] with ([48] ++ [c]). replace v with (0 * 10 + v) by lia. apply num_more; [|exact H].
    apply num_one. unfold digit_of. lia.
  - rewrite app_comm_cons. now apply num_more.
  - rewrite app_comm_cons. now apply num_under.
Qed.
Lemma numeral_int_of_str s n : numeral 10 s n -> int_of_str s = Ok n /\ int_of_str (45 :: s) = Ok (- n).
Proof.
  intros HN. pose proof (parse_digits_complete 10 _ _ ltac:(lia) HN) as HP.
  assert (HL : exists r l, s = r ++ [l] /\ is_blank l = false).
  { destruct (numeral_last _ _ _ HN) as (r1 & l & v1 & -> & H1). exists r1, l. split; [reflexivity|].
    eapply digit_nonblank; [|exact H1]; lia. }
  destruct HL as (r & l & El & Hl).
  destruct (numeral_head _ _ _ HN) as (c0 & r0 & v0 & E0 & H0).
  assert (Hc0 : is_blank c0 = false /\ c0 <> 43 /\ c0 <> 45).
  { split; [eapply digit_nonblank; [|exact H0]; lia|]. unfold digit_of in H0; lia. }
  unfold int_of_str. split.
  - rewrite E0 in *. pose proof (strip_blank_core [] c0 r0 l r []) as HS. cbn [app] in HS.
    rewrite app_nil_r in HS. rewrite HS; try constructor; auto; [|apply Hc0].
    cbn [parse_signed]. destruct Hc0 as (_ & Hp & Hm).
    rewrite (proj2 (Z.eqb_neq c0 45)), (proj2 (Z.eqb_neq c0 43)) by auto.
    unfold parse_dec. rewrite HP. reflexivity.
  - pose proof (strip_blank_core [] 45 s l (45 :: r) []) as HS. cbn [app] in HS.
    rewrite app_nil_r in HS. rewrite HS; try constructor; auto; [|now rewrite El].
    cbn [parse_signed]. change (45 =? 45) with true. unfold parse_dec. rewrite HP. reflexivity.
Qed.
Lemma dec_nonneg_numeral n : 0 <= n -> numeral 10 (dec_nonneg n) n.
Proof.
  intros Hn. destruct (dec_digits_spec (S (Z.to_nat (Z.log2 n))) n Hn ltac:(lia)) as (H1 & _ & H3 & H4).
  unfold dec_nonneg. rewrite <- H4 at 3. now apply digits_numeral.
Qed.
Lemma format_05d_reads z : int_of_str (format_05d z) = Ok z.
Proof.
  unfold format_05d, zfill. destruct (Z.ltb_spec z 0).
  - destruct (numeral_int_of_str _ _ (numeral_zeros (4 - length (dec_nonneg (- z))) _ _ (dec_nonneg_numeral (- z) ltac:(lia)))) as [_ H1].
    rewrite H1. f_equal. lia.
  - apply numeral_int_of_str, numeral_zeros, dec_nonneg_numeral. lia.
Qed.

(** ** Documents *)
Lemma filter_children t l : children_of t l (filter (fun c => eqb_list (x_tag c) t) l).
Proof.
  induction l as [|e l IH]; cbn [filter]; [constructor|].
  destruct (eqb_list (x_tag e) t) eqn:E.
  - apply eqb_list_eq in E. now constructor.
  - apply eqb_list_neq in E. now constructor.
Qed.
Lemma findall_children t x : children_of t (x_children x) (findall t x).
Proof. apply filter_children. Qed.
Lemma children_of_fun t l r1 r2 : children_of t l r1 -> children_of t l r2 -> r1 = r2.
Proof.
  intros H. revert r2. induction H; intros r2 H2; inversion H2; subst; try congruence; f_equal; auto.
Qed.

Lemma in_table_spec t s r : in_table t s = Some r <-> r = s /\ In s t.
Proof.
  unfold in_table. split.
  - intros H. apply find_some in H as [H1 H2]. apply eqb_list_eq in H2. subst. auto.
  - intros [-> H]. induction t as [|x t IH]; [destruct H|]. cbn [find]. destruct (eqb_list s x) eqn:E.
    + apply eqb_list_eq in E. subst x. reflexivity.
    + destruct H as [->|H]; [rewrite eqb_list_refl in E; discriminate|auto].
Qed.
Lemma in_table_none t s : in_table t s = None <-> ~ In s t.
Proof.
  split.
  - intros H HI. assert (in_table t s = Some s) by (apply in_table_spec; auto). congruence.
  - intros H. destruct (in_table t s) eqn:E; [|reflexivity]. apply in_table_spec in E as [-> E]. contradiction.
Qed.
Lemma get_default_spec k d e v : attr_or k d e v <-> get_default (lit k) (lit d) e = v.
Proof.
  unfold attr_or, attr, no_attr, get_default, x_get. destruct (dget (lit k) (x_attrs e)); split.
  - intros [H|[H _]]; congruence.
  - intros H. left. congruence.
  - intros [H|[_ H]]; congruence.
  - intros H. right. auto.
Qed.
Lemma attr_int_spec k e z : attr_int (x_get (lit k) e) = Ok z <-> attr_number k e z.
Proof.
  unfold attr_int, attr_number, attr, number, x_get. destruct (dget (lit k) (x_attrs e)) as [s|]; split.
  - intros H. exists s. auto.
  - intros (s' & H1 & H2). congruence.
  - discriminate.
  - intros (s' & H1 & _). discriminate.
Qed.
Lemma ptype_of_name_spec s t : ptype_of_name s = Some t <-> s = ptype_name t.
Proof.
  unfold ptype_of_name. split.
  - intros H. apply find_some in H as [_ H]. now apply eqb_list_eq in H.
  - intros ->. destruct t; reflexivity.
Qed.

(** the header: what point_described speaks about *)
Definition header (p : pointtype) : pointtype := pt_with p (mkTexts None None None) [].
Lemma described_header e p : point_described e p <-> point_described e (header p).
Proof. unfold point_described. reflexivity. Qed.
Lemma point_header_spec e p : point_header e = Ok p <-> point_described e p /\ header p = p.
Proof.
  unfold point_header. split.
  - intros H. apply bind_ok in H as (off & Hoff & H). apply attr_int_spec in Hoff.
    change (x_get A_ID e) with (dget (lit "id") (x_attrs e)) in H. destruct (dget (lit "id") (x_attrs e)) as [id|] eqn:Hid; [|discriminate].
    change (x_get A_TYPE e) with (dget (lit "type") (x_attrs e)) in H. destruct (dget (lit "type") (x_attrs e)) as [ty|] eqn:Hty; [|discriminate].
    match type of H with (if ?b then _ else _) = _ => destruct b eqn:Hs; [discriminate|] end.
    destruct (ptype_of_name ty) as [t|] eqn:Ht; [|discriminate]. apply ptype_of_name_spec in Ht.
    destruct (in_table mandatory_types _) as [m|] eqn:Hm; [|discriminate]. apply in_table_spec in Hm as [Hm1 Hm2].
    destruct (in_table access_types _) as [a|] eqn:Ha; [|discriminate]. apply in_table_spec in Ha as [Ha1 Ha2].
    apply bind_ok in H as (len & Hlen & H). apply Ok_inj in H. subst p.
    split; [|reflexivity]. unfold point_described. cbn [pt_id pt_offset pt_type pt_len pt_mandatory pt_access pt_units pt_sf].
    split; [exact Hid|]. split; [exact Hoff|]. split; [unfold attr; congruence|]. split.
    { change (x_get A_LEN e) with (dget (lit "len") (x_attrs e)) in Hlen.
      destruct (dget (lit "len") (x_attrs e)) as [l|] eqn:El; [left; exists l; split; auto|].
      right. split; [exact El|]. destruct (type_len t); congruence. }
    split; [apply get_default_spec; symmetry; exact Hm1|]. split.
    { subst m. unfold mandatory_types in Hm2. destruct Hm2 as [<-|[<-|[]]]; [right; left|left]; reflexivity. }
    split; [apply get_default_spec; symmetry; exact Ha1|]. split; [subst a; exact Ha2|]. split; reflexivity.
  - intros ((H1 & H2 & H3 & H4 & H5 & H6 & H7 & H8 & H9 & H10) & HH).
    apply attr_int_spec in H2. change (x_get A_OFFSET e) with (x_get (lit "offset") e). rewrite H2. cbn [bind].
    change (x_get A_ID e) with (dget (lit "id") (x_attrs e)). rewrite H1.
    change (x_get A_TYPE e) with (dget (lit "type") (x_attrs e)). rewrite H3.
    assert (HB : eqb_list (ptype_name (pt_type p)) (lit "string") && match x_get A_LEN e with None => true | Some _ => false end = false).
    { change (x_get A_LEN e) with (dget (lit "len") (x_attrs e)). destruct H4 as [(s & H4 & _)|[H4 H4']].
      - rewrite H4. apply andb_false_r.
      - destruct (pt_type p); try reflexivity. discriminate. }
    rewrite HB. rewrite (proj2 (ptype_of_name_spec _ (pt_type p)) eq_refl).
    apply get_default_spec in H5, H7. change (get_default A_MANDATORY (lit "false") e) with (get_default (lit "mandatory") (lit "false") e).
    rewrite H5. rewrite (proj2 (in_table_spec mandatory_types (pt_mandatory p) (pt_mandatory p))).
    2:{ split; [reflexivity|]. destruct H6 as [<-|[<-|[]]]; [right; left|left]; reflexivity. }
    change (get_default A_ACCESS (lit "r") e) with (get_default (lit "access") (lit "r") e). rewrite H7.
    rewrite (proj2 (in_table_spec access_types (pt_access p) (pt_access p)) (conj eq_refl H8)).
    assert (HL : match x_get A_LEN e with Some l => int_of_str l | None => match type_len (pt_type p) with Some n => Ok n | None => Raise EType end end = Ok (pt_len p)).
    { change (x_get A_LEN e) with (dget (lit "len") (x_attrs e)). destruct H4 as [(s & H4 & H4')|[H4 H4']]; rewrite H4; [exact H4'|now rewrite H4']. }
    rewrite HL. cbn [bind]. f_equal. change (x_get A_UNITS e) with (dget (lit "units") (x_attrs e)). change (x_get A_SF e) with (dget (lit "sf") (x_attrs e)).
    rewrite H9, H10. rewrite <- HH. destruct p. reflexivity.
Qed.

(** the loop over the children of a point keeps the header, and fails exactly for a symbol without id *)
Lemma point_child_header strings st e st' :
  point_child strings st e = Ok st' -> header (fst st') = header (fst st).
Proof.
  destruct st as [p log]. unfold point_child. destruct (eqb_list (x_tag e) SMDX_SYMBOL).
  - intros H. apply bind_ok in H as ([n log1] & _ & H). apply bind_ok in H as (s & _ & H). apply Ok_inj in H. subst. reflexivity.
  - intros H. apply Ok_inj in H. subst. reflexivity.
Qed.
Lemma point_children_header strings l st st' :
  foldM (point_child strings) l st = Ok st' -> header (fst st') = header (fst st).
Proof.
  revert st. induction l as [|e l IH]; intros st H; cbn [foldM] in H.
  - apply Ok_inj in H. now subst.
  - apply bind_ok in H as (st1 & H1 & H). rewrite (IH _ H). now apply point_child_header in H1.
Qed.
Lemma symbol_from_ok s e strings : strings = true \/ x_get A_ID e <> None -> exists s', symbol_from_smdx strings s e = Ok s'.
Proof.
  intros H. unfold symbol_from_smdx. destruct strings; [eauto|]. destruct (x_get A_ID e); [eauto|]. destruct H; [discriminate|congruence].
Qed.
Lemma point_child_ok strings st e :
  (exists st', point_child strings st e = Ok st') <-> (strings = true \/ (tagged "symbol" e -> ~ no_attr "id" e)).
Proof.
  destruct st as [p log]. unfold point_child, tagged, no_attr.
  destruct (eqb_list (x_tag e) SMDX_SYMBOL) eqn:ET.
  - apply eqb_list_eq in ET. change SMDX_SYMBOL with (lit "symbol") in ET. split.
    + intros (st' & H). apply bind_ok in H as ([n log1] & H1 & H). apply bind_ok in H as (s & H2 & H).
      destruct strings; [auto|]. right. intros _ HN. unfold symbol_from_smdx in H2. unfold x_get in H2.
      change A_ID with (lit "id") in H2. rewrite HN in H2. discriminate.
    + intros H. assert (HS : strings = true \/ x_get A_ID e <> None) by (destruct H as [H|H]; [auto|right; apply H, ET]).
      destruct (symbol_get (x_get A_ID e, pt_id p) log) as [n|].
      * cbn [bind]. destruct (symbol_from_ok (get_symbol n log) e strings HS) as (s' & ->). cbn [bind]. eauto.
      * destruct (symbol_from_ok new_symbol e strings HS) as (s0 & ->). cbn [bind].
        match goal with |- context [symbol_from_smdx strings ?s e] => destruct (symbol_from_ok s e strings HS) as (s' & ->) end.
        cbn [bind]. eauto.
  - apply eqb_list_neq in ET. split; [|eauto]. intros _. right. intros H. contradiction.
Qed.
Lemma point_children_ok strings l st :
  (exists st', foldM (point_child strings) l st = Ok st') <-> (strings = true \/ Forall (fun c => tagged "symbol" c -> ~ no_attr "id" c) l).
Proof.
  revert st. induction l as [|e l IH]; intros st; cbn [foldM].
  - split; [intros _; right; constructor|eauto].
  - split.
    + intros (st' & H). apply bind_ok in H as (st1 & H1 & H). destruct strings; [auto|]. right. constructor.
      * destruct (proj1 (point_child_ok false st e) (ex_intro _ _ H1)) as [|HH]; [discriminate|exact HH].
      * destruct (proj1 (IH st1) (ex_intro _ _ H)) as [|HH]; [discriminate|exact HH].
    + intros H. assert (H1 : exists st1, point_child strings st e = Ok st1).
      { apply point_child_ok. destruct H as [H|H]; [auto|]. right. inversion H; auto. }
      destruct H1 as (st1 & ->). cbn [bind]. apply IH. destruct H as [H|H]; [auto|]. right. inversion H; auto.
Qed.

Lemma point_from_smdx_sound log e p log' :
  point_from_smdx log e = Ok (p, log') -> point_described e p /\ symbols_named e.
Proof.
  intros H. unfold point_from_smdx in H. apply bind_ok in H as (p0 & H0 & H). apply point_header_spec in H0 as [H0 _].
  split.
  - pose proof (point_children_header _ _ _ _ H) as HH. cbn [fst] in HH.
    apply described_header. rewrite HH. now apply described_header in H0.
  - destruct (proj1 (point_children_ok false (x_children e) (p0, log)) (ex_intro _ _ H)) as [|HS]; [discriminate|exact HS].
Qed.
Lemma point_from_smdx_complete log e : valid_point e -> exists p log', point_from_smdx log e = Ok (p, log').
Proof.
  intros (HS & p & HD). unfold point_from_smdx.
  assert (H : point_header e = Ok (header p)) by (apply point_header_spec; split; [now apply described_header in HD|reflexivity]).
  rewrite H. cbn [bind]. destruct (proj2 (point_children_ok false (x_children e) (header p, log)) (or_intror HS)) as ([p' log'] & ->). eauto.
Qed.
Lemma described_id e p : point_described e p -> dget (lit "id"%string) (x_attrs e) = Some (pt_id p).
Proof. intros (H & _). exact H. Qed.

(** ** Blocks *)
Lemma find_pt_none id l : find_pt id l = None <-> ~ In id (map pt_id l).
Proof.
  unfold find_pt. induction l as [|p l IH]; cbn [find map]; [split; auto|].
  destruct (eqb_list (pt_id p) id) eqn:E.
  - apply eqb_list_eq in E. split; [discriminate|]. intros H. exfalso. apply H. left. exact E.
  - apply eqb_list_neq in E. rewrite IH. split; [intros H [HE|HI]; [contradiction|auto]|]. intros H HI. apply H. right. exact HI.
Qed.
Lemma NoDup_snoc {A} (l : list A) x : NoDup l -> ~ In x l -> NoDup (l ++ [x]).
Proof.
  intros H1 H2. induction H1 as [|y l Hy _ IH]; [constructor; [auto|constructor]|]. cbn [app]. constructor.
  - rewrite in_app_iff. intros [H|[->|[]]]; [contradiction|]. apply H2. left. reflexivity.
  - apply IH. intros HI. apply H2. right. exact HI.
Qed.
Lemma block_points_sound es : forall pts log pts' log' done,
  foldM block_point es (pts, log) = Ok (pts', log') ->
  Forall2 point_described done pts -> NoDup (map pt_id pts) ->
  Forall2 point_described (done ++ es) pts' /\ NoDup (map pt_id pts') /\ Forall symbols_named es.
Proof.
  induction es as [|e es IH]; intros pts log pts' log' done H HF HN; cbn [foldM] in H.
  - apply Ok_inj, pair_equal_spec in H as [<- <-]. rewrite app_nil_r. auto.
  - apply bind_ok in H as ([pts1 log1] & H1 & H). unfold block_point in H1. apply bind_ok in H1 as ([p log2] & Hp & H1).
    destruct (find_pt (pt_id p) pts) eqn:EF; [discriminate|]. apply Ok_inj, pair_equal_spec in H1 as [<- <-].
    apply find_pt_none in EF. destruct (point_from_smdx_sound _ _ _ _ Hp) as [HD HS].
    destruct (IH _ _ _ _ (done ++ [e]) H) as (A & B & C).
    + apply Forall2_app; [exact HF|]. constructor; [exact HD|constructor].
    + rewrite map_app. now apply NoDup_snoc.
    + rewrite <- app_assoc in A. split; [exact A|]. split; [exact B|]. constructor; auto.
Qed.
Definition xid (e : xml) : option str := dget (lit "id"%string) (x_attrs e).
Lemma described_ids es pts : Forall2 point_described es pts -> map xid es = map (fun p => Some (pt_id p)) pts.
Proof. induction 1 as [|e p es pts H _ IH]; cbn [map]; [reflexivity|]. f_equal; [apply described_id, H|exact IH]. Qed.
Lemma block_points_complete es : forall pts log done,
  Forall valid_point es -> Forall2 point_described done pts -> NoDup (map xid (done ++ es)) ->
  exists pts' log', foldM block_point es (pts, log) = Ok (pts', log').
Proof.
  induction es as [|e es IH]; intros pts log done HV HF HN; cbn [foldM]; [eauto|].
  inversion HV as [|e0 es0 He Hes]; subst. unfold block_point at 1.
  destruct (point_from_smdx_complete log e He) as (p & log1 & Hp). rewrite Hp. cbn [bind].
  destruct (point_from_smdx_sound _ _ _ _ Hp) as [HD _].
  assert (EF : find_pt (pt_id p) pts = None).
  { apply find_pt_none. intros HI. rewrite map_app in HN. cbn [map] in HN. apply NoDup_remove_2 in HN. apply HN.
    apply in_app_iff. left. rewrite (described_ids _ _ HF). unfold xid. rewrite (described_id _ _ HD).
    apply in_map_iff in HI as (q & Hq & HI). apply in_map_iff. exists q. split; [congruence|exact HI]. }
  rewrite EF. cbn [bind]. apply (IH _ _ (done ++ [e])); [exact Hes| |].
  - apply Forall2_app; [exact HF|]. constructor; [exact HD|constructor].
  - rewrite <- app_assoc. exact HN.
Qed.
Lemma btype_of_name_spec s k : btype_of_name s = Some k <-> s = btype_name k.
Proof.
  unfold btype_of_name. destruct (eqb_list s (lit "fixed")) eqn:E1.
  - apply eqb_list_eq in E1. subst. split; [intros [= <-]; reflexivity|]. destruct k; [reflexivity|discriminate].
  - apply eqb_list_neq in E1. destruct (eqb_list s (lit "repeating")) eqn:E2.
    + apply eqb_list_eq in E2. subst. split; [intros [= <-]; reflexivity|]. destruct k; [discriminate|reflexivity].
    + apply eqb_list_neq in E2. split; [discriminate|]. destruct k; intros ->; contradiction.
Qed.
Lemma block_kind_spec e k : block_kind e k <-> btype_of_name (get_default A_TYPE (lit "fixed"%string) e) = Some k.
Proof.
  rewrite btype_of_name_spec. unfold block_kind. change (match k with Fixed => lit "fixed"%string | Repeating => lit "repeating"%string end) with (btype_name k).
  apply get_default_spec.
Qed.
Lemma block_kind_fun e k1 k2 : block_kind e k1 -> block_kind e k2 -> k1 = k2.
Proof. rewrite !block_kind_spec. congruence. Qed.

Lemma block_from_smdx_sound log e b log' : block_from_smdx log e = Ok (b, log') -> block_described e b /\ valid_block e.
Proof.
  unfold block_from_smdx. destruct (btype_of_name _) as [k|] eqn:Hk; [|discriminate]. apply block_kind_spec in Hk.
  destruct (x_get A_LEN e) as [l|] eqn:Hl; [|discriminate].
  intros H. apply bind_ok in H as ([pts log1] & Hp & H). apply Ok_inj, pair_equal_spec in H as [<- <-].
  destruct (block_points_sound _ _ _ _ _ [] Hp ltac:(constructor) ltac:(constructor)) as (A & B & C). cbn [app] in A.
  split.
  - unfold block_described. cbn [bt_type bt_len bt_name bt_points]. split; [exact Hk|]. split; [exists l; split; [exact Hl|reflexivity]|].
    split.
    + eexists; split; [reflexivity|]. unfold attr, no_attr, get_default, x_get. change A_NAME with (lit "name"%string).
      destruct (dget (lit "name"%string) (x_attrs e)); [left; reflexivity|right; split; [reflexivity|destruct k; reflexivity]].
    + exists (findall SMDX_POINT e). split; [apply findall_children|]. auto.
  - unfold valid_block. split; [eauto|]. split; [exists l; exact Hl|]. exists (findall SMDX_POINT e).
    split; [apply findall_children|]. split.
    + clear -A C. revert A C. generalize (findall SMDX_POINT e). intros es A. induction A; intros C; [constructor|].
      inversion C; subst. constructor; [split; [assumption|eauto]|auto].
    + change (fun p => dget (lit "id"%string) (x_attrs p)) with xid. rewrite (described_ids _ _ A).
      rewrite <- (map_map pt_id Some). apply Injective_map_NoDup; [|exact B]. intros x y Hxy. congruence.
Qed.
Lemma block_from_smdx_complete log e : valid_block e -> exists b log', block_from_smdx log e = Ok (b, log').
Proof.
  intros ((k & Hk) & (l & Hl) & ps & HC & HV & HN). apply block_kind_spec in Hk. unfold block_from_smdx. rewrite Hk.
  change (x_get A_LEN e) with (dget (lit "len") (x_attrs e)). rewrite Hl.
  rewrite (children_of_fun _ _ _ _ HC (findall_children _ e)) in HV, HN.
  destruct (block_points_complete (findall SMDX_POINT e) [] log [] HV ltac:(constructor) HN) as (pts & log' & H).
  change (findall (lit "point") e) with (findall SMDX_POINT e). rewrite H. cbn [bind]. eauto.
Qed.

(** ** Model: the block loop *)
Definition has_kind (k : btype) (e : xml) : bool :=
  match btype_of_name (get_default A_TYPE (lit "fixed"%string) e) with Some k' => btype_eqb k k' | None => false end.
Lemma has_kind_spec k e : has_kind k e = true <-> block_kind e k.
Proof.
  rewrite block_kind_spec. unfold has_kind. destruct (btype_of_name _) as [k'|]; [|split; discriminate].
  destruct k, k'; cbn [btype_eqb]; split; congruence.
Qed.
Lemma of_kind_filter k l : of_kind k l (filter (has_kind k) l).
Proof.
  induction l as [|e l IH]; cbn [filter]; [constructor|]. destruct (has_kind k e) eqn:E.
  - apply has_kind_spec in E. now constructor.
  - constructor; [|exact IH]. intros H. apply has_kind_spec in H. congruence.
Qed.
Lemma of_kind_fun k l r1 r2 : of_kind k l r1 -> of_kind k l r2 -> r1 = r2.
Proof.
  intros H. revert r2. induction H; intros r2 H2; inversion H2; subst; try contradiction; f_equal; auto.
Qed.
(** the state of one kind of block after some block elements *)
Definition slot (k : btype) (done : list xml) (r : option blocktype) : Prop :=
  (filter (has_kind k) done = [] /\ r = None) \/ exists e b, filter (has_kind k) done = [e] /\ r = Some b /\ block_described e b.
Lemma slot_one k done r : slot k done r -> one_block k done r.
Proof.
  intros [[H ->]|(e & b & H & -> & HD)]; [left|right; exists e, b]; pose proof (of_kind_filter k done) as HO; rewrite H in HO; auto.
Qed.
Lemma slot_snoc k done r e : has_kind k e = false -> slot k done r -> slot k (done ++ [e]) r.
Proof.
  intros HK HS. unfold slot. rewrite filter_app. cbn [filter]. rewrite HK, app_nil_r. exact HS.
Qed.
Lemma slot_new k done e b : has_kind k e = true -> slot k done None -> block_described e b -> slot k (done ++ [e]) (Some b).
Proof.
  intros HK HS HD. unfold slot. rewrite filter_app. cbn [filter]. rewrite HK. right. exists e, b.
  destruct HS as [[-> _]|(e0 & b0 & _ & H & _)]; [auto|discriminate].
Qed.
Lemma kind_other b e : block_described e b -> has_kind (bt_type b) e = true /\ forall k, k <> bt_type b -> has_kind k e = false.
Proof.
  intros (HK & _). split; [now apply has_kind_spec|]. intros k Hk. destruct (has_kind k e) eqn:E; [|reflexivity].
  apply has_kind_spec in E. exfalso. apply Hk. eapply block_kind_fun; eauto.
Qed.
Lemma model_blocks_sound es : forall fixed rep log fixed' rep' log' done,
  foldM model_block es (fixed, rep, log) = Ok (fixed', rep', log') ->
  slot Fixed done fixed -> slot Repeating done rep ->
  slot Fixed (done ++ es) fixed' /\ slot Repeating (done ++ es) rep' /\ Forall valid_block es.
Proof.
  induction es as [|e es IH]; intros fixed rep log fixed' rep' log' done H HF HR; cbn [foldM] in H.
  - apply Ok_inj, pair_equal_spec in H as [H <-]. apply pair_equal_spec in H as [<- <-]. rewrite app_nil_r. auto.
  - apply bind_ok in H as ([[f1 r1] log1] & H1 & H). unfold model_block in H1.
    apply bind_ok in H1 as ([b log2] & Hb & H1). destruct (block_from_smdx_sound _ _ _ _ Hb) as [HD HV].
    destruct (kind_other _ _ HD) as [HK1 HK2].
    replace (done ++ e :: es) with ((done ++ [e]) ++ es) by (rewrite <- app_assoc; reflexivity).
    destruct (bt_type b) eqn:EB.
    + destruct fixed; [discriminate|]. apply Ok_inj, pair_equal_spec in H1 as [H1 <-]. apply pair_equal_spec in H1 as [<- <-].
      edestruct (IH _ _ _ _ _ _ (done ++ [e]) H) as (A & B & C).
      * apply slot_new; auto.
      * apply slot_snoc; [apply HK2; discriminate|auto].
      * auto.
    + destruct rep; [discriminate|]. apply Ok_inj, pair_equal_spec in H1 as [H1 <-]. apply pair_equal_spec in H1 as [<- <-].
      edestruct (IH _ _ _ _ _ _ (done ++ [e]) H) as (A & B & C).
      * apply slot_snoc; [apply HK2; discriminate|auto].
      * apply slot_new; auto.
      * auto.
Qed.
Lemma model_blocks_complete es : forall fixed rep log done,
  Forall valid_block es -> (length (filter (has_kind Fixed) (done ++ es)) <= 1)%nat -> (length (filter (has_kind Repeating) (done ++ es)) <= 1)%nat ->
  slot Fixed done fixed -> slot Repeating done rep -> exists st, foldM model_block es (fixed, rep, log) = Ok st.
Proof.
  induction es as [|e es IH]; intros fixed rep log done HV L1 L2 HF HR; cbn [foldM]; [eauto|].
  inversion HV as [|e0 es0 He Hes]; subst. unfold model_block at 1.
  destruct (block_from_smdx_complete log e He) as (b & log1 & Hb). rewrite Hb. cbn [bind].
  destruct (block_from_smdx_sound _ _ _ _ Hb) as [HD _]. destruct (kind_other _ _ HD) as [HK1 HK2].
  assert (HE : done ++ e :: es = (done ++ [e]) ++ es) by (rewrite <- app_assoc; reflexivity).
  rewrite HE in L1, L2.
  destruct (bt_type b) eqn:EB.
  - assert (fixed = None).
    { destruct HF as [[_ ->]|(e1 & b1 & HX & _ & _)]; [reflexivity|]. exfalso. rewrite !filter_app, !app_length, HX in L1. cbn [filter] in L1.
      rewrite HK1 in L1. cbn [length] in L1. lia. }
    subst fixed. cbn [bind]. apply (IH _ _ _ (done ++ [e])); auto; [apply slot_new; auto|apply slot_snoc; [apply HK2; discriminate|auto]].
  - assert (rep = None).
    { destruct HR as [[_ ->]|(e1 & b1 & HX & _ & _)]; [reflexivity|]. exfalso. rewrite !filter_app, !app_length, HX in L2. cbn [filter] in L2.
      rewrite HK1 in L2. cbn [length] in L2. lia. }
    subst rep. cbn [bind]. apply (IH _ _ _ (done ++ [e])); auto; [apply slot_snoc; [apply HK2; discriminate|auto]|apply slot_new; auto].
Qed.
Lemma at_most_one_filter k l : at_most_one k l <-> (length (filter (has_kind k) l) <= 1)%nat.
Proof.
  pose proof (of_kind_filter k l) as HO. split.
  - intros [H|(e & H)]; rewrite (of_kind_fun _ _ _ _ HO H); cbn [length]; lia.
  - destruct (filter (has_kind k) l) as [|e [|e2 r]]; intros H; [left; exact HO|right; eauto|cbn [length] in H; lia].
Qed.

(** ** The strings sections keep headers and never fail *)
Definition same_headers (b b' : blocktype) : Prop :=
  bt_type b' = bt_type b /\ bt_len b' = bt_len b /\ bt_name b' = bt_name b /\ map header (bt_points b') = map header (bt_points b).
Definition same_opt (b b' : option blocktype) : Prop :=
  match b, b' with None, None => True | Some x, Some y => same_headers x y | _, _ => False end.
Lemma same_headers_refl b : same_headers b b. Proof. repeat split. Qed.
Lemma same_opt_refl b : same_opt b b. Proof. destruct b; [apply same_headers_refl|exact I]. Qed.
Lemma same_opt_trans a b c : same_opt a b -> same_opt b c -> same_opt a c.
Proof.
  destruct a, b, c; cbn [same_opt]; try contradiction; auto. intros (A1 & A2 & A3 & A4) (B1 & B2 & B3 & B4). repeat split; congruence.
Qed.
Lemma set_pt_headers p p' l : find_pt (pt_id p) l = Some p -> header p' = header p -> map header (set_pt p' l) = map header l.
Proof.
  intros HF HH. assert (HI : pt_id p' = pt_id p) by (change (pt_id p') with (pt_id (header p')); rewrite HH; reflexivity).
  unfold find_pt in HF. induction l as [|q l IH]; [discriminate|]. cbn [set_pt find map] in *. rewrite HI.
  destruct (eqb_list (pt_id q) (pt_id p)); cbn [map].
  - f_equal. congruence.
  - f_equal. auto.
Qed.
Lemma lookup_pt_spec pid b p : lookup_pt pid b = Some p -> exists bt, b = Some bt /\ pid = Some (pt_id p) /\ find_pt (pt_id p) (bt_points bt) = Some p.
Proof.
  unfold lookup_pt. destruct pid as [id|]; [|discriminate]. destruct b as [bt|]; [|discriminate]. intros H. exists bt.
  split; [reflexivity|]. unfold find_pt in *. pose proof H as H'. apply find_some in H' as [_ H']. apply eqb_list_eq in H'. subst id. auto.
Qed.
Lemma strings_point_ok st e : exists st', strings_point st e = Ok st' /\ same_opt (fst (fst st)) (fst (fst st')) /\ same_opt (snd (fst st)) (snd (fst st')).
Proof.
  destruct st as [[fixed rep] log]. unfold strings_point. cbv zeta.
  destruct (lookup_pt (x_get A_ID e) fixed) as [p|] eqn:E1.
  - apply lookup_pt_spec in E1 as (bt & -> & _ & HF).
    destruct (proj2 (point_children_ok true (x_children e) (p, log)) (or_introl eq_refl)) as ([p' log'] & HP).
    unfold point_strings. rewrite HP. cbn [bind]. eexists; split; [reflexivity|]. cbn [fst snd option_map same_opt].
    split; [|apply same_opt_refl]. unfold same_headers, bt_set. cbn [bt_type bt_len bt_name bt_points]. repeat split.
    apply (set_pt_headers p); [exact HF|]. apply (point_children_header _ _ _ _ HP).
  - destruct (lookup_pt (x_get A_ID e) rep) as [p|] eqn:E2.
    + apply lookup_pt_spec in E2 as (bt & -> & _ & HF).
      destruct (proj2 (point_children_ok true (x_children e) (p, log)) (or_introl eq_refl)) as ([p' log'] & HP).
      unfold point_strings. rewrite HP. cbn [bind]. eexists; split; [reflexivity|]. cbn [fst snd option_map same_opt].
      split; [apply same_opt_refl|]. unfold same_headers, bt_set. cbn [bt_type bt_len bt_name bt_points]. repeat split.
      apply (set_pt_headers p); [exact HF|]. apply (point_children_header _ _ _ _ HP).
    + eexists; split; [reflexivity|]. split; apply same_opt_refl.
Qed.
Lemma strings_points_ok es st : exists st', foldM strings_point es st = Ok st' /\ same_opt (fst (fst st)) (fst (fst st')) /\ same_opt (snd (fst st)) (snd (fst st')).
Proof.
  revert st. induction es as [|e es IH]; intros st; cbn [foldM].
  - eexists; split; [reflexivity|]. split; apply same_opt_refl.
  - destruct (strings_point_ok st e) as (st1 & -> & A1 & A2). cbn [bind]. destruct (IH st1) as (st2 & -> & B1 & B2).
    eexists; split; [reflexivity|]. split; eapply same_opt_trans; eauto.
Qed.
Lemma strings_sections_ok id ss st : exists st', foldM (strings_section id) ss st = Ok st' /\
  same_opt (fst (fst (snd st))) (fst (fst (snd st'))) /\ same_opt (snd (fst (snd st))) (snd (fst (snd st'))).
Proof.
  revert st. induction ss as [|s ss IH]; intros st; cbn [foldM].
  - eexists; split; [reflexivity|]. split; apply same_opt_refl.
  - assert (H1 : exists st1, strings_section id st s = Ok st1 /\ same_opt (fst (fst (snd st))) (fst (fst (snd st1))) /\ same_opt (snd (fst (snd st))) (snd (fst (snd st1)))).
    { destruct st as [t ms]. unfold strings_section. destruct (opt_eqb (x_get A_ID s) (Some (id_text id))).
      - destruct (strings_points_ok (findall SMDX_POINT s) ms) as (ms' & -> & A). cbn [bind]. eexists; split; [reflexivity|]. exact A.
      - eexists; split; [reflexivity|]. split; apply same_opt_refl. }
    destruct H1 as (st1 & -> & A1 & A2). cbn [bind]. destruct (IH st1) as (st2 & -> & B1 & B2).
    eexists; split; [reflexivity|]. split; eapply same_opt_trans; eauto.
Qed.
Lemma same_headers_described e b b' : same_headers b b' -> block_described e b -> block_described e b'.
Proof.
  intros (H1 & H2 & H3 & H4) (K1 & K2 & K3 & ps & K4 & K5 & K6). unfold block_described. rewrite H1, H2, H3.
  split; [exact K1|]. split; [exact K2|]. split; [exact K3|]. exists ps. split; [exact K4|]. split.
  - clear -H4 K5. revert H4. generalize (bt_points b'). induction K5 as [|e p es pts H _ IH]; intros [|q l] HE; cbn [map] in HE; try discriminate; constructor.
    + apply described_header. assert (HQ : header q = header p) by congruence. rewrite HQ. now apply described_header in H.
    + apply IH. congruence.
  - assert (HM : forall l, map pt_id l = map pt_id (map header l)) by (intros l; rewrite map_map; reflexivity).
    rewrite HM, H4, <- HM. exact K6.
Qed.
Lemma one_block_same k bs r r' : one_block k bs r -> same_opt r r' -> one_block k bs r'.
Proof.
  intros [[H ->]|(e & b & H & -> & HD)] HS; [destruct r'; [destruct HS|left; auto]|].
  destruct r' as [b'|]; [|destruct HS]. right. exists e, b'. split; [exact H|]. split; [reflexivity|]. eapply same_headers_described; eauto.
Qed.

(** ** Whole documents *)
Lemma model_from_smdx_sound oid root t : model_from_smdx oid root = Ok t ->
  mt_oid t = oid /\
  ((no_model_element root /\ mt_id t = None /\ mt_len t = None /\ mt_name t = None /\ mt_fixed t = empty_fixed_block /\ mt_rep t = None) \/
   exists m, model_element root m /\ valid_model m /\ model_described m t).
Proof.
  unfold model_from_smdx. pose proof (findall_children SMDX_MODEL root) as HM.
  destruct (findall SMDX_MODEL root) as [|m ms].
  - cbn [bind]. destruct (strings_sections_ok None (findall SMDX_STRINGS root) (mkTexts None None None, (None, None, []))) as ([tx [[f r] log]] & -> & A & B).
    cbn [bind]. intros H. apply Ok_inj in H. subst t. cbn [fst snd same_opt] in A, B. destruct f; [destruct A|]. destruct r; [destruct B|].
    split; [reflexivity|]. left. split; [exact HM|]. repeat split.
  - intros H. apply bind_ok in H as ([[[id len] name] st] & H1 & H).
    apply bind_ok in H1 as (idz & Hid & H1). apply attr_int_spec in Hid.
    destruct (x_get A_LEN m) as [l|] eqn:El; [|discriminate]. apply bind_ok in H1 as (lenz & Hlen & H1).
    apply bind_ok in H1 as (st1 & Hst & H1). apply Ok_inj, pair_equal_spec in H1 as [H1 <-]. apply pair_equal_spec in H1 as [H1 <-].
    apply pair_equal_spec in H1 as [<- <-].
    destruct st1 as [[f0 r0] log0].
    destruct (model_blocks_sound _ _ _ _ _ _ _ [] Hst) as (SF & SR & SV); [left; auto|left; auto|]. cbn [app] in SF, SR.
    destruct (strings_sections_ok (Some idz) (findall SMDX_STRINGS root) (mkTexts None None None, (f0, r0, log0))) as ([tx [[f r] log]] & HS & A & B).
    cbv beta iota in H. apply bind_ok in H as (q & Hq & H).
    assert (EQ : q = (tx, (f, r, log))) by (apply Ok_inj; etransitivity; [symmetry; exact Hq|exact HS]). subst q. apply Ok_inj in H. subst t. cbn [fst snd] in A, B. split; [reflexivity|]. right. exists m.
    split; [exists ms; exact HM|]. split.
    + split; [eauto|]. split; [exists lenz, l; split; [exact El|exact Hlen]|]. exists (findall SMDX_BLOCK m). split; [apply findall_children|].
      split; [exact SV|]. split; apply at_most_one_filter.
      * destruct SF as [[-> _]|(e & b & -> & _)]; cbn [length]; lia.
      * destruct SR as [[-> _]|(e & b & -> & _)]; cbn [length]; lia.
    + exists idz. split; [exact Hid|]. cbn [mt_id mt_len mt_name mt_fixed mt_rep]. split; [reflexivity|].
      split; [exists lenz; split; [exists l; split; [exact El|exact Hlen]|reflexivity]|]. split.
      * eexists; split; [reflexivity|]. unfold attr, no_attr, get_default, x_get. change A_NAME with (lit "name"%string).
        destruct (dget (lit "name"%string) (x_attrs m)); [left; reflexivity|right; split; reflexivity].
      * exists (findall SMDX_BLOCK m). split; [apply findall_children|]. apply slot_one in SF, SR.
        split; [|eapply one_block_same; eauto].
        destruct f as [b|].
        -- left. eapply one_block_same; [exact SF|exact A].
        -- right. split; [eapply one_block_same; [exact SF|exact A]|reflexivity].
Qed.
Lemma model_from_smdx_complete oid root :
  no_model_element root \/ (exists m, model_element root m /\ valid_model m) -> exists t, model_from_smdx oid root = Ok t.
Proof.
  intros H. unfold model_from_smdx. pose proof (findall_children SMDX_MODEL root) as HM.
  assert (HX : exists id len name st, match findall SMDX_MODEL root with
    | [] => Ok (None, None, None, (None, None, []))
    | m :: _ =>
      let! id := attr_int (x_get A_ID m) in
      match x_get A_LEN m with
      | None => Raise ESunSpec
      | Some l =>
        let! len := int_of_str l in
        let! ms := foldM model_block (findall SMDX_BLOCK m) (None, None, []) in
        Ok (Some id, Some len, Some (get_default A_NAME (lit "model_"%string ++ str_of_int id) m), ms)
      end
    end = Ok (id, len, name, st)).
  { destruct H as [H|(m & (r & H) & (z & Hz) & (z2 & l & Hl & Hz2) & bs & HB & HV & H1 & H2)].
    - rewrite (children_of_fun _ _ _ _ HM H). repeat eexists.
    - rewrite (children_of_fun _ _ _ _ HM H). apply attr_int_spec in Hz. change (x_get A_ID m) with (x_get (lit "id") m). rewrite Hz. cbn [bind].
      change (x_get A_LEN m) with (dget (lit "len") (x_attrs m)). rewrite Hl. rewrite Hz2. cbn [bind].
      rewrite (children_of_fun _ _ _ _ HB (findall_children _ m)) in HV, H1, H2. apply at_most_one_filter in H1, H2.
      destruct (model_blocks_complete (findall SMDX_BLOCK m) None None [] [] HV H1 H2) as (st & Hst); [left; auto|left; auto|].
      match goal with |- context [bind ?M _] => replace M with (@Ok mstate st) by (symmetry; exact Hst) end.
      cbn [bind]. do 3 eexists. exists st. reflexivity. }
  destruct HX as (id & len & name & st & ->). cbn [bind].
  destruct (strings_sections_ok id (findall SMDX_STRINGS root) (mkTexts None None None, st)) as ([tx [[f r] log]] & -> & _).
  cbn [bind]. eauto.
Qed.
