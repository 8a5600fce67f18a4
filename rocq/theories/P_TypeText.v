(** * P_TypeText: lemmas for C119. *)
From Coq Require Import String.
From Verif Require Import Py P_List M_Suns M_Point M_Mbmap M_Device M_Smdx M_Client S_TypeText M_TypeText P_Print P_IntText.

Definition pt_line (t : told_ptype) : str :=
  lit "  PointType: id = "%string ++ tq_id t ++ lit " offset = "%string ++ str_of_int (tq_offset t) ++ lit " type = "%string ++ ptype_name (tq_type t) ++
  lit " len = "%string ++ str_of_int (tq_len t) ++ lit " sf = "%string ++ opt_str (tq_sf t) ++ lit " access = "%string ++ tq_access t ++
  lit " mandatory = "%string ++ tq_mandatory t.
Definition bt_head (b : told_btype) : str := lit "BlockType: type = "%string ++ btype_name (tq_kind b) ++ lit " len = "%string ++ tq_blen b.
Definition bt_lines (b : told_btype) : list str := bt_head b :: map pt_line (tq_points b).
Definition mt_head (t : told_mtype) : str := lit "ModelType: id = "%string ++ opt_int_str (tq_mid t) ++ lit " len = "%string ++ opt_int_str (tq_mlen t).
Definition mt_lines (t : told_mtype) : list str :=
  mt_head t :: bt_lines (tq_fixed t) ++ match tq_rep t with Some b => bt_lines b | None => [] end.

Lemma name_word t : ~ In 32 (ptype_name t) /\ ~ In 10 (ptype_name t).
Proof. destruct t; split; vm_compute; intros HI; repeat destruct HI as [HI|HI]; discriminate || contradiction. Qed.
Lemma name_inj a b : ptype_name a = ptype_name b -> a = b.
Proof. destruct a, b; try reflexivity; intros H; exfalso; vm_compute in H; discriminate H. Qed.
Lemma kind_word k : ~ In 32 (btype_name k) /\ ~ In 10 (btype_name k).
Proof. destruct k; split; vm_compute; intros HI; repeat destruct HI as [HI|HI]; discriminate || contradiction. Qed.
Lemma kind_inj a b : btype_name a = btype_name b -> a = b.
Proof. destruct a, b; try reflexivity; intros H; exfalso; vm_compute in H; discriminate H. Qed.
Lemma opt_int_no o c : c < 45 -> ~ In c (opt_int_str o).
Proof. intros Hc. destruct o; cbn [opt_int_str]; [apply str_of_int_no; lia|]. vm_compute. intros HI; repeat destruct HI as [HI|HI]; try lia; contradiction. Qed.
Lemma none_no_int z : str_of_int z <> none_str.
Proof. intros E. assert (In 78 (str_of_int z)) as HI by (rewrite E; left; reflexivity). revert HI. apply str_of_int_no. lia. Qed.
Lemma opt_int_inj a b : opt_int_str a = opt_int_str b -> a = b.
Proof.
  destruct a as [a|], b as [b|]; cbn [opt_int_str]; intros H; [f_equal; now apply str_of_int_inj| | |reflexivity]; exfalso; [|symmetry in H]; now apply none_no_int in H.
Qed.
Lemma sf_no t c : c = 32 \/ c = 10 -> words_pt t -> ~ In c (opt_str (tq_sf t)).
Proof.
  intros Hc (_ & _ & _ & H). destruct (tq_sf t) as [s|]; cbn [opt_str].
  - destruct (H s eq_refl) as [[H1 H2] _]. destruct Hc; subst; auto.
  - vm_compute. intros HI; repeat destruct HI as [HI|HI]; lia || contradiction.
Qed.
Lemma pt_line_inj a b : words_pt a -> words_pt b -> pt_line a = pt_line b -> a = b.
Proof.
  intros HA HB H. pose proof (sf_no a 32 ltac:(auto) HA) as SA. pose proof (sf_no b 32 ltac:(auto) HB) as SB.
  destruct HA as ((A1 & _) & (A2 & _) & _ & A4), HB as ((B1 & _) & (B2 & _) & _ & B4). unfold pt_line in H. apply app_inv_head in H.
  change (lit " offset = "%string) with (32 :: lit "offset = "%string) in H. change (lit " type = "%string) with (32 :: lit "type = "%string) in H.
  change (lit " len = "%string) with (32 :: lit "len = "%string) in H. change (lit " sf = "%string) with (32 :: lit "sf = "%string) in H.
  change (lit " access = "%string) with (32 :: lit "access = "%string) in H. change (lit " mandatory = "%string) with (32 :: lit "mandatory = "%string) in H.
  rewrite <- !app_comm_cons in H.
  apply split_at in H as [E1 H]; auto. apply app_inv_head in H. apply split_at in H as [E2 H]; [|apply str_of_int_no; lia..].
  apply app_inv_head in H. apply split_at in H as [E3 H]; [|apply name_word..]. apply app_inv_head in H. apply split_at in H as [E4 H]; [|apply str_of_int_no; lia..].
  apply app_inv_head in H. apply split_at in H as [E5 H]; auto. apply app_inv_head in H. apply split_at in H as [E6 H]; auto. apply app_inv_head in H.
  apply str_of_int_inj in E2, E4. apply name_inj in E3. destruct a as [i1 o1 t1 l1 s1 c1 m1], b as [i2 o2 t2 l2 s2 c2 m2]. cbn in *. subst. f_equal.
  destruct s1 as [s1|], s2 as [s2|]; cbn [opt_str] in E5; [now subst| | |reflexivity]; exfalso.
  - destruct (A4 s1 eq_refl) as [_ HN]. exact (HN E5).
  - destruct (B4 s2 eq_refl) as [_ HN]. exact (HN (eq_sym E5)).
Qed.
Lemma bt_head_inj a b : bt_head a = bt_head b -> tq_kind a = tq_kind b /\ tq_blen a = tq_blen b.
Proof.
  unfold bt_head. intros H. apply app_inv_head in H. change (lit " len = "%string) with (32 :: lit "len = "%string) in H. rewrite <- !app_comm_cons in H.
  apply split_at in H as [E1 H]; [|apply kind_word..]. apply app_inv_head in H. split; [now apply kind_inj|exact H].
Qed.
Lemma mt_head_inj a b : mt_head a = mt_head b -> tq_mid a = tq_mid b /\ tq_mlen a = tq_mlen b.
Proof.
  unfold mt_head. intros H. apply app_inv_head in H. change (lit " len = "%string) with (32 :: lit "len = "%string) in H. rewrite <- !app_comm_cons in H.
  apply split_at in H as [E1 H]; [|apply opt_int_no; lia..]. apply app_inv_head in H. split; now apply opt_int_inj.
Qed.
Lemma pt_line_starts t r : starts 32 (pt_line t :: r).
Proof. reflexivity. Qed.
Lemma types_span : forall p1 p2 r1 r2, Forall words_pt p1 -> Forall words_pt p2 -> ~ starts 32 r1 -> ~ starts 32 r2 ->
  map pt_line p1 ++ r1 = map pt_line p2 ++ r2 -> p1 = p2 /\ r1 = r2.
Proof.
  induction p1 as [|a p1 IH]; intros [|b p2] r1 r2 F1 F2 N1 N2 H; cbn [map app] in H.
  - auto.
  - exfalso. apply N1. subst r1. reflexivity.
  - exfalso. apply N2. subst r2. reflexivity.
  - apply Forall_cons_iff in F1 as [A1 F1]. apply Forall_cons_iff in F2 as [B1 F2].
    assert (E1 : pt_line a = pt_line b) by congruence. assert (E2 : map pt_line p1 ++ r1 = map pt_line p2 ++ r2) by congruence.
    apply pt_line_inj in E1; auto. destruct (IH _ _ _ F1 F2 N1 N2 E2) as [-> ->]. subst. auto.
Qed.
Lemma bt_lines_inj b1 b2 r1 r2 : words_bt b1 -> words_bt b2 -> ~ starts 32 r1 -> ~ starts 32 r2 -> bt_lines b1 ++ r1 = bt_lines b2 ++ r2 -> b1 = b2 /\ r1 = r2.
Proof.
  intros [_ F1] [_ F2] N1 N2 H. unfold bt_lines in H. rewrite <- !app_comm_cons in H.
  assert (E1 : bt_head b1 = bt_head b2) by congruence. assert (E2 : map pt_line (tq_points b1) ++ r1 = map pt_line (tq_points b2) ++ r2) by congruence.
  apply bt_head_inj in E1 as [K L]. apply types_span in E2 as [P R]; auto. destruct b1, b2; cbn in *; subst; auto.
Qed.
Lemma rep_starts o : ~ starts 32 (match o with Some b => bt_lines b | None => [] end).
Proof. destruct o; [intros H; change (66 = 32) in H; discriminate H|intros []]. Qed.
Lemma mt_lines_inj a b : words_mt a -> words_mt b -> mt_lines a = mt_lines b -> a = b.
Proof.
  intros [A1 A2] [B1 B2] H. unfold mt_lines in H. assert (E1 : mt_head a = mt_head b) by congruence.
  assert (E2 : bt_lines (tq_fixed a) ++ match tq_rep a with Some b => bt_lines b | None => [] end = bt_lines (tq_fixed b) ++ match tq_rep b with Some b => bt_lines b | None => [] end) by congruence.
  apply mt_head_inj in E1 as [I L]. apply bt_lines_inj in E2 as [F R]; auto; [|apply rep_starts..].
  destruct a as [i1 l1 f1 r1], b as [i2 l2 f2 r2]. cbn in *. subst. f_equal. destruct r1 as [r1|], r2 as [r2|]; try reflexivity; try discriminate.
  destruct (bt_lines_inj r1 r2 [] [] (A2 _ eq_refl) (B2 _ eq_refl) (fun x => x) (fun x => x)) as [-> _]; [now rewrite !app_nil_r|reflexivity].
Qed.
(** the texts are these lines *)
Lemma ptypes_told l : flat_map (fun t => lit "  "%string ++ pointtype_str t ++ [10]) l = flat_map line (map pt_line (map tell_ptype l)).
Proof.
  induction l as [|t l IH]; [reflexivity|]. cbn [flat_map map]. rewrite IH. unfold line at 2, pt_line, pointtype_str, tell_ptype. now rewrite <- !app_assoc.
Qed.
Lemma btype_told b : blocktype_str b = flat_map line (bt_lines (tell_btype b)).
Proof.
  unfold blocktype_str, bt_lines. cbn [flat_map tell_btype tq_points]. rewrite ptypes_told. unfold line at 2, bt_head. cbn [tq_kind tq_blen].
  rewrite <- !app_assoc. unfold base_str. reflexivity.
Qed.
Lemma mtype_told t : modeltype_str t = flat_map line (mt_lines (tell_mtype t)).
Proof.
  unfold modeltype_str, mt_lines. cbn [flat_map tell_mtype tq_fixed tq_rep]. rewrite flat_map_app, <- btype_told. unfold line at 1, mt_head. cbn [tq_mid tq_mlen].
  rewrite <- !app_assoc. destruct (mt_rep t); cbn [option_map]; [rewrite <- btype_told|]; reflexivity.
Qed.
Lemma lit_no10 s : forallb (fun c => negb (c =? 10)) s = true -> ~ In 10 s.
Proof. intros H HI. rewrite forallb_forall in H. specialize (H _ HI). discriminate. Qed.
Ltac no10 := repeat apply no_app; auto; try (apply lit_no10; reflexivity); try (apply str_of_int_no; lia); try apply name_word; try apply kind_word; try (apply opt_int_no; lia).
Lemma bt_lines_no b : words_bt b -> Forall (fun s => ~ In 10 s) (bt_lines b).
Proof.
  intros [H1 H2]. apply Forall_cons; [unfold bt_head; no10|]. apply Forall_map. eapply Forall_impl; [|exact H2]. intros t HT.
  pose proof (sf_no t 10 ltac:(auto) HT). destruct HT as ((_ & A) & (_ & B) & (_ & C) & _). unfold pt_line. no10.
Qed.
Lemma mt_lines_no t : words_mt t -> Forall (fun s => ~ In 10 s) (mt_lines t).
Proof.
  intros [H1 H2]. apply Forall_cons; [unfold mt_head; no10|]. apply Forall_app. split; [now apply bt_lines_no|]. destruct (tq_rep t); [apply bt_lines_no; auto|constructor].
Qed.

(** ** what the text does not tell is not used to load and read a model *)
Definition laid_pt (t : pointtype) : pointtype := mkPT (pt_id t) (pt_offset t) (pt_type t) (pt_len t) (pt_mandatory t) (pt_access t) None (pt_sf t) None None None [].
Definition laid_bt (b : blocktype) : blocktype := mkBT (bt_type b) (BStr (base_str (bt_len b))) None (map laid_pt (bt_points b)).
Definition laid_mt (t : modeltype) : modeltype := mkMT 0 (mt_id t) (mt_len t) None None None None (laid_bt (mt_fixed t)) (option_map laid_bt (mt_rep t)) [].
Definition laid (p : point) : point := mkP (laid_pt (p_type p)) (p_addr p) (p_link p) (p_impl p) (p_base p) (p_sf p) (p_dirty p).
Definition laid_b (b : block) : block := mkB (b_addr b) (b_len b) (laid_bt (b_type b)) (b_index b) (map laid (b_points b)) (map laid (b_sfs b)).
Definition laid_m (m : model) : model :=
  mkModel (md_id m) (md_index m) (option_map laid_mt (md_type m)) (md_addr m) (md_len m) (md_exposed m) (map laid_b (md_blocks m)) (md_reads m) (md_error m).

Definition untell_pt (t : told_ptype) : pointtype := mkPT (tq_id t) (tq_offset t) (tq_type t) (tq_len t) (tq_mandatory t) (tq_access t) None (tq_sf t) None None None [].
Definition untell_bt (b : told_btype) : blocktype := mkBT (tq_kind b) (BStr (tq_blen b)) None (map untell_pt (tq_points b)).
Lemma laid_told_bt b : laid_bt b = untell_bt (tell_btype b).
Proof. unfold laid_bt, untell_bt, tell_btype. cbn [tq_kind tq_blen tq_points]. rewrite map_map. reflexivity. Qed.
Lemma told_laid t1 t2 : tell_mtype t1 = tell_mtype t2 -> laid_mt t1 = laid_mt t2.
Proof.
  intros H. unfold tell_mtype in H. assert (mt_id t1 = mt_id t2) by congruence. assert (mt_len t1 = mt_len t2) by congruence.
  assert (HF : tell_btype (mt_fixed t1) = tell_btype (mt_fixed t2)) by congruence. assert (HR : option_map tell_btype (mt_rep t1) = option_map tell_btype (mt_rep t2)) by congruence.
  unfold laid_mt. rewrite !laid_told_bt, HF. f_equal; auto. destruct (mt_rep t1), (mt_rep t2); cbn [option_map] in *; try discriminate; [|reflexivity]. rewrite !laid_told_bt. congruence.
Qed.
Lemma base_int_laid b : base_int (bt_len (laid_bt b)) = base_int (bt_len b).
Proof. unfold laid_bt. cbn [bt_len]. destruct (bt_len b); cbn [base_str base_int]; [apply int_of_str_roundtrip|reflexivity]. Qed.
Lemma find_laid id l : find_point id (map laid l) = option_map laid (find_point id l).
Proof. induction l as [|p l IH]; [reflexivity|]. unfold find_point in *. cbn [map find]. change (p_id (laid p)) with (p_id p). destruct (eqb_list (p_id p) id); [reflexivity|exact IH]. Qed.
Lemma load_points_laid ba : forall l last reads pts sfs, load_points ba (map laid_pt l) last reads (map laid pts) (map laid sfs) =
  let '(a, b, c, d) := load_points ba l last reads pts sfs in (a, b, map laid c, map laid d).
Proof.
  induction l as [|t l IH]; intros last reads pts sfs; [reflexivity|]. cbn [map load_points].
  change (pt_type (laid_pt t)) with (pt_type t). change (pt_offset (laid_pt t)) with (pt_offset t). change (pt_len (laid_pt t)) with (pt_len t).
  destruct (is_pad (pt_type t)); [apply IH|]. change (new_point (laid_pt t) (ba + pt_offset t)) with (laid (new_point t (ba + pt_offset t))).
  destruct (is_sunssf (pt_type t)); [change [laid (new_point t (ba + pt_offset t))] with (map laid [new_point t (ba + pt_offset t)]); rewrite <- map_app; apply IH|].
  change [laid (new_point t (ba + pt_offset t))] with (map laid [new_point t (ba + pt_offset t)]); rewrite <- map_app; apply IH.
Qed.
Lemma resolve1_laid own fixed i p : resolve1 (map laid own) (map laid fixed) i (laid p) = resolve1 own fixed i p.
Proof.
  unfold resolve1. change (pt_sf (p_type (laid p))) with (pt_sf (p_type p)). destruct (pt_sf (p_type p)) as [s|]; [|reflexivity].
  rewrite !find_laid. destruct (int_of_str s); [reflexivity|]. destruct (find_point s own); cbn [option_map]; [reflexivity|]. destruct (find_point s fixed); reflexivity.
Qed.
Lemma resolve_laid own fixed i : forall l, resolve (map laid own) (map laid fixed) i (map laid l) = let '(r, ok) := resolve own fixed i l in (map laid r, ok).
Proof.
  induction l as [|p l IH]; [reflexivity|]. cbn [map resolve]. rewrite resolve1_laid. destruct (resolve1 own fixed i p) as [k|]; [|reflexivity].
  rewrite IH. destruct (resolve own fixed i l) as [r ok]. reflexivity.
Qed.
Lemma fixed_sfs_laid l : fixed_sfs (map laid_b l) = map laid (fixed_sfs l).
Proof. destruct l; reflexivity. Qed.
Lemma load_loop_laid : forall fuel rep fin ba bl bt i last blocks reads,
  load_loop fuel (option_map laid_bt rep) fin ba bl (laid_bt bt) i last (map laid_b blocks) reads =
  let '(bs, rs, r) := load_loop fuel rep fin ba bl bt i last blocks reads in (map laid_b bs, rs, r).
Proof.
  induction fuel as [|k IH]; intros rep fin ba bl bt i last blocks reads; [reflexivity|]. cbn [load_loop]. destruct (fin <? ba + bl); [reflexivity|].
  change (bt_points (laid_bt bt)) with (map laid_pt (bt_points bt)). pose proof (load_points_laid ba (bt_points bt) last reads [] []) as HL. cbn [map] in HL. rewrite HL. clear HL.
  destruct (load_points ba (bt_points bt) last reads [] []) as [[[last' reads'] pts] sfs].
  change [mkB ba bl (laid_bt bt) i (map laid pts) (map laid sfs)] with (map laid_b [mkB ba bl bt i pts sfs]). rewrite <- map_app, fixed_sfs_laid, resolve_laid.
  destruct (resolve sfs (fixed_sfs (blocks ++ [mkB ba bl bt i pts sfs])) i pts) as [pts' ok].
  change [mkB ba bl (laid_bt bt) i (map laid pts') (map laid sfs)] with (map laid_b [mkB ba bl bt i pts' sfs]). rewrite <- map_app.
  destruct ok; [|reflexivity]. destruct rep as [rb|]; cbn [option_map]; [|reflexivity]. rewrite base_int_laid.
  destruct (base_int (bt_len rb)) as [rlen|e]; [|reflexivity]. destruct (fin =? ba + bl); [reflexivity|].
  change (Some (laid_bt rb)) with (option_map laid_bt (Some rb)). apply IH.
Qed.
Lemma model_load_laid fuel t m : model_load fuel (fun _ => Ok (laid_mt t)) (laid_m m) = let '(m', r) := model_load fuel (fun _ => Ok t) m in (laid_m m', r).
Proof.
  unfold model_load. change (md_len (laid_m m)) with (md_len m). change (mt_len (laid_mt t)) with (mt_len t). change (mt_fixed (laid_mt t)) with (laid_bt (mt_fixed t)).
  rewrite base_int_laid. change (md_id (laid_m m)) with (md_id m). change (md_addr (laid_m m)) with (md_addr m). change (md_blocks (laid_m m)) with (map laid_b (md_blocks m)).
  change (mt_rep (laid_mt t)) with (option_map laid_bt (mt_rep t)). change (md_reads (laid_m m)) with (md_reads m).
  destruct (if md_len m =? 0 then mt_len t else Some (md_len m)) as [len|]; [|reflexivity]. destruct (base_int (bt_len (mt_fixed t))) as [bl|e]; [|reflexivity].
  rewrite load_loop_laid. destruct (load_loop _ _ _ _ _ _ _ _ (md_blocks m) _) as [[bs rs] r]. reflexivity.
Qed.
Lemma read_sf_laid a d p : read_sf_point a d (laid p) = match read_sf_point a d p with Ok q => Ok (laid q) | Raise e => Raise e end.
Proof.
  unfold read_sf_point, point_data. change (pt_type (p_type (laid p))) with (pt_type (p_type p)). change (p_addr (laid p)) with (p_addr p).
  change (pt_len (p_type (laid p))) with (pt_len (p_type p)). destruct (data_to _ _); reflexivity.
Qed.
Lemma link_laid own fixed k : link_value (map laid own) (map laid fixed) k = link_value own fixed k.
Proof. destruct k; cbn [link_value]; try reflexivity; rewrite find_laid; destruct (find_point _ _); reflexivity. Qed.
Lemma read_point_laid own fixed a d p : read_point (map laid own) (map laid fixed) a d (laid p) = match read_point own fixed a d p with Ok q => Ok (laid q) | Raise e => Raise e end.
Proof.
  unfold read_point, point_data. rewrite (link_laid own fixed (p_link (laid p))). change (pt_type (p_type (laid p))) with (pt_type (p_type p)). change (p_addr (laid p)) with (p_addr p).
  change (pt_len (p_type (laid p))) with (pt_len (p_type p)). destruct (data_to _ _) as [v|e]; [|reflexivity]. cbn [bind]. destruct (is_impl _ v); reflexivity.
Qed.
Lemma map_until_laid (f g : point -> res point) : (forall p, g (laid p) = match f p with Ok q => Ok (laid q) | Raise e => Raise e end) ->
  forall l, map_until g (map laid l) = let '(l', r) := map_until f l in (map laid l', r).
Proof.
  intros H. induction l as [|p l IH]; [reflexivity|]. cbn [map map_until]. rewrite H. destruct (f p); [|reflexivity]. rewrite IH. destruct (map_until f l). reflexivity.
Qed.
Lemma read_block_laid fx a d b : read_block (option_map (map laid) fx) a d (laid_b b) = let '(b', r) := read_block fx a d b in (laid_b b', r).
Proof.
  unfold read_block. change (b_sfs (laid_b b)) with (map laid (b_sfs b)). rewrite (map_until_laid _ _ (read_sf_laid a d)). destruct (map_until (read_sf_point a d) (b_sfs b)) as [sfs [x|e]]; [|reflexivity].
  change (b_points (laid_b b)) with (map laid (b_points b)).
  replace (match option_map (map laid) fx with Some f => f | None => map laid sfs end) with (map laid (match fx with Some f => f | None => sfs end)) by (destruct fx; reflexivity).
  rewrite (map_until_laid _ _ (read_point_laid sfs _ a d)). destruct (map_until (read_point sfs _ a d) (b_points b)). reflexivity.
Qed.
Lemma read_blocks_laid a d : forall l fx, read_blocks (option_map (map laid) fx) a d (map laid_b l) = let '(l', r) := read_blocks fx a d l in (map laid_b l', r).
Proof.
  induction l as [|b l IH]; intros fx; [reflexivity|]. cbn [map read_blocks]. rewrite read_block_laid. destruct (read_block fx a d b) as [b' [x|e]]; [|reflexivity].
  replace (match option_map (map laid) fx with Some f => f | None => b_sfs (laid_b b') end) with (map laid (match fx with Some f => f | None => b_sfs b' end)) by (destruct fx; reflexivity).
  change (Some (map laid ?x)) with (option_map (map laid) (Some x)). rewrite IH. destruct (read_blocks (Some _) a d l). reflexivity.
Qed.
Lemma read_points_laid D (dv : mdev D) s m : read_points dv s (laid_m m) = let '(s', m', r) := read_points dv s m in (s', laid_m m', r).
Proof.
  unfold read_points. change (md_type (laid_m m)) with (option_map laid_mt (md_type m)). destruct (md_type m) as [t|] eqn:ET; cbn [option_map]; [|reflexivity].
  change (read_model_data dv s (laid_m m)) with (read_model_data dv s m). destruct (read_model_data dv s m) as [s' [[|x d]|e]]; [reflexivity| |reflexivity].
  change (md_len (laid_m m)) with (md_len m). destruct (negb _); [reflexivity|]. change (md_addr (laid_m m)) with (md_addr m).
  change (md_blocks (laid_m m)) with (map laid_b (md_blocks m)). pose proof (read_blocks_laid (md_addr m) (x :: d) (md_blocks m) None) as HL. cbn [option_map] in HL. rewrite HL. clear HL.
  destruct (read_blocks None (md_addr m) (x :: d) (md_blocks m)) as [bs r]. unfold with_blocks, laid_m. cbn. rewrite ?ET. reflexivity.
Qed.
Lemma seen_laid m : seen (laid_m m) = seen m.
Proof.
  unfold seen. cbn [laid_m md_id md_addr md_len md_blocks]. rewrite map_map. f_equal. apply map_ext. intros b. cbn [laid_b b_addr b_index b_points b_sfs]. rewrite !map_map. reflexivity.
Qed.

(** deciding the conditions on names *)
Definition wordb (s : str) : bool := forallb (fun c => negb (c =? 32) && negb (c =? 10)) s.
Lemma wordb_ok s : wordb s = true -> word s.
Proof. intros HS. unfold wordb in HS. rewrite forallb_forall in HS. split; intros HI; specialize (HS _ HI); discriminate. Qed.
Definition words_ptb (t : told_ptype) : bool :=
  wordb (tq_id t) && wordb (tq_access t) && wordb (tq_mandatory t) && match tq_sf t with Some s => wordb s && negb (eqb_list s (lit "None"%string)) | None => true end.
Definition words_btb (b : told_btype) : bool := wordb (tq_blen b) && forallb words_ptb (tq_points b).
Definition words_mtb (t : told_mtype) : bool := words_btb (tq_fixed t) && match tq_rep t with Some b => words_btb b | None => true end.
Lemma words_ptb_ok t : words_ptb t = true -> words_pt t.
Proof.
  unfold words_ptb. rewrite !andb_true_iff. intros [[[H1 H2] H3] H4]. split; [now apply wordb_ok|]. split; [now apply wordb_ok|]. split; [now apply wordb_ok|].
  intros x E. rewrite E in H4. apply andb_true_iff in H4 as [H4 H5]. split; [now apply wordb_ok|]. intros E'. subst x. discriminate.
Qed.
Lemma words_btb_ok b : words_btb b = true -> words_bt b.
Proof. unfold words_btb. rewrite andb_true_iff. intros [H1 H2]. split; [exact (proj2 (wordb_ok _ H1))|]. apply Forall_forall. intros t HT. apply words_ptb_ok. rewrite forallb_forall in H2. auto. Qed.
Lemma words_mtb_ok t : words_mtb t = true -> words_mt t.
Proof. unfold words_mtb. rewrite andb_true_iff. intros [H1 H2]. split; [now apply words_btb_ok|]. intros b E. rewrite E in H2. now apply words_btb_ok. Qed.
