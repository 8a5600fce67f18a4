(** * P_Script: scripts of assignments through the wrapper. *)
From Coq Require Import String.
From Verif Require Import Py P_List M_Util M_Float M_Suns M_Point M_Mbmap M_Device S_Device M_Client S_Client P_Client M_Wrapper P_Wrapper S_Script.

Lemma set_in_first E l id v l' : set_in E l id v = Ok l' -> forall a p c, l = a ++ p :: c -> p_id p = id -> Forall (fun q => p_id q <> id) a ->
  exists p', point_set E p v = Ok p' /\ l' = a ++ p' :: c.
Proof.
  revert l'. induction l as [|q l IH]; intros l' H a p c HL HP HF; [destruct a; discriminate|]. cbn [set_in] in H. destruct a as [|x a]; cbn [app] in HL.
  - assert (q = p /\ l = c) as [-> ->] by (split; congruence). rewrite HP, eqb_list_refl in H. apply bind_ok in H as (p' & H1 & H2). apply Ok_inj in H2. subst l'. exists p'. auto.
  - assert (q = x /\ l = a ++ p :: c) as [-> ->] by (split; congruence). inversion HF as [|? ? F1 F2]; subst. apply eqb_list_neq in F1. rewrite F1 in H.
    apply bind_ok in H as (r' & H1 & H2). apply Ok_inj in H2. subst l'. destruct (IH r' H1 a p c eq_refl eq_refl F2) as (p' & E1 & ->). exists p'. auto.
Qed.
Lemma set_in_other E l id v l' : set_in E l id v = Ok l' -> forall id' a p c, id' <> id -> l = a ++ p :: c -> p_id p = id' -> Forall (fun q => p_id q <> id') a ->
  exists a' c', l' = a' ++ p :: c' /\ Forall (fun q => p_id q <> id') a'.
Proof.
  intros H id' a p c HN -> HP HF. destruct (set_in_spec _ _ _ _ _ H) as [[_ ->]|(a2 & q & c2 & q' & HL & -> & H3 & H4 & H5)]; [exists a, c; auto|].
  assert (HQ : p_id q' = p_id q).
  { unfold point_set in H5. apply bind_ok in H5 as (b & _ & H5). apply Ok_inj in H5. subst q'. reflexivity. }
  clear H. revert a2 HL H4. induction a as [|x a IH]; intros a2 HL H4.
  - destruct a2 as [|y a2]; cbn [app] in HL.
    + assert (p = q) by congruence. subst q. congruence.
    + assert (y = p) by congruence. subst y. exists [], (a2 ++ q' :: c2). auto.
  - inversion HF as [|? ? F1 F2]; subst. destruct a2 as [|y a2]; cbn [app] in HL.
    + assert (q = x) by congruence. subst q. assert (c2 = a ++ p :: c) by congruence. subst c2. exists (q' :: a), c. split; [reflexivity|]. constructor; [congruence|exact F2].
    + assert (y = x) by congruence. subst y. inversion H4 as [|? ? G1 G2]; subst. destruct (IH F2 a2) as (a' & c' & E1 & E2); [congruence|exact G2|].
      exists (x :: a'), c'. cbn [app]. rewrite E1. split; [reflexivity|]. constructor; auto.
Qed.
Definition settable (p : point) : Prop := p_base p <> VNone \/ p_link p = SfNone.
Lemma assigned_id p q : assigned_point p q -> p_id q = p_id p.
Proof. intros [->|((v & ->) & _)]; reflexivity. Qed.
Lemma set_in_assigned E id v : forall l1 l, Forall2 assigned_point l1 l -> forall l', set_in E l id v = Ok l' ->
  (forall a p c, l1 = a ++ p :: c -> p_id p = id -> Forall (fun q => p_id q <> id) a -> settable p) -> Forall2 assigned_point l1 l'.
Proof.
  induction 1 as [|p q l1 l HP HS IH]; intros l' H HX; cbn [set_in] in H; [apply Ok_inj in H; subst; constructor|].
  destruct (eqb_list (p_id q) id) eqn:EQ.
  - apply eqb_list_eq in EQ. apply bind_ok in H as (q' & H1 & H2). apply Ok_inj in H2. subst l'. constructor; [|exact HS].
    assert (HSET : settable p). { apply (HX [] p l1); [reflexivity| |constructor]. rewrite <- EQ. symmetry. now apply assigned_id. }
    unfold point_set in H1. apply bind_ok in H1 as (b & _ & H1). apply Ok_inj in H1. subst q'. right. split; [|exact HSET].
    exists b. destruct HP as [->|((w & ->) & _)]; reflexivity.
  - apply eqb_list_neq in EQ. apply bind_ok in H as (r' & H1 & H2). apply Ok_inj in H2. subst l'. constructor; [exact HP|]. apply IH; [exact H1|].
    intros a p0 c -> HP0 HF. apply (HX (p :: a) p0 c); [reflexivity|exact HP0|]. constructor; [|exact HF]. rewrite <- (assigned_id _ _ HP). exact EQ.
Qed.

(** *** normal form of an assignment: one block is changed *)
Definition with_blks (m : model) (l : list block) : model := with_blocks m l.
Lemma set_block_ok E id v : forall l k l', set_block E l k id v = Ok l' -> exists b ps, nth_error l k = Some b /\ set_in E (b_points b) id v = Ok ps /\
  (forall j, nth_error l' j = if Nat.eqb j k then Some (set_points b ps) else nth_error l j) /\ length l' = length l.
Proof.
  induction l as [|b l IH]; intros k l' H; [destruct k; discriminate|]. destruct k as [|k]; cbn [set_block] in H.
  - apply bind_ok in H as (ps & H1 & H2). apply Ok_inj in H2. subst l'. exists b, ps. split; [reflexivity|]. split; [exact H1|]. split; [|reflexivity].
    intros [|j]; reflexivity.
  - apply bind_ok in H as (r' & H1 & H2). apply Ok_inj in H2. subst l'. destruct (IH _ _ H1) as (c & ps & A & B & C & D). exists c, ps. split; [exact A|]. split; [exact B|].
    split; [|cbn [length]; congruence]. intros [|j]; [reflexivity|]. cbn [nth_error Nat.eqb]. apply C.
Qed.
Lemma script_set_ok E m i id v m' : md_exposed m = true -> script_set E m i id v = Ok m' ->
  (md_blocks m = [] /\ m' = m) \/
  exists l b ps, m' = with_blocks m l /\ nth_error (md_blocks m) i = Some b /\ set_in E (b_points b) id v = Ok ps /\ length l = length (md_blocks m) /\
    forall j, nth_error l j = if Nat.eqb j i then Some (set_points b ps) else nth_error (md_blocks m) j.
Proof.
  intros HE H. destruct m as [a1 a2 a3 a4 a5 ex bl a6 a7]. cbn [md_exposed md_blocks] in *. subst ex. destruct i as [|k]; cbn [script_set wmodel_set md_exposed md_blocks tl] in H.
  - unfold wmodel_set in H. cbn [md_exposed md_blocks] in H. destruct bl as [|b r]; [left; split; [reflexivity|]; apply Ok_inj in H; now subst|].
    right. apply bind_ok in H as (ps & H1 & H2). apply Ok_inj in H2. subst m'. exists (set_points b ps :: r), b, ps. split; [reflexivity|]. split; [reflexivity|]. split; [exact H1|].
    split; [reflexivity|]. intros [|j]; reflexivity.
  - right. apply bind_ok in H as (r' & H1 & H2). apply Ok_inj in H2. subst m'. destruct (set_block_ok _ _ _ _ _ _ H1) as (b & ps & A & B & C & D).
    destruct bl as [|b0 r]; [cbn [tl] in A; destruct k; discriminate|]. cbn [tl] in *. exists (b0 :: r'), b, ps. split; [reflexivity|]. split; [exact A|]. split; [exact B|].
    split; [cbn [length]; congruence|]. intros [|j]; [reflexivity|]. cbn [nth_error Nat.eqb]. apply C.
Qed.
Lemma script_get_at E m i id p : md_exposed m = true -> attribute m i id p -> script_get E m i id = value_getter E (p_base p) (p_sf p).
Proof.
  intros HE (b & a & c & HB & HL & HP & HF). assert (HG : get_in E (b_points b) id = value_getter E (p_base p) (p_sf p)).
  { unfold get_in. replace (find_point id (b_points b)) with (Some p); [reflexivity|]. symmetry. rewrite HL. clear - HP HF. unfold find_point.
    induction a as [|x a IH]; cbn [app find]; [unfold p_id; now rewrite HP, eqb_list_refl|]. inversion HF as [|? ? F1 F2]; subst. apply eqb_list_neq in F1. unfold p_id. rewrite F1. now apply IH. }
  destruct i as [|k]; cbn [script_get].
  - unfold model_points. rewrite HE. destruct (md_blocks m) as [|b0 r]; [discriminate|]. cbn [nth_error] in HB. apply Some_inj in HB. now subst b0.
  - destruct (md_blocks m) as [|b0 r]; [discriminate|]. cbn [nth_error] in HB. cbn [tl]. now rewrite HB.
Qed.

(** *** one assignment *)
Lemma attribute_step E m j jd v m' i id p : md_exposed m = true -> script_set E m j jd v = Ok m' -> attribute m i id p ->
  md_exposed m' = true /\ ((j = i /\ jd = id -> exists p', point_set E p v = Ok p' /\ attribute m' i id p') /\ (~ (j = i /\ jd = id) -> attribute m' i id p)).
Proof.
  intros HE H (b & a & c & HB & HL & HP & HF). destruct (script_set_ok _ _ _ _ _ _ HE H) as [[HN _]|(l & b2 & ps & -> & HB2 & HS & _ & HJ)].
  { rewrite HN in HB. destruct i; discriminate. }
  split; [exact HE|]. cbn [md_blocks with_blocks]. split.
  - intros [-> ->]. rewrite HB in HB2. apply Some_inj in HB2. subst b2. destruct (set_in_first _ _ _ _ _ HS a p c HL HP HF) as (p' & E1 & ->). exists p'. split; [exact E1|].
    exists (set_points b (a ++ p' :: c)), a, c. cbn [md_blocks with_blocks]. rewrite HJ, Nat.eqb_refl. repeat split; auto.
    unfold point_set in E1. apply bind_ok in E1 as (x & _ & E1). apply Ok_inj in E1. subst p'. exact HP.
  - intros HN. destruct (Nat.eqb_spec i j) as [->|NE].
    + rewrite HB in HB2. apply Some_inj in HB2. subst b2. assert (HD : id <> jd) by (intros ->; apply HN; auto).
      destruct (set_in_other _ _ _ _ _ HS id a p c HD HL HP HF) as (a' & c' & -> & HF'). exists (set_points b (a' ++ p :: c')), a', c'. cbn [md_blocks with_blocks].
      rewrite HJ, Nat.eqb_refl. repeat split; auto.
    + exists b, a, c. cbn [md_blocks with_blocks]. rewrite HJ. destruct (Nat.eqb_spec i j); [contradiction|]. repeat split; auto.
Qed.
Lemma point_set_ok E p v p' : point_set E p v = Ok p' -> value_setter E (pt_type (p_type p)) (p_sf p) v = Ok (p_base p') /\ p_type p' = p_type p /\ p_sf p' = p_sf p /\ p_link p' = p_link p.
Proof. unfold point_set. intros H. apply bind_ok in H as (b & H1 & H). apply Ok_inj in H. subst p'. auto. Qed.

(** *** a whole script, seen from one attribute *)
Lemma op_dec (i j : nat) (id jd : str) : {j = i /\ jd = id} + {~ (j = i /\ jd = id)}.
Proof.
  destruct (Nat.eq_dec j i) as [->|]; [|right; intros [? _]; contradiction]. destruct (eqb_list jd id) eqn:E; [left; split; [reflexivity|now apply eqb_list_eq]|].
  right. intros [_ ->]. rewrite eqb_list_refl in E. discriminate.
Qed.
Lemma script_attribute E : forall ops m m', md_exposed m = true -> script_sets E m ops = Ok m' -> forall i id p, attribute m i id p ->
  exists p', attribute m' i id p' /\ p_type p' = p_type p /\ p_sf p' = p_sf p /\ p_link p' = p_link p /\
    (untouched ops i id -> p' = p) /\ (forall v, last_assigned ops i id v -> value_setter E (pt_type (p_type p)) (p_sf p) v = Ok (p_base p')).
Proof.
  induction ops as [|[[j jd] w] ops IH]; intros m m' HE H i id p HA; cbn [script_sets] in H.
  - apply Ok_inj in H. subst m'. exists p. repeat split; auto. intros v (a & c & HX & _). destruct a; discriminate.
  - apply bind_ok in H as (m1 & H1 & H2). destruct (attribute_step _ _ _ _ _ _ _ _ _ HE H1 HA) as (HE1 & S1 & S2). destruct (op_dec i j id jd) as [EQ|NE].
    + destruct (S1 EQ) as (p1 & P1 & A1). destruct EQ as [-> ->]. destruct (point_set_ok _ _ _ _ P1) as (V1 & T1 & F1 & L1).
      destruct (IH m1 m' HE1 H2 i id p1 A1) as (p' & A' & T' & F' & L' & U' & V'). exists p'. split; [exact A'|]. split; [congruence|]. split; [congruence|]. split; [congruence|]. split.
      * intros HU. exfalso. apply (HU w). now left.
      * intros v (a & c & HX & HC). destruct a as [|x a]; cbn [app] in HX.
        -- assert (w = v /\ ops = c) as [-> ->] by (split; congruence). rewrite U'; [exact V1|]. exact HC.
        -- rewrite <- T1, <- F1. apply V'. exists a, c. split; [congruence|exact HC].
    + specialize (S2 NE). destruct (IH m1 m' HE1 H2 i id p S2) as (p' & A' & T' & F' & L' & U' & V'). exists p'. repeat (split; [assumption|]). split.
      * intros HU. apply U'. intros v HV. apply (HU v). now right.
      * intros v (a & c & HX & HC). apply V'. destruct a as [|x a]; cbn [app] in HX.
        -- exfalso. apply NE. split; congruence.
        -- exists a, c. split; [congruence|exact HC].
Qed.
Lemma script_exposed E : forall ops m m', script_sets E m ops = Ok m' -> md_exposed m = true -> md_exposed m' = true.
Proof.
  induction ops as [|[[j jd] w] ops IH]; intros m m' H HE; cbn [script_sets] in H; [apply Ok_inj in H; now subst|].
  apply bind_ok in H as (m1 & H1 & H2). apply (IH _ _ H2). destruct (script_set_ok _ _ _ _ _ _ HE H1) as [[_ ->]|(l & b & ps & -> & _)]; exact HE.
Qed.

(** *** a whole script is an assignment in the sense of C46, C74 *)
Lemma Forall2_nth_iff {A B} (R : A -> B -> Prop) : forall l l', length l = length l' -> (forall k x y, nth_error l k = Some x -> nth_error l' k = Some y -> R x y) -> Forall2 R l l'.
Proof.
  induction l as [|x l IH]; intros [|y l'] HL H; try discriminate; constructor; [exact (H O x y eq_refl eq_refl)|]. apply IH; [cbn [length] in HL; lia|]. intros k. exact (H (S k)).
Qed.
Lemma Forall2_nth_some {A B} (R : A -> B -> Prop) l l' : Forall2 R l l' -> forall k x y, nth_error l k = Some x -> nth_error l' k = Some y -> R x y.
Proof. induction 1 as [|a b l l' H1 H2 IH]; intros [|k] x y HX HY; try discriminate; cbn [nth_error] in *; [apply Some_inj in HX, HY; now subst|eauto]. Qed.
Lemma Forall2_len {A B} (R : A -> B -> Prop) l l' : Forall2 R l l' -> length l = length l'.
Proof. induction 1; cbn [length]; congruence. Qed.
Lemma script_assigned E m1 : md_exposed m1 = true -> forall ops m m', assigned m1 m -> script_sets E m ops = Ok m' -> (forall i id v p, In (i, id, v) ops -> attribute m1 i id p -> settable p) -> assigned m1 m'.
Proof.
  intros HE. induction ops as [|[[j jd] w] ops IH]; intros m m' HAS H HT; cbn [script_sets] in H; [apply Ok_inj in H; now subst|].
  apply bind_ok in H as (m2 & H1 & H2). apply (IH m2 m'); [|exact H2|intros i id v p HI; apply (HT i id v p); now right].
  destruct HAS as (l & -> & HL). destruct (script_set_ok E (with_blocks m1 l) _ _ _ _ HE H1) as [[_ ->]|(l' & b & ps & -> & HB & HS & HLEN & HJ)]; [exists l; auto|].
  exists l'. split; [reflexivity|]. cbn [md_blocks with_blocks] in *. apply Forall2_nth_iff; [pose proof (Forall2_len _ _ _ HL); congruence|].
  intros k x y HX HY. rewrite HJ in HY. destruct (Nat.eqb_spec k j) as [->|NE]; [|eapply Forall2_nth_some; eauto].
  apply Some_inj in HY. subst y. pose proof (Forall2_nth_some _ _ _ HL j x b HX HB) as (pl & -> & HPL). exists ps. split; [reflexivity|]. cbn [b_points with_points] in HS.
  eapply set_in_assigned; [exact HPL|exact HS|]. intros a p c HE1 HP HF. apply (HT j jd w p); [now left|]. exists x, a, c. auto.
Qed.
Lemma assigned_refl m : assigned m m.
Proof.
  exists (md_blocks m). split; [now destruct m|]. induction (md_blocks m) as [|b l IH]; constructor; [|exact IH]. exists (b_points b). split; [now destruct b|].
  induction (b_points b) as [|p ps IH']; constructor; [now left|exact IH'].
Qed.

(** *** clearing the marks *)
Lemma attribute_clean m i id p : attribute m i id p -> attribute (clean m) i id (set_dirty p false).
Proof.
  intros (b & a & c & HB & HL & HP & HF). exists (clean_block b), (map (fun p => set_dirty p false) a), (map (fun p => set_dirty p false) c).
  split; [cbn [clean md_blocks with_blocks]; now apply map_nth_error|]. split; [cbn [clean_block b_points]; rewrite HL, map_app; reflexivity|]. split; [exact HP|].
  rewrite Forall_map. exact HF.
Qed.
Lemma script_values E m1 ops m2 : md_exposed m1 = true -> script_sets E m1 ops = Ok m2 -> shows E m1 ops (clean m2).
Proof.
  intros HE H i id p HA. destruct (script_attribute E ops m1 m2 HE H i id p HA) as (p' & A' & T' & F' & L' & U' & V').
  assert (HE2 : md_exposed (clean m2) = true) by (apply (script_exposed E ops m1 m2 H HE)).
  rewrite (script_get_at E (clean m2) i id _ HE2 (attribute_clean _ _ _ _ A')), (script_get_at E m1 i id p HE HA). cbn [p_base p_sf set_dirty]. split.
  - intros HU. now rewrite (U' HU).
  - intros v HV. exists (p_base p'). split; [exact (V' v HV)|]. now rewrite F'.
Qed.

(** *** a script of accepted assignments succeeds, and all it modifies can be stored *)
Definition fine (p : point) : Prop := p_dirty p = true -> storable p.
Lemma attribute_unique m i id p q : attribute m i id p -> attribute m i id q -> p = q.
Proof.
  intros (b & a & c & HB & HL & HP & HF) (b' & a' & c' & HB' & HL' & HP' & HF'). rewrite HB in HB'. apply Some_inj in HB'. subst b'. rewrite HL in HL'. clear - HL' HP HP' HF HF'.
  revert a' HL' HF'. induction a as [|x a IH]; intros [|y a'] H HF'; cbn [app] in H; [congruence| | |].
  - assert (y = p) by congruence. subst y. inversion HF'; congruence.
  - assert (x = q) by congruence. subst x. inversion HF; congruence.
  - inversion HF; inversion HF'; subst. apply (IH ltac:(assumption) a'); [congruence|assumption].
Qed.
Lemma set_in_succeeds E l id v a p c : l = a ++ p :: c -> p_id p = id -> Forall (fun q => p_id q <> id) a -> forall p', point_set E p v = Ok p' ->
  set_in E l id v = Ok (a ++ p' :: c).
Proof.
  intros -> HP HF p' H. induction a as [|x a IH]; cbn [app set_in].
  - rewrite HP, eqb_list_refl, H. reflexivity.
  - inversion HF as [|? ? F1 F2]; subst. apply eqb_list_neq in F1. rewrite F1, (IH F2). reflexivity.
Qed.
Lemma set_block_succeeds E l k id v b ps : nth_error l k = Some b -> set_in E (b_points b) id v = Ok ps -> exists l', set_block E l k id v = Ok l'.
Proof.
  revert k. induction l as [|x l IH]; intros [|k] HB HS; try discriminate; cbn [set_block nth_error] in *.
  - apply Some_inj in HB. subst x. rewrite HS. eexists. reflexivity.
  - destruct (IH k HB HS) as (l' & ->). eexists. reflexivity.
Qed.
Lemma script_set_succeeds E m i id v p p' : md_exposed m = true -> attribute m i id p -> point_set E p v = Ok p' -> exists m', script_set E m i id v = Ok m'.
Proof.
  intros HE (b & a & c & HB & HL & HP & HF) H. pose proof (set_in_succeeds E _ _ _ _ _ _ HL HP HF p' H) as HS. destruct i as [|k]; cbn [script_set].
  - unfold wmodel_set. rewrite HE. destruct (md_blocks m) as [|b0 r]; [eexists; reflexivity|]. cbn [nth_error] in HB. apply Some_inj in HB. subst b0. rewrite HS. eexists. reflexivity.
  - destruct (md_blocks m) as [|b0 r]; [discriminate|]. cbn [nth_error] in HB. cbn [tl]. destruct (set_block_succeeds E r k id v b _ HB HS) as (l' & ->). eexists. reflexivity.
Qed.
Lemma storable_ext p q : p_type p = p_type q -> p_base p = p_base q -> storable p -> storable q.
Proof. intros H1 H2 (d & A & B & C). unfold encoding, implemented in *. rewrite H1, H2 in *. exists d. auto. Qed.
Lemma In_nth_blocks {A} (l l' : list A) i x : (forall j, nth_error l' j = if Nat.eqb j i then Some x else nth_error l j) -> forall y, In y l' -> y = x \/ In y l.
Proof. intros H y HY. apply In_nth_error in HY as (j & HJ). rewrite H in HJ. destruct (Nat.eqb j i); [left; congruence|right; eapply nth_error_In; eauto]. Qed.
Lemma script_set_fine E m i id v m' p p' : md_exposed m = true -> attribute m i id p -> point_set E p v = Ok p' -> storable p' -> script_set E m i id v = Ok m' ->
  Forall fine (points_of m) -> Forall fine (points_of m').
Proof.
  intros HE HA HP HST H HF. destruct (script_set_ok _ _ _ _ _ _ HE H) as [[_ ->]|(l & b & ps & -> & HB & HS & _ & HJ)]; [exact HF|].
  destruct HA as (b2 & a & c & HB2 & HL & HI & HFR). rewrite HB in HB2. apply Some_inj in HB2. subst b2. rewrite (set_in_succeeds E _ _ _ _ _ _ HL HI HFR p' HP) in HS. apply Ok_inj in HS. subst ps.
  rewrite Forall_forall in *. intros q HQ. unfold points_of in HQ. cbn [md_blocks with_blocks] in HQ. apply in_flat_map in HQ as (x & HX & HQ).
  destruct (In_nth_blocks _ _ _ _ HJ x HX) as [->|HX'].
  - cbn [set_points b_points] in HQ. assert (HQ' : q = p' \/ In q (b_points b)) by (rewrite HL; apply in_app_iff in HQ as [HQ|[HQ|HQ]]; [right|left; auto|right]; rewrite in_app_iff; [auto|right; right; auto]).
    destruct HQ' as [->|HQ']; [intros _; exact HST|]. apply HF. apply in_flat_map. exists b. split; [eapply nth_error_In; eauto|exact HQ'].
  - apply HF. apply in_flat_map. eauto.
Qed.
Lemma script_succeeds E : forall ops m, md_exposed m = true -> Forall (accepted E m) ops -> Forall fine (points_of m) ->
  exists m', script_sets E m ops = Ok m' /\ Forall fine (points_of m').
Proof.
  intros ops m0 HE0 HA0 HF0. assert (HG : forall ops m, md_exposed m = true -> Forall fine (points_of m) ->
    Forall (fun op => let '(i, id, v) := op in exists p b, attribute m i id p /\ value_setter E (pt_type (p_type p)) (p_sf p) v = Ok b /\
      storable (mkP (p_type p) (p_addr p) (p_link p) (p_impl p) b (p_sf p) true)) ops -> exists m', script_sets E m ops = Ok m' /\ Forall fine (points_of m')).
  { clear. induction ops as [|[[i id] v] ops IH]; intros m HE HF HA; [exists m; split; [reflexivity|exact HF]|]. inversion HA as [|? ? A0 A4]; subst. destruct A0 as (p & b & A1 & A2 & A3).
    assert (HP : point_set E p v = Ok (mkP (p_type p) (p_addr p) (p_link p) (p_impl p) b (p_sf p) true)) by (unfold point_set; rewrite A2; reflexivity).
    destruct (script_set_succeeds E m i id v p _ HE A1 HP) as (m1 & E1). cbn [script_sets]. rewrite E1. cbn [bind]. apply IH.
    - destruct (attribute_step _ _ _ _ _ _ _ _ _ HE E1 A1) as (HX & _). exact HX.
    - eapply script_set_fine; eauto.
    - rewrite Forall_forall in *. intros [[j jd] w] HI. destruct (A4 _ HI) as (q & c & B1 & B2 & B3).
      destruct (attribute_step _ _ _ _ _ _ _ _ _ HE E1 B1) as (_ & S1 & S2). destruct (op_dec j i jd id) as [EQ|NE].
      + destruct (S1 EQ) as (q' & Q1 & Q2). destruct (point_set_ok _ _ _ _ Q1) as (V1 & T1 & F1 & L1). exists q', c. split; [exact Q2|]. rewrite T1, F1. split; [exact B2|].
        eapply storable_ext; [| |exact B3]; reflexivity.
      + exists q, c. split; [exact (S2 NE)|auto]. }
  apply HG; auto. eapply Forall_impl; [|exact HA0]. intros [[i id] v] (p & b & A & B & C & _). exists p, b. auto.
Qed.
Lemma fine_modified m : Forall fine (points_of m) -> Forall storable (modified m).
Proof. rewrite !Forall_forall. intros H p HP. apply filter_In in HP as [H1 H2]. now apply H. Qed.
Lemma accepted_settable E m ops : Forall (accepted E m) ops -> forall i id v p, In (i, id, v) ops -> attribute m i id p -> settable p.
Proof.
  intros H i id v p HI HA. rewrite Forall_forall in H. destruct (H _ HI) as (q & b & A & _ & _ & S). now rewrite (attribute_unique _ _ _ _ _ HA A).
Qed.
