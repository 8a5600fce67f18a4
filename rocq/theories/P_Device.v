(** * P_Device: proofs about Model.load. *)
From Verif Require Import Py P_List M_Util M_Suns M_Mbmap M_Device S_Device.

Definition set_link (p : point) (k : sflink) : point := mkP (p_type p) (p_addr p) k (p_impl p) (p_base p) (p_sf p) (p_dirty p).

(** ** the points *)
Lemma load_points_spec baddr l : forall last reads pts sfs last' reads' pts' sfs',
  load_points baddr l last reads pts sfs = (last', reads', pts', sfs') ->
  pts' = pts ++ map (fun t => new_point t (baddr + pt_offset t)) (filter plain l) /\
  sfs' = sfs ++ map (fun t => new_point t (baddr + pt_offset t)) (filter scale l).
Proof.
  induction l as [|t l IH]; intros last reads pts sfs last' reads' pts' sfs' H; cbn [load_points] in H.
  - apply pair_equal_spec in H as [H <-]. apply pair_equal_spec in H as [H <-]. cbn. now rewrite !app_nil_r.
  - cbn [filter]. unfold plain at 1, scale at 1. destruct (pt_type t) eqn:ET; cbn [is_pad is_sunssf] in H;
      apply IH in H as [-> ->]; cbn [map]; rewrite <- ?app_assoc; auto.
Qed.

Lemma instance_map a l : Forall2 (instance a) l (map (fun t => new_point t (a + pt_offset t)) l).
Proof. induction l; cbn; constructor; auto. repeat split. Qed.

(** ** resolution of scale factors *)
Lemma find_point_has s l : (exists p, find_point s l = Some p) <-> exists q, In q l /\ pt_id (p_type q) = s.
Proof.
  unfold find_point. split.
  - intros [p H]. apply find_some in H as [H1 H2]. apply eqb_list_eq in H2. eauto.
  - intros (q & H1 & H2). destruct (find _ l) eqn:E; [eauto|].
    eapply find_none in E; [|exact H1]. cbn in E. unfold p_id in E. rewrite H2, eqb_list_refl in E. discriminate.
Qed.
Lemma find_point_none s l : find_point s l = None -> ~ exists q, In q l /\ pt_id (p_type q) = s.
Proof. intros H HH. apply find_point_has in HH as [p E]. congruence. Qed.

Lemma resolve_spec own fixed index l : forall l',
  resolve own fixed index l = (l', true) ->
  Forall2 (fun p p' => exists k, resolve1 own fixed index p = Some k /\ p' = set_link p k) l l'.
Proof.
  induction l as [|p l IH]; intros l' H; cbn [resolve] in H.
  - apply pair_equal_spec in H as [<- _]. constructor.
  - destruct (resolve1 own fixed index p) as [k|] eqn:E; [|apply pair_equal_spec in H as [_ H]; discriminate].
    destruct (resolve own fixed index l) as [r ok]. apply pair_equal_spec in H as [<- ->]. constructor; eauto.
Qed.
Lemma resolve_fails own fixed index l : forall l',
  resolve own fixed index l = (l', false) -> exists p, In p l /\ resolve1 own fixed index p = None.
Proof.
  induction l as [|p l IH]; intros l' H; cbn [resolve] in H.
  - apply pair_equal_spec in H as [_ H]. discriminate.
  - destruct (resolve1 own fixed index p) as [k|] eqn:E; [|eexists; split; [left; reflexivity|exact E]].
    destruct (resolve own fixed index l) as [r ok]. apply pair_equal_spec in H as [<- ->].
    destruct (IH r eq_refl) as (q & H1 & H2). exists q. split; [now right|exact H2].
Qed.

Lemma resolve1_linked fixed b p k :
  resolve1 (b_sfs b) (b_sfs fixed) (b_index b) p = Some k -> linked fixed b p k.
Proof.
  unfold resolve1. destruct (pt_sf (p_type p)) as [s|] eqn:ES; [|intros H; apply Some_inj in H as <-; now constructor].
  destruct (int_of_str s) eqn:EI; [intros H; apply Some_inj in H as <-; econstructor; eauto|].
  assert (HZ : forall z, int_of_str s <> Ok z) by congruence.
  destruct (find_point s (b_sfs b)) eqn:EO.
  - intros H; apply Some_inj in H as <-. apply link_own; auto. apply find_point_has. eauto.
  - destruct (Z.ltb_spec 0 (b_index b)); [|discriminate]. destruct (find_point s (b_sfs fixed)) eqn:EF; [|discriminate].
    intros HK; apply Some_inj in HK as <-. apply link_fixed; auto.
    + now apply find_point_none.
    + apply find_point_has. eauto.
Qed.
Lemma linked_resolve1 fixed b p k :
  linked fixed b p k -> resolve1 (b_sfs b) (b_sfs fixed) (b_index b) p = Some k.
Proof.
  unfold resolve1. intros H. destruct H as [E|s z E EI|s E EI HH|s E EI HN HI HF]; rewrite E.
  - reflexivity.
  - now rewrite EI.
  - destruct (int_of_str s) eqn:E2; [now destruct (EI a)|]. apply find_point_has in HH as [q ->]. reflexivity.
  - destruct (int_of_str s) eqn:E2; [now destruct (EI a)|].
    destruct (find_point s (b_sfs b)) eqn:EO; [destruct HN; apply find_point_has; eauto|].
    apply Z.ltb_lt in HI. rewrite HI. apply find_point_has in HF as [q ->]. reflexivity.
Qed.

(** ** the loop *)
(** what one round makes of a block *)
Definition made (rep : option blocktype) (bt : blocktype) (a len index : Z) (fixed b : block) : Prop :=
  block_of bt a len index b /\ Forall (fun p => linked fixed b p (p_link p)) (b_points b).

Lemma Forall2_map_r {A B C} (R : A -> C -> Prop) (f : B -> C) l l' : Forall2 (fun a b => R a (f b)) l l' -> Forall2 R l (map f l').
Proof. induction 1; cbn; constructor; auto. Qed.

Lemma round_made a len bt index last reads blocks last' reads' pts sfs pts' :
  load_points a (bt_points bt) last reads [] [] = (last', reads', pts, sfs) ->
  resolve sfs (fixed_sfs (blocks ++ [mkB a len bt index pts sfs])) index pts = (pts', true) ->
  forall rep fixed, fixed = hd (mkB a len bt index pts' sfs) blocks -> 
  made rep bt a len index fixed (mkB a len bt index pts' sfs).
Proof.
  intros HL HR rep fixed HF. apply load_points_spec in HL as [-> ->]. cbn [app] in *. apply resolve_spec in HR.
  set (sfs := map _ _) in *.
  assert (HFX : fixed_sfs (blocks ++ [mkB a len bt index (map (fun t => new_point t (a + pt_offset t)) (filter plain (bt_points bt))) sfs]) = b_sfs fixed)
    by (subst fixed; destruct blocks; reflexivity).
  rewrite HFX in HR. split.
  - repeat (split; [reflexivity|]). cbn [b_points b_sfs]. split; [|apply instance_map].
    clear HF HFX. revert HR. generalize (b_sfs fixed). intros fs. generalize (filter plain (bt_points bt)). intros l. revert pts'. induction l as [|t l IH]; intros pts' HR; cbn [map] in HR; inversion HR as [|? ? ? ? H1 H2 H3]; subst; constructor.
    + destruct H1 as (k & _ & ->). repeat split.
    + now apply IH.
  - cbn [b_points]. clear HFX. 
    assert (HG : forall l l', Forall2 (fun p p' => exists k, resolve1 sfs (b_sfs fixed) index p = Some k /\ p' = set_link p k) l l' ->
      Forall (fun p => linked fixed (mkB a len bt index pts' sfs) p (p_link p)) l').
    { intros l l' H. induction H as [|p p' l l' H1 H2 IH]; constructor; auto. destruct H1 as (k & HK & ->).
      pose proof (resolve1_linked fixed (mkB a len bt index pts' sfs) p k HK) as HK'.
      destruct HK' as [E|s z E EI|s E EI HH|s E EI HN HI HFF]; cbn [set_link p_link]; [apply link_none|eapply link_const|apply link_own|apply link_fixed]; eauto. }
    now apply HG in HR.
Qed.

(** the repeating blocks: back to back from [a] on, numbered from [i] on *)
Inductive reps_at (rt : blocktype) (rlen : Z) (fixed : block) : Z -> Z -> list block -> Prop :=
| reps_nil a i : reps_at rt rlen fixed a i []
| reps_cons a i b l : made (Some rt) rt a rlen i fixed b -> reps_at rt rlen fixed (a + rlen) (i + 1) l -> reps_at rt rlen fixed a i (b :: l).

Lemma load_loop_ok rep e fuel : forall a len bt index last blocks reads blocks' reads',
  load_loop fuel rep e a len bt index last blocks reads = (blocks', reads', Ok tt) ->
  exists b rest, blocks' = blocks ++ b :: rest /\ made rep bt a len index (hd b blocks) b /\
    match rep with
    | None => rest = [] /\ a + len <= e
    | Some rb => exists rlen, base_int (bt_len rb) = Ok rlen /\ reps_at rb rlen (hd b blocks) (a + len) (index + 1) rest /\
      a + len + zlen rest * rlen = e
    end.
Proof.
  induction fuel as [|fuel IH]; intros a len bt index last blocks reads blocks' reads' H; cbn [load_loop] in H; [discriminate|].
  destruct (Z.ltb_spec e (a + len)) as [|HE]; [discriminate|].
  destruct (load_points a (bt_points bt) last reads [] []) as [[[last1 reads1] pts] sfs] eqn:EL.
  destruct (resolve sfs _ index pts) as [pts' ok] eqn:ER. destruct ok; [|discriminate].
  pose proof (round_made _ _ _ _ _ _ _ _ _ _ _ _ EL ER rep _ eq_refl) as HM.
  set (b := mkB a len bt index pts' sfs) in *.
  destruct rep as [rb|].
  - destruct (base_int (bt_len rb)) as [rlen|] eqn:EB; [|discriminate].
    destruct (Z.eqb_spec e (a + len)) as [EE|NE].
    + apply pair_equal_spec in H as [H _]. apply pair_equal_spec in H as [<- _].
      exists b, []. split; [reflexivity|]. split; [exact HM|]. exists rlen. split; [reflexivity|]. split; [constructor|]. cbn. lia.
    + apply IH in H as (b1 & rest & -> & HM1 & rl & EB1 & HR & HE1). apply Ok_inj in EB1. subst rl.
      exists b, (b1 :: rest). rewrite <- app_assoc. split; [reflexivity|]. split; [exact HM|]. exists rlen. split; [reflexivity|].
      assert (HH : hd b1 (blocks ++ [b]) = hd b blocks) by (destruct blocks; reflexivity). rewrite HH in HM1, HR.
      split; [constructor; auto|]. unfold zlen in *. cbn [length]. lia.
  - apply pair_equal_spec in H as [H _]. apply pair_equal_spec in H as [<- _].
    exists b, []. split; [reflexivity|]. split; [exact HM|]. auto.
Qed.

Lemma reps_at_nth rt rlen fixed l : forall a i, reps_at rt rlen fixed a i l ->
  forall n b, nth_error l n = Some b -> made (Some rt) rt (a + Z.of_nat n * rlen) rlen (i + Z.of_nat n) fixed b.
Proof.
  induction l as [|x l IH]; intros a i H n b HN; [destruct n; discriminate|]. inversion H as [|? ? ? ? H1 H2]; subst.
  destruct n as [|n]; cbn [nth_error] in HN.
  - apply Some_inj in HN as <-. replace (a + Z.of_nat 0 * rlen) with a by lia. now replace (i + Z.of_nat 0) with i by lia.
  - eapply IH in HN; [|exact H2]. replace (a + Z.of_nat (S n) * rlen) with (a + rlen + Z.of_nat n * rlen) by lia.
    now replace (i + Z.of_nat (S n)) with (i + 1 + Z.of_nat n) by lia.
Qed.

(** ** termination *)
Lemma load_loop_fuel_mono rep e k1 : forall k2 a len bt index last blocks reads, (k1 <= k2)%nat ->
  snd (load_loop k1 rep e a len bt index last blocks reads) <> Raise EFuel ->
  load_loop k2 rep e a len bt index last blocks reads = load_loop k1 rep e a len bt index last blocks reads.
Proof.
  induction k1 as [|k1 IH]; intros k2 a len bt index last blocks reads HK H; [now destruct H|].
  destruct k2 as [|k2]; [lia|]. cbn [load_loop] in *. destruct (e <? a + len); [reflexivity|].
  destruct (load_points _ _ _ _ _ _) as [[[last1 reads1] pts] sfs]. destruct (resolve _ _ _ _) as [pts' ok]. destruct ok; [|reflexivity].
  destruct rep as [rb|]; [|reflexivity]. destruct (base_int (bt_len rb)); [|reflexivity]. destruct (e =? a + len); [reflexivity|].
  apply IH; [lia|exact H].
Qed.
Lemma load_loop_ends rep e (HREP : forall rb r, rep = Some rb -> base_int (bt_len rb) = Ok r -> 0 < r) n :
  forall a len bt index last blocks reads, e - (a + len) < Z.of_nat n ->
  snd (load_loop (S n) rep e a len bt index last blocks reads) <> Raise EFuel.
Proof.
  induction n as [|n IH]; intros a len bt index last blocks reads HN.
  - cbn [load_loop]. destruct (Z.ltb_spec e (a + len)); [cbn; discriminate|lia].
  - change (load_loop (S (S n))) with (fun rep e a len bt index last blocks reads => load_loop (S (S n)) rep e a len bt index last blocks reads).
    cbv beta. remember (S n) as m eqn:EM. cbn [load_loop]. destruct (e <? a + len); [cbn; discriminate|].
    destruct (load_points _ _ _ _ _ _) as [[[last1 reads1] pts] sfs]. destruct (resolve _ _ _ _) as [pts' ok]. destruct ok; [|cbn; discriminate].
    destruct rep as [rb|]; [|cbn; discriminate]. destruct (base_int (bt_len rb)) as [r|e0] eqn:EB.
    + destruct (e =? a + len); [cbn; discriminate|]. subst m. apply IH. specialize (HREP rb r eq_refl EB). lia.
    + cbn [snd]. unfold base_int, int_of_str, parse_signed in EB.
      destruct (bt_len rb); [discriminate|]. intros [= ->]. revert EB.
      destruct (strip_blank s) as [|c t]; [discriminate|]. destruct (c =? 45); [destruct (parse_dec t); discriminate|].
      destruct (c =? 43); [destruct (parse_dec t); discriminate|]. destruct (parse_dec (c :: t)); discriminate.
Qed.

(** ** read blocks *)
From Coq Require Import Sorted.
Definition covered (reads : list Z) (a n : Z) : Prop :=
  exists pre s post, reads = pre ++ s :: post /\ s <= a /\ match post with s' :: _ => a + n <= s' | [] => True end.
Definition span (p : point) : Z * Z := (p_addr p, pt_len (p_type p)).
Definition rinv (reads : list Z) (last hi : Z) (placed : list (Z * Z)) : Prop :=
  (exists pre, reads = pre ++ [last]) /\ StronglySorted Z.le reads /\ last <= hi /\
  Forall (fun s => fst s + snd s <= hi /\ covered reads (fst s) (snd s)) placed.

Lemma covered_snoc pre last x a n : covered (pre ++ [last]) a n -> a + n <= x -> covered ((pre ++ [last]) ++ [x]) a n.
Proof.
  intros (p & s & post & E & H1 & H2) HX. exists p, s, (post ++ [x]). rewrite E, <- app_assoc. split; [reflexivity|]. split; [exact H1|].
  destruct post; cbn; auto.
Qed.
Lemma sorted_snoc l x : StronglySorted Z.le l -> Forall (fun y => y <= x) l -> StronglySorted Z.le (l ++ [x]).
Proof.
  induction 1 as [|y l H1 IH H2]; intros HX; cbn; [repeat constructor|].
  inversion HX as [|? ? A B]; subst. constructor; [now apply IH|]. apply Forall_app. auto.
Qed.
Lemma sorted_last_max pre x : StronglySorted Z.le (pre ++ [x]) -> Forall (fun y => y <= x) (pre ++ [x]).
Proof.
  induction pre as [|y pre IH]; cbn; intros H; [repeat constructor; lia|]. inversion H as [|? ? A B]; subst. constructor; [|now apply IH].
  apply Forall_app in B as [_ B]. inversion B; auto.
Qed.
Lemma rinv_hi reads last hi hi' placed : rinv reads last hi placed -> hi <= hi' -> rinv reads last hi' placed.
Proof.
  intros (H1 & H2 & H3 & H4) HH. split; [exact H1|]. split; [exact H2|]. split; [lia|].
  eapply Forall_impl; [|exact H4]. intros s [A B]. split; [lia|exact B].
Qed.
Lemma rinv_add reads last hi placed a n : rinv reads last hi placed -> hi <= a -> 0 <= n ->
  let split := MAX_READ_COUNT <? a + n - last in
  rinv (if split then reads ++ [a] else reads) (if split then a else last) (a + n) (placed ++ [(a, n)]).
Proof.
  intros ((pre & ->) & HS & HL & HP) HA HN split. destruct split.
  - split; [eexists; reflexivity|]. split; [|split; [lia|]].
    + apply sorted_snoc; auto. eapply Forall_impl; [|apply sorted_last_max; exact HS]. cbn. intros; lia.
    + apply Forall_app. split.
      * eapply Forall_impl; [|exact HP]. intros s [A B]. split; [lia|]. apply covered_snoc; auto. lia.
      * constructor; [|constructor]. cbn [fst snd]. split; [lia|]. exists (pre ++ [last]), a, []. split; [reflexivity|]. split; [lia|exact I].
  - split; [eexists; reflexivity|]. split; [exact HS|]. split; [lia|]. apply Forall_app. split.
    + eapply Forall_impl; [|exact HP]. intros s [A B]. split; [lia|exact B].
    + constructor; [|constructor]. cbn [fst snd]. split; [lia|]. exists pre, last, []. split; [reflexivity|]. split; [lia|exact I].
Qed.
Lemma rinv_incl reads last hi l l' : rinv reads last hi l -> incl l' l -> rinv reads last hi l'.
Proof.
  intros (H1 & H2 & H3 & H4) HI. split; [exact H1|]. split; [exact H2|]. split; [exact H3|]. rewrite Forall_forall in *. auto.
Qed.
Lemma load_points_reads baddr len l : forall lo last reads pts sfs placed last' reads' pts' sfs',
  ordered_from lo len l ->
  rinv reads last (baddr + lo) (placed ++ map span (pts ++ sfs)) ->
  load_points baddr l last reads pts sfs = (last', reads', pts', sfs') ->
  rinv reads' last' (baddr + len) (placed ++ map span (pts' ++ sfs')).
Proof.
  induction l as [|t l IH]; intros lo last reads pts sfs placed last' reads' pts' sfs' HO HI H; cbn [load_points ordered_from] in *.
  - apply pair_equal_spec in H as [H <-]. apply pair_equal_spec in H as [H <-]. apply pair_equal_spec in H as [<- <-].
    eapply rinv_hi; [exact HI|lia].
  - assert (HADD : is_pad (pt_type t) = false -> lo <= pt_offset t /\ 0 <= pt_len t /\ ordered_from (pt_offset t + pt_len t) len l).
    { destruct (pt_type t); auto. discriminate. }
    destruct (is_pad (pt_type t)) eqn:EP.
    + eapply IH; [|exact HI|exact H]. destruct (pt_type t); try discriminate. exact HO.
    + destruct (HADD eq_refl) as (H1 & H2 & H3).
      pose proof (rinv_add reads last (baddr + lo) _ (baddr + pt_offset t) (pt_len t) HI ltac:(lia) H2) as HI'. cbv zeta in HI'.
      replace (baddr + pt_offset t + pt_len t) with (baddr + (pt_offset t + pt_len t)) in HI' at 3 by lia.
      cbv zeta in H. destruct (is_sunssf (pt_type t)); (eapply IH; [exact H3| |exact H]);
        (eapply rinv_incl; [exact HI'|]); intros s Hs; rewrite !map_app, !in_app_iff in *; cbn [map] in *;
        (destruct Hs as [Hs|Hs]; [left; left; exact Hs|]);
        repeat match goal with H : _ \/ _ |- _ => destruct H end; cbn [In] in *; unfold span, new_point in *; cbn [p_addr p_type] in *; tauto.
Qed.

Lemma resolve_span own fixed index l l' : resolve own fixed index l = (l', true) -> map span l' = map span l.
Proof.
  intros H. apply resolve_spec in H. induction H as [|p p' l l' H1 H2 IH]; [reflexivity|]. destruct H1 as (k & _ & ->).
  cbn [map]. rewrite IH. reflexivity.
Qed.
Definition spans (l : list block) : list (Z * Z) := flat_map (fun b => map span (all_points b)) l.

Lemma load_points_new a l : forall last reads p1 p2 last1 reads1 pts sfs,
  load_points a l last reads p1 p2 = (last1, reads1, pts, sfs) -> exists new, reads1 = reads ++ new.
Proof.
  induction l as [|t l IH]; intros last reads p1 p2 last1 reads1 pts sfs EL; cbn [load_points] in EL.
  - apply pair_equal_spec in EL as [EL _]. apply pair_equal_spec in EL as [EL _]. apply pair_equal_spec in EL as [_ <-]. exists []. now rewrite app_nil_r.
  - cbv zeta in EL. destruct (is_pad (pt_type t)); [eauto|].
    assert (HX : exists n, (if MAX_READ_COUNT <? a + pt_offset t + pt_len t - last then reads ++ [a + pt_offset t] else reads) = reads ++ n)
      by (destruct (_ <? _); [eauto|exists []; now rewrite app_nil_r]).
    destruct HX as [n HX]. rewrite HX in EL.
    destruct (is_sunssf (pt_type t)); apply IH in EL as [n2 ->]; rewrite <- app_assoc; eauto.
Qed.
Lemma load_loop_reads rep e (HREP : forall rb r, rep = Some rb -> base_int (bt_len rb) = Ok r -> ordered_from 0 r (bt_points rb)) fuel :
  forall a len bt index last blocks reads blocks' reads',
  ordered_from 0 len (bt_points bt) ->
  rinv reads last a (spans blocks) ->
  load_loop fuel rep e a len bt index last blocks reads = (blocks', reads', Ok tt) ->
  exists last', rinv reads' last' e (spans blocks') /\ exists new, reads' = reads ++ new.
Proof.
  induction fuel as [|fuel IH]; intros a len bt index last blocks reads blocks' reads' HO HI H; cbn [load_loop] in H; [discriminate|].
  destruct (Z.ltb_spec e (a + len)) as [|HE]; [discriminate|].
  destruct (load_points a (bt_points bt) last reads [] []) as [[[last1 reads1] pts] sfs] eqn:EL.
  pose proof (load_points_new _ _ _ _ _ _ _ _ _ _ EL) as HNEW.
  destruct (resolve sfs _ index pts) as [pts' ok] eqn:ER. destruct ok; [|discriminate].
  apply resolve_span in ER.
  assert (HI0 : rinv reads last (a + 0) (spans blocks ++ map span ([] ++ []))) by (cbn [app map]; rewrite app_nil_r, Z.add_0_r; exact HI).
  pose proof (load_points_reads _ _ _ _ _ _ _ _ _ _ _ _ _ HO HI0 EL) as HI1.
  assert (HI2 : rinv reads1 last1 (a + len) (spans (blocks ++ [mkB a len bt index pts' sfs]))).
  { unfold spans. rewrite flat_map_app. cbn [flat_map all_points b_points b_sfs]. rewrite app_nil_r. 
    unfold all_points; cbn [b_points b_sfs]. rewrite map_app, ER, <- map_app. exact HI1. }
  destruct HNEW as [new ->].
  destruct rep as [rb|].
  - destruct (base_int (bt_len rb)) as [rlen|] eqn:EB; [|discriminate].
    destruct (Z.eqb_spec e (a + len)) as [EE|NE].
    + apply pair_equal_spec in H as [H _]. apply pair_equal_spec in H as [<- <-]. exists last1. split; [rewrite EE; exact HI2|eauto].
    + eapply IH in H as (l2 & H & n2 & ->); [|now apply (HREP rb)|exact HI2]. exists l2. split; [exact H|]. rewrite <- app_assoc. eauto.
  - apply pair_equal_spec in H as [H _]. apply pair_equal_spec in H as [<- <-]. exists last1. split; [eapply rinv_hi; [exact HI2|lia]|eauto].
Qed.

Lemma covered_chunk reads e a n : covered reads a n -> a + n <= e -> 
  exists c, In c (chunks reads e) /\ fst c <= a /\ a + n <= fst c + snd c.
Proof.
  intros (pre & s & post & -> & H1 & H2) HE.
  exists (s, match post with s' :: _ => s' - s | [] => e - s end). split.
  - induction pre as [|x pre IH]; cbn [app chunks In]; [now left|]. right. exact IH.
  - cbn [fst snd]. split; [exact H1|]. destruct post; lia.
Qed.
