(** * P_Chunks: sizes of the read requests that Model.load plans (C42). *)
From Coq Require Import Sorted.
From Verif Require Import Py P_List M_Suns M_Mbmap M_Device S_Device P_Device.

(** every later start was needed, and every point starts at most where it still ends within 125 registers *)
Definition cinv (reads : list Z) (placed : list (Z * Z)) : Prop :=
  (forall k s s', nth_error reads k = Some s -> nth_error reads (S k) = Some s' -> exists n, In (s', n) placed /\ s + 125 < s' + n) /\
  (forall k s a n, nth_error reads k = Some s -> In (a, n) placed -> s <= a ->
     match nth_error reads (S k) with Some s' => a < s' | None => True end -> a + n <= s + 125).
Lemma nth_snoc (l : list Z) x k y : nth_error (l ++ [x]) k = Some y -> (k = length l /\ y = x) \/ ((k < length l)%nat /\ nth_error l k = Some y).
Proof.
  intros H. destruct (Nat.lt_ge_cases k (length l)) as [G|G]; [right; split; [exact G|]; now rewrite nth_error_app1 in H|left].
  assert (k < length (l ++ [x]))%nat by (apply nth_error_Some; congruence). rewrite app_length in *. cbn [length] in *.
  assert (k = length l) by lia. subst k. rewrite nth_error_app2, Nat.sub_diag in H by lia. cbn in H. split; [reflexivity|congruence].
Qed.
Lemma cinv_incl reads l l' : cinv reads l -> incl l l' -> incl l' l -> cinv reads l'.
Proof.
  intros [A B] H1 H2. split.
  - intros k s s' E1 E2. destruct (A k s s' E1 E2) as (n & I & N). exists n. auto.
  - intros k s a n E1 E2. apply (B k s a n E1). auto.
Qed.
Lemma rinv_last reads last hi placed k s : rinv reads last hi placed -> nth_error reads k = Some s -> s <= last.
Proof.
  intros ((pre & ->) & HS & _) H. pose proof (sorted_last_max _ _ HS) as HM. rewrite Forall_forall in HM. apply HM. eapply nth_error_In; eauto.
Qed.
Lemma cinv_add reads last hi placed a n : rinv reads last hi placed -> cinv reads placed -> hi <= a -> 0 <= n <= 125 ->
  cinv (if MAX_READ_COUNT <? a + n - last then reads ++ [a] else reads) (placed ++ [(a, n)]).
Proof.
  intros HR [C1 C2] HA HN. pose proof HR as ((pre & EP) & HS & HL & HP). pose proof (fun k s => rinv_last _ _ _ _ k s HR) as HLAST. unfold MAX_READ_COUNT.
  assert (HLN : nth_error reads (length pre) = Some last) by (rewrite EP, nth_error_app2, Nat.sub_diag by lia; reflexivity).
  assert (HLEN : length reads = S (length pre)) by (rewrite EP, app_length; cbn [length]; lia).
  destruct (Z.ltb_spec 125 (a + n - last)) as [HX|HX].
  - split.
    + intros k s s' E1 E2. apply nth_snoc in E2 as [[HK ->]|[HK E2]].
      * assert (k = length pre) by lia. subst k. rewrite nth_error_app1 in E1 by lia. assert (s = last) by congruence. subst s.
        exists n. split; [apply in_app_iff; right; now left|lia].
      * rewrite nth_error_app1 in E1 by lia. destruct (C1 k s s' E1 E2) as (m & I & N). exists m. split; [apply in_app_iff; now left|exact N].
    + intros k s b m E1 I HB HN2. apply nth_snoc in E1 as [[HK ->]|[HK E1]].
      * apply in_app_iff in I as [I|[I|[]]].
        -- rewrite Forall_forall in HP. destruct (HP (b, m) I) as [G _]. cbn [fst snd] in G. lia.
        -- apply pair_equal_spec in I as [<- <-]. lia.
      * apply in_app_iff in I as [I|[I|[]]].
        -- apply (C2 k s b m E1 I HB). destruct (nth_error reads (S k)) as [s'|] eqn:E2; [|exact Logic.I].
           rewrite nth_error_app1, E2 in HN2 by (apply nth_error_Some; congruence). exact HN2.
        -- apply pair_equal_spec in I as [<- <-]. exfalso.
           destruct (nth_error reads (S k)) as [s'|] eqn:E2.
           ++ rewrite nth_error_app1, E2 in HN2 by (apply nth_error_Some; congruence). apply HLAST in E2. lia.
           ++ apply nth_error_None in E2. rewrite nth_error_app2 in HN2 by lia. replace (S k - length reads)%nat with O in HN2 by lia. cbn in HN2. lia.
  - split.
    + intros k s s' E1 E2. destruct (C1 k s s' E1 E2) as (m & I & N). exists m. split; [apply in_app_iff; now left|exact N].
    + intros k s b m E1 I HB HN2. apply in_app_iff in I as [I|[I|[]]]; [eauto|]. apply pair_equal_spec in I as [<- <-].
      destruct (nth_error reads (S k)) as [s'|] eqn:E2.
      * apply HLAST in E2. lia.
      * apply nth_error_None in E2. assert (k < length reads)%nat by (apply nth_error_Some; congruence). assert (k = length pre) by lia. subst k.
        assert (s = last) by congruence. subst s. lia.
Qed.

Definition short_points (l : list pointtype) : Prop := Forall (fun t => pt_type t <> Tpad -> pt_len t <= 125) l.
Lemma load_points_chunks baddr len l : forall lo last reads pts sfs placed last' reads' pts' sfs',
  ordered_from lo len l -> short_points l ->
  rinv reads last (baddr + lo) (placed ++ map span (pts ++ sfs)) -> cinv reads (placed ++ map span (pts ++ sfs)) ->
  load_points baddr l last reads pts sfs = (last', reads', pts', sfs') ->
  cinv reads' (placed ++ map span (pts' ++ sfs')).
Proof.
  induction l as [|t l IH]; intros lo last reads pts sfs placed last' reads' pts' sfs' HO HS HI HC H; cbn [load_points ordered_from] in *.
  - apply pair_equal_spec in H as [H <-]. apply pair_equal_spec in H as [H <-]. apply pair_equal_spec in H as [<- <-]. exact HC.
  - assert (HADD : is_pad (pt_type t) = false -> lo <= pt_offset t /\ 0 <= pt_len t /\ ordered_from (pt_offset t + pt_len t) len l /\ pt_type t <> Tpad).
    { destruct (pt_type t); try discriminate; intros _; destruct HO as (? & ? & ?); repeat split; auto; discriminate. }
    apply Forall_cons_iff in HS as [HS1 HS2].
    destruct (is_pad (pt_type t)) eqn:EP.
    + eapply IH; [|exact HS2|exact HI|exact HC|exact H]. destruct (pt_type t); try discriminate. exact HO.
    + destruct (HADD eq_refl) as (H1 & H2 & H3 & H4).
      pose proof (rinv_add reads last (baddr + lo) _ (baddr + pt_offset t) (pt_len t) HI ltac:(lia) H2) as HI'. cbv zeta in HI'.
      pose proof (cinv_add reads last (baddr + lo) _ (baddr + pt_offset t) (pt_len t) HI HC ltac:(lia) (conj H2 (HS1 H4))) as HC'.
      replace (baddr + pt_offset t + pt_len t) with (baddr + (pt_offset t + pt_len t)) in HI' at 3 by lia.
      cbv zeta in H. destruct (is_sunssf (pt_type t)); (eapply IH; [exact H3|exact HS2| | |exact H]);
        [eapply rinv_incl; [exact HI'|]|eapply cinv_incl; [exact HC'| |]|eapply rinv_incl; [exact HI'|]|eapply cinv_incl; [exact HC'| |]];
        intros s Hs; rewrite !map_app, !in_app_iff in *; cbn [map In] in *; unfold span, new_point in *; cbn [p_addr p_type] in *; tauto.
Qed.
Lemma load_loop_chunks rep e (HREP : forall rb r, rep = Some rb -> base_int (bt_len rb) = Ok r -> ordered_from 0 r (bt_points rb))
  (HREP2 : forall rb, rep = Some rb -> short_points (bt_points rb)) fuel :
  forall a len bt index last blocks reads blocks' reads',
  ordered_from 0 len (bt_points bt) -> short_points (bt_points bt) ->
  rinv reads last a (spans blocks) -> cinv reads (spans blocks) ->
  load_loop fuel rep e a len bt index last blocks reads = (blocks', reads', Ok tt) ->
  cinv reads' (spans blocks').
Proof.
  induction fuel as [|fuel IH]; intros a len bt index last blocks reads blocks' reads' HO HSH HI HC H; cbn [load_loop] in H; [discriminate|].
  destruct (Z.ltb_spec e (a + len)) as [|HE]; [discriminate|].
  destruct (load_points a (bt_points bt) last reads [] []) as [[[last1 reads1] pts] sfs] eqn:EL.
  destruct (resolve sfs _ index pts) as [pts' ok] eqn:ER. destruct ok; [|discriminate].
  apply resolve_span in ER.
  assert (HI0 : rinv reads last (a + 0) (spans blocks ++ map span ([] ++ []))) by (cbn [app map]; rewrite app_nil_r, Z.add_0_r; exact HI).
  assert (HC0 : cinv reads (spans blocks ++ map span ([] ++ []))) by (cbn [app map]; rewrite app_nil_r; exact HC).
  pose proof (load_points_reads _ _ _ _ _ _ _ _ _ _ _ _ _ HO HI0 EL) as HI1.
  pose proof (load_points_chunks _ _ _ _ _ _ _ _ _ _ _ _ _ HO HSH HI0 HC0 EL) as HC1.
  assert (ES : spans (blocks ++ [mkB a len bt index pts' sfs]) = spans blocks ++ map span (pts ++ sfs)).
  { unfold spans. rewrite flat_map_app. cbn [flat_map all_points b_points b_sfs]. rewrite app_nil_r. 
    unfold all_points; cbn [b_points b_sfs]. rewrite map_app, ER, <- map_app. reflexivity. }
  destruct rep as [rb|].
  - destruct (base_int (bt_len rb)) as [rlen|] eqn:EB; [|discriminate].
    destruct (Z.eqb_spec e (a + len)) as [EE|NE].
    + apply pair_equal_spec in H as [H _]. apply pair_equal_spec in H as [<- <-]. rewrite ES. exact HC1.
    + eapply IH in H; [exact H|now apply (HREP rb)|now apply HREP2|rewrite ES; exact HI1|rewrite ES; exact HC1].
  - apply pair_equal_spec in H as [H _]. apply pair_equal_spec in H as [<- <-]. rewrite ES. exact HC1.
Qed.

(** from starts to requests *)
Lemma chunks_nth l e : forall k c, nth_error (chunks l e) k = Some c -> nth_error l k = Some (fst c) /\
  fst c + snd c = match nth_error l (S k) with Some s' => s' | None => e end.
Proof.
  induction l as [|s l IH]; intros [|k] c H; try discriminate.
  - cbn [chunks nth_error] in H. apply Some_inj in H. subst c. cbn [fst snd nth_error]. split; [reflexivity|]. destruct l; cbn [nth_error]; lia.
  - cbn [chunks] in H. apply IH in H. exact H.
Qed.
