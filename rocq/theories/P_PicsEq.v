(** * P_PicsEq: a restored device compared with the original (proofs, C92). *)
From Coq Require Import String.
From Verif Require Import Py P_List M_Util M_Float M_Suns M_Point P_IntText M_Xml M_Mbmap M_Device M_Client M_Scan M_Pics M_NotEq S_Device S_Codec S_Pics S_NotEq S_PicsEq P_Pics P_PicsModel P_PicsDevice P_NotEq P_PicsRead C_NotEq.

(** loading keeps the definition *)
Definition meta (types : Z -> res modeltype) (n : model) : Prop := match types (md_id n) with Ok t => md_type n = Some t | Raise _ => md_type n = None end.
Lemma device_elem_meta E fuel types l addr e l' r : device_elem E fuel types l addr e = (l', r) -> exists ns, l' = l ++ ns /\ Forall (meta types) ns.
Proof.
  assert (H0 : exists ns, l = l ++ ns /\ Forall (meta types) ns) by (exists []; rewrite app_nil_r; auto).
  unfold device_elem. destruct (negb _); [intros H; apply pair_equal_spec in H as [<- _]; exact H0|].
  destruct (x_get PICS_ID e) as [ids|]; [|intros H; apply pair_equal_spec in H as [<- _]; exact H0].
  destruct (x_get PICS_LEN e) as [lens|]; [|intros H; apply pair_equal_spec in H as [<- _]; exact H0].
  destruct (int_of_str lens) as [len|]; [|intros H; apply pair_equal_spec in H as [<- _]; exact H0].
  destruct (int_of_str ids) as [id|]; [|intros H; apply pair_equal_spec in H as [<- _]; exact H0].
  destruct (model_load fuel types (new_model id (addr + 2) len)) as [m0 r0] eqn:EL. destruct (load_meta _ _ _ _ _ _ _ EL) as [EID EMT].
  assert (HM0 : meta types m0) by (unfold meta; rewrite EID; destruct (types id); [exact EMT|apply EMT]).
  set (m1 := match r0 with Ok _ => m0 | Raise x => with_error m0 x end).
  assert (HM1 : meta types m1) by (unfold m1; destruct r0; exact HM0).
  assert (HK : forall (z : list model * res Z), (match model_from_pics E m1 e with
     | (_, Raise x) => (l, Raise x)
     | (m2, Ok _) => let l' := l ++ [m2] in match md_type m2 with
        | Some t => if (len =? 0) && match mt_len t with None => true | _ => false end then (l', Raise EType) else (l', Ok (addr + (md_len m2 + 2)))
        | None => (l', Ok (addr + (md_len m2 + 2))) end end) = z -> exists ns, fst z = l ++ ns /\ Forall (meta types) ns).
  { intros z Hz. unfold model_from_pics in Hz. destruct (model_elems E _ _) as [bs r1]. destruct r1 as [u|x]; [|subst z; exact H0].
    exists [with_blocks (with_index m1 match x_get PICS_INDEX e with Some s => BStr s | None => md_index m1 end) bs].
    split; [|constructor; [exact HM1|constructor]]. cbv zeta in Hz. revert Hz. match goal with |- context [match md_type ?M with _ => _ end] => destruct (md_type M) as [t|]; [destruct ((len =? 0) && match mt_len t with None => true | _ => false end)|] end; intros <-; reflexivity. }
  intros H. destruct r0 as [u|x]; [apply HK in H; exact H|]. destruct x; try (apply HK in H; exact H). apply pair_equal_spec in H as [<- _]. exact H0.
Qed.
Lemma device_elems_meta E fuel types es : forall l addr l' r, device_elems E fuel types l addr es = (l', r) -> exists ns, l' = l ++ ns /\ Forall (meta types) ns.
Proof.
  induction es as [|e es IH]; intros l addr l' r H; cbn [device_elems] in H.
  - apply pair_equal_spec in H as [<- _]. exists []. rewrite app_nil_r. auto.
  - destruct (device_elem E fuel types l addr e) as [l1 r1] eqn:EE. destruct (device_elem_meta _ _ _ _ _ _ _ _ EE) as (ns & -> & HN).
    destruct r1 as [a1|x].
    + destruct (IH _ _ _ _ H) as (ns' & -> & HN'). exists (ns ++ ns'). rewrite app_assoc. split; [reflexivity|]. apply Forall_app. auto.
    + apply pair_equal_spec in H as [<- _]. eauto.
Qed.
Lemma device_from_meta E fuel types a e d r : device_from_pics E fuel types (new_device a) e = (d, r) -> Forall (meta types) (d_models d).
Proof.
  unfold device_from_pics. destruct (negb _); [intros H; apply pair_equal_spec in H as [<- _]; constructor|].
  destruct (x_get PICS_BASE_ADDR e); [intros H; apply pair_equal_spec in H as [<- _]; constructor|].
  destruct (device_elems _ _ _ _ _ _) as [l r1] eqn:EL. destruct (device_elems_meta _ _ _ _ _ _ _ _ EL) as (ns & -> & HN).
  intros H. apply pair_equal_spec in H as [<- _]. exact HN.
Qed.

Lemma instance_typed E fuel types m t : instance_of E fuel types m -> types (md_id m) = Ok t -> md_type m = Some t -> typed t m.
Proof.
  intros [a len m0 u HT HB HL HLEN HSB HV|x HT _ _] HT' HM; [|congruence]. rewrite HT in HT'. apply Ok_inj in HT'. subst u.
  eapply C57_loaded; [exact HT|exact HB|exact HL| |exact HSB]. destruct (load_meta _ _ _ _ _ _ _ HL) as [_ X]. rewrite HT in X. congruence.
Qed.
Lemma restored_typed t m n : typed t m -> md_type n = Some t -> restored_model m n -> typed t n.
Proof.
  intros (_ & HB & HC) HT (_ & _ & _ & HR). split; [exact HT|]. split; [exact HB|]. revert HR. generalize (fixed_sfs (md_blocks m)). intros fx HR.
  induction HR as [|b c l k (HS & _) _ IH]; constructor; [|apply IH; exact (Forall_inv_tail HC)].
  apply Forall_inv in HC as [H1 H2]. split; [|eapply same_complete; eassumption]. destruct HS as (-> & _). exact H1.
Qed.
Lemma restored_equal t m n : typed t m -> md_type n = Some t -> restored_model m n ->
  (forall b p, In b (md_blocks m) -> In p (b_points b) -> ~ is_nan (p_base p) /\ ~ is_nan (p_sf p)) -> (equal_models m n <-> unset_scaled m).
Proof.
  intros HT HN HR HNN. assert (HF : Forall complete (md_blocks m)) by (eapply Forall_impl; [|exact (proj2 (proj2 HT))]; intros b Hb; exact (proj2 Hb)).
  destruct HR as (_ & _ & _ & HR). unfold unset_scaled, equal_models. generalize dependent (fixed_sfs (md_blocks m)). intros fx HR.
  assert (HE : forall l k, Forall2 (restored_block fx) l k -> Forall complete l -> (forall b p, In b l -> In p (b_points b) -> ~ is_nan (p_base p) /\ ~ is_nan (p_sf p)) ->
    (Forall2 (fun a b => same_blocktype (mt_oid t) (mt_oid t) (b_type a) (b_type b) /\ block_values a b) l k <->
     (forall b p, In b l -> In p (b_points b) -> p_base p = VNone -> same_value (p_sf p) (scale_factor b fx p)))).
  { clear. intros l k H. induction H as [|b c l k HX _ IH]; intros HC HNN; [split; [intros _ b p []|constructor]|].
    apply Forall_cons_iff in HC as [HC1 HC2]. destruct (IH HC2 (fun b p H1 H2 => HNN b p (or_intror H1) H2)) as [IH1 IH2].
    assert (HB : block_values b c <-> (forall p, In p (b_points b) -> p_base p = VNone -> same_value (p_sf p) (scale_factor b fx p))).
    { destruct HX as ((T1 & _) & HP & _). unfold block_values. pose proof (points_nodup _ HC1) as HND. unfold scale_factor.
      assert (HNN1 := fun p H2 => HNN b p (or_introl eq_refl) H2). clear HNN IH1 IH2 IH.
      assert (HIDS : map p_id (b_points c) = map p_id (b_points b)).
      { clear -HP. induction HP as [|p q x y ((H & _) & _) _ IH]; [reflexivity|]. cbn [map]. unfold p_id at 1 3. rewrite H. f_equal. exact IH. }
      assert (HNDC : NoDup (map p_id (b_points c))) by (rewrite HIDS; exact HND).
      assert (HPQ : forall p, In p (b_points b) -> exists q, In q (b_points c) /\ restored (b_sfs b) fx p q).
      { clear -HP. induction HP as [|p q x y H _ IH]; intros r HR; [destruct HR|]. destruct HR as [<-|HR]; [exists q; split; [left; reflexivity|exact H]|]. destruct (IH r HR) as (s & S1 & S2). exists s. split; [right; exact S1|exact S2]. }
      split.
      - intros HV p Hp HU. destruct (HV p Hp) as (q & Q1 & Q2 & Q3). destruct (HPQ p Hp) as (q' & R1 & (R2a & R2b) & R3 & _ & _ & R5).
        assert (q' = q) by (eapply nodup_map_inj; [exact HNDC|assumption|assumption|]; rewrite Q2; unfold p_id; now rewrite R2a). subst q'.
        destruct Q3 as [_ Q3]. unfold scaled in R5. rewrite R2b in R5. destruct (link_value (b_sfs b) fx (p_link p)); rewrite R5 in Q3; exact Q3.
      - intros HV p Hp. destruct (HPQ p Hp) as (q & R1 & (R2a & R2b) & R3 & _ & R4 & R5). exists q. split; [exact R1|]. split; [unfold p_id; now rewrite R2a|].
        destruct (HNN1 p Hp) as [N1 N2]. split; [rewrite R3; apply same_value_refl; exact N1|].
        destruct (p_base p) as [|z|s|f] eqn:EB; [|rewrite R4 by discriminate; apply same_value_refl; exact N2..].
        specialize (HV p Hp EB). unfold scaled in R5. rewrite R2b in R5. destruct (link_value (b_sfs b) fx (p_link p)); rewrite R5; exact HV. }
    split.
    - intros HFF. inversion HFF as [|? ? ? ? [Y1 Y2] Y3]; subst. intros b' p [<-|Hb] Hp HU; [apply (proj1 HB Y2 p Hp HU)|apply (IH1 Y3 b' p Hb Hp HU)].
    - intros HV. constructor; [|apply IH2; intros; eapply HV; eauto; right; assumption]. split; [|apply HB; intros; eapply HV; eauto; left; reflexivity].
      destruct HX as ((T1 & _) & _). rewrite T1. apply same_blocktype_refl. }
  specialize (HE _ _ HR HF HNN). rewrite <- HE. clear HE HR HF HNN. destruct HT as (HT & _). split.
  - intros (t' & u & E1 & E2 & _ & H). rewrite HT in E1. rewrite HN in E2. apply Some_inj in E1, E2. subst t' u. exact H.
  - intros H. exists t, t. repeat (split; [assumption|]). split; [|exact H]. unfold same_modeltype. repeat (split; [reflexivity|]). split; [apply same_blocktype_refl|].
    unfold same_rep. destruct (mt_rep t); [apply same_blocktype_refl|exact I].
Qed.
Lemma device_restored E fuel types ms ns : one_object_each types -> Forall (instance_of E fuel types) ms -> Forall (has_definition types) ms -> Forall (meta types) ns -> no_nans ms ->
  Forall2 restored_model ms ns -> loaded_device ms /\ loaded_device ns /\ coherent ms ns /\ (equal_devices ms ns <-> Forall unset_scaled ms).
Proof.
  intros HO HI HD HM HN HR.
  assert (HA : Forall2 (fun m n => exists t, types (md_id m) = Ok t /\ typed t m /\ typed t n /\ (equal_models m n <-> unset_scaled m)) ms ns).
  { revert HI HD HM HN. induction HR as [|m n ms ns HX _ IH]; intros HI HD HM HN; constructor.
    - destruct (Forall_inv HD) as (t & T1 & T2). exists t. pose proof (instance_typed _ _ _ _ _ (Forall_inv HI) T1 T2) as HT. split; [exact T1|]. split; [exact HT|].
      assert (HNT : md_type n = Some t) by (pose proof (Forall_inv HM) as X; unfold meta in X; rewrite (proj1 HX), T1 in X; exact X).
      split; [eapply restored_typed; eassumption|]. eapply restored_equal; try eassumption. intros b p Hb Hp. apply (HN m b p); auto. left; reflexivity.
    - apply IH; [exact (Forall_inv_tail HI)|exact (Forall_inv_tail HD)|exact (Forall_inv_tail HM)|]. intros x b p Hx. apply HN. right; exact Hx. }
  clear HN HM HR HI HD. split; [|split; [|split]].
  - induction HA as [|m n ms ns (t & _ & H & _) _ IH]; constructor; eauto.
  - induction HA as [|m n ms ns (t & _ & _ & H & _) _ IH]; constructor; eauto.
  - assert (H1 : forall m t, In m ms -> md_type m = Some t -> exists i, types i = Ok t).
    { intros m t Hm Et. induction HA as [|x y l k (w & W1 & (W2 & _) & _) _ IH]; [destruct Hm|]; destruct Hm as [<-|Hm]; [exists (md_id x); congruence|auto]. }
    assert (H2 : forall m t, In m ns -> md_type m = Some t -> exists i, types i = Ok t).
    { intros m t Hm Et. clear H1. induction HA as [|x y l k (w & W1 & _ & (W2 & _) & _) _ IH]; [destruct Hm|]; destruct Hm as [<-|Hm]; [exists (md_id x); congruence|auto]. }
    intros m n t u Hm Hn Et Eu EO. destruct (H1 m t Hm Et) as [i I1], (H2 n u Hn Eu) as [j J1]. eapply HO; eauto.
  - unfold equal_devices. induction HA as [|m n ms ns (t & _ & _ & _ & H) _ [IH1 IH2]]; [split; constructor|]. split; intros HX.
    + inversion HX; subst. constructor; [now apply H|auto].
    + apply Forall_cons_iff in HX as [X1 X2]. constructor; [now apply H|auto].
Qed.
