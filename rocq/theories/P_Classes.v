(** * P_Classes: proofs about the classes of wrapper objects. *)
From Coq Require Import String.
From Verif Require Import Py P_List M_Util M_Float M_Suns M_Point M_Mbmap M_Device M_Wrapper M_Print M_Classes S_Classes.

Lemma property_attribute types id : (match types id with Ok t => property_ids (bt_points (mt_fixed t)) | Raise _ => [] end) = attribute_ids types id.
Proof.
  unfold attribute_ids, property_ids. destruct (types id) as [t|]; [|reflexivity]. f_equal.
  induction (bt_points (mt_fixed t)) as [|p l IH]; [reflexivity|]. cbn [filter]. rewrite IH. now destruct (pt_type p).
Qed.
Lemma class_get_same types cs id : exists props, mget id (class_get types cs id) = Some (mkMC (attribute_ids types id) props) /\
  (forall n, In n (attribute_ids types id) -> In n props) /\ (forall c n, mget id cs = Some c -> In n (mc_props c) -> In n props).
Proof.
  pose proof (property_attribute types id) as HP. unfold class_get. destruct (types id) as [t|e]; cbn [mget]; rewrite Z.eqb_refl.
  - eexists. rewrite HP. split; [reflexivity|]. rewrite <- HP. split; [intros; apply in_or_app; now right|]. intros c n -> H. apply in_or_app. now left.
  - eexists. rewrite HP. split; [reflexivity|]. rewrite <- HP. split; [intros n []|]. intros c n -> H. exact H.
Qed.
Lemma class_get_other types cs id i : i <> id -> mget i (class_get types cs id) = mget i cs.
Proof. intros H. unfold class_get. destruct (types id); cbn [mget]; destruct (Z.eqb_spec i id); congruence. Qed.
Lemma calls_app a b cs : calls (a ++ b) cs = calls b (calls a cs).
Proof. unfold calls. now rewrite fold_left_app. Qed.
Lemma calls_other r : forall cs i, (forall x, In x r -> snd x <> i) -> mget i (calls r cs) = mget i cs.
Proof.
  induction r as [|[t j] r IH]; intros cs i H; [reflexivity|]. change (calls ((t, j) :: r) cs) with (calls r (class_get t cs j)).
  rewrite IH by (intros x Hx; apply H; now right). apply class_get_other. specialize (H (t, j) (or_introl eq_refl)). cbn [snd] in H. congruence.
Qed.
Lemma last_call_points l i types cs : last_call i l types -> exists props, mget i (calls l cs) = Some (mkMC (attribute_ids types i) props).
Proof.
  intros [a t r H]. rewrite calls_app. change (calls ((t, i) :: r) (calls a cs)) with (calls r (class_get t (calls a cs) i)).
  rewrite calls_other by exact H. destruct (class_get_same t (calls a cs) i) as (props & -> & _). now exists props.
Qed.
Lemma last_call_dec i l : (exists types, last_call i l types) \/ (forall x, In x l -> snd x <> i).
Proof.
  induction l as [|[t j] l IH]; [right; intros x []|]. destruct IH as [(types & H)|H].
  - left. exists types. destruct H as [a t' r H]. change ((t, j) :: a ++ (t', i) :: r) with (((t, j) :: a) ++ (t', i) :: r). now constructor.
  - destruct (Z.eq_dec j i) as [->|N]; [left; exists t; apply (lc i [] t l H)|right]. intros x [<-|Hx]; [exact N|auto].
Qed.
Lemma last_call_app i a b types : last_call i b types -> last_call i (a ++ b) types.
Proof. intros [l t r H]. rewrite app_assoc. now constructor. Qed.
Lemma last_call_In i l types : last_call i l types -> In (types, i) l.
Proof. intros [a t r _]. apply in_or_app. right. now left. Qed.
Lemma device_last types ms m : In m ms -> last_call (md_id m) (device_calls types ms) types.
Proof.
  induction ms as [|m0 ms IH]; intros H; [destruct H|]. cbn [device_calls map].
  destruct (last_call_dec (md_id m) (device_calls types ms)) as [(t & HL)|HN].
  - assert (t = types). { apply last_call_In in HL. apply in_map_iff in HL as (x & E & _). now apply pair_equal_spec in E as [-> _]. } subst t.
    exact (last_call_app _ [(types, md_id m0)] _ _ HL).
  - destruct H as [->|H]; [exact (lc (md_id m) [] types _ HN)|]. exfalso. apply (HN (types, md_id m)); [|reflexivity]. unfold device_calls. apply in_map_iff. now exists m.
Qed.
Lemma props_kept l : forall cs i c n, mget i cs = Some c -> In n (mc_props c) -> exists c', mget i (calls l cs) = Some c' /\ In n (mc_props c').
Proof.
  induction l as [|[t j] l IH]; intros cs i c n H1 H2; [now exists c|]. change (calls ((t, j) :: l) cs) with (calls l (class_get t cs j)).
  destruct (Z.eq_dec i j) as [->|N].
  - destruct (class_get_same t cs j) as (props & E1 & _ & E2). apply (IH _ _ _ n E1). cbn [mc_props]. eapply E2; eauto.
  - apply (IH _ i c n); [|exact H2]. now rewrite class_get_other.
Qed.
Lemma props_of_call l : forall cs i types n, In (types, i) l -> In n (attribute_ids types i) -> exists c, mget i (calls l cs) = Some c /\ In n (mc_props c).
Proof.
  intros cs i types n H Hn. apply in_split in H as (a & b & ->). rewrite calls_app. change (calls ((types, i) :: b) (calls a cs)) with (calls b (class_get types (calls a cs) i)).
  destruct (class_get_same types (calls a cs) i) as (props & E1 & E2 & _). eapply props_kept; [exact E1|]. cbn [mc_props]. auto.
Qed.
Lemma has_prop_In cs w c n : mget (md_id (wm_model w)) cs = Some c -> In n (mc_props c) -> has_prop cs w n = true.
Proof. intros H1 H2. unfold has_prop, class_of. rewrite H1. apply existsb_exists. exists n. split; [exact H2|apply eqb_list_refl]. Qed.
Lemma made_fields types m w : made types m w -> wm_model w = m /\ wm_points w = attribute_ids types (md_id m).
Proof.
  intros (c & n & H). unfold wrap_model in H. apply bind_ok in H as ([[rname aliases] reps] & _ & H). apply Ok_inj in H. subst w. cbn [wm_model wm_points].
  split; [reflexivity|]. unfold model_class_get. rewrite <- property_attribute. now destruct (types (md_id m)).
Qed.
Lemma str_now_ext E cs w : points_now cs w = wm_points w -> str_now E cs w = wmodel_str E w.
Proof. unfold str_now. intros ->. now destruct w. Qed.
