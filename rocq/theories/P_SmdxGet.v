(** * P_SmdxGet: proofs about model_type_get (C60). *)
From Coq Require Import String.
From Verif Require Import Py P_List M_Util M_Float M_Suns M_Xml M_Mbmap M_Device M_Path M_Smdx S_Smdx.

(** a sequence of requests *)
Fixpoint requests (V : tenv) (st : tstate) (ids : list Z) : tstate * list (res modeltype) :=
  match ids with
  | [] => (st, [])
  | i :: r => let '(st1, a) := model_type_get V st i in let '(st2, l) := requests V st1 r in (st2, a :: l)
  end.
Definition only_ids (st : tstate) : Prop := Forall (fun kv => exists i, fst kv = KId i) (ts_types st).

Lemma only_ids_miss st s : only_ids st -> tget (KText s) (ts_types st) = None.
Proof.
  unfold only_ids. induction (ts_types st) as [|[k v] l IH]; intros H; cbn [tget]; [reflexivity|].
  inversion H as [|x y [i Hi] HL]; subst. cbn [fst] in Hi. subst k. cbn [tkey_eqb]. auto.
Qed.
Lemma tset_ids i v l : Forall (fun kv : tkey * modeltype => exists i, fst kv = KId i) l ->
  Forall (fun kv : tkey * modeltype => exists i, fst kv = KId i) (tset (KId i) v l).
Proof.
  induction 1 as [|[k v'] l H HL IH]; cbn [tset].
  - constructor; [exists i; reflexivity|constructor].
  - destruct (tkey_eqb (KId i) k); constructor; auto.
Qed.

Definition with_oid (o : Z) (t : modeltype) : modeltype :=
  mkMT o (mt_id t) (mt_len t) (mt_name t) (mt_label t) (mt_description t) (mt_notes t) (mt_fixed t) (mt_rep t) (mt_symbols t).
Lemma model_from_smdx_oid o root :
  model_from_smdx o root = match model_from_smdx 0 root with Ok t => Ok (with_oid o t) | Raise e => Raise e end.
Proof.
  unfold model_from_smdx. match goal with |- bind ?m _ = _ => destruct m as [[[[id len] name] ms]|e] end; cbn [bind]; [|reflexivity].
  match goal with |- bind ?m _ = _ => destruct m as [[tx [[f r] log]]|e] end; cbn [bind]; reflexivity.
Qed.
(** what a request answers, apart from the identity of the object *)
Definition answer (V : tenv) (i : Z) : res modeltype :=
  match smdx_data V (model_id_to_filename i) with
  | Raise e => Raise e
  | Ok None => Raise ESunSpec
  | Ok (Some d) => match te_parse V d with
                   | Raise e => Raise e
                   | Ok root => match model_from_smdx 0 root with Ok t => Ok t | Raise _ => Raise ESunSpec end
                   end
  end.
Lemma same_definition_oid o t : same_definition (with_oid o t) t.
Proof. unfold same_definition, with_oid. cbn. repeat split. Qed.
Lemma get_answer V st i st' a : only_ids st -> model_type_get V st i = (st', a) ->
  only_ids st' /\ same_answer a (answer V i) /\
  ts_parsed st' = ts_parsed st ++ (match smdx_data V (model_id_to_filename i) with Ok (Some d) => [d] | _ => [] end).
Proof.
  intros HO. unfold model_type_get, answer. rewrite only_ids_miss by auto.
  destruct (smdx_data V (model_id_to_filename i)) as [[d|]|e].
  - destruct (te_parse V d) as [root|e].
    + rewrite model_from_smdx_oid. destruct (model_from_smdx 0 root) as [t|e]; intros H; apply pair_equal_spec in H as [<- <-]; cbn [ts_parsed].
      * split; [apply tset_ids, HO|]. split; [apply same_definition_oid|reflexivity].
      * split; [exact HO|]. split; reflexivity.
    + intros H; apply pair_equal_spec in H as [<- <-]. split; [exact HO|]. split; reflexivity.
  - intros H; apply pair_equal_spec in H as [<- <-]. rewrite app_nil_r. split; [exact HO|]. split; reflexivity.
  - intros H; apply pair_equal_spec in H as [<- <-]. rewrite app_nil_r. split; [exact HO|]. split; reflexivity.
Qed.
Lemma requests_answers V ids : forall st st' l, only_ids st -> requests V st ids = (st', l) ->
  only_ids st' /\ Forall2 (fun i a => same_answer a (answer V i)) ids l /\
  ts_parsed st' = ts_parsed st ++ flat_map (fun i => match smdx_data V (model_id_to_filename i) with Ok (Some d) => [d] | _ => [] end) ids.
Proof.
  induction ids as [|i ids IH]; intros st st' l HO H; cbn [requests] in H.
  - apply pair_equal_spec in H as [<- <-]. cbn [flat_map]. rewrite app_nil_r. split; [auto|]. split; [constructor|reflexivity].
  - destruct (model_type_get V st i) as [st1 a] eqn:E1. destruct (requests V st1 ids) as [st2 l2] eqn:E2.
    apply pair_equal_spec in H as [<- <-]. destruct (get_answer _ _ _ _ _ HO E1) as (A & B & C).
    destruct (IH _ _ _ A E2) as (D & E & F). split; [exact D|]. split; [constructor; auto|].
    cbn [flat_map]. rewrite F, C, app_assoc. reflexivity.
Qed.
Lemma same_answer_trans a b c : same_answer a b -> same_answer c b -> same_answer a c.
Proof.
  unfold same_answer, same_definition. destruct a, b, c; try contradiction; try congruence.
  intros H1 H2. decompose [and] H1; decompose [and] H2. repeat split; congruence.
Qed.
Lemma answer_ok_data V i t : answer V i = Ok t -> exists d, smdx_data V (model_id_to_filename i) = Ok (Some d).
Proof. unfold answer. destruct (smdx_data V (model_id_to_filename i)) as [[d|]|e]; try discriminate. eauto. Qed.
