(** * C_Chunks: property C42, the size of the read requests Model.load plans. *)
From Coq Require Import String Sorted.
From Verif Require Import Py P_List M_Util M_Suns M_Mbmap M_Device S_Device P_Device P_Chunks C_Device.

(** a definition with ordered points, none of more than 125 registers (padding aside), loaded at [addr] with [L] registers *)
Definition planned (addr L : Z) (m : model) : Prop :=
  exists fuel types id len mt F, model_load fuel types (new_model id addr len) = (m, Ok tt) /\
  types id = Ok mt /\ used_length mt len L /\ fixed_length mt id L F /\
  ordered_from 0 F (bt_points (mt_fixed mt)) /\
  (forall rt R, mt_rep mt = Some rt -> base_int (bt_len rt) = Ok R -> ordered_from 0 R (bt_points rt)) /\
  Forall (fun t => pt_type t <> Tpad -> pt_len t <= 125) (bt_points (mt_fixed mt)) /\
  (forall rt, mt_rep mt = Some rt -> Forall (fun t => pt_type t <> Tpad -> pt_len t <= 125) (bt_points rt)).
Definition point_of (m : model) (p : point) : Prop := exists b, In b (md_blocks m) /\ In p (all_points b).

Lemma planned_cinv addr L m : planned addr L m -> cinv (md_reads m) (spans (md_blocks m)).
Proof.
  intros (fuel & types & id & len & mt & F & H & ET & HU & HF & HO & HR & HS1 & HS2). unfold model_load, new_model in H. cbn [md_id md_len md_addr md_blocks md_reads md_exposed md_error md_index] in H.
  rewrite ET in H.
  assert (EL : (if len =? 0 then mt_len mt else Some len) = Some L) by (destruct HU as [[N ->]|[-> E]]; [destruct (Z.eqb_spec len 0); congruence|exact E]).
  rewrite EL in H. destruct (base_int (bt_len (mt_fixed mt))) as [F0|] eqn:EF; [|discriminate].
  assert (EFF : (if (id =? 1) && (L =? 65) then L else F0) = F).
  { destruct HF as [(-> & -> & ->)|(N & E)]; [reflexivity|]. destruct (Z.eqb_spec id 1), (Z.eqb_spec L 65); cbn [andb]; try congruence. tauto. }
  rewrite EFF in H. destruct (load_loop _ _ _ _ _ _ _ _ _ _) as [[blocks reads] r] eqn:ELOOP. apply pair_equal_spec in H as [<- ->].
  cbn [md_reads md_blocks]. cbn [app] in ELOOP.
  assert (HI : rinv [addr] addr addr (spans [])) by (split; [exists []; reflexivity|]; split; [repeat constructor|]; split; [lia|constructor]).
  eapply load_loop_chunks in ELOOP; [exact ELOOP|intros; eapply HR; eassumption|exact HS2|exact HO|exact HS1|exact HI|].
  split; [intros [|k] s s' _ E; [discriminate|destruct k; discriminate]|intros k s a n _ []].
Qed.
Lemma span_of m p : point_of m p -> In (p_addr p, pt_len (p_type p)) (spans (md_blocks m)).
Proof. intros (b & HB & HP). apply in_flat_map. exists b. split; [exact HB|]. apply (in_map span) in HP. exact HP. Qed.

(** a point that starts in a request ends within 125 registers of the start of the request *)
Theorem C42_points_within_limit :
  forall addr L m c p, planned addr L m -> In c (chunks (md_reads m) (addr + L)) -> point_of m p ->
  fst c <= p_addr p < fst c + snd c -> p_addr p + pt_len (p_type p) <= fst c + 125.
Proof.
  intros addr L m c p HP HC HM HA. apply planned_cinv in HP as [_ H2]. apply In_nth_error in HC as [k HC]. apply chunks_nth in HC as [E1 E2].
  apply (H2 k _ _ _ E1 (span_of _ _ HM)); [lia|]. destruct (nth_error (md_reads m) (S k)); [lia|exact I].
Qed.
Print Assumptions C42_points_within_limit.
(** requests are as long as they can be: the next one starts with a point that would have ended beyond 125 registers *)
Theorem C42_no_needless_request :
  forall addr L m k c c', planned addr L m -> nth_error (chunks (md_reads m) (addr + L)) k = Some c ->
  nth_error (chunks (md_reads m) (addr + L)) (S k) = Some c' ->
  exists p, point_of m p /\ p_addr p = fst c' /\ fst c + 125 < p_addr p + pt_len (p_type p).
Proof.
  intros addr L m k c c' HP H1 H2. apply planned_cinv in HP as [C1 _]. apply chunks_nth in H1 as [H1 _]. apply chunks_nth in H2 as [H2 _].
  destruct (C1 k _ _ H1 H2) as (n & I & N). apply in_flat_map in I as (b & HB & I). apply in_map_iff in I as (p & E & HPP).
  apply pair_equal_spec in E as [E1 E2]. exists p. split; [exists b; auto|]. split; [exact E1|lia].
Qed.
Print Assumptions C42_no_needless_request.
(** if every register of the model belongs to a point, no request is for more than 125 registers *)
Theorem C42_requests_within_limit :
  forall addr L m c, planned addr L m -> (forall a, addr <= a < addr + L -> exists p, point_of m p /\ p_addr p <= a < p_addr p + pt_len (p_type p)) ->
  In c (chunks (md_reads m) (addr + L)) -> snd c <= 125.
Proof.
  intros addr L m c HP HCOV HC. pose proof HP as (fuel & types & id & len & mt & F & H & ET & HU & HF & HO & HR & _).
  destruct (C42_points_in_one_chunk fuel types id addr len m mt L F H ET HU HF HO HR) as ((more & EM) & HS & HL & HPC).
  destruct (Z_le_gt_dec (snd c) 125) as [G|G]; [exact G|exfalso]. pose proof HC as HC0. apply In_nth_error in HC as [k HC]. apply chunks_nth in HC as [E1 E2].
  assert (HB : addr <= fst c /\ fst c + snd c <= addr + L).
  { rewrite Forall_forall in HL. split.
    - rewrite EM in HS, E1. inversion HS as [|? ? _ HF2]; subst. rewrite Forall_forall in HF2. destruct k; [cbn in E1; apply Some_inj in E1; lia|]. cbn [nth_error] in E1. apply nth_error_In in E1. specialize (HF2 _ E1). lia.
    - rewrite E2. destruct (nth_error (md_reads m) (S k)) eqn:E3; [|lia]. apply nth_error_In in E3. specialize (HL _ E3). lia. }
  destruct (HCOV (fst c + snd c - 1) ltac:(lia)) as (p & HM & HA).
  destruct (Z_le_gt_dec (fst c) (p_addr p)) as [K|K].
  - pose proof (C42_points_within_limit addr L m c p HP HC0 HM ltac:(lia)). lia.
  - destruct HM as (b & Hb & Hp). destruct (HPC b p Hb Hp) as (d & HD & P1 & P2). apply In_nth_error in HD as [j HD]. apply chunks_nth in HD as [D1 D2].
    assert (j < k \/ k <= j)%nat as [J|J] by lia.
    + assert (HLE : forall i j x y, (i <= j)%nat -> nth_error (md_reads m) i = Some x -> nth_error (md_reads m) j = Some y -> x <= y).
      { clear - HS. induction HS as [|z l HS IH HF]; intros i j x y HIJ X Y; [destruct i; discriminate|].
        destruct i as [|i], j as [|j]; cbn [nth_error] in *; try lia.
        - apply Some_inj in X. apply Some_inj in Y. lia.
        - apply Some_inj in X. subst. apply nth_error_In in Y. rewrite Forall_forall in HF. apply HF; auto.
        - eapply (IH i j); eauto. lia. }
      destruct (nth_error (md_reads m) (S j)) as [s'|] eqn:E3.
      * pose proof (HLE (S j) k _ _ ltac:(lia) E3 E1). lia.
      * apply nth_error_None in E3. assert (k < length (md_reads m))%nat by (apply nth_error_Some; congruence). lia.
    + assert (HLE : forall i j x y, (i <= j)%nat -> nth_error (md_reads m) i = Some x -> nth_error (md_reads m) j = Some y -> x <= y).
      { clear - HS. induction HS as [|z l HS IH HF]; intros i j x y HIJ X Y; [destruct i; discriminate|].
        destruct i as [|i], j as [|j]; cbn [nth_error] in *; try lia.
        - apply Some_inj in X. apply Some_inj in Y. lia.
        - apply Some_inj in X. subst. apply nth_error_In in Y. rewrite Forall_forall in HF. apply HF; auto.
        - eapply (IH i j); eauto. lia. }
      pose proof (HLE k j _ _ ltac:(lia) E1 D1). lia.
Qed.
Print Assumptions C42_requests_within_limit.

(** an instance: two blocks of points, 206 registers in two requests *)
Definition full_mt : modeltype := mkMT 1 (Some 100) (Some 4) None None None None
  (mkBT Fixed (BStr (lit "4"%string)) (Some (lit "fixed"%string)) [pt "A" 0 Tuint32 2 None; pt "B" 2 Tint16 1 None; pt "C" 3 Tsunssf 1 None])
  (Some (mkBT Repeating (BStr (lit "50"%string)) (Some (lit "repeating"%string)) [pt "S" 0 Tstring 30 None; pt "T" 30 Tstring 20 None])) [].
Definition full_model : model := fst (model_load 10 (fun _ => Ok full_mt) (new_model 100 40004 204)).
Example C42_planned_ex : planned 40004 204 full_model /\ chunks (md_reads full_model) (40004 + 204) = [(40004, 104); (40108, 100)] /\
  forall a, 40004 <= a < 40004 + 204 -> exists p, point_of full_model p /\ p_addr p <= a < p_addr p + pt_len (p_type p).
Proof.
  split; [|split; [vm_compute; reflexivity|]].
  - exists 10%nat, (fun _ => Ok full_mt), 100, 204, full_mt, 4. split; [vm_compute; reflexivity|]. split; [reflexivity|]. split; [left; split; [discriminate|reflexivity]|].
    split; [right; split; [lia|reflexivity]|]. split; [cbn; lia|]. split; [intros rt R H1 H2; apply Some_inj in H1; subst rt; vm_compute in H2; apply Ok_inj in H2; subst R; cbn; lia|].
    split; [repeat constructor; cbn; lia|]. intros rt H. apply Some_inj in H. subst rt. repeat constructor; cbn; lia.
  - intros a Ha. assert (HG : forall l, incl l (flat_map all_points (md_blocks full_model)) ->
      (existsb (fun p => (p_addr p <=? a) && (a <? p_addr p + pt_len (p_type p))) l = true) -> exists p, point_of full_model p /\ p_addr p <= a < p_addr p + pt_len (p_type p)).
    { intros l HI HE. apply existsb_exists in HE as (p & HP & HE). exists p. apply HI in HP. apply in_flat_map in HP as (b & H1 & H2). split; [exists b; auto|lia]. }
    apply (HG _ (incl_refl _)). assert (HD : exists i : nat, a = 40004 + Z.of_nat i /\ (i < 204)%nat) by (exists (Z.to_nat (a - 40004)); lia).
    destruct HD as (i & -> & Hi). clear Ha HG.
    assert (HA : forallb (fun i => existsb (fun p => (p_addr p <=? 40004 + Z.of_nat i) && (40004 + Z.of_nat i <? p_addr p + pt_len (p_type p))) (flat_map all_points (md_blocks full_model))) (seq 0 204) = true)
      by (vm_compute; reflexivity).
    rewrite forallb_forall in HA. apply (HA i). apply in_seq. lia.
Qed.
