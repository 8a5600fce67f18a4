(** * C_Device: properties C40-C43 (Model.load). *)
From Coq Require Import String Sorted.
From Verif Require Import Py P_List M_Util M_Float M_Suns M_Mbmap M_Device S_Device P_Device.

(** a model type for the examples: a fixed block with two points and a scale factor, and a
    repeating block whose point uses the scale factor of the fixed block *)
Definition pt (id : string) (off : Z) (t : ptype) (len : Z) (sf : option string) : pointtype :=
  mkPT (lit id) off t len (lit "false"%string) (lit "rw"%string) None (option_map lit sf) None None None [].
Definition ex_fixed : blocktype := mkBT Fixed (BStr (lit "6"%string)) (Some (lit "fixed"%string))
  [pt "A" 0 Tuint16 1 (Some "A_SF"%string); pt "B" 1 Tint32 2 (Some "-2"%string); pt "Pad" 3 Tpad 1 None; pt "A_SF" 4 Tsunssf 1 None; pt "C" 5 Tenum16 1 None].
Definition ex_rep : blocktype := mkBT Repeating (BStr (lit "3"%string)) (Some (lit "repeating"%string))
  [pt "V" 0 Tuint16 1 (Some "A_SF"%string); pt "W" 1 Tacc32 2 None].
Definition ex_mt : modeltype := mkMT 1 (Some 100) (Some 6) (Some (lit "ex"%string)) None None None ex_fixed (Some ex_rep) [].
Definition ex_types (id : Z) : res modeltype := if id =? 100 then Ok ex_mt else Raise ESunSpec.

(** ** C40: a loaded model tiles the reported registers. *)
Theorem C40_model_layout :
  forall fuel types id addr len m,
  model_load fuel types (new_model id addr len) = (m, Ok tt) ->
  exists mt L F b reps,
    types id = Ok mt /\ md_type m = Some mt /\ used_length mt len L /\ fixed_length mt id L F /\
    md_len m = L /\ md_addr m = addr /\ md_id m = id /\
    md_blocks m = b :: reps /\ block_of (mt_fixed mt) addr F 0 b /\
    match mt_rep mt with
    | None => reps = [] /\ F <= L
    | Some rt => exists R, base_int (bt_len rt) = Ok R /\ F + zlen reps * R = L /\
        forall n c, nth_error reps n = Some c -> block_of rt (addr + F + Z.of_nat n * R) R (1 + Z.of_nat n) c
    end.
Proof.
  intros fuel types id addr len m H. unfold model_load, new_model in H. cbn [md_id md_len md_addr md_blocks md_reads md_exposed md_error md_index] in H.
  destruct (types id) as [mt|] eqn:ET; [|discriminate].
  destruct (if len =? 0 then mt_len mt else Some len) as [L|] eqn:EL; [|discriminate].
  destruct (base_int (bt_len (mt_fixed mt))) as [F0|] eqn:EF; [|discriminate].
  set (F := if (id =? 1) && (L =? 65) then L else F0) in *.
  destruct (load_loop _ _ _ _ _ _ _ _ _ _) as [[blocks reads] r] eqn:ELOOP. apply pair_equal_spec in H as [<- ->].
  apply load_loop_ok in ELOOP as (b & reps & EB & [HB _] & HR). cbn [app] in EB. subst blocks.
  exists mt, L, F, b, reps. cbn [md_type md_len md_addr md_id md_blocks].
  split; [reflexivity|]. split; [reflexivity|]. split.
  { destruct (Z.eqb_spec len 0) as [->|N]; [right; auto|left]. apply Some_inj in EL. auto. }
  split.
  { unfold fixed_length, F. destruct (Z.eqb_spec id 1) as [->|]; [|right; cbn [andb]; split; [intros []; congruence|exact EF]].
    destruct (Z.eqb_spec L 65) as [->|]; [left; auto|right; cbn [andb]; split; [intros []; congruence|exact EF]]. }
  do 3 (split; [reflexivity|]). split; [reflexivity|]. split; [exact HB|].
  destruct (mt_rep mt) as [rt|].
  - destruct HR as (R & E1 & E2 & E3). exists R. split; [exact E1|]. split; [lia|]. intros n c HN.
    eapply reps_at_nth in HN as [HN _]; [|exact E2]. exact HN.
  - destruct HR as [-> HR]. split; [reflexivity|lia].
Qed.
Print Assumptions C40_model_layout.
(** models whose length is not the fixed block plus a whole number of repeating blocks do not load *)
Theorem C40_bad_length_rejected :
  forall fuel types id addr len mt rt R F, types id = Ok mt -> mt_rep mt = Some rt -> base_int (bt_len rt) = Ok R ->
  len <> 0 -> fixed_length mt id len F -> (forall n, 0 <= n -> F + n * R <> len) ->
  forall m, model_load fuel types (new_model id addr len) <> (m, Ok tt).
Proof.
  intros fuel types id addr len mt rt R F ET ER EB HL HF HN m H.
  apply C40_model_layout in H as (mt' & L & F' & b & reps & H1 & _ & H3 & H4 & _ & _ & _ & _ & _ & H5).
  rewrite ET in H1. apply Ok_inj in H1. subst mt'. rewrite ER in H5. destruct H5 as (R' & E1 & E2 & _). rewrite EB in E1. apply Ok_inj in E1. subst R'.
  destruct H3 as [[_ ->]|[]]; [|congruence].
  assert (F' = F). { destruct H4 as [(A & B & C)|(A & C)]; destruct HF as [(A' & B' & C')|(A' & C')]; subst; try tauto; congruence. }
  subst F'. apply (HN (zlen reps)); [unfold zlen; lia|exact E2].
Qed.
Print Assumptions C40_bad_length_rejected.
Example C40_ex :
  let '(m, r) := model_load 10 ex_types (new_model 100 40004 12) in
  r = Ok tt /\ map (fun b => (b_addr b, b_len b, b_index b)) (md_blocks m) = [(40004, 6, 0); (40010, 3, 1); (40013, 3, 2)] /\
  map (fun b => map p_addr (b_points b)) (md_blocks m) = [[40004; 40005; 40009]; [40010; 40011]; [40013; 40014]] /\
  map p_link (flat_map b_points (md_blocks m)) =
    [SfOwn (lit "A_SF"%string); SfConst (-2); SfNone; SfFixed (lit "A_SF"%string); SfNone; SfFixed (lit "A_SF"%string); SfNone].
Proof. vm_compute. auto. Qed.

(** ** C41: refuted: with a repeating block of length 0 the loop never ends. *)
Definition loop_mt : modeltype :=
  mkMT 1 (Some 100) (Some 6) None None None None ex_fixed (Some (mkBT Repeating (BStr (lit "0"%string)) (Some (lit "repeating"%string)) [])) [].
Theorem C41_zero_length_refuted :
  forall fuel, snd (model_load fuel (fun _ => Ok loop_mt) (new_model 100 40004 12)) = Raise EFuel.
Proof.
  intros fuel. unfold model_load.
  cbn [md_id md_len md_addr md_blocks md_reads md_exposed md_error md_index new_model].
  change (12 =? 0) with false. cbv iota. change (base_int (bt_len (mt_fixed loop_mt))) with (@Ok Z 6). cbv iota zeta.
  change ((100 =? 1) && (12 =? 65)) with false. cbv iota. change (mt_rep loop_mt) with (Some (mkBT Repeating (BStr (lit "0"%string)) (Some (lit "repeating"%string)) [])).
  assert (HL : forall k last i blocks reads, snd (load_loop k (Some (mkBT Repeating (BStr (lit "0"%string)) (Some (lit "repeating"%string)) [])) (40004 + 12) 40010 0
     (mkBT Repeating (BStr (lit "0"%string)) (Some (lit "repeating"%string)) []) i last blocks reads) = Raise EFuel).
  { induction k as [|k IH]; intros last i blocks reads; [reflexivity|]. cbn [load_loop bt_points load_points resolve].
    change (40004 + 12 <? 40010 + 0) with false. cbv iota. change (base_int (bt_len _)) with (@Ok Z 0). cbv iota.
    change (40004 + 12 =? 40010 + 0) with false. cbv iota. change (40010 + 0) with 40010. apply IH. }
  destruct fuel as [|k]; [reflexivity|].
  cbn [load_loop]. change (40004 + 12 <? 40004 + 6) with false. cbv iota. 
  destruct (load_points _ _ _ _ _ _) as [[[last1 reads1] pts] sfs] eqn:E1. vm_compute in E1.
  apply pair_equal_spec in E1 as [E1 <-]. apply pair_equal_spec in E1 as [E1 <-]. apply pair_equal_spec in E1 as [<- <-].
  destruct (resolve _ _ _ _) as [pts' ok] eqn:E2. vm_compute in E2. apply pair_equal_spec in E2 as [<- <-].
  cbv iota. change (base_int (bt_len _)) with (@Ok Z 0). cbv iota. change (40004 + 12 =? 40004 + 6) with false. cbv iota. change (40004 + 6) with 40010.
  destruct (load_loop _ _ _ _ _ _ _ _ _ _) as [[bs rs] r] eqn:E.
  cbn [snd]. change r with (snd (bs, rs, r)). rewrite <- E. apply HL.
Qed.
Print Assumptions C41_zero_length_refuted.
(** if repeating blocks have a positive length, load ends: some number of rounds suffices, and more
    fuel changes nothing *)
Theorem C41_load_terminates_partial :
  forall types m, (forall id, types id <> Raise EFuel) ->
  (forall mt rb r, types (md_id m) = Ok mt -> mt_rep mt = Some rb -> base_int (bt_len rb) = Ok r -> 0 < r) ->
  exists fuel0, forall fuel, (fuel0 <= fuel)%nat ->
    model_load fuel types m = model_load fuel0 types m /\ snd (model_load fuel types m) <> Raise EFuel.
Proof.
  intros types m HT HR. unfold model_load. destruct (types (md_id m)) as [mt|e] eqn:ET.
  2:{ exists O. intros. split; [reflexivity|]. cbn [snd]. intros [= ->]. now apply (HT (md_id m)). }
  destruct (if md_len m =? 0 then mt_len mt else Some (md_len m)) as [L|]; [|exists O; intros; split; [reflexivity|discriminate]].
  destruct (base_int (bt_len (mt_fixed mt))) as [F0|e] eqn:EF.
  2:{ exists O. intros. split; [reflexivity|]. cbn [snd]. intros [= ->]. revert EF. unfold base_int, int_of_str, parse_signed.
      destruct (bt_len (mt_fixed mt)); [discriminate|]. destruct (strip_blank s) as [|c t]; [discriminate|].
      destruct (c =? 45); [destruct (parse_dec t); discriminate|]. destruct (c =? 43); [destruct (parse_dec t); discriminate|]. destruct (parse_dec (c :: t)); discriminate. }
  set (F := if (_ && _) then L else F0). set (e := md_addr m + L).
  set (n := S (S (Z.to_nat (e - (md_addr m + F))))). exists n. intros fuel Hf.
  assert (HE : snd (load_loop n (mt_rep mt) e (md_addr m) F (mt_fixed mt) 0 (md_addr m) (md_blocks m) (md_reads m ++ [md_addr m])) <> Raise EFuel).
  { apply load_loop_ends; [|lia]. intros rb r H1 H2. eapply HR; eauto. }
  rewrite (load_loop_fuel_mono _ _ n fuel) by (auto; lia).
  destruct (load_loop n _ _ _ _ _ _ _ _ _) as [[bs rs] r]. split; [reflexivity|]. cbn [snd] in *. exact HE.
Qed.
Print Assumptions C41_load_terminates_partial.
Example C41_ex : forall mt rb r, ex_types 100 = Ok mt -> mt_rep mt = Some rb -> base_int (bt_len rb) = Ok r -> 0 < r.
Proof. intros mt rb r H1 H2 H3. apply Ok_inj in H1. subst mt. apply Some_inj in H2. subst rb. vm_compute in H3. apply Ok_inj in H3. lia. Qed.

(** ** C42: split reads never split a point. *)
Theorem C42_points_in_one_chunk :
  forall fuel types id addr len m mt L F,
  model_load fuel types (new_model id addr len) = (m, Ok tt) ->
  types id = Ok mt -> used_length mt len L -> fixed_length mt id L F ->
  ordered_from 0 F (bt_points (mt_fixed mt)) ->
  (forall rt R, mt_rep mt = Some rt -> base_int (bt_len rt) = Ok R -> ordered_from 0 R (bt_points rt)) ->
  (exists more, md_reads m = addr :: more) /\ StronglySorted Z.le (md_reads m) /\ Forall (fun s => s <= addr + L) (md_reads m) /\
  forall b p, In b (md_blocks m) -> In p (all_points b) ->
    exists c, In c (chunks (md_reads m) (addr + L)) /\ point_in_chunk p c.
Proof.
  intros fuel types id addr len m mt L F H ET HU HF HO HR. unfold model_load, new_model in H. cbn [md_id md_len md_addr md_blocks md_reads md_exposed md_error md_index] in H.
  rewrite ET in H.
  assert (EL : (if len =? 0 then mt_len mt else Some len) = Some L) by (destruct HU as [[N ->]|[-> E]]; [destruct (Z.eqb_spec len 0); congruence|exact E]).
  rewrite EL in H. destruct (base_int (bt_len (mt_fixed mt))) as [F0|] eqn:EF; [|discriminate].
  assert (EFF : (if (id =? 1) && (L =? 65) then L else F0) = F).
  { destruct HF as [(-> & -> & ->)|(N & E)]; [reflexivity|]. destruct (Z.eqb_spec id 1), (Z.eqb_spec L 65); cbn [andb]; try congruence. tauto. }
  rewrite EFF in H. destruct (load_loop _ _ _ _ _ _ _ _ _ _) as [[blocks reads] r] eqn:ELOOP. apply pair_equal_spec in H as [<- ->].
  cbn [md_reads md_blocks]. cbn [app] in ELOOP.
  assert (HI : rinv [addr] addr addr (spans [])) by (split; [exists []; reflexivity|]; split; [repeat constructor|]; split; [lia|constructor]).
  eapply load_loop_reads in ELOOP as (last & (HL1 & HL2 & HL3 & HL4) & new & ->); [|intros; eapply HR; eassumption|exact HO|exact HI].
  split; [exists new; reflexivity|]. split; [exact HL2|]. split.
  { destruct HL1 as [pre EP]. rewrite EP in *. eapply Forall_impl; [|apply sorted_last_max; exact HL2]. cbn. intros; lia. }
  intros b p HB HP. rewrite Forall_forall in HL4. destruct (HL4 (span p)) as [H1 H2].
  { apply in_flat_map. exists b. split; [exact HB|]. now apply in_map. }
  cbn [span fst snd] in H1, H2. apply (covered_chunk _ (addr + L)) in H2 as (c & A & B & C); [|exact H1]. exists c. split; [exact A|]. split; assumption.
Qed.
Print Assumptions C42_points_in_one_chunk.
Definition big_mt : modeltype := mkMT 1 (Some 100) (Some 6) None None None None ex_fixed
  (Some (mkBT Repeating (BStr (lit "50"%string)) (Some (lit "repeating"%string)) [pt "S" 0 Tstring 30 None; pt "T" 31 Tstring 19 None])) [].
Example C42_ex :
  let '(m, r) := model_load 10 (fun _ => Ok big_mt) (new_model 100 40004 206) in
  r = Ok tt /\ md_reads m = [40004; 40110] /\ chunks (md_reads m) (40004 + 206) = [(40004, 106); (40110, 100)].
Proof. vm_compute. auto. Qed.
Example C42_ex_hyp : ordered_from 0 6 (bt_points ex_fixed) /\
  ordered_from 0 50 [pt "S" 0 Tstring 30 None; pt "T" 31 Tstring 19 None].
Proof. cbn. lia. Qed.

(** ** C43: scale factor links. *)
Theorem C43_links_local_first :
  forall fuel types id addr len m, model_load fuel types (new_model id addr len) = (m, Ok tt) ->
  exists fixed, hd_error (md_blocks m) = Some fixed /\
  forall b p, In b (md_blocks m) -> In p (b_points b) -> linked fixed b p (p_link p).
Proof.
  intros fuel types id addr len m H. unfold model_load, new_model in H. cbn [md_id md_len md_addr md_blocks md_reads md_exposed md_error md_index] in H.
  destruct (types id) as [mt|] eqn:ET; [|discriminate].
  destruct (if len =? 0 then mt_len mt else Some len) as [L|] eqn:EL; [|discriminate].
  destruct (base_int (bt_len (mt_fixed mt))) as [F0|] eqn:EF; [|discriminate].
  destruct (load_loop _ _ _ _ _ _ _ _ _ _) as [[blocks reads] r] eqn:ELOOP. apply pair_equal_spec in H as [<- ->].
  apply load_loop_ok in ELOOP as (b & reps & EB & [HB HLB] & HR). cbn [app] in EB. subst blocks. cbn [md_blocks hd] in *.
  exists b. split; [reflexivity|]. intros c p HC HP. rewrite Forall_forall in HLB. destruct HC as [->|HC]; [now apply HLB|].
  destruct (mt_rep mt) as [rt|]; [|destruct HR as [-> _]; destruct HC].
  destruct HR as (R & E1 & E2 & _). apply In_nth_error in HC as [n HN]. eapply reps_at_nth in HN as [_ HN]; [|exact E2].
  rewrite Forall_forall in HN. now apply HN.
Qed.
Print Assumptions C43_links_local_first.
(** and if a reference of the fixed block resolves to nothing, load fails: with an error that is
    not a SunSpecError, because building its message fails *)
Lemma Forall2_in_r {A B} (R : A -> B -> Prop) l l' y : Forall2 R l l' -> In y l' -> exists x, In x l /\ R x y.
Proof.
  induction 1 as [|a b l l' H1 H2 IH]; intros HI; [destruct HI|]. destruct HI as [->|HI]; [exists a; split; [now left|exact H1]|].
  destruct (IH HI) as (x & X1 & X2). exists x. split; [now right|exact X2].
Qed.
Theorem C43_unresolved_fails :
  forall fuel types id addr len mt t s, types id = Ok mt -> In t (bt_points (mt_fixed mt)) -> plain t = true ->
  pt_sf t = Some s -> (forall z, int_of_str s <> Ok z) ->
  ~ (exists t', In t' (bt_points (mt_fixed mt)) /\ scale t' = true /\ pt_id t' = s) ->
  forall m, model_load fuel types (new_model id addr len) <> (m, Ok tt).
Proof.
  intros fuel types id addr len mt t s ET HIN HPL HS HZ HN m H.
  destruct (C43_links_local_first _ _ _ _ _ _ H) as (fixed & HH & HL).
  apply C40_model_layout in H as (mt' & L & F & b & reps & H1 & _ & _ & _ & _ & _ & _ & H5 & H6 & _).
  rewrite ET in H1. apply Ok_inj in H1. subst mt'. rewrite H5 in HH. apply Some_inj in HH. subst fixed.
  destruct H6 as (_ & _ & _ & HI & HP & HSF).
  assert (exists p, In p (b_points b) /\ p_type p = t) as (p & HPI & HPT).
  { assert (HIN2 : In t (filter plain (bt_points (mt_fixed mt)))) by (apply filter_In; auto).
    clear - HP HIN2. induction HP as [|x y l l' A B IH]; [destruct HIN2|]. destruct HIN2 as [->|HIN2].
    - exists y. split; [now left|apply A].
    - destruct (IH HIN2) as (p & P1 & P2). exists p. split; [now right|exact P2]. }
  assert (HNS : ~ has_sf s b).
  { intros (q & Q1 & Q2). apply HN. eapply Forall2_in_r in Q1 as (t' & T1 & T2); [|exact HSF]. apply filter_In in T1 as [T1 T3].
    exists t'. split; [exact T1|]. split; [exact T3|]. destruct T2 as [E _]. congruence. }
  specialize (HL b p ltac:(rewrite H5; now left) HPI). destruct HL as [E|s' z E EI|s' E EI HO|s' E EI HO HX HFX]; rewrite HPT, HS in E; try discriminate;
    apply Some_inj in E; subst s'; [now apply (HZ z)|contradiction|lia].
Qed.
Print Assumptions C43_unresolved_fails.
Example C43_ex :
  let mt := mkMT 1 (Some 100) (Some 6) None None None None (mkBT Fixed (BInt 1) None [pt "A" 0 Tuint16 1 (Some "X_SF"%string)]) None [] in
  snd (model_load 10 (fun _ => Ok mt) (new_model 100 40004 1)) = Raise EType.
Proof. reflexivity. Qed.
