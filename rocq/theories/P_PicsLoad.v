(** * P_PicsLoad: loading a model definition at another address gives the same blocks. *)
From Coq Require Import String ZifyBool.
From Verif Require Import Py P_List M_Util M_Float M_Suns M_Mbmap M_Device S_Device P_Device S_Pics.

Definition shiftP (d : Z) (p : point) : point := mkP (p_type p) (p_addr p + d) (p_link p) (p_impl p) (p_base p) (p_sf p) (p_dirty p).
Definition shiftB (d : Z) (b : block) : block := mkB (b_addr b + d) (b_len b) (b_type b) (b_index b) (map (shiftP d) (b_points b)) (map (shiftP d) (b_sfs b)).

Lemma load_points_shift d a l : forall last reads pts sfs,
  load_points (a + d) l (last + d) (map (fun x => x + d) reads) (map (shiftP d) pts) (map (shiftP d) sfs) =
  let '(last', reads', pts', sfs') := load_points a l last reads pts sfs in
  (last' + d, map (fun x => x + d) reads', map (shiftP d) pts', map (shiftP d) sfs').
Proof.
  induction l as [|t l IH]; intros last reads pts sfs; cbn [load_points]; [reflexivity|].
  destruct (is_pad (pt_type t)); [apply IH|]. cbv zeta.
  replace (MAX_READ_COUNT <? a + d + pt_offset t + pt_len t - (last + d)) with (MAX_READ_COUNT <? a + pt_offset t + pt_len t - last) by lia.
  replace (a + d + pt_offset t) with (a + pt_offset t + d) by lia.
  assert (HP : forall l, map (shiftP d) l ++ [new_point t (a + pt_offset t + d)] = map (shiftP d) (l ++ [new_point t (a + pt_offset t)])) by (intros; rewrite map_app; reflexivity).
  rewrite !HP.
  destruct (MAX_READ_COUNT <? a + pt_offset t + pt_len t - last).
  - replace (map (fun x => x + d) reads ++ [a + pt_offset t + d]) with (map (fun x => x + d) (reads ++ [a + pt_offset t])) by (rewrite map_app; reflexivity).
    destruct (is_sunssf (pt_type t)); apply IH.
  - destruct (is_sunssf (pt_type t)); apply IH.
Qed.
Lemma find_point_shift d s l : find_point s (map (shiftP d) l) = option_map (shiftP d) (find_point s l).
Proof. unfold find_point. induction l as [|p l IH]; [reflexivity|]. cbn [map find]. unfold p_id at 1. cbn [shiftP p_type]. fold (p_id p). destruct (eqb_list (p_id p) s); [reflexivity|exact IH]. Qed.
Lemma resolve1_shift d own fixed i p : resolve1 (map (shiftP d) own) (map (shiftP d) fixed) i (shiftP d p) = resolve1 own fixed i p.
Proof.
  unfold resolve1. cbn [shiftP p_type]. destruct (pt_sf (p_type p)) as [s|]; [|reflexivity]. destruct (int_of_str s); [reflexivity|].
  rewrite !find_point_shift. destruct (find_point s own); [reflexivity|]. cbn [option_map]. destruct (0 <? i); [|reflexivity]. destruct (find_point s fixed); reflexivity.
Qed.
Lemma resolve_shift d own fixed i l : resolve (map (shiftP d) own) (map (shiftP d) fixed) i (map (shiftP d) l) =
  let '(r, ok) := resolve own fixed i l in (map (shiftP d) r, ok).
Proof.
  induction l as [|p l IH]; [reflexivity|]. cbn [resolve map]. rewrite resolve1_shift. destruct (resolve1 own fixed i p); [|reflexivity].
  rewrite IH. destruct (resolve own fixed i l) as [r ok]. reflexivity.
Qed.
Lemma fixed_sfs_shift d l : fixed_sfs (map (shiftB d) l) = map (shiftP d) (fixed_sfs l).
Proof. destruct l; reflexivity. Qed.

Lemma load_loop_shift d rep e fuel : forall a len bt i last blocks reads,
  load_loop fuel rep (e + d) (a + d) len bt i (last + d) (map (shiftB d) blocks) (map (fun x => x + d) reads) =
  let '(blocks', reads', r) := load_loop fuel rep e a len bt i last blocks reads in (map (shiftB d) blocks', map (fun x => x + d) reads', r).
Proof.
  induction fuel as [|fuel IH]; intros a len bt i last blocks reads; cbn [load_loop]; [reflexivity|]. cbv zeta.
  replace (e + d <? a + d + len) with (e <? a + len) by lia. destruct (e <? a + len); [reflexivity|].
  change (load_points (a + d) (bt_points bt) (last + d) (map (fun x => x + d) reads) [] [])
    with (load_points (a + d) (bt_points bt) (last + d) (map (fun x => x + d) reads) (map (shiftP d) []) (map (shiftP d) [])).
  rewrite load_points_shift. destruct (load_points a (bt_points bt) last reads [] []) as [[[last' reads'] pts] sfs].
  change [mkB (a + d) len bt i (map (shiftP d) pts) (map (shiftP d) sfs)] with (map (shiftB d) [mkB a len bt i pts sfs]).
  rewrite <- map_app, fixed_sfs_shift, resolve_shift.
  destruct (resolve sfs (fixed_sfs (blocks ++ [mkB a len bt i pts sfs])) i pts) as [pts' ok].
  change [mkB (a + d) len bt i (map (shiftP d) pts') (map (shiftP d) sfs)] with (map (shiftB d) [mkB a len bt i pts' sfs]). rewrite <- map_app.
  destruct ok; [|reflexivity]. destruct rep as [rb|]; [|reflexivity]. destruct (base_int (bt_len rb)) as [rlen|]; [|reflexivity].
  replace (e + d =? a + d + len) with (e =? a + len) by lia. destruct (e =? a + len); [reflexivity|].
  replace (a + d + len) with (a + len + d) by lia. apply IH.
Qed.

Lemma model_load_shift fuel types id a d len m r : model_load fuel types (new_model id a len) = (m, r) ->
  exists n, model_load fuel types (new_model id (a + d) len) = (n, r) /\ md_blocks n = map (shiftB d) (md_blocks m) /\
    md_len n = md_len m /\ md_id n = md_id m /\ md_type n = md_type m /\ md_index n = md_index m.
Proof.
  unfold model_load, new_model. cbn [md_id md_len md_addr md_blocks md_reads md_exposed md_error md_index].
  destruct (types id) as [mt|]; [|intros H; apply pair_equal_spec in H as [<- <-]; eexists; split; [reflexivity|]; repeat split].
  destruct (if len =? 0 then mt_len mt else Some len) as [L|]; [|intros H; apply pair_equal_spec in H as [<- <-]; eexists; split; [reflexivity|]; repeat split].
  destruct (base_int (bt_len (mt_fixed mt))) as [F0|]; [|intros H; apply pair_equal_spec in H as [<- <-]; eexists; split; [reflexivity|]; repeat split].
  pose proof (load_loop_shift d (mt_rep mt) (a + L) fuel a (if (id =? 1) && (L =? 65) then L else F0) (mt_fixed mt) 0 a [] [a]) as HS. cbn [map] in HS.
  cbn [app]. replace (a + d + L) with (a + L + d) by lia. rewrite HS.
  destruct (load_loop fuel (mt_rep mt) (a + L) a (if (id =? 1) && (L =? 65) then L else F0) (mt_fixed mt) 0 a [] [a]) as [[blocks reads] r0].
  intros H. apply pair_equal_spec in H as [<- <-]. eexists. split; [reflexivity|]. repeat split.
Qed.
Lemma model_load_len fuel types id a len m : model_load fuel types (new_model id a len) = (m, Ok tt) ->
  model_load fuel types (new_model id a (md_len m)) = (m, Ok tt) /\ (md_len m = 0 -> forall t, types id = Ok t -> mt_len t <> None).
Proof.
  unfold model_load, new_model. cbn [md_id md_len md_addr md_blocks md_reads md_exposed md_error md_index].
  destruct (types id) as [mt|]; [|discriminate].
  destruct (if len =? 0 then mt_len mt else Some len) as [L|] eqn:EL; [|discriminate].
  destruct (base_int (bt_len (mt_fixed mt))) as [F0|] eqn:EF; [|discriminate].
  destruct (load_loop fuel (mt_rep mt) (a + L) a (if (id =? 1) && (L =? 65) then L else F0) (mt_fixed mt) 0 a [] ([] ++ [a])) as [[blocks reads] r0] eqn:EQ.
  intros H. apply pair_equal_spec in H as [<- ->]. cbn [md_len].
  assert (HL : (if L =? 0 then mt_len mt else Some L) = Some L).
  { destruct (Z.eqb_spec L 0) as [->|]; [|reflexivity]. destruct (Z.eqb_spec len 0); [exact EL|]. apply Some_inj in EL. lia. }
  rewrite HL, EQ. split; [reflexivity|]. intros -> t Ht. apply Ok_inj in Ht. subst t. change (0 =? 0) with true in HL. congruence.
Qed.
Lemma shift_same d b : same_block b (shiftB d b).
Proof.
  unfold same_block. cbn [shiftB b_type b_len b_index b_points b_sfs]. do 3 (split; [reflexivity|]). split.
  - induction (b_points b); cbn; constructor; auto. split; reflexivity.
  - induction (b_sfs b); cbn; constructor; auto. split; reflexivity.
Qed.
