(** * P_Report: proofs about the report (C89). *)
From Coq Require Import String ZifyBool.
From Verif Require Import Py P_List M_Util M_Float M_Suns M_Point M_Mbmap M_Device M_Smdx S_Codec P_Codec P_IntText P_Smdx M_Report S_Report.

Lemma numeral_zeros_base b n s v : 1 < b -> numeral b s v -> numeral b (repeat 48 n ++ s) v.
Proof.
  intros Hb. assert (Z1 : forall s v, numeral b s v -> numeral b (48 :: s) v).
  { clear n s v. intros s v H. induction H.
    - change [48; c] with ([48] ++ [c]). replace v with (0 * b + v) by lia. apply num_more; [|assumption].
      apply num_one. unfold digit_of. lia.
    - rewrite app_comm_cons. now apply num_more.
    - rewrite app_comm_cons. now apply num_under. }
  intros H. induction n as [|n IH]; [exact H|]. cbn [repeat app]. now apply Z1.
Qed.
Lemma log2_div16 n : 16 <= n -> Z.log2 (n / 16) < Z.log2 n.
Proof.
  intros Hn. pose proof (Z.div_mod n 16 ltac:(lia)). pose proof (Z.mod_pos_bound n 16 ltac:(lia)).
  assert (0 < n / 16) by lia.
  apply Z.log2_lt_pow2; [lia|]. pose proof (Z.log2_spec n ltac:(lia)) as [_ HL].
  rewrite Z.pow_succ_r in HL by apply Z.log2_nonneg. lia.
Qed.
Lemma digit_low v : 0 <= v < 16 -> digit_of 16 (hex_digit_low v) v.
Proof. intros H. unfold hex_digit_low, digit_of. destruct (Z.ltb_spec v 10); lia. Qed.
Lemma hex_low_numeral k : forall n, 0 <= n -> (Z.to_nat (Z.log2 n) < k)%nat -> numeral 16 (hex_low k n) n.
Proof.
  induction k as [|k IH]; intros n Hn Hk; [lia|]. cbn [hex_low]. destruct (Z.ltb_spec n 16).
  - apply num_one, digit_low. lia.
  - pose proof (log2_div16 n ltac:(lia)). pose proof (Z.log2_nonneg n). pose proof (Z.log2_nonneg (n / 16)).
    pose proof (Z.div_mod n 16 ltac:(lia)). pose proof (Z.mod_pos_bound n 16 ltac:(lia)).
    replace n with (n / 16 * 16 + n mod 16) at 3 by lia. apply num_more; [apply IH; lia|apply digit_low; lia].
Qed.
Lemma hex_literal w z : 0 <= z -> int_literal (lit "0x"%string ++ zfill w (hex_nonneg z)) z.
Proof.
  intros Hz. pose proof (il_plain [] (lit "0x"%string ++ zfill w (hex_nonneg z)) [] z) as H. cbn [app] in H. rewrite app_nil_r in H.
  apply H; [constructor|constructor|].
  apply (ul_pre 120 16 [] (zfill w (hex_nonneg z)) z); [left; auto|left; reflexivity|].
  unfold zfill. apply numeral_zeros_base; [lia|]. unfold hex_nonneg. apply hex_low_numeral; lia.
Qed.

Lemma blanks_repeat n : blanks (repeat 32 n).
Proof. apply Forall_forall. intros x H. apply repeat_spec in H. now left. Qed.

Lemma rstrip_no_nul s : ~ ends_in_nul (rstrip0 s).
Proof.
  intros (r & H). pose proof (f_equal (fun x => rstrip0 x) H) as H2. cbv beta in H2.
  assert (K : rstrip0 (rstrip0 s) = rstrip0 s).
  { destruct (rstrip0_decomp s) as [k Hk]. rewrite Hk at 2. now rewrite rstrip0_app_zeros. }
  rewrite K, H in H2. change [0] with (repeat 0 1) in H2 at 2. rewrite rstrip0_app_zeros in H2.
  assert (zlen (r ++ [0]) <= zlen r) by (rewrite H2; apply rstrip0_zlen_le).
  rewrite zlen_app in H0. change (zlen [0]) with 1 in H0. lia.
Qed.

Lemma value_text_shows E t v x : (t = Tbitfield16 \/ t = Tbitfield32 -> v = VNone \/ exists z, v = VInt z /\ 0 <= z) -> v <> VNone ->
  value_text E t v = Ok x -> shows E v x.
Proof.
  intros HB HN H.
  assert (B : forall w z, 0 <= z -> format_hex w (VInt z) = Ok x -> shows E (VInt z) x).
  { intros w z Hz HF. cbn [format_hex] in HF. destruct (Z.ltb_spec z 0); [lia|]. apply Ok_inj in HF. subst x.
    constructor. now apply hex_literal. }
  assert (G : Ok (rstrip0 (suns_to_str E v)) = Ok x -> shows E v x).
  { intros HG. apply Ok_inj in HG. subst x. destruct v as [|z|s|f]; [congruence| | |]; cbn [suns_to_str].
    - constructor. rewrite rstrip0_id; [apply canonical_literal, str_of_int_canonical|].
      intros (r & Hr). destruct (str_of_int_canonical z) as (ds & E1 & Hne & _ & HF & _). rewrite E1 in Hr.
      destruct ds as [|d ds _] using rev_ind; [congruence|]. rewrite app_assoc in Hr. apply app_inj_tail in Hr as [_ ->].
      apply Forall_app in HF as [_ HF]. inversion HF; subst. lia.
    - destruct (rstrip0_decomp s) as [k Hk]. rewrite Hk at 1. constructor. apply rstrip_no_nul.
    - destruct (rstrip0_decomp (float_repr E f)) as [k Hk]. econstructor; [apply rstrip_no_nul|exact Hk]. }
  destruct t; cbn [value_text] in H; try (apply G; exact H); (destruct HB as [?|(z & -> & Hz)]; [auto|congruence|]); eapply B; eauto.
Qed.
Lemma value_text_ok E t v : (t = Tbitfield16 \/ t = Tbitfield32 -> v = VNone \/ exists z, v = VInt z /\ 0 <= z) -> v <> VNone ->
  exists x, value_text E t v = Ok x.
Proof.
  intros HB HN. destruct t; cbn [value_text]; eauto; (destruct HB as [?|(z & -> & Hz)]; [auto|congruence|]); cbn [format_hex]; eauto.
Qed.

Lemma index_ok i : if 0 <? i then exists d, index_text i = d ++ lit ":"%string /\ numeral 10 d i else index_text i = lit "   "%string.
Proof.
  unfold index_text. destruct (Z.ltb_spec 0 i); [|reflexivity]. eexists. split; [reflexivity|].
  unfold zfill. apply numeral_zeros_base; [lia|]. apply dec_nonneg_numeral. lia.
Qed.
Lemma point_label_eq i t :
  point_label i t = lit "   "%string ++ index_text i ++ label_of (pt_label t) ++ lit "("%string ++ pt_id t ++ lit "):"%string.
Proof.
  unfold point_label, text_set, label_of. destruct (pt_label t) as [[|c r]|]; try reflexivity.
  rewrite <- !app_assoc. reflexivity.
Qed.

Lemma point_line_spec E i p : showable E p ->
  exists o, point_line E i p = Ok o /\ Forall2 (shows_entry E) (point_entry E i p) (match o with Some s => [s] | None => [] end).
Proof.
  intros (v & HV & HB). unfold point_line, point_entry. rewrite HV. cbn [bind].
  destruct (is_none v) eqn:EN.
  - destruct v; try discriminate. exists None. split; [reflexivity|constructor].
  - assert (HN : v <> VNone) by (now intros ->).
    destruct (value_text_ok E _ v HB HN) as (x & HX). rewrite HX. cbn [bind].
    eexists. split; [reflexivity|].
    assert (K : match v with VNone => [] | _ => [mkEntry i (p_type p) v] end = [mkEntry i (p_type p) v]) by (now destruct v).
    rewrite K. constructor; [|constructor].
    pose proof (value_text_shows E _ v x HB HN HX) as HS.
    unfold shows_entry. cbn [en_index en_type en_value]. unfold ljust, rjust. rewrite point_label_eq.
    set (L := lit "   "%string ++ index_text i ++ label_of (pt_label (p_type p)) ++ lit "("%string ++ pt_id (p_type p) ++ lit "):"%string).
    set (u := match pt_units (p_type p) with Some u => u | None => [] end).
    exists (index_text i), (repeat 32 (40 - length L) ++ [32] ++ repeat 32 (20 - length x)), x, (repeat 32 (10 - length u)).
    split; [|split; [|split; [|split; [|split; [exact HS|apply index_ok]]]]].
    + unfold L at 1. rewrite <- !app_assoc. reflexivity.
    + apply Forall_app. split; [apply blanks_repeat|]. constructor; [now left|apply blanks_repeat].
    + intros K2. apply app_eq_nil in K2 as [_ K2]. discriminate.
    + apply blanks_repeat.
Qed.
Lemma point_lines_spec E i l : Forall (showable E) l ->
  exists ls, point_lines E i l = (ls, Ok tt) /\ Forall2 (shows_entry E) (flat_map (point_entry E i) l) ls.
Proof.
  induction l as [|p l IH]; intros H; [exists []; split; [reflexivity|constructor]|]. inversion H as [|? ? H1 H2]; subst.
  destruct (point_line_spec E i p H1) as (o & HO & HF). destruct (IH H2) as (ls & HL & HFs).
  cbn [point_lines flat_map]. rewrite HO, HL. eexists. split; [reflexivity|].
  replace (match o with Some s => s :: ls | None => ls end) with ((match o with Some s => [s] | None => [] end) ++ ls) by (now destruct o).
  now apply Forall2_app.
Qed.
Lemma block_lines_spec E l : Forall (fun b => Forall (showable E) (b_points b)) l ->
  exists ls, block_lines E l = (ls, Ok tt) /\
  Forall2 (shows_entry E) (flat_map (fun b => flat_map (point_entry E (b_index b)) (b_points b)) l) ls.
Proof.
  induction l as [|b l IH]; intros H; [exists []; split; [reflexivity|constructor]|]. inversion H as [|? ? H1 H2]; subst.
  destruct (point_lines_spec E (b_index b) _ H1) as (ls1 & E1 & F1). destruct (IH H2) as (ls2 & E2 & F2).
  cbn [block_lines flat_map]. rewrite E1, E2. eexists. split; [reflexivity|]. now apply Forall2_app.
Qed.
Lemma header_ok t id : heading t id (model_header t id).
Proof.
  exists (str_of_int id). split; [apply str_of_int_canonical|]. unfold model_header, label_of, text_set.
  destruct (mt_label t) as [[|c r]|]; rewrite <- ?app_assoc; reflexivity.
Qed.
Lemma report_spec E l : Forall (fun m => md_type m <> None /\ showable_model E m) l ->
  exists secs, report E l = (concat secs, Ok tt) /\ Forall2 (section_of E) l secs.
Proof.
  induction l as [|m l IH]; intros H; [exists []; split; [reflexivity|constructor]|]. inversion H as [|? ? [H1 H1'] H2]; subst.
  destruct (md_type m) as [t|] eqn:ET; [|congruence].
  destruct (block_lines_spec E _ H1') as (ls & E1 & F1). destruct (IH H2) as (secs & E2 & F2).
  cbn [report]. rewrite ET, E1, E2. exists ((model_header t (md_id m) :: ls) :: secs). split; [reflexivity|].
  constructor; [|exact F2]. exists t, (model_header t (md_id m)), ls. repeat split; auto. apply header_ok.
Qed.
Lemma report_app E l1 l2 ls1 : report E l1 = (ls1, Ok tt) ->
  report E (l1 ++ l2) = (let '(ls2, x) := report E l2 in (ls1 ++ ls2, x)).
Proof.
  revert ls1. induction l1 as [|m l1 IH]; intros ls1 H.
  - cbn [report] in H. apply pair_equal_spec in H as [<- _]. cbn [app]. now destruct (report E l2).
  - cbn [report app] in *. destruct (md_type m) as [t|]; [|apply pair_equal_spec in H as [_ H]; discriminate].
    destruct (block_lines E (md_blocks m)) as [ls [u|e]]; [|apply pair_equal_spec in H as [_ H]; discriminate].
    destruct (report E l1) as [ls2 x] eqn:E1. apply pair_equal_spec in H as [<- ->].
    rewrite (IH ls2 eq_refl). destruct (report E l2) as [ls3 y]. cbn [app]. now rewrite app_assoc.
Qed.

(** ** Bit fields *)
Lemma hex_low_length k : forall n w, (1 <= w)%nat -> 0 <= n < 16 ^ Z.of_nat w -> (length (hex_low k n) <= w)%nat.
Proof.
  induction k as [|k IH]; intros n w Hw Hn; [cbn [hex_low length]; lia|]. cbn [hex_low]. destruct (Z.ltb_spec n 16); [cbn [length]; lia|].
  rewrite app_length. cbn [length]. destruct w as [|[|w]]; [lia| |].
  - change (16 ^ Z.of_nat 1) with 16 in Hn. lia.
  - specialize (IH (n / 16) (S w) ltac:(lia)). rewrite (Nat2Z.inj_succ (S w)), Z.pow_succ_r in Hn by lia.
    enough (0 <= n / 16 < 16 ^ Z.of_nat (S w)) by (specialize (IH H0); lia).
    split; [apply Z.div_pos; lia|apply Z.div_lt_upper_bound; lia].
Qed.
Lemma hex_fixed w z : (1 <= w)%nat -> 0 <= z < 16 ^ Z.of_nat w ->
  length (zfill w (hex_nonneg z)) = w /\ numeral 16 (zfill w (hex_nonneg z)) z.
Proof.
  intros Hw Hz. unfold zfill. split.
  - rewrite app_length, repeat_length. pose proof (hex_low_length (S (Z.to_nat (Z.log2 z))) z w Hw Hz). unfold hex_nonneg. lia.
  - apply numeral_zeros_base; [lia|]. unfold hex_nonneg. apply hex_low_numeral; lia.
Qed.

(** ** Reports that fail *)
Lemma point_line_fails E i p : shown_if_computed E p -> forall e, point_line E i p = Raise e -> value_getter E (p_base p) (p_sf p) = Raise e.
Proof.
  intros H e HE. destruct (value_getter E (p_base p) (p_sf p)) as [v|x] eqn:EV.
  - destruct (point_line_spec E i p (H v EV)) as (o & HO & _). rewrite HO in HE. discriminate HE.
  - unfold point_line in HE. rewrite EV in HE. cbn [bind] in HE. congruence.
Qed.
Lemma point_line_ok E i p o : shown_if_computed E p -> point_line E i p = Ok o ->
  Forall2 (shows_entry E) (point_entry E i p) (match o with Some s => [s] | None => [] end).
Proof.
  intros H HO. destruct (value_getter E (p_base p) (p_sf p)) as [v|x] eqn:EV.
  - destruct (point_line_spec E i p (H v EV)) as (o' & HO' & HF). rewrite HO in HO'. apply Ok_inj in HO'. now subst.
  - unfold point_line in HO. rewrite EV in HO. discriminate HO.
Qed.
(** lines printed before a failure show the points before the one that fails *)
Lemma point_lines_prefix E i : forall l ls r, Forall (shown_if_computed E) l -> point_lines E i l = (ls, r) ->
  match r with
  | Ok _ => Forall2 (shows_entry E) (flat_map (point_entry E i) l) ls
  | Raise e => exists l1 p l2, l = l1 ++ p :: l2 /\ value_getter E (p_base p) (p_sf p) = Raise e /\ Forall2 (shows_entry E) (flat_map (point_entry E i) l1) ls
  end.
Proof.
  induction l as [|p l IH]; intros ls r HF H; cbn [point_lines] in H.
  - apply pair_equal_spec in H as [<- <-]. constructor.
  - inversion HF as [|? ? HP HF']; subst. destruct (point_line E i p) as [o|e] eqn:EP.
    + destruct (point_lines E i l) as [ls0 r0] eqn:EL. specialize (IH ls0 r0 HF' eq_refl). apply pair_equal_spec in H as [<- <-].
      pose proof (point_line_ok E i p o HP EP) as HO.
      assert (G : forall ens, Forall2 (shows_entry E) ens ls0 ->
                Forall2 (shows_entry E) (point_entry E i p ++ ens) (match o with Some s => s :: ls0 | None => ls0 end)).
      { intros ens HE. replace (match o with Some s => s :: ls0 | None => ls0 end) with ((match o with Some s => [s] | None => [] end) ++ ls0) by (destruct o; reflexivity).
        now apply Forall2_app. }
      destruct r0 as [u|e].
      * cbn [flat_map]. now apply G.
      * destruct IH as (l1 & q & l2 & -> & HQ & HL). exists (p :: l1), q, l2. repeat split; auto. cbn [flat_map]. now apply G.
    + apply pair_equal_spec in H as [<- <-]. exists [], p, l. split; [reflexivity|]. split; [now apply (point_line_fails E i p HP)|constructor].
Qed.
Lemma block_lines_prefix E : forall l ls r, Forall (fun b => Forall (shown_if_computed E) (b_points b)) l -> block_lines E l = (ls, r) ->
  match r with
  | Ok _ => Forall2 (shows_entry E) (flat_map (block_entries E) l) ls
  | Raise e => exists bs1 b bs2 l1 p l2, l = bs1 ++ b :: bs2 /\ b_points b = l1 ++ p :: l2 /\ value_getter E (p_base p) (p_sf p) = Raise e /\
               Forall2 (shows_entry E) (flat_map (block_entries E) bs1 ++ flat_map (point_entry E (b_index b)) l1) ls
  end.
Proof.
  induction l as [|b l IH]; intros ls r HF H; cbn [block_lines] in H.
  - apply pair_equal_spec in H as [<- <-]. constructor.
  - inversion HF as [|? ? HP HF']; subst. destruct (point_lines E (b_index b) (b_points b)) as [ls0 r0] eqn:EP. pose proof (point_lines_prefix E _ _ _ _ HP EP) as HB.
    destruct r0 as [u|e].
    + destruct (block_lines E l) as [ls1 r1] eqn:EL. specialize (IH ls1 r1 HF' eq_refl). apply pair_equal_spec in H as [<- <-]. destruct r1 as [u1|e].
      * cbn [flat_map]. now apply Forall2_app.
      * destruct IH as (bs1 & c & bs2 & l1 & p & l2 & -> & H1 & H2 & H3). exists (b :: bs1), c, bs2, l1, p, l2. repeat split; auto. cbn [flat_map]. rewrite <- app_assoc. now apply Forall2_app.
    + apply pair_equal_spec in H as [<- <-]. destruct HB as (l1 & p & l2 & H1 & H2 & H3). exists [], b, l, l1, p, l2. repeat split; auto.
Qed.
