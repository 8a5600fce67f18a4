(** * P_FloatText: lemmas for C116. *)
From Coq Require Import String Reals Psatz.
From Flocq Require Import Core Relative BinarySingleNaN.
From Verif Require Import Py P_List M_Util M_Float M_Suns S_Scale S_Accuracy S_FloatText M_FloatText P_Float P_Scale P_Accuracy P_IntText.
From Coq Require Import ZifyBool.
Local Open Scope Z_scope.

(** ** one rounding *)
Local Instance V64 : Valid_exp fexp64 := fexp_correct 53 1024 P53.
Lemma nearest_rnd x : nearest64 x = rnd64 x.
Proof. reflexivity. Qed.
Lemma ten_add a b : ten (a + b) = (ten a * ten b)%R.
Proof. rewrite !ten_bpow. apply bpow_plus. Qed.
Lemma ten_IZR k : 0 <= k -> ten k = IZR (10 ^ k).
Proof. intros H. rewrite ten_bpow, <- (IZR_Zpower r10) by exact H. reflexivity. Qed.
Lemma ten_opp k : ten (- k) = (/ ten k)%R.
Proof. rewrite !ten_bpow. apply bpow_opp. Qed.
Lemma ten_le a b : a <= b -> (ten a <= ten b)%R.
Proof. intros H. rewrite !ten_bpow. now apply bpow_le. Qed.
Lemma pos_pow10 k : 0 <= k -> 0 < 10 ^ k.
Proof. intros. apply Z.pow_pos_nonneg; lia. Qed.

Lemma decimal_float_rounds s p k : rounds_to s (IZR (Zpos p) * ten k) (decimal_float s (Zpos p) k).
Proof.
  unfold decimal_float. set (mx := if k <? 0 then p else Z.to_pos (Zpos p * 10 ^ k)). set (my := if k <? 0 then Z.to_pos (10 ^ (- k)) else 1%positive).
  cbn [SFdiv]. pose proof (Bdiv_correct_aux 53 1024 P53 L53 mode_NE s mx 0 false my 0) as H. cbv zeta in H.
  destruct (SFdiv_core_binary 53 1024 (Z.pos mx) 0 (Z.pos my) 0) as [[mz ez] lz] eqn:EC. rewrite (sf_binary_round_aux 53 1024 _ _).
  rewrite xorb_false_r in H |- *. set (z := BinarySingleNaN.binary_round_aux 53 1024 mode_NE s mz ez lz) in *.
  assert (EV : (F2R (Float radix2 (cond_Zopp s (Zpos mx)) 0) / F2R (Float radix2 (cond_Zopp false (Zpos my)) 0) = cond_Ropp s (IZR (Zpos p) * ten k))%R).
  { unfold F2R. cbn [Fnum Fexp bpow cond_Zopp]. rewrite !Rmult_1_r.
    assert (EM : (IZR (Zpos mx) / IZR (Zpos my) = IZR (Zpos p) * ten k)%R).
    { unfold mx, my. destruct (Z.ltb_spec k 0).
      - rewrite Z2Pos.id by (apply pos_pow10; lia). rewrite <- ten_IZR by lia. rewrite ten_opp. field. pose proof (ten_pos k). lra.
      - rewrite Z2Pos.id by (apply Z.mul_pos_pos; [lia|apply pos_pow10; lia]). rewrite mult_IZR, ten_IZR by lia. field. }
    rewrite <- EM. destruct s; cbn [cond_Zopp cond_Ropp]; [rewrite opp_IZR|]; unfold Rdiv; ring. }
  rewrite EV in H. change (round_mode mode_NE) with ZnearestE in H. unfold rounds_to. rewrite nearest_rnd. set (v := (IZR (Z.pos p) * ten k)%R) in *.
  assert (Hv : (0 < v)%R) by (apply Rmult_lt_0_compat; [apply IZR_lt; lia|apply ten_pos]).
  assert (ER : rnd64 (cond_Ropp s v) = cond_Ropp s (rnd64 v)) by (destruct s; cbn [cond_Ropp]; [apply round_NE_opp|reflexivity]).
  rewrite ER in H. rewrite abs_cond_Ropp in H. assert (H0 : (0 <= rnd64 v)%R) by (apply round_ge_generic; [apply V64|auto with typeclass_instances|apply generic_format_0|lra]).
  rewrite (Rabs_pos_eq _ H0) in H. destruct H as [HV H]. destruct (Rlt_bool_spec (rnd64 v) (bpow radix2 1024)) as [HL|HL].
  - destruct H as (H1 & H2 & H3). split; [exact HV|]. split; [exact H3|]. left. auto.
  - rewrite H. split; [reflexivity|]. split; [reflexivity|]. right. auto.
Qed.

(** a float is determined by its sign and value *)
Lemma valid_float f : SpecFloat.valid_binary 53 1024 f = true -> exists b : b64, f = B2SF b.
Proof. intros H. exists (SF2B f H). symmetry. apply B2SF_SF2B. Qed.
Lemma float_inj f g : SpecFloat.valid_binary 53 1024 f = true -> SpecFloat.valid_binary 53 1024 g = true -> is_finite_SF f = true -> is_finite_SF g = true ->
  SF2R radix2 f = SF2R radix2 g -> sign_SF f = sign_SF g -> f = g.
Proof.
  intros Hf Hg Ff Fg HR HS. destruct (valid_float f Hf) as (b & ->). destruct (valid_float g Hg) as (c & ->). f_equal.
  rewrite !is_finite_SF_B2SF in *. rewrite !SF2R_B2SF in HR. apply B2R_Bsign_inj; auto. now destruct b, c.
Qed.
Lemma rounds_to_eq s x f g : rounds_to s x f -> rounds_to s x g -> f = g.
Proof.
  intros (V1 & S1 & [(H1 & F1 & R1)|(H1 & R1)]) (V2 & S2 & [(H2 & F2 & R2)|(H2 & R2)]); try lra; [|congruence].
  apply float_inj; auto; congruence.
Qed.
(** numbers close to a float round to it *)
Lemma round_close x y : generic_format radix2 fexp64 x -> (0 < x)%R -> (Rabs (y - x) < x * bpow radix2 (-54))%R -> rnd64 y = x.
Proof.
  intros HF Hx HC. apply Rabs_lt_inv in HC.
  assert (HU : (x * bpow radix2 (-53) <= ulp radix2 fexp64 x)%R).
  { rewrite ulp_neq_0 by lra. unfold cexp. set (e := mag radix2 x). apply Rle_trans with (bpow radix2 (e - 53)); [|apply bpow_le; unfold fexp64, SpecFloat.fexp, SpecFloat.emin; lia].
    replace (e - 53) with (e + (-53)) by lia. rewrite bpow_plus. apply Rmult_le_compat_r; [apply bpow_ge_0|]. pose proof (bpow_mag_gt radix2 x) as HM. rewrite Rabs_pos_eq in HM by lra. fold e in HM. lra. }
  assert (E54 : bpow radix2 (-53) = (2 * bpow radix2 (-54))%R) by (change 2%R with (bpow radix2 1); rewrite <- bpow_plus; reflexivity).
  apply Rle_antisym.
  - apply round_N_le_midp; auto with typeclass_instances. rewrite succ_eq_pos by lra. nra.
  - apply round_N_ge_midp; auto with typeclass_instances. rewrite pred_eq_pos by lra. unfold pred_pos. case Req_bool_spec; intros HE; [|nra].
    set (e := mag radix2 x : Z) in *. assert (HG : (x * bpow radix2 (-53) <= bpow radix2 (fexp64 (e - 1)))%R).
    { rewrite HE at 1. rewrite <- bpow_plus. apply bpow_le. unfold SpecFloat.fexp, SpecFloat.emin. lia. }
    nra.
Qed.

(** ** the digits of a number *)
(** the text of a number x = a / b: the point *)
Lemma below_pow_spec a b p : 0 < b -> below_pow a b p = true <-> (IZR a / IZR b < ten p)%R.
Proof.
  intros Hb. assert (Hb' : (0 < IZR b)%R) by (apply IZR_lt; exact Hb). unfold below_pow. destruct (Z.ltb_spec p 0).
  - rewrite Z.ltb_lt. pose proof (ten_pos p) as HT. assert (HE : IZR (10 ^ (- p)) = (/ ten p)%R) by (rewrite <- ten_IZR by lia; apply ten_opp).
    split; intros H1.
    + apply IZR_lt in H1. rewrite mult_IZR, HE in H1. apply Rmult_lt_reg_r with (IZR b * / ten p)%R; [apply Rmult_lt_0_compat; [lra|now apply Rinv_0_lt_compat]|].
      replace (IZR a / IZR b * (IZR b * / ten p))%R with (IZR a * / ten p)%R by (field; lra). replace (ten p * (IZR b * / ten p))%R with (IZR b) by (field; lra). exact H1.
    + apply lt_IZR. rewrite mult_IZR, HE. apply (Rmult_lt_compat_r (IZR b * / ten p)) in H1; [|apply Rmult_lt_0_compat; [lra|now apply Rinv_0_lt_compat]].
      replace (IZR a / IZR b * (IZR b * / ten p))%R with (IZR a * / ten p)%R in H1 by (field; lra). replace (ten p * (IZR b * / ten p))%R with (IZR b) in H1 by (field; lra). exact H1.
  - rewrite Z.ltb_lt, ten_IZR by lia. split; intros H1.
    + apply Rmult_lt_reg_r with (IZR b); [exact Hb'|]. replace (IZR a / IZR b * IZR b)%R with (IZR a) by (field; lra). rewrite Rmult_comm, <- mult_IZR. now apply IZR_lt.
    + apply (Rmult_lt_compat_r (IZR b)) in H1; [|exact Hb']. replace (IZR a / IZR b * IZR b)%R with (IZR a) in H1 by (field; lra). rewrite Rmult_comm, <- mult_IZR in H1. now apply lt_IZR.
Qed.
Lemma find_point10_spec a b fuel p : 0 < b -> (ten (p - 1) <= IZR a / IZR b)%R -> (IZR a / IZR b < ten (p + Z.of_nat fuel))%R ->
  let q := find_point10 fuel a b p in (ten (q - 1) <= IZR a / IZR b < ten q)%R.
Proof.
  intros Hb. revert p. induction fuel as [|fuel IH]; intros p H1 H2; cbn [find_point10].
  - cbv zeta. rewrite Z.add_0_r in H2. lra.
  - destruct (below_pow a b p) eqn:E.
    + apply below_pow_spec in E; [|exact Hb]. cbv zeta. lra.
    + apply IH.
      * replace (p + 1 - 1) with p by lia. apply Rnot_lt_le. intros HC. apply (below_pow_spec a b p Hb) in HC. congruence.
      * replace (p + 1 + Z.of_nat fuel) with (p + Z.of_nat (S fuel)) by lia. exact H2.
Qed.
Lemma point_spec a b l : 0 < b -> (ten (-401) <= IZR a / IZR b)%R -> (IZR a / IZR b < ten 320)%R ->
  let q := find_point10 720 a b (first_point a b l) in (ten (q - 1) <= IZR a / IZR b < ten q)%R.
Proof.
  intros Hb H1 H2. apply find_point10_spec; [exact Hb| |].
  - unfold first_point. cbv zeta. destruct (_ <? _) eqn:E1; cbn [orb]; [exact H1|]. destruct (below_pow _ _ _) eqn:E2; [exact H1|].
    apply Rnot_lt_le. intros HC. apply (below_pow_spec a b _ Hb) in HC. congruence.
  - apply Rlt_le_trans with (1 := H2). apply ten_le. unfold first_point. cbv zeta. destruct (Z.ltb_spec (l * 30103 / 100000) (-400)); cbn [orb]; [lia|]. destruct (below_pow _ _ _); lia.
Qed.
(** the nearest integer to x * 10^k *)
Lemma near_digits_spec a b k : 0 <= a -> 0 < b -> 0 <= fst (near_digits a b k) /\ (Rabs (IZR (fst (near_digits a b k)) - IZR a / IZR b * ten k) <= 1 / 2)%R.
Proof.
  intros Ha Hb. unfold near_digits. set (a' := if k <? 0 then a else a * 10 ^ k). set (b' := if k <? 0 then b * 10 ^ (- k) else b).
  assert (Hb' : 0 < b') by (unfold b'; destruct (Z.ltb_spec k 0); [apply Z.mul_pos_pos; [lia|apply pos_pow10; lia]|lia]).
  assert (Ha' : 0 <= a') by (unfold a'; destruct (Z.ltb_spec k 0); [lia|apply Z.mul_nonneg_nonneg; [lia|pose proof (pos_pow10 k); lia]]).
  assert (EX : (IZR a / IZR b * ten k = IZR a' / IZR b')%R).
  { assert (0 < IZR b)%R by (apply IZR_lt; exact Hb). unfold a', b'. destruct (Z.ltb_spec k 0).
    - rewrite mult_IZR, <- (ten_IZR (- k)), ten_opp by lia. pose proof (ten_pos k). field. split; lra.
    - rewrite mult_IZR, <- ten_IZR by lia. field. lra. }
  rewrite EX. clear EX. pose proof (Z.div_mod a' b' ltac:(lia)) as HD. pose proof (Z.mod_pos_bound a' b' Hb') as HM. pose proof (Z.div_pos a' b' Ha' Hb') as HQ.
  set (q := a' / b') in *. set (r := a' mod b') in *.
  assert (HBR : (0 < IZR b')%R) by (apply IZR_lt; exact Hb').
  assert (EQ : (IZR a' / IZR b' = IZR q + IZR r / IZR b')%R) by (rewrite HD, plus_IZR, mult_IZR; field; lra). rewrite EQ.
  assert (HR0 : (0 <= IZR r / IZR b')%R) by (apply Rmult_le_pos; [apply IZR_le; lia|apply Rlt_le, Rinv_0_lt_compat, HBR]).
  assert (HR1 : (IZR r / IZR b' <= 1)%R) by (apply Rmult_le_reg_r with (IZR b'); [exact HBR|]; unfold Rdiv; rewrite Rmult_assoc, Rinv_l, Rmult_1_l, Rmult_1_r by lra; apply IZR_le; lia).
  destruct ((2 * r <? b') || ((2 * r =? b') && Z.even q)) eqn:EC; cbn [fst]; (split; [lia|]); apply Rabs_le.
  - assert (2 * r <= b') by lia. assert (IZR r / IZR b' <= 1 / 2)%R; [|lra].
    apply Rmult_le_reg_r with (2 * IZR b')%R; [lra|]. replace (IZR r / IZR b' * (2 * IZR b'))%R with (2 * IZR r)%R by (field; lra). replace (1 / 2 * (2 * IZR b'))%R with (IZR b') by field. rewrite <- mult_IZR. now apply IZR_le.
  - assert (b' <= 2 * r) by lia. assert (1 / 2 <= IZR r / IZR b')%R; [|rewrite plus_IZR; lra].
    apply Rmult_le_reg_r with (2 * IZR b')%R; [lra|]. replace (IZR r / IZR b' * (2 * IZR b'))%R with (2 * IZR r)%R by (field; lra). replace (1 / 2 * (2 * IZR b'))%R with (IZR b') by field. rewrite <- mult_IZR. now apply IZR_le.
Qed.
Lemma same_float_eq f g : same_float f g = true -> f = g.
Proof.
  destruct f as [s|s| |s m e], g as [t|t| |t n d]; try discriminate. cbn [same_float]. rewrite !andb_true_iff. intros [[H1 H2] H3].
  apply Bool.eqb_prop in H1. apply Pos.eqb_eq in H2. apply Z.eqb_eq in H3. congruence.
Qed.
Lemma seventeen : (1 / 2 * ten (-16) < bpow radix2 (-54))%R.
Proof.
  change (-16) with (- (16)). change (-54) with (- (54)). rewrite ten_opp, bpow_opp, ten_IZR by lia. rewrite <- (IZR_Zpower radix2) by lia.
  change (10 ^ 16) with 10000000000000000. change (Zpower radix2 54) with 18014398509481984. lra.
Qed.
(** the value of a finite float *)
Definition num (m : positive) (e : Z) : Z := if e <? 0 then Zpos m else Zpos m * 2 ^ e.
Definition den (e : Z) : Z := if e <? 0 then 2 ^ (- e) else 1.
Lemma den_pos e : 0 < den e.
Proof. unfold den. destruct (Z.ltb_spec e 0); [apply Z.pow_pos_nonneg; lia|lia]. Qed.
Lemma num_pos m e : 0 < num m e.
Proof. unfold num. destruct (Z.ltb_spec e 0); [lia|apply Z.mul_pos_pos; [lia|apply Z.pow_pos_nonneg; lia]]. Qed.
Lemma num_den m e : (IZR (num m e) / IZR (den e) = F2R (Float radix2 (Zpos m) e))%R.
Proof.
  unfold num, den, F2R. cbn [Fnum Fexp]. destruct (Z.ltb_spec e 0).
  - change (2 ^ (- e)) with (Zpower radix2 (- e)). rewrite IZR_Zpower by lia. rewrite bpow_opp. field. apply Rgt_not_eq, bpow_gt_0.
  - rewrite mult_IZR. change (2 ^ e) with (Zpower radix2 e). rewrite IZR_Zpower by lia. field.
Qed.
Lemma finite_range (b : b64) : (B2R b <> 0)%R -> (bpow radix2 (-1074) <= Rabs (B2R b) < bpow radix2 1024)%R.
Proof.
  intros H. split; [|apply abs_B2R_lt_emax]. destruct b as [s|s| |s m e HB]; try (cbn in H; congruence). apply (abs_B2R_ge_emin 53 1024 (B754_finite s m e HB)). reflexivity.
Qed.
Lemma shortest_spec m e s p : SpecFloat.bounded 53 1024 m e = true -> let x := F2R (Float radix2 (Zpos m) e) in (ten (p - 1) <= x < ten p)%R ->
  forall fuel n, n + Z.of_nat fuel = 17 ->
  decimal_float s (fst (shortest fuel (S754_finite s m e) s (num m e) (den e) p n)) (snd (shortest fuel (S754_finite s m e) s (num m e) (den e) p n)) = S754_finite s m e.
Proof.
  intros HB x Hp. induction fuel as [|fuel IH]; intros n Hn; cbn [shortest]; destruct (near_digits (num m e) (den e) (n - p)) as [y z] eqn:ED.
  - replace n with 17 in * by lia. cbn [fst snd].
    pose proof (near_digits_spec (num m e) (den e) (17 - p) ltac:(pose proof (num_pos m e); lia) (den_pos e)) as [Hy HA]. rewrite ED in Hy, HA. cbn [fst] in Hy, HA. rewrite num_den in HA. fold x in HA.
    assert (Hx : (0 < x)%R) by (pose proof (ten_pos (p - 1)); lra).
    assert (E1 : (ten (17 - p) * ten (p - 17) = 1)%R) by (rewrite <- ten_add; replace (17 - p + (p - 17)) with 0 by lia; reflexivity).
    assert (E2 : (ten (p - 17) = ten (p - 1) * ten (-16))%R) by (rewrite <- ten_add; f_equal; lia).
    pose proof (ten_pos (p - 17)) as HT. pose proof (ten_pos (-16)) as HT16. pose proof seventeen as HS.
    assert (HC : (Rabs (IZR y * ten (p - 17) - x) < x * bpow radix2 (-54))%R).
    { replace (IZR y * ten (p - 17) - x)%R with ((IZR y - x * ten (17 - p)) * ten (p - 17))%R by (rewrite Rmult_minus_distr_r, Rmult_assoc, E1; ring).
      rewrite Rabs_mult, (Rabs_pos_eq (ten (p - 17))) by lra. apply Rle_lt_trans with (1 / 2 * ten (p - 17))%R; [apply Rmult_le_compat_r; lra|]. rewrite E2. nra. }
    destruct y as [|q|q]; [|
      |lia].
    + exfalso. rewrite Rmult_0_l, Rminus_0_l, Rabs_Ropp, Rabs_pos_eq in HC by lra. pose proof (bpow_le radix2 (-54) 0 ltac:(lia)) as HB1. change (bpow radix2 0) with 1%R in HB1. assert (HB2 : (x * bpow radix2 (-54) <= x * 1)%R) by (apply Rmult_le_compat_l; lra). lra.
    + apply (rounds_to_eq s (IZR (Zpos q) * ten (p - 17))%R); [apply decimal_float_rounds|].
      set (g := B754_finite s m e HB : b64). assert (HR : B2R g = cond_Ropp s x) by (unfold g, x; cbn [B2R]; apply F2R_cond_Zopp).
      assert (HX : (x < bpow radix2 1024)%R) by (pose proof (abs_B2R_lt_emax 53 1024 g) as HM; rewrite HR, abs_cond_Ropp, Rabs_pos_eq in HM; lra).
      assert (HN : rnd64 (IZR (Zpos q) * ten (p - 17)) = x).
      { apply round_close; [|exact Hx|exact HC]. replace x with (B2R (B754_finite false m e HB : b64)) by reflexivity. apply generic_format_B2R. }
      split; [exact HB|]. split; [reflexivity|]. left. rewrite nearest_rnd, HN. split; [exact HX|]. split; [reflexivity|]. exact HR.
  - destruct (same_float (decimal_float s y (p - n)) _) eqn:E1; [apply same_float_eq in E1; exact E1|].
    destruct (same_float (decimal_float s z (p - n)) _) eqn:E2; [apply same_float_eq in E2; exact E2|]. apply IH. lia.
Qed.
Lemma strip_zeros_spec fuel n k : 0 < n -> let r := strip_zeros fuel n k in 0 < fst r /\ (IZR (fst r) * ten (snd r) = IZR n * ten k)%R.
Proof.
  revert n k. induction fuel as [|fuel IH]; intros n k Hn; cbn [strip_zeros]; cbv zeta; [auto|]. destruct (Z.eqb_spec (n mod 10) 0) as [E|E]; [|auto].
  pose proof (Z.div_mod n 10 ltac:(lia)) as HD. destruct (IH (n / 10) (k + 1) ltac:(lia)) as [H1 H2]. split; [exact H1|]. rewrite H2, ten_add.
  replace (IZR n) with (IZR (n / 10) * 10)%R by (rewrite <- mult_IZR; f_equal; lia). change (ten 1) with (10 * 1)%R. ring.
Qed.

(** ** digits *)
Lemma denotes_app a n b m : denotes a n -> denotes b m -> denotes (a ++ b) (n * 10 ^ Z.of_nat (length b) + m).
Proof.
  intros Ha. induction 1 as [|b m c Hb IH Hc]; [rewrite app_nil_r; change (10 ^ Z.of_nat (length [])) with 1; replace (n * 1 + 0) with n by lia; exact Ha|].
  rewrite app_assoc. replace (n * 10 ^ Z.of_nat (length (b ++ [c])) + (10 * m + (c - 48))) with (10 * (n * 10 ^ Z.of_nat (length b) + m) + (c - 48)); [now constructor|].
  rewrite app_length. cbn [length]. replace (Z.of_nat (length b + 1)) with (Z.succ (Z.of_nat (length b))) by lia. rewrite Z.pow_succ_r by lia. lia.
Qed.
Lemma denotes_zeros j : denotes (repeat 48 j) 0.
Proof. induction j as [|j IH]; [constructor|]. replace (S j) with (j + 1)%nat by lia. rewrite repeat_app. cbn [repeat]. change 0 with (10 * 0 + (48 - 48)). constructor; [exact IH|unfold digit; lia]. Qed.
Lemma denotes_digits d n : denotes d n -> Forall digit d.
Proof. induction 1; [constructor|apply Forall_app; auto]. Qed.
Lemma denotes_val d n : denotes d n -> digits_val d = n.
Proof. induction 1 as [|d n c H IH Hc]; [reflexivity|]. unfold digits_val in *. rewrite fold_left_app, IH. cbn [fold_left]. lia. Qed.
Lemma digits_denote d : Forall digit d -> denotes d (digits_val d).
Proof.
  intros H. induction d as [|c d IH] using rev_ind; [constructor|]. apply Forall_app in H as [H1 H2]. apply Forall_inv in H2.
  unfold digits_val. rewrite fold_left_app. cbn [fold_left]. replace (fold_left (fun a c0 : Z => a * 10 + (c0 - 48)) d 0 * 10 + (c - 48)) with (10 * digits_val d + (c - 48)) by (unfold digits_val; lia). constructor; auto.
Qed.
Lemma dec_nonneg_denotes n : 0 <= n -> denotes (dec_nonneg n) n /\ dec_nonneg n <> [].
Proof.
  intros Hn. destruct (dec_digits_spec (S (Z.to_nat (Z.log2 n))) n Hn ltac:(lia)) as (H1 & _ & H3 & H4). split; [|exact H1].
  assert (HV : digits_val (dec_nonneg n) = n) by exact H4. pose proof (digits_denote _ H3) as HD. fold (dec_nonneg n) in HD. rewrite HV in HD. exact HD.
Qed.
Lemma is_digit_spec c : is_digit c = true <-> digit c.
Proof. unfold is_digit, digit. lia. Qed.
Lemma span_spec d r : Forall digit d -> (forall c t, r = c :: t -> is_digit c = false) -> span_digits (d ++ r) = (d, r).
Proof.
  intros Hd Hr. induction Hd as [|c d Hc Hd IH]; cbn [app span_digits].
  - destruct r as [|c t]; [reflexivity|]. cbn [span_digits]. now rewrite (Hr c t eq_refl).
  - rewrite (proj2 (is_digit_spec c) Hc), IH. reflexivity.
Qed.

(** ** the layout is a decimal text *)
Lemma layout_text s n k : 0 < n -> decimal_text (sign_text s ++ layout n k) s (IZR n * ten k).
Proof.
  intros Hn. destruct (dec_nonneg_denotes n ltac:(lia)) as [HD HE]. unfold layout. set (d := dec_nonneg n) in *. cbv zeta.
  assert (HS : sign_of (sign_text s) s) by (destruct s; constructor).
  assert (HG : forall ip fr f ex x m, fraction fr f -> exponent ex x -> denotes (ip ++ f) m -> ip ++ f <> [] -> (IZR m * ten (x - Z.of_nat (length f)) = IZR n * ten k)%R ->
    decimal_text (sign_text s ++ ip ++ fr ++ ex) s (IZR n * ten k)).
  { intros ip fr f ex x m H1 H2 H3 H4 H5. rewrite <- H5. pose proof (dec_text [] (sign_text s) s ip fr f ex x [] m ltac:(constructor) ltac:(constructor) HS H1 H2 H3 H4) as H. rewrite app_nil_r in H. exact H. }
  set (nd := Z.of_nat (length d)) in *. assert (Hnd : 0 < nd) by (unfold nd; destruct d; [congruence|cbn [length]; lia]).
  destruct ((-4 <? nd + k) && (nd + k <=? 16)).
  - destruct (Z.leb_spec (nd + k) 0).
    + change (lit "0.") with ([48] ++ [46]). rewrite <- app_assoc. cbn [app].
      rewrite <- (app_nil_r (46 :: repeat 48 (Z.to_nat (- (nd + k))) ++ d)). change (48 :: (46 :: repeat 48 (Z.to_nat (- (nd + k))) ++ d) ++ []) with ([48] ++ (46 :: repeat 48 (Z.to_nat (- (nd + k))) ++ d) ++ []).
      apply (HG [48] _ (repeat 48 (Z.to_nat (- (nd + k))) ++ d) [] 0 n); [constructor|constructor| |discriminate|].
      * replace n with (0 * 10 ^ Z.of_nat (length (repeat 48 (Z.to_nat (- (nd + k))) ++ d)) + (0 * 10 ^ Z.of_nat (length d) + n)) by lia. apply denotes_app; [exact (denotes_zeros 1)|]. apply denotes_app; [apply denotes_zeros|exact HD].
      * rewrite app_length, repeat_length. f_equal. f_equal. fold nd. lia.
    + destruct (Z.ltb_spec (nd + k) nd).
      * rewrite <- (app_nil_r (46 :: skipn _ _)). apply (HG (firstn (Z.to_nat (nd + k)) d) _ (skipn (Z.to_nat (nd + k)) d) [] 0 n); [constructor|constructor| | |].
        -- rewrite firstn_skipn. exact HD.
        -- rewrite firstn_skipn. exact HE.
        -- rewrite skipn_length. f_equal. f_equal. lia.
      * change (lit ".0") with [46; 48]. rewrite (app_assoc d). rewrite <- (app_nil_r [46; 48]).
        apply (HG (d ++ repeat 48 (Z.to_nat (nd + k - nd))) _ [48] [] 0 (n * 10 ^ (k + 1))); [constructor|constructor| | |].
        -- replace (n * 10 ^ (k + 1)) with (n * 10 ^ k * 10 ^ Z.of_nat (length [48]) + 0).
           2:{ cbn [length]. change (10 ^ Z.of_nat 1) with 10. rewrite Z.pow_add_r by lia. lia. }
           apply denotes_app; [|exact (denotes_zeros 1)]. replace (n * 10 ^ k) with (n * 10 ^ Z.of_nat (length (repeat 48 (Z.to_nat (nd + k - nd)))) + 0).
           2:{ rewrite repeat_length. replace (Z.of_nat (Z.to_nat (nd + k - nd))) with k by lia. lia. }
           apply denotes_app; [exact HD|apply denotes_zeros].
        -- destruct d; [congruence|discriminate].
        -- rewrite mult_IZR, <- ten_IZR by lia. rewrite Rmult_assoc, <- ten_add. f_equal. f_equal. cbn [length]. lia.
  - set (x := nd + k - 1). destruct (dec_nonneg_denotes (Z.abs x) ltac:(lia)) as [HX HXE]. set (xd := dec_nonneg (Z.abs x)) in *.
    assert (HEX : exponent (101 :: (if x <? 0 then 45 else 43) :: repeat 48 (2 - length xd) ++ xd) x).
    { replace x with (if x <? 0 then - Z.abs x else Z.abs x) at 2 by (destruct (Z.ltb_spec x 0); lia).
      change (101 :: (if x <? 0 then 45 else 43) :: repeat 48 (2 - length xd) ++ xd) with (101 :: [if x <? 0 then 45 else 43] ++ (repeat 48 (2 - length xd) ++ xd)).
      apply ex_some; [auto|destruct (x <? 0); constructor| |].
      - replace (Z.abs x) with (0 * 10 ^ Z.of_nat (length xd) + Z.abs x) by lia. apply denotes_app; [apply denotes_zeros|exact HX].
      - intros H. apply app_eq_nil in H as [_ H]. exact (HXE H). }
    destruct (Z.ltb_spec 1 nd).
    + apply (HG (firstn 1 d) _ (skipn 1 d) _ x n); [constructor|exact HEX| | |].
      * rewrite firstn_skipn. exact HD.
      * rewrite firstn_skipn. exact HE.
      * rewrite skipn_length. f_equal. f_equal. unfold x. lia.
    + apply (HG (firstn 1 d) _ [] _ x n); [constructor|exact HEX| | |].
      * rewrite app_nil_r. rewrite firstn_all2 by lia. exact HD.
      * rewrite app_nil_r. rewrite firstn_all2 by lia. exact HE.
      * cbn [length]. f_equal. f_equal. unfold x. lia.
Qed.

(** ** reading a decimal text *)
Definition core (c : Z) : Prop := digit c \/ c = 43 \/ c = 45 \/ c = 46 \/ c = 101 \/ c = 69.
Lemma core_blank c : core c -> is_blank c = false.
Proof. unfold core, digit, is_blank. lia. Qed.
Lemma blank_spec c : blank c -> is_blank c = true.
Proof. unfold blank, is_blank. lia. Qed.
Lemma lstrip_blanks l t : Forall blank l -> lstrip_blank (l ++ t) = lstrip_blank t.
Proof. induction 1 as [|c l Hc _ IH]; [reflexivity|]. cbn [app lstrip_blank]. rewrite (blank_spec c Hc). exact IH. Qed.
Lemma lstrip_core t u : t <> [] -> Forall core t -> lstrip_blank (t ++ u) = t ++ u.
Proof. intros HN HF. destruct HF as [|c t Hc _]; [congruence|]. cbn [app lstrip_blank]. now rewrite (core_blank c Hc). Qed.
Lemma strip_core l t r : Forall blank l -> Forall blank r -> t <> [] -> Forall core t -> strip_blank (l ++ t ++ r) = t.
Proof.
  intros Hl Hr HN HF. unfold strip_blank. rewrite (lstrip_blanks l) by exact Hl. rewrite (lstrip_core t r HN HF), rev_app_distr, lstrip_blanks by (apply Forall_rev, Hr).
  rewrite <- (app_nil_r (rev t)), lstrip_core, app_nil_r, rev_involutive; [reflexivity| |apply Forall_rev, HF].
  intros H. apply HN. rewrite <- (rev_involutive t), H. reflexivity.
Qed.
Lemma drop_under_core t b : Forall core t -> drop_under t b = Some t.
Proof.
  intros H. revert b. induction H as [|c t Hc _ IH]; intros b; [reflexivity|]. cbn [drop_under]. rewrite (proj2 (Z.eqb_neq c 95)) by (unfold core, digit in Hc; lia). now rewrite IH.
Qed.
Lemma sign_core sg s : sign_of sg s -> Forall core sg.
Proof. unfold core. destruct 1; repeat (constructor; try lia). Qed.
Lemma digits_core d : Forall digit d -> Forall core d.
Proof. apply Forall_impl. intros c H. left. exact H. Qed.
Lemma exponent_core ex x : exponent ex x -> Forall core ex.
Proof.
  destruct 1 as [|c sg s d n Hc HS HD _]; [constructor|]. constructor; [unfold core; lia|]. apply Forall_app. split; [eapply sign_core; eauto|]. apply digits_core. eapply denotes_digits; eauto.
Qed.
Lemma take_sign_spec sg s t : sign_of sg s -> (forall c r, t = c :: r -> c <> 45 /\ c <> 43) -> take_sign (sg ++ t) = (s, t).
Proof.
  intros HS HT. destruct HS; cbn [app take_sign]; try reflexivity. destruct t as [|c r]; [reflexivity|]. destruct (HT c r eq_refl) as [H1 H2]. cbn [take_sign].
  now rewrite (proj2 (Z.eqb_neq _ _) H1), (proj2 (Z.eqb_neq _ _) H2).
Qed.
Lemma exponent_read ex x : exponent ex x -> exponent_of ex = Some x.
Proof.
  destruct 1 as [|c sg s d n Hc HS HD HN]; [reflexivity|]. pose proof (denotes_digits _ _ HD) as HF. cbn [exponent_of].
  replace (lower c =? 101) with true by (destruct Hc; subst; reflexivity).
  rewrite (take_sign_spec sg s d HS). 2:{ intros c0 r0 ->. apply Forall_inv in HF. unfold digit in HF. lia. }
  rewrite <- (app_nil_r d), span_spec by (auto; discriminate). rewrite (denotes_val _ _ HD). destruct d; [congruence|reflexivity].
Qed.
Lemma exponent_head ex x c t : exponent ex x -> ex = c :: t -> c = 101 \/ c = 69.
Proof. destruct 1 as [|c' sg s d n Hc _ _ _]; intros E; [discriminate|]. assert (c' = c) by congruence. now subst. Qed.
Lemma parse_decimal_spec ip fr f ex x n : fraction fr f -> exponent ex x -> denotes (ip ++ f) n -> ip ++ f <> [] ->
  parse_decimal (ip ++ fr ++ ex) = Some (n, x - Z.of_nat (length f)).
Proof.
  intros HFR HEX HD HN. pose proof (denotes_digits _ _ HD) as HF. apply Forall_app in HF as [HI HF]. unfold parse_decimal.
  assert (HXH : forall c t, ex = c :: t -> is_digit c = false) by (intros c t E; destruct (exponent_head _ _ _ _ HEX E); subst; reflexivity).
  rewrite (span_spec ip (fr ++ ex)); [|exact HI|].
  2:{ intros c t E. destruct HFR; cbn [app] in E; [eapply HXH; eauto|]. assert (c = 46) by congruence. subst. reflexivity. }
  destruct HFR as [|f]; cbn [app].
  - assert (E : match ex with c :: t => if c =? 46 then span_digits t else ([], ex) | [] => ([], ex) end = ([], ex)).
    { destruct ex as [|c t]; [reflexivity|]. destruct (exponent_head _ _ _ _ HEX eq_refl); subst; reflexivity. }
    rewrite E, (exponent_read _ _ HEX), (denotes_val _ _ HD). destruct (ip ++ []); [congruence|reflexivity].
  - rewrite Z.eqb_refl, (span_spec f ex HF HXH), (exponent_read _ _ HEX), (denotes_val _ _ HD). destruct (ip ++ f); [congruence|reflexivity].
Qed.
Lemma decimal_zero s n k : 0 <= n -> rounds_to s (IZR n * ten k) (decimal_float s n k).
Proof.
  intros Hn. destruct n as [|p|p]; [|apply decimal_float_rounds|lia]. cbn [decimal_float]. rewrite Rmult_0_l. unfold rounds_to. rewrite nearest_rnd, round_0 by auto with typeclass_instances.
  split; [reflexivity|]. split; [reflexivity|]. left. split; [apply bpow_gt_0|]. split; [reflexivity|]. cbn [SF2R]. destruct s; cbn [cond_Ropp]; lra.
Qed.
Lemma denotes_nonneg d n : denotes d n -> 0 <= n.
Proof. induction 1; unfold digit in *; lia. Qed.
Lemma float_read t s v : decimal_text t s v -> exists f, py_float t = Some f /\ rounds_to s v f.
Proof.
  destruct 1 as [l sg s ip fr f ex x r n Hl Hr HS HFR HEX HD HN]. unfold py_float.
  pose proof (denotes_digits _ _ HD) as HF. apply Forall_app in HF as [HI HF].
  assert (HC : Forall core (sg ++ ip ++ fr ++ ex)).
  { rewrite !Forall_app. split; [eapply sign_core; eauto|]. split; [now apply digits_core|]. split; [|eapply exponent_core; eauto].
    destruct HFR; constructor; [unfold core; lia|now apply digits_core]. }
  assert (HNE : ip ++ fr ++ ex <> []).
  { intros E. apply app_eq_nil in E as [-> E]. apply app_eq_nil in E as [E ->]. destruct HFR; [|discriminate]. now apply HN. }
  replace (l ++ sg ++ ip ++ fr ++ ex ++ r) with (l ++ (sg ++ ip ++ fr ++ ex) ++ r) by (rewrite <- !app_assoc; reflexivity).
  rewrite strip_core, drop_under_core; try assumption.
  2:{ intros E. apply app_eq_nil in E as [_ E]. now apply HNE. }
  assert (HH : forall c u, ip ++ fr ++ ex = c :: u -> digit c \/ c = 46).
  { intros c u E. destruct ip as [|c0 ip].
    - destruct HFR as [|f]; [exfalso; now apply HN|]. cbn [app] in E. right. congruence.
    - cbn [app] in E. assert (c0 = c) by congruence. subst. left. now apply Forall_inv in HI. }
  rewrite (take_sign_spec sg s _ HS). 2:{ intros c u E. destruct (HH c u E) as [H|H]; unfold digit in *; lia. }
  destruct (ip ++ fr ++ ex) as [|c u] eqn:EU; [congruence|]. cbv zeta.
  assert (HL : lower c <> 105 /\ lower c <> 110) by (destruct (HH c u eq_refl) as [H|H]; unfold digit, lower in *; destruct ((65 <=? c) && (c <=? 90)) eqn:?; lia).
  assert (Hne : forall y w, y = 105 \/ y = 110 -> eqb_list (map lower (c :: u)) (y :: w) = false).
  { intros y w Hy. cbn [map eqb_list]. rewrite (proj2 (Z.eqb_neq _ _)) by lia. reflexivity. }
  change (lit "inf") with [105; 110; 102]. change (lit "infinity") with [105; 110; 102; 105; 110; 105; 116; 121]. change (lit "nan") with [110; 97; 110].
  rewrite !Hne by auto. cbn [orb]. rewrite <- EU, (parse_decimal_spec _ _ _ _ _ _ HFR HEX HD HN). eexists. split; [reflexivity|].
  apply decimal_zero. eapply denotes_nonneg; eauto.
Qed.

(** ** writing and reading *)
Lemma shortest_text m e s : SpecFloat.bounded 53 1024 m e = true -> exists v, decimal_text (py_repr (S754_finite s m e)) s v /\ rounds_to s v (S754_finite s m e).
Proof.
  intros HB. set (x := F2R (Float radix2 (Zpos m) e)).
  assert (HX : (ten (-401) <= x < ten 320)%R).
  { pose proof (finite_range (B754_finite false m e HB)) as HR. change (B2R (B754_finite false m e HB)) with x in HR. assert (0 < x)%R by (apply F2R_gt_0; reflexivity).
    rewrite Rabs_pos_eq in HR by lra. destruct HR as [H1 H2]; [lra|]. split.
    - apply Rle_trans with (2 := H1). change (-401) with (- (401)). change (-1074) with (- (1074)). rewrite ten_opp, bpow_opp, ten_IZR by lia. rewrite <- (IZR_Zpower radix2) by lia.
      apply Rinv_le; [apply IZR_lt; reflexivity|]. apply IZR_le. vm_compute. congruence.
    - apply Rlt_le_trans with (1 := H2). rewrite ten_IZR, <- (IZR_Zpower radix2) by lia. apply IZR_le. vm_compute. congruence. }
  cbn [py_repr]. cbv zeta. change (if e <? 0 then Z.pos m else Z.pos m * 2 ^ e) with (num m e). change (if e <? 0 then 2 ^ (- e) else 1) with (den e).
  set (l := Z.log2 (Z.pos m) + e). pose proof (point_spec (num m e) (den e) l (den_pos e)) as HP. rewrite num_den in HP. fold x in HP. cbv zeta in HP. specialize (HP (proj1 HX) (proj2 HX)).
  set (p := find_point10 720 (num m e) (den e) (first_point (num m e) (den e) l)) in *.
  pose proof (shortest_spec m e s p HB HP 16 1 eq_refl) as HS.
  destruct (shortest 16 (S754_finite s m e) s (num m e) (den e) p 1) as [n k]. cbn [fst snd] in HS.
  assert (Hn : 0 < n) by (destruct n; [discriminate|lia|discriminate]).
  pose proof (strip_zeros_spec 20 n k Hn) as HZ. cbv zeta in HZ. destruct (strip_zeros 20 n k) as [n' k']. cbn [fst snd] in HZ. destruct HZ as [Hn' HV].
  exists (IZR n' * ten k')%R. split; [now apply layout_text|]. rewrite HV, <- HS. apply decimal_zero. lia.
Qed.
Lemma text_read f : SpecFloat.valid_binary 53 1024 f = true -> f <> S754_nan -> py_float (py_repr f) = Some f.
Proof.
  intros HV HN. destruct f as [s|s| |s m e]; [destruct s; reflexivity|destruct s; reflexivity|congruence|].
  destruct (shortest_text m e s HV) as (v & HT & HR). destruct (float_read _ _ _ HT) as (g & E & HG). rewrite E. f_equal. eapply rounds_to_eq; eauto.
Qed.

(** ** the characters *)
Lemma near_digits_nonneg a b k : 0 <= a -> 0 < b -> 0 <= fst (near_digits a b k) /\ 0 <= snd (near_digits a b k).
Proof.
  intros Ha Hb. unfold near_digits. set (a' := if k <? 0 then a else a * 10 ^ k). set (b' := if k <? 0 then b * 10 ^ (- k) else b).
  assert (Hb' : 0 < b') by (unfold b'; destruct (Z.ltb_spec k 0); [apply Z.mul_pos_pos; [lia|apply pos_pow10; lia]|lia]).
  assert (Ha' : 0 <= a') by (unfold a'; destruct (Z.ltb_spec k 0); [lia|apply Z.mul_nonneg_nonneg; [lia|pose proof (pos_pow10 k); lia]]).
  pose proof (Z.div_pos a' b' Ha' Hb') as HQ. cbv zeta. destruct (_ || _); cbn [fst snd]; lia.
Qed.
Lemma shortest_nonneg f s a b p : 0 <= a -> 0 < b -> forall fuel n, 0 <= fst (shortest fuel f s a b p n).
Proof.
  intros Ha Hb. induction fuel as [|fuel IH]; intros n; cbn [shortest]; pose proof (near_digits_nonneg a b (n - p) Ha Hb) as [H1 H2]; destruct (near_digits a b (n - p)) as [x y]; cbn [fst snd] in *; [exact H1|].
  destruct (same_float _ f); [exact H1|]. destruct (same_float _ f); [exact H2|]. apply IH.
Qed.
Lemma strip_zeros_nonneg fuel n k : 0 <= n -> 0 <= fst (strip_zeros fuel n k).
Proof. revert n k. induction fuel as [|fuel IH]; intros n k Hn; cbn [strip_zeros]; [exact Hn|]. destruct (_ =? 0); [|exact Hn]. apply IH. apply Z.div_pos; lia. Qed.
Lemma zeros_core j : Forall core (repeat 48 j).
Proof. apply digits_core. eapply denotes_digits, denotes_zeros. Qed.
Lemma dec_core n : 0 <= n -> Forall core (dec_nonneg n).
Proof. intros H. apply digits_core. eapply denotes_digits, dec_nonneg_denotes, H. Qed.
Lemma Forall_firstn {A} (P : A -> Prop) n l : Forall P l -> Forall P (firstn n l).
Proof. intros H. revert n. induction H; intros [|n]; cbn; constructor; auto. Qed.
Lemma Forall_skipn {A} (P : A -> Prop) n l : Forall P l -> Forall P (skipn n l).
Proof. intros H. revert n. induction H; intros [|n]; cbn [skipn]; auto. Qed.
Lemma layout_core n k : 0 <= n -> Forall core (layout n k).
Proof.
  intros Hn. pose proof (dec_core n Hn) as HD. unfold layout. set (d := dec_nonneg n) in *. cbv zeta.
  assert (C46 : core 46) by (unfold core; lia). assert (C48 : core 48) by (unfold core, digit; lia).
  destruct (_ && _).
  - destruct (_ <=? 0); [|destruct (_ <? _)]; rewrite ?Forall_app.
    + split; [repeat (constructor; [assumption|]); constructor|]. split; [apply zeros_core|exact HD].
    + split; [now apply Forall_firstn|]. constructor; [exact C46|now apply Forall_skipn].
    + split; [exact HD|]. split; [apply zeros_core|repeat (constructor; [assumption|]); constructor].
  - rewrite !Forall_app. split; [now apply Forall_firstn|]. split.
    + destruct (1 <? _); constructor; [exact C46|now apply Forall_skipn].
    + constructor; [unfold core; lia|]. constructor; [unfold core; destruct (_ <? 0); lia|]. apply Forall_app. split; [apply zeros_core|apply dec_core; lia].
Qed.
(** digits, '.', '+', '-', 'e' and the letters of "inf" and "nan" *)
Lemma repr_core f : Forall (fun c => core c \/ c = 105 \/ c = 110 \/ c = 102 \/ c = 97) (py_repr f).
Proof.
  assert (HS : forall s : bool, Forall (fun c => core c \/ c = 105 \/ c = 110 \/ c = 102 \/ c = 97) (sign_text s)) by (intros []; repeat (constructor; [unfold core; lia|]); constructor).
  destruct f as [s|s| |s m e]; cbn [py_repr]; rewrite ?Forall_app.
  - split; [apply HS|]. change (lit "0.0") with [48; 46; 48]. repeat (constructor; [unfold core, digit; lia|]); constructor.
  - split; [apply HS|]. change (lit "inf") with [105; 110; 102]. repeat (constructor; [unfold core, digit; lia|]); constructor.
  - change (lit "nan") with [110; 97; 110]. repeat (constructor; [unfold core, digit; lia|]); constructor.
  - cbv zeta. change (if e <? 0 then Z.pos m else Z.pos m * 2 ^ e) with (num m e). change (if e <? 0 then 2 ^ (- e) else 1) with (den e).
    set (p := find_point10 _ _ _ _). pose proof (shortest_nonneg (S754_finite s m e) s (num m e) (den e) p ltac:(pose proof (num_pos m e); lia) (den_pos e) 16 1) as H.
    destruct (shortest 16 (S754_finite s m e) s (num m e) (den e) p 1) as [n k]. cbn [fst] in H. pose proof (strip_zeros_nonneg 20 n k H) as H'. destruct (strip_zeros 20 n k) as [n' k']. cbn [fst] in H'.
    rewrite Forall_app. split; [apply HS|]. eapply Forall_impl; [|apply layout_core, H']. intros c Hc. left. exact Hc.
Qed.
Lemma repr_nonempty f : SpecFloat.valid_binary 53 1024 f = true -> f <> S754_nan -> py_repr f <> [].
Proof. intros HV HN E. pose proof (text_read f HV HN) as H. rewrite E in H. discriminate. Qed.
