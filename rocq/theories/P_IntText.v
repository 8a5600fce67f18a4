(** * P_IntText: integers as text (C10). *)
From Coq Require Import String.
From Verif Require Import Py P_List M_Util M_Float M_Suns S_Codec.
From Coq Require Import ZifyBool.

Lemma digit_val_spec base c v :
  base <= 36 -> (digit_val base c = Some v <-> digit_of base c v).
Proof.
  intros Hb. unfold digit_val, digit_of.
  destruct ((48 <=? c) && (c <=? 57))%bool eqn:E1;
    [|destruct ((97 <=? c) && (c <=? 122))%bool eqn:E2;
      [|destruct ((65 <=? c) && (c <=? 90))%bool eqn:E3]];
  match goal with |- context [if (?a && ?b)%bool then _ else _] => destruct (a && b)%bool eqn:E4 end;
  (split; [intros H; try discriminate; injection H as <-; lia|intros H; try (exfalso; lia); f_equal; lia]).
Qed.

(** soundness: [p] is the text already consumed *)
Definition consumed (base : Z) (p : str) (under : bool) (acc : Z) : Prop :=
  if under then numeral base p acc
  else (p = [] /\ acc = 0) \/ exists q, p = q ++ [95] /\ numeral base q acc.

Lemma parse_digits_sound base s :
  base <= 36 -> forall p under acc n,
  consumed base p under acc -> parse_digits base s under acc = Some n -> numeral base (p ++ s) n.
Proof.
  intros Hb. induction s as [|c s IH]; intros p under acc n HC HP; cbn [parse_digits] in HP.
  - destruct under; [|discriminate]. injection HP as <-. now rewrite app_nil_r.
  - destruct (Z.eqb_spec c 95) as [->|Hc].
    + destruct under; [|discriminate].
      replace (p ++ 95 :: s) with ((p ++ [95]) ++ s) by (rewrite <- app_assoc; reflexivity).
      eapply IH; [|exact HP]. right. exists p. split; [reflexivity|exact HC].
    + destruct (digit_val base c) as [v|] eqn:Ev; [|discriminate].
      apply digit_val_spec in Ev; [|exact Hb].
      replace (p ++ c :: s) with ((p ++ [c]) ++ s) by (rewrite <- app_assoc; reflexivity).
      eapply IH; [|exact HP]. cbn [consumed]. destruct under; cbn [consumed] in HC.
      * now constructor.
      * destruct HC as [[-> ->]|(q & -> & Hq)].
        -- replace (0 * base + v) with v by lia. now constructor.
        -- rewrite <- app_assoc. cbn [app]. now constructor.
Qed.

Lemma parse_digits_app base s t u acc m :
  parse_digits base s u acc = Some m ->
  parse_digits base (s ++ t) u acc = parse_digits base t true m.
Proof.
  revert u acc. induction s as [|c s IH]; intros u acc HP; cbn [parse_digits app] in *.
  - destruct u; [|discriminate]. now injection HP as <-.
  - destruct (c =? 95).
    + destruct u; [|discriminate]. now apply IH.
    + destruct (digit_val base c); [|discriminate]. now apply IH.
Qed.

Lemma digit_not_under base c v : base <= 36 -> digit_of base c v -> (c =? 95) = false.
Proof. unfold digit_of; intros; lia. Qed.

Lemma parse_digits_complete base s n :
  base <= 36 -> numeral base s n -> parse_digits base s false 0 = Some n.
Proof.
  intros Hb HN. induction HN as [c v Hc|s n c v HN IH Hc|s n c v HN IH Hc].
  - cbn [parse_digits]. rewrite (digit_not_under _ _ _ Hb Hc).
    rewrite (proj2 (digit_val_spec _ _ _ Hb) Hc). f_equal; lia.
  - rewrite (parse_digits_app _ _ _ _ _ _ IH). cbn [parse_digits].
    rewrite (digit_not_under _ _ _ Hb Hc).
    now rewrite (proj2 (digit_val_spec _ _ _ Hb) Hc).
  - rewrite (parse_digits_app _ _ _ _ _ _ IH). cbn [parse_digits].
    rewrite Z.eqb_refl. rewrite (digit_not_under _ _ _ Hb Hc).
    now rewrite (proj2 (digit_val_spec _ _ _ Hb) Hc).
Qed.

Lemma parse_digits_spec base s n :
  base <= 36 -> (parse_digits base s false 0 = Some n <-> numeral base s n).
Proof.
  intros Hb. split; [|now apply parse_digits_complete].
  intros HP. change s with ([] ++ s). eapply parse_digits_sound; [exact Hb| |exact HP].
  left; auto.
Qed.

Lemma numeral_head base s n : numeral base s n -> exists c r v, s = c :: r /\ digit_of base c v.
Proof.
  induction 1 as [c v Hc|s n c v HN (c0 & r & v0 & -> & H0) Hc|s n c v HN (c0 & r & v0 & -> & H0) Hc].
  - exists c, [], v; auto.
  - exists c0, (r ++ [c]), v0; auto.
  - exists c0, (r ++ [95; c]), v0; auto.
Qed.
Lemma numeral_last base s n : numeral base s n -> exists r c v, s = r ++ [c] /\ digit_of base c v.
Proof.
  destruct 1 as [c v Hc|s n c v HN Hc|s n c v HN Hc].
  - exists [], c, v; auto.
  - exists s, c, v; auto.
  - exists (s ++ [95]), c, v. rewrite <- app_assoc; auto.
Qed.

Lemma skip_under_spec s u t base n :
  base <= 36 -> numeral base t n -> (u = [] \/ u = [95]) -> s = u ++ t -> skip_under s = t.
Proof.
  intros Hb HN Hu ->. destruct (numeral_head _ _ _ HN) as (c & r & v & -> & Hc).
  destruct Hu as [-> | ->]; cbn [app skip_under].
  - now rewrite (digit_not_under _ _ _ Hb Hc).
  - now rewrite Z.eqb_refl.
Qed.

(** text parsed with one of the three prefixes *)
Lemma prefix_branch base s n :
  base <= 36 ->
  (parse_digits base (skip_under s) false 0 = Some n <->
   exists u t, s = u ++ t /\ (u = [] \/ u = [95]) /\ numeral base t n).
Proof.
  intros Hb. rewrite parse_digits_spec by exact Hb. split.
  - intros HN. destruct s as [|c r].
    + exists [], []. auto.
    + cbn [skip_under] in HN. destruct (Z.eqb_spec c 95) as [->|Hc].
      * exists [95], r. auto.
      * exists [], (c :: r). auto.
  - intros (u & t & E & Hu & HN). now rewrite (skip_under_spec _ _ _ _ _ Hb HN Hu E).
Qed.

Lemma is_prefix_spec c lo up : is_prefix c lo up = true <-> c = lo \/ c = up.
Proof. unfold is_prefix. lia. Qed.

Lemma parse_unsigned_spec s n : parse_unsigned s = Some n <-> unsigned_literal s n.
Proof.
  split.
  - intros HP. unfold parse_unsigned in HP.
    assert (HD : forall c r, parse_digits 10 (c :: r) false 0 = Some n -> c <> 48 \/ n = 0 ->
                 unsigned_literal (c :: r) n).
    { intros c r H Hz. apply parse_digits_spec in H; [|lia]. now constructor. }
    destruct s as [|z [|c r]]; [discriminate| |].
    + apply HD; [exact HP|]. destruct (Z.eq_dec z 48) as [->|]; [|auto].
      right. cbn in HP. congruence.
    + destruct (Z.eqb_spec z 48) as [->|Hz]; [|apply HD; auto].
      destruct (is_prefix c 120 88) eqn:E1.
      { apply is_prefix_spec in E1. apply prefix_branch in HP as (u & t & -> & Hu & HN); [|lia].
        eapply ul_pre in HN; [exact HN| |exact Hu]. auto. }
      destruct (is_prefix c 111 79) eqn:E2.
      { apply is_prefix_spec in E2. apply prefix_branch in HP as (u & t & -> & Hu & HN); [|lia].
        eapply ul_pre in HN; [exact HN| |exact Hu]. auto. }
      destruct (is_prefix c 98 66) eqn:E3.
      { apply is_prefix_spec in E3. apply prefix_branch in HP as (u & t & -> & Hu & HN); [|lia].
        eapply ul_pre in HN; [exact HN| |exact Hu]. auto. }
      destruct (parse_digits 10 (48 :: c :: r) false 0) as [k|] eqn:E4; [|discriminate].
      destruct (Z.eqb_spec k 0) as [->|]; [|discriminate]. injection HP as <-. apply HD; auto.
  - intros HU. destruct HU as [c r n HN Hz|p base u t n Hp Hu HN].
    + pose proof (parse_digits_complete 10 _ _ ltac:(lia) HN) as HP.
      unfold parse_unsigned. destruct r as [|c2 r]; [exact HP|].
      destruct (Z.eqb_spec c 48) as [->|Hc]; [|exact HP].
      destruct Hz as [| ->]; [congruence|]. rewrite HP. cbn [Z.eqb].
      destruct (numeral_head _ _ _ HN) as (c0 & r0 & v0 & E & H0).
      injection E as <- <-.
      assert (Hd : c2 = 95 \/ exists v, digit_of 10 c2 v).
      { clear -HP. cbn [parse_digits] in HP. change (48 =? 95) with false in HP.
        change (digit_val 10 48) with (Some 0) in HP. cbv iota beta in HP.
        destruct (Z.eqb_spec c2 95); [auto|].
        destruct (digit_val 10 c2) as [v|] eqn:Ev; [|discriminate].
        right; exists v. apply digit_val_spec; [lia|exact Ev]. }
      assert (Hnp : is_prefix c2 120 88 = false /\ is_prefix c2 111 79 = false /\ is_prefix c2 98 66 = false).
      { unfold is_prefix, digit_of in *. destruct Hd as [->|[v Hv]]; [lia|]. lia. }
      destruct Hnp as (-> & -> & ->). reflexivity.
    + cbn [app]. unfold parse_unsigned. rewrite Z.eqb_refl.
      assert (HB : base <= 36) by lia.
      assert (HP : parse_digits base (skip_under (u ++ t)) false 0 = Some n).
      { apply prefix_branch; eauto. }
      unfold is_prefix.
      destruct Hp as [ [ [ Hp | Hp ] Hq ] | [ [ [ Hp | Hp ] Hq ] | [ [ Hp | Hp ] Hq ] ] ]; subst p base; cbn [Z.eqb Pos.eqb orb]; exact HP.
Qed.

(** ** blanks *)
Definition nonblank (c : Z) : Prop := is_blank c = false.
Lemma is_blank_spec c : is_blank c = true <-> (c = 32 \/ 9 <= c <= 13).
Proof. unfold is_blank. lia. Qed.
Lemma lstrip_blanks w s : blanks w -> lstrip_blank (w ++ s) = lstrip_blank s.
Proof.
  induction 1 as [|c w Hc HW IH]; [reflexivity|]. cbn [app lstrip_blank].
  now rewrite (proj2 (is_blank_spec c) Hc).
Qed.
Lemma lstrip_decomp s : exists w, blanks w /\ s = w ++ lstrip_blank s.
Proof.
  induction s as [|c s (w & HW & E)]; [exists []; split; [constructor|reflexivity]|].
  cbn [lstrip_blank]. destruct (is_blank c) eqn:Ec.
  - exists (c :: w). split; [constructor; [now apply is_blank_spec|exact HW]|]. cbn. now rewrite <- E.
  - exists []. split; [constructor|reflexivity].
Qed.
Lemma blanks_rev w : blanks w -> blanks (rev w).
Proof. apply Forall_rev. Qed.
Lemma strip_decomp s : exists w1 w2, blanks w1 /\ blanks w2 /\ s = w1 ++ strip_blank s ++ w2.
Proof.
  destruct (lstrip_decomp s) as (w1 & H1 & E1).
  destruct (lstrip_decomp (rev (lstrip_blank s))) as (w2 & H2 & E2).
  exists w1, (rev w2). split; [exact H1|]. split; [now apply blanks_rev|].
  rewrite E1 at 1. f_equal. unfold strip_blank. rewrite <- rev_app_distr, <- E2.
  now rewrite rev_involutive.
Qed.
Lemma strip_blank_core w1 c r l r' w2 :
  blanks w1 -> blanks w2 -> is_blank c = false -> is_blank l = false -> c :: r = r' ++ [l] ->
  strip_blank (w1 ++ (c :: r) ++ w2) = c :: r.
Proof.
  intros H1 H2 Hc Hl E. unfold strip_blank. rewrite lstrip_blanks by exact H1.
  cbn [app lstrip_blank]. rewrite Hc. change (c :: r ++ w2) with ((c :: r) ++ w2).
  rewrite rev_app_distr. rewrite lstrip_blanks by now apply blanks_rev.
  rewrite E. rewrite rev_app_distr. cbn [rev app lstrip_blank]. rewrite Hl.
  change (l :: rev r') with ([l] ++ rev r'). rewrite rev_app_distr, rev_involutive. reflexivity.
Qed.

Lemma digit_nonblank base c v : base <= 36 -> digit_of base c v -> is_blank c = false.
Proof. unfold digit_of, is_blank. lia. Qed.
Lemma unsigned_ends s n : unsigned_literal s n ->
  (exists c r, s = c :: r /\ is_blank c = false /\ c <> 43 /\ c <> 45) /\
  (exists r l, s = r ++ [l] /\ is_blank l = false).
Proof.
  intros HU. destruct HU as [c r n HN Hz|p base u t n Hp Hu HN].
  - destruct (numeral_head _ _ _ HN) as (c0 & r0 & v0 & E & H0). injection E as <- <-.
    destruct (numeral_last _ _ _ HN) as (r1 & l & v1 & E & H1).
    split; [exists c, r|exists r1, l].
    + split; [reflexivity|]. split; [eapply digit_nonblank; [|exact H0]; lia|].
      unfold digit_of in H0. lia.
    + split; [exact E|]. eapply digit_nonblank; [|exact H1]; lia.
  - split; [exists 48, ([p] ++ u ++ t); cbn; split; [reflexivity|cbv; auto]|].
    + split; [reflexivity|lia].
    + destruct (numeral_last _ _ _ HN) as (r1 & l & v1 & -> & H1).
      exists ([48; p] ++ u ++ r1), l. split; [now rewrite <- !app_assoc|].
      eapply digit_nonblank; [|exact H1]; lia.
Qed.

Lemma int_of_str0_spec s z : int_of_str0 s = Ok z <-> int_literal s z.
Proof.
  unfold int_of_str0. split.
  - destruct (strip_decomp s) as (w1 & w2 & H1 & H2 & E).
    destruct (strip_blank s) as [|c r]; [discriminate|].
    cbn [parse_signed]. intros HP. rewrite E.
    destruct (Z.eqb_spec c 45) as [->|Hm].
    { destruct (parse_unsigned r) as [n|] eqn:EP; [|discriminate]. apply Ok_inj in HP; subst z.
      apply parse_unsigned_spec in EP. now constructor. }
    destruct (Z.eqb_spec c 43) as [->|Hp].
    { destruct (parse_unsigned r) as [n|] eqn:EP; [|discriminate]. apply Ok_inj in HP; subst z.
      apply parse_unsigned_spec in EP. now constructor. }
    destruct (parse_unsigned (c :: r)) as [n|] eqn:EP; [|discriminate]. apply Ok_inj in HP; subst z.
    apply parse_unsigned_spec in EP. now constructor.
  - intros HL. destruct HL as [w1 s w2 n H1 H2 HU|w1 s w2 n H1 H2 HU|w1 s w2 n H1 H2 HU];
      destruct (unsigned_ends s n HU) as ((c & r & -> & Hc & Hp & Hm) & (r' & l & E & Hl));
      apply parse_unsigned_spec in HU.
    + rewrite (strip_blank_core w1 c r l r' w2) by auto. cbn [parse_signed].
      rewrite (proj2 (Z.eqb_neq c 45)), (proj2 (Z.eqb_neq c 43)) by auto. now rewrite HU.
    + rewrite (strip_blank_core w1 43 (c :: r) l (43 :: r') w2); auto; [|now rewrite E].
      cbn [parse_signed]. change (43 =? 45) with false. change (43 =? 43) with true. now rewrite HU.
    + rewrite (strip_blank_core w1 45 (c :: r) l (45 :: r') w2); auto; [|now rewrite E].
      cbn [parse_signed]. change (45 =? 45) with true. now rewrite HU.
Qed.

Lemma int_of_str0_reject s : (forall z, ~ int_literal s z) -> int_of_str0 s = Raise EValue.
Proof.
  intros H. destruct (int_of_str0 s) as [z|e] eqn:E; [exfalso; eapply H, int_of_str0_spec, E|].
  unfold int_of_str0, parse_signed in E. destruct (strip_blank s) as [|c r]; [congruence|].
  destruct (c =? 45); [destruct (parse_unsigned r); congruence|].
  destruct (c =? 43); [destruct (parse_unsigned r); congruence|].
  destruct (parse_unsigned (c :: r)); congruence.
Qed.

(** ** str(int) *)
Definition dec_value (s : str) : Z := fold_left (fun acc c => acc * 10 + (c - 48)) s 0.
Lemma dec_value_snoc s c : dec_value (s ++ [c]) = dec_value s * 10 + (c - 48).
Proof. unfold dec_value. rewrite fold_left_app. reflexivity. Qed.

Lemma log2_div10 n : 10 <= n -> Z.log2 (n / 10) < Z.log2 n.
Proof.
  intros Hn. pose proof (Z.div_mod n 10 ltac:(lia)). pose proof (Z.mod_pos_bound n 10 ltac:(lia)).
  assert (0 < n / 10) by lia.
  apply Z.log2_lt_pow2; [lia|]. pose proof (Z.log2_spec n ltac:(lia)) as [_ HL].
  rewrite Z.pow_succ_r in HL by apply Z.log2_nonneg. lia.
Qed.

Lemma dec_digits_spec k n :
  0 <= n -> (Z.to_nat (Z.log2 n) < k)%nat ->
  let s := dec_digits k n in
  s <> [] /\ (hd 0 s = 48 -> s = [48]) /\ Forall (fun c => 48 <= c <= 57) s /\ dec_value s = n.
Proof.
  revert n; induction k as [|k IH]; intros n Hn Hk; [lia|]. cbn [dec_digits].
  destruct (Z.ltb_spec n 10).
  - cbv zeta. split; [discriminate|]. split; [cbn [hd]; intros ->; reflexivity|].
    split; [|unfold dec_value; cbn [fold_left]; lia].
    constructor; [lia|constructor].
  - pose proof (log2_div10 n ltac:(lia)). pose proof (Z.log2_nonneg n).
    pose proof (Z.log2_nonneg (n / 10)).
    pose proof (Z.div_mod n 10 ltac:(lia)). pose proof (Z.mod_pos_bound n 10 ltac:(lia)).
    destruct (IH (n / 10) ltac:(lia) ltac:(lia)) as (H6 & H7 & H8 & H9).
    set (s := dec_digits k (n / 10)) in *. cbv zeta. split; [|split; [|split]].
    + intros E. apply app_eq_nil in E as [_ E]. discriminate.
    + destruct s as [|c0 s0]; [congruence|]. cbn [app hd]. intros ->.
      specialize (H7 eq_refl). rewrite H7 in H9. unfold dec_value in H9. cbn in H9. lia.
    + apply Forall_app; split; [exact H8|]. constructor; [lia|constructor].
    + rewrite dec_value_snoc, H9. lia.
Qed.

Lemma str_of_int_canonical z : canonical_decimal z (str_of_int z).
Proof.
  unfold canonical_decimal, str_of_int.
  destruct (Z.ltb_spec z 0); [exists (dec_nonneg (- z))|exists (dec_nonneg z)];
    (split; [reflexivity|]); unfold dec_nonneg.
  - replace (Z.abs z) with (- z) by lia. apply (dec_digits_spec _ (- z)); lia.
  - replace (Z.abs z) with z by lia. apply (dec_digits_spec _ z); lia.
Qed.

Lemma digits_numeral ds :
  ds <> [] -> Forall (fun c => 48 <= c <= 57) ds -> numeral 10 ds (dec_value ds).
Proof.
  induction ds as [|c ds IH] using rev_ind; intros Hne HF; [congruence|].
  apply Forall_app in HF as [HF Hc]. inversion Hc; subst.
  rewrite dec_value_snoc. destruct ds as [|c0 ds0].
  - cbn [app]. replace (dec_value [] * 10 + (c - 48)) with (c - 48) by (unfold dec_value; cbn; lia).
    constructor. unfold digit_of. lia.
  - constructor; [apply IH; [discriminate|exact HF]|]. unfold digit_of. lia.
Qed.

Lemma canonical_literal z s : canonical_decimal z s -> int_literal s z.
Proof.
  intros (ds & -> & Hne & Hh & HF & HV).
  assert (HU : unsigned_literal ds (Z.abs z)).
  { pose proof (digits_numeral ds Hne HF) as HN. unfold dec_value in HN. rewrite HV in HN.
    destruct ds as [|c r]; [congruence|]. constructor; [exact HN|].
    destruct (Z.eq_dec c 48) as [->|]; [|auto]. right. rewrite (Hh eq_refl) in HV. cbn in HV. lia. }
  destruct (Z.ltb_spec z 0).
  - pose proof (il_minus [] ds [] (Z.abs z) ltac:(constructor) ltac:(constructor) HU) as HL.
    cbn [app] in HL. rewrite app_nil_r in HL. replace (- Z.abs z) with z in HL by lia. exact HL.
  - pose proof (il_plain [] ds [] (Z.abs z) ltac:(constructor) ltac:(constructor) HU) as HL.
    cbn [app] in HL. rewrite app_nil_r in HL. replace (Z.abs z) with z in HL by lia. exact HL.
Qed.

Lemma int_text_roundtrip z : suns_to_int (VStr (str_of_int z)) = Ok z.
Proof. cbn [suns_to_int]. apply int_of_str0_spec, canonical_literal, str_of_int_canonical. Qed.

Lemma canonical_decimal_fun z s1 s2 : canonical_decimal z s1 -> canonical_decimal z s2 -> 
  int_of_str0 s1 = int_of_str0 s2.
Proof.
  intros H1 H2. apply canonical_literal, int_of_str0_spec in H1, H2. congruence.
Qed.

(** int(text) (base 10) also reads canonical decimal text back *)
Lemma int_of_str_roundtrip z : int_of_str (str_of_int z) = Ok z.
Proof.
  destruct (str_of_int_canonical z) as (ds & E & Hne & Hh & HF & HV). rewrite E.
  pose proof (digits_numeral ds Hne HF) as HN. unfold dec_value in HN. rewrite HV in HN.
  pose proof (parse_digits_complete 10 _ _ ltac:(lia) HN) as HP.
  assert (HL : exists r l, ds = r ++ [l] /\ is_blank l = false).
  { destruct (numeral_last _ _ _ HN) as (r1 & l & v1 & -> & H1). exists r1, l. split; [reflexivity|].
    eapply digit_nonblank; [|exact H1]; lia. }
  destruct HL as (r & l & El & Hl).
  destruct (numeral_head _ _ _ HN) as (c0 & r0 & v0 & E0 & H0).
  assert (Hc0 : is_blank c0 = false /\ c0 <> 43 /\ c0 <> 45).
  { split; [eapply digit_nonblank; [|exact H0]; lia|]. unfold digit_of in H0; lia. }
  unfold int_of_str. destruct (Z.ltb_spec z 0); cbn [app].
  - pose proof (strip_blank_core [] 45 ds l (45 :: r) []) as HS. cbn [app] in HS.
    rewrite app_nil_r in HS. rewrite HS; try constructor; auto; [|now rewrite El].
    cbn [parse_signed]. change (45 =? 45) with true. unfold parse_dec. rewrite HP. f_equal. lia.
  - rewrite E0 in *. pose proof (strip_blank_core [] c0 r0 l r []) as HS. cbn [app] in HS.
    rewrite app_nil_r in HS. rewrite HS; try constructor; auto; [|apply Hc0].
    cbn [parse_signed]. destruct Hc0 as (_ & Hp & Hm).
    rewrite (proj2 (Z.eqb_neq c0 45)), (proj2 (Z.eqb_neq c0 43)) by auto.
    unfold parse_dec. rewrite HP. f_equal. lia.
Qed.
