(** * P_Time: lemmas for C110 *)
From Coq Require Import String Reals.
From Flocq Require Import Core BinarySingleNaN.
From Verif Require Import Py M_Util M_Float M_Suns M_Data M_Time S_Codec S_Time P_List P_IntText P_Assign.
From Coq Require Import Lia ZArith List.
Open Scope Z_scope.

(** ** the executable calendar *)
Definition leapb (y : Z) : bool := (y mod 4 =? 0) && (negb (y mod 100 =? 0) || (y mod 400 =? 0)).
Definition mlen (y m : Z) : Z :=
  if (m =? 4) || (m =? 6) || (m =? 9) || (m =? 11) then 30 else if m =? 2 then (if leapb y then 29 else 28) else 31.
Definition next (x : Z * Z * Z) : Z * Z * Z :=
  let '(y, m, d) := x in
  if d <? mlen y m then (y, m, d + 1) else if m <? 12 then (y, m + 1, 1) else (y + 1, 1, 1).
Definition valid (x : Z * Z * Z) : bool :=
  let '(y, m, d) := x in (1 <=? m) && (m <=? 12) && (1 <=? d) && (d <=? mlen y m).

Lemma leapb_iff y : leapb y = true <-> leap y.
Proof.
  unfold leapb, leap. rewrite Bool.andb_true_iff, Bool.orb_true_iff, Bool.negb_true_iff, Z.eqb_neq, !Z.eqb_eq. tauto.
Qed.
Lemma mlen_spec y m : 1 <= m <= 12 -> month_length y m (mlen y m).
Proof.
  intros H. assert (HC : m = 1 \/ m = 2 \/ m = 3 \/ m = 4 \/ m = 5 \/ m = 6 \/ m = 7 \/ m = 8 \/ m = 9 \/ m = 10 \/ m = 11 \/ m = 12) by lia.
  repeat (destruct HC as [->|HC]; [|]); try subst m; unfold mlen; cbn [Z.eqb Pos.eqb orb];
    try (apply ml_30; cbn [In]; tauto); try (apply ml_31; cbn [In]; tauto).
  destruct (leapb y) eqn:EL; [apply ml_29|apply ml_28]; rewrite <- leapb_iff, EL; congruence.
Qed.
Lemma month_length_fun y m n : month_length y m n -> 1 <= m <= 12 /\ n = mlen y m.
Proof.
  intros H. destruct H as [m H|m H|H|H].
  - cbn [In] in H. repeat (destruct H as [<-|H]; [split; [lia|reflexivity]|]). destruct H.
  - cbn [In] in H. repeat (destruct H as [<-|H]; [split; [lia|reflexivity]|]). destruct H.
  - split; [lia|]. rewrite <- leapb_iff in H. unfold mlen. cbn [Z.eqb Pos.eqb orb]. destruct (leapb y); [now exfalso; apply H|reflexivity].
  - split; [lia|]. rewrite <- leapb_iff in H. unfold mlen. cbn [Z.eqb Pos.eqb orb]. rewrite H. reflexivity.
Qed.
Lemma mlen_range y m : 28 <= mlen y m <= 31.
Proof. unfold mlen. destruct (_ || _); [lia|]. destruct (m =? 2); [destruct (leapb y)|]; lia. Qed.
Lemma next_spec x : valid x = true -> next_day x (next x) /\ valid (next x) = true.
Proof.
  destruct x as [[y m] d]. unfold valid, next. rewrite !Bool.andb_true_iff, !Z.leb_le. intros [[[H1 H2] H3] H4].
  pose proof (mlen_range y (m + 1)) as R1. pose proof (mlen_range (y + 1) 1) as R2.
  destruct (Z.ltb_spec d (mlen y m)) as [HD|HD].
  - split; [apply nd_day with (mlen y m); [now apply mlen_spec|lia]|].
    rewrite !Bool.andb_true_iff, !Z.leb_le. lia.
  - assert (d = mlen y m) as -> by lia. destruct (Z.ltb_spec m 12) as [HM|HM].
    + split; [apply nd_month; [now apply mlen_spec|lia]|]. rewrite !Bool.andb_true_iff, !Z.leb_le. lia.
    + assert (m = 12) as -> by lia. split; [apply nd_year|]. rewrite !Bool.andb_true_iff, !Z.leb_le. lia.
Qed.
Lemma next_day_fun x z : next_day x z -> valid x = true /\ z = next x.
Proof.
  intros H. destruct H as [y m d n HL HD|y m n HL HM|y]; unfold valid, next.
  - destruct (month_length_fun _ _ _ HL) as [HR ->]. destruct (Z.ltb_spec d (mlen y m)); [|lia].
    split; [|reflexivity]. rewrite !Bool.andb_true_iff, !Z.leb_le. lia.
  - destruct (month_length_fun _ _ _ HL) as [HR ->]. rewrite Z.ltb_irrefl. destruct (Z.ltb_spec m 12); [|lia].
    pose proof (mlen_range y m). split; [|reflexivity]. rewrite !Bool.andb_true_iff, !Z.leb_le. lia.
  - split; reflexivity.
Qed.
Lemma next_inj a b : valid a = true -> valid b = true -> next a = next b -> a = b.
Proof.
  destruct a as [[y m] d], b as [[y' m'] d']. unfold valid, next. rewrite !Bool.andb_true_iff, !Z.leb_le.
  intros [[[H1 H2] H3] H4] [[[H1' H2'] H3'] H4'].
  destruct (Z.ltb_spec d (mlen y m)) as [HD|HD]; destruct (Z.ltb_spec d' (mlen y' m')) as [HD'|HD'];
    try destruct (Z.ltb_spec m 12) as [HM|HM]; try destruct (Z.ltb_spec m' 12) as [HM'|HM'];
    rewrite !pair_equal_spec; intros [[E1 E2] E3]; try lia.
  - assert (y = y') by lia; assert (m = m') by lia; subst. lia.
  - assert (y = y') by lia; assert (m = m') by lia; subst. lia.
Qed.

(** ** the closed formulas are the calendar: one period of 400 years by computation *)
Definition shift (k : Z) (x : Z * Z * Z) : Z * Z * Z := let '(y, m, d) := x in (y + 400 * k, m, d).
Lemma leapb_shift k y : leapb (y + 400 * k) = leapb y.
Proof.
  unfold leapb. replace (y + 400 * k) with (y + (100 * k) * 4) at 1 by ring. rewrite Z_mod_plus_full.
  replace (y + 400 * k) with (y + (4 * k) * 100) at 1 by ring. rewrite Z_mod_plus_full.
  replace (y + 400 * k) with (y + k * 400) by ring. now rewrite Z_mod_plus_full.
Qed.
Lemma mlen_shift k y m : mlen (y + 400 * k) m = mlen y m.
Proof. unfold mlen. now rewrite leapb_shift. Qed.
Lemma next_shift k x : next (shift k x) = shift k (next x).
Proof.
  destruct x as [[y m] d]. unfold next, shift. rewrite mlen_shift.
  destruct (d <? mlen y m); [reflexivity|]. destruct (m <? 12); [reflexivity|]. rewrite !pair_equal_spec. lia.
Qed.
Lemma valid_shift k x : valid (shift k x) = valid x.
Proof. destruct x as [[y m] d]. unfold valid, shift. now rewrite mlen_shift. Qed.
(** the date of a day of the era that starts at 0000-03-01 *)
Definition era_day (doe : Z) : Z * Z * Z :=
  let yoe := (doe - doe / 1460 + doe / 36524 - doe / 146096) / 365 in
  let doy := doe - (365 * yoe + yoe / 4 - yoe / 100) in
  let mp := (5 * doy + 2) / 153 in
  let d := doy - (153 * mp + 2) / 5 + 1 in
  let m := if mp <? 10 then mp + 3 else mp - 9 in
  ((if m <=? 2 then yoe + 1 else yoe), m, d).
Lemma civil_era n : civil n = shift ((n + 719468) / 146097) (era_day ((n + 719468) mod 146097)).
Proof.
  unfold civil, era_day, shift. cbv zeta. set (k := (n + 719468) / 146097).
  match goal with |- context [if ?b then _ + 1 else _] => destruct b end; rewrite !pair_equal_spec; lia.
Qed.
Definition dateb (a b : Z * Z * Z) : bool :=
  let '(y, m, d) := a in let '(y', m', d') := b in (y =? y') && (m =? m') && (d =? d').
Lemma dateb_eq a b : dateb a b = true -> a = b.
Proof. destruct a as [[? ?] ?], b as [[? ?] ?]. unfold dateb. rewrite !Bool.andb_true_iff, !Z.eqb_eq, !pair_equal_spec. tauto. Qed.
Fixpoint check (n : nat) (i : Z) (x : Z * Z * Z) : bool :=
  match n with
  | O => true
  | S n => let z := era_day (i + 1) in valid x && dateb z (next x) && check n (i + 1) z
  end.
Lemma check_ok n : forall i, check n i (era_day i) = true -> forall j, i <= j < i + Z.of_nat n ->
  valid (era_day j) = true /\ era_day (j + 1) = next (era_day j).
Proof.
  induction n as [|n IH]; intros i; [lia|]. cbn [check]. cbv zeta. rewrite !Bool.andb_true_iff. intros [[H1 H2] H3] j Hj.
  destruct (Z.eq_dec j i) as [->|NE]; [split; [exact H1|now apply dateb_eq]|]. apply (IH (i + 1) H3). lia.
Qed.
Lemma era_check : check (Z.to_nat 146096) 0 (era_day 0) = true.
Proof. vm_cast_no_check (eq_refl true). Qed.
Lemma era_step j : 0 <= j < 146096 -> valid (era_day j) = true /\ era_day (j + 1) = next (era_day j).
Proof. intros H. apply (check_ok _ _ era_check). rewrite Z2Nat.id; lia. Qed.
Lemma era_last : valid (era_day 146096) = true /\ shift 1 (era_day 0) = next (era_day 146096).
Proof. split; vm_compute; reflexivity. Qed.
Lemma civil_step n : valid (civil n) = true /\ civil (n + 1) = next (civil n).
Proof.
  rewrite !civil_era. set (z := n + 719468). replace (n + 1 + 719468) with (z + 1) by (unfold z; ring). clearbody z.
  pose proof (Z_div_mod_eq_full z 146097) as E. pose proof (Z.mod_pos_bound z 146097 ltac:(lia)) as R.
  set (q := z / 146097) in *. set (r := z mod 146097) in *. clearbody q r.
  rewrite valid_shift, next_shift.
  destruct (Z.eq_dec r 146096) as [->|NE].
  - destruct era_last as [L1 L2]. split; [exact L1|]. rewrite <- L2.
    replace (z + 1) with ((q + 1) * 146097) by lia. rewrite Z_div_mult, Z_mod_mult by lia.
    destruct (era_day 0) as [[y m] d]. unfold shift. rewrite !pair_equal_spec. lia.
  - destruct (era_step r ltac:(lia)) as [L1 L2]. split; [exact L1|]. rewrite <- L2.
    assert (E1 : (z + 1) / 146097 = q) by (symmetry; apply Z.div_unique with (r + 1); lia).
    assert (E2 : (z + 1) mod 146097 = r + 1) by (symmetry; apply Z.mod_unique with q; lia).
    now rewrite E1, E2.
Qed.
Lemma civil_calendar : calendar civil.
Proof.
  split; [vm_compute; reflexivity|]. intros n. destruct (civil_step n) as [V ->]. now apply next_spec.
Qed.
Lemma calendar_unique cal n : calendar cal -> cal n = civil n.
Proof.
  intros [H0 HS].
  assert (HV : forall k, valid (cal k) = true /\ cal (k + 1) = next (cal k)) by (intros k; apply next_day_fun, HS).
  assert (H1 : cal 0 = civil 0) by (rewrite H0; symmetry; apply civil_calendar).
  assert (F : forall k, 0 <= k -> cal k = civil k).
  { apply natlike_ind; [exact H1|]. intros k Hk IH. rewrite <- Z.add_1_r.
    destruct (HV k) as [_ ->]. destruct (civil_step k) as [_ ->]. now rewrite IH. }
  assert (B : forall k, 0 <= k -> cal (- k) = civil (- k)).
  { apply natlike_ind; [exact H1|]. intros k Hk IH.
    destruct (HV (- Z.succ k)) as [V1 E1]. destruct (civil_step (- Z.succ k)) as [V2 E2].
    apply next_inj; [exact V1|exact V2|]. rewrite <- E1, <- E2. now replace (- Z.succ k + 1) with (- k) by lia. }
  destruct (Z_le_gt_dec 0 n) as [H|H]; [now apply F|]. replace n with (- - n) by ring. apply B. lia.
Qed.

(** ** dates grow *)
Definition date_lt (a b : Z * Z * Z) : Prop :=
  let '(y, m, d) := a in let '(y', m', d') := b in y < y' \/ (y = y' /\ (m < m' \/ (m = m' /\ d < d'))).
Lemma date_lt_trans a b c : date_lt a b -> date_lt b c -> date_lt a c.
Proof. destruct a as [[? ?] ?], b as [[? ?] ?], c as [[? ?] ?]. unfold date_lt. lia. Qed.
Lemma date_lt_next x : date_lt x (next x).
Proof.
  destruct x as [[y m] d]. unfold next. destruct (d <? mlen y m); [unfold date_lt; lia|].
  destruct (Z.ltb_spec m 12); unfold date_lt; lia.
Qed.
Lemma civil_lt a b : a < b -> date_lt (civil a) (civil b).
Proof.
  intros H. replace b with (a + 1 + (b - a - 1)) by ring. assert (HN : 0 <= b - a - 1) by lia. revert HN.
  generalize (b - a - 1). apply natlike_ind.
  - rewrite Z.add_0_r. destruct (civil_step a) as [_ ->]. apply date_lt_next.
  - intros k Hk IH. apply date_lt_trans with (1 := IH). replace (a + 1 + Z.succ k) with (a + 1 + k + 1) by lia.
    destruct (civil_step (a + 1 + k)) as [_ ->]. apply date_lt_next.
Qed.
Lemma date_lt_irrefl x : ~ date_lt x x.
Proof. destruct x as [[? ?] ?]. unfold date_lt. lia. Qed.
Lemma civil_lt_iff a b : date_lt (civil a) (civil b) <-> a < b.
Proof.
  split; [|apply civil_lt]. intros H. destruct (Z.lt_trichotomy a b) as [L|[->|L]]; [exact L|now apply date_lt_irrefl in H|].
  apply civil_lt in L. exfalso. apply (date_lt_irrefl (civil a)). now apply date_lt_trans with (1 := H).
Qed.
Lemma civil_1000 : civil (-354285) = (1000, 1, 1). Proof. vm_compute; reflexivity. Qed.
Lemma civil_10000 : civil 2932897 = (10000, 1, 1). Proof. vm_compute; reflexivity. Qed.
Lemma civil_range n : -354285 <= n < 2932897 -> let '(y, m, d) := civil n in 1000 <= y <= 9999 /\ 1 <= m <= 12 /\ 1 <= d <= 31.
Proof.
  intros H. destruct (civil_step n) as [V _].
  assert (L1 : n = -354285 \/ date_lt (1000, 1, 1) (civil n)).
  { destruct (Z.eq_dec n (-354285)); [tauto|right]. rewrite <- civil_1000. apply civil_lt. lia. }
  assert (L2 : date_lt (civil n) (10000, 1, 1)) by (rewrite <- civil_10000; apply civil_lt; lia).
  destruct L1 as [->|L1]; [rewrite civil_1000; cbv beta iota; lia|].
  destruct (civil n) as [[y m] d]. unfold valid in V. rewrite !Bool.andb_true_iff, !Z.leb_le in V.
  pose proof (mlen_range y m). unfold date_lt in L1, L2. lia.
Qed.

(** ** digits *)
Lemma digits_lt k : forall n m r r', 0 <= n < 10 ^ Z.of_nat k -> 0 <= m < 10 ^ Z.of_nat k ->
  (text_lt (digits k n ++ r) (digits k m ++ r') <-> n < m \/ (n = m /\ text_lt r r')).
Proof.
  induction k as [|k IH]; intros n m r r' Hn Hm.
  - cbn in Hn, Hm. assert (n = 0) by lia. assert (m = 0) by lia. subst. cbn [digits app]. intuition lia.
  - cbn [digits]. rewrite <- !app_assoc. cbn [app].
    assert (E10 : 10 ^ Z.of_nat (S k) = 10 * 10 ^ Z.of_nat k) by (rewrite Nat2Z.inj_succ, Z.pow_succ_r; lia).
    rewrite E10 in Hn, Hm. pose proof (Z_div_mod_eq_full n 10). pose proof (Z_div_mod_eq_full m 10).
    pose proof (Z.mod_pos_bound n 10 ltac:(lia)). pose proof (Z.mod_pos_bound m 10 ltac:(lia)).
    rewrite IH by lia. cbn [text_lt].
    assert (EL : n / 10 < m / 10 \/ (n / 10 = m / 10 /\ 48 + n mod 10 < 48 + m mod 10) <-> n < m) by lia.
    assert (EQ : n / 10 = m / 10 /\ 48 + n mod 10 = 48 + m mod 10 <-> n = m) by lia. tauto.
Qed.
Lemma sep_lt c r r' : text_lt (c :: r) (c :: r') <-> text_lt r r'.
Proof. cbn [text_lt]. intuition lia. Qed.
Lemma two_digits_spec n : two_digits n = digits 2 n \/ ~ 0 <= n < 100.
Proof.
  destruct (Z_le_gt_dec 0 n); [|right; lia]. destruct (Z_lt_ge_dec n 100); [|right; lia]. left.
  unfold two_digits. cbn [digits app]. f_equal. rewrite Z.mod_small; [reflexivity|]. split; [apply Z.div_pos; lia|].
  apply Z.div_lt_upper_bound; lia.
Qed.
Lemma two_digits_eq n : 0 <= n < 100 -> two_digits n = digits 2 n.
Proof. destruct (two_digits_spec n); tauto. Qed.

Lemma digits_cons k n : 0 <= n -> digits (S k) n = (48 + (n / 10 ^ Z.of_nat k) mod 10) :: digits k n.
Proof.
  revert n. induction k as [|k IH]; intros n Hn.
  - cbn [digits app]. now rewrite Z.div_1_r.
  - change (digits (S (S k)) n) with (digits (S k) (n / 10) ++ [48 + n mod 10]).
    rewrite IH by (apply Z.div_pos; lia). cbn [digits app].
    rewrite Z.div_div, <- Z.pow_succ_r, <- Nat2Z.inj_succ by lia. reflexivity.
Qed.
Lemma digits_value k n : 0 <= n < 10 ^ Z.of_nat k -> fold_left (fun acc c => acc * 10 + (c - 48)) (digits k n) 0 = n.
Proof.
  revert n. induction k as [|k IH]; intros n Hn; [cbn in *; lia|]. cbn [digits]. rewrite fold_left_app, IH.
  - cbn [fold_left]. pose proof (Z_div_mod_eq_full n 10). lia.
  - rewrite Nat2Z.inj_succ, Z.pow_succ_r in Hn by lia. split; [apply Z.div_pos; lia|apply Z.div_lt_upper_bound; lia].
Qed.
Lemma digits_range k n : Forall (fun c => 48 <= c <= 57) (digits k n).
Proof.
  revert n. induction k as [|k IH]; intros n; [constructor|]. cbn [digits]. apply Forall_app. split; [apply IH|].
  constructor; [|constructor]. pose proof (Z.mod_pos_bound n 10). lia.
Qed.
Lemma year_text y : 1000 <= y <= 9999 -> str_of_int y = digits 4 y.
Proof.
  intros H. apply canonical_decimal_inj with y; [apply str_of_int_canonical|].
  exists (digits 4 y). destruct (Z.ltb_spec y 0); [lia|]. split; [reflexivity|].
  split; [rewrite digits_cons by lia; discriminate|]. split.
  - rewrite digits_cons by lia. cbn [hd]. change (10 ^ Z.of_nat 3) with 1000. intros E. exfalso.
    assert (1 <= y / 1000 <= 9) by (split; [apply Z.div_le_lower_bound; lia|apply Z.lt_succ_r, Z.div_lt_upper_bound; lia]).
    rewrite Z.mod_small in E by lia. lia.
  - split; [apply digits_range|]. rewrite digits_value; [lia|]. change (10 ^ Z.of_nat 4) with 10000. lia.
Qed.

(** ** the text *)
Lemma clock_parts t : 0 <= t mod 86400 / 3600 < 24 /\ 0 <= t mod 86400 mod 3600 / 60 < 60 /\ 0 <= t mod 86400 mod 60 < 60 /\
  t = 86400 * (t / 86400) + 3600 * (t mod 86400 / 3600) + 60 * (t mod 86400 mod 3600 / 60) + t mod 86400 mod 60.
Proof.
  pose proof (Z_div_mod_eq_full t 86400). pose proof (Z.mod_pos_bound t 86400 ltac:(lia)).
  set (r := t mod 86400) in *. clearbody r.
  pose proof (Z_div_mod_eq_full r 3600). pose proof (Z.mod_pos_bound r 3600 ltac:(lia)).
  assert (EM : r mod 60 = r mod 3600 mod 60).
  { rewrite (Z_div_mod_eq_full r 3600) at 1. replace (3600 * (r / 3600) + r mod 3600) with (r mod 3600 + (60 * (r / 3600)) * 60) by ring.
    apply Z_mod_plus_full. }
  rewrite EM. set (q := r mod 3600) in *. set (h := r / 3600) in *. clearbody q h.
  pose proof (Z_div_mod_eq_full q 60). pose proof (Z.mod_pos_bound q 60 ltac:(lia)).
  set (q2 := q mod 60) in *. set (h2 := q / 60) in *. clearbody q2 h2. lia.
Qed.
Lemma parts_unique day h m s : 0 <= h < 24 -> 0 <= m < 60 -> 0 <= s < 60 ->
  let t := 86400 * day + 3600 * h + 60 * m + s in
  t / 86400 = day /\ t mod 86400 / 3600 = h /\ t mod 86400 mod 3600 / 60 = m /\ t mod 86400 mod 60 = s.
Proof.
  intros Hh Hm Hs t. pose proof (clock_parts t) as (P1 & P2 & P3 & P4).
  set (a := t / 86400) in *. set (b := t mod 86400 / 3600) in *. set (c := t mod 86400 mod 3600 / 60) in *.
  set (d := t mod 86400 mod 60) in *. clearbody a b c d. subst t. lia.
Qed.
Lemma strftime_iso y m d h mi s : 1000 <= y <= 9999 -> 1 <= m <= 12 -> 1 <= d <= 31 -> 0 <= h < 24 -> 0 <= mi < 60 -> 0 <= s < 60 ->
  strftime (lit "%Y-%m-%dT%H:%M:%SZ"%string) (mkTM y m d h mi s) = iso_text (y, m, d) h mi s.
Proof.
  intros Hy Hm Hd Hh Hmi Hs. change (lit "%Y-%m-%dT%H:%M:%SZ"%string) with [37;89;45;37;109;45;37;100;84;37;72;58;37;77;58;37;83;90].
  cbn [strftime Z.eqb Pos.eqb tm_year tm_mon tm_mday tm_hour tm_min tm_sec].
  rewrite !two_digits_eq by lia. rewrite year_text by lia. reflexivity.
Qed.
Lemma format_iso day h m s : -354285 <= day < 2932897 -> 0 <= h < 24 -> 0 <= m < 60 -> 0 <= s < 60 ->
  format_time (VInt (86400 * day + 3600 * h + 60 * m + s)) = Ok (iso_text (civil day) h m s).
Proof.
  intros HD Hh Hm Hs. unfold format_time, gmtime, gmtime_int.
  destruct (parts_unique day h m s Hh Hm Hs) as (E1 & E2 & E3 & E4). rewrite E1, E2, E3, E4.
  pose proof (civil_range day HD) as R. destruct (civil day) as [[y mo] d]. destruct R as (R1 & R2 & R3).
  destruct (Z.ltb_spec (y - 1900) (- 2 ^ 31)); [lia|]. destruct (Z.leb_spec (2 ^ 31) (y - 1900)); [lia|]. cbn [orb bind].
  now rewrite strftime_iso by lia.
Qed.
Lemma four_digit_day t : four_digit_years t -> -354285 <= t / 86400 < 2932897.
Proof.
  intros [H1 H2]. split; [apply Z.div_le_lower_bound; lia|apply Z.div_lt_upper_bound; lia].
Qed.
Lemma format_iso_t t : four_digit_years t ->
  format_time (VInt t) = Ok (iso_text (civil (t / 86400)) (t mod 86400 / 3600) (t mod 86400 mod 3600 / 60) (t mod 86400 mod 60)).
Proof.
  intros H. apply four_digit_day in H. destruct (clock_parts t) as (P1 & P2 & P3 & P4). rewrite P4 at 1. now apply format_iso.
Qed.
Lemma iso_lt y m d h mi s y' m' d' h' mi' s' :
  1000 <= y <= 9999 -> 1 <= m <= 12 -> 1 <= d <= 31 -> 0 <= h < 24 -> 0 <= mi < 60 -> 0 <= s < 60 ->
  1000 <= y' <= 9999 -> 1 <= m' <= 12 -> 1 <= d' <= 31 -> 0 <= h' < 24 -> 0 <= mi' < 60 -> 0 <= s' < 60 ->
  (text_lt (iso_text (y, m, d) h mi s) (iso_text (y', m', d') h' mi' s') <->
   date_lt (y, m, d) (y', m', d') \/ ((y, m, d) = (y', m', d') /\ 3600 * h + 60 * mi + s < 3600 * h' + 60 * mi' + s')).
Proof.
  intros. unfold iso_text.
  change (lit "-"%string) with [45]. change (lit "T"%string) with [84]. change (lit ":"%string) with [58]. change (lit "Z"%string) with [90].
  rewrite (digits_lt 4) by (change (10 ^ Z.of_nat 4) with 10000; lia). cbn [app].
  rewrite sep_lt, (digits_lt 2) by (change (10 ^ Z.of_nat 2) with 100; lia). cbn [app].
  rewrite sep_lt, (digits_lt 2) by (change (10 ^ Z.of_nat 2) with 100; lia). cbn [app].
  rewrite sep_lt, (digits_lt 2) by (change (10 ^ Z.of_nat 2) with 100; lia). cbn [app].
  rewrite sep_lt, (digits_lt 2) by (change (10 ^ Z.of_nat 2) with 100; lia). cbn [app].
  rewrite sep_lt, (digits_lt 2) by (change (10 ^ Z.of_nat 2) with 100; lia). cbn [app text_lt].
  rewrite !pair_equal_spec. unfold date_lt. lia.
Qed.
Lemma format_lt t1 t2 s1 s2 : four_digit_years t1 -> four_digit_years t2 ->
  format_time (VInt t1) = Ok s1 -> format_time (VInt t2) = Ok s2 -> (t1 < t2 <-> text_lt s1 s2).
Proof.
  intros H1 H2. rewrite format_iso_t, format_iso_t by assumption. intros X1 X2. apply Ok_inj in X1, X2. subst s1 s2.
  apply four_digit_day in H1, H2. pose proof (clock_parts t1) as (A1 & A2 & A3 & A4). pose proof (clock_parts t2) as (B1 & B2 & B3 & B4).
  set (h := t1 mod 86400 / 3600) in *. set (m := t1 mod 86400 mod 3600 / 60) in *. set (s := t1 mod 86400 mod 60) in *. set (n := t1 / 86400) in *.
  set (h' := t2 mod 86400 / 3600) in *. set (m' := t2 mod 86400 mod 3600 / 60) in *. set (s' := t2 mod 86400 mod 60) in *. set (n' := t2 / 86400) in *.
  clearbody h m s n h' m' s' n'. subst t1 t2.
  pose proof (civil_range n H1) as R. pose proof (civil_range n' H2) as R'.
  pose proof (civil_lt_iff n n') as L. pose proof (civil_lt_iff n' n) as L'.
  assert (EE : n = n' <-> civil n = civil n').
  { split; [now intros ->|]. intros E. destruct (Z.lt_trichotomy n n') as [X|[X|X]]; [|exact X|];
      [rewrite <- L in X; rewrite E in X|rewrite <- L' in X; rewrite E in X]; now apply date_lt_irrefl in X. }
  destruct (civil n) as [[y mo] d], (civil n') as [[y' mo'] d']. cbv beta iota in R, R'.
  rewrite iso_lt by lia. rewrite L, <- EE. lia.
Qed.

(** ** floats *)
Lemma int_floor_spec f : is_finite_SF f = true -> int_floor f = Ok (Zfloor (SF2R radix2 f)).
Proof.
  destruct f as [s|s| |s m e]; cbn [is_finite_SF]; try discriminate; intros _; cbn [int_floor SF2R].
  - now rewrite Zfloor_IZR.
  - f_equal. replace (cond_Zopp s (Zpos m)) with (if s then - Zpos m else Zpos m) by now destruct s.
    set (z := if s then - Zpos m else Zpos m). clearbody z. unfold F2R. cbn [Fnum Fexp].
    destruct (Z.leb_spec 0 e) as [H|H].
    + rewrite <- IZR_Zpower by exact H. rewrite <- mult_IZR. now rewrite Zfloor_IZR.
    + replace (bpow radix2 e) with (/ IZR (2 ^ (- e)))%R.
      * change (IZR z * / IZR (2 ^ - e))%R with (IZR z / IZR (2 ^ - e))%R. symmetry. apply Zfloor_div. apply Z.pow_nonzero; lia.
      * rewrite (IZR_Zpower radix2) by lia. rewrite <- bpow_opp. f_equal. ring.
Qed.
