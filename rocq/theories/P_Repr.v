(** * P_Repr: repr of text (lemmas for C121). *)
From Coq Require Import String.
From Coq Require Import ZifyBool.
From Verif Require Import Py P_List S_Codec M_Suns M_Mbmap S_Mbmap M_Path M_PathObj S_PathObj.

Definition char_ok (c : Z) : Prop := 0 <= c <= 1114111.
Lemma digit_lo d : 0 <= d < 16 -> digit_of 16 (hex_digit_lo d) d.
Proof. intros H. unfold hex_digit_lo. split; [lia|]. destruct (Z.ltb_spec d 10); [left; lia|right; left; lia]. Qed.
Lemma hex_w_len w c : length (hex_low_w w c) = w.
Proof. revert c. induction w as [|w IH]; intros c; cbn [hex_low_w]; [reflexivity|]. rewrite app_length, IH. cbn [length]. lia. Qed.
Lemma hex_w_digits w : forall c, 0 <= c -> hex_digits (hex_low_w w c) (c mod 16 ^ Z.of_nat w).
Proof.
  induction w as [|w IH]; intros c Hc; cbn [hex_low_w].
  - cbn. rewrite Z.mod_1_r. constructor.
  - replace (c mod 16 ^ Z.of_nat (S w)) with (16 * ((c / 16) mod 16 ^ Z.of_nat w) + c mod 16).
    + apply hd_snoc; [apply IH; apply Z.div_pos; lia|apply digit_lo; apply Z.mod_pos_bound; lia].
    + rewrite Nat2Z.inj_succ, Z.pow_succ_r by lia. rewrite Z.rem_mul_r by lia. lia.
Qed.
Definition hexv (c : Z) : Z := if c <? 58 then c - 48 else if c <? 71 then c - 55 else c - 87.
Definition hval (s : str) : Z := fold_left (fun a c => 16 * a + hexv c) s 0.
Lemma hexv_digit c d : digit_of 16 c d -> hexv c = d.
Proof. intros (H & [[-> H1]|[[-> H1]|[-> H1]]]); unfold hexv; repeat match goal with |- context [if ?b then _ else _] => destruct b eqn:? end; lia. Qed.
Lemma hval_digits s v : hex_digits s v -> hval s = v.
Proof. induction 1 as [|s v c d H IH HD]; [reflexivity|]. unfold hval in *. rewrite fold_left_app, IH. cbn [fold_left]. now rewrite (hexv_digit _ _ HD). Qed.

(** reading one character of a literal *)
Definition dec1 (s : str) : option (Z * str) :=
  match s with
  | 92 :: k :: r =>
    if k =? 116 then Some (9, r) else if k =? 110 then Some (10, r) else if k =? 114 then Some (13, r)
    else if k =? 120 then Some (hval (firstn 2 r), skipn 2 r) else if k =? 117 then Some (hval (firstn 4 r), skipn 4 r)
    else if k =? 85 then Some (hval (firstn 8 r), skipn 8 r) else Some (k, r)
  | c :: r => Some (c, r)
  | [] => None
  end.
Lemma dec1_plain c x : c <> 92 -> dec1 (c :: x) = Some (c, x).
Proof.
  intros H. unfold dec1. destruct c as [|p|p]; try reflexivity. do 7 (destruct p as [p|p|]; try reflexivity). exfalso. apply H. reflexivity.
Qed.
Lemma dec1_hex w c x : 0 <= c -> c < 16 ^ Z.of_nat w -> hval (firstn w (hex_low_w w c ++ x)) = c /\ skipn w (hex_low_w w c ++ x) = x.
Proof.
  intros H1 H2. pose proof (hex_w_len w c) as HL. rewrite <- HL at 1 3. rewrite firstn_app, skipn_app, Nat.sub_diag, firstn_all, skipn_all. cbn [firstn skipn app]. rewrite app_nil_r.
  split; [|reflexivity]. rewrite (hval_digits _ _ (hex_w_digits w c H1)). apply Z.mod_small. lia.
Qed.
Lemma dec1_esc prt q c x : q = 39 \/ q = 34 -> char_ok c -> dec1 (esc prt q c ++ x) = Some (c, x).
Proof.
  intros Hq Hc. unfold char_ok in Hc. unfold esc.
  destruct ((c =? q) || (c =? 92)) eqn:E1.
  { cbn [app]. unfold dec1. assert (HC : c = 39 \/ c = 34 \/ c = 92) by lia. destruct HC as [-> |[-> | ->]]; reflexivity. }
  destruct (Z.eqb_spec c 9) as [->|N9]; [reflexivity|]. destruct (Z.eqb_spec c 10) as [->|N10]; [reflexivity|]. destruct (Z.eqb_spec c 13) as [->|N13]; [reflexivity|].
  assert (H92 : c <> 92) by lia.
  destruct ((c <? 32) || (c =? 127)) eqn:E2.
  { destruct (dec1_hex 2 c x ltac:(lia) ltac:(change (16 ^ Z.of_nat 2) with 256; lia)) as [D1 D2].
    change (dec1 ((92 :: 120 :: hex_low_w 2 c) ++ x)) with (Some (hval (firstn 2 (hex_low_w 2 c ++ x)), skipn 2 (hex_low_w 2 c ++ x))). now rewrite D1, D2. }
  destruct (c <? 127) eqn:E3; [apply dec1_plain; exact H92|]. destruct (prt c); [apply dec1_plain; exact H92|].
  destruct (c <=? 255) eqn:E4.
  { destruct (dec1_hex 2 c x ltac:(lia) ltac:(change (16 ^ Z.of_nat 2) with 256; lia)) as [D1 D2].
    change (dec1 ((92 :: 120 :: hex_low_w 2 c) ++ x)) with (Some (hval (firstn 2 (hex_low_w 2 c ++ x)), skipn 2 (hex_low_w 2 c ++ x))). now rewrite D1, D2. }
  destruct (c <=? 65535) eqn:E5.
  { destruct (dec1_hex 4 c x ltac:(lia) ltac:(change (16 ^ Z.of_nat 4) with 65536; lia)) as [D1 D2].
    change (dec1 ((92 :: 117 :: hex_low_w 4 c) ++ x)) with (Some (hval (firstn 4 (hex_low_w 4 c ++ x)), skipn 4 (hex_low_w 4 c ++ x))). now rewrite D1, D2. }
  destruct (dec1_hex 8 c x ltac:(lia) ltac:(change (16 ^ Z.of_nat 8) with 4294967296; lia)) as [D1 D2].
  change (dec1 ((92 :: 85 :: hex_low_w 8 c) ++ x)) with (Some (hval (firstn 8 (hex_low_w 8 c ++ x)), skipn 8 (hex_low_w 8 c ++ x))). now rewrite D1, D2.
Qed.
Lemma esc_start prt q c x y : q = 39 \/ q = 34 -> esc prt q c ++ x <> q :: y.
Proof.
  intros Hq. unfold esc. destruct ((c =? q) || (c =? 92)) eqn:E1; [cbn [app]; intros H; assert (92 = q) by congruence; lia|].
  repeat match goal with |- context [if ?b then _ else _] => destruct b end; cbn [app]; intros H; first [assert (92 = q) by congruence; lia|assert (c = q) by congruence; lia].
Qed.
Lemma body_inj prt q : q = 39 \/ q = 34 -> forall s s' x y, Forall char_ok s -> Forall char_ok s' ->
  flat_map (esc prt q) s ++ q :: x = flat_map (esc prt q) s' ++ q :: y -> s = s' /\ x = y.
Proof.
  intros Hq. induction s as [|c s IH]; intros [|c' s'] x y F1 F2 H; cbn [flat_map app] in H.
  - split; [reflexivity|congruence].
  - exfalso. rewrite <- app_assoc in H. symmetry in H. now apply esc_start in H.
  - exfalso. rewrite <- app_assoc in H. now apply esc_start in H.
  - apply Forall_cons_iff in F1 as [C1 F1]. apply Forall_cons_iff in F2 as [C2 F2]. rewrite <- !app_assoc in H.
    pose proof (dec1_esc prt q c (flat_map (esc prt q) s ++ q :: x) Hq C1) as D. rewrite H, (dec1_esc prt q c' _ Hq C2) in D. apply Some_inj, pair_equal_spec in D as [-> D].
    symmetry in D. destruct (IH s' x y F1 F2 D) as [-> ->]. auto.
Qed.
Lemma quote_ok s : quote_for s = 39 \/ quote_for s = 34.
Proof. unfold quote_for. destruct (_ && _); auto. Qed.
Lemma repr_inj prt s s' x y : Forall char_ok s -> Forall char_ok s' -> str_repr prt s ++ x = str_repr prt s' ++ y -> s = s' /\ x = y.
Proof.
  intros F1 F2 H. unfold str_repr in H. cbv zeta in H. rewrite <- !app_assoc in H. cbn [app] in H. assert (EQ : quote_for s = quote_for s') by congruence.
  rewrite <- EQ in H. apply (f_equal (@tl Z)) in H. cbn [tl] in H. exact (body_inj prt _ (quote_ok s) s s' x y F1 F2 H).
Qed.
Lemma commas_inj prt : forall l l' x y, Forall (Forall char_ok) l -> Forall (Forall char_ok) l' ->
  commas (map (str_repr prt) l) ++ 93 :: x = commas (map (str_repr prt) l') ++ 93 :: y -> l = l'.
Proof.
  assert (HS : forall s z, exists q r, str_repr prt s ++ z = q :: r /\ q <> 93).
  { intros s z. exists (quote_for s), (flat_map (esc prt (quote_for s)) s ++ [quote_for s] ++ z). split; [unfold str_repr; cbn [app]; now rewrite <- app_assoc|]. destruct (quote_ok s); lia. }
  assert (HC : forall s l z, exists q r, commas (map (str_repr prt) (s :: l)) ++ z = q :: r /\ q <> 93).
  { intros s [|s' l] z; cbn [map commas]; [apply HS|]. rewrite <- app_assoc. apply HS. }
  induction l as [|s l IH]; intros [|s' l'] x y F1 F2 H; [reflexivity| | |].
  - exfalso. destruct (HC s' l' (93 :: y)) as (q & r & E & N). pose proof (eq_trans H E) as H'. cbn [map commas app] in H'. congruence.
  - exfalso. destruct (HC s l (93 :: x)) as (q & r & E & N). pose proof (eq_trans (eq_sym H) E) as H'. cbn [map commas app] in H'. congruence.
  - apply Forall_cons_iff in F1 as [C1 F1]. apply Forall_cons_iff in F2 as [C2 F2].
    destruct l as [|a l], l' as [|a' l']; cbn [map commas] in H; rewrite <- ?app_assoc in H; apply repr_inj in H as [-> H]; auto; cbn [app] in H; try discriminate H.
    f_equal. apply (IH (a' :: l') x y F1 F2). exact (f_equal (fun z => tl (tl z)) H).
Qed.
(** ** the text is a Python literal *)
Lemma esc_literal prt q c b s : q = 39 \/ q = 34 -> char_ok c -> literal q b s -> literal q (esc prt q c ++ b) (c :: s).
Proof.
  intros Hq Hc H. unfold char_ok in Hc. unfold esc.
  assert (HX : forall k w, (k, Z.of_nat w) = (120, 2) \/ (k, Z.of_nat w) = (117, 4) \/ (k, Z.of_nat w) = (85, 8) -> c < 16 ^ Z.of_nat w -> literal q ((92 :: k :: hex_low_w w c) ++ b) (c :: s)).
  { intros k w HK Hw. cbn [app]. apply (li_hex q k (Z.of_nat w)); [exact HK|unfold zlen; now rewrite hex_w_len| |exact H].
    pose proof (hex_w_digits w c ltac:(lia)) as HD. now rewrite Z.mod_small in HD by lia. }
  destruct ((c =? q) || (c =? 92)) eqn:E1; [cbn [app]; apply li_same; [lia|exact H]|].
  destruct (Z.eqb_spec c 9) as [->|N9]; [now apply li_tab|]. destruct (Z.eqb_spec c 10) as [->|N10]; [now apply li_lf|]. destruct (Z.eqb_spec c 13) as [->|N13]; [now apply li_cr|].
  destruct ((c <? 32) || (c =? 127)) eqn:E2; [apply (HX 120 2%nat); [auto|change (16 ^ Z.of_nat 2) with 256; lia]|].
  destruct (c <? 127) eqn:E3; [apply li_char; try lia; exact H|]. destruct (prt c); [apply li_char; try lia; exact H|].
  destruct (c <=? 255) eqn:E4; [apply (HX 120 2%nat); [auto|change (16 ^ Z.of_nat 2) with 256; lia]|].
  destruct (c <=? 65535) eqn:E5; [apply (HX 117 4%nat); [auto|change (16 ^ Z.of_nat 4) with 65536; lia]|].
  apply (HX 85 8%nat); [auto|change (16 ^ Z.of_nat 8) with 4294967296; lia].
Qed.
Lemma repr_quoted prt s : Forall char_ok s -> quoted (str_repr prt s) s.
Proof.
  intros F. exists (quote_for s), (flat_map (esc prt (quote_for s)) s). split; [apply quote_ok|]. split; [reflexivity|].
  generalize (quote_ok s). generalize (quote_for s). intros q Hq. induction F as [|c s HC F IH]; [constructor|]. cbn [flat_map]. now apply esc_literal.
Qed.
Lemma list_display prt l : Forall (Forall char_ok) l -> display (list_str prt l) l.
Proof.
  intros F. unfold list_str. destruct l as [|s l]; [apply di_nil|]. apply di_items. revert s F. induction l as [|s' l IH]; intros s F; apply Forall_cons_iff in F as [C F].
  - apply it_one. now apply repr_quoted.
  - change (commas (map (str_repr prt) (s :: s' :: l))) with (str_repr prt s ++ [44; 32] ++ commas (map (str_repr prt) (s' :: l))). apply it_more; [now apply repr_quoted|now apply IH].
Qed.
