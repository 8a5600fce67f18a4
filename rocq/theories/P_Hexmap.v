(** * P_Hexmap: proofs about hexadecimal register files *)
From Coq Require Import String.
From Verif Require Import Py P_List S_Codec M_Suns M_Path M_Mbmap M_Hexmap S_Hexmap S_Mbmap P_Mbmap P_IntText.

Lemma digit_char c v : digit_of 16 c v -> 48 <= c <= 57 \/ 65 <= c <= 70 \/ 97 <= c <= 102.
Proof. unfold digit_of. lia. Qed.
Lemma digit_not_space c v : digit_of 16 c v -> is_space c = false.
Proof. intros H. apply digit_char in H. unfold is_space. lia. Qed.
Lemma digit_byte c1 v1 c2 v2 : digit_of 16 c1 v1 -> digit_of 16 c2 v2 -> is_byte (16 * v1 + v2).
Proof. unfold digit_of, is_byte. lia. Qed.

(** ** lines *)
Definition no_nl (l : str) := Forall (fun c => c <> 10 /\ c <> 13) l.
Lemma univ_no_nl l s : no_nl l -> univ_newlines (l ++ s) = l ++ univ_newlines s.
Proof.
  induction 1 as [|c l Hc _ IH]; [reflexivity|]. cbn [app univ_newlines]. destruct (Z.eqb_spec c 13); [lia|]. now rewrite IH.
Qed.
Lemma split_no_nl l s : no_nl l ->
  split_lines (l ++ s) = match split_lines s with [] => [l] | w :: r => (l ++ w) :: r end.
Proof.
  induction 1 as [|c l Hc _ IH]; cbn [app split_lines].
  - destruct (split_lines s) eqn:E; [|reflexivity]. destruct s as [|a s]; [discriminate|]. cbn in E.
    destruct (a =? 10); [discriminate|]. destruct (split_lines s); discriminate.
  - destruct (Z.eqb_spec c 10); [lia|]. rewrite IH. destruct (split_lines s); reflexivity.
Qed.
Lemma gap_no_nl w : gap w -> no_nl w.
Proof. apply Forall_impl. intros c H. lia. Qed.
Lemma byte_line_no_nl l d : byte_line l d -> no_nl l.
Proof.
  induction 1 as [w Hw|w c1 c2 v1 v2 s d Hw H1 H2 Hs _ IH]; [now apply gap_no_nl|].
  apply Forall_app. split; [now apply gap_no_nl|]. apply digit_char in H1, H2.
  constructor; [lia|]. constructor; [lia|exact IH].
Qed.
Lemma hex_line_no_nl l d : hex_line l d -> no_nl l.
Proof. destruct 1 as [l d H|t H]; [eapply byte_line_no_nl; eauto|]. constructor; [lia|exact H]. Qed.

(** ** words *)
Lemma words_gap w s : gap w -> split_words [] (w ++ s) = split_words [] s.
Proof.
  induction 1 as [|c w Hc _ IH]; [reflexivity|]. cbn [app split_words].
  replace (is_space c) with true by (unfold is_space; lia). exact IH.
Qed.
Lemma byte_line_words l d : byte_line l d -> pack_words (split_words [] l) = Ok d.
Proof.
  induction 1 as [w Hw|w c1 c2 v1 v2 s d Hw H1 H2 Hs Hl IH].
  - rewrite <- (app_nil_r w), words_gap by exact Hw. reflexivity.
  - rewrite words_gap by exact Hw. cbn [split_words app]. rewrite (digit_not_space _ _ H1), (digit_not_space _ _ H2).
    cbn [app].
    assert (E : split_words [c1; c2] s = [c1; c2] :: split_words [] s).
    { destruct Hs as [->|[r [-> | ->]]]; reflexivity. }
    rewrite E. cbn [pack_words]. rewrite (int_of_hex_pair _ _ _ _ H1 H2). cbn [bind].
    assert (HB := digit_byte _ _ _ _ H1 H2).
    replace (pack_int 1 false (16 * v1 + v2)) with (Ok [16 * v1 + v2]).
    + cbn [bind]. rewrite IH. reflexivity.
    + unfold pack_int. unfold is_byte in HB. change (int_lo 1 false) with 0. change (int_hi 1 false) with 255.
      replace ((0 <=? 16 * v1 + v2) && (16 * v1 + v2 <=? 255)) with true by lia.
      f_equal. cbn [be_bytes app]. rewrite Z.mod_small by lia. reflexivity.
Qed.
Lemma byte_line_bytes l d : byte_line l d -> Forall is_byte d.
Proof. induction 1; constructor; eauto using digit_byte. Qed.
Lemma hex_line_bytes l d : hex_line l d -> Forall is_byte d.
Proof. destruct 1; [eapply byte_line_bytes; eauto|constructor]. Qed.
Lemma hex_file_bytes s d : hex_file s d -> Forall is_byte d.
Proof. induction 1; [eapply hex_line_bytes; eauto|]. apply Forall_app. split; [eapply hex_line_bytes; eauto|exact IHhex_file]. Qed.

Definition line_data (l : str) : res bytes :=
  match l with c :: _ => if c =? 35 then Ok [] else pack_words (split_words [] l) | [] => Ok [] end.
Lemma hex_line_data l d : hex_line l d -> line_data l = Ok d.
Proof.
  destruct 1 as [l d H|t H]; [|reflexivity]. pose proof (byte_line_words _ _ H) as HW. unfold line_data.
  destruct l as [|c l]; [exact HW|]. destruct (Z.eqb_spec c 35) as [->|]; [|exact HW]. exfalso.
  inversion H as [w Hw|w c1 c2 v1 v2 s d' Hw H1 H2 Hs Hl EQ]; subst.
  - inversion Hw. lia.
  - destruct w as [|a w]; cbn [app] in EQ.
    + assert (c1 = 35) by congruence. apply digit_char in H1. lia.
    + assert (a = 35) by congruence. inversion Hw. lia.
Qed.
Lemma hex_lines_cons l r : hex_lines (l :: r) = let! a := line_data l in let! d := hex_lines r in Ok (a ++ d).
Proof. reflexivity. Qed.
Lemma hex_file_lines s d : hex_file s d -> hex_lines (split_lines (univ_newlines s)) = Ok d.
Proof.
  induction 1 as [l d H|l d nl s ds H Hnl _ IH].
  - assert (E : split_lines (univ_newlines l) = [l]).
    { pose proof (hex_line_no_nl _ _ H) as HN. pose proof (univ_no_nl l [] HN) as E1. pose proof (split_no_nl l [] HN) as E2.
      cbn [univ_newlines split_lines] in E1, E2. rewrite !app_nil_r in E1, E2. rewrite E1. exact E2. }
    rewrite E, hex_lines_cons, (hex_line_data _ _ H). cbn [bind hex_lines]. now rewrite app_nil_r.
  - pose proof (hex_line_no_nl _ _ H) as HN. rewrite univ_no_nl by exact HN.
    assert (E : univ_newlines (nl ++ s) = 10 :: univ_newlines s) by (destruct Hnl; subst nl; reflexivity).
    rewrite E, split_no_nl by exact HN.
    change (split_lines (10 :: univ_newlines s)) with ([] :: split_lines (univ_newlines s)). cbv iota.
    rewrite app_nil_r, hex_lines_cons, (hex_line_data _ _ H). cbn [bind]. rewrite IH. reflexivity.
Qed.

(** ** rejection: a word that is no byte *)
Lemma pack_words_app a b : pack_words (a ++ b) = let! x := pack_words a in let! y := pack_words b in Ok (x ++ y).
Proof.
  induction a as [|w a IH]; cbn [app pack_words bind]; [destruct (pack_words b); reflexivity|].
  destruct (int_of_hex w); cbn [bind]; [|reflexivity]. destruct (pack_int _ _ _); cbn [bind]; [|reflexivity].
  rewrite IH. destruct (pack_words a); cbn [bind]; [|reflexivity]. destruct (pack_words b); cbn [bind]; [|reflexivity].
  now rewrite app_assoc.
Qed.
Definition no_space (w : str) := Forall (fun c => is_space c = false) w.
Lemma words_word w : no_space w -> forall cur s, split_words cur (w ++ s) = split_words (cur ++ w) s.
Proof.
  induction 1 as [|c w Hc _ IH]; intros cur s; [now rewrite app_nil_r|]. cbn [app split_words]. rewrite Hc, IH.
  now rewrite <- app_assoc.
Qed.
Lemma words_at_space a : forall cur b, (exists x c, a = x ++ [c] /\ is_space c = true) ->
  exists l, split_words cur (a ++ b) = l ++ split_words [] b.
Proof.
  induction a as [|c a IH]; intros cur b (x & y & E & Hy); [destruct x; discriminate|].
  destruct x as [|x0 x].
  - cbn [app] in E. assert (c = y /\ a = []) as [-> ->] by (split; congruence). cbn [app split_words]. rewrite Hy.
    exists (flush cur []). destruct cur; reflexivity.
  - cbn [app] in E. assert (Ea : a = x ++ [y]) by congruence. cbn [app split_words].
    destruct (is_space c).
    + destruct (IH [] b) as [l Hl]; [eauto|]. exists (flush cur l). rewrite Hl. destruct cur; reflexivity.
    + apply IH. eauto.
Qed.
(** [w] is a word of the line: no blanks in it, and blanks or the ends of the line around it *)
Lemma words_has a w b : no_space w -> w <> [] -> (a = [] \/ exists x c, a = x ++ [c] /\ is_space c = true) ->
  (b = [] \/ exists c y, b = c :: y /\ is_space c = true) ->
  exists l r, split_words [] (a ++ w ++ b) = l ++ w :: r.
Proof.
  intros HW Hne HA HB.
  assert (E : exists r, split_words [] (w ++ b) = w :: r).
  { rewrite words_word by exact HW. cbn [app]. destruct HB as [->|(c & y & -> & Hc)]; cbn [split_words].
    - exists []. destruct w; [congruence|reflexivity].
    - rewrite Hc. exists (split_words [] y). destruct w; [congruence|reflexivity]. }
  destruct E as [r Er]. destruct HA as [->|HA].
  - exists [], r. exact Er.
  - destruct (words_at_space a [] (w ++ b) HA) as [l Hl]. exists l, r. rewrite Hl, Er. reflexivity.
Qed.
Lemma numeral_chars s n : numeral 16 s n -> Forall (fun c => c = 95 \/ 48 <= c <= 57 \/ 65 <= c <= 70 \/ 97 <= c <= 102) s.
Proof.
  induction 1 as [c v Hc|s n c v HN IH Hc|s n c v HN IH Hc]; apply digit_char in Hc.
  - constructor; [now right|constructor].
  - apply Forall_app. split; [exact IH|]. constructor; [now right|constructor].
  - apply Forall_app. split; [exact IH|]. constructor; [now left|]. constructor; [now right|constructor].
Qed.
Lemma parse_hex_mag_spec s n : parse_hex_mag s = Some n <-> hex_magnitude s n.
Proof.
  split.
  - unfold parse_hex_mag. destruct s as [|z [|c r]]; try (intros H; apply parse_digits_spec in H; [now constructor|lia]).
    destruct ((z =? 48) && is_prefix c 120 88) eqn:E; [|intros H; apply parse_digits_spec in H; [now constructor|lia]].
    intros H. apply prefix_branch in H as (u & t & -> & Hu & HN); [|lia]. apply andb_true_iff in E as [Ez Ec].
    apply Z.eqb_eq in Ez as ->. apply is_prefix_spec in Ec. exact (hm_prefix c u t n Ec Hu HN).
  - intros [t m HN|p u t m Hp Hu HN].
    + pose proof (numeral_chars t m HN) as HC. apply parse_digits_spec in HN; [|lia]. unfold parse_hex_mag.
      destruct t as [|z [|c r]]; try exact HN. destruct ((z =? 48) && is_prefix c 120 88) eqn:E; [|exact HN].
      exfalso. apply andb_true_iff in E as [_ Ec]. apply is_prefix_spec in Ec. inversion HC as [|? ? _ HC']; subst. inversion HC' as [|? ? HC'' _]; subst. lia.
    + cbn [app]. unfold parse_hex_mag. rewrite (proj2 (is_prefix_spec p 120 88) Hp). change (48 =? 48) with true. cbn [andb].
      apply prefix_branch; [lia|]. eauto.
Qed.
Lemma strip_nonspace w : Forall (fun c => is_space c = false) w -> strip_blank w = w.
Proof.
  intros H. destruct (strip_decomp w) as (w1 & w2 & H1 & H2 & E).
  assert (N : forall l, blanks l -> Forall (fun c => is_space c = false) l -> l = []).
  { intros [|c l] HB HS; [reflexivity|exfalso]. inversion HB; subst. inversion HS; subst. unfold is_space in *. lia. }
  rewrite E in H. apply Forall_app in H as [HA H]. apply Forall_app in H as [_ HB].
  rewrite (N w1 H1 HA), (N w2 H2 HB), app_nil_r in E. symmetry. exact E.
Qed.
Lemma magnitude_head s n : hex_magnitude s n -> exists c r, s = c :: r /\ c <> 43 /\ c <> 45.
Proof.
  intros [t m HN|p u t m Hp Hu HN].
  - destruct (numeral_head _ _ _ HN) as (c & r & v & -> & Hc). apply digit_char in Hc. exists c, r. split; [reflexivity|lia].
  - exists 48, (p :: u ++ t). split; [reflexivity|lia].
Qed.
Lemma int_of_hex_spec w v : Forall (fun c => is_space c = false) w -> (int_of_hex w = Ok v <-> hex_integer w v).
Proof.
  intros HS. unfold int_of_hex. rewrite (strip_nonspace w HS). split.
  - unfold parse_signed. destruct w as [|c r]; [discriminate|].
    destruct (Z.eqb_spec c 45) as [->|N1].
    { destruct (parse_hex_mag r) as [n|] eqn:E; [|discriminate]. intros H. apply Ok_inj in H as <-. apply parse_hex_mag_spec in E. now constructor. }
    destruct (Z.eqb_spec c 43) as [->|N2].
    { destruct (parse_hex_mag r) as [n|] eqn:E; [|discriminate]. intros H. apply Ok_inj in H as <-. apply parse_hex_mag_spec in E. now constructor. }
    destruct (parse_hex_mag (c :: r)) as [n|] eqn:E; [|discriminate]. intros H. apply Ok_inj in H as <-. apply parse_hex_mag_spec in E. now constructor.
  - intros [s n HM|s n HM|s n HM]; unfold parse_signed.
    + destruct (magnitude_head s n HM) as (c & r & -> & H1 & H2). rewrite (proj2 (Z.eqb_neq c 45)), (proj2 (Z.eqb_neq c 43)) by auto.
      apply parse_hex_mag_spec in HM. now rewrite HM.
    + change (43 =? 45) with false. change (43 =? 43) with true. apply parse_hex_mag_spec in HM. now rewrite HM.
    + change (45 =? 45) with true. apply parse_hex_mag_spec in HM. now rewrite HM.
Qed.
Lemma pack_words_bad l w r : (forall v, int_of_hex w = Ok v -> ~ 0 <= v <= 255) -> exists e, pack_words (l ++ w :: r) = Raise e.
Proof.
  intros H. rewrite pack_words_app. destruct (pack_words l); cbn [bind]; [|eauto]. cbn [pack_words].
  destruct (int_of_hex w) as [v|e] eqn:E; cbn [bind]; [|eauto]. specialize (H v eq_refl).
  unfold pack_int. change (int_lo 1 false) with 0. change (int_hi 1 false) with 255.
  replace ((0 <=? v) && (v <=? 255)) with false by lia. cbn [bind]. eauto.
Qed.
Lemma hex_lines_bad a l b : (exists e, line_data l = Raise e) -> exists e, hex_lines (a ++ l :: b) = Raise e.
Proof.
  intros [e H]. induction a as [|x a [e' IH]]; cbn [app]; rewrite hex_lines_cons.
  - rewrite H. cbn. eauto.
  - destruct (line_data x); cbn [bind]; [|eauto]. rewrite IH. cbn. eauto.
Qed.
Lemma split_lines_app_nl a b : split_lines (a ++ 10 :: b) = split_lines a ++ split_lines b.
Proof.
  induction a as [|c a IH]; cbn [app split_lines]; [reflexivity|]. destruct (c =? 10); [now rewrite IH|].
  rewrite IH. destruct (split_lines a) eqn:E; [|reflexivity]. exfalso. destruct a as [|d a]; [discriminate|]. cbn in E.
  destruct (d =? 10); [discriminate|]. destruct (split_lines a); discriminate.
Qed.
Lemma split_lines_ne s : split_lines s <> [].
Proof. destruct s as [|d a]; [discriminate|]. cbn. destruct (d =? 10); [discriminate|]. destruct (split_lines a); discriminate. Qed.
Lemma univ_nl a : forall b, exists q, univ_newlines (a ++ 10 :: b) = q ++ 10 :: univ_newlines b.
Proof.
  induction a as [a IH] using (well_founded_induction (Wf_nat.well_founded_ltof _ (@length Z))).
  intros b. unfold Wf_nat.ltof in IH. destruct a as [|c a]; [exists []; reflexivity|]. cbn [app univ_newlines].
  destruct (Z.eqb_spec c 13) as [->|Hc].
  - destruct a as [|d a]; [exists []; reflexivity|]. cbn [app]. destruct (d =? 10) eqn:Ed.
    + destruct (IH a ltac:(cbn; lia) b) as [q Hq]. exists (10 :: q). now rewrite Hq.
    + destruct (IH (d :: a) ltac:(cbn; lia) b) as [q Hq]. cbn [app] in Hq. exists (10 :: q). now rewrite Hq.
  - destruct (IH a ltac:(cbn; lia) b) as [q Hq]. exists (c :: q). now rewrite Hq.
Qed.
Lemma lines_has a l b : no_nl l -> (a = [] \/ exists x, a = x ++ [10]) -> (b = [] \/ exists c y, b = c :: y /\ (c = 10 \/ c = 13)) ->
  exists p q, split_lines (univ_newlines (a ++ l ++ b)) = p ++ l :: q.
Proof.
  intros HN HA HB.
  assert (E : exists q, split_lines (univ_newlines (l ++ b)) = l :: q).
  { rewrite univ_no_nl, split_no_nl by exact HN.
    assert (EB : b = [] \/ exists u, univ_newlines b = 10 :: u).
    { destruct HB as [->|(c & y & -> & Hc)]; [now left|right]. cbn [univ_newlines]. destruct Hc as [-> | ->].
      - eexists. reflexivity.
      - change (13 =? 13) with true. cbv iota. eexists. reflexivity. }
    destruct EB as [->|[u ->]].
    - exists []. cbn [univ_newlines split_lines]. now rewrite app_nil_r.
    - change (split_lines (10 :: u)) with ([] :: split_lines u). cbv iota. rewrite app_nil_r. eauto. }
  destruct E as [q Eq]. destruct HA as [->|[x ->]].
  - exists [], q. exact Eq.
  - rewrite <- app_assoc. cbn [app]. destruct (univ_nl x (l ++ b)) as [r Hr]. rewrite Hr, split_lines_app_nl, Eq. eauto.
Qed.

(** ** reading and writing the map *)
Definition hex_block (d : bytes) : mregs := mkRegs (NI 0) (NF (zlen d)) (Some d) ACCESS_RW.
Lemma from_hex_ok m s d : hex_file s d -> d <> [] -> map_from_hex m (Some s) = (with_regs m (m_regs m ++ [hex_block d]), Ok tt).
Proof. intros H Hd. unfold map_from_hex. rewrite (hex_file_lines _ _ H). destruct d; [congruence|reflexivity]. Qed.
Lemma from_hex_empty m s : hex_file s [] -> map_from_hex m (Some s) = (m, Raise EModbusMap).
Proof. intros H. unfold map_from_hex. now rewrite (hex_file_lines _ _ H). Qed.
Lemma from_hex_error m f m' e : map_from_hex m f = (m', Raise e) -> m' = m /\ e = EModbusMap.
Proof.
  unfold map_from_hex. destruct f as [t|]; [|intros H; split; congruence].
  destruct (hex_lines _) as [[|b d]|]; intros H; split; congruence.
Qed.
Lemma from_hex_bad m pre l post a w b :
  no_nl l -> (pre = [] \/ exists x, pre = x ++ [10]) -> (post = [] \/ exists c y, post = c :: y /\ (c = 10 \/ c = 13)) ->
  l = a ++ w ++ b -> no_space w -> w <> [] -> (a = [] \/ exists x c, a = x ++ [c] /\ is_space c = true) ->
  (b = [] \/ exists c y, b = c :: y /\ is_space c = true) -> hd 0 l <> 35 ->
  (forall v, int_of_hex w = Ok v -> ~ 0 <= v <= 255) ->
  map_from_hex m (Some (pre ++ l ++ post)) = (m, Raise EModbusMap).
Proof.
  intros HN HP HQ HL HW Hne HA HB Hh HV. unfold map_from_hex.
  destruct (lines_has pre l post HN HP HQ) as (p & q & E). rewrite E.
  destruct (hex_lines_bad p l q) as [e Ee]; [|now rewrite Ee].
  unfold line_data. destruct l as [|c l'] eqn:El.
  - destruct a; [|discriminate]. destruct w; [congruence|discriminate].
  - cbn [hd] in Hh. destruct (Z.eqb_spec c 35); [congruence|]. rewrite HL.
    destruct (words_has a w b HW Hne HA HB) as (u & v & Ew). rewrite Ew. apply pack_words_bad. exact HV.
Qed.

Lemma pyb {A} i (l : list A) : 0 <= i <= zlen l -> py_bound i l = i.
Proof. intros H. unfold py_bound. destruct (Z.ltb_spec i 0); lia. Qed.

Lemma hex_read m d b x n op :
  m_regs m = [hex_block d] -> base_int (m_base m) = Ok b -> op = 0 \/ op = m_func m -> 0 <= n ->
  map_read m (b + x) n op =
    if n =? 0 then Ok []
    else if (x <? 0) || (zlen d <=? 2 * x) then Raise EModbusMap
    else if 2 * (x + n) <? zlen d then Ok (slice (2 * x) (2 * x + 2 * n) d)
    else Raise EType.
Proof.
  intros HR HB Hop Hn. unfold map_read.
  assert (negb (op =? 0) && negb (op =? m_func m) = false) as -> by lia.
  rewrite HB. cbn [bind]. rewrite HR. replace (b + x - b) with x by lia.
  cbn [read_regs]. unfold num_ltb at 1. cbn [num2].
  destruct (Z.eqb_spec n 0) as [->|Hn0]; [reflexivity|].
  replace (2 * 0 <? 2 * n) with true by lia.
  assert (EF : regs_end (hex_block d) = NF (zlen d)) by (unfold regs_end, hex_block; cbn [g_offset g_count num_add num2]; f_equal; lia).
  rewrite EF. cbv zeta. unfold num_leb, num_ltb at 1. cbn [hex_block g_offset num2].
  destruct (Z.ltb_spec x 0) as [Hx|Hx]; cbn [orb].
  - replace (2 * 0 <=? 2 * x) with false by lia. cbn [andb bind].
    rewrite zlen_nil. replace (0 =? 2 * n) with false by lia. reflexivity.
  - replace (2 * 0 <=? 2 * x) with true by lia. cbn [andb].
    destruct (Z.leb_spec (zlen d) (2 * x)) as [HL|HL].
    + replace (2 * x <? zlen d) with false by lia. cbn [bind].
      rewrite zlen_nil. replace (0 =? 2 * n) with false by lia. reflexivity.
    + replace (2 * x <? zlen d) with true by lia. cbn [num_sub num2]. unfold num_ltb at 1. cbn [num2].
      destruct (Z.ltb_spec (2 * (x + n)) (zlen d)) as [HE|HE].
      * replace (2 * n <? zlen d - 2 * x) with true by lia. unfold regs_read. rewrite EF. cbv zeta.
        unfold num_leb, num_ltb. cbn [hex_block g_offset g_data num2 num_add num_sub].
        replace (2 * 0 <=? 2 * x) with true by lia. replace (2 * x <? zlen d) with true by lia. cbn [andb].
        replace (zlen d <? 2 * (x + n)) with false by lia. replace (2 * 0 <? 2 * n) with true by lia.
        cbn [num_double num_add num_index bind app]. unfold py_slice.
        assert (HS : slice (py_bound (2 * (x - 0)) d) (py_bound (2 * (x - 0) + 2 * n) d) d = slice (2 * x) (2 * x + 2 * n) d).
        { rewrite !Z.sub_0_r, !pyb by lia. reflexivity. }
        replace (slice _ _ d) with (slice (2 * x) (2 * x + 2 * n) d) by (symmetry; exact HS).
        cbn [read_regs]. cbn [bind].
        assert (HZ : zlen (slice (2 * x) (2 * x + 2 * n) d) = 2 * n) by (rewrite zlen_slice_in; lia).
        cbn [num2]. replace (2 * 0 <? 2 * n) with true by lia. cbn [bind]. rewrite HZ, Z.eqb_refl. reflexivity.
      * replace (2 * n <? zlen d - 2 * x) with false by lia. unfold regs_read. rewrite EF. cbv zeta.
        unfold num_leb, num_ltb. cbn [hex_block g_offset g_data num2 num_add num_sub].
        replace (2 * 0 <=? 2 * x) with true by lia. replace (2 * x <? zlen d) with true by lia. cbn [andb].
        replace (zlen d <? 2 * x + (zlen d - 2 * x)) with false by lia. replace (2 * 0 <? zlen d - 2 * x) with true by lia.
        cbn [num_double num_add num_index bind num2]. replace (2 * 0 <? zlen d - 2 * x) with true by lia. reflexivity.
Qed.

Lemma hex_write m d b x data :
  m_regs m = [hex_block d] -> base_int (m_base m) = Ok b -> 0 <= x -> zlen data mod 2 = 0 -> 2 * x + zlen data <= zlen d ->
  map_write m (b + x) data = (with_regs m [hex_block (ztake (2 * x) d ++ data ++ zdrop (2 * x + zlen data) d)], Ok tt).
Proof.
  intros HR HB Hx HE HL. unfold map_write. rewrite HE. cbn [Z.eqb negb]. rewrite HB, HR. replace (b + x - b) with x by lia.
  cbn [write_regs]. unfold num_ltb at 1. cbn [num2].
  assert (EF : regs_end (hex_block d) = NF (zlen d)) by (unfold regs_end, hex_block; cbn [g_offset g_count num_add num2]; f_equal; lia).
  assert (EB : hex_block (ztake (2 * x) d ++ data ++ zdrop (2 * x + zlen data) d) =
    mkRegs (NI 0) (NF (zlen d)) (Some (ztake (2 * x) d ++ data ++ zdrop (2 * x + zlen data) d)) ACCESS_RW).
  { unfold hex_block. f_equal. f_equal. pose proof (zlen_nonneg data). rewrite !zlen_app, zlen_ztake_le, zlen_zdrop by lia. lia. }
  pose proof (zlen_nonneg data) as HN.
  destruct (Z.ltb_spec (2 * 0) (zlen data)) as [HP|HP].
  - rewrite EF. cbv zeta. unfold num_leb, num_ltb at 1. cbn [hex_block g_offset num2].
    replace (2 * 0 <=? 2 * x) with true by lia. replace (2 * x <? zlen d) with true by lia. cbn [andb].
    cbn [num_sub num2 num_index]. unfold num_ltb at 1. cbn [num2].
    assert (EW : (if zlen data <? zlen d - 2 * x then NF (zlen data) else NF (zlen d - 2 * x)) = NF (zlen data))
      by (destruct (Z.ltb_spec (zlen data) (zlen d - 2 * x)); f_equal; lia).
    rewrite EW. cbn [num_double num_add num2 num_int].
    replace (Z.quot (2 * 0 + 2 * zlen data) 2) with (zlen data) by (rewrite Z.quot_div_nonneg by lia; rewrite Z.mul_0_r, Z.add_0_l, Z.mul_comm, Z.div_mul; lia).
    assert (ES : py_slice 0 (zlen data) data = data).
    { unfold py_slice. replace (py_bound 0 data) with 0 by (symmetry; rewrite pyb; lia). replace (py_bound (zlen data) data) with (zlen data) by (symmetry; rewrite pyb; lia).
      unfold slice. rewrite Z.sub_0_r. rewrite zdrop_neg by lia. apply ztake_all. lia. }
    rewrite ES. unfold regs_write. rewrite EF. cbv zeta. unfold num_leb. cbn [hex_block g_offset g_data g_count g_access num2 num_add num_sub num_double num_index bind num_int].
    replace (2 * 0 <=? 2 * x) with true by lia. replace (2 * x + zlen data <=? zlen d) with true by lia. cbn [andb].
    replace (Z.quot (2 * (2 * (x - 0)) + 2 * zlen data) 2) with (2 * x + zlen data)
      by (rewrite Z.quot_div_nonneg by lia; replace (2 * (2 * (x - 0)) + 2 * zlen data) with ((2 * x + zlen data) * 2) by lia; rewrite Z.div_mul; lia).
    replace (py_bound (2 * (x - 0)) d) with (2 * x) by (symmetry; rewrite pyb; lia).
    replace (py_bound (2 * x + zlen data) d) with (2 * x + zlen data) by (symmetry; rewrite pyb; lia).
    rewrite <- EB. unfold num_ltb. cbn [num2]. rewrite EW. cbn [num2]. replace (2 * 0 <? zlen data - zlen data) with false by lia. reflexivity.
  - assert (Hd : data = []) by (apply zlen_zero_nil; lia). assert (Hz : zlen data = 0) by (rewrite Hd; reflexivity).
    rewrite Hz. unfold num_ltb. cbn [num2]. replace (2 * 0 <? 0) with false by lia. f_equal. f_equal. f_equal.
    rewrite Hd. cbn [app]. rewrite Z.add_0_r. now rewrite ztake_zdrop.
Qed.
