(** * P_Crc: proofs for C22, C23. *)
From Verif Require Import Py P_List M_Crc S_Crc.
From Coq Require Import ZifyBool.

Definition reg16 (c : Z) : Prop := 0 <= c < 65536.

Lemma reg16_bits c : 0 <= c -> (reg16 c <-> forall n, 16 <= n -> Z.testbit c n = false).
Proof.
  intros Hc. unfold reg16. split.
  - intros H n Hn. destruct (Z.eq_dec c 0) as [->|]; [apply Z.bits_0|].
    apply Z.bits_above_log2; [lia|]. apply Z.log2_lt_pow2; [lia|].
    apply Z.lt_le_trans with (2 ^ 16); [lia|]. apply Z.pow_le_mono_r; lia.
  - intros H. split; [exact Hc|]. destruct (Z_lt_le_dec c 65536) as [|Hge]; [auto|exfalso].
    assert (Hl : 16 <= Z.log2 c) by (apply Z.log2_le_pow2; [lia|exact Hge]).
    specialize (H _ Hl). rewrite Z.bit_log2 in H by lia. discriminate.
Qed.
Lemma reg16_lxor a b : reg16 a -> reg16 b -> reg16 (Z.lxor a b).
Proof.
  intros Ha Hb. assert (H0 : 0 <= Z.lxor a b) by (apply Z.lxor_nonneg; unfold reg16 in *; lia).
  apply reg16_bits; [exact H0|]. intros n Hn. rewrite Z.lxor_spec.
  rewrite (proj1 (reg16_bits a ltac:(unfold reg16 in *; lia)) Ha n Hn).
  rewrite (proj1 (reg16_bits b ltac:(unfold reg16 in *; lia)) Hb n Hn). reflexivity.
Qed.

(** ** one bit: linear and injective *)
Definition b2z (b : bool) : Z := if b then 1 else 0.
Definition step0 (x : Z) : Z := if Z.odd x then Z.lxor (x / 2) 0xA001 else x / 2.
Lemma odd_lxor a b : Z.odd (Z.lxor a b) = xorb (Z.odd a) (Z.odd b).
Proof. rewrite <- !Z.bit0_odd. apply Z.lxor_spec. Qed.
Lemma div2_lxor a b : Z.lxor a b / 2 = Z.lxor (a / 2) (b / 2).
Proof.
  rewrite <- !Z.div2_div, !Z.div2_spec. apply Z.shiftr_lxor.
Qed.
Lemma b2z_div2 b : b2z b / 2 = 0. Proof. now destruct b. Qed.
Lemma b2z_odd b : Z.odd (b2z b) = b. Proof. now destruct b. Qed.

Lemma shift_bit_step0 c b : shift_bit c b = step0 (Z.lxor c (b2z b)).
Proof.
  unfold shift_bit, step0. rewrite odd_lxor, b2z_odd, div2_lxor, b2z_div2, Z.lxor_0_r. reflexivity.
Qed.
Lemma step0_lxor a b : step0 (Z.lxor a b) = Z.lxor (step0 a) (step0 b).
Proof.
  unfold step0. rewrite odd_lxor, div2_lxor.
  destruct (Z.odd a), (Z.odd b); cbn [xorb]; Z.bitwise;
    repeat match goal with |- context [Z.testbit ?x ?n] => destruct (Z.testbit x n) end; reflexivity.
Qed.
Lemma step0_even x : step0 (2 * x) = x.
Proof.
  unfold step0. rewrite Z.odd_mul. cbn [Z.odd andb]. rewrite Z.mul_comm. apply Z.div_mul. lia.
Qed.
Lemma step0_0 : step0 0 = 0. Proof. reflexivity. Qed.
Lemma step0_reg c : reg16 c -> reg16 (step0 c).
Proof.
  intros H. unfold step0. assert (Hd : reg16 (c / 2)).
  { unfold reg16 in *. split; [apply Z.div_pos; lia|apply Z.div_lt_upper_bound; lia]. }
  destruct (Z.odd c); [apply reg16_lxor; [exact Hd|unfold reg16; lia]|exact Hd].
Qed.
Lemma step0_inj0 c : reg16 c -> step0 c = 0 -> c = 0.
Proof.
  intros H. unfold step0. pose proof (Z.div2_odd c) as HD. rewrite Z.div2_div in HD.
  destruct (Z.odd c); cbn [Z.b2z] in HD.
  - intros E. apply Z.lxor_eq in E. unfold reg16 in H. lia.
  - lia.
Qed.

(** iterations *)
Fixpoint stepn (n : nat) (x : Z) : Z := match n with O => x | S k => stepn k (step0 x) end.
Lemma stepn_lxor n a b : stepn n (Z.lxor a b) = Z.lxor (stepn n a) (stepn n b).
Proof. revert a b; induction n; intros; cbn; [reflexivity|]. now rewrite step0_lxor. Qed.
Lemma stepn_add n m x : stepn n (stepn m x) = stepn (m + n) x.
Proof. revert x; induction m; intros; cbn [stepn Nat.add]; auto. Qed.
Lemma stepn_0 n : stepn n 0 = 0. Proof. induction n; cbn; auto. Qed.
Lemma stepn_reg n x : reg16 x -> reg16 (stepn n x).
Proof. revert x; induction n; intros; cbn; auto. apply IHn, step0_reg; auto. Qed.
Lemma stepn_inj0 n x : reg16 x -> stepn n x = 0 -> x = 0.
Proof.
  revert x; induction n; intros x Hx H; cbn in H; [exact H|].
  apply step0_inj0; [exact Hx|]. apply IHn; [now apply step0_reg|exact H].
Qed.
Lemma stepn_inj n x y : reg16 x -> reg16 y -> stepn n x = stepn n y -> x = y.
Proof.
  intros Hx Hy H. apply Z.lxor_eq. apply (stepn_inj0 n); [now apply reg16_lxor|].
  rewrite stepn_lxor, H. apply Z.lxor_nilpotent.
Qed.
Lemma stepn_shift n x : 0 <= x -> stepn n (x * 2 ^ Z.of_nat n) = x.
Proof.
  intros Hx. revert x Hx; induction n; intros x Hx; cbn [stepn].
  - cbn. lia.
  - rewrite Nat2Z.inj_succ, Z.pow_succ_r by lia.
    replace (x * (2 * 2 ^ Z.of_nat n)) with (2 * (x * 2 ^ Z.of_nat n)) by lia.
    rewrite step0_even. now apply IHn.
Qed.

(** ** the register as a function of a bit string *)
(** value of a bit string, first bit least significant *)
Fixpoint bits_value (l : list bool) : Z :=
  match l with [] => 0 | b :: r => Z.lxor (b2z b) (2 * bits_value r) end.
Lemma bits_value_nonneg l : 0 <= bits_value l.
Proof.
  induction l as [|b r IH]; cbn [bits_value]; [lia|].
  apply Z.lxor_nonneg. split; intros; destruct b; cbn [b2z]; lia.
Qed.
Lemma lxor_bit_double b v : 0 <= v -> Z.lxor (b2z b) (2 * v) = b2z b + 2 * v.
Proof.
  intros Hv. symmetry. apply Z.add_nocarry_lxor. Z.bitwise.
  destruct b; cbn [b2z]; [|now rewrite Z.bits_0].
  destruct (Z.eq_dec m 0) as [->|].
  - rewrite Z.testbit_even_0. apply andb_false_r.
  - change 1 with (2 ^ 0). rewrite Z.pow2_bits_false by lia. reflexivity.
Qed.
Lemma bits_value_bound l : bits_value l < 2 ^ Z.of_nat (length l).
Proof.
  induction l as [|b r IH]; cbn [bits_value length]; [reflexivity|].
  rewrite lxor_bit_double by apply bits_value_nonneg.
  rewrite Nat2Z.inj_succ, Z.pow_succ_r by lia. destruct b; cbn [b2z]; lia.
Qed.
Lemma bits_value_inj a b : length a = length b -> bits_value a = bits_value b -> a = b.
Proof.
  revert b; induction a as [|x a IH]; intros [|y b] HL HV; try discriminate; [reflexivity|].
  cbn [bits_value] in HV. rewrite !lxor_bit_double in HV by apply bits_value_nonneg.
  assert (x = y) as -> by (destruct x, y; cbn [b2z] in HV; auto; lia).
  f_equal. apply IH; [cbn in HL; lia|lia].
Qed.

(** shifting k bits in = xoring their value and stepping k times *)
Lemma fold_bits_value l c :
  0 <= c -> fold_left shift_bit l c = stepn (length l) (Z.lxor c (bits_value l)).
Proof.
  revert c; induction l as [|b r IH]; intros c Hc.
  - cbn. now rewrite Z.lxor_0_r.
  - cbn [fold_left length stepn bits_value]. rewrite IH.
    + rewrite shift_bit_step0. f_equal.
      rewrite <- Z.lxor_assoc. rewrite (step0_lxor (Z.lxor c (b2z b))). now rewrite step0_even.
    + rewrite shift_bit_step0. unfold step0.
      assert (0 <= Z.lxor c (b2z b)) by (apply Z.lxor_nonneg; split; intros; destruct b; cbn [b2z]; lia).
      destruct (Z.odd _); [apply Z.lxor_nonneg; split; [lia|intros _]|].
      * apply Z.div_pos; lia.
      * apply Z.div_pos; lia.
Qed.

(** ** C22 *)
Lemma testbit_byte b n : is_byte b -> 8 <= n -> Z.testbit b n = false.
Proof.
  intros [H1 H2] Hn. destruct (Z.eq_dec b 0) as [->|]; [apply Z.bits_0|].
  apply Z.bits_above_log2; [lia|]. apply Z.log2_lt_pow2; [lia|].
  apply Z.lt_le_trans with (2 ^ 8); [lia|]. apply Z.pow_le_mono_r; lia.
Qed.
Lemma byte_sweep (P : Z -> bool) : forallb P (zrange 256) = true -> forall b, is_byte b -> P b = true.
Proof.
  intros H b [H1 H2]. rewrite forallb_forall in H. apply H. unfold zrange. apply in_map_iff.
  exists (Z.to_nat b). split; [lia|]. apply in_seq. lia.
Qed.
Lemma byte_bits_value b : is_byte b -> bits_value (byte_bits b) = b.
Proof.
  intros Hb. apply Z.eqb_eq.
  apply (byte_sweep (fun b => bits_value (byte_bits b) =? b)); [vm_compute; reflexivity|exact Hb].
Qed.
Lemma table_entry_step8 b : is_byte b -> znth b crc16_table = stepn 8 b.
Proof.
  intros Hb. apply Z.eqb_eq.
  apply (byte_sweep (fun b => znth b crc16_table =? stepn 8 b)); [vm_compute; reflexivity|exact Hb].
Qed.

Lemma land_255 x : 0 <= x -> is_byte (Z.land x 255).
Proof.
  intros Hx. change 255 with (Z.ones 8). rewrite Z.land_ones by lia. red. apply Z.mod_pos_bound. lia.
Qed.
Lemma split_low_high x : 0 <= x -> x = Z.lxor (Z.land x 255) (x / 256 * 2 ^ 8).
Proof.
  intros Hx. change 255 with (Z.ones 8). rewrite Z.land_ones by lia. change (x / 256) with (x / 2 ^ 8).
  rewrite <- Z.add_nocarry_lxor.
  - pose proof (Z.div_mod x (2 ^ 8) ltac:(lia)). lia.
  - apply Z.bits_inj'. intros n Hn. rewrite Z.land_spec, Z.bits_0.
    destruct (Z_lt_le_dec n 8).
    + rewrite Z.mul_pow2_bits_low by lia. apply andb_false_r.
    + rewrite Z.mod_pow2_bits_high by lia. reflexivity.
Qed.
Lemma crc_step_stepn c b : reg16 c -> is_byte b -> crc_step c b = stepn 8 (Z.lxor c b).
Proof.
  intros Hc Hb. unfold crc_step.
  assert (H0 : 0 <= Z.lxor c b) by (apply Z.lxor_nonneg; unfold reg16, is_byte in *; lia).
  rewrite table_entry_step8 by now apply land_255.
  rewrite (split_low_high (Z.lxor c b) H0) at 2. rewrite stepn_lxor.
  change (2 ^ 8) with (2 ^ Z.of_nat 8). rewrite stepn_shift by (apply Z.div_pos; lia).
  rewrite Z.lxor_comm. f_equal.
  change 256 with (2 ^ 8). rewrite <- Z.shiftr_div_pow2 by lia.
  rewrite Z.shiftr_lxor. replace (Z.shiftr b 8) with 0.
  - rewrite Z.lxor_0_r. change 255 with (Z.ones 8). rewrite Z.land_ones by lia.
    rewrite Z.mod_small; [reflexivity|]. rewrite Z.shiftr_div_pow2 by lia. unfold reg16 in Hc.
    split; [apply Z.div_pos; lia|apply Z.div_lt_upper_bound; lia].
  - rewrite Z.shiftr_div_pow2 by lia. symmetry. apply Z.div_small. exact Hb.
Qed.
Lemma byte_reg16 b : is_byte b -> reg16 b.
Proof. unfold is_byte, reg16. lia. Qed.
Lemma shift_byte c b : reg16 c -> is_byte b -> fold_left shift_bit (byte_bits b) c = stepn 8 (Z.lxor c b).
Proof.
  intros Hc Hb. rewrite fold_bits_value by (unfold reg16 in *; lia). now rewrite byte_bits_value.
Qed.
Lemma step8_reg c b : reg16 c -> is_byte b -> reg16 (stepn 8 (Z.lxor c b)).
Proof. intros. apply stepn_reg, reg16_lxor; auto using byte_reg16. Qed.
Lemma crc_fold c d : reg16 c -> Forall is_byte d ->
  fold_left crc_step d c = fold_left shift_bit (all_bits d) c /\ reg16 (fold_left shift_bit (all_bits d) c).
Proof.
  intros Hc HB. revert c Hc. induction HB as [|b d Hb HB IH]; intros c Hc; [auto|].
  unfold all_bits in *. cbn [fold_left map concat]. rewrite fold_left_app.
  rewrite crc_step_stepn, shift_byte by auto. apply IH. now apply step8_reg.
Qed.
Lemma crc16_reg d : Forall is_byte d -> reg16 (crc16 d).
Proof. intros. apply (crc_fold 0xFFFF d); [unfold reg16; lia|auto]. Qed.

Lemma swap_bytes c : reg16 c ->
  Z.lor (Z.land (Z.shiftl c 8) 0xff00) (Z.land (Z.shiftr c 8) 0x00ff) = c mod 256 * 256 + c / 256.
Proof.
  intros Hc. unfold reg16 in Hc.
  assert (H1 : Z.land (Z.shiftl c 8) 0xff00 = c mod 256 * 256).
  { change 0xff00 with (Z.shiftl (Z.ones 8) 8). rewrite <- Z.shiftl_land, Z.land_ones by lia.
    rewrite Z.shiftl_mul_pow2 by lia. reflexivity. }
  assert (H2 : Z.land (Z.shiftr c 8) 0xff = c / 256).
  { change 0xff with (Z.ones 8). rewrite Z.land_ones by lia. rewrite Z.shiftr_div_pow2 by lia.
    apply Z.mod_small. change (2 ^ 8) with 256. split; [apply Z.div_pos; lia|apply Z.div_lt_upper_bound; lia]. }
  rewrite H1, H2. rewrite <- Z.lxor_lor.
  - symmetry. apply Z.add_nocarry_lxor.
    apply Z.bits_inj'. intros n Hn. rewrite Z.land_spec, Z.bits_0. change 256 with (2 ^ 8).
    destruct (Z_lt_le_dec n 8).
    + rewrite Z.mul_pow2_bits_low by lia. reflexivity.
    + rewrite (testbit_byte (c / 2 ^ 8) n); [apply andb_false_r| |lia].
      red. change (2 ^ 8) with 256. split; [apply Z.div_pos; lia|apply Z.div_lt_upper_bound; lia].
  - apply Z.bits_inj'. intros n Hn. rewrite Z.land_spec, Z.bits_0. change 256 with (2 ^ 8).
    destruct (Z_lt_le_dec n 8).
    + rewrite Z.mul_pow2_bits_low by lia. reflexivity.
    + rewrite (testbit_byte (c / 2 ^ 8) n); [apply andb_false_r| |lia].
      red. change (2 ^ 8) with 256. split; [apply Z.div_pos; lia|apply Z.div_lt_upper_bound; lia].
Qed.

Lemma computeCRC_spec d : Forall is_byte d ->
  computeCRC d = crc16 d mod 256 * 256 + crc16 d / 256.
Proof.
  intros HB. unfold computeCRC.
  destruct (crc_fold 0xFFFF d ltac:(unfold reg16; lia) HB) as [-> Hr].
  apply swap_bytes. exact Hr.
Qed.

(** the two bytes appended by struct.pack('>H', computeCRC(req)) *)
Lemma crc_bytes_spec d : Forall is_byte d ->
  be_bytes 2 (computeCRC d) = crc_bytes d /\ 0 <= computeCRC d < 65536 /\ Forall is_byte (crc_bytes d).
Proof.
  intros HB. rewrite computeCRC_spec by exact HB. pose proof (crc16_reg d HB) as Hr. unfold reg16 in Hr.
  pose proof (Z.mod_pos_bound (crc16 d) 256 ltac:(lia)).
  assert (0 <= crc16 d / 256 < 256) by (split; [apply Z.div_pos; lia|apply Z.div_lt_upper_bound; lia]).
  split; [|split; [lia|repeat constructor; lia]].
  cbn [be_bytes app]. unfold crc_bytes.
  rewrite Z.div_add_l by lia. rewrite (Z.div_small (crc16 d / 256)) by lia.
  rewrite Z.add_0_r, Z.mod_mod by lia.
  rewrite (Z.add_comm (_ * 256)), Z.mod_add by lia. rewrite (Z.mod_small (crc16 d / 256)) by lia. reflexivity.
Qed.

(** ** C23 *)
(** the whole frame drives the register to zero exactly when its CRC is right *)
Lemma frame_residue d x y : Forall is_byte d -> is_byte x -> is_byte y ->
  (crc16 (d ++ [x; y]) = 0 <-> [x; y] = crc_bytes d).
Proof.
  intros HB Hx Hy. unfold crc16 at 1, all_bits.
  rewrite map_app, concat_app, fold_left_app.
  change (fold_left shift_bit (concat (map byte_bits d)) 65535) with (crc16 d).
  pose proof (crc16_reg d HB) as Hr.
  cbn [map concat]. rewrite app_nil_r, fold_left_app.
  rewrite !shift_byte by (rewrite ?shift_byte by auto; auto using step8_reg).
  (* stepn 8 (stepn 8 (c ^ x) ^ y) = stepn 16 (c ^ (x + 256 y)) *)
  assert (Ey : y = stepn 8 (y * 256)).
  { change 256 with (2 ^ Z.of_nat 8). rewrite stepn_shift; [reflexivity|unfold is_byte in Hy; lia]. }
  rewrite Ey at 1. rewrite <- stepn_lxor.
  rewrite stepn_add.
  assert (Hxy : Z.lxor x (y * 256) = x + y * 256).
  { symmetry. apply Z.add_nocarry_lxor. apply Z.bits_inj'. intros n Hn. rewrite Z.land_spec, Z.bits_0.
    change 256 with (2 ^ 8). destruct (Z_lt_le_dec n 8).
    - rewrite (Z.mul_pow2_bits_low y) by lia. apply andb_false_r.
    - rewrite (testbit_byte x n Hx) by lia. reflexivity. }
  rewrite Z.lxor_assoc, Hxy.
  assert (Hs : reg16 (x + y * 256)) by (unfold reg16, is_byte in *; lia).
  unfold crc_bytes. unfold reg16 in Hr. unfold is_byte in *.
  split.
  - intros H0. apply stepn_inj0 in H0; [|apply reg16_lxor; [exact Hr|exact Hs]].
    apply Z.lxor_eq in H0. rewrite H0.
    rewrite Z.mod_add, Z.mod_small by lia. rewrite Z.div_add by lia. rewrite Z.div_small by lia. reflexivity.
  - intros [= E1 E2]. replace (x + y * 256) with (crc16 d).
    + rewrite Z.lxor_nilpotent. apply stepn_0.
    + rewrite E1, E2. pose proof (Z.div_mod (crc16 d) 256 ltac:(lia)). lia.
Qed.

Lemma frame_split (f : list Z) : (2 <= length f)%nat -> exists d x y, f = d ++ [x; y].
Proof.
  intros H. exists (firstn (length f - 2) f).
  destruct (skipn (length f - 2) f) as [|x [|y [|z r]]] eqn:E;
    pose proof (f_equal (@length Z) E) as EL; rewrite skipn_length in EL; cbn in EL; try lia.
  exists x, y. rewrite <- E. symmetry. apply firstn_skipn.
Qed.
Lemma frame_ok_residue f : Forall is_byte f -> (2 <= length f)%nat -> (frame_ok f <-> crc16 f = 0).
Proof.
  intros HB HL. destruct (frame_split f HL) as (d & x & y & ->).
  apply Forall_app in HB as [HB HB2]. inversion HB2; subst. inversion H2; subst.
  rewrite frame_residue by auto. split.
  - intros [d' E]. unfold crc_bytes in E.
    assert (EL := f_equal (@length Z) E). rewrite !app_length in EL. cbn in EL.
    assert (d = d' /\ [x; y] = crc_bytes d') as [-> HE].
    { apply (f_equal (@rev Z)) in E. rewrite !rev_app_distr in E. cbn in E.
      injection E as -> -> E. apply (f_equal (@rev Z)) in E. rewrite !rev_involutive in E. now subst. }
    exact HE.
  - intros E. exists d. now rewrite E.
Qed.

(** bursts: two bit strings that agree outside a window of at most 16 bits *)
Lemma burst_state c p w w' s :
  reg16 c -> length w = length w' -> (length w <= 16)%nat -> w <> w' ->
  fold_left shift_bit (p ++ w ++ s) c <> fold_left shift_bit (p ++ w' ++ s) c.
Proof.
  intros Hc HL H16 Hne. rewrite !fold_left_app.
  assert (Hreg : forall l c, reg16 c -> reg16 (fold_left shift_bit l c)).
  { intros l. induction l as [|b l IH]; intros c0 H0; cbn; [exact H0|]. apply IH.
    rewrite shift_bit_step0. apply step0_reg, reg16_lxor; [exact H0|]. destruct b; cbn; unfold reg16; lia. }
  set (c1 := fold_left shift_bit p c). assert (H1 : reg16 c1) by (apply Hreg; exact Hc).
  assert (Hw : forall l, (length l <= 16)%nat -> reg16 (bits_value l)).
  { intros l Hl. pose proof (bits_value_bound l). pose proof (bits_value_nonneg l). unfold reg16.
    split; [lia|]. eapply Z.lt_le_trans; [exact H|]. change 65536 with (2 ^ 16). apply Z.pow_le_mono_r; lia. }
  assert (H2 : fold_left shift_bit w c1 <> fold_left shift_bit w' c1).
  { rewrite !fold_bits_value by (unfold reg16 in H1; lia). rewrite <- HL. intros E.
    apply stepn_inj in E; try (apply reg16_lxor; [exact H1|apply Hw; lia]).
    apply Hne, bits_value_inj; [exact HL|].
    apply (f_equal (Z.lxor c1)) in E. rewrite <- !Z.lxor_assoc, Z.lxor_nilpotent, !Z.lxor_0_l in E. exact E. }
  intros E. apply H2. clear H2.
  assert (Hinj : forall l a b, reg16 a -> reg16 b -> fold_left shift_bit l a = fold_left shift_bit l b -> a = b).
  { clear. induction l as [|x l IH]; intros a b Ha Hb E; [exact E|]. cbn [fold_left] in E.
    assert (Hx : reg16 (b2z x)) by (destruct x; cbn; unfold reg16; lia).
    apply IH in E; [|rewrite shift_bit_step0; apply step0_reg, reg16_lxor; auto..].
    rewrite !shift_bit_step0 in E.
    apply (stepn_inj 1) in E; try (apply reg16_lxor; auto).
    apply (f_equal (fun z => Z.lxor z (b2z x))) in E.
    rewrite !Z.lxor_assoc, Z.lxor_nilpotent, !Z.lxor_0_r in E. exact E. }
  eapply Hinj; [| |exact E]; apply Hreg; exact H1.
Qed.

Lemma all_bits_app a b : all_bits (a ++ b) = all_bits a ++ all_bits b.
Proof. unfold all_bits. now rewrite map_app, concat_app. Qed.
Lemma all_bits_length d : length (all_bits d) = (8 * length d)%nat.
Proof. unfold all_bits. induction d; cbn [map concat length]; [reflexivity|]. rewrite app_length, IHd. cbn. lia. Qed.
Lemma all_bits_inj a b : Forall is_byte a -> Forall is_byte b -> length a = length b -> all_bits a = all_bits b -> a = b.
Proof.
  intros Ha. revert b. induction Ha as [|x a Hx Ha IH]; intros [|y b] Hb HL E; try discriminate; [reflexivity|].
  inversion Hb; subst. unfold all_bits in E. cbn [map concat] in E.
  assert (E1 : byte_bits x = byte_bits y /\ all_bits a = all_bits b).
  { split.
    - apply (f_equal (firstn 8)) in E. exact E.
    - apply (f_equal (skipn 8)) in E. exact E. }
  destruct E1 as [E1 E2]. f_equal.
  - rewrite <- (byte_bits_value x Hx), <- (byte_bits_value y H1). now rewrite E1.
  - apply IH; auto.
Qed.

(** altered bits within a window of 16 consecutive bits of a valid frame *)
Lemma burst_detected f g p w w' s :
  Forall is_byte f -> Forall is_byte g -> (2 <= length f)%nat ->
  frame_ok f -> all_bits f = p ++ w ++ s -> all_bits g = p ++ w' ++ s ->
  length w = length w' -> (length w <= 16)%nat -> w <> w' -> ~ frame_ok g.
Proof.
  intros HF HG HL Hok Ef Eg HW H16 Hne Hg.
  assert (HLg : (2 <= length g)%nat).
  { pose proof (all_bits_length f). pose proof (all_bits_length g). rewrite Ef in H. rewrite Eg in H0.
    rewrite !app_length in *. lia. }
  apply frame_ok_residue in Hok; auto. apply frame_ok_residue in Hg; auto.
  unfold crc16 in *. rewrite Ef in Hok. rewrite Eg in Hg.
  apply (burst_state 0xFFFF p w w' s) in HW; auto; [congruence|unfold reg16; lia].
Qed.

(** one or two adjacent altered bytes *)
Lemma adjacent_bytes_detected p x y x' y' s :
  Forall is_byte (p ++ [x; y] ++ s) -> Forall is_byte (p ++ [x'; y'] ++ s) ->
  frame_ok (p ++ [x; y] ++ s) -> [x; y] <> [x'; y'] -> ~ frame_ok (p ++ [x'; y'] ++ s).
Proof.
  intros HF HG Hok Hne.
  assert (Hxy : Forall is_byte [x; y] /\ Forall is_byte [x'; y']).
  { apply Forall_app in HF as [_ HF]. apply Forall_app in HF as [HF _].
    apply Forall_app in HG as [_ HG]. apply Forall_app in HG as [HG _]. auto. }
  destruct Hxy as [Hxy Hxy'].
  eapply (burst_detected _ _ (all_bits p) (all_bits [x; y]) (all_bits [x'; y']) (all_bits s));
    [exact HF|exact HG| |exact Hok| | | | |].
  - rewrite !app_length. cbn. lia.
  - now rewrite !all_bits_app.
  - now rewrite !all_bits_app.
  - now rewrite !all_bits_length.
  - rewrite all_bits_length. cbn. lia.
  - intros E. apply Hne, all_bits_inj; auto.
Qed.
Lemma one_byte_detected p x x' s :
  Forall is_byte (p ++ [x] ++ s) -> Forall is_byte (p ++ [x'] ++ s) -> (2 <= length (p ++ [x] ++ s))%nat ->
  frame_ok (p ++ [x] ++ s) -> x <> x' -> ~ frame_ok (p ++ [x'] ++ s).
Proof.
  intros HF HG HL Hok Hne.
  assert (Hx : Forall is_byte [x] /\ Forall is_byte [x']).
  { apply Forall_app in HF as [_ HF]. apply Forall_app in HF as [HF _].
    apply Forall_app in HG as [_ HG]. apply Forall_app in HG as [HG _]. auto. }
  destruct Hx as [Hx Hx'].
  eapply (burst_detected _ _ (all_bits p) (all_bits [x]) (all_bits [x']) (all_bits s));
    [exact HF|exact HG|exact HL|exact Hok| | | | |].
  - now rewrite !all_bits_app.
  - now rewrite !all_bits_app.
  - now rewrite !all_bits_length.
  - rewrite all_bits_length. cbn. lia.
  - intros E. apply all_bits_inj in E; auto. congruence.
Qed.

(** ** parity: odd numbers of altered bits *)
Definition parity (l : list bool) : bool := fold_left xorb l false.
Fixpoint zparity_n (n : nat) (x : Z) : bool :=
  match n with O => false | S k => xorb (Z.testbit x (Z.of_nat k)) (zparity_n k x) end.
Definition p16 (x : Z) : bool := zparity_n 16 x.
Lemma zparity_lxor n a b : zparity_n n (Z.lxor a b) = xorb (zparity_n n a) (zparity_n n b).
Proof.
  induction n; [reflexivity|]. cbn [zparity_n]. rewrite Z.lxor_spec, IHn.
  destruct (Z.testbit a (Z.of_nat n)), (Z.testbit b (Z.of_nat n)), (zparity_n n a), (zparity_n n b); reflexivity.
Qed.
Lemma zparity_half n c : zparity_n n (c / 2) = xorb (zparity_n (S n) c) (Z.odd c).
Proof.
  induction n as [|n IH].
  - cbn [zparity_n]. change (Z.of_nat 0) with 0. rewrite Z.bit0_odd. destruct (Z.odd c); reflexivity.
  - change (zparity_n (S n) (c / 2)) with (xorb (Z.testbit (c / 2) (Z.of_nat n)) (zparity_n n (c / 2))).
    rewrite IH. change (zparity_n (S (S n)) c) with (xorb (Z.testbit c (Z.of_nat (S n))) (zparity_n (S n) c)).
    replace (Z.testbit (c / 2) (Z.of_nat n)) with (Z.testbit c (Z.of_nat (S n))).
    + now rewrite xorb_assoc.
    + change (c / 2) with (c / 2 ^ 1). rewrite Z.div_pow2_bits by lia. f_equal. lia.
Qed.
Lemma p16_step0 c : reg16 c -> p16 (step0 c) = p16 c.
Proof.
  intros Hc.
  assert (Hh : p16 (c / 2) = xorb (p16 c) (Z.odd c)).
  { unfold p16. rewrite zparity_half. cbn [zparity_n].
    rewrite (proj1 (reg16_bits c ltac:(unfold reg16 in Hc; lia)) Hc (Z.of_nat 16)) by lia.
    now rewrite xorb_false_l. }
  unfold step0. destruct (Z.odd c).
  - unfold p16 in *. rewrite zparity_lxor, Hh. change (zparity_n 16 40961) with true.
    destruct (zparity_n 16 c); reflexivity.
  - rewrite Hh. now rewrite xorb_false_r.
Qed.
Lemma fold_xorb l a : fold_left xorb l a = xorb a (parity l).
Proof.
  unfold parity. revert a; induction l as [|b l IH]; intros a; cbn; [now rewrite xorb_false_r|].
  rewrite (IH (xorb a b)). rewrite (IH b) || rewrite (IH (if b then true else false)).
  destruct a, b, (fold_left xorb l false); reflexivity.
Qed.
Lemma parity_cons b l : parity (b :: l) = xorb b (parity l).
Proof. unfold parity. cbn [fold_left]. rewrite fold_xorb. now rewrite xorb_false_l. Qed.
Lemma p16_fold l c : reg16 c -> p16 (fold_left shift_bit l c) = xorb (p16 c) (parity l).
Proof.
  revert c; induction l as [|b l IH]; intros c Hc; cbn [fold_left].
  - unfold parity; cbn [fold_left]. now rewrite xorb_false_r.
  - assert (Hb : reg16 (b2z b)) by (destruct b; cbn; unfold reg16; lia).
    rewrite shift_bit_step0. rewrite IH by (apply step0_reg, reg16_lxor; auto).
    rewrite p16_step0 by (apply reg16_lxor; auto). unfold p16. rewrite zparity_lxor.
    rewrite parity_cons. replace (zparity_n 16 (b2z b)) with b by (destruct b; reflexivity).
    now rewrite xorb_assoc.
Qed.
Lemma bit_diff_parity a b : length a = length b ->
  Nat.odd (bit_diff a b) = xorb (parity a) (parity b).
Proof.
  revert b; induction a as [|x a IH]; intros [|y b] HL; try discriminate; [reflexivity|].
  cbn [bit_diff]. rewrite Nat.odd_add, IH by (cbn in HL; lia). rewrite !parity_cons.
  destruct x, y, (parity a), (parity b); reflexivity.
Qed.
Lemma odd_bits_detected f g :
  Forall is_byte f -> Forall is_byte g -> length f = length g -> (2 <= length f)%nat ->
  frame_ok f -> Nat.odd (bit_diff (all_bits f) (all_bits g)) = true -> ~ frame_ok g.
Proof.
  intros HF HG HL H2 Hok Hodd Hg.
  apply frame_ok_residue in Hok; auto. apply frame_ok_residue in Hg; auto; [|lia].
  rewrite bit_diff_parity in Hodd by (rewrite !all_bits_length; lia).
  assert (H16 : reg16 0xFFFF) by (unfold reg16; lia).
  pose proof (p16_fold (all_bits f) 0xFFFF H16) as Pf. fold (crc16 f) in Pf. rewrite Hok in Pf.
  pose proof (p16_fold (all_bits g) 0xFFFF H16) as Pg. fold (crc16 g) in Pg. rewrite Hg in Pg.
  change (p16 0) with false in *. change (p16 65535) with false in *. rewrite xorb_false_l in *.
  rewrite <- Pf, <- Pg in Hodd. discriminate.
Qed.

(** the check the client makes: data d received with the two trailing bytes x, y *)
Lemma checkCRC_frame d x y : Forall is_byte d -> is_byte x -> is_byte y ->
  (checkCRC d (be_int [x; y]) = true <-> frame_ok (d ++ [x; y])).
Proof.
  intros Hd Hx Hy. unfold checkCRC. rewrite Z.eqb_eq, computeCRC_spec by exact Hd.
  rewrite frame_ok_residue, frame_residue; auto.
  2:{ apply Forall_app; split; auto. }
  2:{ rewrite app_length. cbn [length]. lia. }
  pose proof (crc16_reg d Hd) as Hr. unfold reg16 in Hr. unfold crc_bytes, is_byte in *.
  pose proof (Z.mod_pos_bound (crc16 d) 256 ltac:(lia)).
  assert (0 <= crc16 d / 256 < 256) by (split; [apply Z.div_pos; lia|apply Z.div_lt_upper_bound; lia]).
  unfold be_int. cbn [fold_left]. split.
  - intros E. assert (x = crc16 d mod 256) by lia. assert (y = crc16 d / 256) by lia. congruence.
  - intros [= E1 E2]. lia.
Qed.
