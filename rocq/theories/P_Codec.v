(** * P_Codec: proofs for the codec properties C01-C06. *)
From Coq Require Import String.
From Verif Require Import Py P_List M_Util M_Float M_Suns S_Codec.
From Coq Require Import ZifyBool.

(** ** C01 *)
Lemma fold_be acc r : fold_left (fun a b => a * 256 + b) r acc = acc * 256 ^ zlen r + be_int r.
Proof.
  revert acc; induction r as [|b r IH]; intros acc.
  - cbn. change (256 ^ zlen (@nil Z)) with 1. unfold be_int; cbn; lia.
  - cbn [fold_left]. rewrite IH. unfold be_int at 2. cbn [fold_left]. rewrite IH.
    rewrite zlen_cons. rewrite Z.pow_add_r by (pose proof (zlen_nonneg r); lia). lia.
Qed.
Lemma positional_be_int d : positional d = be_int d.
Proof.
  induction d as [|b r IH]; [reflexivity|]. cbn [positional]. rewrite IH.
  unfold be_int at 2. cbn [fold_left]. rewrite fold_be. lia.
Qed.

Lemma pow256_even w : 0 < w -> 256 ^ w = 2 * (256 ^ w / 2).
Proof.
  intros. replace w with (Z.succ (w - 1)) by lia. rewrite Z.pow_succ_r by lia.
  replace (256 * 256 ^ (w - 1)) with ((128 * 256 ^ (w - 1)) * 2) by lia.
  rewrite Z.div_mul by lia. lia.
Qed.
Lemma half_pow w : 0 < w -> 2 ^ (8 * w - 1) = 256 ^ w / 2.
Proof.
  intros. rewrite pow256 by lia.
  replace (2 ^ (8 * w)) with (2 ^ (8 * w - 1) * 2).
  - rewrite Z.div_mul; lia.
  - rewrite Z.mul_comm, <- Z.pow_succ_r by lia. f_equal; lia.
Qed.

Definition width_ok (w : nat) := (0 < w)%nat.

Lemma in_range_test w sgn v :
  (0 < w)%nat ->
  ((int_lo w sgn <=? v) && (v <=? int_hi w sgn))%bool = true <-> in_range (Z.of_nat w) sgn v.
Proof.
  intros Hw. unfold int_lo, int_hi, in_range.
  pose proof (half_pow (Z.of_nat w) ltac:(lia)). pose proof (pow256 (Z.of_nat w) ltac:(lia)).
  destruct sgn; rewrite ?H; rewrite <- ?H0; lia.
Qed.

Lemma pack_int_spec w sgn v d :
  (0 < w)%nat -> pack_int w sgn v = Ok d <-> represents (Z.of_nat w) sgn v d.
Proof.
  intros Hw. unfold pack_int.
  pose proof (in_range_test w sgn v Hw) as HT.
  pose proof (pow256_even (Z.of_nat w) ltac:(lia)) as HE.
  assert (Hpos : 0 < 256 ^ Z.of_nat w) by (apply Z.pow_pos_nonneg; lia).
  unfold represents. rewrite positional_be_int.
  destruct ((int_lo w sgn <=? v) && (v <=? int_hi w sgn))%bool eqn:E.
  - apply proj1 in HT. specialize (HT eq_refl). split.
    + intros [= <-]. rewrite be_bytes_zlen, be_int_be_bytes.
      split; [reflexivity|]. split; [apply be_bytes_bytes|].
      unfold in_range in HT. destruct sgn; [split; [exact HT|]|rewrite Z.mod_small by lia; lia].
      destruct (Z.ltb_spec v 0).
      * rewrite <- (Z_mod_plus_full v 1), Z.mul_1_l. rewrite Z.mod_small; lia.
      * rewrite Z.mod_small; lia.
    + intros (Hlen & Hb & Hv). f_equal.
      assert (Hl : length d = w) by (unfold zlen in Hlen; lia).
      rewrite <- (be_bytes_be_int d Hb), Hl.
      destruct sgn; [|subst v; reflexivity]. destruct Hv as [_ ->].
      destruct (v <? 0); [|reflexivity].
      rewrite <- (be_bytes_mod w (v + _)). rewrite <- (Z.mul_1_l (256 ^ Z.of_nat w)) at 1.
      rewrite Z_mod_plus_full. symmetry; apply be_bytes_mod.
  - split; [discriminate|]. intros (Hlen & Hb & Hv). exfalso.
    enough (HR : in_range (Z.of_nat w) sgn v) by (apply HT in HR; discriminate HR). unfold in_range.
    destruct sgn; [apply Hv|]. pose proof (be_int_bound d Hb). rewrite Hlen in *. lia.
Qed.

Lemma pack_int_reject w sgn v :
  (0 < w)%nat -> ~ in_range (Z.of_nat w) sgn v -> pack_int w sgn v = Raise EStruct.
Proof.
  intros Hw Hr. unfold pack_int. rewrite <- (in_range_test w sgn v Hw) in Hr.
  destruct (_ && _)%bool; [congruence|reflexivity].
Qed.
Lemma pack_int_accept w sgn v :
  (0 < w)%nat -> in_range (Z.of_nat w) sgn v -> pack_int w sgn v = Ok (be_bytes w v).
Proof.
  intros Hw Hr. unfold pack_int. rewrite <- (in_range_test w sgn v Hw) in Hr.
  rewrite Hr; reflexivity.
Qed.

Lemma unpack_int_spec w sgn d v :
  (0 < w)%nat -> Forall is_byte d ->
  (unpack_int w sgn d = Ok v <-> represents (Z.of_nat w) sgn v d).
Proof.
  intros Hw Hb. unfold unpack_int, represents. rewrite positional_be_int.
  pose proof (be_int_bound d Hb) as HB.
  pose proof (pow256_even (Z.of_nat w) ltac:(lia)) as HE.
  rewrite half_pow by lia. rewrite <- pow256 by lia.
  destruct (Nat.eqb_spec (length d) w) as [Hl|Hl].
  - assert (Hz : zlen d = Z.of_nat w) by (unfold zlen; lia). rewrite Hz in *.
    destruct sgn; cbn [andb].
    + destruct (Z.leb_spec (256 ^ Z.of_nat w / 2) (be_int d)).
      * split.
        -- intros [= <-]. split; [reflexivity|]. split; [exact Hb|].
           split; [lia|]. destruct (Z.ltb_spec (be_int d - 256 ^ Z.of_nat w) 0); lia.
        -- intros (_ & _ & Hv & He). f_equal. destruct (v <? 0) eqn:Ev; lia.
      * split.
        -- intros [= <-]. split; [reflexivity|]. split; [exact Hb|].
           split; [lia|]. destruct (Z.ltb_spec (be_int d) 0); lia.
        -- intros (_ & _ & Hv & He). f_equal. destruct (v <? 0) eqn:Ev; lia.
    + split; [intros [= <-]; auto|intros (_ & _ & ->); reflexivity].
  - split; [discriminate|]. intros (Hz & _). unfold zlen in Hz. lia.
Qed.

Lemma unpack_int_reject w sgn d :
  zlen d <> Z.of_nat w -> unpack_int w sgn d = Raise EStruct.
Proof.
  unfold unpack_int, zlen; intros. destruct (Nat.eqb_spec (length d) w); [lia|reflexivity].
Qed.
Lemma unpack_int_total w sgn d :
  zlen d = Z.of_nat w -> exists v, unpack_int w sgn d = Ok v.
Proof.
  unfold unpack_int, zlen; intros. destruct (Nat.eqb_spec (length d) w); [eauto|lia].
Qed.

(** the full statement of C01 for one codec *)
Definition codec_exact (w : Z) (sgn : bool) (enc : Z -> res bytes) (dec : bytes -> res Z) : Prop :=
  (forall v d, enc v = Ok d <-> represents w sgn v d) /\
  (forall d v, Forall is_byte d -> (dec d = Ok v <-> represents w sgn v d)) /\
  (forall v, in_range w sgn v -> exists d, enc v = Ok d /\ dec d = Ok v /\ zlen d = w) /\
  (forall d, Forall is_byte d -> zlen d = w -> exists v, dec d = Ok v /\ enc v = Ok d) /\
  (forall v, ~ in_range w sgn v -> enc v = Raise EStruct) /\
  (forall d, zlen d <> w -> dec d = Raise EStruct).

Lemma codec_exact_int w sgn :
  (0 < w)%nat -> codec_exact (Z.of_nat w) sgn (pack_int w sgn) (unpack_int w sgn).
Proof.
  intros Hw. unfold codec_exact. split; [|split; [|split; [|split; [|split]]]].
  - intros; apply pack_int_spec; auto.
  - intros; apply unpack_int_spec; auto.
  - intros v Hr. exists (be_bytes w v). pose proof (pack_int_accept w sgn v Hw Hr) as HP.
    split; [exact HP|]. split; [|apply be_bytes_zlen].
    apply unpack_int_spec; [auto|apply be_bytes_bytes|]. apply pack_int_spec; auto.
  - intros d Hb Hl. destruct (unpack_int_total w sgn d Hl) as [v Hv]. exists v. split; [exact Hv|].
    apply pack_int_spec; auto. apply unpack_int_spec in Hv; auto.
  - intros; apply pack_int_reject; auto.
  - intros; apply unpack_int_reject; auto.
Qed.

(** ** C02/C03 strings *)
Lemma pack_s_ok n s : 0 <= n -> pack_s n s = Ok (ztake n s ++ repeat 0 (Z.to_nat (n - zlen s))).
Proof. unfold pack_s; intros. destruct (Z.ltb_spec n 0); [lia|reflexivity]. Qed.
Lemma pack_s_zlen n s d : pack_s n s = Ok d -> zlen d = n.
Proof.
  unfold pack_s. destruct (Z.ltb_spec n 0); [discriminate|]. intros [= <-].
  rewrite zlen_app, zlen_repeat, zlen_ztake by lia. pose proof (zlen_nonneg s). lia.
Qed.

Lemma rstrip0_repeat k : rstrip0 (repeat 0 k) = [].
Proof. induction k; cbn; [reflexivity|]. rewrite IHk. reflexivity. Qed.
Lemma rstrip0_app_zeros s k : rstrip0 (s ++ repeat 0 k) = rstrip0 s.
Proof.
  induction s as [|c s IH]; cbn [app rstrip0]; [apply rstrip0_repeat|]. now rewrite IH.
Qed.
Lemma rstrip0_id s : ~ ends_in_nul s -> rstrip0 s = s.
Proof.
  induction s as [|c s IH]; intros H; [reflexivity|]. cbn [rstrip0].
  destruct s as [|c' s'].
  - cbn. destruct (Z.eqb_spec c 0); [|reflexivity]. exfalso; apply H; exists []; subst; reflexivity.
  - rewrite IH.
    + reflexivity.
    + intros [r Hr]. apply H. exists (c :: r). rewrite Hr. reflexivity.
Qed.
Lemma rstrip0_decomp s : exists k, s = rstrip0 s ++ repeat 0 k.
Proof.
  induction s as [|c s [k IH]]; [exists O; reflexivity|]. cbn [rstrip0].
  destruct (rstrip0 s) as [|c' r'] eqn:E.
  - destruct (Z.eqb_spec c 0).
    + exists (S k). cbn. rewrite IH at 1. subst; reflexivity.
    + exists k. cbn. rewrite IH at 1. reflexivity.
  - exists k. rewrite IH at 1. reflexivity.
Qed.
Lemma rstrip0_zlen_le s : zlen (rstrip0 s) <= zlen s.
Proof.
  destruct (rstrip0_decomp s) as [k Hk]. rewrite Hk at 2. rewrite zlen_app, zlen_repeat. lia.
Qed.

Lemma str_to_data_latin1 s n :
  latin1 s -> 0 <= n ->
  str_to_data s (Some n) =
    if n <? 16 then Ok (ztake (n + 1) (s ++ [0]) ++ repeat 0 (Z.to_nat (n - zlen s)))
    else Ok (ztake n s ++ repeat 0 (Z.to_nat (n - zlen s))).
Proof.
  intros HL Hn. unfold str_to_data, latin1_encode. rewrite (proj2 (forallb_is_byte s)) by exact HL.
  cbn [bind]. destruct (n <? 16).
  - rewrite pack_s_ok by lia. rewrite zlen_app. do 4 f_equal. unfold zlen; cbn; lia.
  - now rewrite pack_s_ok by lia.
Qed.

Lemma data_to_str_pad s k : s <> [] -> ~ ends_in_nul s -> data_to_str (s ++ repeat 0 k) = s.
Proof.
  intros Hne He. destruct s as [|c s]; [congruence|]. clear Hne.
  unfold data_to_str. cbn [app].
  assert (Hs : rstrip0 (s ++ repeat 0 k) = s).
  { rewrite rstrip0_app_zeros. destruct s as [|c' s']; [reflexivity|]. apply rstrip0_id.
    intros [r Hr]; apply He; exists (c :: r); now rewrite Hr. }
  destruct (s ++ repeat 0 k) eqn:E.
  - cbn in Hs. now rewrite <- Hs.
  - now rewrite Hs.
Qed.

Lemma string_roundtrip s n :
  latin1 s -> s <> [] -> ~ ends_in_nul s -> zlen s <= n ->
  exists d, str_to_data s (Some n) = Ok d /\ data_to_str d = s.
Proof.
  intros HL Hne He Hn. pose proof (zlen_nonneg s).
  rewrite str_to_data_latin1 by (auto; lia).
  destruct (n <? 16); eexists; (split; [reflexivity|]).
  - rewrite ztake_all by (rewrite zlen_app; unfold zlen in *; cbn; lia).
    rewrite <- app_assoc. change ([0] ++ ?r) with (0 :: r). change (0 :: repeat 0 ?k) with (repeat 0 (S k)).
    apply data_to_str_pad; auto.
  - rewrite ztake_all by lia. apply data_to_str_pad; auto.
Qed.

Lemma string_truncates s n :
  latin1 s -> 16 <= n -> n <= zlen s -> str_to_data s (Some n) = Ok (ztake n s).
Proof.
  intros HL Hn Hl. rewrite str_to_data_latin1 by (auto; lia).
  destruct (Z.ltb_spec n 16); [lia|].
  replace (Z.to_nat (n - zlen s)) with O by lia. cbn [repeat]. now rewrite app_nil_r.
Qed.

Lemma string_rejects s n : ~ latin1 s -> str_to_data s n = Raise EUnicode.
Proof.
  intros H. unfold str_to_data, latin1_encode.
  destruct (forallb is_byteb s) eqn:E; [|reflexivity]. exfalso; apply H, forallb_is_byte, E.
Qed.

Lemma string_size s n d :
  16 <= n -> str_to_data s (Some n) = Ok d -> zlen d = n.
Proof.
  unfold str_to_data. intros Hn Hd. apply bind_ok in Hd as (b & _ & Hd).
  destruct (Z.ltb_spec n 16); [lia|]. eapply pack_s_zlen; eauto.
Qed.
Lemma string_size_small s n d :
  0 <= n < 16 -> str_to_data s (Some n) = Ok d -> zlen d = n + 1.
Proof.
  unfold str_to_data. intros Hn Hd. apply bind_ok in Hd as (b & _ & Hd).
  destruct (Z.ltb_spec n 16); [|lia]. eapply pack_s_zlen; eauto.
Qed.

(** re-encoding decoded registers *)
Lemma data_to_str_latin1 d : Forall is_byte d -> latin1 (data_to_str d).
Proof.
  intros H. unfold data_to_str. destruct d as [|c [|c' r]]; auto.
  constructor; [now inversion H|]. destruct (rstrip0_decomp (c' :: r)) as [k Hk].
  inversion H; subst. rewrite Hk in H3. apply Forall_app in H3. apply H3.
Qed.
Lemma data_to_str_decomp d : exists k, d = data_to_str d ++ repeat 0 k.
Proof.
  unfold data_to_str. destruct d as [|c [|c' r]]; [exists O; reflexivity|exists O; reflexivity|].
  destruct (rstrip0_decomp (c' :: r)) as [k Hk]. exists k. rewrite Hk at 1. reflexivity.
Qed.
Lemma string_reencode d n :
  Forall is_byte d -> zlen d = n -> 16 <= n ->
  str_to_data (data_to_str d) (Some n) = Ok d.
Proof.
  intros HB Hl Hn. rewrite str_to_data_latin1 by (auto using data_to_str_latin1; lia).
  destruct (Z.ltb_spec n 16); [lia|].
  destruct (data_to_str_decomp d) as [k Hk].
  assert (zlen d = zlen (data_to_str d) + Z.of_nat k).
  { rewrite Hk at 1. now rewrite zlen_app, zlen_repeat. }
  rewrite ztake_all by lia. rewrite Hk at 3. do 3 f_equal. lia.
Qed.

(** ** C04/C05 hexadecimal text *)
Lemma hex_digit_up_nth n : 0 <= n < 16 -> hex_digit_up n = nth (Z.to_nat n) hex_upper 0.
Proof.
  intros. assert (n = 0 \/ n = 1 \/ n = 2 \/ n = 3 \/ n = 4 \/ n = 5 \/ n = 6 \/ n = 7 \/ n = 8 \/
    n = 9 \/ n = 10 \/ n = 11 \/ n = 12 \/ n = 13 \/ n = 14 \/ n = 15) by lia.
  repeat match goal with H : _ \/ _ |- _ => destruct H as [->|H]; [reflexivity|] end.
  subst; reflexivity.
Qed.
Lemma hex2_up_pair b : is_byte b -> hex2_up b = hex_pair b.
Proof.
  intros [H1 H2]. unfold hex2_up, hex_pair.
  rewrite !hex_digit_up_nth; [reflexivity| |].
  - apply Z.mod_pos_bound; lia.
  - split; [apply Z.div_pos; lia|apply Z.div_lt_upper_bound; lia].
Qed.
Lemma hex_all_pairs d : Forall is_byte d -> hex_all d = concat (map hex_pair d).
Proof.
  induction 1; [reflexivity|]. cbn [hex_all map concat]. rewrite hex2_up_pair by auto.
  now rewrite IHForall.
Qed.

Lemma hex_val_up_digit n : 0 <= n < 16 -> hex_val_up (hex_digit_up n) = Some n.
Proof.
  intros. unfold hex_val_up, hex_digit_up. destruct (Z.ltb_spec n 10).
  - replace ((48 <=? 48 + n) && (48 + n <=? 57))%bool with true by lia. f_equal; lia.
  - replace ((48 <=? 55 + n) && (55 + n <=? 57))%bool with false by lia.
    replace ((65 <=? 55 + n) && (55 + n <=? 70))%bool with true by lia. f_equal; lia.
Qed.
Lemma hex_digit_up_range n : 0 <= n < 16 -> 48 <= hex_digit_up n <= 70 /\ hex_digit_up n <> 58.
Proof. unfold hex_digit_up. destruct (Z.ltb_spec n 10); lia. Qed.

Lemma nibbles b : is_byte b -> 0 <= b / 16 < 16 /\ 0 <= b mod 16 < 16 /\ b / 16 * 16 + b mod 16 = b.
Proof.
  intros [H1 H2]. split; [split; [apply Z.div_pos; lia|apply Z.div_lt_upper_bound; lia]|].
  split; [apply Z.mod_pos_bound; lia|]. pose proof (Z.div_mod b 16). lia.
Qed.

Lemma unhex_hex_all d : Forall is_byte d -> unhex_up (hex_all d) = Ok d.
Proof.
  induction 1 as [|b d Hb Hd IH]; [reflexivity|].
  destruct (nibbles b Hb) as (H1 & H2 & H3).
  cbn [hex_all hex2_up app unhex_up]. rewrite !hex_val_up_digit by auto.
  rewrite IH. cbn. now rewrite H3.
Qed.
Lemma hex_all_strip d : Forall is_byte d -> strip_colons (hex_all d) = hex_all d.
Proof.
  induction 1 as [|b d Hb Hd IH]; [reflexivity|].
  destruct (nibbles b Hb) as (H1 & H2 & H3).
  unfold strip_colons in *. cbn [hex_all hex2_up app filter].
  rewrite (proj2 (Z.eqb_neq _ 58)) by (apply hex_digit_up_range; auto).
  rewrite (proj2 (Z.eqb_neq _ 58)) by (apply hex_digit_up_range; auto).
  cbn. now rewrite IH.
Qed.
Lemma b16decode_hex_all d : Forall is_byte d -> b16decode (hex_all d) = Ok d.
Proof.
  intros H. unfold b16decode.
  assert (E1 : forallb (fun c => (0 <=? c) && (c <? 128))%bool (hex_all d) = true).
  { induction H as [|b d Hb Hd IH]; auto.
    destruct (nibbles b Hb) as (H1 & H2 & H3); cbn [hex_all hex2_up app forallb]; rewrite IH.
    pose proof (hex_digit_up_range _ H1). pose proof (hex_digit_up_range _ H2). lia. }
  assert (E2 : forallb (fun c => match hex_val_up c with Some _ => true | None => false end) (hex_all d) = true).
  { clear E1. induction H as [|b d Hb Hd IH]; auto.
    destruct (nibbles b Hb) as (H1 & H2 & H3); cbn [hex_all hex2_up app forallb]; rewrite IH.
    now rewrite !hex_val_up_digit by auto. }
  rewrite E1, E2. now apply unhex_hex_all.
Qed.

Lemma strip_colons_app a b : strip_colons (a ++ b) = strip_colons a ++ strip_colons b.
Proof. apply filter_app. Qed.
Lemma hex_all_app a b : hex_all (a ++ b) = hex_all a ++ hex_all b.
Proof. induction a as [|x a IH]; [reflexivity|]. cbn. now rewrite IH. Qed.

Lemma any_nonzero_false d : any_nonzero d = false <-> all_bytes 0 d.
Proof.
  unfold any_nonzero, all_bytes. induction d as [|b d IH]; cbn.
  - split; [constructor|auto].
  - rewrite orb_false_iff, IH. split.
    + intros [H1 H2]; constructor; [lia|auto].
    + intros H; inversion H; subst; split; [lia|auto].
Qed.

Lemma all_bytes_dec b d : {all_bytes b d} + {~ all_bytes b d}.
Proof. unfold all_bytes. apply Forall_dec. intros; apply Z.eq_dec. Qed.

Lemma ipv6_spec d :
  Forall is_byte d ->
  (zlen d = 16 -> ~ all_bytes 0 d ->
     data_to_ipv6addr d = Some (ipv6_text d) /\
     ipv6addr_to_data (ipv6_text d) (Some 16) = Ok d /\ ipv6addr_to_data (ipv6_text d) None = Ok d) /\
  (zlen d <> 16 \/ all_bytes 0 d -> data_to_ipv6addr d = None).
Proof.
  intros HB. split.
  - intros Hl Hnz. rewrite <- any_nonzero_false in Hnz. apply not_false_is_true in Hnz.
    assert (HL : length d = 16%nat) by (unfold zlen in Hl; lia).
    assert (Htext : ipv6_text d = hex_all (slice 0 4 d) ++ colon ++ hex_all (slice 4 8 d) ++ colon ++
          hex_all (slice 8 12 d) ++ colon ++ hex_all (slice 12 16 d)).
    { unfold ipv6_text. rewrite !hex_all_pairs by (apply Forall_slice; auto). reflexivity. }
    assert (Hcat : slice 0 4 d ++ slice 4 8 d ++ slice 8 12 d ++ slice 12 16 d = d).
    { rewrite <- !slice_split by lia. apply slice_full; lia. }
    unfold data_to_ipv6addr. rewrite Hnz, HL. cbn [andb Nat.eqb]. rewrite <- Htext.
    split; [reflexivity|].
    assert (HD : b16decode (strip_colons (ipv6_text d)) = Ok d).
    { rewrite Htext. rewrite !strip_colons_app. change (strip_colons colon) with (@nil Z). cbn [app].
      rewrite !hex_all_strip by (apply Forall_slice; auto).
      rewrite <- !hex_all_app, Hcat. now apply b16decode_hex_all. }
    unfold ipv6addr_to_data. rewrite HD. cbn [bind]. rewrite Hl, pack_s_ok by lia.
    rewrite Hl, ztake_all by lia. cbn. rewrite app_nil_r. auto.
  - intros H. unfold data_to_ipv6addr. destruct H as [H|H].
    + destruct (Nat.eqb_spec (length d) 16); [unfold zlen in H; lia|]. now rewrite andb_false_r.
    + apply any_nonzero_false in H. now rewrite H.
Qed.

Lemma eui48_spec x y a b c d e f :
  Forall is_byte [x; y; a; b; c; d; e; f] ->
  (~ all_bytes 0 [x; y; a; b; c; d; e; f] ->
     data_to_eui48 [x; y; a; b; c; d; e; f] = Some (eui48_text a b c d e f)) /\
  (all_bytes 0 [x; y; a; b; c; d; e; f] -> data_to_eui48 [x; y; a; b; c; d; e; f] = None) /\
  eui48_to_data (eui48_text a b c d e f) = Ok [0; 0; a; b; c; d; e; f].
Proof.
  intros HB.
  assert (Ht : eui48_text a b c d e f = hex_colon [a; b; c; d; e; f]).
  { unfold eui48_text. repeat match goal with H : Forall _ (_ :: _) |- _ => inversion H; clear H; subst end.
    rewrite <- !hex2_up_pair by assumption. reflexivity. }
  split; [|split].
  - intros Hnz. rewrite <- any_nonzero_false in Hnz. apply not_false_is_true in Hnz.
    unfold data_to_eui48. rewrite Hnz. cbn [andb length Nat.eqb]. now rewrite Ht.
  - intros Hz. apply any_nonzero_false in Hz. unfold data_to_eui48. now rewrite Hz.
  - unfold eui48_to_data.
    assert (HB6 : Forall is_byte [a; b; c; d; e; f]) by (inversion HB; subst; inversion H2; auto).
    replace (strip_colons (eui48_text a b c d e f)) with (hex_all [a; b; c; d; e; f]).
    + rewrite b16decode_hex_all by auto. reflexivity.
    + rewrite Ht. rewrite <- hex_all_strip by auto.
      unfold hex_colon, hex_all. repeat rewrite strip_colons_app.
      change (strip_colons colon) with (@nil Z). change (strip_colons []) with (@nil Z).
      now rewrite app_nil_r.
Qed.
Lemma eui48_other_len d : zlen d <> 8 -> data_to_eui48 d = None.
Proof.
  intros H. unfold data_to_eui48. destruct (Nat.eqb_spec (length d) 8); [unfold zlen in H; lia|].
  now rewrite andb_false_r.
Qed.
