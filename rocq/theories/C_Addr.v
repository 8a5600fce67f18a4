(** * C_Addr: property C99: address texts given to IPv6 points. *)
From Coq Require Import String ZifyBool.
From Verif Require Import Py P_List M_Util M_Float M_Suns S_Codec P_Codec S_Addr.
From Verif Require C_Codec.

Lemma upper_val c v : upper_char c v <-> hex_val_up c = Some v.
Proof.
  unfold upper_char, hex_val_up. destruct ((48 <=? c) && (c <=? 57)) eqn:E1; [|destruct ((65 <=? c) && (c <=? 70)) eqn:E2].
  - split; [intros [[H ->]|[H _]]; [reflexivity|lia]|]. intros H. apply Some_inj in H. lia.
  - split; [intros [[H _]|[H ->]]; [lia|reflexivity]|]. intros H. apply Some_inj in H. lia.
  - split; [intros [[H _]|[H _]]; lia|discriminate].
Qed.
Lemma pairs_unhex s d : pairs s d -> unhex_up s = Ok d /\ forallb (fun c => (0 <=? c) && (c <? 128)) s = true /\
  forallb (fun c => match hex_val_up c with Some _ => true | None => false end) s = true.
Proof.
  induction 1 as [|a b x y s d HA HB HP (IH & I1 & I2)]; [auto|].
  pose proof HA as HA'. pose proof HB as HB'. apply upper_val in HA, HB. cbn [unhex_up forallb]. rewrite HA, HB, IH, I1, I2. cbn [bind andb].
  split; [reflexivity|]. split; [|reflexivity]. unfold upper_char in *. lia.
Qed.
Lemma pairs_decode s d : pairs s d -> b16decode s = Ok d.
Proof. intros H. destruct (pairs_unhex s d H) as (A & B & C). unfold b16decode. now rewrite B, C. Qed.
Lemma unhex_pairs : forall n s d, (length s <= n)%nat -> unhex_up s = Ok d -> pairs s d.
Proof.
  induction n as [|n IH]; intros s d HL H.
  - destruct s; [|cbn in HL; lia]. apply Ok_inj in H. subst d. constructor.
  - destruct s as [|a [|b s]]; cbn [unhex_up] in H; [apply Ok_inj in H; subst d; constructor|discriminate|].
    destruct (hex_val_up a) as [x|] eqn:EA; [|discriminate]. destruct (hex_val_up b) as [y|] eqn:EB; [|discriminate].
    apply bind_ok in H as (t & E1 & E2). apply Ok_inj in E2. subst d. apply upper_val in EA, EB. constructor; auto. apply (IH s t); [cbn in HL; lia|exact E1].
Qed.
Lemma strip_without s r : without_colons s r <-> strip_colons s = r.
Proof.
  unfold strip_colons. split.
  - induction 1 as [|s r H IH|c s r N H IH]; [reflexivity|exact IH|]. cbn [filter]. destruct (Z.eqb_spec c 58); [contradiction|]. cbn [negb]. now rewrite IH.
  - revert r. induction s as [|c s IH]; intros r H; cbn [filter] in H; [subst; constructor|]. destruct (Z.eqb_spec c 58) as [->|N]; cbn [negb] in H.
    + constructor. auto.
    + subst r. constructor; auto.
Qed.

(** ** which texts are taken, and what is stored: without its colons the text has to be pairs of upper case digits; their
    bytes are stored, cut or filled up with zeros to the size of the point.  All other texts are rejected. *)
Theorem C99_accepted_texts :
  forall s n d, 0 <= n -> to_data Tipv6addr (VStr s) n = Ok d <->
  exists r b, without_colons s r /\ pairs r b /\ d = ztake n b ++ repeat 0 (Z.to_nat (n - zlen b)).
Proof.
  intros s n d HN. cbn [to_data]. unfold ipv6addr_to_data. split.
  - intros H. apply bind_ok in H as (b & E1 & E2). unfold pack_s in E2. replace (n <? 0) with false in E2 by lia. apply Ok_inj in E2.
    exists (strip_colons s), b. split; [now apply strip_without|]. split; [|now symmetry].
    unfold b16decode in E1. destruct (forallb _ _); [|discriminate]. destruct (forallb _ _); [|discriminate]. eapply unhex_pairs; eauto.
  - intros (r & b & E1 & E2 & ->). apply strip_without in E1. rewrite E1, (pairs_decode _ _ E2). cbn [bind]. unfold pack_s. now replace (n <? 0) with false by lia.
Qed.
Print Assumptions C99_accepted_texts.
(** the exception: binascii.Error, or ValueError if the text has a character outside ASCII *)
Theorem C99_rejected_texts :
  forall s n r, without_colons s r -> (forall b, ~ pairs r b) ->
  (Forall (fun c => 0 <= c < 128) r -> to_data Tipv6addr (VStr s) n = Raise EBinascii) /\
  (~ Forall (fun c => 0 <= c < 128) r -> to_data Tipv6addr (VStr s) n = Raise EValue).
Proof.
  intros s n r E1 HP. apply strip_without in E1. cbn [to_data]. unfold ipv6addr_to_data. rewrite E1. unfold b16decode. split; intros HA.
  - replace (forallb (fun c => (0 <=? c) && (c <? 128)) r) with true.
    2:{ symmetry. apply forallb_forall. intros x Hx. rewrite Forall_forall in HA. specialize (HA x Hx). lia. }
    destruct (forallb _ _) eqn:EH; [|reflexivity].
    destruct (unhex_up r) as [b|e] eqn:EU; [exfalso; eapply HP; eapply unhex_pairs; eauto|].
    assert (e = EBinascii); [|subst; reflexivity]. clear -EU. revert e EU.
    assert (HX : forall n s e, (length s <= n)%nat -> unhex_up s = Raise e -> e = EBinascii).
    { induction n as [|n IH]; intros s e HL H; [destruct s; [discriminate|cbn in HL; lia]|].
      destruct s as [|a [|b s]]; cbn [unhex_up] in H; [discriminate|congruence|].
      destruct (hex_val_up a); [|congruence]. destruct (hex_val_up b); [|congruence]. destruct (unhex_up s) as [t|e'] eqn:ES; cbn [bind] in H; [discriminate|].
      assert (e' = e) by congruence. subst e'. eapply (IH s); [cbn in HL; lia|exact ES]. }
    intros e EU. eapply HX; eauto.
  - replace (forallb (fun c => (0 <=? c) && (c <? 128)) r) with false; [reflexivity|]. symmetry. apply not_true_is_false. intros HF. apply HA.
    apply Forall_forall. intros x Hx. rewrite forallb_forall in HF. specialize (HF x Hx). lia.
Qed.
Print Assumptions C99_rejected_texts.

(** ** an address written out in full, in eight groups of four upper case digits, is stored as what it denotes *)
Lemma hex_num_pairs a b c d va vb vc vd : upper_char a va -> upper_char b vb -> upper_char c vc -> upper_char d vd ->
  hex_num [a; b; c; d] (((va * 16 + vb) * 16 + vc) * 16 + vd).
Proof.
  assert (U : forall c v, upper_char c v -> hex_char c v) by (unfold upper_char, hex_char; tauto). intros HA HB HC HD.
  change [a; b; c; d] with ((([a] ++ [b]) ++ [c]) ++ [d]). repeat (apply hn_more; [|now apply U]). apply hn_one. now apply U.
Qed.
Lemma upper_range c v : upper_char c v -> 0 <= v < 16.
Proof. unfold upper_char. lia. Qed.
Lemma full_group_group s d : full_group s d -> group s d.
Proof.
  intros [HP HL]. inversion HP as [|a b x y s1 d1 HA HB HP1]; subst; [unfold zlen in HL; cbn in HL; lia|].
  inversion HP1 as [|a' b' x' y' s2 d2 HA' HB' HP2]; subst; [unfold zlen in HL; cbn in HL; lia|].
  inversion HP2; subst; [|rewrite !zlen_cons in HL; pose proof (zlen_nonneg d); lia].
  eexists. split; [apply (hex_num_pairs a b a' b' x y x' y'); auto|]. split; [unfold zlen; cbn; lia|].
  pose proof (upper_range _ _ HA). pose proof (upper_range _ _ HB). pose proof (upper_range _ _ HA'). pose proof (upper_range _ _ HB').
  replace (((x * 16 + y) * 16 + x') * 16 + y') with ((x * 16 + y) * 256 + (x' * 16 + y')) by ring.
  rewrite Z.div_add_l by lia. rewrite (Z.div_small (x' * 16 + y')) by lia. rewrite Z.add_0_r.
  rewrite (Z.add_comm ((x * 16 + y) * 256)), Z.mod_add by lia. rewrite Z.mod_small by lia. reflexivity.
Qed.
Lemma full_groups_groups k s d : full_groups k s d -> groups k s d.
Proof. induction 1; constructor; auto using full_group_group. Qed.
Lemma pairs_no_colon s d : pairs s d -> strip_colons s = s.
Proof.
  induction 1 as [|a b x y s d HA HB HP IH]; [reflexivity|]. unfold strip_colons in *. cbn [filter]. unfold upper_char in *.
  destruct (Z.eqb_spec a 58); [lia|]. destruct (Z.eqb_spec b 58); [lia|]. cbn [negb]. now rewrite IH.
Qed.
Lemma pairs_app a x b y : pairs a x -> pairs b y -> pairs (a ++ b) (x ++ y).
Proof. induction 1; cbn [app]; [auto|]. intros. constructor; auto. Qed.
Lemma full_groups_pairs k s d : full_groups k s d -> pairs (strip_colons s) d /\ zlen d = 2 * Z.of_nat k.
Proof.
  induction 1 as [s d [HP HL]|k s d s' d' [HP HL] H [IH1 IH2]].
  - rewrite (pairs_no_colon _ _ HP). split; [exact HP|lia].
  - rewrite !strip_colons_app, (pairs_no_colon _ _ HP). change (strip_colons [58]) with (@nil Z). cbn [app]. split; [now apply pairs_app|]. rewrite zlen_app. lia.
Qed.
Theorem C99_full_address_partial :
  forall s d, full_groups 8 s d -> ipv6_denotes s d /\ to_data Tipv6addr (VStr s) 16 = Ok d.
Proof.
  intros s d H. split; [constructor; now apply full_groups_groups|]. destruct (full_groups_pairs _ _ _ H) as [HP HL].
  apply C99_accepted_texts; [lia|]. exists (strip_colons s), d. split; [now apply strip_without|]. split; [exact HP|].
  change (2 * Z.of_nat 8) with 16 in HL. rewrite HL. cbn [Z.to_nat Z.sub Z.pos_sub Z.add Z.opp repeat]. rewrite app_nil_r. symmetry. apply ztake_all. lia.
Qed.
Print Assumptions C99_full_address_partial.
Example C99_full_ex : full_groups 8 (lit "2001:0DB8:0000:0000:0000:0000:0000:0001"%string) [32; 1; 13; 184; 0; 0; 0; 0; 0; 0; 0; 0; 0; 0; 0; 1].
Proof.
  assert (D : forall c, 48 <= c <= 57 -> upper_char c (c - 48)) by (unfold upper_char; lia).
  assert (U : forall c, 65 <= c <= 70 -> upper_char c (c - 55)) by (unfold upper_char; lia).
  assert (G : forall a b c d va vb vc vd, upper_char a va -> upper_char b vb -> upper_char c vc -> upper_char d vd -> full_group [a; b; c; d] [va * 16 + vb; vc * 16 + vd])
    by (intros; split; [repeat (constructor; [assumption..|]); constructor|reflexivity]).
  pose proof (G 48 48 48 48 _ _ _ _ (D 48 ltac:(lia)) (D 48 ltac:(lia)) (D 48 ltac:(lia)) (D 48 ltac:(lia))) as G0.
  refine (fg_more 7 [50; 48; 48; 49] [32; 1] _ _ (G 50 48 48 49 _ _ _ _ (D _ _) (D _ _) (D _ _) (D _ _)) _); try lia.
  refine (fg_more 6 [48; 68; 66; 56] [13; 184] _ _ (G 48 68 66 56 _ _ _ _ (D _ _) (U _ _) (U _ _) (D _ _)) _); try lia.
  do 5 refine (fg_more _ [48; 48; 48; 48] [0; 0] _ _ G0 _).
  apply fg_one. exact (G 48 48 48 49 _ _ _ _ (D 48 ltac:(lia)) (D 48 ltac:(lia)) (D 48 ltac:(lia)) (D 49 ltac:(lia))).
Qed.

(** ** REFUTED: the usual short form of an address is taken, and another address is stored: 2001:DB8::1 becomes
    2001:DB81:0:0:0:0:0:0 *)
Definition short_text : str := lit "2001:DB8::1"%string.
Definition short_address : bytes := [32; 1; 13; 184; 0; 0; 0; 0; 0; 0; 0; 0; 0; 0; 0; 1].
Lemma digit c : 48 <= c <= 57 -> hex_char c (c - 48).
Proof. unfold hex_char. lia. Qed.
Lemma letter c : 65 <= c <= 70 -> hex_char c (c - 55).
Proof. unfold hex_char. lia. Qed.
Lemma small c : 97 <= c <= 102 -> hex_char c (c - 87).
Proof. unfold hex_char. lia. Qed.
Lemma group_1 : groups 1 [49] [0; 1].
Proof. apply gr_one. exists 1. split; [apply (hn_one 49 (49 - 48)), digit; lia|split; [unfold zlen; cbn; lia|reflexivity]]. Qed.
Lemma short_denotes : ipv6_denotes short_text short_address.
Proof.
  refine (v6_short 2 1 (lit "2001:DB8"%string) [32; 1; 13; 184] [49] [0; 1] (or_introl _) (or_introl group_1) _); [|lia].
  refine (gr_more 1 [50; 48; 48; 49] [32; 1] [68; 66; 56] [13; 184] _ (gr_one _ _ _)).
  - exists 8193. split; [|split; [unfold zlen; cbn; lia|reflexivity]].
    apply (hn_more [50; 48; 48] 512 49 (49 - 48)); [|apply digit; lia]. apply (hn_more [50; 48] 32 48 (48 - 48)); [|apply digit; lia]. apply (hn_more [50] 2 48 (48 - 48)); [|apply digit; lia].
    apply (hn_one 50 (50 - 48)), digit. lia.
  - exists 3512. split; [|split; [unfold zlen; cbn; lia|reflexivity]].
    apply (hn_more [68; 66] 219 56 (56 - 48)); [|apply digit; lia]. apply (hn_more [68] 13 66 (66 - 55)); [|apply letter; lia]. apply (hn_one 68 (68 - 55)), letter. lia.
Qed.
Theorem C99_short_form_refuted :
  exists s d d', ipv6_denotes s d /\ to_data Tipv6addr (VStr s) 16 = Ok d' /\ d' <> d /\ ipv6_denotes (lit "2001:DB81:0000:0000:0000:0000:0000:0000"%string) d'.
Proof.
  exists short_text, short_address, [32; 1; 219; 129; 0; 0; 0; 0; 0; 0; 0; 0; 0; 0; 0; 0].
  split; [exact short_denotes|]. split; [vm_compute; reflexivity|]. split; [discriminate|].
  assert (D : forall c, 48 <= c <= 57 -> upper_char c (c - 48)) by (unfold upper_char; lia).
  assert (U : forall c, 65 <= c <= 70 -> upper_char c (c - 55)) by (unfold upper_char; lia).
  assert (G : forall a b c d va vb vc vd, upper_char a va -> upper_char b vb -> upper_char c vc -> upper_char d vd -> full_group [a; b; c; d] [va * 16 + vb; vc * 16 + vd])
    by (intros; split; [repeat (constructor; [assumption..|]); constructor|reflexivity]).
  pose proof (G 48 48 48 48 _ _ _ _ (D 48 ltac:(lia)) (D 48 ltac:(lia)) (D 48 ltac:(lia)) (D 48 ltac:(lia))) as G0.
  apply v6_full, full_groups_groups.
  refine (fg_more 7 [50; 48; 48; 49] [32; 1] _ _ (G 50 48 48 49 _ _ _ _ (D _ _) (D _ _) (D _ _) (D _ _)) _); try lia.
  refine (fg_more 6 [68; 66; 56; 49] [219; 129] _ _ (G 68 66 56 49 _ _ _ _ (U _ _) (U _ _) (D _ _) (D _ _)) _); try lia.
  do 5 refine (fg_more _ [48; 48; 48; 48] [0; 0] _ _ G0 _). apply fg_one. exact G0.
Qed.
Print Assumptions C99_short_form_refuted.
(** ** REFUTED: lower case digits, usual in address texts, are rejected *)
Theorem C99_lower_case_refuted :
  exists s d, ipv6_denotes s d /\ forall n, to_data Tipv6addr (VStr s) n = Raise EBinascii.
Proof.
  exists (lit "fe80::1"%string), [254; 128; 0; 0; 0; 0; 0; 0; 0; 0; 0; 0; 0; 0; 0; 1]. split; [|intros n; vm_compute; reflexivity].
  refine (v6_short 1 1 (lit "fe80"%string) [254; 128] [49] [0; 1] (or_introl (gr_one _ _ _)) (or_introl group_1) _); [|lia].
  exists 65152. split; [|split; [unfold zlen; cbn; lia|reflexivity]].
  apply (hn_more [102; 101; 56] 4072 48 (48 - 48)); [|apply digit; lia]. apply (hn_more [102; 101] 254 56 (56 - 48)); [|apply digit; lia].
  apply (hn_more [102] 15 101 (101 - 87)); [|apply small; lia]. apply (hn_one 102 (102 - 87)), small. lia.
Qed.
Print Assumptions C99_lower_case_refuted.
(** ** REFUTED: the text that reading an IPv6 point gives is not an IPv6 address text (its groups have eight digits) *)
Lemma hex_char_58 v : ~ hex_char 58 v.
Proof. unfold hex_char. lia. Qed.
Lemma hex_num_no_colon s n : hex_num s n -> ~ In 58 s.
Proof.
  induction 1 as [c v H|s n c v H IH HC].
  - intros [->|[]]. now apply hex_char_58 in H.
  - intros HI. apply in_app_or in HI as [HI|[->|[]]]; [auto|]. now apply hex_char_58 in HC.
Qed.
(** runs between colons are at most four characters long *)
Inductive runs : str -> Prop :=
| run_end a : ~ In 58 a -> zlen a <= 4 -> runs a
| run_more a s : ~ In 58 a -> zlen a <= 4 -> runs s -> runs (a ++ 58 :: s).
Lemma group_run s d : group s d -> ~ In 58 s /\ zlen s <= 4.
Proof. intros (n & H & HL & _). split; [eapply hex_num_no_colon; eauto|exact HL]. Qed.
Lemma groups_runs k s d : groups k s d -> runs s.
Proof.
  induction 1 as [s d H|k s d s' d' H _ IH]; destruct (group_run _ _ H); [now apply run_end|]. cbn [app]. now apply run_more.
Qed.
Lemma runs_app s : forall t, runs s -> runs t -> runs (s ++ 58 :: t).
Proof.
  intros t H HT. induction H as [a N L|a s N L H IH]; [now apply run_more|]. rewrite <- app_assoc. cbn [app]. now apply run_more.
Qed.
Lemma denotes_runs s d : ipv6_denotes s d -> runs s.
Proof.
  intros [s' d' H|k1 k2 s1 d1 s2 d2 H1 H2 _]; [eapply groups_runs; eauto|].
  assert (R1 : runs s1) by (destruct H1 as [H|(_ & -> & _)]; [eapply groups_runs; eauto|apply run_end; [exact (fun x => x)|unfold zlen; cbn; lia]]).
  assert (R2 : runs s2) by (destruct H2 as [H|(_ & -> & _)]; [eapply groups_runs; eauto|apply run_end; [exact (fun x => x)|unfold zlen; cbn; lia]]).
  change (lit "::"%string ++ s2) with (58 :: [] ++ 58 :: s2). apply runs_app; [exact R1|]. apply run_more; [exact (fun x => x)|unfold zlen; cbn; lia|exact R2].
Qed.
Lemma runs_first s c1 c2 c3 c4 c5 r : runs s -> s = c1 :: c2 :: c3 :: c4 :: c5 :: r -> ~ In 58 [c1; c2; c3; c4; c5] -> False.
Proof.
  intros [a N L|a t N L _] E H.
  - rewrite E in L. rewrite !zlen_cons in L. pose proof (zlen_nonneg r). lia.
  - destruct a as [|x1 [|x2 [|x3 [|x4 [|x5 a]]]]]; cbn [app] in E; inversion E; subst; try (apply H; cbn; tauto).
    rewrite !zlen_cons in L. pose proof (zlen_nonneg a). lia.
Qed.
Theorem C99_read_text_refuted :
  forall d s, Forall is_byte d -> zlen d = 16 -> reported Tipv6addr d = Ok (VStr s) -> forall d', ~ ipv6_denotes s d'.
Proof.
  intros d s HB HL HR d' HD. destruct (C_Codec.C08_unimplemented_ipv6 d HB HL) as [H1 H2].
  destruct (any_nonzero d) eqn:EZ.
  - assert (NZ : ~ all_bytes 0 d) by (intros HZ; apply any_nonzero_false in HZ; congruence). specialize (H2 NZ). rewrite H2 in HR.
    assert (ES : s = ipv6_text d) by congruence. subst s. apply denotes_runs in HD.
    destruct d as [|b0 [|b1 [|b2 d]]]; try (unfold zlen in HL; cbn in HL; lia).
    inversion HB as [|? ? B0 HB1]; subst. inversion HB1 as [|? ? B1 HB2]; subst. inversion HB2 as [|? ? B2 _]; subst.
    eapply (runs_first _ _ _ _ _ _ _ HD); [unfold ipv6_text; cbn [firstn map concat]; unfold hex_pair; cbn [app]; reflexivity|].
    assert (HX : forall n, nth n hex_upper 0 <> 58) by (intros n; do 16 (destruct n as [|n]; [vm_compute; discriminate|]); destruct n; vm_compute; discriminate).
    intros [E|[E|[E|[E|[E|[]]]]]]; eapply HX; exact E.
  - apply any_nonzero_false in EZ. rewrite (H1 EZ) in HR. discriminate.
Qed.
Print Assumptions C99_read_text_refuted.
Example C99_read_ex : reported Tipv6addr short_address = Ok (VStr (lit "20010DB8:00000000:00000000:00000001"%string)).
Proof. vm_compute. reflexivity. Qed.
