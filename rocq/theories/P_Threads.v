(** * P_Threads *)
From Verif Require Import Py P_List M_Wire M_Rtu S_Modbus P_Rtu M_Tcp S_Tcp P_Tcp M_Threads S_Threads.

Lemma set_nth_app {A} (l1 : list A) x l2 y : set_nth (l1 ++ x :: l2) (length l1) y = l1 ++ y :: l2.
Proof. induction l1; cbn; congruence. Qed.
Lemma store_ext data : forall m m' a, (forall b, m b = m' b) -> forall b, store m a data b = store m' a data b.
Proof.
  assert (H : forall n data m m' a, (length data <= n)%nat -> (forall b, m b = m' b) -> forall b, store m a data b = store m' a data b).
  { induction n as [|n IH]; intros [|h [|l r]] m m' a HL HE b; cbn [store]; try apply HE; cbn in HL; try lia.
    apply IH; [lia|]. intros c. destruct (c =? a); [reflexivity|apply HE]. }
  intros. now apply (H (length data)).
Qed.
Lemma Forall2_len {A B} (R : A -> B -> Prop) l l' : Forall2 R l l' -> length l = length l'.
Proof. induction 1; cbn; congruence. Qed.
Lemma Forall2_impl' {A B} (R S : A -> B -> Prop) l l' : (forall x y, R x y -> S x y) -> Forall2 R l l' -> Forall2 S l l'.
Proof. induction 2; constructor; auto. Qed.
Lemma zlen_0_nil {A} (l : list A) : zlen l = 0 -> l = [].
Proof. destruct l; [reflexivity|]. unfold zlen. cbn. lia. Qed.
Lemma Forall2_app_inv_cons {A B} (R : A -> B -> Prop) l1 x l2 l : Forall2 R (l1 ++ x :: l2) l ->
  exists a1 a a2, l = a1 ++ a :: a2 /\ length a1 = length l1 /\ Forall2 R l1 a1 /\ R x a /\ Forall2 R l2 a2.
Proof.
  intros H. apply Forall2_app_inv_l in H as (a1 & r & H1 & H2 & ->). inversion H2; subst.
  exists a1, y, l'. repeat split; auto. symmetry. eapply Forall2_len; eauto.
Qed.

Section P.
  Context {D : Type} (srv : server D) (mem : D -> memory).
  Definition ready (w : world D) (c : nat) : Prop := (c < w_next w)%nat /\ w_conn w c = [].
  Definition one_frame (b : bytes) : Prop := 9 <= zlen b /\ zlen b = 6 + be_int (slice 4 6 b).
  Definition wanted (resp : bytes) : Z := if 9 <=? zlen resp then be_int (slice 4 6 resp) - (zlen resp - 6) else 9 - zlen resp.
  Definition reply_len (c : tcall) : Z := match c with CRead _ _ count => 9 + 2 * count | CWrite _ _ => 12 end.
  Definition tinv (w : world D) (t : thread) (a : acall) : Prop :=
    call_ok srv mem (th_slave t) (th_call t) /\
    match th_pc t with
    | TStart => a = Idle (th_call t) /\ forall c, w_sock w (th_dev t) = Some c -> ready w c
    | TConnect => a = Waiting (th_call t) /\ w_sock w (th_dev t) = None
    | TSend _ => a = Waiting (th_call t) /\ exists c, w_sock w (th_dev t) = Some c /\ ready w c
    | TRecv _ resp rem => exists c, a = Answered (call_result (th_call t) (resp ++ w_conn w c)) /\
        w_sock w (th_dev t) = Some c /\ (c < w_next w)%nat /\ one_frame (resp ++ w_conn w c) /\ rem = wanted resp /\
        zlen (resp ++ w_conn w c) = reply_len (th_call t)
    | TEnd _ r => a = Answered r /\ forall c, w_sock w (th_dev t) = Some c -> ready w c
    | TDone r => a = Returned r /\ forall c, w_sock w (th_dev t) = Some c -> ready w c
    end.
  Definition devs (w : world D) : list nat := map th_dev (w_threads w).
  Definition separate (w : world D) : Prop :=
    NoDup (devs w) /\
    forall d c, In d (devs w) -> w_sock w d = Some c -> (c < w_next w)%nat /\ forall d', In d' (devs w) -> w_sock w d' = Some c -> d' = d.
  Definition inv (w : world D) (s : memory * list acall) : Prop :=
    Forall2 (tinv w) (w_threads w) (snd s) /\ separate w /\ forall a, mem (w_srv w) a = fst s a.

  Lemma tinv_frame w w' t a : w_sock w' (th_dev t) = w_sock w (th_dev t) -> (w_next w <= w_next w')%nat ->
    (forall c, w_sock w (th_dev t) = Some c -> w_conn w' c = w_conn w c) -> tinv w t a -> tinv w' t a.
  Proof.
    intros HS HN HC [H1 H]. split; [exact H1|]. destruct (th_pc t); rewrite ?HS; auto.
    - destruct H as [-> H]. split; [reflexivity|]. intros c Hc. destruct (H c Hc). split; [lia|]. rewrite HC by exact Hc. assumption.
    - destruct H as (-> & c & Hc & H2 & H3). split; [reflexivity|]. exists c. split; [exact Hc|]. split; [lia|]. rewrite HC by exact Hc. assumption.
    - destruct H as (c & -> & Hc & H3 & H4). exists c. rewrite (HC c Hc). split; [reflexivity|]. split; [exact Hc|]. split; [lia|]. exact H4.
    - destruct H as [-> H]. split; [reflexivity|]. intros c Hc. destruct (H c Hc). split; [lia|]. rewrite HC by exact Hc. assumption.
    - destruct H as [-> H]. split; [reflexivity|]. intros c Hc. destruct (H c Hc). split; [lia|]. rewrite HC by exact Hc. assumption.
  Qed.

  (** replacing one thread *)
  Lemma inv_put w w' m m' l1 t t' l2 a1 a a' a2 :
    inv w (m, a1 ++ a :: a2) -> w_threads w = l1 ++ t :: l2 -> length a1 = length l1 ->
    w_threads w' = l1 ++ t' :: l2 -> th_dev t' = th_dev t -> (w_next w <= w_next w')%nat ->
    (forall d, d <> th_dev t -> w_sock w' d = w_sock w d) ->
    (forall d c, In d (devs w) -> d <> th_dev t -> w_sock w d = Some c -> w_conn w' c = w_conn w c) ->
    (forall c, w_sock w' (th_dev t) = Some c -> (c < w_next w')%nat /\ forall d, In d (devs w) -> d <> th_dev t -> w_sock w d <> Some c) ->
    tinv w' t' a' -> (forall b, mem (w_srv w') b = m' b) -> inv w' (m', a1 ++ a' :: a2).
  Proof.
    intros (HF & (HN & HS) & HM) HT HL HT' HD HX HO HC HI HV HM'. cbn [snd] in HF.
    assert (ED : devs w' = devs w) by (unfold devs; rewrite HT, HT', !map_app; cbn [map]; now rewrite HD).
    rewrite HT in HF. apply Forall2_app_inv_l in HF as (b1 & b2 & F1 & F2 & EA).
    assert (LE : length b1 = length a1) by (rewrite HL; symmetry; eapply Forall2_len; eauto).
    assert (EB : b1 = a1 /\ b2 = a :: a2).
    { clear -EA LE. revert b1 EA LE. induction a1 as [|x a1 IH]; intros [|y b1] EA LE; try discriminate; cbn [app] in *; [auto|].
      assert (x = y) by congruence. assert (a1 ++ a :: a2 = b1 ++ b2) by congruence. destruct (IH b1 H0 ltac:(cbn in LE; lia)) as [-> ->]. subst. auto. }
    destruct EB as [-> ->]. inversion F2 as [|? ? ? ? _ F3]; subst.
    assert (HOTH : forall x, In x (l1 ++ l2) -> th_dev x <> th_dev t).
    { intros x Hx E. unfold devs in HN. rewrite HT, map_app in HN. cbn [map] in HN. apply NoDup_remove_2 in HN. apply HN.
      rewrite <- map_app, <- E. now apply in_map. }
    assert (FR : forall ls as_, (forall x, In x ls -> In x (l1 ++ l2)) -> Forall2 (tinv w) ls as_ -> Forall2 (tinv w') ls as_).
    { intros ls as_ Hin H. induction H as [|x y ls as_ Hxy _ IH]; constructor.
      - apply (tinv_frame w); auto.
        + apply HO, HOTH, Hin. now left.
        + intros c Hc. apply (HC (th_dev x)); [|apply HOTH, Hin; now left|exact Hc].
          unfold devs. rewrite HT. apply in_map. specialize (Hin x (or_introl eq_refl)). apply in_app_or in Hin. apply in_or_app. cbn. tauto.
      - apply IH. intros z Hz. apply Hin. now right. }
    split; [|split; [|exact HM']].
    - rewrite HT'. cbn [snd]. apply Forall2_app; [apply FR; [intros; apply in_or_app; auto|exact F1]|]. constructor; [exact HV|].
      apply FR; [intros; apply in_or_app; auto|exact F3].
    - unfold separate. rewrite ED. split; [exact HN|]. intros d c Hd Hc.
      destruct (Nat.eq_dec d (th_dev t)) as [->|ND].
      + destruct (HI c Hc) as [B1 B2]. split; [exact B1|]. intros d' Hd' Hc'. destruct (Nat.eq_dec d' (th_dev t)) as [|ND]; [assumption|].
        rewrite HO in Hc' by exact ND. destruct (B2 d' Hd' ND Hc').
      + rewrite HO in Hc by exact ND. destruct (HS d c Hd Hc) as [B1 B2]. split; [lia|]. intros d' Hd' Hc'.
        destruct (Nat.eq_dec d' (th_dev t)) as [->|ND'].
        * destruct (HI c Hc') as [_ B3]. destruct (B3 d Hd ND Hc).
        * rewrite HO in Hc' by exact ND'. auto.
  Qed.

  Lemma mbap_frame body : 3 <= zlen body < 65536 -> one_frame (mbap body).
  Proof.
    intros H. pose proof (mbap_len body). pose proof (mbap_hdr body []) as E. rewrite app_nil_r in E. split; [lia|]. rewrite E, be_int_word. lia.
  Qed.
  (** what the server answers to a call *)
  Lemma served t s : call_ok srv mem (th_slave t) (th_call t) -> exists req s' wi,
    call_req (th_slave t) (th_call t) = Ok req /\ srv_send srv s req = (s', Some wi) /\ one_frame (w_bytes wi) /\ zlen (w_bytes wi) = reply_len (th_call t) /\ call_result (th_call t) (w_bytes wi) = answer (th_call t) (mem s) /\
    forall a, mem s' a = effect (th_call t) (mem s) a.
  Proof.
    intros [HB H]. destruct (th_call t) as [op addr count|addr data]; cbn [call_req call_result answer effect].
    - destruct H as (HS & Ho & Hc & Ha & Hac). destruct (HS s addr count Hc Ha Hac) as (s' & sched & fin & ES & HM).
      exists (tcp_read_frame (th_slave t) op addr count), s', (mkWire (tcp_read_reply (th_slave t) op (mem s) addr count) sched fin).
      rewrite tcp_read_req_ok by (unfold read_args_ok, is_byte in *; lia). split; [reflexivity|]. split; [exact ES|]. cbn [w_bytes].
      set (body := [th_slave t; op; 2 * count] ++ regs (mem s) addr (Z.to_nat count)).
      assert (EB : zlen body = 3 + 2 * count).
      { unfold body. rewrite zlen_app, regs_len. change (zlen [th_slave t; op; 2 * count]) with 3. lia. }
      change (tcp_read_reply (th_slave t) op (mem s) addr count) with (mbap body).
      destruct (tcp_reply_complete body ltac:(lia)) as (HC & EF & EL). split; [apply mbap_frame; lia|]. split; [cbn [reply_len]; lia|]. split; [|exact HM].
      unfold call_result, answer. rewrite (tcp_exception_none body op (th_slave t) (2 * count :: regs (mem s) addr (Z.to_nat count)) eq_refl Ho). reflexivity.
    - destruct H as (HS & HD & HE & Hc & Ha & Hac). destruct (HS s addr data HD HE Hc Ha Hac) as (s' & sched & fin & ES & HM).
      exists (tcp_write_frame (th_slave t) addr data), s', (mkWire (tcp_write_reply (th_slave t) addr (zlen data / 2)) sched fin).
      assert (zlen data = 2 * (zlen data / 2)) by (rewrite (Z.div_mod (zlen data) 2) at 1 by lia; lia).
      rewrite tcp_write_req_ok by (unfold write_args_ok, is_byte in *; lia). split; [reflexivity|]. split; [exact ES|]. cbn [w_bytes].
      set (body := [th_slave t; 16] ++ word addr ++ word (zlen data / 2)).
      assert (EB : zlen body = 6) by reflexivity.
      change (tcp_write_reply (th_slave t) addr (zlen data / 2)) with (mbap body).
      destruct (tcp_reply_complete body ltac:(lia)) as (HC & EF & EL). split; [apply mbap_frame; lia|]. split; [cbn [reply_len]; lia|]. split; [|exact HM].
      unfold call_result, answer. rewrite (tcp_exception_none body 16 (th_slave t) (word addr ++ word (zlen data / 2)) eq_refl) by lia. reflexivity.
  Qed.
  Lemma answer_ext c m m' : (forall a, m a = m' a) -> answer c m = answer c m'.
  Proof. intros H. destruct c; [|reflexivity]. cbn [answer]. now rewrite (regs_ext m m') by exact H. Qed.
  Lemma effect_ext c m m' : (forall a, m a = m' a) -> forall a, effect c m a = effect c m' a.
  Proof. intros H a. destruct c; cbn [effect]; [apply H|now apply store_ext]. Qed.

  (** one more piece of the response *)
  Lemma wanted_spec resp rest : one_frame (resp ++ rest) ->
    (zlen resp < 9 -> wanted resp = 9 - zlen resp /\ wanted resp <= zlen rest) /\ (9 <= zlen resp -> wanted resp = zlen rest).
  Proof.
    intros [H1 H2]. unfold wanted. rewrite zlen_app in *. destruct (Z.leb_spec 9 (zlen resp)) as [H|H]; split; intros; try lia.
    rewrite hdr_slice_app in H2 by exact H. lia.
  Qed.
  Lemma wanted_next resp rest k : one_frame (resp ++ rest) -> 0 < wanted resp -> let n := Z.min (wanted resp) (Z.max 1 k) in
    rest <> [] /\ (resp ++ ztake n rest) ++ zdrop n rest = resp ++ rest /\
    (if TCP_HDR_LEN + TCP_RESP_MIN_LEN <=? zlen (resp ++ ztake n rest)
     then be_int (slice 4 6 (resp ++ ztake n rest)) - (zlen (resp ++ ztake n rest) - TCP_HDR_LEN)
     else wanted resp - zlen (ztake n rest)) = wanted (resp ++ ztake n rest).
  Proof.
    intros HF HP n. destruct (wanted_spec resp rest HF) as [W1 W2]. pose proof (zlen_nonneg rest).
    assert (HR : wanted resp <= zlen rest) by (destruct (Z.lt_ge_cases (zlen resp) 9); [apply W1; lia|rewrite W2; lia]).
    split; [intros ->; rewrite zlen_nil in *; lia|]. split; [rewrite <- app_assoc; f_equal; apply ztake_zdrop|].
    change (TCP_HDR_LEN + TCP_RESP_MIN_LEN) with 9. change TCP_HDR_LEN with 6. unfold wanted at 2.
    assert (EN : zlen (ztake n rest) = n) by (rewrite zlen_ztake; lia). rewrite zlen_app, EN.
    destruct (Z.leb_spec 9 (zlen resp + n)) as [HG|HG]; [reflexivity|]. destruct W1; lia.
  Qed.

  Lemma inv_step w s i k : inv w s -> exists s', (s' = s \/ ideal s s') /\ inv (tstep srv w i k) s'.
  Proof.
    intros HI. unfold tstep. destruct (nth_error (w_threads w) i) as [t|] eqn:EN; [|exists s; auto].
    destruct (nth_error_split _ _ EN) as (l1 & l2 & EL & <-). cbv zeta.
    assert (SN : forall y, set_nth (w_threads w) (length l1) y = l1 ++ y :: l2) by (intros y; rewrite EL; apply set_nth_app). clear EN.
    destruct s as [m l]. destruct (HI) as (HF & (HN & HSEP) & HM). cbn [fst snd] in *. rewrite EL in HF.
    destruct (Forall2_app_inv_cons _ _ _ _ _ HF) as (a1 & a & a2 & -> & LA & _ & HT & _). destruct HT as [HO HT].
    assert (DT : In (th_dev t) (devs w)) by (unfold devs; rewrite EL; apply in_map, in_or_app; right; now left).
    assert (HOWN : forall c, w_sock w (th_dev t) = Some c -> (c < w_next w)%nat /\ forall d, In d (devs w) -> d <> th_dev t -> w_sock w d <> Some c).
    { intros c Hc. destruct (HSEP _ c DT Hc) as [B1 B2]. split; [exact B1|]. intros d Hd ND Hc'. apply ND. exact (B2 d Hd Hc'). }
    assert (HGO : forall p a', tinv w (at_pc t p) a' -> inv (mkW (w_srv w) (w_next w) (w_conn w) (w_sock w) (l1 ++ at_pc t p :: l2)) (m, a1 ++ a' :: a2)).
    { intros p a' H. eapply (inv_put w); [exact HI|exact EL|exact LA|reflexivity|reflexivity|cbn; lia|reflexivity|reflexivity|exact HOWN|exact H|exact HM]. }
    destruct (th_pc t) as [| |mine|mine resp rem|mine r|r] eqn:EP; rewrite ?SN.
    - destruct HT as [-> HT]. exists (m, a1 ++ Waiting (th_call t) :: a2). split; [right; constructor|]. apply HGO.
      destruct (w_sock w (th_dev t)) as [c|] eqn:EC; (split; [exact HO|]); cbn [at_pc th_pc th_dev th_call]; (split; [reflexivity|]).
      + exists c. split; [exact EC|]. now apply HT.
      + exact EC.
    - destruct HT as [-> HT]. exists (m, a1 ++ Waiting (th_call t) :: a2). split; [now left|].
      eapply (inv_put w); [exact HI|exact EL|exact LA|reflexivity|reflexivity|cbn; lia| | | | |exact HM]; cbn [w_sock w_conn w_next].
      + intros d ND. unfold fupd. now rewrite (proj2 (Nat.eqb_neq _ _) ND).
      + intros d c Hd ND Hc. unfold fupd. destruct (Nat.eqb_spec c (w_next w)) as [->|]; [|reflexivity]. destruct (HSEP _ _ Hd Hc). lia.
      + intros c Hc. unfold fupd in Hc. rewrite Nat.eqb_refl in Hc. apply Some_inj in Hc. subst c. split; [lia|]. intros d Hd _ Hc.
        destruct (HSEP _ _ Hd Hc). lia.
      + split; [exact HO|]. cbn [at_pc th_pc th_dev th_call w_sock]. split; [reflexivity|]. exists (w_next w). unfold fupd, ready.
        rewrite Nat.eqb_refl. split; [reflexivity|]. cbn [w_next w_conn]. split; [lia|]. now rewrite Nat.eqb_refl.
    - destruct HT as (-> & c & HC & HR1 & HR2). destruct (served t (w_srv w) HO) as (req & s' & wi & E1 & E2 & E3 & E6 & E4 & E5).
      rewrite E1, HC, E2. exists (effect (th_call t) m, a1 ++ Answered (answer (th_call t) m) :: a2). split; [right; constructor|].
      eapply (inv_put w); [exact HI|exact EL|exact LA|reflexivity|reflexivity|cbn; lia| | | | | ]; cbn [w_sock w_conn w_next w_srv].
      + reflexivity.
      + intros d c' Hd ND Hc. unfold fupd. destruct (Nat.eqb_spec c' c) as [->|]; [|reflexivity]. destruct (HOWN c HC) as [_ X]. destruct (X d Hd ND Hc).
      + exact HOWN.
      + split; [exact HO|]. cbn [at_pc th_pc th_dev th_call w_sock]. exists c. unfold fupd at 1 2. cbn [w_conn]. unfold fupd. rewrite Nat.eqb_refl, HR2. cbn [app].
        split; [rewrite E4; f_equal; apply answer_ext; intros; now rewrite HM|]. split; [exact HC|]. split; [exact HR1|]. split; [exact E3|]. split; [reflexivity|exact E6].
      + intros b. rewrite E5. apply effect_ext. exact HM.
    - destruct HT as (c & -> & HC & HR1 & HR2 & -> & HRL).
      destruct (Z.ltb_spec 0 (wanted resp)) as [HP|HP].
      + rewrite HC. destruct (wanted_next resp (w_conn w c) k HR2 HP) as (HNE & HAPP & HW).
        destruct (w_conn w c) as [|b0 br] eqn:ECN; [congruence|]. rewrite <- ECN in *. clear HNE.
        cbv zeta in *. rewrite HW, SN. set (n := Z.min (wanted resp) (Z.max 1 k)) in *.
        exists (m, a1 ++ Answered (call_result (th_call t) (resp ++ w_conn w c)) :: a2). split; [now left|].
        eapply (inv_put w); [exact HI|exact EL|exact LA|reflexivity|reflexivity|cbn; lia| | | | |exact HM]; cbn [w_sock w_conn w_next w_srv].
        * reflexivity.
        * intros d c' Hd ND Hc. unfold fupd. destruct (Nat.eqb_spec c' c) as [->|]; [|reflexivity]. destruct (HOWN c HC) as [_ X]. destruct (X d Hd ND Hc).
        * exact HOWN.
        * split; [exact HO|]. cbn [at_pc th_pc th_dev th_call w_sock w_conn w_next]. exists c. unfold fupd. rewrite Nat.eqb_refl, HAPP. auto 10.
      + assert (HE : w_conn w c = []).
        { destruct (wanted_spec resp (w_conn w c) HR2) as [W1 W2]. destruct (Z.lt_ge_cases (zlen resp) 9); [destruct W1; lia|].
          assert (zlen (w_conn w c) = 0) by (pose proof (zlen_nonneg (w_conn w c)); lia). now apply zlen_0_nil. }
        rewrite HE, app_nil_r. exists (m, a1 ++ Answered (call_result (th_call t) resp) :: a2). split; [now left|]. apply HGO. split; [exact HO|].
        cbn [at_pc th_pc th_dev th_call]. split; [reflexivity|]. intros c' Hc'. rewrite HC in Hc'. apply Some_inj in Hc'. subst c'. split; assumption.
    - destruct HT as [-> HT]. exists (m, a1 ++ Returned r :: a2). split; [right; constructor|].
      eapply (inv_put w); [exact HI|exact EL|exact LA|reflexivity|reflexivity|cbn; lia| | | | |exact HM]; cbn [w_sock w_conn w_next w_srv].
      + intros d ND. destruct mine; [|reflexivity]. unfold fupd. now rewrite (proj2 (Nat.eqb_neq _ _) ND).
      + reflexivity.
      + intros c Hc. destruct mine; [|exact (HOWN c Hc)]. unfold fupd in Hc. rewrite Nat.eqb_refl in Hc. discriminate.
      + split; [exact HO|]. cbn [at_pc th_pc th_dev w_sock]. split; [reflexivity|]. intros c Hc. destruct mine; [|exact (HT c Hc)].
        unfold fupd in Hc. rewrite Nat.eqb_refl in Hc. discriminate.
    - exists (m, a1 ++ a :: a2). split; [now left|exact HI].
  Qed.
  Lemma inv_run sched : forall w s, inv w s -> exists s', ideal_run s s' /\ inv (tsched srv w sched) s'.
  Proof.
    induction sched as [|[i k] sched IH] using rev_ind; intros w s HI; [exists s; split; [constructor|exact HI]|].
    destruct (IH w s HI) as (s1 & R1 & I1). unfold tsched in *. rewrite fold_left_app. cbn [fold_left fst snd].
    destruct (inv_step _ _ i k I1) as (s2 & [->|HS] & I2); [eauto|]. exists s2. split; [|exact I2]. econstructor; eauto.
  Qed.
  Lemma inv_seen w s : inv w s -> Forall2 seen (w_threads w) (snd s).
  Proof.
    intros (HF & _). eapply Forall2_impl'; [|exact HF]. intros t a [_ H]. split; [|intros r]; destruct (th_pc t); split; intros E; try discriminate.
    all: try (destruct E as [c0 E]; destruct H as [H _]; congruence).
    all: try (destruct E as [c0 E]; destruct H as (c & H & _); congruence).
    all: try reflexivity.
    all: try (exists (th_call t); exact (proj1 H)).
    all: try (destruct H as [H _]; congruence).
    all: try (destruct H as (c & -> & _); discriminate).
    all: congruence.
  Qed.

  Lemma inv_keeps_up sched : forall w s, inv w s -> keeps_up srv mem w sched s.
  Proof.
    induction sched as [|[i k] sched IH]; intros w s HI; (split; [split; [now apply inv_seen|apply HI]|]); [exact I|].
    destruct (inv_step w s i k HI) as (s' & HS & HI'). exists s'. split; [|now apply IH].
    destruct HS as [->|HS]; [constructor|]. econstructor; [constructor|exact HS].
  Qed.

  (** ** every turn brings a call nearer to its end *)
  Definition mu (t : thread) : Z :=
    match th_pc t with
    | TStart => reply_len (th_call t) + 5
    | TConnect => reply_len (th_call t) + 4
    | TSend _ => reply_len (th_call t) + 3
    | TRecv _ resp _ => reply_len (th_call t) - zlen resp + 2
    | TEnd _ _ => 1
    | TDone _ => 0
    end.
  Lemma mu_step w s i k t : inv w s -> nth_error (w_threads w) i = Some t ->
    exists t', nth_error (w_threads (tstep srv w i k)) i = Some t' /\ (mu t' <= mu t - 1 \/ (mu t = 0 /\ t' = t)) /\ th_call t' = th_call t.
  Proof.
    intros (HF & _) EN. unfold tstep. rewrite EN. destruct (nth_error_split _ _ EN) as (l1 & l2 & EL & <-). cbv zeta.
    assert (SN : forall y, nth_error (set_nth (w_threads w) (length l1) y) (length l1) = Some y).
    { intros y. rewrite EL, set_nth_app, nth_error_app2, Nat.sub_diag by lia. reflexivity. }
    rewrite EL in HF. destruct (Forall2_app_inv_cons _ _ _ _ _ HF) as (a1 & a & a2 & _ & _ & _ & [HO HT] & _).
    assert (HL : 9 <= reply_len (th_call t)) by (destruct HO as [_ HO]; destruct (th_call t); cbn [reply_len]; lia).
    unfold mu. destruct (th_pc t) as [| |mine|mine resp rem|mine r|r] eqn:EP; cbn [w_threads].
    - rewrite SN. eexists. split; [reflexivity|]. split; [left|reflexivity]. destruct (w_sock w (th_dev t)); cbn [at_pc th_pc th_call]; lia.
    - rewrite SN. eexists. split; [reflexivity|]. split; [left|reflexivity]. cbn [at_pc th_pc th_call]; lia.
    - destruct HT as (_ & c & HC & _). destruct (served t (w_srv w) HO) as (req & s' & wi & E1 & E2 & _). rewrite E1, HC, E2. cbn [w_threads].
      rewrite SN. eexists. split; [reflexivity|]. split; [left|reflexivity]. cbn [at_pc th_pc th_call]. rewrite zlen_nil. lia.
    - destruct HT as (c & _ & HC & _ & HR2 & -> & HRL). rewrite zlen_app in HRL. pose proof (zlen_nonneg (w_conn w c)).
      destruct (Z.ltb_spec 0 (wanted resp)) as [HP|HP].
      + rewrite HC. destruct (wanted_next resp (w_conn w c) k HR2 HP) as (HNE & HAPP & HW). cbv zeta in HW.
        destruct (w_conn w c) as [|b0 br] eqn:ECN; [congruence|]. rewrite <- ECN in *. cbn [w_threads]. rewrite SN.
        eexists. split; [reflexivity|]. split; [left|reflexivity]. cbn [at_pc th_pc th_call]. rewrite zlen_app.
        rewrite zlen_ztake by lia. assert (0 < zlen (w_conn w c)) by (rewrite ECN, zlen_cons; pose proof (zlen_nonneg br); lia). lia.
      + cbn [w_threads]. rewrite SN. eexists. split; [reflexivity|]. split; [left|reflexivity]. cbn [at_pc th_pc]. lia.
    - rewrite SN. eexists. split; [reflexivity|]. split; [left|reflexivity]. cbn [at_pc th_pc]. lia.
    - exists t. split; [exact EN|]. rewrite EP. auto.
  Qed.
  Lemma nth_set_other {A} (l : list A) i j x : i <> j -> nth_error (set_nth l j x) i = nth_error l i.
  Proof. revert i j. induction l as [|y l IH]; intros [|i] [|j] H; try reflexivity; try congruence. cbn. apply IH. congruence. Qed.
  Lemma step_other w j k i : i <> j -> nth_error (w_threads (tstep srv w j k)) i = nth_error (w_threads w) i.
  Proof.
    intros H. unfold tstep. destruct (nth_error (w_threads w) j) as [t|]; [|reflexivity]. cbv zeta.
    repeat match goal with |- context [match ?x with _ => _ end] => destruct x end; cbn [w_threads]; try reflexivity; now apply nth_set_other.
  Qed.
  Definition turns (i : nat) (l : list (nat * Z)) : Z := zlen (filter (fun x => (fst x =? i)%nat) l).
  Lemma mu_run sched : forall w s i t, inv w s -> nth_error (w_threads w) i = Some t ->
    exists t', nth_error (w_threads (tsched srv w sched)) i = Some t' /\ (mu t' <= mu t - turns i sched \/ mu t' = 0).
  Proof.
    induction sched as [|[j k] sched IH]; intros w s i t HI EN.
    { exists t. split; [exact EN|]. left. change (turns i []) with 0. lia. }
    change (tsched srv w ((j, k) :: sched)) with (tsched srv (tstep srv w j k) sched). destruct (inv_step w s j k HI) as (s' & _ & HI').
    unfold turns. cbn [filter fst]. destruct (Nat.eqb_spec j i) as [->|NE].
    - destruct (mu_step w s i k t HI EN) as (t1 & E1 & HM & _). destruct (IH _ _ _ _ HI' E1) as (t' & E2 & H2). exists t'. split; [exact E2|].
      fold (turns i sched) in *. rewrite zlen_cons. fold (turns i sched).
      destruct HM as [HM|[HM ->]]; [destruct H2; [left; lia|right; lia]|].
      assert (0 <= mu t').
      { destruct (inv_run sched _ _ HI') as (s2 & _ & (HF & _)). destruct (nth_error_split _ _ E2) as (l1 & l2 & EL & _). rewrite EL in HF.
        destruct (Forall2_app_inv_cons _ _ _ _ _ HF) as (? & ? & ? & _ & _ & _ & [HO HT] & _).
        assert (HL : 9 <= reply_len (th_call t')) by (destruct HO as [_ HO]; destruct (th_call t'); cbn [reply_len]; lia).
        unfold mu. destruct (th_pc t'); try lia. destruct HT as (c & _ & _ & _ & _ & _ & HRL). rewrite zlen_app in HRL.
        pose proof (zlen_nonneg (w_conn (tsched srv (tstep srv w i k) sched) c)). lia. }
      assert (0 <= turns i sched) by apply zlen_nonneg. destruct H2; [right; lia|auto].
    - rewrite <- (step_other w j k i) in EN by congruence. destruct (IH _ _ _ _ HI' EN) as (t' & E2 & H2). exists t'. auto.
  Qed.
  Lemma mu_zero w s i t : inv w s -> nth_error (w_threads w) i = Some t -> mu t <= 0 -> exists r, th_pc t = TDone r.
  Proof.
    intros (HF & _) EN HM. destruct (nth_error_split _ _ EN) as (l1 & l2 & EL & _). rewrite EL in HF.
    destruct (Forall2_app_inv_cons _ _ _ _ _ HF) as (? & ? & ? & _ & _ & _ & [HO HT] & _).
    assert (HL : 9 <= reply_len (th_call t)) by (destruct HO as [_ HO]; destruct (th_call t); cbn [reply_len]; lia).
    unfold mu in HM. destruct (th_pc t); try lia; [|eauto]. destruct HT as (c & _ & _ & _ & _ & _ & HRL). rewrite zlen_app in HRL.
    pose proof (zlen_nonneg (w_conn w c)). lia.
  Qed.
  Lemma inv_start w : own_devices w -> Forall (fun t => call_ok srv mem (th_slave t) (th_call t)) (w_threads w) ->
    inv w (mem (w_srv w), map (fun t => Idle (th_call t)) (w_threads w)).
  Proof.
    intros (HN & HS & HC) HO. split; [|split; [split; [exact HN|]|reflexivity]]; cbn [snd].
    - assert (HIN : forall t, In t (w_threads w) -> In (th_dev t) (map th_dev (w_threads w))) by (intros; now apply in_map).
      revert HIN HS HO. generalize (w_threads w) at 1 3 4 5 6. intros l HIN HS HO. induction l as [|t l IH]; [constructor|].
      inversion HS; inversion HO; subst. cbn [map]. constructor; [|apply IH; auto; intros; apply HIN; now right].
      split; [assumption|]. rewrite H1. split; [reflexivity|]. intros c Hc. destruct (HC _ c (HIN t (or_introl eq_refl)) Hc) as (A & B & _). split; assumption.
    - intros d c Hd Hc. destruct (HC d c Hd Hc) as (A & _ & B). split; [exact A|exact B].
  Qed.

  (** ** a thread that runs alone *)
  Definition alone (w : world D) (t : thread) : world D := mkW (w_srv w) (w_next w) (w_conn w) (w_sock w) [t].
  Lemma alone_step w i k t : nth_error (w_threads w) i = Some t ->
    exists t', nth_error (w_threads (tstep srv w i k)) i = Some t' /\ tstep srv (alone w t) 0 k = alone (tstep srv w i k) t'.
  Proof.
    intros EN. unfold tstep. rewrite EN. cbn [alone w_threads nth_error]. cbv zeta. cbn [w_sock w_conn w_srv w_next alone].
    assert (SN : forall y, nth_error (set_nth (w_threads w) i y) i = Some y).
    { intros y. destruct (nth_error_split _ _ EN) as (l1 & l2 & -> & <-). rewrite set_nth_app, nth_error_app2, Nat.sub_diag by lia. reflexivity. }
    repeat match goal with |- context [match ?x with _ => _ end] => destruct x end; cbn [w_threads set_nth w_srv w_conn w_sock w_next];
      rewrite ?SN; eexists; (split; [first [reflexivity|exact EN]|reflexivity]).
  Qed.
  Lemma alone_run i ks : forall w t, nth_error (w_threads w) i = Some t ->
    exists t', nth_error (w_threads (tsched srv w (map (pair i) ks))) i = Some t' /\
      tsched srv (alone w t) (map (pair O) ks) = alone (tsched srv w (map (pair i) ks)) t' /\
      forall j, j <> i -> nth_error (w_threads (tsched srv w (map (pair i) ks))) j = nth_error (w_threads w) j.
  Proof.
    induction ks as [|k ks IH]; intros w t EN; [exists t; auto|]. destruct (alone_step w i k t EN) as (t1 & E1 & EA).
    destruct (IH _ t1 E1) as (t' & E2 & EB & EJ). exists t'. cbn [map]. 
    change (tsched srv w ((i, k) :: map (pair i) ks)) with (tsched srv (tstep srv w i k) (map (pair i) ks)).
    change (tsched srv (alone w t) ((O, k) :: map (pair O) ks)) with (tsched srv (tstep srv (alone w t) 0 k) (map (pair O) ks)).
    rewrite EA. split; [exact E2|]. split; [exact EB|]. intros j Hj. rewrite EJ by exact Hj. now apply step_other.
  Qed.
  Lemma ideal_one m c s : ideal_run (m, [Idle c]) s ->
    s = (m, [Idle c]) \/ s = (m, [Waiting c]) \/ s = (effect c m, [Answered (answer c m)]) \/ s = (effect c m, [Returned (answer c m)]).
  Proof.
    intros H. remember (m, [Idle c]) as s0 eqn:E. induction H as [s|s t u _ IH HS]; [auto|]. specialize (IH E). subst s.
    assert (ONE : forall (l r : list acall) x y, l ++ x :: r = [y] -> l = [] /\ r = [] /\ x = y).
    { intros l r x y HH. destruct l as [|a l]; [cbn [app] in HH; repeat split; congruence|]. destruct l; cbn [app] in HH; discriminate HH. }
    destruct IH as [E1|[E1|[E1|E1]]]; subst t; inversion HS as [m0 l0 c0 r0 EM EL|m0 l0 c0 r0 EM EL|m0 l0 x0 r0 EM EL]; subst.
    all: match goal with H : _ ++ _ :: _ = _ |- _ => apply ONE in H; destruct H as (? & ? & HX); subst end; try discriminate HX; cbn [app].
    - assert (c0 = c) by congruence. subst. auto.
    - assert (c0 = c) by congruence. subst. auto.
    - assert (x0 = answer c m) by congruence. subst. auto.
  Qed.
End P.
