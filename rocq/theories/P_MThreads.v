(** * P_MThreads: lemmas for C114. *)
From Verif Require Import Py P_List M_Wire M_Rtu S_Modbus P_Rtu M_Tcp S_Tcp P_Tcp M_Threads S_Threads P_Threads M_MThreads S_MThreads.

Section P.
  Context {D : Type} (srv : server D) (mem : D -> memory).
  Definition vready (w : uworld D) (c : nat) : Prop := (c < v_next w)%nat /\ v_conn w c = [].
  Definition idle (w : uworld D) (d : nat) : Prop := forall c, v_sock w d = Some c -> vready w c.
  Definition uinv (w : uworld D) (t : uthread) (a : athread) : Prop :=
    Forall (ucall_ok srv mem (u_slave t)) (u_prog t) /\ a_todo a = u_prog t /\ a_out a = u_out t /\
    match u_prog t with
    | [] => u_pc t = UStart /\ a_now a = None /\ idle w (u_dev t)
    | c :: _ =>
      match u_pc t with
      | UStart => a_now a = None /\ idle w (u_dev t)
      | UConnect => a_now a = Some (0, []) /\ v_sock w (u_dev t) = None
      | USend _ off acc => a_now a = Some (off, acc) /\ 0 <= off /\ (exists cn, v_sock w (u_dev t) = Some cn /\ vready w cn) /\
          match c with URead _ _ _ _ => True | UWrite _ _ _ => off = 0 /\ acc = [] end
      | URecv _ off acc resp rem => 0 <= off < size c /\ exists cn f, a_now a = Some (off + width c off, acc ++ f) /\
          call_result (part c off) (resp ++ v_conn w cn) = Ok f /\ v_sock w (u_dev t) = Some cn /\ (cn < v_next w)%nat /\
          one_frame (resp ++ v_conn w cn) /\ rem = wanted resp /\ zlen (resp ++ v_conn w cn) = reply_len (part c off) /\
          match c with URead _ _ _ _ => zlen f = 2 * width c off | UWrite _ _ _ => off = 0 /\ acc = [] /\ f = [] end
      | UEnd _ r => exists off acc, a_now a = Some (off, acc) /\ size c <= off /\ r = Ok acc /\ idle w (u_dev t)
      end
    end.
  Definition udevs (w : uworld D) : list nat := map u_dev (v_threads w).
  Definition useparate (w : uworld D) : Prop :=
    NoDup (udevs w) /\
    forall d c, In d (udevs w) -> v_sock w d = Some c -> (c < v_next w)%nat /\ forall d', In d' (udevs w) -> v_sock w d' = Some c -> d' = d.
  Definition winv (w : uworld D) (s : memory * list athread) : Prop :=
    Forall2 (uinv w) (v_threads w) (snd s) /\ useparate w /\ forall a, mem (v_srv w) a = fst s a.

  Lemma uinv_frame w w' t a : v_sock w' (u_dev t) = v_sock w (u_dev t) -> (v_next w <= v_next w')%nat ->
    (forall c, v_sock w (u_dev t) = Some c -> v_conn w' c = v_conn w c) -> uinv w t a -> uinv w' t a.
  Proof.
    intros HS HN HC (H1 & H2 & H3 & H). split; [exact H1|]. split; [exact H2|]. split; [exact H3|].
    assert (HI : idle w (u_dev t) -> idle w' (u_dev t)).
    { intros HI c Hc. rewrite HS in Hc. destruct (HI c Hc). split; [lia|]. now rewrite HC. }
    destruct (u_prog t) as [|c rest]; [tauto|]. destruct (u_pc t); rewrite ?HS.
    - tauto.
    - exact H.
    - destruct H as (E & H0 & (cn & Hc & H4 & H5) & H6). split; [exact E|]. split; [exact H0|]. split; [|exact H6]. exists cn. split; [exact Hc|]. split; [lia|]. rewrite HC by exact Hc. exact H5.
    - destruct H as (H0 & cn & f & E & E1 & Hc & H4 & H5). split; [exact H0|]. exists cn, f. rewrite (HC cn Hc). split; [exact E|]. split; [exact E1|]. split; [exact Hc|]. split; [lia|exact H5].
    - destruct H as (off & acc & E & E1 & E2 & H5). exists off, acc. auto.
  Qed.

  (** replacing one thread *)
  Lemma winv_put w w' m m' l1 t t' l2 a1 a a' a2 :
    winv w (m, a1 ++ a :: a2) -> v_threads w = l1 ++ t :: l2 -> length a1 = length l1 ->
    v_threads w' = l1 ++ t' :: l2 -> u_dev t' = u_dev t -> (v_next w <= v_next w')%nat ->
    (forall d, d <> u_dev t -> v_sock w' d = v_sock w d) ->
    (forall d c, In d (udevs w) -> d <> u_dev t -> v_sock w d = Some c -> v_conn w' c = v_conn w c) ->
    (forall c, v_sock w' (u_dev t) = Some c -> (c < v_next w')%nat /\ forall d, In d (udevs w) -> d <> u_dev t -> v_sock w d <> Some c) ->
    uinv w' t' a' -> (forall b, mem (v_srv w') b = m' b) -> winv w' (m', a1 ++ a' :: a2).
  Proof.
    intros (HF & (HN & HS) & HM) HT HL HT' HD HX HO HC HI HV HM'. cbn [snd] in HF.
    assert (ED : udevs w' = udevs w) by (unfold udevs; rewrite HT, HT', !map_app; cbn [map]; now rewrite HD).
    rewrite HT in HF. apply Forall2_app_inv_l in HF as (b1 & b2 & F1 & F2 & EA).
    assert (LE : length b1 = length a1) by (rewrite HL; symmetry; eapply Forall2_len; eauto).
    assert (EB : b1 = a1 /\ b2 = a :: a2).
    { clear -EA LE. revert b1 EA LE. induction a1 as [|x a1 IH]; intros [|y b1] EA LE; try discriminate; cbn [app] in *; [auto|].
      assert (x = y) by congruence. assert (a1 ++ a :: a2 = b1 ++ b2) by congruence. destruct (IH b1 H0 ltac:(cbn in LE; lia)) as [-> ->]. subst. auto. }
    destruct EB as [-> ->]. inversion F2 as [|? ? ? ? _ F3]; subst.
    assert (HOTH : forall x, In x (l1 ++ l2) -> u_dev x <> u_dev t).
    { intros x Hx E. unfold udevs in HN. rewrite HT, map_app in HN. cbn [map] in HN. apply NoDup_remove_2 in HN. apply HN.
      rewrite <- map_app, <- E. now apply in_map. }
    assert (FR : forall ls as_, (forall x, In x ls -> In x (l1 ++ l2)) -> Forall2 (uinv w) ls as_ -> Forall2 (uinv w') ls as_).
    { intros ls as_ Hin H. induction H as [|x y ls as_ Hxy _ IH]; constructor.
      - apply (uinv_frame w); auto.
        + apply HO, HOTH, Hin. now left.
        + intros c Hc. apply (HC (u_dev x)); [|apply HOTH, Hin; now left|exact Hc].
          unfold udevs. rewrite HT. apply in_map. specialize (Hin x (or_introl eq_refl)). apply in_app_or in Hin. apply in_or_app. cbn. tauto.
      - apply IH. intros z Hz. apply Hin. now right. }
    split; [|split; [|exact HM']].
    - rewrite HT'. cbn [snd]. apply Forall2_app; [apply FR; [intros; apply in_or_app; auto|exact F1]|]. constructor; [exact HV|].
      apply FR; [intros; apply in_or_app; auto|exact F3].
    - unfold useparate. rewrite ED. split; [exact HN|]. intros d c Hd Hc.
      destruct (Nat.eq_dec d (u_dev t)) as [->|ND].
      + destruct (HI c Hc) as [B1 B2]. split; [exact B1|]. intros d' Hd' Hc'. destruct (Nat.eq_dec d' (u_dev t)) as [|ND]; [assumption|].
        rewrite HO in Hc' by exact ND. destruct (B2 d' Hd' ND Hc').
      + rewrite HO in Hc by exact ND. destruct (HS d c Hd Hc) as [B1 B2]. split; [lia|]. intros d' Hd' Hc'.
        destruct (Nat.eq_dec d' (u_dev t)) as [->|ND'].
        * destruct (HI c Hc') as [_ B3]. destruct (B3 d Hd ND Hc).
        * rewrite HO in Hc' by exact ND'. auto.
  Qed.

  Lemma min_if a b : (if a <? b then a else b) = Z.min a b.
  Proof. destruct (Z.ltb_spec a b); lia. Qed.
  (** what the server answers to a request of a call *)
  Lemma part_served slave c off s : ucall_ok srv mem slave c -> 0 <= off < size c -> match c with URead _ _ _ _ => True | UWrite _ _ _ => off = 0 end ->
    exists req s' wi, call_req slave (part c off) = Ok req /\ srv_send srv s req = (s', Some wi) /\ one_frame (w_bytes wi) /\
    zlen (w_bytes wi) = reply_len (part c off) /\ call_result (part c off) (w_bytes wi) = Ok (found c off (mem s)) /\ forall a, mem s' a = change c (mem s) a.
  Proof.
    intros [HB HC] Ho HW. assert (HK : call_ok srv mem slave (part c off)).
    { split; [exact HB|]. destruct c as [op addr count mc|addr data mc]; cbn [part size] in *.
      - rewrite min_if. destruct HC as (H1 & H2 & H3 & H4 & H5). split; [exact H1|]. lia.
      - destruct HC as (H1 & H2 & H3 & H4 & H5 & H6). split; [exact H1|]. split; [exact H2|]. split; [exact H3|]. lia. }
    destruct (served srv mem (mkT 0 slave (part c off) TStart) s HK) as (req & s' & wi & E1 & E2 & E3 & E4 & E5 & E6). cbn [th_slave th_call] in *.
    exists req, s', wi. split; [exact E1|]. split; [exact E2|]. split; [exact E3|]. split; [exact E4|].
    destruct c as [op addr count mc|addr data mc]; cbn [part found width change answer effect] in *; [rewrite min_if in *|]; auto.
  Qed.
  Lemma change_ext c m m' : (forall a, m a = m' a) -> forall a, change c m a = change c m' a.
  Proof. intros H a. destruct c; cbn [change]; [apply H|now apply P_Threads.store_ext]. Qed.
  Lemma found_ext c off m m' : (forall a, m a = m' a) -> found c off m = found c off m'.
  Proof. intros H. destruct c; cbn [found]; [now apply regs_ext|reflexivity]. Qed.

  Lemma winv_step w s i k : winv w s -> exists s', (s' = s \/ ideal_step i s s') /\ winv (ustep srv w i k) s'.
  Proof.
    intros HI. unfold ustep. destruct (nth_error (v_threads w) i) as [t|] eqn:EN; [|exists s; auto].
    destruct (nth_error_split _ _ EN) as (l1 & l2 & EL & <-). cbv zeta.
    assert (SN : forall y, set_nth (v_threads w) (length l1) y = l1 ++ y :: l2) by (intros y; rewrite EL; apply set_nth_app). clear EN.
    destruct s as [m l]. destruct (HI) as (HF & (HN & HSEP) & HM). cbn [fst snd] in *. rewrite EL in HF.
    destruct (Forall2_app_inv_cons _ _ _ _ _ HF) as (a1 & a & a2 & -> & LA & _ & HT & _). destruct HT as (HO & HTO & HOU & HT).
    destruct (u_prog t) as [|c rest] eqn:EPR; [exists (m, a1 ++ a :: a2); split; [now left|exact HI]|].
    assert (HOC : ucall_ok srv mem (u_slave t) c) by (inversion HO; assumption).
    assert (DT : In (u_dev t) (udevs w)) by (unfold udevs; rewrite EL; apply in_map, in_or_app; right; now left).
    assert (HOWN : forall c, v_sock w (u_dev t) = Some c -> (c < v_next w)%nat /\ forall d, In d (udevs w) -> d <> u_dev t -> v_sock w d <> Some c).
    { intros c0 Hc. destruct (HSEP _ c0 DT Hc) as [B1 B2]. split; [exact B1|]. intros d Hd ND Hc'. apply ND. exact (B2 d Hd Hc'). }
    assert (HGO : forall p a', uinv w (to_pc t p) a' -> winv (mkV (v_srv w) (v_next w) (v_conn w) (v_sock w) (l1 ++ to_pc t p :: l2)) (m, a1 ++ a' :: a2)).
    { intros p a' H. eapply (winv_put w); [exact HI|exact EL|exact LA|reflexivity|reflexivity|cbn; lia|reflexivity|reflexivity|exact HOWN|exact H|exact HM]. }
    assert (HST : forall m' a', astep (m, a) (m', a') -> ideal_step (length l1) (m, a1 ++ a :: a2) (m', a1 ++ a' :: a2)).
    { intros m' a' H. exists a1, a, a', a2. auto. }
    destruct a as [todo now out]. cbn [a_todo a_now a_out] in *. subst todo out.
    destruct (u_pc t) as [| |mine off acc|mine off acc resp rem|mine r] eqn:EP; rewrite ?SN.
    - destruct HT as [-> HT]. exists (m, a1 ++ mkA (c :: rest) (Some (0, [])) (u_out t) :: a2). split; [right; apply HST; constructor|]. apply HGO.
      unfold uinv. cbn [to_pc u_prog u_pc u_slave u_dev u_out a_todo a_now a_out]. rewrite EPR. split; [exact HO|]. split; [reflexivity|]. split; [reflexivity|].
      destruct (v_sock w (u_dev t)) as [cn|] eqn:EC; (split; [reflexivity|]).
      + split; [lia|]. split; [exists cn; split; [reflexivity|now apply HT]|]. destruct c; auto.
      + reflexivity.
    - destruct HT as [-> HT]. exists (m, a1 ++ mkA (c :: rest) (Some (0, [])) (u_out t) :: a2). split; [now left|].
      eapply (winv_put w); [exact HI|exact EL|exact LA|reflexivity|reflexivity|cbn; lia| | | | |exact HM]; cbn [v_sock v_conn v_next].
      + intros d ND. unfold fupd. now rewrite (proj2 (Nat.eqb_neq _ _) ND).
      + intros d c0 Hd ND Hc. unfold fupd. destruct (Nat.eqb_spec c0 (v_next w)) as [->|]; [|reflexivity]. destruct (HSEP _ _ Hd Hc). lia.
      + intros c0 Hc. unfold fupd in Hc. rewrite Nat.eqb_refl in Hc. apply Some_inj in Hc. subst c0. split; [lia|]. intros d Hd _ Hc.
        destruct (HSEP _ _ Hd Hc). lia.
      + unfold uinv. cbn [to_pc u_prog u_pc u_slave u_dev u_out a_todo a_now a_out v_sock]. rewrite EPR. split; [exact HO|]. split; [reflexivity|]. split; [reflexivity|].
        split; [reflexivity|]. split; [lia|]. split; [|destruct c; auto]. exists (v_next w). unfold fupd, vready. cbn [v_next v_conn]. rewrite !Nat.eqb_refl. split; [reflexivity|]. split; [lia|reflexivity].
    - destruct HT as (-> & Hoff & (cn & HC & HR) & HWR).
      assert (HEND : size c <= off -> winv (mkV (v_srv w) (v_next w) (v_conn w) (v_sock w) (l1 ++ to_pc t (UEnd mine (Ok acc)) :: l2)) (m, a1 ++ mkA (c :: rest) (Some (off, acc)) (u_out t) :: a2)).
      { intros Hsz. apply HGO. unfold uinv. cbn [to_pc u_prog u_pc u_slave u_dev u_out a_todo a_now a_out]. rewrite EPR. split; [exact HO|]. split; [reflexivity|]. split; [reflexivity|].
        exists off, acc. split; [reflexivity|]. split; [exact Hsz|]. split; [reflexivity|]. intros c0 Hc0. rewrite HC in Hc0. apply Some_inj in Hc0. now subst c0. }
      assert (ETST : match c with URead _ _ count _ => count - off <=? 0 | UWrite _ data _ => zlen data <=? 0 end = (size c <=? off)).
      { destruct c as [op addr count mc|addr data mc]; cbn [size].
        - destruct (Z.leb_spec (count - off) 0), (Z.leb_spec count off); lia || reflexivity.
        - destruct HWR as [-> _]. destruct HOC as (_ & _ & _ & HE & _). pose proof (Z.div_mod (zlen data) 2 ltac:(lia)).
          destruct (Z.leb_spec (zlen data) 0), (Z.leb_spec (zlen data / 2) 0); lia || reflexivity. }
      rewrite ETST. destruct (Z.leb_spec (size c) off) as [Hsz|Hsz].
      { rewrite ?SN. eexists. split; [left; reflexivity|]. now apply HEND. }
      assert (EUN : match c with URead _ _ _ _ => false | UWrite _ data mc => 2 * mc <? zlen data end = false).
      { destruct c as [|addr data mc]; [reflexivity|]. destruct HOC as (_ & _ & _ & HE & HB & _). pose proof (Z.div_mod (zlen data) 2 ltac:(lia)). apply Z.ltb_ge. lia. }
      rewrite EUN. destruct (part_served (u_slave t) c off (v_srv w) HOC ltac:(lia)) as (req & s' & wi & E1 & E2 & E3 & E6 & E4 & E5); [destruct c; [exact I|tauto]|].
      rewrite E1, HC, E2, ?SN. exists (change c m, a1 ++ mkA (c :: rest) (Some (off + width c off, acc ++ found c off m)) (u_out t) :: a2). split; [right; apply HST; constructor; exact Hsz|].
      destruct HR as [HR1 HR2].
      eapply (winv_put w); [exact HI|exact EL|exact LA|reflexivity|reflexivity|cbn; lia| | | | | ]; cbn [v_sock v_conn v_next v_srv].
      + reflexivity.
      + intros d c' Hd ND Hc. unfold fupd. destruct (Nat.eqb_spec c' cn) as [->|]; [|reflexivity]. destruct (HOWN cn HC) as [_ X]. destruct (X d Hd ND Hc).
      + exact HOWN.
      + unfold uinv. cbn [to_pc u_prog u_pc u_slave u_dev u_out a_todo a_now a_out v_sock v_conn v_next]. rewrite EPR. split; [exact HO|]. split; [reflexivity|]. split; [reflexivity|].
        split; [lia|]. exists cn, (found c off m). unfold fupd. rewrite Nat.eqb_refl, HR2. cbn [app].
        split; [reflexivity|]. split; [rewrite E4; f_equal; apply found_ext; exact HM|]. split; [exact HC|]. split; [exact HR1|]. split; [exact E3|]. split; [reflexivity|]. split; [exact E6|].
        destruct c as [op addr count mc|addr data mc]; cbn [found width size] in *; [|tauto]. rewrite regs_len. destruct HOC as (_ & _ & _ & HB & _). lia.
      + intros b. rewrite E5. apply change_ext. exact HM.
    - destruct HT as (Hoff & cn & f & -> & EF & HC & HR1 & HR2 & -> & HRL & HWR).
      destruct (Z.ltb_spec 0 (wanted resp)) as [HP|HP].
      + rewrite HC. destruct (wanted_next resp (v_conn w cn) k HR2 HP) as (HNE & HAPP & HW).
        destruct (v_conn w cn) as [|b0 br] eqn:ECN; [congruence|]. rewrite <- ECN in *. clear HNE.
        cbv zeta in *. rewrite HW, ?SN. set (n := Z.min (wanted resp) (Z.max 1 k)) in *.
        eexists. split; [left; reflexivity|].
        eapply (winv_put w); [exact HI|exact EL|exact LA|reflexivity|reflexivity|cbn; lia| | | | |exact HM]; cbn [v_sock v_conn v_next v_srv].
        * reflexivity.
        * intros d c' Hd ND Hc. unfold fupd. destruct (Nat.eqb_spec c' cn) as [->|]; [|reflexivity]. destruct (HOWN cn HC) as [_ X]. destruct (X d Hd ND Hc).
        * exact HOWN.
        * unfold uinv. cbn [to_pc u_prog u_pc u_slave u_dev u_out a_todo a_now a_out v_sock v_conn v_next]. rewrite EPR. split; [exact HO|]. split; [reflexivity|]. split; [reflexivity|].
          split; [exact Hoff|]. exists cn, f. unfold fupd. rewrite Nat.eqb_refl, HAPP. auto 12.
      + assert (HE : v_conn w cn = []).
        { destruct (wanted_spec resp (v_conn w cn) HR2) as [W1 W2]. destruct (Z.lt_ge_cases (zlen resp) 9); [destruct W1; lia|].
          assert (zlen (v_conn w cn) = 0) by (pose proof (zlen_nonneg (v_conn w cn)); lia). now apply zlen_0_nil. }
        rewrite HE, app_nil_r in EF. rewrite EF. eexists. split; [left; reflexivity|].
        assert (HID : idle w (u_dev t)) by (intros c' Hc'; rewrite HC in Hc'; apply Some_inj in Hc'; subst c'; split; assumption).
        destruct c as [op addr count mc|addr data mc]; cbn [width size] in *.
        * destruct HOC as (_ & _ & _ & HB & _). destruct f as [|b f0] eqn:Ef; [rewrite zlen_nil in HWR; lia|]. rewrite ?SN, min_if. rewrite <- Ef in *. apply HGO.
          unfold uinv. cbn [to_pc u_prog u_pc u_slave u_dev u_out a_todo a_now a_out]. rewrite EPR. split; [exact HO|]. split; [reflexivity|]. split; [reflexivity|].
          split; [reflexivity|]. split; [lia|]. split; [|exact I]. exists cn. split; [exact HC|]. split; assumption.
        * destruct HWR as (-> & -> & ->). rewrite ?SN. apply HGO.
          unfold uinv. cbn [to_pc u_prog u_pc u_slave u_dev u_out a_todo a_now a_out]. rewrite EPR. split; [exact HO|]. split; [reflexivity|]. split; [reflexivity|].
          exists (0 + zlen data / 2), []. split; [reflexivity|]. split; [cbn [size]; lia|]. split; [reflexivity|exact HID].
    - destruct HT as (off & acc & -> & Hsz & -> & HT). exists (m, a1 ++ mkA rest None (u_out t ++ [Ok acc]) :: a2). split; [right; apply HST; constructor; exact Hsz|].
      assert (HID : forall w', v_sock w' = (if mine then fupd (v_sock w) (u_dev t) None else v_sock w) -> v_conn w' = v_conn w -> v_next w' = v_next w -> idle w' (u_dev t)).
      { intros w' E1 E2 E3 c0 Hc0. rewrite E1 in Hc0. unfold vready. rewrite E2, E3. destruct mine; [|exact (HT c0 Hc0)]. unfold fupd in Hc0. rewrite Nat.eqb_refl in Hc0. discriminate. }
      eapply (winv_put w); [exact HI|exact EL|exact LA|reflexivity|reflexivity|cbn; lia| | | | |exact HM]; cbn [v_sock v_conn v_next v_srv].
      + intros d ND. destruct mine; [|reflexivity]. unfold fupd. now rewrite (proj2 (Nat.eqb_neq _ _) ND).
      + reflexivity.
      + intros c0 Hc. destruct mine; [|exact (HOWN c0 Hc)]. unfold fupd in Hc. rewrite Nat.eqb_refl in Hc. discriminate.
      + unfold uinv. cbn [next_call u_prog u_pc u_slave u_dev u_out a_todo a_now a_out]. rewrite EPR. cbn [tl]. split; [inversion HO; assumption|]. split; [reflexivity|]. split; [reflexivity|].
        destruct rest; [split; [reflexivity|]|]; (split; [reflexivity|]); now apply HID.
  Qed.
  Lemma winv_start w : own_objects w -> calls_ok srv mem w -> winv w (ideal_start mem w).
  Proof.
    intros (HN & HS & HC) HO. split; [|split; [split; [exact HN|]|reflexivity]]; cbn [ideal_start snd].
    - assert (HIN : forall t, In t (v_threads w) -> In (u_dev t) (map u_dev (v_threads w))) by (intros; now apply in_map).
      unfold calls_ok in HO. revert HIN HS HO. generalize (v_threads w) at 1 3 4 5 6. intros l HIN HS HO. induction l as [|t l IH]; [constructor|].
      inversion HS as [|? ? [HP HU] HS']; inversion HO as [|? ? HK HO']; subst. cbn [map]. constructor; [|apply IH; auto; intros; apply HIN; now right].
      split; [assumption|]. split; [reflexivity|]. split; [reflexivity|].
      assert (HID : idle w (u_dev t)) by (intros c Hc; destruct (HC _ c (HIN t (or_introl eq_refl)) Hc) as (A & B & _); split; assumption).
      cbn [a_now]. destruct (u_prog t); [auto|]. rewrite HP. auto.
    - intros d c Hd Hc. destruct (HC d c Hd Hc) as (A & _ & B). split; [exact A|exact B].
  Qed.
  Lemma winv_looks w s : winv w s -> looks_as mem w s.
  Proof.
    intros (HF & _ & HM). split; [|exact HM]. eapply Forall2_impl'; [|exact HF]. intros t a (_ & H1 & H2 & H). split; [now symmetry|]. split; [now symmetry|].
    intros HNE. destruct (u_prog t) as [|c rest]; [congruence|]. destruct (u_pc t); split; intros E; try discriminate; try reflexivity.
    - apply H.
    - destruct H as [H _]. congruence.
    - destruct H as [H _]. congruence.
    - destruct H as (_ & cn & f & H & _). congruence.
    - destruct H as (off & acc & H & _). congruence.
  Qed.
End P.

(** ** The ideal program alongside, turn by turn. *)
Lemma after_S {D} (srv : server D) w sched n i k : nth_error sched n = Some (i, k) -> after srv w sched (S n) = ustep srv (after srv w sched n) i k.
Proof.
  intros H. unfold after, usched. destruct (nth_error_split _ _ H) as (l1 & l2 & -> & <-).
  rewrite firstn_app, Nat.sub_succ_l, Nat.sub_diag by lia. rewrite (firstn_all2 l1) by lia. cbn [firstn]. rewrite fold_left_app. cbn [fold_left fst snd].
  rewrite firstn_app, Nat.sub_diag, firstn_all. cbn [firstn]. now rewrite app_nil_r.
Qed.
Definition follows {D} (srv : server D) (mem : D -> memory) (w : uworld D) (sched : list (nat * Z)) (f : nat -> memory * list athread) : Prop :=
  forall n i k, nth_error sched n = Some (i, k) -> f (S n) = f n \/ ideal_step i (f n) (f (S n)).
Lemma trace {D} (srv : server D) (mem : D -> memory) w sched : own_objects w -> calls_ok srv mem w ->
  exists f, f O = ideal_start mem w /\ follows srv mem w sched f /\ forall n, (n <= length sched)%nat -> winv srv mem (after srv w sched n) (f n).
Proof.
  intros HO HC. induction sched as [|[i k] sched IH] using rev_ind.
  - exists (fun _ => ideal_start mem w). split; [reflexivity|]. split; [intros [|n] i k H; discriminate|]. intros n Hn. cbn in Hn. assert (n = O) by lia. subst n. now apply winv_start.
  - destruct IH as (f & H0 & HF & HW). pose proof (HW (length sched) ltac:(lia)) as HL. destruct (winv_step srv mem _ _ i k HL) as (s' & HS & HI').
    assert (EA : forall n, (n <= length sched)%nat -> after srv w (sched ++ [(i, k)]) n = after srv w sched n).
    { intros n Hn. unfold after. rewrite firstn_app. replace (n - length sched)%nat with O by lia. cbn [firstn]. now rewrite app_nil_r. }
    exists (fun n => if (n <=? length sched)%nat then f n else s'). split; [exact H0|]. split.
    + intros n j q Hn. destruct (Nat.lt_ge_cases n (length sched)) as [Hlt|Hge].
      * rewrite nth_error_app1 in Hn by exact Hlt. rewrite !(proj2 (Nat.leb_le _ _)) by lia. exact (HF n j q Hn).
      * assert (n = length sched). { assert (nth_error (sched ++ [(i, k)]) n <> None) by congruence. apply nth_error_Some in H. rewrite app_length in H. cbn in H. lia. }
        subst n. rewrite nth_error_app2, Nat.sub_diag in Hn by lia. cbn in Hn. apply Some_inj in Hn. apply pair_equal_spec in Hn as [<- <-].
        rewrite Nat.leb_refl. rewrite (proj2 (Nat.leb_gt _ _)) by lia. exact HS.
    + intros n Hn. rewrite app_length in Hn. cbn in Hn. destruct (Nat.leb_spec n (length sched)) as [Hle|Hgt]; [rewrite EA by exact Hle; now apply HW|].
      assert (n = S (length sched)) by lia. subst n. rewrite (after_S _ _ _ _ i k) by (rewrite nth_error_app2, Nat.sub_diag by lia; reflexivity). now rewrite EA by lia.
Qed.

(** ** Moments. *)
Lemma portions_snoc H l : forall addr count mc n, portions H addr count mc (l ++ [n]) =
  portions H addr count mc l ++ regs (H n) (addr + mc * zlen l) (Z.to_nat (Z.min mc (count - mc * zlen l))).
Proof.
  induction l as [|x l IH]; intros addr count mc n; cbn [app portions].
  - rewrite zlen_nil, Z.mul_0_r, Z.add_0_r, Z.sub_0_r, app_nil_r. reflexivity.
  - rewrite IH, <- app_assoc. f_equal. f_equal. rewrite zlen_cons. f_equal; [lia|]. f_equal. f_equal. lia.
Qed.
Lemma portions_ext H H' l : forall addr count mc, (forall n a, In n l -> H n a = H' n a) -> portions H addr count mc l = portions H' addr count mc l.
Proof.
  induction l as [|x l IH]; intros addr count mc HE; [reflexivity|]. cbn [portions]. rewrite (regs_ext (H x) (H' x)); [|intros; apply HE; now left].
  f_equal. apply IH. intros; apply HE; now right.
Qed.
Lemma ascend_snoc l n : ascend l -> Forall (fun m => (m < n)%nat) l -> ascend (l ++ [n]).
Proof.
  induction l as [|x l IH]; intros HA HF; cbn; [auto|]. inversion HF; subst. destruct HA as [H3 H4]. split; [|now apply IH].
  apply Forall_app. split; [exact H3|]. repeat constructor. assumption.
Qed.

Section Moments.
  Variables (f : nat -> memory * list athread) (sched : list (nat * Z)) (i : nat).
  Hypothesis HF : forall n j k, nth_error sched n = Some (j, k) -> f (S n) = f n \/ ideal_step j (f n) (f (S n)).
  Definition H (n : nat) : memory := fst (f n).
  Definition during (n j : nat) : Prop := exists a, nth_error (snd (f n)) i = Some a /\ length (a_out a) = j /\ a_now a <> None.
  Definition gathered (c : ucall) (l : list nat) : bytes := match c with URead _ addr count mc => portions H addr count mc l | UWrite _ _ _ => [] end.
  Definition reached (c : ucall) (l : list nat) : Z := match c with URead _ _ count mc => Z.min (mc * zlen l) (Z.max 0 count) | UWrite _ data _ => match l with [] => 0 | _ => zlen data / 2 end end.
  Record call_log (n j : nat) (c : ucall) (l : list nat) (off : Z) (acc : bytes) : Prop := {
    cl_asc : ascend l;
    cl_in : Forall (fun m => (m < n)%nat /\ (exists k, nth_error sched m = Some (i, k)) /\ during m j) l;
    cl_acc : acc = gathered c l;
    cl_off : off = reached c l;
    cl_part : l <> [] -> match c with URead _ _ count mc => mc * (zlen l - 1) < count | UWrite _ data _ => zlen l = 1 end;
    cl_do : forall m a, In m l -> H (S m) a = change c (H m) a;
    cl_only : forall m k a, (m < n)%nat -> nth_error sched m = Some (i, k) -> during m j -> ~ In m l -> H (S m) a = H m a }.
  Definition mc_ok (c : ucall) : Prop := match c with URead _ _ _ mc => 1 <= mc | UWrite _ _ _ => True end.
  Definition thread_log (calls : list ucall) (n : nat) : Prop :=
    forall a, nth_error (snd (f n)) i = Some a ->
    a_todo a = skipn (length (a_out a)) calls /\ (forall m b, (m <= n)%nat -> nth_error (snd (f m)) i = Some b -> (length (a_out b) <= length (a_out a))%nat) /\
    (forall j r c, nth_error (a_out a) j = Some r -> nth_error calls j = Some c -> exists l off acc, r = Ok acc /\ size c <= off /\ call_log n j c l off acc) /\
    match a_now a with
    | None => forall m, (m < n)%nat -> ~ during m (length (a_out a))
    | Some (off, acc) => exists c l, nth_error calls (length (a_out a)) = Some c /\ call_log n (length (a_out a)) c l off acc
    end.
  (** nothing happens in thread [i] *)
  Lemma log_idle n j c l off acc : call_log n j c l off acc -> (forall k, nth_error sched n = Some (i, k) -> during n j -> forall a, H (S n) a = H n a) ->
    call_log (S n) j c l off acc.
  Proof.
    intros [A1 A2 A3 A4 A5 A6 A7] HX. split; auto.
    - eapply Forall_impl; [|exact A2]. cbn. intros m [? ?]. split; [lia|assumption].
    - intros m k a Hm Hk Hd Hin. destruct (Nat.eq_dec m n) as [->|]; [now apply (HX k)|]. apply (A7 m k a); auto. lia.
  Qed.
  Lemma during_lt n j a : nth_error (snd (f n)) i = Some a -> length (a_out a) <> j -> ~ during n j.
  Proof. intros Ha Hj (b & Hb & E & _). congruence. Qed.
  Lemma nth_put {A} (l : list A) x r : nth_error (l ++ x :: r) (length l) = Some x.
  Proof. rewrite nth_error_app2, Nat.sub_diag by lia. reflexivity. Qed.
  Lemma nth_put_other {A} (l : list A) x y r j : j <> length l -> nth_error (l ++ x :: r) j = nth_error (l ++ y :: r) j.
  Proof.
    intros Hj. destruct (Nat.lt_ge_cases j (length l)) as [Hlt|Hge]; [now rewrite !nth_error_app1 by exact Hlt|]. rewrite !nth_error_app2 by lia.
    destruct (j - length l)%nat eqn:E; [lia|reflexivity].
  Qed.
  Lemma thread_log_step calls n j k : Forall mc_ok calls -> nth_error sched n = Some (j, k) -> thread_log calls n -> thread_log calls (S n).
  Proof.
    intros HMC Hn HT a Ha. assert (HMON : forall b (Hb : nth_error (snd (f n)) i = Some b), (length (a_out b) <= length (a_out a))%nat ->
      forall m b', (m <= S n)%nat -> nth_error (snd (f m)) i = Some b' -> (length (a_out b') <= length (a_out a))%nat).
    { intros b Hb Hle m b' Hm Hb'. destruct (Nat.eq_dec m (S n)) as [->|]; [assert (b' = a) by congruence; subst; lia|].
      destruct (HT b Hb) as (_ & X & _). specialize (X m b' ltac:(lia) Hb'). lia. }
    destruct (HF n j k Hn) as [E|(l1 & b & b' & r & E1 & E2 & E3 & HS)].
    { (* no step *)
      assert (Ha' : nth_error (snd (f n)) i = Some a) by (rewrite <- E; exact Ha). destruct (HT a Ha') as (T1 & T2 & T3 & T4).
      assert (EH : forall x, H (S n) x = H n x) by (intros; unfold H; now rewrite E).
      split; [exact T1|]. split; [apply (HMON a Ha'); lia|]. split.
      - intros j0 r0 c0 Hr Hc. destruct (T3 j0 r0 c0 Hr Hc) as (l & off & acc & H1 & H2 & H3). exists l, off, acc. split; [exact H1|]. split; [exact H2|]. apply log_idle; auto.
      - destruct (a_now a) as [[off acc]|] eqn:EN.
        + destruct T4 as (c & l & H1 & H2). exists c, l. split; [exact H1|]. apply log_idle; auto.
        + intros m Hm. destruct (Nat.eq_dec m n) as [->|]; [|apply T4; lia]. intros (a0 & Ha0 & _ & HN). congruence. }
    destruct (Nat.eq_dec j i) as [->|Hji].
    2: { (* another thread's step *)
      assert (Ha' : nth_error (snd (f n)) i = Some a) by (rewrite E1, (nth_put_other l1 b b' r i), <- E3 by congruence; exact Ha). destruct (HT a Ha') as (T1 & T2 & T3 & T4).
      split; [exact T1|]. split; [apply (HMON a Ha'); lia|]. split.
      - intros j0 r0 c0 Hr Hc. destruct (T3 j0 r0 c0 Hr Hc) as (l & off & acc & H1 & H2 & H3). exists l, off, acc. split; [exact H1|]. split; [exact H2|]. apply log_idle; auto.
        intros k0 Hk0. congruence.
      - destruct (a_now a) as [[off acc]|] eqn:EN.
        + destruct T4 as (c & l & H1 & H2). exists c, l. split; [exact H1|]. apply log_idle; auto. intros k0 Hk0. congruence.
        + intros m Hm. destruct (Nat.eq_dec m n) as [->|]; [|apply T4; lia]. intros (a0 & Ha0 & _ & HN). congruence. }
    assert (Hb : nth_error (snd (f n)) i = Some b) by (rewrite E1, <- E2; apply nth_put).
    assert (Hab : a = b') by (rewrite E3, <- E2, nth_put in Ha; apply Some_inj in Ha; congruence). subst b'.
    destruct (HT b Hb) as (T1 & T2 & T3 & T4). fold (H n) in HS. change (fst (f (S n))) with (H (S n)) in HS.
    inversion HS as [m c rest o X1 X2|m c rest off acc o Hoff X1 X2|m c rest off acc o Hoff X1 X2]; subst a b; cbn [a_todo a_now a_out] in *.
    - (* begin *)
      assert (EH : forall x, H (S n) x = H n x) by (intros; congruence).
      split; [exact T1|]. split; [apply (HMON _ Hb); cbn [a_out]; lia|]. split.
      + intros j0 r0 c0 Hr Hc. destruct (T3 j0 r0 c0 Hr Hc) as (l & of & ac & H1 & H2 & H3). exists l, of, ac. split; [exact H1|]. split; [exact H2|]. apply log_idle; auto.
      + exists c, []. split.
        { assert (EC : nth_error (skipn (length o) calls) 0 = Some c) by (now rewrite <- T1). rewrite <- (firstn_skipn (length o) calls).
          assert (HLo : (length o < length calls)%nat). { destruct (Nat.lt_ge_cases (length o) (length calls)); [assumption|]. rewrite skipn_all2 in EC by assumption. discriminate. }
          rewrite nth_error_app2; rewrite firstn_length_le by lia; [now rewrite Nat.sub_diag|lia]. }
        split.
        * exact I.
        * constructor.
        * destruct c; reflexivity.
        * destruct c as [op addr count mc|]; cbn [reached]; [|reflexivity]. change (zlen (@nil nat)) with 0; lia.
        * congruence.
        * intros m0 a0 [].
        * intros m0 k0 a0 Hm Hk Hd _. destruct (Nat.eq_dec m0 n) as [->|]; [apply EH|]. exfalso. apply (T4 m0); [lia|exact Hd].
    - (* request *)
      destruct T4 as (c' & l & Hc' & HLog). assert (c' = c).
      { assert (EC : nth_error (skipn (length o) calls) 0 = Some c) by (now rewrite <- T1).
        assert (HLo : (length o < length calls)%nat) by (apply nth_error_Some; congruence).
        rewrite <- (firstn_skipn (length o) calls) in Hc'. rewrite nth_error_app2 in Hc' by (rewrite firstn_length_le; lia). rewrite firstn_length_le, Nat.sub_diag in Hc' by lia. congruence. }
      subst c'. assert (HMc : mc_ok c) by (rewrite Forall_forall in HMC; apply HMC; now apply nth_error_In in Hc').
      split; [exact T1|]. split; [apply (HMON _ Hb); cbn [a_out]; lia|]. split.
      + intros j0 r0 c0 Hr Hc. destruct (T3 j0 r0 c0 Hr Hc) as (l0 & of & ac & H1 & H2 & H3). exists l0, of, ac. split; [exact H1|]. split; [exact H2|]. apply log_idle; auto.
        intros k0 _ Hd. exfalso. apply (during_lt n j0 _ Hb) in Hd; [exact Hd|]. cbn [a_out]. assert (nth_error o j0 <> None) by congruence. apply nth_error_Some in H0. lia.
      + exists c, (l ++ [n]). split; [exact Hc'|]. destruct HLog as [A1 A2 A3 A4 A5 A6 A7].
        assert (HDn : during n (length o)) by (eexists; split; [exact Hb|]; cbn [a_out a_now]; split; [reflexivity|discriminate]).
        assert (EHn : forall x, H (S n) x = change c (H n) x) by (intros; congruence).
        assert (HRD : match c with URead _ _ count mc => off = mc * zlen l /\ mc * zlen l < count | UWrite _ _ _ => l = [] end).
        { destruct c as [op addr count mc|addr data mc]; cbn [reached size mc_ok] in *; [lia|]. destruct l; [reflexivity|]. lia. }
        split.
        * apply ascend_snoc; [exact A1|]. eapply Forall_impl; [|exact A2]. cbn. tauto.
        * apply Forall_app. split; [eapply Forall_impl; [|exact A2]; cbn; intros m0 [? ?]; split; [lia|assumption]|]. constructor; [split; [lia|split; [eauto|exact HDn]]|constructor].
        * rewrite A3. destruct c as [op addr count mc|addr data mc]; cbn [gathered found width]; [|reflexivity]. rewrite portions_snoc. destruct HRD as [-> _]. reflexivity.
        * destruct c as [op addr count mc|addr data mc]; cbn [reached width mc_ok] in *; [rewrite zlen_app, zlen_cons, zlen_nil, Z.mul_add_distr_l; destruct HRD as [HR1 HR2]; assert (HQ : 0 <= mc * zlen l) by (apply Z.mul_nonneg_nonneg; [lia|apply zlen_nonneg]); clear -HQ HR1 HR2 HMc; rewrite Z.add_0_r, Z.mul_1_r; generalize dependent (mc * zlen l); intros q HQ HR1 HR2; lia|]. subst l. cbn [app]. rewrite A4. lia.
        * intros _. destruct c as [op addr count mc|addr data mc]; rewrite zlen_app, zlen_cons, zlen_nil; [lia|]. subst l. rewrite zlen_nil. lia.
        * intros m0 a0 Hin. apply in_app_or in Hin as [Hin|[<-|[]]]; [now apply A6|apply EHn].
        * intros m0 k0 a0 Hm Hk Hd Hin. destruct (Nat.eq_dec m0 n) as [->|]; [exfalso; apply Hin, in_or_app; right; now left|].
          apply (A7 m0 k0 a0); auto; [lia|]. intros Hi. apply Hin, in_or_app. now left.
    - (* return *)
      destruct T4 as (c' & l & Hc' & HLog). assert (EC : nth_error (skipn (length o) calls) 0 = Some c) by (now rewrite <- T1).
      assert (HLo : (length o < length calls)%nat) by (apply nth_error_Some; congruence).
      assert (c' = c).
      { rewrite <- (firstn_skipn (length o) calls) in Hc'. rewrite nth_error_app2 in Hc' by (rewrite firstn_length_le; lia). rewrite firstn_length_le, Nat.sub_diag in Hc' by lia. congruence. }
      subst c'. assert (EH : forall x, H (S n) x = H n x) by (intros; congruence). split.
      { rewrite app_length. cbn [length]. clear -T1. revert calls T1. generalize (length o) as q. induction q as [|q IH]; intros [|y calls] T1; cbn in *; try discriminate; [congruence|]. now apply IH. }
      split; [apply (HMON _ Hb); cbn [a_out]; rewrite app_length; lia|]. split.
      + intros j0 r0 c0 Hr Hc. destruct (Nat.lt_ge_cases j0 (length o)) as [Hlt|Hge].
        * rewrite nth_error_app1 in Hr by exact Hlt. destruct (T3 j0 r0 c0 Hr Hc) as (l0 & of & ac & H1 & H2 & H3). exists l0, of, ac. split; [exact H1|]. split; [exact H2|]. apply log_idle; auto.
        * rewrite nth_error_app2 in Hr by exact Hge. destruct (j0 - length o)%nat eqn:EJ; [|destruct n0; discriminate]. cbn in Hr. apply Some_inj in Hr. subst r0.
          assert (j0 = length o) by lia. subst j0. assert (c0 = c) by congruence. subst c0. exists l, off, acc. split; [reflexivity|]. split; [exact Hoff|]. apply log_idle; auto.
      + intros m0 Hm (a0 & Ha0 & HLa & _). rewrite app_length in HLa. cbn in HLa. specialize (T2 m0 a0 ltac:(lia) Ha0). cbn [a_out] in T2. lia.
  Qed.
  Lemma thread_log_all calls : Forall mc_ok calls -> (forall a, nth_error (snd (f 0)) i = Some a -> a = mkA calls None []) ->
    forall n, (n <= length sched)%nat -> thread_log calls n.
  Proof.
    intros HMC H0. induction n as [|n IH]; intros Hn.
    - intros a Ha. rewrite (H0 a Ha). cbn [a_todo a_now a_out length skipn]. split; [reflexivity|]. split.
      + intros m b Hm Hb. assert (m = O) by lia. subst m. rewrite (H0 b Hb). cbn. lia.
      + split; [intros [|j] r c Hr; discriminate|]. intros m Hm. lia.
    - destruct (nth_error sched n) as [[j k]|] eqn:En; [|apply nth_error_None in En; lia]. apply (thread_log_step calls n j k HMC En). apply IH. lia.
  Qed.
End Moments.

(** ** Every call returns. *)
Definition sum_enough (l : list ucall) : Z := fold_right (fun c n => enough c + n) 0 l.
Definition umu (t : uthread) : Z :=
  match u_prog t with
  | [] => 0
  | c :: rest =>
    match u_pc t with
    | UStart => enough c
    | UConnect => 3 + 264 * Z.max 0 (size c)
    | USend _ off _ => 2 + 264 * Z.max 0 (size c - off)
    | URecv _ off _ resp _ => 3 + 264 * Z.max 0 (size c - off - width c off) + reply_len (part c off) - zlen resp
    | UEnd _ _ => 1
    end + sum_enough rest
  end.
Lemma umu_step {D} (srv : server D) (mem : D -> memory) w s i k t : winv srv mem w s -> nth_error (v_threads w) i = Some t ->
  exists t', nth_error (v_threads (ustep srv w i k)) i = Some t' /\ (umu t' < umu t \/ u_prog t = []).
Proof.
  intros (HF & _ & _) EN. unfold ustep. rewrite EN. cbv zeta.
  destruct (nth_error_split _ _ EN) as (l1 & l2 & EL & <-).
  assert (SN : forall y, nth_error (set_nth (v_threads w) (length l1) y) (length l1) = Some y).
  { intros y. rewrite EL, set_nth_app, nth_error_app2, Nat.sub_diag by lia. reflexivity. }
  rewrite EL in HF. destruct (Forall2_app_inv_cons _ _ _ _ _ HF) as (a1 & a & a2 & _ & _ & _ & HT & _). destruct HT as (HO & _ & _ & HT).
  destruct (u_prog t) as [|c rest] eqn:EPR; [exists t; auto|].
  assert (HOC : ucall_ok srv mem (u_slave t) c) by (inversion HO; assumption).
  unfold umu. rewrite EPR. set (R := sum_enough rest).
  destruct (u_pc t) as [| |mine off acc|mine off acc resp rem|mine r] eqn:EP; cbn [v_threads].
  - rewrite SN. eexists. split; [reflexivity|]. left. cbn [to_pc u_prog u_pc]. rewrite EPR. unfold enough. destruct (v_sock w (u_dev t)); [replace (size c - 0) with (size c) by lia|]; lia.
  - rewrite SN. eexists. split; [reflexivity|]. left. cbn [to_pc u_prog u_pc]. rewrite EPR. replace (size c - 0) with (size c) by lia. lia.
  - destruct HT as (_ & Hoff & (cn & HC & _) & HWR).
    destruct (match c with URead _ _ count _ => count - off <=? 0 | UWrite _ data _ => zlen data <=? 0 end) eqn:ET.
    { cbn [v_threads]. rewrite SN. eexists. split; [reflexivity|]. left. cbn [to_pc u_prog u_pc]. rewrite EPR. lia. }
    destruct (match c with URead _ _ _ _ => false | UWrite _ data mc => 2 * mc <? zlen data end).
    { cbn [v_threads]. rewrite SN. eexists. split; [reflexivity|]. left. cbn [to_pc u_prog u_pc]. rewrite EPR. lia. }
    assert (Hsz : 0 <= off < size c).
    { split; [exact Hoff|]. destruct c as [op addr count mc|addr data mc]; cbn [size]; apply Z.leb_gt in ET; [lia|].
      destruct HWR as [-> _]. destruct HOC as (_ & _ & _ & HE & _). pose proof (Z.div_mod (zlen data) 2 ltac:(lia)). lia. }
    assert (EO : match c with URead _ _ _ _ => True | UWrite _ _ _ => off = 0 end) by (destruct c; tauto).
    destruct (part_served srv mem (u_slave t) c off (v_srv w) HOC Hsz EO) as (req & s' & wi & E1 & E2 & _).
    rewrite E1, HC, E2. cbn [v_threads]. rewrite SN. eexists. split; [reflexivity|]. left. cbn [to_pc u_prog u_pc]. rewrite EPR. change (zlen (@nil Z)) with 0.
    destruct HOC as [_ HOC]. destruct c as [op addr count mc|addr data mc]; cbn [size width part reply_len] in *; [rewrite min_if|]; lia.
  - destruct HT as (Hoff & cn & f & _ & EF & HC & _ & HR2 & -> & HRL & HWR).
    assert (HW1 : 1 <= width c off). { destruct HOC as [_ HOC]. destruct c as [op addr count mc|addr data mc]; cbn [size width] in *; lia. }
    assert (HRz : zlen resp <= reply_len (part c off)) by (rewrite zlen_app in HRL; pose proof (zlen_nonneg (v_conn w cn)); lia).
    destruct (Z.ltb_spec 0 (wanted resp)) as [HP|HP].
    + rewrite HC. destruct (wanted_next resp (v_conn w cn) k HR2 HP) as (HNE & _ & _).
      destruct (v_conn w cn) as [|b0 br] eqn:ECN; [congruence|]. cbv zeta. cbn [v_threads]. rewrite SN. eexists. split; [reflexivity|]. left. cbn [to_pc u_prog u_pc]. rewrite EPR, zlen_app.
      assert (1 <= zlen (ztake (Z.min (wanted resp) (Z.max 1 k)) (b0 :: br))); [|lia].
      unfold ztake, zlen. rewrite firstn_length. cbn [length]. lia.
    + assert (HE : v_conn w cn = []).
      { destruct (wanted_spec resp (v_conn w cn) HR2) as [W1 W2]. destruct (Z.lt_ge_cases (zlen resp) 9); [destruct W1; lia|].
        assert (zlen (v_conn w cn) = 0) by (pose proof (zlen_nonneg (v_conn w cn)); lia). now apply zlen_0_nil. }
      rewrite HE, app_nil_r in EF. rewrite EF.
      destruct c as [op addr count mc|addr data mc].
      * destruct f; cbn [v_threads]; rewrite SN; (eexists; split; [reflexivity|]; left); cbn [to_pc u_prog u_pc]; rewrite EPR; [lia|]. rewrite min_if. cbn [size width] in *. rewrite Z.sub_add_distr. lia.
      * cbn [v_threads]; rewrite SN; (eexists; split; [reflexivity|]; left); cbn [to_pc u_prog u_pc]; rewrite EPR. lia.
  - rewrite SN. eexists. split; [reflexivity|]. left. cbn [next_call u_prog u_pc]. rewrite EPR. cbn [tl]. unfold R.
    destruct rest as [|c' rest']; [change (sum_enough []) with 0; lia|]. change (sum_enough (c' :: rest')) with (enough c' + sum_enough rest'). lia.
Qed.
Lemma ustep_other {D} (srv : server D) w j k i : j <> i -> nth_error (v_threads (ustep srv w j k)) i = nth_error (v_threads w) i.
Proof.
  intros HJ. unfold ustep. destruct (nth_error (v_threads w) j) as [t|] eqn:EN; [|reflexivity]. cbv zeta.
  destruct (nth_error_split _ _ EN) as (l1 & l2 & EL & EJ).
  assert (SN : forall y, nth_error (set_nth (v_threads w) j y) i = nth_error (v_threads w) i).
  { intros y. rewrite EL, <- EJ, set_nth_app. apply nth_put_other. congruence. }
  repeat match goal with |- context [match ?x with _ => _ end] => destruct x end; cbn [v_threads]; rewrite ?SN; reflexivity.
Qed.
Lemma umu_nonneg {D} (srv : server D) (mem : D -> memory) w s i t : winv srv mem w s -> nth_error (v_threads w) i = Some t -> 0 <= umu t /\ (umu t = 0 -> u_prog t = []).
Proof.
  intros (HF & _ & _) EN. destruct (nth_error_split _ _ EN) as (l1 & l2 & EL & _). rewrite EL in HF.
  destruct (Forall2_app_inv_cons _ _ _ _ _ HF) as (a1 & a & a2 & _ & _ & _ & HT & _). destruct HT as (_ & _ & _ & HT).
  unfold umu. destruct (u_prog t) as [|c rest]; [split; [lia|reflexivity]|].
  assert (HR : 0 <= sum_enough rest) by (clear; induction rest as [|x l IH]; [change (sum_enough []) with 0; lia|]; change (sum_enough (x :: l)) with (enough x + sum_enough l); unfold enough; lia).
  set (M := match u_pc t with
    | UStart => enough c
    | UConnect => 3 + 264 * Z.max 0 (size c)
    | USend _ off _ => 2 + 264 * Z.max 0 (size c - off)
    | URecv _ off _ resp _ => 3 + 264 * Z.max 0 (size c - off - width c off) + reply_len (part c off) - zlen resp
    | UEnd _ _ => 1
    end).
  assert (0 < M); [|split; [lia|intros; exfalso; lia]].
  unfold M.
  destruct (u_pc t); unfold enough; try lia. destruct HT as (_ & cn & f & _ & _ & _ & _ & _ & _ & HRL & _). rewrite zlen_app in HRL.
  pose proof (zlen_nonneg (v_conn w cn)). lia.
Qed.
Lemma umu_run {D} (srv : server D) (mem : D -> memory) sched : forall w s i t, winv srv mem w s -> nth_error (v_threads w) i = Some t ->
  umu t <= turns_of i sched -> exists t', nth_error (v_threads (usched srv w sched)) i = Some t' /\ u_prog t' = [].
Proof.
  induction sched as [|[j k] sched IH]; intros w s i t HI EN HT.
  - exists t. split; [exact EN|]. apply (umu_nonneg srv mem w s i t HI EN). destruct (umu_nonneg srv mem w s i t HI EN). change (turns_of i []) with 0 in HT. lia.
  - change (usched srv w ((j, k) :: sched)) with (usched srv (ustep srv w j k) sched). destruct (winv_step srv mem w s j k HI) as (s' & _ & HI').
    unfold turns_of in HT. cbn [filter fst] in HT. destruct (Nat.eqb_spec j i) as [->|HJ].
    + destruct (umu_step srv mem w s i k t HI EN) as (t' & E & HM). rewrite zlen_cons in HT. destruct HM as [HM|HM].
      * apply (IH _ s' i t' HI' E). unfold turns_of. lia.
      * assert (EU : ustep srv w i k = w) by (unfold ustep; rewrite EN, HM; reflexivity). rewrite EU. apply (IH w s i t HI EN). unfold turns_of, umu. rewrite HM. apply zlen_nonneg.
    + apply (IH _ s' i t HI'); [|exact HT]. rewrite ustep_other by exact HJ. exact EN.
Qed.

(** ** Back from the ideal program to the threads. *)
Lemma Forall2_nth_l {A B} (R : A -> B -> Prop) l r : Forall2 R l r -> forall i x, nth_error l i = Some x -> exists y, nth_error r i = Some y /\ R x y.
Proof. induction 1 as [|x y l r HR _ IH]; intros [|i] z Hz; try discriminate; cbn [nth_error] in *; [apply Some_inj in Hz; subst z; eauto|eauto]. Qed.
Lemma Forall2_nth_r {A B} (R : A -> B -> Prop) l r : Forall2 R l r -> forall i y, nth_error r i = Some y -> exists x, nth_error l i = Some x /\ R x y.
Proof. induction 1 as [|x y l r HR _ IH]; intros [|i] z Hz; try discriminate; cbn [nth_error] in *; [apply Some_inj in Hz; subst z; eauto|eauto]. Qed.
Section Back.
  Context {D : Type} (srv : server D) (mem : D -> memory) (w : uworld D) (sched : list (nat * Z)) (f : nat -> memory * list athread).
  Hypothesis HO : own_objects w.
  Hypothesis HC : calls_ok srv mem w.
  Hypothesis H0 : f O = ideal_start mem w.
  Hypothesis HF : follows srv mem w sched f.
  Hypothesis HW : forall n, (n <= length sched)%nat -> winv srv mem (after srv w sched n) (f n).

  Lemma held_is n a : (n <= length sched)%nat -> held srv mem w sched n a = H f n a.
  Proof. intros Hn. destruct (HW n Hn) as (_ & _ & HM). apply HM. Qed.
  Lemma during_in_call n i j : (n <= length sched)%nat -> during f i n j <-> in_call (after srv w sched n) i j.
  Proof.
    intros Hn. destruct (HW n Hn) as (HF2 & _ & _). split.
    - intros (a & Ha & HL & HN). destruct (Forall2_nth_r _ _ _ HF2 _ _ Ha) as (t & Et & _ & H1 & H2 & HT). exists t. split; [exact Et|]. split; [congruence|].
      destruct (u_prog t) as [|c rest] eqn:EP; [tauto|]. split; [discriminate|]. intros E. rewrite E in HT. tauto.
    - intros (t & Et & HL & HP & HN). destruct (Forall2_nth_l _ _ _ HF2 _ _ Et) as (a & Ha & _ & H1 & H2 & HT). exists a. split; [exact Ha|]. split; [congruence|].
      destruct (u_prog t) as [|c rest] eqn:EP; [congruence|]. destruct (u_pc t); try congruence.
      + destruct HT as [-> _]. discriminate.
      + destruct HT as [-> _]. discriminate.
      + destruct HT as (_ & cn & g & -> & _). discriminate.
      + destruct HT as (off & acc & -> & _). discriminate.
  Qed.
  Lemma start_thread i t : nth_error (v_threads w) i = Some t -> nth_error (snd (f O)) i = Some (mkA (u_prog t) None []) /\ Forall mc_ok (u_prog t).
  Proof.
    intros Et. rewrite H0. cbn [ideal_start snd]. rewrite nth_error_map, Et. cbn [option_map]. destruct HO as (_ & HS & _).
    rewrite Forall_forall in HS. destruct (HS t (nth_error_In _ _ Et)) as [_ ->]. split; [reflexivity|].
    unfold calls_ok in HC. rewrite Forall_forall in HC. specialize (HC t (nth_error_In _ _ Et)). eapply Forall_impl; [|exact HC].
    intros c [_ Hc]. destruct c; cbn [mc_ok]; [lia|exact I].
  Qed.
  Lemma call_done i t j c r n : (n <= length sched)%nat -> nth_error (v_threads w) i = Some t -> nth_error (u_prog t) j = Some c -> returned (after srv w sched n) i j r ->
    exists l off acc, r = Ok acc /\ size c <= off /\ mc_ok c /\ call_log f sched i n j c l off acc.
  Proof.
    intros Hn Et Ec (t' & Et' & Er). destruct (start_thread i t Et) as [Ha HMC].
    destruct (HW n Hn) as (HF2 & _ & _). destruct (Forall2_nth_l _ _ _ HF2 _ _ Et') as (a & Ha' & _ & _ & EO & _).
    pose proof (thread_log_all f sched i HF (u_prog t) HMC ltac:(intros a0 Ha0; congruence) n Hn a Ha') as (_ & _ & HL & _).
    rewrite <- EO in Er. destruct (HL j r c Er Ec) as (l & off & acc & E1 & E2 & E3). exists l, off, acc. split; [exact E1|]. split; [exact E2|]. split; [|exact E3].
    rewrite Forall_forall in HMC. apply HMC. now apply nth_error_In in Ec.
  Qed.
  Lemma only_writes n a : (n < length sched)%nat -> held srv mem w sched (S n) a <> held srv mem w sched n a ->
    exists i k t addr data mc rest, nth_error sched n = Some (i, k) /\ nth_error (v_threads (after srv w sched n)) i = Some t /\ u_prog t = UWrite addr data mc :: rest /\
      u_pc t <> UStart /\ addr <= a < addr + zlen data / 2.
  Proof.
    intros Hn HD. rewrite !held_is in HD by lia. destruct (nth_error sched n) as [[i k]|] eqn:En; [|apply nth_error_None in En; lia].
    destruct (HF n i k En) as [E|(l & x & x' & r & E1 & E2 & E3 & HS)]; [unfold H in HD; rewrite E in HD; congruence|].
    fold (H f n) in HS. change (fst (f (S n))) with (H f (S n)) in HS.
    inversion HS as [m c rest o X1 X2|m c rest off acc o Hoff X1 X2|m c rest off acc o Hoff X1 X2]; subst x x'; try congruence.
    assert (Ha : nth_error (snd (f n)) i = Some (mkA (c :: rest) (Some (off, acc)) o)) by (rewrite E1, <- E2; apply nth_put).
    destruct (HW n ltac:(lia)) as (HF2 & _ & _). destruct (Forall2_nth_r _ _ _ HF2 _ _ Ha) as (t & Et & _ & EP & _ & HT). cbn [a_todo a_now] in *.
    rewrite <- X2 in HD. destruct c as [op addr count mc|addr data mc]; cbn [change] in HD; [congruence|].
    exists i, k, t, addr, data, mc, rest. split; [reflexivity|]. split; [exact Et|]. split; [now symmetry|]. split.
    - rewrite <- EP in HT. intros E. rewrite E in HT. destruct HT; discriminate.
    - destruct (Z.lt_ge_cases a addr) as [Hl|Hl]; [exfalso; apply HD; apply store_outside; lia|]. destruct (Z.lt_ge_cases a (addr + zlen data / 2)) as [Hr|Hr]; [lia|].
      exfalso. apply HD. apply store_outside. lia.
  Qed.
End Back.
Lemma regs_same m m' n : forall addr, (forall a, addr <= a < addr + Z.of_nat n -> m a = m' a) -> regs m addr n = regs m' addr n.
Proof.
  induction n as [|n IH]; intros addr HS; [reflexivity|]. replace (S n) with (1 + n)%nat by lia. rewrite !regs_app. f_equal.
  - cbn [regs]. rewrite (HS addr) by lia. reflexivity.
  - apply IH. intros a Ha. apply HS. lia.
Qed.
Lemma portions_same H m l : forall addr count mc, 1 <= mc -> zlen l = (Z.max 0 count + mc - 1) / mc ->
  (forall n a, In n l -> addr <= a < addr + count -> H n a = m a) -> portions H addr count mc l = regs m addr (Z.to_nat count).
Proof.
  induction l as [|x l IH]; intros addr count mc HM HL HS.
  - rewrite zlen_nil in HL. destruct (Z.lt_ge_cases 0 count) as [Hc|Hc]; [|replace (Z.to_nat count) with O by lia; reflexivity].
    assert (1 <= (Z.max 0 count + mc - 1) / mc) by (apply Z.div_le_lower_bound; lia). lia.
  - rewrite zlen_cons in HL. pose proof (zlen_nonneg l). assert (Hc : 0 < count).
    { destruct (Z.lt_ge_cases 0 count) as [Hc|Hc]; [exact Hc|]. rewrite Z.max_l in HL by lia. rewrite Z.div_small in HL by lia. lia. }
    cbn [portions]. rewrite (regs_same (H x) m) by (intros; apply HS; [now left|lia]).
    rewrite (IH (addr + mc) (count - mc) mc HM).
    + destruct (Z.le_gt_cases count mc) as [Hm|Hm].
      * rewrite Z.min_r by lia. replace (Z.to_nat (count - mc)) with O by lia. apply app_nil_r.
      * rewrite Z.min_l by lia. replace (Z.to_nat count) with (Z.to_nat mc + Z.to_nat (count - mc))%nat by lia. rewrite regs_app. now rewrite Z2Nat.id by lia.
    + destruct (Z.le_gt_cases count mc) as [Hm|Hm].
      * rewrite Z.max_l by lia. rewrite (Z.div_small (0 + mc - 1)) by lia. rewrite Z.max_r in HL by lia.
        assert ((count + mc - 1) / mc < 2) by (apply Z.div_lt_upper_bound; lia). lia.
      * rewrite Z.max_r in HL |- * by lia. replace (count + mc - 1) with (count - mc + mc - 1 + 1 * mc) in HL by lia. rewrite Z.div_add in HL by lia. lia.
    + intros n a Hn Ha. apply HS; [now right|lia].
Qed.
(** calls to make and calls made *)
Definition calls_of (t : uthread) : nat := (length (u_prog t) + length (u_out t))%nat.
Lemma ustep_calls {D} (srv : server D) w i k j t : nth_error (v_threads w) j = Some t ->
  exists t', nth_error (v_threads (ustep srv w i k)) j = Some t' /\ calls_of t' = calls_of t.
Proof.
  intros Et. destruct (Nat.eq_dec i j) as [->|NE]; [|exists t; rewrite ustep_other by exact NE; auto].
  unfold ustep. rewrite Et. cbv zeta.
  assert (SN : forall y, nth_error (set_nth (v_threads w) j y) j = Some y).
  { intros y. destruct (nth_error_split _ _ Et) as (l1 & l2 & -> & <-). rewrite set_nth_app. apply nth_put. }
  destruct (u_prog t) as [|c rest] eqn:EP; [exists t; auto|].
  assert (HP : forall p, calls_of (to_pc t p) = calls_of t) by reflexivity.
  assert (HN : forall r, calls_of (next_call t r) = calls_of t) by (intros r; unfold calls_of; cbn [next_call u_prog u_out]; rewrite EP, app_length; cbn [tl length]; lia).
  repeat match goal with |- context [match ?x with _ => _ end] => destruct x end; cbn [v_threads]; rewrite ?SN, ?Et; eexists; split; try reflexivity; auto.
Qed.
Lemma usched_calls {D} (srv : server D) sched : forall w j t, nth_error (v_threads w) j = Some t ->
  exists t', nth_error (v_threads (usched srv w sched)) j = Some t' /\ calls_of t' = calls_of t.
Proof.
  induction sched as [|[i k] sched IH]; intros w j t Et; [exists t; auto|]. destruct (ustep_calls srv w i k j t Et) as (t1 & E1 & H1).
  destruct (IH _ j t1 E1) as (t2 & E2 & H2). exists t2. split; [exact E2|congruence].
Qed.
