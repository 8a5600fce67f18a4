(** * P_Fault *)
From Verif Require Import Py P_List M_Crc M_Wire M_Rtu S_Crc P_Crc S_Modbus P_Rtu P_Stack S_Fault.

Lemma ztake_ztake_le (n k : Z) (l : list Z) : n <= k -> ztake n (ztake k l) = ztake n l.
Proof. intros H. unfold ztake. rewrite firstn_firstn. f_equal. lia. Qed.

(** writing all of the data over a prefix of it *)
Lemma store_over m addr d1 d2 : zlen d1 mod 2 = 0 -> forall a, store (store m addr d1) addr (d1 ++ d2) a = store m addr (d1 ++ d2) a.
Proof.
  intros HE a. rewrite !store_app by exact HE. apply store_ext. clear a.
  assert (H : forall m m', (forall a, a < addr \/ addr + zlen d1 / 2 <= a -> m a = m' a) -> forall a, store m addr d1 a = store m' addr d1 a).
  { revert addr. revert d1 HE. apply (two_ind (fun d1 => forall addr m m', (forall a, a < addr \/ addr + zlen d1 / 2 <= a -> m a = m' a) -> forall a, store m addr d1 a = store m' addr d1 a)).
    - intros addr m1 m2 H a. cbn [store]. apply H. change (zlen (@nil Z) / 2) with 0. lia.
    - intros h l r IH addr m1 m2 H a. cbn [store]. apply IH. intros b Hb. destruct (Z.eqb_spec b addr); [reflexivity|].
      apply H. rewrite !zlen_cons. replace (1 + (1 + zlen r)) with (zlen r + 1 * 2) by lia. rewrite Z.div_add by lia. lia. }
  apply H. intros a Ha. now apply store_outside.
Qed.

Section Unreliable.
  Context {D : Type}.
  Variables (dev : sdev D) (mem : D -> memory) (slave : Z).
  Hypothesis HU : unreliable dev mem slave.

  Lemma write1_unreliable addr data s s' r : Forall is_byte data ->
    rtu_write1 dev slave addr data s = (s', r) ->
    ((forall a, mem s' a = mem s a) \/ (forall a, mem s' a = store (mem s) addr data a)) /\
    (r = Ok tt -> forall a, mem s' a = store (mem s) addr data a).
  Proof.
    intros HB H. unfold rtu_write1 in H.
    destruct (rtu_write_req slave addr data) as [req|e] eqn:ER.
    2:{ apply pair_equal_spec in H as [-> <-]. split; [now left|discriminate]. }
    assert (HA : write_args_ok slave addr data).
    { unfold write_args_ok. destruct (byte_dec slave) as [H1|H1]; [|rewrite rtu_write_req_bad in ER; [discriminate|unfold write_args_ok; tauto]].
      destruct (word_dec addr) as [H2|H2]; [|rewrite rtu_write_req_bad in ER; [discriminate|unfold write_args_ok; tauto]].
      destruct (Z_lt_dec (zlen data) 256) as [H3|H3]; [|rewrite rtu_write_req_bad in ER; [discriminate|unfold write_args_ok; tauto]]. auto. }
    rewrite rtu_write_req_ok in ER by assumption. apply Ok_inj in ER. subst req.
    destruct (dev s (write_frame slave addr data)) as [s1 w] eqn:ED.
    destruct HA as (Hs & Ha & Hl). destruct (HU s addr data s1 w Hs Ha Hl HB ED) as [H1 H2]. destruct w as [[stream sched fin]|].
    - apply pair_equal_spec in H as [<- <-]. split; [exact H1|]. intros HR.
      destruct (H2 stream sched fin eq_refl) as [HS HX]. apply HX. pose proof (zlen_nonneg data).
      pose proof (rtu_write_response_spec slave addr (zlen data / 2) stream sched fin HS Hs Ha ltac:(split; [apply Z.div_pos; lia|apply Z.div_lt_upper_bound; lia])) as HO.
      rewrite HR in HO. inversion HO; auto; destruct fin; discriminate.
    - apply pair_equal_spec in H as [<- <-]. split; [exact H1|discriminate].
  Qed.

  Lemma write_loop_unreliable fuel max_count : 1 <= max_count ->
    forall off addr data s s' r, Forall is_byte data -> zlen data mod 2 = 0 ->
    0 <= off -> 2 * off <= zlen data -> (Z.to_nat (zlen data - 2 * off) < fuel)%nat ->
    rtu_write_loop dev fuel slave addr (zlen data - 2 * off) max_count off data s = (s', r) ->
    exists k, off <= k /\ 2 * k <= zlen data /\ (k = zlen data / 2 \/ (k - off) mod max_count = 0) /\
      (forall a, mem s' a = store (mem s) (addr + off) (slice (2 * off) (2 * k) data) a) /\
      (r = Ok tt -> k = zlen data / 2).
  Proof.
    intros Hmax. induction fuel as [|fuel IH]; intros off addr data s s' r HD HE Hoff Hoff2 Hf H; [lia|].
    assert (EH : zlen data = 2 * (zlen data / 2)) by (rewrite (Z.div_mod (zlen data) 2) at 1 by lia; lia).
    assert (SN : forall i, slice i i data = []) by (intros i; unfold slice; rewrite Z.sub_diag; reflexivity).
    cbn [rtu_write_loop] in H. destruct (Z.ltb_spec 0 (zlen data - 2 * off)) as [Hpos|Hz].
    - set (n := zlen data / 2 - off) in *.
      set (wc := if max_count <? n then max_count else n).
      assert (Ewc : (if 2 * max_count <? zlen data - 2 * off then 2 * max_count else zlen data - 2 * off) = 2 * wc).
      { unfold wc, n. destruct (Z.ltb_spec (2 * max_count) (zlen data - 2 * off)), (Z.ltb_spec max_count (zlen data / 2 - off)); lia. }
      rewrite Ewc in H.
      assert (Hwc : 1 <= wc <= max_count /\ wc <= n /\ (wc = max_count \/ wc = n)) by (unfold wc, n in *; destruct (Z.ltb_spec max_count (zlen data / 2 - off)); lia).
      assert (Ediv : 2 * wc / 2 = wc) by (rewrite Z.mul_comm; apply Z.div_mul; lia).
      rewrite Ediv in H.
      set (chunk := slice (2 * off) (2 * off + 2 * wc) data) in *.
      assert (ECL : zlen chunk = 2 * wc) by (unfold chunk; rewrite zlen_slice_in; unfold n in *; lia).
      destruct (rtu_write1 dev slave (addr + off) chunk s) as [s1 r1] eqn:E1.
      destruct (write1_unreliable (addr + off) chunk s s1 r1 ltac:(apply Forall_slice, HD) E1) as [M1 M2].
      destruct r1 as [[]|e].
      + specialize (M2 eq_refl).
        replace (zlen data - 2 * off - 2 * wc) with (zlen data - 2 * (off + wc)) in H by lia.
        destruct (IH (off + wc) addr data s1 s' r HD HE ltac:(lia) ltac:(unfold n in *; lia) ltac:(lia) H) as (k & K1 & K2 & K3 & K4 & K5).
        exists k. split; [lia|]. split; [exact K2|]. split; [|split; [|exact K5]].
        * destruct K3 as [K3|K3]; [now left|]. destruct Hwc as (_ & _ & [EW|EW]).
          -- right. replace (k - off) with (k - (off + wc) + 1 * max_count) by lia. rewrite Z.mod_add by lia. exact K3.
          -- left. unfold n in EW. lia.
        * intros a. rewrite K4. rewrite (store_ext _ (store (mem s) (addr + off) chunk)) by exact M2.
          assert (Esplit : slice (2 * off) (2 * k) data = chunk ++ slice (2 * (off + wc)) (2 * k) data).
          { unfold chunk. replace (2 * off + 2 * wc) with (2 * (off + wc)) by lia. unfold slice.
            replace (zdrop (2 * (off + wc)) data) with (zdrop (2 * (off + wc) - 2 * off) (zdrop (2 * off) data)) by (rewrite zdrop_zdrop by lia; f_equal; lia).
            set (q := zdrop (2 * off) data). set (u := 2 * (off + wc) - 2 * off).
            replace (2 * k - 2 * (off + wc)) with (2 * k - 2 * off - u) by (unfold u; lia).
            rewrite <- (ztake_zdrop u q) at 1. unfold ztake, zdrop. rewrite firstn_app.
            assert (U : Z.to_nat u = (2 * Z.to_nat wc)%nat) by (unfold u; lia).
            rewrite firstn_firstn. rewrite Nat.min_r by (unfold u; lia). f_equal. rewrite firstn_length.
            assert (LQ : (Z.to_nat u <= length q)%nat).
            { unfold q, zdrop. rewrite skipn_length. unfold zlen in *. unfold u, n in *. lia. }
            f_equal. lia. }
          rewrite Esplit, store_app by (rewrite ECL, Z.mul_comm; apply Z.mod_mul; lia).
          rewrite ECL, Ediv. now rewrite Z.add_assoc.
      + apply pair_equal_spec in H as [<- <-]. destruct M1 as [M1|M1].
        * exists off. split; [lia|]. split; [lia|]. split; [right; rewrite Z.sub_diag; apply Z.mod_0_l; lia|]. split; [|discriminate].
          intros a. rewrite SN. cbn [store]. apply M1.
        * exists (off + wc). split; [lia|]. split; [unfold n in *; lia|]. split; [|split; [|discriminate]].
          -- destruct Hwc as (_ & _ & [EW|EW]); [right|left; unfold n in EW; lia].
             replace (off + wc - off) with (1 * max_count) by lia. apply Z.mod_mul. lia.
          -- intros a. rewrite M1. unfold chunk. replace (2 * off + 2 * wc) with (2 * (off + wc)) by lia. reflexivity.
    - apply pair_equal_spec in H as [<- <-]. exists off. split; [lia|]. split; [lia|]. split; [left; lia|]. split; [|intros _; lia].
      intros a. rewrite SN. reflexivity.
  Qed.

  Lemma write_unreliable max_count addr data s s' r : 1 <= max_count -> Forall is_byte data -> zlen data mod 2 = 0 ->
    rtu_write dev true slave addr data max_count s = (s', r) ->
    exists k, 0 <= k /\ 2 * k <= zlen data /\ (k = zlen data / 2 \/ k mod max_count = 0) /\
      (forall a, mem s' a = store (mem s) addr (ztake (2 * k) data) a) /\ (r = Ok tt -> k = zlen data / 2).
  Proof.
    intros Hm HB HE H. unfold rtu_write in H. pose proof (zlen_nonneg data).
    replace (zlen data) with (zlen data - 2 * 0) in H by lia.
    destruct (write_loop_unreliable (S (length data)) max_count Hm 0 addr data s s' r HB HE ltac:(lia) ltac:(lia) ltac:(unfold zlen; lia) H) as (k & K1 & K2 & K3 & K4 & K5).
    exists k. split; [lia|]. split; [exact K2|]. split; [rewrite Z.sub_0_r in K3; exact K3|]. split; [|exact K5].
    intros a. rewrite K4, Z.add_0_r. do 2 f_equal. unfold slice. rewrite Z.mul_0_r, Z.sub_0_r. now rewrite zdrop_neg by lia.
  Qed.
End Unreliable.

(** ** a shared line *)
Section Keep.
  Context {D : Type}.
  Variables (dev : sdev D) (slave : Z) (P : D -> Prop).
  Hypothesis HP : forall s body, P s -> P (fst (dev s (slave :: body))).

  Lemma keep_frame req s : (exists body, req = slave :: body) -> P s -> P (fst (dev s req)).
  Proof. intros [b ->]. apply HP. Qed.
  Lemma read_req_head op addr count req : rtu_read_req slave op addr count = Ok req -> exists body, req = slave :: body.
  Proof.
    intros H. destruct (byte_dec slave) as [HB|HB].
    - unfold rtu_read_req in H. rewrite (pack_byte slave) in H by exact HB. cbn [bind] in H.
      apply bind_ok in H as (b2 & _ & H). apply bind_ok in H as (b3 & _ & H). apply bind_ok in H as (b4 & _ & H). apply bind_ok in H as (c & _ & H).
      apply Ok_inj in H. subst req. cbn [app]. eauto.
    - unfold rtu_read_req in H. rewrite (pack_byte_bad slave) in H by exact HB. discriminate.
  Qed.
  Lemma write_req_head addr data req : rtu_write_req slave addr data = Ok req -> exists body, req = slave :: body.
  Proof.
    intros H. destruct (byte_dec slave) as [HB|HB].
    - unfold rtu_write_req in H. rewrite (pack_byte slave) in H by exact HB. cbn [bind] in H.
      apply bind_ok in H as (b2 & _ & H). apply bind_ok in H as (b3 & _ & H). apply bind_ok in H as (b4 & _ & H). apply bind_ok in H as (b5 & _ & H). apply bind_ok in H as (c & _ & H).
      apply Ok_inj in H. subst req. cbn [app]. eauto.
    - unfold rtu_write_req in H. rewrite (pack_byte_bad slave) in H by exact HB. discriminate.
  Qed.
  Lemma read1_keeps trace addr count op s : P s -> P (fst (rtu_read1 dev trace slave addr count op s)).
  Proof.
    intros H. unfold rtu_read1. destruct (rtu_read_req slave op addr count) as [req|] eqn:ER; [|exact H]. destruct trace; [exact H|].
    pose proof (keep_frame req s (read_req_head _ _ _ _ ER) H) as K. destruct (dev s req) as [s' [w|]]; exact K.
  Qed.
  Lemma write1_keeps addr data s : P s -> P (fst (rtu_write1 dev slave addr data s)).
  Proof.
    intros H. unfold rtu_write1. destruct (rtu_write_req slave addr data) as [req|] eqn:ER; [|exact H].
    pose proof (keep_frame req s (write_req_head _ _ _ ER) H) as K. destruct (dev s req) as [s' [w|]]; exact K.
  Qed.
  Lemma read_keeps trace is_open addr count op max_count s : P s -> P (fst (rtu_read dev trace is_open slave addr count op max_count s)).
  Proof.
    intros H. unfold rtu_read. destruct is_open; [|exact H]. revert H. generalize 0. generalize (@nil Z). generalize (S (Z.to_nat count)). intros fuel.
    revert count s. induction fuel as [|fuel IH]; intros count s resp off H; [exact H|]. cbn [rtu_read_loop]. destruct (0 <? count); [|exact H].
    cbv zeta. set (rc := if max_count <? count then max_count else count).
    pose proof (read1_keeps trace (addr + off) rc op s H) as K. destruct (rtu_read1 dev trace slave (addr + off) rc op s) as [s' [[|x d]|e]]; try exact K.
    apply IH. exact K.
  Qed.
  Lemma write_keeps is_open addr data max_count s : P s -> P (fst (rtu_write dev is_open slave addr data max_count s)).
  Proof.
    intros H. unfold rtu_write. destruct is_open; [|exact H]. revert H. generalize 0. generalize (S (length data)). intros fuel.
    generalize (zlen data). revert s. induction fuel as [|fuel IH]; intros s c2 off H; [exact H|]. cbn [rtu_write_loop]. destruct (0 <? c2); [|exact H].
    cbv zeta. set (wc := if 2 * max_count <? c2 then 2 * max_count else c2). set (ch := slice (2 * off) (2 * off + wc) data).
    pose proof (write1_keeps (addr + off) ch s H) as K. destruct (rtu_write1 dev slave (addr + off) ch s) as [s' [u|e]]; [|exact K].
    apply IH. exact K.
  Qed.
End Keep.
