(** * P_Mbmap: lemmas about Modbus maps. *)
From Coq Require Import String ZifyBool.
From Verif Require Import Py P_List S_Codec P_IntText M_Util M_Suns M_Float M_Xml M_Mbmap S_Mbmap.

Lemma num_z_NI z : num_z (NI z) = z.
Proof. unfold num_z. cbn [num2]. rewrite Z.mul_comm, Z.div_mul; lia. Qed.
Lemma num2_add x y : num2 (num_add x y) = num2 x + num2 y.
Proof. destruct x, y; cbn [num_add num2]; lia. Qed.
Lemma num2_sub x y : num2 (num_sub x y) = num2 x - num2 y.
Proof. destruct x, y; cbn [num_sub num2]; lia. Qed.
Lemma num2_double x : num2 (num_double x) = 2 * num2 x.
Proof. destruct x; cbn [num_double num2]; lia. Qed.

(** a whole block in explicit form *)
Definition wb (o c : Z) (d : bytes) (a : str) : mregs := mkRegs (NI o) (NI c) (Some d) a.
Lemma whole_block_wb g : whole_block g -> exists o c d a, g = wb o c d a /\ 0 <= c /\ zlen d = 2 * c /\ Forall is_byte d.
Proof. intros (o & c & d & H1 & H2 & H3 & H). destruct g as [a1 a2 a3 a]. cbn in *. subst. exists o, c, d, a. auto. Qed.
Lemma wb_whole o c d a : 0 <= c -> zlen d = 2 * c -> Forall is_byte d -> whole_block (wb o c d a).
Proof. intros. exists o, c, d. unfold wb. cbn [g_offset g_count g_data]. repeat split; auto. Qed.

Lemma ascending_cons g l : ascending (g :: l) -> ascending l /\
  Forall (fun h => num2 (g_offset g) + num2 (g_count g) < num2 (g_offset h)) l /\ 0 <= num2 (g_offset g) /\ 0 <= num2 (g_count g).
Proof.
  intros [H1 H2]. inversion H1; inversion H2; subst. repeat split; auto; tauto.
Qed.

Definition in_block (o c x : Z) : bool := (o <=? x) && (x <? o + c).
Lemma has_reg_wb o c d a x : has_reg x (wb o c d a) = in_block o c x.
Proof. unfold has_reg, in_block, wb. cbn [g_offset g_count]. now rewrite !num_z_NI. Qed.
Lemma register_cons o c d a l x :
  register (wb o c d a :: l) x = if in_block o c x then Some (slice (2 * (x - o)) (2 * (x - o) + 2) d) else register l x.
Proof.
  unfold register. cbn [find]. rewrite has_reg_wb. destruct (in_block o c x); [|reflexivity].
  cbn [option_map]. unfold block_word, block_bytes. cbn [wb g_offset g_data]. now rewrite num_z_NI.
Qed.
(** nothing below the first block *)
Lemma register_below l x : Forall whole_block l -> Forall (fun h => 2 * x < num2 (g_offset h)) l -> register l x = None.
Proof.
  intros HW HB. unfold register. replace (find (has_reg x) l) with (@None mregs); [reflexivity|]. symmetry.
  induction l as [|g l IH]; [reflexivity|]. inversion HW as [|? ? W1 W2]; inversion HB as [|? ? B1 B2]; subst.
  apply whole_block_wb in W1 as (o & c & d & a & -> & _). cbn [find]. rewrite has_reg_wb. cbn [wb g_offset num2] in B1.
  unfold in_block. destruct (Z.leb_spec o x); [lia|]. cbn [andb]. auto.
Qed.
Lemma registers_none l o n : register l o = None -> (0 < n)%nat -> registers l o n = None.
Proof. intros H Hn. destruct n; [lia|]. cbn [registers]. now rewrite H. Qed.
Lemma available_none l o n : register l o = None -> available l o n = O.
Proof. intros H. destruct n; cbn [available]; [reflexivity|]. now rewrite H. Qed.

(** a range inside the first block *)
Lemma registers_in o c d a l n : zlen d = 2 * c -> forall x, o <= x -> x + Z.of_nat n <= o + c ->
  registers (wb o c d a :: l) x n = Some (slice (2 * (x - o)) (2 * (x - o) + 2 * Z.of_nat n) d).
Proof.
  intros Hd. induction n as [|n IH]; intros x H1 H2.
  - cbn [registers]. rewrite slice_empty by lia. reflexivity.
  - cbn [registers]. rewrite register_cons. unfold in_block. destruct (Z.leb_spec o x); [|lia]. destruct (Z.ltb_spec x (o + c)); [|lia].
    cbn [andb]. rewrite IH by lia. rewrite (slice_split (2 * (x - o)) (2 * (x - o) + 2) (2 * (x - o) + 2 * Z.of_nat (S n))) by lia.
    do 2 f_equal. f_equal; lia.
Qed.
Lemma available_in o c d a l n : zlen d = 2 * c -> forall x, o <= x -> x + Z.of_nat n <= o + c ->
  available (wb o c d a :: l) x n = n.
Proof.
  intros Hd. induction n as [|n IH]; intros x H1 H2; cbn [available]; [reflexivity|].
  rewrite register_cons. unfold in_block. destruct (Z.leb_spec o x); [|lia]. destruct (Z.ltb_spec x (o + c)); [|lia].
  cbn [andb]. rewrite IH; lia.
Qed.
(** a range beyond the first block *)
Lemma registers_past o c d a l n : forall x, o + c <= x -> 0 <= c ->
  registers (wb o c d a :: l) x n = registers l x n.
Proof.
  induction n as [|n IH]; intros x H1 Hc; cbn [registers]; [reflexivity|].
  rewrite register_cons. unfold in_block. destruct (Z.ltb_spec x (o + c)); [lia|]. rewrite andb_false_r. rewrite IH by lia. reflexivity.
Qed.
Lemma available_past o c d a l n : forall x, o + c <= x -> 0 <= c ->
  available (wb o c d a :: l) x n = available l x n.
Proof.
  induction n as [|n IH]; intros x H1 Hc; cbn [available]; [reflexivity|].
  rewrite register_cons. unfold in_block. destruct (Z.ltb_spec x (o + c)); [lia|]. rewrite andb_false_r. rewrite IH by lia. reflexivity.
Qed.
Lemma registers_app_none l n m : forall x, registers l (x + Z.of_nat n) m = None -> registers l x (n + m) = None.
Proof.
  induction n as [|n IH]; intros x H; cbn [Nat.add registers].
  - replace (x + Z.of_nat 0) with x in H by lia. exact H.
  - rewrite IH; [now destruct (register l x)|]. replace (x + 1 + Z.of_nat n) with (x + Z.of_nat (S n)) by lia. exact H.
Qed.
Lemma available_app l n m : forall x, available l x n = n ->
  available l x (n + m) = (n + available l (x + Z.of_nat n) m)%nat.
Proof.
  induction n as [|n IH]; intros x H.
  - cbn [Nat.add]. f_equal. lia.
  - cbn [available Nat.add] in *. destruct (register l x); [|discriminate]. rewrite IH by lia.
    replace (x + 1 + Z.of_nat n) with (x + Z.of_nat (S n)) by lia. reflexivity.
Qed.

(** the tail of an ascending list, seen from the end of its first block, is a gap *)
Lemma gap_after o c d a l : ascending (wb o c d a :: l) -> Forall whole_block l -> register (wb o c d a :: l) (o + c) = None.
Proof.
  intros HA HW. apply ascending_cons in HA as (_ & HF & _). rewrite register_cons.
  unfold in_block. destruct (Z.ltb_spec (o + c) (o + c)); [lia|]. rewrite andb_false_r.
  apply register_below; auto. eapply Forall_impl; [|exact HF]. cbn [wb g_offset g_count num2]. intros h Hh. cbv beta in *. lia.
Qed.
Lemma below_first o c d a l x : ascending (wb o c d a :: l) -> Forall whole_block l -> x < o -> register l x = None.
Proof.
  intros HA HW Hx. apply ascending_cons in HA as (_ & HF & H1 & H2). cbn [wb g_offset g_count num2] in *.
  apply register_below; auto. eapply Forall_impl; [|exact HF]. intros h Hh. cbv beta in *. lia.
Qed.

(** ** reading *)
Lemma read_regs_zero l o data : read_regs l o (NI 0) data = Ok data.
Proof. destruct l; reflexivity. Qed.

Lemma regs_read_wb o c d a x n : o <= x -> 0 < n -> x + n <= o + c ->
  regs_read (wb o c d a) (NI x) (NI n) = Ok (Some (slice (2 * (x - o)) (2 * (x - o) + 2 * n) d)).
Proof.
  intros H1 H2 H3. unfold regs_read, regs_end, num_leb, num_ltb, wb. cbn [g_offset g_count g_data num_add num_sub num2].
  destruct (Z.leb_spec (2 * o) (2 * x)); [|lia]. destruct (Z.ltb_spec (2 * x) (2 * (o + c))); [|lia]. cbn [andb].
  destruct (Z.ltb_spec (2 * (o + c)) (2 * (x + n))); [lia|]. cbn [num2].
  destruct (Z.ltb_spec (2 * 0) (2 * n)); [|lia]. cbn [num_double num_add num_index bind].
  rewrite py_slice_nonneg by lia. reflexivity.
Qed.

(** read_regs when no block has the next register: stops *)
Lemma read_regs_stuck l : forall x n data, Forall whole_block l -> register l x = None -> read_regs l (NI x) (NI n) data = Ok data.
Proof.
  induction l as [|g l IH]; intros x n data HW HR; [reflexivity|]. inversion HW as [|? ? W1 W2]; subst.
  apply whole_block_wb in W1 as (o & c & d & a & -> & Hc & Hd & _). rewrite register_cons in HR.
  cbn [read_regs]. unfold regs_end, num_leb, num_ltb. cbn [wb g_offset g_count num_add num2].
  destruct (0 <? 2 * n); cbn [num2]; destruct (Z.ltb_spec (2 * 0) (2 * n)); try reflexivity.
  all: destruct (in_block o c x) eqn:EB; [discriminate|]; unfold in_block in EB;
    destruct (Z.leb_spec (2 * o) (2 * x)); destruct (Z.ltb_spec (2 * x) (2 * (o + c))); cbn [andb]; try lia; apply IH; auto.
Qed.

Lemma read_regs_spec l : forall x n data, whole l -> 0 <= n ->
  match registers l x (Z.to_nat n) with
  | Some d => read_regs l (NI x) (NI n) data = Ok (data ++ d)
  | None => exists d, read_regs l (NI x) (NI n) data = Ok (data ++ d) /\ zlen d < 2 * n
  end.
Proof.
  induction l as [|g l IH]; intros x n data [HA HW] Hn.
  - destruct (Z.eq_dec n 0) as [->|Hn0].
    + cbn. now rewrite app_nil_r.
    + rewrite registers_none by (reflexivity || lia). exists []. cbn [read_regs]. rewrite app_nil_r. split; [reflexivity|].
      rewrite zlen_nil. lia.
  - destruct (Z.eq_dec n 0) as [->|Hn0].
    { cbn [Z.to_nat registers]. rewrite app_nil_r. apply read_regs_zero. }
    inversion HW as [|? ? W1 W2]; subst.
    apply whole_block_wb in W1 as (o & c & d & a & -> & Hc & Hd & _).
    pose proof (ascending_cons _ _ HA) as (HA' & HF & _).
    cbn [read_regs]. replace (num_ltb (NI 0) (NI n)) with true by (unfold num_ltb; cbn [num2]; lia).
    replace (num_leb (g_offset (wb o c d a)) (NI x) && num_ltb (NI x) (regs_end (wb o c d a))) with (in_block o c x)
      by (unfold in_block, regs_end, num_leb, num_ltb; cbn [wb g_offset g_count num_add num2]; lia).
    destruct (in_block o c x) eqn:EB; unfold in_block in EB.
    + unfold regs_end, num_ltb. cbn [wb g_offset g_count num_add num_sub num2].
      destruct (Z.ltb_spec (2 * n) (2 * (o + c - x))) as [Hlt|Hge].
      * fold (wb o c d a). rewrite regs_read_wb by lia. cbn [bind num_sub num_add]. rewrite Z.sub_diag, read_regs_zero.
        rewrite (registers_in _ _ _ _ _ _ Hd) by lia. rewrite Z2Nat.id by lia. reflexivity.
      * fold (wb o c d a). rewrite regs_read_wb by lia. cbn [bind num_sub num_add].
        set (k := o + c - x) in *.
        replace (Z.to_nat n) with (Z.to_nat k + Z.to_nat (n - k))%nat by lia.
        destruct (Z.eq_dec (n - k) 0) as [E0|E0].
        -- rewrite E0. cbn [Z.to_nat]. rewrite Nat.add_0_r, (registers_in _ _ _ _ _ _ Hd) by lia.
           rewrite read_regs_zero, Z2Nat.id by lia. reflexivity.
        -- rewrite registers_app_none.
           ++ pose proof (gap_after o c d a l HA W2) as HG. rewrite register_cons in HG.
              unfold in_block in HG. destruct (Z.ltb_spec (o + c) (o + c)); [lia|]. rewrite andb_false_r in HG.
              rewrite read_regs_stuck; [|exact W2|unfold k; replace (x + (o + c - x)) with (o + c) by lia; exact HG].
              eexists. split; [reflexivity|]. rewrite zlen_slice by lia. lia.
           ++ apply registers_none; [|lia]. replace (x + Z.of_nat (Z.to_nat k)) with (o + c) by lia. exact (gap_after o c d a l HA W2).
    + destruct (Z_lt_le_dec x o) as [Hx|Hx].
      * rewrite registers_none; [|rewrite register_cons; unfold in_block; destruct (Z.leb_spec o x); [lia|]; exact (below_first _ _ _ _ _ _ HA W2 Hx)|lia].
        exists []. rewrite app_nil_r, zlen_nil. split; [|lia].
        apply read_regs_stuck; [exact W2|]. exact (below_first _ _ _ _ _ _ HA W2 Hx).
      * rewrite registers_past by lia. apply IH; [split; auto|lia].
Qed.
Lemma registers_len l n : forall x d, whole l -> registers l x n = Some d -> zlen d = 2 * Z.of_nat n.
Proof.
  induction n as [|n IH]; intros x d HW H; cbn [registers] in H; [injection H as <-; reflexivity|].
  destruct (register l x) as [w|] eqn:ER; [|discriminate]. destruct (registers l (x + 1) n) eqn:E; [|discriminate].
  injection H as <-. rewrite zlen_app. rewrite (IH (x + 1) _ HW E).
  assert (zlen w = 2); [|lia]. clear - HW ER. destruct HW as [_ HW]. revert ER. induction HW as [|g l W1 W2 IH]; [discriminate|].
  apply whole_block_wb in W1 as (o & c & d & a & -> & Hc & Hd & _). rewrite register_cons.
  destruct (in_block o c x) eqn:EB; [|exact IH]. intros ES. apply Some_inj in ES. subst w. unfold in_block in EB. rewrite zlen_slice; lia.
Qed.

Lemma map_read_spec m b addr count op : whole (m_regs m) -> base_int (m_base m) = Ok b -> op = 0 \/ op = m_func m ->
  0 <= count ->
  map_read m addr count op = match registers (m_regs m) (addr - b) (Z.to_nat count) with
                             | Some d => Ok d
                             | None => Raise EModbusMap
                             end.
Proof.
  intros HW HB Hop Hc. unfold map_read.
  replace (negb (op =? 0) && negb (op =? m_func m)) with false by lia. rewrite HB. cbn [bind].
  pose proof (read_regs_spec (m_regs m) (addr - b) count [] HW Hc) as H.
  destruct (registers (m_regs m) (addr - b) (Z.to_nat count)) as [d|] eqn:E.
  - rewrite H. cbn [bind app]. pose proof (registers_len _ _ _ _ HW E) as HL. rewrite Z2Nat.id in HL by lia.
    rewrite HL, Z.eqb_refl. reflexivity.
  - destruct H as (d & -> & Hd). cbn [bind app]. destruct (Z.eqb_spec (zlen d) (2 * count)); [lia|reflexivity].
Qed.

(** ** writing *)
Lemma ztake_zdrop_shape {A} (d w : list A) i j : 0 <= i <= j -> j <= zlen d -> zlen w = j - i ->
  zlen (ztake i d ++ w ++ zdrop j d) = zlen d.
Proof. intros. rewrite !zlen_app, zlen_ztake_le, zlen_zdrop; lia. Qed.

Lemma regs_write_wb o c d a x w : zlen d = 2 * c -> o <= x -> zlen w mod 2 = 0 -> x + zlen w / 2 <= o + c ->
  regs_write (wb o c d a) (NI x) w
  = Ok (wb o c (ztake (2 * (x - o)) d ++ w ++ zdrop (2 * (x - o) + zlen w) d) a).
Proof.
  intros Hd H1 HE H2. pose proof (zlen_nonneg w). assert (2 * (zlen w / 2) = zlen w) by (rewrite (Z.div_mod (zlen w) 2) at 2 by lia; lia).
  unfold regs_write, regs_end, num_leb, wb. cbn [g_offset g_count g_data g_access num_add num_sub num_double num2].
  destruct (Z.leb_spec (2 * o) (2 * x)); [|lia]. destruct (Z.leb_spec (2 * x + zlen w) (2 * (o + c))); [|lia]. cbn [andb num_index bind num_int].
  replace (2 * (2 * (x - o)) + 2 * zlen w) with ((2 * (x - o) + zlen w) * 2) by lia. rewrite Z.quot_mul by lia.
  unfold py_bound. destruct (Z.ltb_spec (2 * (x - o)) 0); [lia|]. destruct (Z.ltb_spec (2 * (x - o) + zlen w) 0); [lia|].
  rewrite !Z.min_l by lia. reflexivity.
Qed.

Lemma write_regs_zero l o r k data : num2 r <= 0 -> write_regs l o r k data = (l, Ok r).
Proof.
  intros H. destruct l; [reflexivity|]. cbn [write_regs].
  replace (num_ltb (NI 0) r) with false by (unfold num_ltb; cbn [num2]; lia). reflexivity.
Qed.
Lemma write_regs_stuck l : forall o x n k data, num2 o = 2 * x -> Forall whole_block l -> register l x = None ->
  write_regs l o n k data = (l, Ok n).
Proof.
  induction l as [|g l IH]; intros o' x n k data Ho HW HR; [reflexivity|]. inversion HW as [|? ? W1 W2]; subst.
  apply whole_block_wb in W1 as (o & c & d & a & -> & Hc & Hd & _). rewrite register_cons in HR.
  cbn [write_regs]. destruct (num_ltb (NI 0) n); [|reflexivity].
  destruct (in_block o c x) eqn:EB; [discriminate|]. unfold in_block in EB.
  replace (num_leb (g_offset (wb o c d a)) o' && num_ltb o' (regs_end (wb o c d a))) with false
    by (unfold regs_end, num_leb, num_ltb; cbn [wb g_offset g_count num_add num2]; rewrite Ho; lia).
  rewrite (IH o' x); auto.
Qed.

(** the updated block, register by register *)
Lemma word_update o c d a l x w y : zlen d = 2 * c -> o <= x -> zlen w mod 2 = 0 -> x + zlen w / 2 <= o + c ->
  register (wb o c (ztake (2 * (x - o)) d ++ w ++ zdrop (2 * (x - o) + zlen w) d) a :: l) y
  = if (x <=? y) && (y <? x + zlen w / 2) then Some (slice (2 * (y - x)) (2 * (y - x) + 2) w)
    else register (wb o c d a :: l) y.
Proof.
  intros Hd H1 HE H2. pose proof (zlen_nonneg w). assert (2 * (zlen w / 2) = zlen w) by (rewrite (Z.div_mod (zlen w) 2) at 2 by lia; lia).
  rewrite !register_cons. destruct (in_block o c y) eqn:EB; unfold in_block in EB.
  - assert (HT : zlen (ztake (2 * (x - o)) d) = 2 * (x - o)) by (apply zlen_ztake_le; lia).
    destruct (Z.leb_spec x y) as [L1|L1]; [destruct (Z.ltb_spec y (x + zlen w / 2)) as [L2|L2]|]; cbn [andb]; f_equal.
    + rewrite slice_app_r by lia. rewrite slice_app_l by lia. f_equal; lia.
    + rewrite slice_app_r by lia. rewrite slice_app_r by lia. rewrite HT. unfold slice. rewrite zdrop_zdrop by lia.
      f_equal; [lia|]. f_equal. lia.
    + rewrite slice_app_l by lia. unfold slice. rewrite zdrop_ztake by lia. rewrite ztake_ztake. f_equal. lia.
  - destruct (Z.leb_spec x y); [destruct (Z.ltb_spec y (x + zlen w / 2))|]; cbn [andb]; [lia|reflexivity|reflexivity].
Qed.

Lemma ascending_data o c d d' a l : ascending (wb o c d a :: l) -> ascending (wb o c d' a :: l).
Proof.
  intros [H1 H2]. inversion H1; inversion H2; subst. split; constructor; auto.
Qed.
Lemma ascending_cons_intro g l : ascending l -> Forall (fun h => num2 (g_offset g) + num2 (g_count g) < num2 (g_offset h)) l ->
  0 <= num2 (g_offset g) -> 0 <= num2 (g_count g) -> ascending (g :: l).
Proof. intros [H1 H2] HF Ho Hc. split; constructor; auto. Qed.

(** shape is preserved: the same offsets and counts *)
Definition same_shape (l l' : list mregs) : Prop :=
  Forall2 (fun g g' => g_offset g = g_offset g' /\ g_count g = g_count g' /\ g_access g = g_access g') l l'.
Lemma same_shape_refl l : same_shape l l.
Proof. induction l; constructor; auto. Qed.
Lemma same_shape_ascending l l' : same_shape l l' -> ascending l -> ascending l'.
Proof.
  induction 1 as [|g g' l l' (E1 & E2 & E3) HS IH]; intros HA; [exact HA|].
  apply ascending_cons in HA as (HA & HF & Ho & Hc). apply ascending_cons_intro; rewrite <- ?E1, <- ?E2; auto.
  clear - HF HS. induction HS as [|g1 g1' l l' (E1 & _) HS IH]; inversion HF; subst; constructor; auto. now rewrite <- E1.
Qed.

(** ascending only depends on offsets and counts *)
Lemma same_shape_ascending_weak l l' : Forall2 (fun g g' => g_offset g = g_offset g' /\ g_count g = g_count g') l l' ->
  ascending l -> ascending l'.
Proof.
  induction 1 as [|g g' l l' (E1 & E2) HS IH]; intros HA; [exact HA|].
  apply ascending_cons in HA as (HA & HF & Ho & Hc). apply ascending_cons_intro; rewrite <- ?E1, <- ?E2; auto.
  clear - HF HS. induction HS as [|g1 g1' l l' (E1 & _) HS IH]; inversion HF; subst; constructor; auto. now rewrite <- E1.
Qed.
Lemma shape_refl l : Forall2 (fun g g' => g_offset g = g_offset g' /\ g_count g = g_count g') l l.
Proof. induction l; constructor; auto. Qed.

Lemma write_regs_spec l : forall x n data, whole l -> Forall is_byte data -> 0 <= n -> zlen data = 2 * n ->
  exists l' r, write_regs l (NI x) (NF (2 * n)) (NI 0) data = (l', Ok r) /\
    num2 r = 2 * (n - Z.of_nat (available l x (Z.to_nat n))) /\
    whole l' /\ same_shape l l' /\
    forall y, register l' y =
      if (x <=? y) && (y <? x + Z.of_nat (available l x (Z.to_nat n)))
      then Some (slice (2 * (y - x)) (2 * (y - x) + 2) data) else register l y.
Proof.
  induction l as [|g l IH]; intros x n data HWH HB Hn HL.
  - exists [], (NF (2 * n)). rewrite available_none by reflexivity. cbn [write_regs num2].
    split; [reflexivity|]. split; [lia|]. split; [exact HWH|]. split; [constructor|].
    intros y. replace ((x <=? y) && (y <? x + Z.of_nat 0)) with false by lia. reflexivity.
  - destruct (Z.eq_dec n 0) as [->|Hn0].
    { exists (g :: l), (NF 0). cbn [Z.to_nat available Z.mul]. rewrite write_regs_zero by (cbn; lia).
      split; [reflexivity|]. split; [reflexivity|]. split; [exact HWH|]. split; [apply same_shape_refl|].
      intros y. replace ((x <=? y) && (y <? x + Z.of_nat 0)) with false by lia. reflexivity. }
    destruct HWH as [HA HW]. inversion HW as [|? ? W1 W2]; subst.
    apply whole_block_wb in W1 as (o & c & d & a & -> & Hc & Hd & HDB).
    pose proof (ascending_cons _ _ HA) as (HA' & HF & Ho & _).
    cbn [write_regs]. replace (num_ltb (NI 0) (NF (2 * n))) with true by (unfold num_ltb; cbn [num2]; lia).
    replace (num_leb (g_offset (wb o c d a)) (NI x) && num_ltb (NI x) (regs_end (wb o c d a))) with (in_block o c x)
      by (unfold in_block, regs_end, num_leb, num_ltb; cbn [wb g_offset g_count num_add num2]; lia).
    destruct (in_block o c x) eqn:EB; unfold in_block in EB.
    + (* k registers of this block are written *)
      set (k := Z.min n (o + c - x)).
      assert (HK : exists wc, (if num_ltb (NF (2 * n)) (num_sub (regs_end (wb o c d a)) (NI x)) then NF (2 * n) else num_sub (regs_end (wb o c d a)) (NI x)) = wc
                   /\ num2 wc = 2 * k).
      { eexists. split; [reflexivity|]. unfold regs_end, num_ltb. cbn [wb g_offset g_count num_add num_sub num2].
        destruct (Z.ltb_spec (2 * n) (2 * (o + c - x))); cbn [num2]; unfold k; lia. }
      destruct HK as (wc & -> & Hwc). cbn [num_index].
      assert (HS : num_int (num_add (NI 0) (num_double wc)) = 2 * k).
      { destruct wc; cbn [num_double num_add num_int num2] in *; [lia|]. replace (2 * 0 + 2 * h) with (2 * k * 2) by lia. apply Z.quot_mul; lia. }
      rewrite HS. rewrite py_slice_nonneg by lia.
      set (w := slice 0 (2 * k) data).
      assert (Hw : zlen w = 2 * k) by (unfold w; rewrite zlen_slice; lia).
      assert (Hw2 : zlen w / 2 = k) by (rewrite Hw; rewrite Z.mul_comm; apply Z.div_mul; lia).
      assert (Hwm : zlen w mod 2 = 0) by (rewrite Hw; rewrite Z.mul_comm; apply Z.mod_mul; lia).
      rewrite regs_write_wb by (auto; lia).
      (* the rest of the list is not touched *)
      assert (HREST : write_regs l (num_add (NI x) wc) (num_sub (NF (2 * n)) wc) (num_add (NI 0) wc) data
                      = (l, Ok (num_sub (NF (2 * n)) wc))).
      { destruct (Z_le_gt_dec (2 * n) (num2 wc)).
        - apply write_regs_zero. rewrite num2_sub. cbn [num2]. lia.
        - apply (write_regs_stuck l _ (o + c)); [rewrite num2_add; cbn [num2]; unfold k in *; lia|exact W2|].
          pose proof (gap_after o c d a l HA W2) as HG. rewrite register_cons in HG.
          unfold in_block in HG. destruct (Z.ltb_spec (o + c) (o + c)); [lia|]. rewrite andb_false_r in HG. exact HG. }
      rewrite HREST.
      assert (HAV : available (wb o c d a :: l) x (Z.to_nat n) = Z.to_nat k).
      { replace (Z.to_nat n) with (Z.to_nat k + Z.to_nat (n - k))%nat by lia.
        rewrite available_app by (apply available_in; auto; lia).
        destruct (Z.eq_dec (n - k) 0) as [->|E0]; [cbn [Z.to_nat available]; lia|].
        rewrite available_none; [lia|]. replace (x + Z.of_nat (Z.to_nat k)) with (o + c) by lia. now apply gap_after. }
      rewrite HAV, Z2Nat.id by lia. eexists _, _. split; [reflexivity|]. split; [rewrite num2_sub, Hwc; cbn [num2]; lia|].
      split; [|split].
      * split; [eapply ascending_data; eauto|]. constructor; [|exact W2]. apply wb_whole; [lia| |].
        -- rewrite ztake_zdrop_shape; lia.
        -- apply Forall_app; split; [now apply Forall_ztake|]. apply Forall_app; split; [now apply Forall_slice|now apply Forall_zdrop].
      * constructor; [cbn; auto|apply same_shape_refl].
      * intros y. rewrite word_update by (auto; lia). rewrite Hw2. destruct ((x <=? y) && (y <? x + k)) eqn:EY; [|reflexivity].
        f_equal. assert (Ew : w = ztake (2 * k) data).
        { unfold w, slice. rewrite (zdrop_neg 0) by lia. f_equal. lia. }
        rewrite Ew. unfold slice. rewrite zdrop_ztake by lia. rewrite ztake_ztake. f_equal. lia.
    + destruct (Z_lt_le_dec x o) as [Hx|Hx].
      * assert (HN : register (wb o c d a :: l) x = None).
        { rewrite register_cons. unfold in_block. destruct (Z.leb_spec o x); [lia|]. exact (below_first _ _ _ _ _ _ HA W2 Hx). }
        rewrite available_none by exact HN.
        rewrite (write_regs_stuck l _ x); [|reflexivity|exact W2|exact (below_first _ _ _ _ _ _ HA W2 Hx)].
        eexists _, _. split; [reflexivity|]. cbn [num2]. split; [lia|]. split; [split; auto|]. split; [apply same_shape_refl|].
        intros y. replace ((x <=? y) && (y <? x + Z.of_nat 0)) with false by lia. reflexivity.
      * rewrite available_past by lia. destruct (IH x n data (conj HA' W2) HB Hn HL) as (l' & r & -> & Hr & [HA2 HW2] & HSH & HREG).
        exists (wb o c d a :: l'), r. split; [reflexivity|]. split; [exact Hr|]. split; [|split].
        -- split; [|constructor; auto; now apply wb_whole]. eapply same_shape_ascending; [|exact HA]. constructor; [auto|exact HSH].
        -- constructor; [auto|exact HSH].
        -- intros y. rewrite !register_cons, HREG. destruct (in_block o c y) eqn:EY; [|reflexivity].
           unfold in_block in EY. replace ((x <=? y) && _) with false by lia. reflexivity.
Qed.

(** ** building *)
Lemma last_next_snoc l g : last_next (l ++ [g]) = (Some g, regs_end g).
Proof. unfold last_next. now rewrite rev_app_distr. Qed.
Lemma ascending_snoc l g : ascending (l ++ [g]) <->
  ascending l /\ Forall (fun h => num2 (g_offset h) + num2 (g_count h) < num2 (g_offset g)) l /\
  0 <= num2 (g_offset g) /\ 0 <= num2 (g_count g).
Proof.
  induction l as [|h l IH]; cbn [app].
  - split.
    + intros H. apply ascending_cons in H as (_ & _ & H). repeat split; try constructor; tauto.
    + intros (_ & _ & H1 & H2). apply ascending_cons_intro; auto. split; constructor.
  - split.
    + intros H. apply ascending_cons in H as (H & HF & H1 & H2). apply Forall_app in HF as [HF1 HF2]. inversion HF2 as [|? ? HF4 _]; subst.
      apply IH in H as (H & HF3 & H3 & H4). split; [|split]; [now apply ascending_cons_intro|now constructor|auto].
    + intros (H & HF & H1 & H2). apply ascending_cons in H as (H & HF1 & H3 & H4). inversion HF as [|? ? HF4 HF5]; subst.
      apply ascending_cons_intro; auto; [apply IH; auto|]. apply Forall_app; auto.
Qed.
(** everything ends before the end of the last block *)
Lemma ascending_ends l : ascending l ->
  Forall (fun h => num2 (g_offset h) + num2 (g_count h) <= num2 (snd (last_next l))) l.
Proof.
  destruct l as [|g l] using rev_ind; [constructor|]. clear IHl. intros H. rewrite last_next_snoc. cbn [snd].
  apply ascending_snoc in H as (H & HF & H1 & H2). unfold regs_end. rewrite num2_add. apply Forall_app. split.
  - eapply Forall_impl; [|exact HF]. intros h Hh. cbv beta in *. lia.
  - constructor; [lia|constructor].
Qed.
Lemma last_next_nonneg l : ascending l -> 0 <= num2 (snd (last_next l)).
Proof.
  destruct l as [|g l] using rev_ind; [cbn; lia|]. intros H. rewrite last_next_snoc. cbn [snd].
  apply ascending_snoc in H as (H & HF & H1 & H2). unfold regs_end. rewrite num2_add. lia.
Qed.

Lemma put_regs_asc l off n data access l' : ascending l -> num2 (snd (last_next l)) <= num2 off -> 0 <= num2 n ->
  put_regs l off n data access = Ok l' -> ascending l' /\ num2 (snd (last_next l')) = num2 off + num2 n.
Proof.
  intros HA Ho Hn HP. pose proof (ascending_ends l HA) as HE. pose proof (last_next_nonneg l HA) as HN. unfold put_regs in HP.
  destruct (last_next l) as [lastg next] eqn:EL. cbn [snd] in *.
  destruct l as [|g l] using rev_ind.
  - cbn in EL. injection EL as <- <-. injection HP as <-. cbn [app]. split.
    + apply (ascending_snoc []). cbn [g_offset g_count num2] in *. repeat split; try constructor; lia.
    + cbn [last_next rev app snd]. unfold regs_end. now rewrite num2_add.
  - clear IHl. rewrite last_next_snoc in EL. injection EL as <- <-.
    destruct (num_ltb (regs_end g) off) eqn:EB.
    + injection HP as <-. rewrite last_next_snoc. unfold regs_end at 1. cbn [snd g_offset g_count]. rewrite num2_add. split; [|reflexivity].
      apply ascending_snoc. cbn [g_offset g_count]. unfold num_ltb in EB. apply Z.ltb_lt in EB. split; [exact HA|split; [|split; lia]].
      eapply Forall_impl; [|exact HE]. intros h Hh. cbv beta in *. lia.
    + unfold num_ltb in EB. apply Z.ltb_ge in EB. rewrite removelast_last in HP.
      unfold regs_append in HP. destruct (g_data g) as [d1|]; [|discriminate]. destruct data as [d2|]; [|discriminate].
      cbn [bind] in HP. injection HP as <-. rewrite last_next_snoc. unfold regs_end in *. cbn [snd g_offset g_count]. rewrite !num2_add in *.
      split; [|lia]. apply ascending_snoc in HA as (HA & HF & H1 & H2). apply ascending_snoc. cbn [g_offset g_count]. rewrite num2_add.
      split; [exact HA|split; [exact HF|split; lia]].
Qed.

Lemma regs_data_nonneg E t n0 text d n : 0 <= n0 -> regs_data E t n0 text = Ok (d, n) -> 0 <= num2 n.
Proof.
  intros Hn. unfold regs_data. cbv zeta.
  repeat match goal with
         | |- context [if eqb_list t ?x then _ else _] => destruct (eqb_list t x)
         end;
  intros H; repeat (apply bind_ok in H as (? & ? & H));
  repeat match goal with
         | H : Ok _ = Ok _ |- _ => injection H as <- <-
         | H : Raise _ = Ok _ |- _ => discriminate H
         | H : match float_parse E ?x with _ => _ end = Ok _ |- _ => destruct (float_parse E x); [|discriminate H]
         | H : (if ?b =? 0 then _ else _) = Ok _ |- _ => destruct (b =? 0)
         | H : bind _ _ = Ok _ |- _ => apply bind_ok in H as (? & ? & H)
         end; cbn [num2]; try lia.
  destruct (negb _); [discriminate|].
  set (tx := filter _ _) in *. pose proof (zlen_nonneg tx) as Hz. pose proof (Z.div_pos (zlen tx) 2 Hz ltac:(lia)).
  destruct (n0 =? 0); apply bind_ok in H as (? & ? & H); destruct (0 <? _); injection H as <- <-; cbn [num2]; lia.
Qed.

Lemma load_regs1_asc E l next r l' next' : ascending l -> len_nonneg r ->
  load_regs1 E l next r = Ok (l', next') -> ascending l' /\ num2 (snd (last_next l')) = num2 next'.
Proof.
  intros HA HL H. unfold load_regs1 in H.
  destruct (match x_get A_OFFSET r with None => _ | Some _ => _ end) as [off|]; [|discriminate].
  match type of H with match ?m with _ => _ end = _ => destruct m as [[l1 n1]|] eqn:EM; [|discriminate] end.
  injection H as <- <-. apply bind_ok in EM as (n0 & Hn0 & EM).
  destruct (num_ltb off _) eqn:EB; [discriminate|]. unfold num_ltb in EB. apply Z.ltb_ge in EB.
  apply bind_ok in EM as ([d n] & HD & EM). apply bind_ok in EM as (l2 & HP & EM). injection EM as <- <-.
  assert (0 <= num2 n).
  { eapply regs_data_nonneg; [|exact HD]. destruct (x_get A_LEN r) eqn:EL; [eapply HL; eauto|]. injection Hn0 as <-. lia. }
  rewrite num2_add. eapply put_regs_asc; eauto.
Qed.
Lemma load_regs_asc E rs : forall l next, ascending l -> Forall len_nonneg rs -> ascending (fst (load_regs E l next rs)).
Proof.
  induction rs as [|r rs IH]; intros l next HA HF; [exact HA|]. inversion HF; subst. cbn [load_regs].
  destruct (load_regs1 E l next r) as [[l1 n1]|] eqn:E1; [|exact HA]. apply IH; auto. eapply load_regs1_asc; eauto.
Qed.

Lemma write_regs_shape l : forall o r k data, Forall2 (fun g g' => g_offset g = g_offset g' /\ g_count g = g_count g' /\ g_access g = g_access g')
  l (fst (write_regs l o r k data)).
Proof.
  induction l as [|g l IH]; intros o r k data; [constructor|]. cbn [write_regs].
  destruct (num_ltb (NI 0) r); [|apply same_shape_refl].
  destruct (_ && _).
  - destruct (num_index k); [|apply same_shape_refl].
    destruct (regs_write g o _) as [g'|] eqn:EW; [|apply same_shape_refl].
    destruct (write_regs l _ _ _ data) as [l2 r2] eqn:E2. constructor.
    + unfold regs_write in EW. destruct (_ && _); [|discriminate]. destruct (g_data g); [|discriminate].
      apply bind_ok in EW as (? & _ & EW). injection EW as <-. auto.
    + pose proof (IH (num_add o (if num_ltb r (num_sub (regs_end g) o) then r else num_sub (regs_end g) o))
        (num_sub r (if num_ltb r (num_sub (regs_end g) o) then r else num_sub (regs_end g) o))
        (num_add k (if num_ltb r (num_sub (regs_end g) o) then r else num_sub (regs_end g) o)) data) as HI.
      rewrite E2 in HI. exact HI.
  - destruct (write_regs l o r k data) as [l2 r2] eqn:E2. constructor; auto. specialize (IH o r k data). rewrite E2 in IH. exact IH.
Qed.

Lemma map_step_asc E m o : ascending (m_regs m) -> op_len_ok o -> ascending (m_regs (map_step E m o)).
Proof.
  intros HA HO. destruct o as [root|addr offset count access|addr data|addr count op]; cbn [map_step].
  - unfold map_from_xml. destruct (func_value _); [|exact HA].
    destruct (load_regs E (m_regs m) (NI 0) (findall T_REGS root)) as [l r] eqn:EL. cbn [fst m_regs].
    pose proof (load_regs_asc E (findall T_REGS root) (m_regs m) (NI 0) HA HO) as H. rewrite EL in H. exact H.
  - unfold regs_add. set (off := match addr with Some _ => _ | None => _ end). destruct off as [o|]; [|exact HA].
    destruct (num_ltb (NI o) _) eqn:EB; [exact HA|]. unfold num_ltb in EB. apply Z.ltb_ge in EB.
    destruct (pack_s (2 * count) []) eqn:EP; [|exact HA].
    destruct (put_regs (m_regs m) (NI o) (NI count) _ access) eqn:EQ; [|exact HA]. cbn [fst with_regs m_regs].
    eapply put_regs_asc in EQ; [apply EQ|exact HA|exact EB|]. unfold pack_s in EP. destruct (Z.ltb_spec (2 * count) 0); [discriminate|].
    cbn [num2]. lia.
  - unfold map_write. destruct (negb _); [exact HA|]. destruct (base_int (m_base m)); [|exact HA].
    pose proof (write_regs_shape (m_regs m) (NI (addr - a)) (NF (zlen data)) (NI 0) data) as HS.
    destruct (write_regs _ _ _ _ data) as [l r]. cbn [fst with_regs m_regs] in *. eapply same_shape_ascending; [exact HS|exact HA].
  - exact HA.
Qed.
Lemma map_run_asc E ops : forall m, ascending (m_regs m) -> Forall op_len_ok ops -> ascending (m_regs (map_run E ops m)).
Proof.
  induction ops as [|o ops IH]; intros m HA HF; [exact HA|]. inversion HF; subst. cbn [map_run fold_left].
  apply IH; auto. now apply map_step_asc.
Qed.

(** *** registers of a list that is extended at the end *)
Lemma register_app l1 l2 y : register (l1 ++ l2) y = match register l1 y with Some w => Some w | None => register l2 y end.
Proof.
  unfold register. induction l1 as [|g l IH]; cbn [app find option_map]; [reflexivity|]. now destruct (has_reg y g).
Qed.
Lemma register_above l y : Forall whole_block l -> Forall (fun h => num2 (g_offset h) + num2 (g_count h) <= 2 * y) l -> register l y = None.
Proof.
  intros HW HF. unfold register. replace (find (has_reg y) l) with (@None mregs); [reflexivity|]. symmetry.
  induction l as [|g l IH]; [reflexivity|]. inversion HW as [|? ? W1 W2]; inversion HF as [|? ? B1 B2]; subst.
  apply whole_block_wb in W1 as (o & c & d & a & -> & _). cbn [find]. rewrite has_reg_wb. cbn [wb g_offset g_count num2] in B1.
  unfold in_block. destruct (Z.ltb_spec y (o + c)); [lia|]. rewrite andb_false_r. auto.
Qed.
Lemma put_whole l off n d access : whole l -> num2 (snd (last_next l)) <= 2 * off -> 0 <= n -> zlen d = 2 * n -> Forall is_byte d ->
  exists l', put_regs l (NI off) (NI n) (Some d) access = Ok l' /\ whole l' /\ snd (last_next l') = NI (off + n) /\
  forall y, register l' y = if in_block off n y then Some (slice (2 * (y - off)) (2 * (y - off) + 2) d) else register l y.
Proof.
  intros [HA HW] Ho Hn Hd HB. pose proof (ascending_ends l HA) as HE. pose proof (last_next_nonneg l HA) as HN.
  assert (HNEW : forall y, in_block off n y = true -> register l y = None).
  { intros y Hy. unfold in_block in Hy. apply register_above; auto. eapply Forall_impl; [|exact HE]. intros h Hh. cbv beta in *. lia. }
  unfold put_regs. destruct (last_next l) as [lastg next] eqn:EL. cbn [snd] in *.
  assert (NEWBLOCK : ascending (l ++ [wb off n d access]) -> whole (l ++ [wb off n d access]) /\
     snd (last_next (l ++ [wb off n d access])) = NI (off + n) /\
     forall y, register (l ++ [wb off n d access]) y = if in_block off n y then Some (slice (2 * (y - off)) (2 * (y - off) + 2) d) else register l y).
  { intros HA2. split; [|split].
    - split; [exact HA2|]. apply Forall_app. split; [exact HW|]. constructor; [|constructor]. now apply wb_whole.
    - rewrite last_next_snoc. reflexivity.
    - intros y. rewrite register_app, register_cons. destruct (in_block off n y) eqn:EB; [now rewrite HNEW|]. now destruct (register l y). }
  destruct l as [|g l] using rev_ind.
  - cbn in EL. injection EL as <- <-. eexists. split; [reflexivity|]. apply NEWBLOCK. apply (ascending_snoc []).
    cbn [wb g_offset g_count num2] in *. repeat split; try constructor; lia.
  - clear IHl. rewrite last_next_snoc in EL. injection EL as <- <-.
    apply Forall_app in HW as [HW1 HW2]. inversion HW2 as [|? ? W _]; subst.
    apply whole_block_wb in W as (o & c & d0 & a & -> & Hc & Hd0 & HB0). change (regs_end (wb o c d0 a)) with (NI (o + c)) in *.
    destruct (num_ltb (NI (o + c)) (NI off)) eqn:EB; unfold num_ltb in EB; cbn [num2] in EB, Ho.
    + apply Z.ltb_lt in EB. eexists. split; [reflexivity|]. apply NEWBLOCK. apply ascending_snoc.
      cbn [wb g_offset g_count num2] in *. split; [exact HA|split; [|split; lia]].
      eapply Forall_impl; [|exact HE]. intros h Hh. cbv beta in *. lia.
    + apply Z.ltb_ge in EB. assert (off = o + c) by lia. subst off. rewrite removelast_last. cbn [regs_append wb g_data g_count g_offset g_access bind num_add].
      eexists. split; [reflexivity|]. change (mkRegs (NI o) (NI (c + n)) (Some (d0 ++ d)) a) with (wb o (c + n) (d0 ++ d) a). rewrite last_next_snoc.
      apply ascending_snoc in HA as (HA & HF & H1 & H2). cbn [wb g_offset g_count num2] in HF, H1, H2. split; [|split].
      * split.
        -- apply ascending_snoc. cbn [wb g_offset g_count num2]. split; [exact HA|split; [exact HF|split; lia]].
        -- apply Forall_app. split; [exact HW1|]. constructor; [|constructor]. apply wb_whole; [lia|rewrite zlen_app; lia|apply Forall_app; auto].
      * cbn [snd]. unfold regs_end, wb. cbn [g_offset g_count num_add]. f_equal. lia.
      * intros y. rewrite !register_app, !register_cons. cbn [register].
        destruct (in_block (o + c) n y) eqn:EY.
        -- apply HNEW in EY as EN. rewrite register_app in EN. destruct (register l y); [discriminate|].
           unfold in_block in *. replace ((o <=? y) && (y <? o + (c + n))) with true by lia.
           cbv iota. rewrite slice_app_r by lia. rewrite Hd0. do 2 f_equal; lia.
        -- destruct (register l y); [reflexivity|]. unfold in_block in *.
           destruct ((o <=? y) && (y <? o + c)) eqn:E2.
           ++ replace ((o <=? y) && (y <? o + (c + n))) with true by lia. cbv iota. rewrite slice_app_l by lia. reflexivity.
           ++ replace ((o <=? y) && (y <? o + (c + n))) with false by lia. reflexivity.
Qed.

(** *** element data *)
Definition hex_chars : list (Z * Z) :=
  map (fun v => (48 + Z.of_nat v, Z.of_nat v)) (seq 0 10) ++
  map (fun v => (97 + Z.of_nat v, 10 + Z.of_nat v)) (seq 0 6) ++
  map (fun v => (65 + Z.of_nat v, 10 + Z.of_nat v)) (seq 0 6).
Lemma hex_chars_spec c v : digit_of 16 c v -> In (c, v) hex_chars.
Proof.
  intros (Hv & H). unfold hex_chars. rewrite !in_app_iff, !in_map_iff.
  destruct H as [[-> H]|[[-> H]|[-> H]]].
  - left. exists (Z.to_nat v). rewrite in_seq. split; [f_equal; lia|lia].
  - right; left. exists (Z.to_nat (v - 10)). rewrite in_seq. split; [f_equal; lia|lia].
  - right; right. exists (Z.to_nat (v - 10)). rewrite in_seq. split; [f_equal; lia|lia].
Qed.
Definition hex_pairs_ok : bool :=
  forallb (fun p => forallb (fun q =>
    match int_of_hex [fst p; fst q] with Ok n => (n =? 16 * snd p + snd q) | Raise _ => false end) hex_chars) hex_chars.
Lemma hex_pairs_ok_true : hex_pairs_ok = true. Proof. vm_compute. reflexivity. Qed.
Lemma int_of_hex_pair c1 v1 c2 v2 : digit_of 16 c1 v1 -> digit_of 16 c2 v2 -> int_of_hex [c1; c2] = Ok (16 * v1 + v2).
Proof.
  intros H1 H2. apply hex_chars_spec in H1, H2. pose proof hex_pairs_ok_true as H. unfold hex_pairs_ok in H.
  rewrite forallb_forall in H. specialize (H _ H1). rewrite forallb_forall in H. specialize (H _ H2). cbn [fst snd] in H.
  destruct (int_of_hex [c1; c2]); [|discriminate]. f_equal. lia.
Qed.
Lemma hex_bytes_ok s d : hex_text s d -> forall fuel, (length s <= fuel)%nat -> hex_bytes fuel s = Ok d.
Proof.
  induction 1 as [|c1 c2 v1 v2 s d H1 H2 HT IH]; intros fuel Hf; [destruct fuel; reflexivity|].
  destruct fuel as [|k]; [cbn in Hf; lia|]. cbn [hex_bytes]. change (ztake 2 (c1 :: c2 :: s)) with [c1; c2].
  change (zdrop 2 (c1 :: c2 :: s)) with s. rewrite (int_of_hex_pair _ _ _ _ H1 H2). cbn [bind].
  unfold pack_int, int_lo, int_hi. change (8 * Z.of_nat 1) with 8. change (2 ^ 8) with 256.
  assert (B : 0 <= 16 * v1 + v2 < 256) by (destruct H1 as [H1 _], H2 as [H2 _]; lia).
  replace ((0 <=? 16 * v1 + v2) && (16 * v1 + v2 <=? 256 - 1)) with true by lia. cbn [bind be_bytes app].
  rewrite IH by (cbn in Hf; lia). cbn [bind]. now rewrite Z.mod_small by lia.
Qed.
Lemma hex_text_len s d : hex_text s d -> zlen s = 2 * zlen d.
Proof. induction 1; rewrite ?zlen_cons, ?zlen_nil in *; lia. Qed.
Lemma hex_text_bytes s d : hex_text s d -> Forall is_byte d.
Proof. induction 1 as [|c1 c2 v1 v2 s d [H1 _] [H2 _] HT IH]; constructor; auto. red; lia. Qed.
Lemma pack_int_ok w sgn v d : pack_int w sgn v = Ok d -> int_lo w sgn <= v <= int_hi w sgn /\ d = be_bytes w v.
Proof. unfold pack_int. destruct (_ && _) eqn:E; [|discriminate]. intros [= <-]. split; [lia|reflexivity]. Qed.
Lemma pack_f_len f d : pack_f f = Ok d -> exists z, d = be_bytes 4 z.
Proof. unfold pack_f. destruct f; try (intros H; apply Ok_inj in H; eexists; symmetry; exact H).
  destruct (to_single _); intros H; try discriminate; apply Ok_inj in H; eexists; symmetry; exact H. Qed.

Lemma latin1_ok s b : latin1_encode s = Ok b -> b = s /\ Forall is_byte s.
Proof. unfold latin1_encode. destruct (forallb is_byteb s) eqn:E; [|discriminate]. intros [= <-]. split; [reflexivity|]. now apply forallb_is_byte. Qed.

(** the element's data, when it fits *)
Lemma regs_data_fits E r rlen d n :
  match x_get A_LEN r with None => Ok 0 | Some s => int_of_str s end = Ok rlen -> fits r ->
  regs_data E (elem_type r) rlen (x_text r) = Ok (d, n) ->
  exists d' k, d = Some d' /\ n = NI k /\ 0 < k /\ zlen d' = 2 * k /\ Forall is_byte d' /\ declares E r d'.
Proof.
  intros HL HF. unfold regs_data. cbv zeta. fold (elem_text r []).
  assert (INT : forall w sgn k, int_elem_type (elem_type r) = Some (w, sgn) ->
    eqb_list (elem_type r) (lit "string"%string) || eqb_list (elem_type r) (lit "hexstr"%string) = false -> Z.of_nat w = 2 * k -> 0 < k ->
    (let! v := int_of_str0 (match x_text r with Some (c :: r0) => c :: r0
        | _ => if eqb_list (elem_type r) (lit "string"%string) || eqb_list (elem_type r) (lit "hexstr"%string) then [] else [48] end) in
     let! d0 := pack_int w sgn v in Ok (Some d0, NI k)) = Ok (d, n) ->
    exists d' k, d = Some d' /\ n = NI k /\ 0 < k /\ zlen d' = 2 * k /\ Forall is_byte d' /\ declares E r d').
  { intros w sgn k HT HS HK HK0 H. rewrite HS in H. fold (elem_text r [48]) in H. apply bind_ok in H as (v & HV & H). apply bind_ok in H as (d0 & HP & H).
    injection H as <- <-. apply pack_int_ok in HP as (HR & ->). apply int_of_str0_spec in HV.
    exists (be_bytes w v), k. repeat split; auto; [rewrite be_bytes_zlen; exact HK|apply be_bytes_bytes|].
    econstructor; eauto. }
  destruct (eqb_list (elem_type r) (lit "s16"%string)) eqn:E1.
  { apply (INT 2%nat true 1); [unfold int_elem_type; now rewrite E1|apply eqb_list_eq in E1; now rewrite E1|lia|lia]. }
  destruct (eqb_list (elem_type r) (lit "u16"%string)) eqn:E2.
  { apply (INT 2%nat false 1); [unfold int_elem_type; now rewrite E1, E2|apply eqb_list_eq in E2; now rewrite E2|lia|lia]. }
  destruct (eqb_list (elem_type r) (lit "s32"%string)) eqn:E3.
  { apply (INT 4%nat true 2); [unfold int_elem_type; now rewrite E1, E2, E3|apply eqb_list_eq in E3; now rewrite E3|lia|lia]. }
  destruct (eqb_list (elem_type r) (lit "u32"%string)) eqn:E4.
  { apply (INT 4%nat false 2); [unfold int_elem_type; now rewrite E1, E2, E3, E4|apply eqb_list_eq in E4; now rewrite E4|lia|lia]. }
  destruct (eqb_list (elem_type r) (lit "s64"%string)) eqn:E5.
  { apply (INT 8%nat true 4); [unfold int_elem_type; now rewrite E1, E2, E3, E4, E5|apply eqb_list_eq in E5; now rewrite E5|lia|lia]. }
  destruct (eqb_list (elem_type r) (lit "u64"%string)) eqn:E6.
  { apply (INT 8%nat false 4); [unfold int_elem_type; now rewrite E1, E2, E3, E4, E5, E6|apply eqb_list_eq in E6; now rewrite E6|lia|lia]. }
  clear INT E1 E2 E3 E4 E5 E6.
  destruct (eqb_list (elem_type r) (lit "f32"%string)) eqn:E1.
  { apply eqb_list_eq in E1. rewrite E1. change (eqb_list (lit "f32"%string) (lit "string"%string) || eqb_list (lit "f32"%string) (lit "hexstr"%string)) with false.
    cbv iota. fold (elem_text r [48]).
    destruct (float_parse E _) as [f|] eqn:EF; [|discriminate]. intros H. apply bind_ok in H as (d0 & HP & H). injection H as <- <-.
    destruct (pack_f_len _ _ HP) as [z Hz]. exists d0, 2. split; [reflexivity|split; [reflexivity|split; [lia|split; [rewrite Hz, be_bytes_zlen; reflexivity|split; [rewrite Hz; apply be_bytes_bytes|]]]]].
    eapply decl_f32; eauto. }
  destruct (eqb_list (elem_type r) (lit "f64"%string)) eqn:E2.
  { apply eqb_list_eq in E2. rewrite E2. change (eqb_list (lit "f64"%string) (lit "string"%string) || eqb_list (lit "f64"%string) (lit "hexstr"%string)) with false.
    cbv iota. fold (elem_text r [48]).
    destruct (float_parse E _) as [f|] eqn:EF; [|discriminate]. intros H. apply bind_ok in H as (d0 & HP & H). injection H as <- <-.
    pose proof HP as HP2. unfold pack_d in HP2. apply Ok_inj in HP2. exists d0, 4. split; [reflexivity|split; [reflexivity|split; [lia|split; [rewrite <- HP2, be_bytes_zlen; reflexivity|split; [rewrite <- HP2; apply be_bytes_bytes|]]]]].
    eapply decl_f64; eauto. }
  clear E1 E2.
  destruct (eqb_list (elem_type r) (lit "string"%string)) eqn:E1.
  { cbn [orb]. change (match x_text r with Some (c :: r0) => c :: r0 | _ => [] end) with (elem_text r []).
    destruct (Z.eqb_spec rlen 0) as [->|Hr]; [destruct (latin1_encode _); discriminate|].
    intros H. apply bind_ok in H as (b & HB & H). apply latin1_ok in HB as [-> HB]. apply bind_ok in H as (d0 & HP & H). injection H as <- <-.
    unfold pack_s in HP. destruct (Z.ltb_spec (2 * rlen) 0); [discriminate|]. apply Ok_inj in HP. subst d0.
    eexists _, rlen. split; [reflexivity|]. split; [reflexivity|]. split; [lia|]. split; [|split].
    - rewrite zlen_app, zlen_ztake, zlen_repeat by lia. pose proof (zlen_nonneg (elem_text r [])). lia.
    - apply Forall_app; split; [now apply Forall_ztake|]. apply Forall_forall. intros x Hx. apply repeat_spec in Hx. subst. red; lia.
    - apply decl_string; auto; [now apply eqb_list_eq| |lia]. destruct (x_get A_LEN r) eqn:EL; [|congruence]. eexists; split; [exact EL|exact HL]. }
  destruct (eqb_list (elem_type r) (lit "hexstr"%string)) eqn:E2; [|discriminate].
  cbn [orb]. change (match x_text r with Some (c :: r0) => c :: r0 | _ => [] end) with (elem_text r []). apply eqb_list_eq in E2. destruct (HF E2) as (n0 & hd & HEL & Hn0 & HX & HFIT).
  assert (rlen = n0) as ->. { destruct HEL as (s & Hs & Hi). rewrite Hs in HL. congruence. }
  change (filter (fun c : Z => negb (c =? 32)) (elem_text r [])) with (no_blanks (elem_text r [])). set (tx := no_blanks (elem_text r [])) in *. pose proof (hex_text_len _ _ HX) as HLEN.
  destruct (Z.eqb_spec (zlen tx mod 4) 0) as [Hm|]; cbn [negb]; [|discriminate].
  destruct (Z.eqb_spec n0 0); [lia|].
  rewrite (hex_bytes_ok _ _ HX) by lia. cbn [bind num_sub num2].
  assert (Hh : zlen tx / 2 = zlen hd) by (rewrite HLEN, Z.mul_comm; apply Z.div_mul; lia).
  assert (Hm2 : zlen hd mod 2 = 0). { rewrite HLEN in Hm. replace 4 with (2 * 2) in Hm by lia. rewrite Z.mul_mod_distr_l in Hm by lia. lia. }
  rewrite Hh. cbn [num_int]. pose proof (zlen_nonneg hd).
  assert (HQ : 2 * Z.quot (2 * n0 - zlen hd) 2 = 2 * n0 - zlen hd).
  { rewrite Z.quot_div_nonneg by lia. rewrite (Z.div_mod (zlen hd) 2), Hm2 by lia.
    replace (2 * n0 - (2 * (zlen hd / 2) + 0)) with ((n0 - zlen hd / 2) * 2) by lia. rewrite Z.div_mul; lia. }
  rewrite HQ. pose proof (hex_text_bytes _ _ HX) as HHB.
  assert (HPADB : Forall is_byte (repeat 0 (Z.to_nat (2 * n0 - zlen hd)))).
  { apply Forall_forall. intros x Hx. apply repeat_spec in Hx. subst. red; lia. }
  destruct (Z.ltb_spec 0 (2 * n0 - zlen hd)) as [Hp|Hp]; intros HRES; apply Ok_inj, pair_equal_spec in HRES as [<- <-].
  - exists (hd ++ repeat 0 (Z.to_nat (2 * n0 - zlen hd))), n0.
    split; [do 2 f_equal; destruct tx; [inversion HX; reflexivity|reflexivity]|].
    split; [reflexivity|]. split; [lia|]. split; [|split].
    + rewrite zlen_app, zlen_repeat. lia.
    + apply Forall_app; auto.
    + now apply decl_hex.
  - destruct tx as [|c tx'] eqn:ET.
    { cbn [zlen length] in *. exfalso. rewrite zlen_nil in *. lia. }
    exists hd, n0. repeat split; auto; [lia|]. replace hd with (hd ++ repeat 0 (Z.to_nat (2 * n0 - zlen hd))) at 1.
    + apply decl_hex; auto. rewrite <- ET in HX. exact HX.
    + replace (Z.to_nat _) with O by lia. cbn [repeat]. apply app_nil_r.
Qed.

Lemma load_regs1_fits E l z r l' next' : whole l -> snd (last_next l) = NI z -> fits r ->
  load_regs1 E l (NI z) r = Ok (l', next') ->
  exists o d, match x_get A_OFFSET r with None => o = z | Some s => int_of_str s = Ok o end /\ declares E r d /\
    whole l' /\ next' = NI (o + zlen d / 2) /\ snd (last_next l') = NI (o + zlen d / 2) /\
    forall y, register l' y = if in_block o (zlen d / 2) y then Some (slice (2 * (y - o)) (2 * (y - o) + 2) d) else register l y.
Proof.
  intros HW HZ HF H. unfold load_regs1 in H.
  assert (exists o, match x_get A_OFFSET r with None => Ok (NI z) | Some s => match int_of_str s with Ok z => Ok (NI z) | Raise _ => Raise EType end end = Ok (NI o)
    /\ match x_get A_OFFSET r with None => o = z | Some s => int_of_str s = Ok o end) as (o & EO & HO).
  { destruct (x_get A_OFFSET r) as [s|]; [|eauto]. destruct (int_of_str s) as [o|] eqn:EI; [eauto|discriminate]. }
  rewrite EO in H.
  match type of H with match ?m with _ => _ end = _ => destruct m as [[l1 n1]|] eqn:EM; [|discriminate] end.
  injection H as <- <-. apply bind_ok in EM as (n0 & Hn0 & EM).
  destruct (num_ltb (NI o) _) eqn:EB; [discriminate|]. unfold num_ltb in EB. apply Z.ltb_ge in EB. cbn [num2] in EB.
  apply bind_ok in EM as ([d n] & HD & EM). apply bind_ok in EM as (l2 & HP & EM). injection EM as <- <-.
  fold (elem_type r) in HD. destruct (regs_data_fits _ _ _ _ _ Hn0 HF HD) as (d' & k & -> & -> & Hk & HL & HB & HDEC).
  destruct (put_whole l o k d' (dget_default A_ACCESS ACCESS_R r) HW EB ltac:(lia) HL HB) as (l3 & E3 & HW3 & HN3 & HR3).
  assert (l2 = l3) as <- by (apply Ok_inj; rewrite <- HP; exact E3).
  assert (zlen d' / 2 = k) as EK by (rewrite HL, Z.mul_comm; apply Z.div_mul; lia).
  exists o, d'. rewrite EK. auto 10.
Qed.
Lemma load_regs_fits E rs : forall l z l', whole l -> snd (last_next l) = NI z -> Forall fits rs ->
  load_regs E l (NI z) rs = (l', Ok tt) ->
  exists ds, layout E z rs ds /\ whole l' /\
    forall y w, register l' y = Some w <->
      register l y = Some w \/ exists o d, In (o, d) ds /\ o <= y < o + zlen d / 2 /\ w = slice (2 * (y - o)) (2 * (y - o) + 2) d.
Proof.
  induction rs as [|r rs IH]; intros l z l' HW HZ HF H; cbn [load_regs] in H.
  - injection H as <-. exists []. split; [constructor|]. split; [exact HW|]. intros y w. split; [auto|]. intros [H|(o & d & [] & _)]. exact H.
  - inversion HF as [|? ? F1 F2]; subst. destruct (load_regs1 E l (NI z) r) as [[l1 n1]|] eqn:E1; [|discriminate].
    pose proof E1 as EASC.
    destruct (load_regs1_fits _ _ _ _ _ _ HW HZ F1 E1) as (o & d & HO & HD & HW1 & -> & HN1 & HR1).
    destruct (IH _ _ _ HW1 HN1 F2 H) as (ds & HLAY & HW2 & HR2). exists ((o, d) :: ds). split; [econstructor; eauto|]. split; [exact HW2|].
    assert (HFRESH : forall y, in_block o (zlen d / 2) y = true -> register l y = None).
    { (* new registers are beyond the old ones *)
      intros y Hy. unfold in_block in Hy. destruct HW as [HA HWB]. apply register_above; [exact HWB|].
      pose proof (ascending_ends _ HA) as HE. rewrite HZ in HE.
      assert (z <= o).
      { unfold load_regs1 in E1. destruct (x_get A_OFFSET r) as [s|]; [|lia]. rewrite HO, HZ in E1.
        match type of E1 with match ?m with _ => _ end = _ => destruct m as [[l1' n1']|] eqn:EM; [|discriminate] end.
        apply bind_ok in EM as (n0 & _ & EM). destruct (num_ltb (NI o) (NI z)) eqn:EB; [discriminate|].
        unfold num_ltb in EB. cbn [num2] in EB. lia. }
      eapply Forall_impl; [|exact HE]. intros h Hh. cbn [num2] in Hh. lia. }
    intros y w. rewrite HR2, HR1. unfold in_block in *. split.
    + intros [HA|(o' & d' & HI & HA)].
      * destruct ((o <=? y) && (y <? o + zlen d / 2)) eqn:EY; [|auto].
        apply Some_inj in HA. right. exists o, d. cbn [In]. split; [auto|]. split; [lia|auto].
      * right. exists o', d'. cbn [In]. auto.
    + intros [HA|(o' & d' & [HI|HI] & HA)].
      * left. destruct ((o <=? y) && (y <? o + zlen d / 2)) eqn:EY; [|exact HA]. rewrite HFRESH in HA by exact EY. discriminate.
      * injection HI as <- <-. left. destruct HA as [HA ->]. replace ((o <=? y) && (y <? o + zlen d / 2)) with true by lia. reflexivity.
      * right. exists o', d'. auto.
Qed.

(** ** XML round trip *)
Lemma hex_digit_lo_digit n : 0 <= n < 16 -> digit_of 16 (hex_digit_lo n) n.
Proof. intros H. unfold digit_of, hex_digit_lo. destruct (Z.ltb_spec n 10); lia. Qed.
Lemma hex_text_lo d : Forall is_byte d -> hex_text (concat (map hex2_lo d)) d.
Proof.
  induction 1 as [|b d Hb HF IH]; [constructor|]. cbn [map concat]. unfold hex2_lo at 1. cbn [app].
  replace b with (16 * (b / 16) + b mod 16) at 3 by (rewrite <- Z.div_mod; lia).
  red in Hb. constructor; [apply hex_digit_lo_digit|apply hex_digit_lo_digit; apply Z.mod_pos_bound; lia|exact IH].
  split; [apply Z.div_pos; lia|apply Z.div_lt_upper_bound; lia].
Qed.
Lemma hex_text_no_blanks s d : hex_text s d -> no_blanks s = s.
Proof.
  induction 1 as [|c1 c2 v1 v2 s d H1 H2 HT IH]; [reflexivity|]. unfold no_blanks in *. cbn [filter].
  replace (c1 =? 32) with false by (unfold digit_of in H1; lia). replace (c2 =? 32) with false by (unfold digit_of in H2; lia).
  cbn [negb]. now rewrite IH.
Qed.

Definition regs_elem (o c : Z) (d : bytes) : xml :=
  XE T_REGS [(A_OFFSET, str_of_int o); (A_LEN, str_of_int c)] (Some (concat (map hex2_lo d))) None [].
Lemma regs_elem_data E o c d : 0 < c -> zlen d = 2 * c -> Forall is_byte d ->
  regs_data E (elem_type (regs_elem o c d)) c (x_text (regs_elem o c d)) = Ok (Some d, NI c).
Proof.
  intros Hc Hd HB. pose proof (hex_text_lo d HB) as HX. pose proof (hex_text_len _ _ HX) as HL.
  unfold regs_elem. change (elem_type _) with (lit "hexstr"%string). cbn [x_text]. set (tx := concat (map hex2_lo d)) in *.
  unfold regs_data. cbv zeta. change (eqb_list (lit "hexstr"%string) (lit "string"%string) || eqb_list (lit "hexstr"%string) (lit "hexstr"%string)) with true.
  change (eqb_list (lit "hexstr"%string) (lit "hexstr"%string)) with true.
  repeat match goal with |- context [eqb_list (lit "hexstr"%string) ?x] => change (eqb_list (lit "hexstr"%string) x) with false end.
  cbv iota.
  assert (ET : (match tx with [] => [] | _ :: _ => tx end) = tx) by (destruct tx; reflexivity).
  replace (match Some tx with Some (c0 :: r) => c0 :: r | _ => [] end) with tx by (destruct tx; reflexivity).
  fold (no_blanks tx). rewrite (hex_text_no_blanks _ _ HX).
  replace (zlen tx mod 4) with 0 by (rewrite HL, Hd; replace (2 * (2 * c)) with (c * 4) by lia; symmetry; apply Z.mod_mul; lia).
  cbn [Z.eqb negb]. destruct (Z.eqb_spec c 0); [lia|]. rewrite (hex_bytes_ok _ _ HX) by lia. cbn [bind num_sub num2 num_int].
  replace (zlen tx / 2) with (2 * c) by (rewrite HL, Hd, (Z.mul_comm 2 (2 * c)); symmetry; apply Z.div_mul; lia).
  rewrite Z.sub_diag. cbn [Z.quot Z.mul Z.ltb Z.compare]. change (Z.quot 0 2) with 0. cbn [Z.mul]. change (0 <? 0) with false. cbv iota.
  destruct tx as [|c0 tx'] eqn:E0; [|reflexivity]. rewrite zlen_nil in HL. lia.
Qed.
Definition strip_access (g : mregs) : mregs := mkRegs (g_offset g) (g_count g) (g_data g) ACCESS_R.
Lemma load_regs_elems E l : forall acc, ascending (acc ++ l) -> Forall whole_block l ->
  Forall (fun g => 0 < num2 (g_count g)) l -> forall next,
  exists els, map_res regs_to_xml l = Ok els /\ findall T_REGS (XE [] [] None None els) = els /\
    load_regs E acc next els = (acc ++ map strip_access l, Ok tt).
Proof.
  induction l as [|g l IH]; intros acc HA HW HP next.
  - exists []. cbn. now rewrite app_nil_r.
  - inversion HW as [|? ? W1 W2]; inversion HP as [|? ? P1 P2]; subst.
    apply whole_block_wb in W1 as (o & c & d & a & -> & Hc & Hd & HB). cbn [wb g_count num2] in P1.
    set (g1 := strip_access (wb o c d a)).
    assert (HA1 : ascending ((acc ++ [g1]) ++ l)).
    { rewrite <- app_assoc. cbn [app]. eapply same_shape_ascending_weak; [|exact HA].
      apply Forall2_app; [apply shape_refl|]. constructor; [auto|apply shape_refl]. }
    destruct (IH (acc ++ [g1]) HA1 W2 P2 (num_add (NI o) (NI c))) as (els & E1 & E2 & E3).
    exists (regs_elem o c d :: els). split; [|split].
    + cbn [map_res]. unfold regs_to_xml at 1. cbn [wb g_data g_offset g_count str_of_num bind]. rewrite E1. reflexivity.
    + unfold findall in *. cbn [x_children filter] in *. rewrite E2. reflexivity.
    + cbn [load_regs].
      assert (EL : load_regs1 E acc next (regs_elem o c d) = Ok (acc ++ [g1], num_add (NI o) (NI c))).
      { unfold load_regs1. change (x_get A_OFFSET (regs_elem o c d)) with (Some (str_of_int o)).
        change (x_get A_LEN (regs_elem o c d)) with (Some (str_of_int c)). cbv iota. rewrite !int_of_str_roundtrip. cbn [bind].
        change (dget_default A_TYPE _ _) with (elem_type (regs_elem o c d)). change (dget_default A_ACCESS ACCESS_R (regs_elem o c d)) with ACCESS_R.
        rewrite regs_elem_data by (auto; lia).
        assert (HEND : acc = [] /\ snd (last_next acc) = NI 0 /\ 0 <= o \/ exists h, fst (last_next acc) = Some h /\ num2 (snd (last_next acc)) < 2 * o).
        { destruct acc as [|h acc] using rev_ind.
          - left. repeat split; auto. apply ascending_cons in HA as (_ & _ & H & _). cbn [wb g_offset num2] in H. lia.
          - right. exists h. rewrite last_next_snoc. split; [reflexivity|]. cbn [snd]. unfold regs_end. rewrite num2_add.
            clear - HA. rewrite <- app_assoc in HA. cbn [app] in HA. induction acc as [|x acc IHa]; cbn [app] in HA.
            + apply ascending_cons in HA as (_ & HF & _). inversion HF; subst. cbn [wb g_offset num2] in *. assumption.
            + apply IHa. apply ascending_cons in HA as (HA & _). exact HA. }
        unfold put_regs. destruct HEND as [(-> & EN & Ho)|(h & EH & HN)].
        - cbn [last_next rev snd]. unfold num_ltb. cbn [num2]. destruct (Z.ltb_spec (2 * o) (2 * 0)); [lia|]. cbn [bind app]. reflexivity.
        - destruct (last_next acc) as [lastg nx]. cbn [fst snd] in *. subst lastg. unfold num_ltb. cbn [num2].
          destruct (Z.ltb_spec (2 * o) (num2 nx)); [lia|]. cbn [bind]. destruct (Z.ltb_spec (num2 nx) (2 * o)); [|lia]. reflexivity. }
      rewrite EL, E3, <- app_assoc. reflexivity.
Qed.
