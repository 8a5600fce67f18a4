(** * P_Output: lemmas for C120. *)
From Coq Require Import String.
From Coq Require Import ZifyBool.
From Verif Require Import Py P_List M_Util M_Suns M_Point M_Mbmap S_Mbmap P_Mbmap M_Device M_Client M_Scan M_Session P_Resume C_Mbmap C_Resume M_TypeText P_Print P_IntText P_TypeText P_SmdxErr M_Output S_Output.

Lemma read_out_result slave m addr count op : fst (map_read_out slave m addr count op) = map_read m addr count op.
Proof.
  unfold map_read_out, map_read. destruct (_ && _); [reflexivity|]. destruct (base_int (m_base m)); [|reflexivity]. cbn [bind].
  destruct (read_regs _ _ _ _); [|reflexivity]. cbn [bind]. destruct (_ =? _); reflexivity.
Qed.
Lemma num_index_not n e : num_index n = Raise e -> e <> EModbusMap.
Proof. destruct n; cbn [num_index]; [discriminate|]. intros [= <-]. discriminate. Qed.
Lemma read_regs_not l : forall o r d e, read_regs l o r d = Raise e -> e <> EModbusMap.
Proof.
  induction l as [|g l IH]; intros o r d e; cbn [read_regs]; [discriminate|]. destruct (num_ltb (NI 0) r); [|discriminate]. cbv zeta.
  destruct (num_leb (g_offset g) o && num_ltb o (regs_end g)) eqn:EC; [|apply IH].
  unfold regs_read. cbv zeta. rewrite EC. set (rc := if num_ltb r _ then r else _). clearbody rc. set (rc' := if num_ltb (regs_end g) _ then _ else rc). clearbody rc'.
  destruct (num_ltb (NI 0) rc'); [|cbn [bind]; intros [= <-]; discriminate].
  destruct (g_data g) as [b|]; [|cbn [bind]; intros [= <-]; discriminate].
  destruct (num_index (num_double (num_sub o (g_offset g)))) as [a|x] eqn:E1; [|cbn [bind]; intros [= <-]; now apply num_index_not in E1].
  cbn [bind]. destruct (num_index (num_add _ _)) as [b'|x] eqn:E2; [|cbn [bind]; intros [= <-]; now apply num_index_not in E2].
  cbn [bind]. apply IH.
Qed.
Lemma int_of_str_not s e : int_of_str s = Raise e -> e <> EModbusMap.
Proof. intros H. apply int_of_str_raise in H. subst e. discriminate. Qed.
Lemma read_out_text slave m addr count :
  (map_read m addr count 0 = Raise EModbusMap /\ snd (map_read_out slave m addr count 0) = [map_str slave m]) \/
  (map_read m addr count 0 <> Raise EModbusMap /\ snd (map_read_out slave m addr count 0) = []).
Proof.
  unfold map_read_out, map_read. cbn [Z.eqb negb andb]. destruct (base_int (m_base m)) as [b|e] eqn:EB; cbn [bind].
  2:{ right. split; [|reflexivity]. intros H. apply (int_of_str_not match m_base m with BStr s => s | BInt _ => [] end e); [destruct (m_base m); [discriminate|exact EB]|congruence]. }
  destruct (read_regs _ _ _ _) as [d|e] eqn:ER; cbn [bind].
  2:{ right. split; [|reflexivity]. intros H. apply (read_regs_not _ _ _ _ _ ER). congruence. }
  destruct (zlen d =? 2 * count); [right; split; [discriminate|reflexivity]|left; split; reflexivity].
Qed.
(** the registers that exist and the text depend on the layout of the blocks only *)
Lemma register_shape l l' o : same_shape l l' -> (register l o = None <-> register l' o = None).
Proof.
  intros H. unfold register. induction H as [|g g' l l' (E1 & E2 & _) H IH]; cbn [find]; [reflexivity|].
  unfold has_reg. rewrite E1, E2. destruct (_ && _); [|exact IH]. cbn [option_map]. split; discriminate.
Qed.
Lemma registers_all l n : forall o, registers l o n <> None <-> forall a, o <= a < o + Z.of_nat n -> register l a <> None.
Proof.
  induction n as [|n IH]; intros o; cbn [registers].
  - split; [intros _ a Ha; lia|discriminate].
  - destruct (register l o) as [w|] eqn:E.
    + specialize (IH (o + 1)). transitivity (registers l (o + 1) n <> None); [destruct (registers l (o + 1) n); split; intros H; congruence|].
      rewrite IH. split; intros H a Ha; [destruct (Z.eq_dec a o) as [->|]; [congruence|apply H; lia]|apply H; lia].
    + split; [congruence|]. intros H. exfalso. apply (H o); [lia|exact E].
Qed.
Lemma in_map_read m b a n : whole (m_regs m) -> base_int (m_base m) = Ok b -> (in_map m b (a, n) <-> map_read m a n 0 <> Raise EModbusMap).
Proof.
  intros HW HB. unfold in_map. destruct (Z.ltb_spec n 0) as [Hn|Hn].
  - split; [lia|]. intros H. exfalso. apply H. unfold map_read. cbn [Z.eqb negb andb]. rewrite HB. cbn [bind].
    assert (ER : read_regs (m_regs m) (NI (a - b)) (NI n) [] = Ok []).
    { destruct (m_regs m); [reflexivity|]. cbn [read_regs]. replace (num_ltb (NI 0) (NI n)) with false; [reflexivity|]. unfold num_ltb. cbn [num2]. lia. }
    rewrite ER. cbn [bind]. change (zlen (@nil Z)) with 0. destruct (Z.eqb_spec 0 (2 * n)); [lia|reflexivity].
  - rewrite (map_read_spec m b a n 0 HW HB (or_introl eq_refl) Hn).
    transitivity (registers (m_regs m) (a - b) (Z.to_nat n) <> None).
    2:{ destruct (registers _ _ _); split; intros H; congruence. }
    rewrite registers_all, Z2Nat.id by lia. split.
    + intros [_ H] x Hx. replace x with ((x + b) - b) by lia. apply H. lia.
    + intros H. split; [lia|]. intros x Hx. apply H. lia.
Qed.
Lemma in_map_shape m m' b q : same_shape (m_regs m) (m_regs m') -> (in_map m' b q <-> in_map m b q).
Proof.
  intros H. destruct q as [a n]. unfold in_map. split; intros [H1 H2]; (split; [exact H1|]); intros x Hx E; apply (H2 x Hx); apply (register_shape _ _ _ H); exact E.
Qed.
Lemma map_str_shape slave m m' : m_func m' = m_func m -> m_base m' = m_base m -> same_shape (m_regs m) (m_regs m') -> map_str slave m' = map_str slave m.
Proof.
  intros H1 H2 H. unfold map_str. rewrite H1, H2. do 6 f_equal. induction H as [|g g' l l' (E1 & E2 & E3) H IH]; [reflexivity|].
  cbn [flat_map]. rewrite IH. unfold regs_str. now rewrite E1, E2, E3.
Qed.
Lemma map_write_shape m a d : let m' := fst (map_write m a d) in m_func m' = m_func m /\ m_base m' = m_base m /\ same_shape (m_regs m) (m_regs m').
Proof.
  cbv zeta. unfold map_write. destruct (negb _); [repeat split; apply same_shape_refl|]. destruct (base_int (m_base m)) as [b|e]; [|repeat split; apply same_shape_refl].
  pose proof (write_regs_shape (m_regs m) (NI (a - b)) (NF (zlen d)) (NI 0) d) as HS. destruct (write_regs _ _ _ _ d) as [l r]. cbn [fst with_regs m_func m_base m_regs] in *. repeat split. exact HS.
Qed.
Lemma same_shape_trans a b c : same_shape a b -> same_shape b c -> same_shape a c.
Proof.
  unfold same_shape. intros H. revert c. induction H as [|g h l k (E1 & E2 & E3) H IH]; intros c HC; inversion HC as [|h' x k' y (F1 & F2 & F3) HC']; subst; constructor; auto.
  repeat split; congruence.
Qed.
Lemma one_each_snoc (P : Z * Z -> Prop) t q l o : one_each P t l o ->
  (P q -> one_each P t (l ++ [q]) o) /\ (~ P q -> one_each P t (l ++ [q]) (o ++ [t])).
Proof.
  induction 1 as [|q' l o HP H IH|q' l o HP H IH]; cbn [app]; split; intros HQ.
  - apply oe_held; [exact HQ|constructor].
  - apply oe_lacks; [exact HQ|constructor].
  - apply oe_held; tauto.
  - apply oe_held; tauto.
  - apply oe_lacks; tauto.
  - apply oe_lacks; tauto.
Qed.
