(** * C_MapGrow: property C88 — adding registers to a map (ModbusMap.regs_add, mbmap.py:332-359). *)
From Coq Require Import String ZifyBool.
From Verif Require Import Py P_List S_Codec M_Util M_Suns M_Float M_Xml M_Mbmap S_Mbmap P_Mbmap C_Mbmap.

Ltac Zify.zify_post_hook ::= Z.div_mod_to_equations.

(** offset [o] is at or after the end of every block of the map *)
Definition after_all (l : list mregs) (o : Z) : Prop :=
  Forall (fun g => num_z (g_offset g) + num_z (g_count g) <= o) l.
(** the map afterwards: the same registers plus [n] zero ones from offset [o] on *)
Definition grown (l l' : list mregs) (o n : Z) : Prop :=
  whole l' /\
  forall y, register l' y = if (o <=? y) && (y <? o + n) then Some [0; 0] else register l y.

Lemma after_all_iff l o : whole l -> 0 <= o -> (after_all l o <-> num2 (snd (last_next l)) <= 2 * o).
Proof.
  intros [HA HW] Ho. split.
  - intros H. destruct l as [|g l] using rev_ind; [cbn [last_next rev snd num2]; lia|]. clear IHl. rewrite last_next_snoc. cbn [snd].
    apply Forall_app in H as [_ H]. inversion H as [|? ? H1 _]; subst.
    apply Forall_app in HW as [_ HW]. inversion HW as [|? ? W _]; subst.
    destruct W as (a & c & d & E1 & E2 & _). unfold regs_end. rewrite num2_add. rewrite E1, E2 in *.
    unfold num_z in H1. cbn [num2] in *. lia.
  - intros H. pose proof (ascending_ends l HA) as HE. unfold after_all. rewrite Forall_forall in *.
    intros g Hg. specialize (HE g Hg). cbv beta in HE. destruct (HW g Hg) as (a & c & d & E1 & E2 & _).
    rewrite E1, E2 in *. unfold num_z. cbn [num2] in *. lia.
Qed.

Lemma slice_zero2 i n : 0 <= i < n -> slice (2 * i) (2 * i + 2) (repeat 0 (Z.to_nat (2 * n))) = [0; 0].
Proof.
  intros H. unfold slice, ztake, zdrop.
  replace (Z.to_nat (2 * n)) with (Z.to_nat (2 * i) + (2 + Z.to_nat (2 * n - 2 * i - 2)))%nat by lia.
  rewrite !repeat_app, skipn_app, repeat_length, skipn_all2 by (rewrite repeat_length; lia).
  replace (Z.to_nat (2 * i) - Z.to_nat (2 * i))%nat with O by lia. cbn [skipn app].
  replace (Z.to_nat (2 * i + 2 - 2 * i)) with 2%nat by lia. reflexivity.
Qed.

Lemma regs_add_offset m o n access : whole (m_regs m) -> 0 <= n ->
  (after_all (m_regs m) o -> 0 <= o -> exists m', regs_add m None (Some o) n access = (m', Ok tt) /\
     m_base m' = m_base m /\ m_func m' = m_func m /\ grown (m_regs m) (m_regs m') o n) /\
  (~ (after_all (m_regs m) o /\ 0 <= o) -> regs_add m None (Some o) n access = (m, Raise EModbusMap)).
Proof.
  intros HW Hn. unfold regs_add.
  assert (HP : pack_s (2 * n) [] = Ok (repeat 0 (Z.to_nat (2 * n)))).
  { unfold pack_s. destruct (Z.ltb_spec (2 * n) 0); [lia|]. unfold ztake. rewrite firstn_nil. change (zlen (@nil Z)) with 0.
    rewrite Z.sub_0_r. reflexivity. }
  rewrite HP. unfold num_ltb. cbn [num2]. split.
  - intros HA Ho. apply after_all_iff in HA; [|assumption..].
    destruct (Z.ltb_spec (2 * o) (num2 (snd (last_next (m_regs m))))); [lia|].
    destruct (put_whole (m_regs m) o n (repeat 0 (Z.to_nat (2 * n))) access HW HA Hn) as (l' & EP & HW' & _ & HR).
    + unfold zlen. rewrite repeat_length. lia.
    + apply Forall_forall. intros x Hx. apply repeat_spec in Hx. subst. unfold is_byte. lia.
    + match goal with |- context [put_regs ?a ?b ?c ?d ?e] => replace (put_regs a b c d e) with (Ok l') by (symmetry; exact EP) end.
      exists (with_regs m l'). split; [reflexivity|]. split; [reflexivity|]. split; [reflexivity|]. split; [exact HW'|].
      intros y. cbn [with_regs m_regs]. rewrite HR. unfold in_block.
      destruct ((o <=? y) && (y <? o + n)) eqn:EB; [|reflexivity]. f_equal. apply slice_zero2. lia.
  - intros H. destruct (Z.ltb_spec (2 * o) (num2 (snd (last_next (m_regs m))))) as [L|L]; [reflexivity|].
    exfalso. apply H. pose proof (last_next_nonneg _ (proj1 HW)). split; [|lia]. apply after_all_iff; auto; lia.
Qed.

Lemma regs_add_addr m b a off n access : m_base m = BInt b -> ascending (m_regs m) ->
  regs_add m (Some a) off n access = regs_add m None (Some (a - b)) n access.
Proof.
  intros HB HA. unfold regs_add. rewrite HB. destruct (Z.ltb_spec a b); [|reflexivity].
  pose proof (last_next_nonneg _ HA). unfold num_ltb. cbn [num2].
  destruct (Z.ltb_spec (2 * (a - b)) (num2 (snd (last_next (m_regs m))))); [reflexivity|lia].
Qed.

(** ** C88: a request for registers at or after the end of the map adds that many zero registers,
    at exactly those addresses, and changes no other *)
Theorem C88_add_gives_zero_registers_partial :
  forall m b a off n access, m_base m = BInt b -> whole (m_regs m) -> 0 <= n ->
  b <= a -> after_all (m_regs m) (a - b) ->
  exists m', regs_add m (Some a) off n access = (m', Ok tt) /\ m_base m' = m_base m /\ m_func m' = m_func m /\
    grown (m_regs m) (m_regs m') (a - b) n.
Proof.
  intros m b a off n access HB HW Hn Hab HA. rewrite (regs_add_addr m b) by (auto; apply HW).
  destruct (regs_add_offset m (a - b) n access HW Hn) as [H _]. apply H; auto. lia.
Qed.
Print Assumptions C88_add_gives_zero_registers_partial.

(** by offset from the base address, the base may even be a text *)
Theorem C88_add_by_offset :
  forall m o n access, whole (m_regs m) -> 0 <= n -> 0 <= o -> after_all (m_regs m) o ->
  exists m', regs_add m None (Some o) n access = (m', Ok tt) /\ m_base m' = m_base m /\ m_func m' = m_func m /\
    grown (m_regs m) (m_regs m') o n.
Proof. intros m o n access HW Hn Ho HA. destruct (regs_add_offset m o n access HW Hn) as [H _]. now apply H. Qed.
Print Assumptions C88_add_by_offset.

(** anything else is refused and changes nothing *)
Theorem C88_add_elsewhere_refused_partial :
  forall m b a off n access, m_base m = BInt b -> whole (m_regs m) -> 0 <= n ->
  a < b \/ ~ after_all (m_regs m) (a - b) ->
  regs_add m (Some a) off n access = (m, Raise EModbusMap).
Proof.
  intros m b a off n access HB HW Hn H. rewrite (regs_add_addr m b) by (auto; apply HW).
  destruct (regs_add_offset m (a - b) n access HW Hn) as [_ K]. apply K. intros [K1 K2]. destruct H; [lia|auto].
Qed.
Print Assumptions C88_add_elsewhere_refused_partial.

(** the added registers read as zeros through ModbusMap.read at the addresses asked for *)
Theorem C88_added_registers_readable :
  forall m b a off n access m', m_base m = BInt b -> whole (m_regs m) -> 0 < n ->
  regs_add m (Some a) off n access = (m', Ok tt) ->
  map_read m' a n 0 = Ok (repeat 0 (Z.to_nat (2 * n))).
Proof.
  intros m b a off n access m' HB HW Hn H. rewrite (regs_add_addr m b) in H by (auto; apply HW).
  destruct (regs_add_offset m (a - b) n access HW ltac:(lia)) as [K1 K2].
  assert (Q : after_all (m_regs m) (a - b) /\ 0 <= a - b).
  { destruct (Z.ltb_spec (2 * (a - b)) (num2 (snd (last_next (m_regs m))))) as [L|L].
    - rewrite K2 in H; [discriminate|]. intros [A1 A2]. apply after_all_iff in A1; auto. lia.
    - pose proof (last_next_nonneg _ (proj1 HW)). split; [apply after_all_iff; auto|]; lia. }
  destruct Q as [Q1 Q2]. destruct (K1 Q1 Q2) as (m2 & E & HBm & HF & HW' & HR).
  assert (m2 = m') by congruence. subst m2.
  rewrite (map_read_spec m' b) by (auto; try lia; rewrite HBm, HB; reflexivity).
  assert (G : forall k o, a - b <= o -> o + Z.of_nat k <= a - b + n ->
            registers (m_regs m') o k = Some (repeat 0 (2 * k))).
  { induction k as [|k IH]; intros o H1 H2; [reflexivity|]. cbn [registers]. rewrite HR.
    replace ((a - b <=? o) && (o <? a - b + n)) with true by lia. rewrite IH by lia.
    replace (2 * S k)%nat with (2 + 2 * k)%nat by lia. reflexivity. }
  rewrite G by lia. do 2 f_equal. lia.
Qed.
Print Assumptions C88_added_registers_readable.

(** a map built from nothing by additions, in any number and whatever they return, has whole
    registers, so that C15 and C16 apply to it *)
Definition adds (ops : list (option Z * option Z * Z * str)) (m : mbmap) : mbmap :=
  fold_left (fun m '(a, o, n, acc) => fst (regs_add m a o n acc)) ops m.
Theorem C88_built_maps_are_whole :
  forall ops m b, m_base m = BInt b -> whole (m_regs m) -> whole (m_regs (adds ops m)).
Proof.
  induction ops as [|[[[a o] n] acc] ops IH]; intros m b HB HW; [exact HW|]. cbn [adds fold_left].
  destruct (Z.ltb_spec n 0) as [L|L].
  { replace (fst (regs_add m a o n acc)) with m; [now apply (IH m b)|].
    unfold regs_add. rewrite HB. destruct (match a with Some _ => _ | None => _ end); [|reflexivity].
    destruct (num_ltb _ _); [reflexivity|]. unfold pack_s. replace (2 * n <? 0) with true by lia. reflexivity. }
  assert (K : forall x, whole (m_regs (fst (regs_add m None (Some x) n acc))) /\
                m_base (fst (regs_add m None (Some x) n acc)) = BInt b).
  { intros x. destruct (regs_add_offset m x n acc HW L) as [K1 K2].
    destruct (Z.ltb_spec (2 * x) (num2 (snd (last_next (m_regs m))))) as [L2|L2].
    - rewrite K2; [auto|]. intros [A1 A2]. apply after_all_iff in A1; auto. lia.
    - pose proof (last_next_nonneg _ (proj1 HW)).
      destruct K1 as (m2 & -> & E1 & _ & HG & _); [apply after_all_iff; auto; lia|lia|]. cbn [fst]. split; [auto|congruence]. }
  destruct a as [a|].
  - rewrite (regs_add_addr m b) by (auto; apply HW). destruct (K (a - b)) as [K1 K2]. now apply (IH _ b).
  - destruct o as [o|].
    + destruct (K o) as [K1 K2]. now apply (IH _ b).
    + cbn [regs_add fst]. now apply (IH m b).
Qed.
Print Assumptions C88_built_maps_are_whole.

(** REFUTED for maps loaded from a file: their base address is a text, and every addition by
    address is a TypeError *)
Theorem C88_loaded_map_refuted :
  forall m s a off n access, m_base m = BStr s -> regs_add m (Some a) off n access = (m, Raise EType).
Proof. intros m s a off n access H. unfold regs_add. now rewrite H. Qed.
Print Assumptions C88_loaded_map_refuted.
(** such a map is what loading a document with an addr attribute gives *)
Example C88_loaded_ex :
  m_base (fst (map_from_xml env0 empty_map
     (XE T_MBMAP [(A_ADDR, lit "40000"%string)] None None [el [("len", "1")] "0001"]%string))) = BStr (lit "40000"%string).
Proof. vm_compute. reflexivity. Qed.

(** REFUTED: registers added directly after the last block take that block's access mode, not the
    one asked for *)
Theorem C88_access_refuted :
  exists m m', regs_add m (Some 40001) None 1 (lit "r"%string) = (m', Ok tt) /\
    m_base m = BInt 40000 /\ whole (m_regs m) /\ after_all (m_regs m) 1 /\
    map g_access (m_regs m') = [lit "rw"%string].
Proof.
  exists (fst (regs_add empty_map (Some 40000) None 1 (lit "rw"%string))). eexists. repeat split.
  - constructor; [constructor|constructor].
  - constructor; [|constructor]. cbn. lia.
  - constructor; [|constructor]. exists 0, 1, [0; 0]. repeat split; try lia. repeat constructor; unfold is_byte; lia.
  - constructor; [vm_compute; discriminate|constructor].
Qed.
Print Assumptions C88_access_refuted.

(** non-vacuity: 3 registers, then 2 with a gap, on a new map *)
Example C88_ex :
  let m1 := fst (regs_add empty_map (Some 40000) None 3 (lit "rw"%string)) in
  let m2 := fst (regs_add m1 (Some 40010) None 2 (lit "rw"%string)) in
  m_base empty_map = BInt 40000 /\ whole (m_regs empty_map) /\
  map (fun y => register (m_regs m2) y) [0; 2; 3; 10; 11; 12] =
    [Some [0; 0]; Some [0; 0]; None; Some [0; 0]; Some [0; 0]; None] /\
  regs_add m2 (Some 40011) None 1 [] = (m2, Raise EModbusMap) /\ regs_add m2 (Some 39999) None 1 [] = (m2, Raise EModbusMap).
Proof. cbv zeta. split; [reflexivity|]. split; [repeat split; constructor|]. vm_compute. repeat split. Qed.
