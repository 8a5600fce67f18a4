(** * C_Mbmap: properties C14-C21, C69 (modbus/mbmap.py). *)
From Coq Require Import String ZifyBool.
From Verif Require Import Py P_List S_Codec P_IntText M_Util M_Suns M_Float M_Xml M_Mbmap S_Mbmap P_Mbmap.

(** an environment for the examples (no floats are used) *)
Definition env0 : pyenv := {| float_repr := fun _ => []; float_parse := fun _ => None; pow10 := fun _ => Raise EOverflow |}.
Definition empty_map : mbmap := mkMap 3 (BInt 40000) None None None None [].
Definition el (attrs : list (string * string)) (text : string) : xml :=
  XE T_REGS (map (fun p => (lit (fst p), lit (snd p))) attrs) (Some (lit text)) None [].
Definition doc (els : list xml) : xml := XE T_MBMAP [] None None els.

(** ** C14: after any history of loads, additions, writes and reads, whatever they return, the
    blocks are ascending, disjoint and separated. *)
Theorem C14_blocks_ascending :
  forall E ops m, ascending (m_regs m) -> Forall op_len_ok ops -> ascending (m_regs (map_run E ops m)).
Proof. intros. now apply map_run_asc. Qed.
Print Assumptions C14_blocks_ascending.
(** a new map is empty, hence ascending *)
Theorem C14_new_map_ascending : forall func base m, new_map func base = Ok m -> ascending (m_regs m).
Proof. intros func base m. unfold new_map. destruct (func_value func); [|discriminate]. intros [= <-]. split; constructor. Qed.
Print Assumptions C14_new_map_ascending.
(** an element that starts before the end of the last block is refused, and nothing after it is
    loaded: the map is what the elements before it gave *)
Theorem C14_overlap_rejected :
  forall E m m1 tag attrs t1 t2 pre r post g before s o,
  map_from_xml E m (XE tag attrs t1 t2 pre) = (m1, Ok tt) -> m_regs m1 = before ++ [g] ->
  x_tag r = T_REGS -> x_get A_OFFSET r = Some s -> int_of_str s = Ok o ->
  2 * o < num2 (g_offset g) + num2 (g_count g) ->
  map_from_xml E m (XE tag attrs t1 t2 (pre ++ r :: post)) = (m1, Raise EModbusMap).
Proof.
  intros E m m1 tag attrs t1 t2 pre r post g before s o H HR HT HS HO HLT.
  unfold map_from_xml in *. change (dget_default A_FUNC V_HOLDING (XE tag attrs t1 t2 (pre ++ r :: post)))
    with (dget_default A_FUNC V_HOLDING (XE tag attrs t1 t2 pre)).
  destruct (func_value _); [|discriminate].
  assert (HF : findall T_REGS (XE tag attrs t1 t2 (pre ++ r :: post)) =
    findall T_REGS (XE tag attrs t1 t2 pre) ++ r :: findall T_REGS (XE tag attrs t1 t2 post)).
  { unfold findall. cbn [x_children]. rewrite filter_app. cbn [filter]. rewrite HT, eqb_list_refl. reflexivity. }
  rewrite HF. clear HF. generalize dependent (NI 0). generalize (m_regs m). 
  generalize (findall T_REGS (XE tag attrs t1 t2 pre)). intros rs. induction rs as [|r0 rs IH]; intros l next H; cbn [app load_regs] in *.
  - injection H as <-. cbn [m_regs] in HR. subst l. unfold load_regs1. rewrite HS, HO.
    rewrite last_next_snoc. cbn [snd]. unfold regs_end, num_ltb. rewrite num2_add. cbn [num2].
    destruct (match x_get A_LEN r with None => _ | Some _ => _ end); cbn [bind]; [|reflexivity].
    destruct (Z.ltb_spec (2 * o) (num2 (g_offset g) + num2 (g_count g))); [reflexivity|lia].
  - destruct (load_regs1 E l next r0) as [[l1 n1]|]; [|discriminate]. now apply IH.
Qed.
Print Assumptions C14_overlap_rejected.
Example C14_ex :
  let d := doc [el [("offset", "0"); ("len", "2")] "0001 0002"; el [("type", "u16")] "3"; el [("offset", "10"); ("type", "s32")] "-1"]%string in
  Forall len_nonneg (findall T_REGS d) /\
  map (fun g => (g_offset g, g_count g)) (m_regs (fst (map_from_xml env0 empty_map d))) = [(NI 0, NI 3); (NI 10, NI 2)] /\
  snd (map_from_xml env0 empty_map d) = Ok tt /\
  snd (map_from_xml env0 empty_map (doc [el [("offset", "0"); ("len", "2")] "0001 0002"; el [("offset", "1"); ("type", "u16")] "3"]%string)) = Raise EModbusMap.
Proof.
  split; [|vm_compute; auto]. repeat constructor; intros s n H1 H2; vm_compute in H1; try discriminate.
  injection H1 as <-. vm_compute in H2. injection H2 as <-. lia.
Qed.

(** ** C15: reads return exactly the registers asked for, if all exist, and raise otherwise. *)
Theorem C15_read_exact :
  forall m b addr count op, whole (m_regs m) -> base_int (m_base m) = Ok b -> 0 <= count -> op = 0 \/ op = m_func m ->
  map_read m addr count op = match registers (m_regs m) (addr - b) (Z.to_nat count) with
                             | Some d => Ok d
                             | None => Raise EModbusMap
                             end.
Proof. intros. now apply map_read_spec. Qed.
Print Assumptions C15_read_exact.
Theorem C15_length :
  forall m b addr count op d, whole (m_regs m) -> base_int (m_base m) = Ok b -> 0 <= count -> op = 0 \/ op = m_func m ->
  map_read m addr count op = Ok d -> zlen d = 2 * count.
Proof.
  intros m b addr count op d HW HB Hc Hop H. rewrite (map_read_spec m b) in H by auto.
  destruct (registers _ _ _) eqn:E; [|discriminate]. injection H as <-.
  apply registers_len in E; auto. lia.
Qed.
Print Assumptions C15_length.
(** another function code is refused whatever the registers *)
Theorem C15_function_mismatch :
  forall m addr count op, op <> 0 -> op <> m_func m -> map_read m addr count op = Raise EModbusMap.
Proof.
  intros m addr count op H1 H2. unfold map_read. destruct (Z.eqb_spec op 0); [congruence|]. destruct (Z.eqb_spec op (m_func m)); [congruence|]. reflexivity.
Qed.
Print Assumptions C15_function_mismatch.
Definition map1 : mbmap := fst (map_from_xml env0 empty_map
  (doc [el [("offset", "0"); ("len", "2")] "0001 0002"; el [("type", "u16")] "3"; el [("offset", "10"); ("type", "s32")] "-1"]%string)).
Lemma whole_map1 : whole (m_regs map1).
Proof.
  split; [split; [repeat constructor|repeat constructor; vm_compute; discriminate]|].
  constructor; [exists 0, 3, [0; 1; 0; 2; 0; 3]|constructor; [exists 10, 2, [255; 255; 255; 255]|constructor]];
    (split; [reflexivity|]; split; [reflexivity|]; split; [reflexivity|]; split; [lia|]; split; [reflexivity|]; repeat constructor; unfold is_byte; lia).
Qed.
Example C15_ex :
  map_read map1 40001 2 3 = Ok [0; 2; 0; 3] /\ map_read map1 40002 2 3 = Raise EModbusMap /\ map_read map1 40010 2 0 = Ok [255; 255; 255; 255].
Proof. vm_compute. auto. Qed.

(** ** C16: a write of 2n bytes puts them into the addressed registers, as far as they exist
    without a gap, changes no other register and keeps the shape of the map; it succeeds iff all
    exist. *)
Lemma available_le l n : forall o, (available l o n <= n)%nat.
Proof. induction n as [|n IH]; intros o; cbn [available]; [lia|]. destruct (register l o); [|lia]. specialize (IH (o + 1)). lia. Qed.
Theorem C16_write_exact :
  forall m b addr data, whole (m_regs m) -> base_int (m_base m) = Ok b -> Forall is_byte data -> zlen data mod 2 = 0 ->
  let o := addr - b in let n := zlen data / 2 in let k := Z.of_nat (available (m_regs m) o (Z.to_nat n)) in
  exists m', map_write m addr data = (m', if k =? n then Ok tt else Raise EModbusMap) /\
    whole (m_regs m') /\ m_base m' = m_base m /\ m_func m' = m_func m /\
    forall y, register (m_regs m') y =
      if (o <=? y) && (y <? o + k) then Some (slice (2 * (y - o)) (2 * (y - o) + 2) data) else register (m_regs m) y.
Proof.
  intros m b addr data HW HB HD HE o n k. unfold map_write. rewrite HE. cbn [Z.eqb negb]. rewrite HB.
  pose proof (zlen_nonneg data) as HN. assert (H2 : zlen data = 2 * n) by (unfold n; rewrite (Z.div_mod (zlen data) 2) at 1 by lia; lia).
  destruct (write_regs_spec (m_regs m) o n data HW HD ltac:(lia) H2) as (l' & r & EW & Hr & HW' & _ & HREG).
  assert (n >= 0) by lia. fold o. rewrite H2, EW. exists (with_regs m l'). fold k in Hr, HREG. split; [|split; [exact HW'|auto]].
  f_equal. unfold num_ltb. cbn [num2]. rewrite Hr.
  assert (k <= n) by (unfold k; pose proof (available_le (m_regs m) (Z.to_nat n) o); lia).
  destruct (Z.eqb_spec k n); destruct (Z.ltb_spec (2 * 0) (2 * (n - k))); try reflexivity; lia.
Qed.
Print Assumptions C16_write_exact.

(** histories: memory as a partial function from register offsets to words.  Every read and write
    of any length history returns what this memory says. *)
Definition mem_write (mem : Z -> option bytes) (o : Z) (data : bytes) : Z -> option bytes :=
  fun y => if (o <=? y) && (y <? o + zlen data / 2) then Some (slice (2 * (y - o)) (2 * (y - o) + 2) data) else mem y.
Fixpoint mem_read (mem : Z -> option bytes) (o : Z) (n : nat) : option bytes :=
  match n with
  | O => Some []
  | S n' => match mem o, mem_read mem (o + 1) n' with Some w, Some r => Some (w ++ r) | _, _ => None end
  end.
(* all registers of a write exist *)
Definition mem_has (mem : Z -> option bytes) (o n : Z) : Prop := forall y, o <= y < o + n -> mem y <> None.
Inductive history : mbmap -> (Z -> option bytes) -> list mop -> mbmap -> (Z -> option bytes) -> Prop :=
| hist_nil m mem : history m mem [] m mem
| hist_write m mem addr data m' ops m2 mem2 b :
    base_int (m_base m) = Ok b -> mem_has mem (addr - b) (zlen data / 2) -> Forall is_byte data -> zlen data mod 2 = 0 ->
    map_write m addr data = (m', Ok tt) -> history m' (mem_write mem (addr - b) data) ops m2 mem2 ->
    history m mem (MWrite addr data :: ops) m2 mem2
| hist_read m mem addr count op ops m2 mem2 :
    history m mem ops m2 mem2 -> history m mem (MRead addr count op :: ops) m2 mem2.
Lemma registers_mem_read l mem n : (forall y, register l y = mem y) -> forall o, registers l o n = mem_read mem o n.
Proof. intros H. induction n as [|n IH]; intros o; cbn; [reflexivity|]. now rewrite H, IH. Qed.
Lemma available_full l n : forall o, (forall y, o <= y < o + Z.of_nat n -> register l y <> None) -> available l o n = n.
Proof.
  induction n as [|n IH]; intros o H; cbn [available]; [reflexivity|].
  destruct (register l o) eqn:E; [|destruct (H o); [lia|exact E]]. f_equal. apply IH. intros y Hy. apply H. lia.
Qed.
(** the write that the history expects to succeed does succeed *)
Theorem C16_fitting_write_succeeds :
  forall m b mem addr data, whole (m_regs m) -> (forall y, register (m_regs m) y = mem y) -> base_int (m_base m) = Ok b ->
  mem_has mem (addr - b) (zlen data / 2) -> Forall is_byte data -> zlen data mod 2 = 0 ->
  exists m', map_write m addr data = (m', Ok tt).
Proof.
  intros m b mem addr data HW HM HB HH HD HE. destruct (C16_write_exact m b addr data HW HB HD HE) as (m' & E & _).
  rewrite available_full in E.
  - pose proof (Z.div_pos (zlen data) 2 (zlen_nonneg data) ltac:(lia)). rewrite Z2Nat.id, Z.eqb_refl in E by lia. eauto.
  - intros y Hy. rewrite HM. apply HH. pose proof (Z.div_pos (zlen data) 2 (zlen_nonneg data) ltac:(lia)). lia.
Qed.
Print Assumptions C16_fitting_write_succeeds.
Theorem C16_history :
  forall m mem ops m2 mem2, whole (m_regs m) -> (forall y, register (m_regs m) y = mem y) ->
  history m mem ops m2 mem2 ->
  forall b addr count op, base_int (m_base m) = Ok b -> 0 <= count -> op = 0 \/ op = m_func m ->
  map_read m2 addr count op = match mem_read mem2 (addr - b) (Z.to_nat count) with Some d => Ok d | None => Raise EModbusMap end.
Proof.
  intros m mem ops m2 mem2 HW HM HH. induction HH as [m mem|m mem a data m' ops m2 mem2 b0 HB HMH HD HE EW HH IH|m mem a c o ops m2 mem2 HH IH];
    intros b addr count op HB' Hc Hop.
  - rewrite (map_read_spec m b) by auto. now rewrite (registers_mem_read _ mem).
  - destruct (C16_write_exact m b0 a data HW HB HD HE) as (m'' & E & HW'' & HBS & HFS & HREG). rewrite EW in E. injection E as <- _.
    apply IH; auto; [|congruence|rewrite HFS; exact Hop]. intros y. rewrite HREG. unfold mem_write.
    rewrite available_full.
    + pose proof (Z.div_pos (zlen data) 2 (zlen_nonneg data) ltac:(lia)). rewrite Z2Nat.id by lia. now rewrite HM.
    + intros z Hz. rewrite HM. apply HMH. pose proof (Z.div_pos (zlen data) 2 (zlen_nonneg data) ltac:(lia)). lia.
  - apply IH; auto.
Qed.
Print Assumptions C16_history.
Example C16_ex :
  let '(m', r) := map_write map1 40001 [9; 9; 8; 8] in
  r = Ok tt /\ map_read m' 40000 3 3 = Ok [0; 1; 9; 9; 8; 8] /\ map_read m' 40010 2 3 = Ok [255; 255; 255; 255].
Proof. vm_compute. auto. Qed.

(** ** C17: refuted: the part of a write that fits is kept when the write fails. *)
Theorem C17_failed_write_refuted :
  whole (m_regs map1) /\
  let '(m', r) := map_write map1 40002 [9; 9; 8; 8] in
  r = Raise EModbusMap /\ map_read map1 40002 1 3 = Ok [0; 3] /\ map_read m' 40002 1 3 = Ok [9; 9].
Proof. split; [exact whole_map1|]. vm_compute. auto. Qed.
Print Assumptions C17_failed_write_refuted.
(** a write of an odd number of bytes, or whose first register does not exist, changes nothing;
    no failed write changes a register outside the addressed ones (C16_write_exact) *)
Theorem C17_nothing_written_partial :
  forall m b addr data, whole (m_regs m) -> base_int (m_base m) = Ok b -> Forall is_byte data ->
  zlen data mod 2 <> 0 \/ (register (m_regs m) (addr - b) = None /\ data <> []) ->
  exists m', map_write m addr data = (m', Raise EModbusMap) /\ forall y, register (m_regs m') y = register (m_regs m) y.
Proof.
  intros m b addr data HW HB HD H.
  destruct (Z.eq_dec (zlen data mod 2) 0) as [HE|HE].
  - destruct H as [|[HN Hne]]; [contradiction|].
    destruct (C16_write_exact m b addr data HW HB HD HE) as (m' & E & _ & _ & _ & HREG).
    rewrite available_none in E, HREG by exact HN. exists m'. split.
    + rewrite E. destruct (Z.eqb_spec (Z.of_nat 0) (zlen data / 2)) as [Z0|]; [|reflexivity]. exfalso.
      apply Hne, zlen_zero_nil. rewrite (Z.div_mod (zlen data) 2) by lia. lia.
    + intros y. rewrite HREG. replace ((addr - b <=? y) && _) with false by lia. reflexivity.
  - exists m. unfold map_write. apply Z.eqb_neq in HE. rewrite HE. auto.
Qed.
Print Assumptions C17_nothing_written_partial.
Example C17_ex : register (m_regs map1) (40005 - 40000) = None.
Proof. reflexivity. Qed.

(** ** C18: refuted: a block whose last element is a hexstr without len cannot be read to its end. *)
Definition map_nolen : mbmap := fst (map_from_xml env0 empty_map (doc [el [("offset", "0")] "0001 0002"]%string)).
Theorem C18_no_len_refuted :
  snd (map_from_xml env0 empty_map (doc [el [("offset", "0")] "0001 0002"]%string)) = Ok tt /\
  map_read map_nolen 40000 1 3 = Ok [0; 1] /\ map_read map_nolen 40001 1 3 = Raise EType /\ map_read map_nolen 40000 2 3 = Raise EType.
Proof. vm_compute. auto. Qed.
Print Assumptions C18_no_len_refuted.
(** if every hexstr element has a positive len that its text fits, every range inside a block of
    the loaded map can be read, and gives the block's data *)
Theorem C18_loaded_blocks_readable_partial :
  forall E func base m0 root m, new_map func base = Ok m0 -> Forall fits (findall T_REGS root) ->
  map_from_xml E m0 root = (m, Ok tt) ->
  whole (m_regs m) /\
  forall b o c d a, base_int (m_base m) = Ok b -> In (wb o c d a) (m_regs m) ->
  forall x n, o <= x -> 0 <= n -> x + n <= o + c ->
  map_read m (b + x) n (m_func m) = Ok (slice (2 * (x - o)) (2 * (x - o) + 2 * n) d).
Proof.
  intros E func base m0 root m H0 HF H.
  assert (HR0 : m_regs m0 = []) by (unfold new_map in H0; destruct (func_value func); [|discriminate]; injection H0 as <-; reflexivity).
  unfold map_from_xml in H. destruct (func_value _); [|discriminate].
  destruct (load_regs E (m_regs m0) (NI 0) (findall T_REGS root)) as [l r] eqn:EL. injection H as <- ->. rewrite HR0 in EL. cbn [m_regs m_base m_func].
  assert (WN : whole []) by (repeat split; constructor).
  destruct (load_regs_fits E _ [] 0 l WN eq_refl HF EL) as (ds & _ & HW & _).
  split; [exact HW|]. intros b o c d a HB HIN x n H1 H2 H3.
  rewrite (map_read_spec _ b) by (cbn [m_regs m_base m_func]; auto). cbn [m_regs]. replace (b + x - b) with x by lia.
  assert (HREG : forall k y, o <= y -> y + Z.of_nat k <= o + c -> registers l y k = Some (slice (2 * (y - o)) (2 * (y - o) + 2 * Z.of_nat k) d)).
  { clear - HW HIN. destruct HW as [HA HWB]. intros k.
    assert (HWd : zlen d = 2 * c). { rewrite Forall_forall in HWB. apply HWB in HIN. destruct HIN as (o' & c' & d' & E1 & E2 & E3 & _ & E4 & _). cbn in E1, E2, E3. congruence. }
    induction HWB as [|g l W1 W2 IH]; [destruct HIN|]. intros y H1 H2. destruct HIN as [->|HIN].
    - now apply registers_in.
    - apply whole_block_wb in W1 as (o1 & c1 & d1 & a1 & -> & Hc1 & Hd1 & _). apply ascending_cons in HA as (HA & HF & _).
      rewrite Forall_forall in HF. pose proof (HF _ HIN) as HO. cbn [wb g_offset g_count num2] in HO.
      rewrite registers_past by lia. now apply IH. }
  rewrite HREG by lia. now rewrite Z2Nat.id by lia.
Qed.
Print Assumptions C18_loaded_blocks_readable_partial.

(** ** C19: refuted: the length of such a block is written as "2.0", which cannot be loaded. *)
Theorem C19_no_len_refuted :
  exists x, map_to_xml map_nolen = Ok x /\ snd (map_from_xml env0 empty_map x) = Raise EModbusMap.
Proof. eexists. split; [vm_compute; reflexivity|vm_compute; reflexivity]. Qed.
Print Assumptions C19_no_len_refuted.
Lemma read_regs_strip l : forall o n data, read_regs (map strip_access l) o n data = read_regs l o n data.
Proof.
  induction l as [|g l IH]; [reflexivity|]. intros o n data. cbn [map read_regs].
  change (regs_end (strip_access g)) with (regs_end g). change (g_offset (strip_access g)) with (g_offset g).
  destruct (num_ltb (NI 0) n); [|reflexivity]. destruct (_ && _); [|apply IH].
  change (regs_read (strip_access g) o) with (regs_read g o). destruct (regs_read g o _) as [[dd|]|]; cbn [bind]; auto.
Qed.
(** maps with integer counts (no empty blocks) come back the same, except that all access rights
    are "r" *)
Theorem C19_roundtrip_partial :
  forall E func base m0 m, new_map func base = Ok m0 -> whole (m_regs m) -> Forall (fun g => 0 < num2 (g_count g)) (m_regs m) ->
  m_func m = 3 \/ m_func m = 4 ->
  exists x m', map_to_xml m = Ok x /\ map_from_xml E m0 x = (m', Ok tt) /\
    m_func m' = m_func m /\ base_int (m_base m') = base_int (m_base m) /\
    m_ns m' = m_ns m /\ m_lid m' = m_lid m /\ m_mapid m' = m_mapid m /\ m_time m' = m_time m /\
    m_regs m' = map (fun g => mkRegs (g_offset g) (g_count g) (g_data g) ACCESS_R) (m_regs m) /\
    forall addr count op, map_read m' addr count op = map_read m addr count op.
Proof.
  intros E func base m0 m H0 [HA HW] HP HF.
  assert (HR0 : m_regs m0 = []) by (unfold new_map in H0; destruct (func_value func); [|discriminate]; injection H0 as <-; reflexivity).
  destruct (load_regs_elems E (m_regs m) [] HA HW HP (NI 0)) as (els & E1 & E2 & E3).
  unfold map_to_xml. rewrite E1. cbn [bind]. eexists. eexists. split; [reflexivity|].
  unfold map_from_xml.
  set (attrs := _ ++ _). set (x := XE T_MBMAP attrs None None els).
  assert (GA : x_get A_ADDR x = Some (match m_base m with BInt z => str_of_int z | BStr s => s end)) by reflexivity.
  assert (GF : func_value (dget_default A_FUNC V_HOLDING x) = Some (m_func m)).
  { unfold dget_default. replace (x_get A_FUNC x) with (Some (func_name (m_func m))) by reflexivity. destruct HF as [-> | ->]; reflexivity. }
  assert (GN : x_get A_NS x = m_ns m).
  { unfold x_get, x, attrs, x_attrs. destruct (m_ns m), (m_lid m), (m_mapid m), (m_time m); reflexivity. }
  assert (GL : x_get A_LID x = m_lid m).
  { unfold x_get, x, attrs, x_attrs. destruct (m_ns m), (m_lid m), (m_mapid m), (m_time m); reflexivity. }
  assert (GM : x_get A_MAPID x = m_mapid m).
  { unfold x_get, x, attrs, x_attrs. destruct (m_ns m), (m_lid m), (m_mapid m), (m_time m); reflexivity. }
  assert (GT : x_get A_TIME x = m_time m).
  { unfold x_get, x, attrs, x_attrs. destruct (m_ns m), (m_lid m), (m_mapid m), (m_time m); reflexivity. }
  assert (GR : findall T_REGS x = els) by (unfold findall in *; exact E2).
  rewrite GA, GF, GN, GL, GM, GT, GR, HR0, E3. cbn [app]. split; [reflexivity|]. cbn [m_func m_base m_ns m_lid m_mapid m_time m_regs].
  assert (HBASE : base_int (BStr match m_base m with BInt z => str_of_int z | BStr s => s end) = base_int (m_base m)).
  { cbn [base_int]. destruct (m_base m); cbn [base_int]; [apply int_of_str_roundtrip|reflexivity]. }
  repeat split; auto. intros addr count op. unfold map_read. cbn [m_func m_base m_regs]. rewrite HBASE.
  destruct (_ && _); [reflexivity|]. destruct (base_int (m_base m)) as [b|]; [|reflexivity]. cbn [bind].
  now rewrite (read_regs_strip (m_regs m)).
Qed.
Print Assumptions C19_roundtrip_partial.
Example C19_ex : whole (m_regs map1) /\ Forall (fun g => 0 < num2 (g_count g)) (m_regs map1) /\ m_func map1 = 3.
Proof. split; [exact whole_map1|]. split; [repeat constructor|reflexivity]. Qed.

(** the texts of the offset and length of a saved block: an integer as Python shows it; a float (from a count or offset that
    was divided) with one decimal, which loading does not take *)
Theorem C19_number_text :
  (forall z, str_of_num (NI z) = str_of_int z) /\
  (forall h, exists n half, 0 <= n /\ (half = 0 \/ half = 1) /\
     str_of_num (NF h) = (if h <? 0 then lit "-"%string else []) ++ str_of_int n ++ (if half =? 0 then lit ".0"%string else lit ".5"%string) /\
     h = (if h <? 0 then -1 else 1) * (2 * n + half)).
Proof.
  split; [reflexivity|]. intros h. exists (Z.abs h / 2), (Z.abs h mod 2).
  pose proof (Z.div_pos (Z.abs h) 2 ltac:(lia) ltac:(lia)) as H1. pose proof (Z.mod_pos_bound (Z.abs h) 2 ltac:(lia)) as H2. pose proof (Z.div_mod (Z.abs h) 2 ltac:(lia)) as H3.
  split; [exact H1|]. split; [lia|]. split; [|destruct (Z.ltb_spec h 0); lia].
  unfold str_of_num, str_of_int. replace (Z.abs h / 2 <? 0) with false by lia.
  replace (Z.even h) with (Z.abs h mod 2 =? 0). { destruct (h <? 0); cbn [app]; destruct (Z.abs h mod 2 =? 0); reflexivity. }
  assert (HE : Z.even h = Z.even (Z.abs h)) by (destruct (Z.abs_eq_or_opp h) as [-> | ->]; [reflexivity|now rewrite Z.even_opp]).
  rewrite HE, Zeven_mod. unfold Zeq_bool, Z.eqb. destruct (Z.abs h mod 2); reflexivity.
Qed.
Print Assumptions C19_number_text.

(** saving fails, with a TypeError, exactly for the maps with a block that has no data (left by a <regs>
    element with a length and no text) *)
Theorem C19_save_needs_data :
  forall m, (Forall (fun g => g_data g <> None) (m_regs m) -> exists x, map_to_xml m = Ok x) /\
            (Exists (fun g => g_data g = None) (m_regs m) -> map_to_xml m = Raise EType).
Proof.
  intros m. unfold map_to_xml. split; intros H.
  - enough (exists cs, map_res regs_to_xml (m_regs m) = Ok cs) as (cs & ->) by (eexists; reflexivity).
    induction H as [|g l Hg _ (cs & IH)]; [exists []; reflexivity|]. cbn [map_res]. unfold regs_to_xml at 1. destruct (g_data g); [|contradiction].
    rewrite IH. cbn [bind]. eexists. reflexivity.
  - enough (map_res regs_to_xml (m_regs m) = Raise EType) as -> by reflexivity.
    induction H as [g l Hg|g l _ IH]; cbn [map_res]; unfold regs_to_xml at 1; [now rewrite Hg|]. destruct (g_data g); [|reflexivity]. now rewrite IH.
Qed.
Print Assumptions C19_save_needs_data.
Example C19_save_needs_data_ex : Forall (fun g => g_data g <> None) (m_regs map1) /\ Exists (fun g => g_data g = None) [mkRegs (NI 0) (NI 2) None ACCESS_RW].
Proof. split; [repeat constructor; discriminate|]. now constructor. Qed.

(** ** C20: a loaded map holds exactly what the document declares: every declared register holds
    its declared bytes, and there are no other registers. *)
Theorem C20_contents_are_declared :
  forall E func base m0 root m, new_map func base = Ok m0 -> Forall fits (findall T_REGS root) ->
  map_from_xml E m0 root = (m, Ok tt) ->
  exists ds, layout E 0 (findall T_REGS root) ds /\
    forall y w, register (m_regs m) y = Some w <->
      exists o d, In (o, d) ds /\ o <= y < o + zlen d / 2 /\ w = slice (2 * (y - o)) (2 * (y - o) + 2) d.
Proof.
  intros E func base m0 root m H0 HF H.
  assert (HR0 : m_regs m0 = []) by (unfold new_map in H0; destruct (func_value func); [|discriminate]; injection H0 as <-; reflexivity).
  unfold map_from_xml in H. destruct (func_value _); [|discriminate].
  destruct (load_regs E (m_regs m0) (NI 0) (findall T_REGS root)) as [l r] eqn:EL. injection H as <- ->. rewrite HR0 in EL. cbn [m_regs].
  assert (WN : whole []) by (repeat split; constructor).
  destruct (load_regs_fits E _ [] 0 l WN eq_refl HF EL) as (ds & HLAY & HW & HREG).
  exists ds. split; [exact HLAY|]. intros y w. rewrite HREG. split; [intros [H|H]; [discriminate|exact H]|auto].
Qed.
Print Assumptions C20_contents_are_declared.
Example C20_ex :
  Forall fits (findall T_REGS (doc [el [("offset", "0"); ("len", "3")] "0001 0002"; el [("type", "u16")] "0x1F"]%string)) /\
  snd (map_from_xml env0 empty_map (doc [el [("offset", "0"); ("len", "3")] "0001 0002"; el [("type", "u16")] "0x1F"]%string)) = Ok tt.
Proof.
  split; [|reflexivity]. repeat constructor.
  - intros _. exists 3, [0; 1; 0; 2]. split; [eexists; split; reflexivity|]. split; [lia|]. split; [|vm_compute; discriminate].
    change (no_blanks _) with [48; 48; 48; 49; 48; 48; 48; 50].
    apply (hex_cons 48 48 0 0); [unfold digit_of; lia|unfold digit_of; lia|]. apply (hex_cons 48 49 0 1); [unfold digit_of; lia|unfold digit_of; lia|].
    apply (hex_cons 48 48 0 0); [unfold digit_of; lia|unfold digit_of; lia|]. apply (hex_cons 48 50 0 2); [unfold digit_of; lia|unfold digit_of; lia|]. constructor.
  - intros H. vm_compute in H. discriminate.
Qed.

(** ** C21: refuted: surplus text shifts the registers that follow in the block. *)
Theorem C21_oversized_text_refuted :
  let d := doc [el [("offset", "0"); ("len", "1")] "0001 0002"; el [("offset", "1"); ("type", "u16")] "3"]%string in
  snd (map_from_xml env0 empty_map d) = Ok tt /\
  map_read (fst (map_from_xml env0 empty_map d)) 40001 1 3 = Ok [0; 2].
Proof. vm_compute. auto. Qed.
Print Assumptions C21_oversized_text_refuted.

(** ** C69: comparison of maps *)
Theorem C69_equal_iff_no_difference :
  forall m n, whole (m_regs m) -> whole (m_regs n) ->
  (map_not_equal m n = Ok false <-> m_base m = m_base n /\ m_func m = m_func n /\ m_regs m = m_regs n) /\
  exists b, map_not_equal m n = Ok b.
Proof.
  assert (DD : forall a b : bytes, length a = length b -> data_differs a b = Ok (negb (eqb_list a b))).
  { induction a as [|x a IH]; intros [|y b] H; try discriminate; [reflexivity|]. cbn. cbn in H. injection H as H.
    destruct (x =? y); [now rewrite IH|reflexivity]. }
  assert (RR : forall g h, whole_block g -> whole_block h -> exists b, regs_not_equal g h = Ok b /\ (b = false <-> g = h)).
  { intros g h HG HH. apply whole_block_wb in HG as (o & c & d & a & -> & Hc & Hd & _). apply whole_block_wb in HH as (o1 & c1 & d1 & a1 & -> & Hc1 & Hd1 & _).
    unfold regs_not_equal, num_eqb, wb. cbn [g_offset g_count g_data g_access num2 opt_bytes_eqb].
    destruct (Z.eqb_spec (2 * o) (2 * o1)); cbn [negb]; [|exists true; split; [reflexivity|split; [discriminate|intros [=]; lia]]].
    destruct (Z.eqb_spec (2 * c) (2 * c1)); cbn [negb]; [|exists true; split; [reflexivity|split; [discriminate|intros [=]; lia]]].
    assert (o1 = o) by lia. assert (c1 = c) by lia. subst o1 c1.
    destruct (eqb_list d d1) eqn:ED.
    - apply eqb_list_eq in ED. subst d1. cbn [bind]. eexists. split; [reflexivity|]. rewrite negb_false_iff, eqb_list_eq. split; [now intros ->|now intros [= ->]].
    - rewrite DD by (unfold zlen in *; lia). rewrite ED. cbn [bind negb]. exists true. split; [destruct d; reflexivity|]. split; [discriminate|].
      intros [= -> ->]. now rewrite eqb_list_refl in ED. }
  assert (LL : forall a b, Forall whole_block a -> Forall whole_block b -> length a = length b ->
     exists v, regs_list_not_equal a b = Ok v /\ (v = false <-> a = b)).
  { induction a as [|g a IH]; intros [|h b] HA HB HL; try discriminate; [exists false; cbn; tauto|].
    inversion HA as [|? ? A1 A2]; inversion HB as [|? ? B1 B2]; subst. cbn [regs_list_not_equal].
    destruct (RR g h A1 B1) as (v & -> & Hv). cbn [bind]. destruct v.
    - exists true. split; [reflexivity|]. split; [discriminate|]. intros [= -> _]. now apply Hv.
    - destruct (IH b A2 B2 ltac:(cbn in HL; lia)) as (v & -> & Hv2). exists v. split; [reflexivity|]. rewrite Hv2.
      destruct Hv as [Hv _]. rewrite (Hv eq_refl). split; [now intros ->|now intros [= ->]]. }
  intros m n [_ HWm] [_ HWn]. unfold map_not_equal.
  assert (BE : base_eqb (m_base m) (m_base n) = true <-> m_base m = m_base n).
  { destruct (m_base m), (m_base n); cbn [base_eqb]; rewrite ?Z.eqb_eq, ?eqb_list_eq; split; congruence. }
  destruct (base_eqb (m_base m) (m_base n)); cbn [negb].
  2:{ split; [|eauto]. split; [discriminate|]. intros (H & _). apply BE in H. discriminate. }
  destruct (Z.eqb_spec (m_func m) (m_func n)); cbn [negb].
  2:{ split; [|eauto]. split; [discriminate|]. intros (_ & H & _). congruence. }
  destruct (Nat.eqb_spec (length (m_regs m)) (length (m_regs n))) as [HL|HL]; cbn [negb].
  2:{ split; [|eauto]. split; [discriminate|]. intros (_ & _ & H). rewrite H in HL. congruence. }
  destruct (LL _ _ HWm HWn HL) as (v & -> & Hv). split; [|eauto]. split.
  - intros [= ->]. destruct BE as [BE _]. destruct Hv as [Hv _]. auto.
  - intros (_ & _ & H). apply Hv in H. now subst.
Qed.
Print Assumptions C69_equal_iff_no_difference.
(** any map, whatever its blocks hold (also none), is equal to itself *)
Theorem C69_reflexive : forall m, map_not_equal m m = Ok false.
Proof.
  intros m. unfold map_not_equal.
  assert (BE : base_eqb (m_base m) (m_base m) = true) by (destruct (m_base m); cbn [base_eqb]; [apply Z.eqb_refl|apply eqb_list_refl]).
  rewrite BE, Z.eqb_refl, Nat.eqb_refl. cbn [negb]. induction (m_regs m) as [|g l IH]; [reflexivity|]. cbn [regs_list_not_equal].
  assert (EG : regs_not_equal g g = Ok false).
  { unfold regs_not_equal, num_eqb. rewrite !Z.eqb_refl. cbn [negb].
    assert (EO : opt_bytes_eqb (g_data g) (g_data g) = true) by (destruct (g_data g); cbn [opt_bytes_eqb]; [apply eqb_list_refl|reflexivity]).
    rewrite EO. cbn [bind]. now rewrite eqb_list_refl. }
  rewrite EG. exact IH.
Qed.
Print Assumptions C69_reflexive.
(** data that is only a prefix of the other's (an oversized element) is not reported *)
Theorem C69_prefix_refuted :
  let m := fst (map_from_xml env0 empty_map (doc [el [("len", "1")] "0001"]%string)) in
  let n := fst (map_from_xml env0 empty_map (doc [el [("len", "1")] "0001 0002"]%string)) in
  m_regs m <> m_regs n /\ map_not_equal m n = Ok false /\ map_not_equal n m = Raise EIndex.
Proof. vm_compute. repeat split; discriminate. Qed.
Print Assumptions C69_prefix_refuted.
