(** * C_Output: property C120: what a program that uses a mapped device makes the library print.

    The printing is ModbusMap.read's print(self) (mbmap.py:401); [map_str] is the text, [program] (M_Session) any program that
    uses a ClientDevice of type MAPPED. *)
From Coq Require Import String.
From Verif Require Import Py P_List M_Util M_Float M_Suns M_Point M_Mbmap S_Mbmap P_Mbmap M_Device M_Client M_Scan M_Wrapper M_Session P_Resume C_Mbmap C_Resume.
From Verif Require Import M_TypeText P_Print P_IntText P_TypeText M_Output S_Output P_Output.

(** ** one read: a read that fails with ModbusMapError prints the map, once; any other prints nothing.  For every map. *)
Theorem C120_read : forall slave m addr count,
  let '(r, out) := map_read_out slave m addr count 0 in
  r = map_read m addr count 0 /\ (r = Raise EModbusMap -> out = [map_str slave m]) /\ (r <> Raise EModbusMap -> out = []).
Proof.
  intros slave m a n. pose proof (read_out_result slave m a n 0) as H1. pose proof (read_out_text slave m a n) as H2.
  destruct (map_read_out slave m a n 0) as [r out]. cbn [fst snd] in *. subst r. split; [reflexivity|].
  destruct H2 as [[H2 H3]|[H2 H3]]; split; intros H; tauto.
Qed.
Print Assumptions C120_read.

Section Prog.
  Context (E : pyenv) (lfuel fuel : nat) (types : Z -> res modeltype) (slave : option Z) (m0 : mbmap) (b : Z).
  Hypothesis HW0 : whole_map m0.
  Hypothesis HB : base_int (m_base m0) = Ok b.
  Definition kept (m : mbmap) : Prop :=
    whole_map m /\ m_func m = m_func m0 /\ m_base m = m_base m0 /\ same_shape (m_regs m0) (m_regs m).
  Lemma kept_write m a d : Forall is_byte d -> kept m -> kept (fst (map_write m a d)).
  Proof.
    intros HD (H1 & H2 & H3 & H4). destruct (map_write_shape m a d) as (G1 & G2 & G3). split; [now apply whole_map_write|].
    split; [congruence|]. split; [congruence|]. exact (same_shape_trans _ _ _ H4 G3).
  Qed.
  Definition both (s : mbmap * list (Z * Z)) (s' : mbmap * list str) : Prop :=
    fst s' = fst s /\ kept (fst s) /\ one_each (in_map m0 b) (map_str slave m0) (snd s) (snd s').
  Lemma kept_in m q : kept m -> (in_map m0 b q <-> map_read m (fst q) (snd q) 0 <> Raise EModbusMap).
  Proof.
    intros ((HW & _) & H2 & H3 & H4). rewrite <- (in_map_shape _ _ b q H4). destruct q as [a n]. cbn [fst snd]. apply in_map_read; [exact HW|congruence].
  Qed.
  Lemma both_read s1 s2 a n : both s1 s2 -> exists s2', dv_read (scl_dev (printing_client slave)) s2 a n = (s2', snd (dv_read (scl_dev noting_client) s1 a n)) /\
    both (fst (dv_read (scl_dev noting_client) s1 a n)) s2'.
  Proof.
    destruct s1 as [m reqs], s2 as [m' out]. intros (EM & HK & HO). cbn [fst snd] in *. subst m'. cbn [printing_client noting_client map_client scl_dev dv_read fst snd].
    pose proof (read_out_result slave m a n 0) as H1. pose proof (read_out_text slave m a n) as H2. pose proof (kept_in m (a, n) HK) as HI. cbn [fst snd] in HI.
    destruct (map_read_out slave m a n 0) as [r o]. cbn [fst snd] in *. subst r.
    exists (m, out ++ o). split; [reflexivity|]. split; [reflexivity|]. split; [exact HK|]. cbn [fst snd].
    pose proof (one_each_snoc _ _ (a, n) _ _ HO) as [G1 G2]. destruct H2 as [[H2 ->]|[H2 ->]].
    - assert (ES : map_str slave m = map_str slave m0) by (destruct HK as (_ & K2 & K3 & K4); now apply map_str_shape). rewrite ES. apply G2. tauto.
    - rewrite app_nil_r. apply G1. tauto.
  Qed.
  Lemma both_write s1 s2 a d : Forall is_byte d -> both s1 s2 -> exists s2', dv_write (scl_dev (printing_client slave)) s2 a d = (s2', snd (dv_write (scl_dev noting_client) s1 a d)) /\
    both (fst (dv_write (scl_dev noting_client) s1 a d)) s2'.
  Proof.
    destruct s1 as [m reqs], s2 as [m' out]. intros HD (EM & HK & HO). cbn [fst snd] in *. subst m'. cbn [printing_client noting_client map_client scl_dev dv_write fst snd].
    pose proof (kept_write m a d HD HK) as HK'. destruct (map_write m a d) as [m' r]. cbn [fst snd] in *.
    exists (m', out). split; [reflexivity|]. split; [reflexivity|]. split; [exact HK'|exact HO].
  Qed.
  Lemma program_prints next n cd : bytes_only next ->
    exists s', program (printing_client slave) E lfuel fuel types n next (m0, []) cd [] =
      (s', snd (fst (program noting_client E lfuel fuel types n next (m0, []) cd [])), snd (program noting_client E lfuel fuel types n next (m0, []) cd [])) /\
      both (fst (fst (program noting_client E lfuel fuel types n next (m0, []) cd []))) s'.
  Proof.
    intros HO. destruct (program_agrees noting_client (printing_client slave) both both_read both_write eq_refl eq_refl E lfuel fuel types next (bytes_only_ops next HO) n (m0, []) cd [] Logic.I) as [_ G].
    apply G. split; [reflexivity|]. split; [|constructor]. split; [exact HW0|]. split; [reflexivity|]. split; [reflexivity|apply same_shape_refl].
  Qed.
  (** the noting device is the mapped device *)
  Lemma program_notes next n cd : bytes_only next ->
    exists reqs, program noting_client E lfuel fuel types n next (m0, []) cd [] =
      ((fst (fst (program map_client E lfuel fuel types n next m0 cd [])), reqs), snd (fst (program map_client E lfuel fuel types n next m0 cd [])),
       snd (program map_client E lfuel fuel types n next m0 cd [])).
  Proof.
    intros HO. set (R := fun (m : mbmap) (s : mbmap * list (Z * Z)) => fst s = m).
    assert (HRD : forall s1 s2 a k, R s1 s2 -> exists s2', dv_read (scl_dev noting_client) s2 a k = (s2', snd (dv_read (scl_dev map_client) s1 a k)) /\ R (fst (dv_read (scl_dev map_client) s1 a k)) s2').
    { intros s1 [m l] a k H. unfold R in H. cbn [fst] in H. subst m. cbn [noting_client map_client scl_dev dv_read fst snd]. eexists. split; reflexivity. }
    assert (HWR : forall s1 s2 a d, Forall is_byte d -> R s1 s2 -> exists s2', dv_write (scl_dev noting_client) s2 a d = (s2', snd (dv_write (scl_dev map_client) s1 a d)) /\ R (fst (dv_write (scl_dev map_client) s1 a d)) s2').
    { intros s1 [m l] a d _ H. unfold R in H. cbn [fst] in H. subst m. cbn [noting_client map_client scl_dev dv_write fst snd].
      destruct (map_write s1 a d) as [m' r]. cbn [fst snd]. eexists. split; reflexivity. }
    destruct (program_agrees map_client noting_client R HRD HWR eq_refl eq_refl E lfuel fuel types next (bytes_only_ops next HO) n m0 cd [] Logic.I) as [_ G].
    destruct (G (m0, []) eq_refl) as ([m' reqs] & EQ & HR). unfold R in HR. cbn [fst] in HR. subst m'. exists reqs. exact EQ.
  Qed.
End Prog.

(** ** any program: the results are those of the device that does not print, and the output is the text of the map, once for
    each request for a register that the map does not have (or for a negative number of registers), in order, and nothing else *)
Theorem C120_program :
  forall E lfuel fuel types slave m b next n cd, whole_map m -> base_int (m_base m) = Ok b -> bytes_only next ->
  forall m1 cd1 results, program map_client E lfuel fuel types n next m cd [] = (m1, cd1, results) ->
  exists requests output,
    program noting_client E lfuel fuel types n next (m, []) cd [] = ((m1, requests), cd1, results) /\
    program (printing_client slave) E lfuel fuel types n next (m, []) cd [] = ((m1, output), cd1, results) /\
    one_each (in_map m b) (map_str slave m) requests output.
Proof.
  intros E lfuel fuel types slave m b next n cd HW HB HO m1 cd1 results EP.
  destruct (program_notes E lfuel fuel types m next n cd HO) as (reqs & EN). rewrite EP in EN. cbn [fst snd] in EN.
  destruct (program_prints E lfuel fuel types slave m b HW HB next n cd HO) as ([m' out] & EO & H1 & H2 & H3). rewrite EN in EO, H1, H2, H3. cbn [fst snd] in *. subst m'.
  exists reqs, out. auto.
Qed.
Print Assumptions C120_program.
(** a program that asks for no register outside the map makes the library print nothing *)
Theorem C120_quiet :
  forall E lfuel fuel types slave m b next n cd, whole_map m -> base_int (m_base m) = Ok b -> bytes_only next ->
  forall m1 requests cd1 results, program noting_client E lfuel fuel types n next (m, []) cd [] = ((m1, requests), cd1, results) ->
  (Forall (in_map m b) requests <-> program (printing_client slave) E lfuel fuel types n next (m, []) cd [] = ((m1, []), cd1, results)).
Proof.
  intros E lfuel fuel types slave m b next n cd HW HB HO m1 requests cd1 results EN.
  destruct (program map_client E lfuel fuel types n next m cd []) as [[m2 cd2] r2] eqn:EP.
  destruct (C120_program E lfuel fuel types slave m b next n cd HW HB HO m2 cd2 r2 EP) as (reqs & out & E1 & E2 & E3). rewrite E1 in EN.
  apply pair_equal_spec in EN as [EN ->]. apply pair_equal_spec in EN as [EN ->]. apply pair_equal_spec in EN as [-> ->]. rewrite E2. clear -E3. split.
  - intros HF. replace out with (@nil str); [reflexivity|]. induction E3 as [|q l o HP H IH|q l o HP H IH]; [reflexivity| |]; apply Forall_cons_iff in HF as [HQ HF]; [auto|contradiction].
  - intros H. apply pair_equal_spec in H as [H _]. apply pair_equal_spec in H as [H _]. apply pair_equal_spec in H as [_ ->].
    remember (@nil str) as o eqn:EO. induction E3 as [|q l o HP H IH|q l o HP H IH]; [constructor| |discriminate]. constructor; auto.
Qed.
Print Assumptions C120_quiet.

(** ** the text tells the slave id, the function, the base address and the offset, count and access of every block, and nothing
    else (none of the data) *)
Definition one_line (s : str) : Prop := ~ In 10 s.
Definition lines_ok (m : mbmap) : Prop := one_line (base_str (m_base m)) /\ Forall (fun g => one_line (g_access g)) (m_regs m).
Lemma regs_str_inj o c d a o' c' d' a' : regs_str (mkRegs (NI o) (NI c) d a) = regs_str (mkRegs (NI o') (NI c') d' a') -> o = o' /\ c = c' /\ a = a'.
Proof.
  unfold regs_str. cbn [g_offset g_count g_access num_str]. intros H. apply app_inv_head in H.
  change (lit " count = "%string) with (32 :: lit "count = "%string) in H. change (lit " access = "%string) with (32 :: lit "access = "%string) in H. rewrite <- !app_comm_cons in H.
  apply split_at in H as [E1 H]; [|apply str_of_int_no; lia..]. apply app_inv_head in H. apply split_at in H as [E2 H]; [|apply str_of_int_no; lia..]. apply app_inv_head in H.
  apply str_of_int_inj in E1, E2. auto.
Qed.
Lemma regs_lines_inj l1 l2 : Forall whole_block l1 -> Forall whole_block l2 -> Forall (fun g => one_line (g_access g)) l1 -> Forall (fun g => one_line (g_access g)) l2 ->
  flat_map (fun g => [10] ++ regs_str g) l1 = flat_map (fun g => [10] ++ regs_str g) l2 ->
  map (fun g => (num2 (g_offset g), num2 (g_count g), g_access g)) l1 = map (fun g => (num2 (g_offset g), num2 (g_count g), g_access g)) l2.
Proof.
  assert (HN : forall g, whole_block g -> one_line (g_access g) -> ~ In 10 (regs_str g)).
  { intros g (o & c & d & E1 & E2 & _) H. unfold regs_str, one_line in *. rewrite E1, E2. cbn [num_str]. no10. }
  assert (HS : forall l : list mregs, flat_map (fun g => [10] ++ regs_str g) l = [] \/ exists t, flat_map (fun g => [10] ++ regs_str g) l = 10 :: t).
  { intros [|g l]; [left; reflexivity|right; eexists; reflexivity]. }
  revert l2. induction l1 as [|g l1 IH]; intros [|h l2] W1 W2 A1 A2 H; [reflexivity|discriminate|discriminate|].
  apply Forall_cons_iff in W1 as [B1 W1]. apply Forall_cons_iff in W2 as [B2 W2]. apply Forall_cons_iff in A1 as [C1 A1]. apply Forall_cons_iff in A2 as [C2 A2].
  assert (H' : regs_str g ++ flat_map (fun g => [10] ++ regs_str g) l1 = regs_str h ++ flat_map (fun g => [10] ++ regs_str g) l2) by exact (f_equal (@tl Z) H).
  assert (E : regs_str g = regs_str h /\ flat_map (fun g => [10] ++ regs_str g) l1 = flat_map (fun g => [10] ++ regs_str g) l2).
  { pose proof (HN g B1 C1) as N1. pose proof (HN h B2 C2) as N2. destruct (HS l1) as [E1|[t1 E1]], (HS l2) as [E2|[t2 E2]]; rewrite E1, E2 in *.
    - rewrite !app_nil_r in H'. auto.
    - exfalso. apply N1. rewrite app_nil_r in H'. rewrite H'. apply in_elt.
    - exfalso. apply N2. rewrite app_nil_r in H'. rewrite <- H'. apply in_elt.
    - apply split_at in H' as [G1 G2]; auto. split; congruence. }
  destruct E as [E1 E2]. cbn [map]. rewrite (IH l2 W1 W2 A1 A2 E2). f_equal.
  destruct B1 as (o & c & d & F1 & F2 & _), B2 as (o' & c' & d' & F1' & F2' & _). destruct g as [go gc gd ga], h as [ho hc hd ha]. cbn [g_offset g_count g_access] in *. subst.
  apply regs_str_inj in E1 as (-> & -> & ->). reflexivity.
Qed.
Theorem C120_text_tells_layout : forall s1 m1 s2 m2, whole (m_regs m1) -> whole (m_regs m2) -> lines_ok m1 -> lines_ok m2 ->
  (map_str s1 m1 = map_str s2 m2 <-> map_layout s1 m1 = map_layout s2 m2).
Proof.
  intros s1 m1 s2 m2 [_ W1] [_ W2] [L1 A1] [L2 A2]. split.
  - unfold map_str. intros H. apply app_inv_head in H.
    change (lit " func = "%string) with (32 :: lit "func = "%string) in H. change (lit " base_addr = "%string) with (32 :: lit "base_addr = "%string) in H. rewrite <- !app_comm_cons in H.
    apply split_at in H as [E1 H]; [|apply opt_int_no; lia..]. apply app_inv_head in H. apply split_at in H as [E2 H]; [|apply str_of_int_no; lia..]. apply app_inv_head in H.
    apply opt_int_inj in E1. apply str_of_int_inj in E2.
    assert (E : base_str (m_base m1) = base_str (m_base m2) /\ flat_map (fun g => [10] ++ regs_str g) (m_regs m1) = flat_map (fun g => [10] ++ regs_str g) (m_regs m2)).
    { unfold one_line in *. destruct (m_regs m1) as [|g1 l1], (m_regs m2) as [|g2 l2]; cbn [flat_map app] in H |- *.
      - rewrite !app_nil_r in H. auto.
      - exfalso. apply L1. rewrite app_nil_r in H. rewrite H. apply in_elt.
      - exfalso. apply L2. rewrite app_nil_r in H. rewrite <- H. apply in_elt.
      - apply split_at in H as [G1 G2]; auto. split; congruence. }
    destruct E as [E3 E4]. unfold map_layout. rewrite E1, E2. apply regs_lines_inj in E4; auto. rewrite E4. unfold base_str in E3. now rewrite E3.
  - unfold map_layout. intros H. apply pair_equal_spec in H as [H HR]. apply pair_equal_spec in H as [H HBS]. apply pair_equal_spec in H as [HS HF].
    unfold map_str. rewrite HS, HF. unfold base_str. rewrite HBS. do 6 f_equal. clear -HR W1 W2. revert HR. generalize (m_regs m2) W2. clear W2. induction W1 as [|g l B1 W1 IH]; intros [|h l2] W2 HR; try discriminate; [reflexivity|].
    apply Forall_cons_iff in W2 as [B2 W2]. cbn [map] in HR. cbn [flat_map]. rewrite (IH l2 W2) by congruence. do 2 f_equal.
    destruct B1 as (o & c & d & F1 & F2 & _), B2 as (o' & c' & d' & F1' & F2' & _). destruct g as [go gc gd ga], h as [ho hc hd ha]. cbn [g_offset g_count g_access] in *. subst. cbn [num2] in HR.
    assert (o = o' /\ c = c' /\ ga = ha) as (-> & -> & ->); [|reflexivity].
    assert (HE : (2 * o, 2 * c, ga) = (2 * o', 2 * c', ha)) by congruence. apply pair_equal_spec in HE as [HE ->]. apply pair_equal_spec in HE as [E1 E2]. repeat split; lia.
Qed.
Print Assumptions C120_text_tells_layout.

(** a program on the map of C_Stack that scans, reads, and asks for registers behind the end of the map *)
Definition ex_run (next : list obs -> option op) :=
  program (printing_client (Some 1)) C_Scale.env_ex 10 10 C_Device.ex_types 20 next (C_Stack.ex_map, []) new_cdevice [].
Definition ex_quiet (h : list obs) : option op := C_Session.ex_next 40000 h.
Definition ex_loud (h : list obs) : option op := match h with [] => Some (OpRawRead 40019 1) | _ :: h' => C_Session.ex_next 40000 h' end.
Example C120_ex_hyps : whole_map C_Stack.ex_map /\ base_int (m_base C_Stack.ex_map) = Ok 40000 /\ bytes_only ex_quiet /\ bytes_only ex_loud.
Proof.
  split; [exact C104_ex_whole|]. split; [reflexivity|]. split; [exact C104_ex_bytes|]. intros [|o h] a d H; [discriminate|]. exact (C104_ex_bytes h a d H).
Qed.
Example C120_ex_quiet : snd (fst (fst (ex_run ex_quiet))) = [].
Proof. vm_compute. reflexivity. Qed.
Example C120_ex_loud : snd (fst (fst (ex_run ex_loud))) = [map_str (Some 1) C_Stack.ex_map] /\ snd (ex_run ex_loud) <> [].
Proof. split; [vm_compute; reflexivity|vm_compute; discriminate]. Qed.
Definition nl : string := String (Ascii.ascii_of_nat 10) EmptyString.
Example C120_ex_text : map_str (Some 1) C_Stack.ex_map = lit (
  "modbus_map: slave id = 1 func = 3 base_addr = 40000" ++ nl ++ "  offset = 0 count = 19 access = r")%string.
Proof. vm_compute. reflexivity. Qed.
Example C120_ex_lines : lines_ok C_Stack.ex_map.
Proof. split; [|repeat constructor]; unfold one_line; vm_compute; intros HI; repeat destruct HI as [HI|HI]; discriminate || contradiction. Qed.
(** the search for the base address ends at the first address that is not in the map (40000 is tried first): the exception is not
    caught, and the map is printed once *)
Definition ex_at (b : Z) : mbmap := mkMap 3 (BInt b) None None None None (m_regs C_Stack.ex_map).
Definition ex_scan_out (b : Z) : list str :=
  snd (fst (fst (program (printing_client None) C_Scale.env_ex 10 10 C_Device.ex_types 1 (C_Session.ex_next b) (ex_at b, []) new_cdevice []))).
Example C120_ex_search : ex_scan_out 40000 = [] /\ ex_scan_out 0 = [map_str None (ex_at 0)] /\ ex_scan_out 50000 = [map_str None (ex_at 50000)].
Proof. vm_compute. repeat split. Qed.
