(** * C_Resume: property C104: a simulated device can be saved and resumed at any time.

    [program] (M_Session) is any program that uses a ClientDevice, here one of type MAPPED: each next operation may depend on
    all earlier results, exceptions included.  Saving is ModbusMap.to_xml, resuming is loading the document into a new ModbusMap. *)
From Coq Require Import String.
From Verif Require C_Scan C_Device C_Scale C_Stack C_Session.
From Verif Require Import Py P_List M_Util M_Float M_Suns M_Point M_Mbmap S_Mbmap P_Mbmap M_Device M_Client M_Scan M_Wrapper M_Session C_Mbmap P_Resume.

(** a map whose register blocks are whole: at least one register, two bytes of data each (other blocks: C19_no_len_refuted) *)
Definition whole_map (m : mbmap) : Prop :=
  whole (m_regs m) /\ Forall (fun g => 0 < num2 (g_count g)) (m_regs m) /\ (m_func m = 3 \/ m_func m = 4).
(** the data of ClientDevice.write is a bytes object *)
Definition bytes_only (next : list obs -> option op) : Prop := forall h a d, next h = Some (OpRawWrite a d) -> Forall is_byte d.
Lemma bytes_only_ops next : bytes_only next -> forall h o, next h = Some o -> op_bytes o.
Proof. intros H h [ | | | | | | | |a d] E; cbn; auto. exact (H _ _ _ E). Qed.

(** ** the two maps differ in the access rights and the form of the address only *)
Definition alike (m m' : mbmap) : Prop :=
  m_func m' = m_func m /\ base_int (m_base m') = base_int (m_base m) /\ map strip_access (m_regs m') = map strip_access (m_regs m).
Lemma write_regs_strip l : forall o n k data,
  write_regs (map strip_access l) o n k data = (map strip_access (fst (write_regs l o n k data)), snd (write_regs l o n k data)).
Proof.
  induction l as [|g l IH]; intros o n k data; [reflexivity|]. cbn [map write_regs].
  change (regs_end (strip_access g)) with (regs_end g). change (g_offset (strip_access g)) with (g_offset g).
  destruct (num_ltb (NI 0) n); [|reflexivity]. cbv zeta. destruct (_ && _).
  - destruct (num_index k) as [start|e]; [|reflexivity].
    match goal with |- context [py_slice start ?st data] => generalize st; intros stop end.
    replace (regs_write (strip_access g) o (py_slice start stop data)) with
      (match regs_write g o (py_slice start stop data) with Ok g' => Ok (strip_access g') | Raise e => Raise e end).
    2:{ unfold regs_write. change (regs_end (strip_access g)) with (regs_end g). change (g_offset (strip_access g)) with (g_offset g).
        destruct (_ && _); [|reflexivity]. change (g_data (strip_access g)) with (g_data g). destruct (g_data g) as [d|]; [|reflexivity].
        destruct (num_index _) as [a|e]; reflexivity. }
    destruct (regs_write g o (py_slice start stop data)) as [g'|e]; [|reflexivity].
    rewrite IH. now destruct (write_regs l _ _ _ data) as [l2 r].
  - rewrite IH. now destruct (write_regs l o n k data) as [l2 r].
Qed.
Lemma alike_read m m' a n op : alike m m' -> map_read m' a n op = map_read m a n op.
Proof.
  intros (H1 & H2 & H3). unfold map_read. rewrite H1, H2. destruct (_ && _); [reflexivity|]. destruct (base_int (m_base m)) as [b|e]; [|reflexivity]. cbn [bind].
  now rewrite <- (read_regs_strip (m_regs m')), H3, read_regs_strip.
Qed.
Lemma alike_write m m' a d : alike m m' -> alike (fst (map_write m a d)) (fst (map_write m' a d)) /\ snd (map_write m' a d) = snd (map_write m a d).
Proof.
  intros (H1 & H2 & H3). unfold map_write. rewrite H2. destruct (negb _); [repeat split; assumption|]. destruct (base_int (m_base m)) as [b|e] eqn:EB; [|split; [split; [exact H1|split; [cbn [fst]; congruence|exact H3]]|reflexivity]].
  pose proof (write_regs_strip (m_regs m) (NI (a - b)) (NF (zlen d)) (NI 0) d) as W. pose proof (write_regs_strip (m_regs m') (NI (a - b)) (NF (zlen d)) (NI 0) d) as W'.
  rewrite H3, W in W'. apply pair_equal_spec in W' as [W1 W2].
  destruct (write_regs (m_regs m) _ _ _ d) as [l r], (write_regs (m_regs m') _ _ _ d) as [l' r']. cbn [fst snd] in *. subst r'. split; [|reflexivity].
  split; [exact H1|]. split; [cbn [with_regs m_base]; congruence|]. cbn [with_regs m_regs]. congruence.
Qed.
Lemma whole_map_write m a d : Forall is_byte d -> whole_map m -> whole_map (fst (map_write m a d)).
Proof.
  intros HB (HW & HP & HF). unfold map_write. destruct (Z.eqb_spec (zlen d mod 2) 0) as [HE|]; [|exact (conj HW (conj HP HF))]. cbn [negb].
  destruct (base_int (m_base m)) as [b|e]; [|exact (conj HW (conj HP HF))]. pose proof (zlen_nonneg d) as HN.
  assert (H2 : zlen d = 2 * (zlen d / 2)) by (rewrite (Z.div_mod (zlen d) 2) at 1 by lia; lia). rewrite H2.
  destruct (write_regs_spec (m_regs m) (a - b) (zlen d / 2) d HW HB ltac:(apply Z.div_pos; lia) H2) as (l' & r & EW & _ & HW' & HS & _). rewrite EW. cbn [fst].
  split; [exact HW'|]. split; [|exact HF]. cbn [with_regs m_regs]. clear -HS HP. induction HS as [|g g' l l' (_ & E & _) _ IH]; [constructor|].
  inversion HP; subst. constructor; [now rewrite <- E|auto].
Qed.

Section Prog.
  Context (E : pyenv) (lfuel fuel : nat) (types : Z -> res modeltype).
  Lemma program_alike next n m m' cd hist : bytes_only next -> alike m m' ->
    exists m2', program map_client E lfuel fuel types n next m' cd hist =
      (m2', snd (fst (program map_client E lfuel fuel types n next m cd hist)), snd (program map_client E lfuel fuel types n next m cd hist)) /\
      alike (fst (fst (program map_client E lfuel fuel types n next m cd hist))) m2'.
  Proof.
    intros HO HA.
    assert (HRD : forall s1 s2 a n, alike s1 s2 -> exists s2', dv_read (scl_dev map_client) s2 a n = (s2', snd (dv_read (scl_dev map_client) s1 a n)) /\ alike (fst (dv_read (scl_dev map_client) s1 a n)) s2').
    { intros s1 s2 a k R. exists s2. cbn [map_client scl_dev dv_read fst snd]. now rewrite (alike_read s1 s2). }
    assert (HWR : forall s1 s2 a d, Forall is_byte d -> alike s1 s2 -> exists s2', dv_write (scl_dev map_client) s2 a d = (s2', snd (dv_write (scl_dev map_client) s1 a d)) /\ alike (fst (dv_write (scl_dev map_client) s1 a d)) s2').
    { intros s1 s2 a d _ R. cbn [map_client scl_dev dv_write]. destruct (alike_write s1 s2 a d R) as [R1 R2]. exists (fst (map_write s2 a d)).
      split; [rewrite <- R2; apply surjective_pairing|exact R1]. }
    destruct (program_agrees map_client map_client alike HRD HWR eq_refl eq_refl E lfuel fuel types next (bytes_only_ops next HO) n m cd hist Logic.I) as [_ G].
    exact (G m' HA).
  Qed.
  Lemma program_whole next n m cd hist : bytes_only next -> whole_map m -> whole_map (fst (fst (program map_client E lfuel fuel types n next m cd hist))).
  Proof.
    intros HO HA. set (R := fun m m' : mbmap => m' = m /\ whole_map m).
    assert (HRD : forall s1 s2 a n, R s1 s2 -> exists s2', dv_read (scl_dev map_client) s2 a n = (s2', snd (dv_read (scl_dev map_client) s1 a n)) /\ R (fst (dv_read (scl_dev map_client) s1 a n)) s2').
    { intros s1 s2 a k [-> H]. exists s1. split; [reflexivity|split; [reflexivity|exact H]]. }
    assert (HWR : forall s1 s2 a d, Forall is_byte d -> R s1 s2 -> exists s2', dv_write (scl_dev map_client) s2 a d = (s2', snd (dv_write (scl_dev map_client) s1 a d)) /\ R (fst (dv_write (scl_dev map_client) s1 a d)) s2').
    { intros s1 s2 a d HB [-> H]. exists (fst (map_write s1 a d)). cbn [map_client scl_dev dv_write]. split; [apply surjective_pairing|].
      split; [reflexivity|now apply whole_map_write]. }
    destruct (program_agrees map_client map_client R HRD HWR eq_refl eq_refl E lfuel fuel types next (bytes_only_ops next HO) n m cd hist Logic.I) as [_ G].
    destruct (G m (conj eq_refl HA)) as (m2 & _ & _ & H). exact H.
  Qed.
End Prog.

(** ** after any program, a map can be saved and loaded again, and then any other program, with the old device object or a new
    one, gets the same results (values and exceptions) on the loaded map as on the original, builds the same objects, and leaves
    the same registers *)
Theorem C104_resume :
  forall E lfuel fuel types next n m cd, whole_map m -> bytes_only next ->
  forall m1 cd1 results1, program map_client E lfuel fuel types n next m cd [] = (m1, cd1, results1) ->
  forall func base m0, new_map func base = Ok m0 ->
  exists doc m2, map_to_xml m1 = Ok doc /\ map_from_xml E m0 doc = (m2, Ok tt) /\
    forall next' n' cd', bytes_only next' ->
    forall ma cda results, program map_client E lfuel fuel types n' next' m1 cd' [] = (ma, cda, results) ->
    exists mb, program map_client E lfuel fuel types n' next' m2 cd' [] = (mb, cda, results) /\
      forall addr count fc, map_read mb addr count fc = map_read ma addr count fc.
Proof.
  intros E lfuel fuel types next n m cd HW HO m1 cd1 r1 EP func base m0 E0.
  pose proof (program_whole E lfuel fuel types next n m cd [] HO HW) as HW1. rewrite EP in HW1. cbn [fst] in HW1. destruct HW1 as (W1 & W2 & W3).
  destruct (C19_roundtrip_partial E func base m0 m1 E0 W1 W2 W3) as (x & m2 & X1 & X2 & X3 & X4 & _ & _ & _ & _ & X9 & _).
  exists x, m2. split; [exact X1|]. split; [exact X2|]. intros next' n' cd' HO' ma cda r2 EP2.
  assert (HA : alike m1 m2).
  { split; [exact X3|]. split; [exact X4|]. rewrite X9, map_map. apply map_ext. reflexivity. }
  destruct (program_alike E lfuel fuel types next' n' m1 m2 cd' [] HO' HA) as (mb & EB & AB). rewrite EP2 in EB, AB. cbn [fst snd] in EB, AB.
  exists mb. split; [exact EB|]. intros. now apply alike_read.
Qed.
Print Assumptions C104_resume.
(** the loaded map is a whole map again: it can be saved and resumed any number of times *)
Theorem C104_again :
  forall E func base m0 m doc m2, new_map func base = Ok m0 -> whole_map m -> map_to_xml m = Ok doc -> map_from_xml E m0 doc = (m2, Ok tt) ->
  whole_map m2 /\ map_to_xml m2 = Ok doc.
Proof.
  intros E func base m0 m doc m2 E0 (W1 & W2 & W3) X1 X2.
  destruct (C19_roundtrip_partial E func base m0 m E0 W1 W2 W3) as (x & m2' & Y1 & Y2 & Y3 & _ & Y5 & Y6 & Y7 & Y8 & Y9 & _).
  rewrite X1 in Y1. apply Ok_inj in Y1. subst x. rewrite X2 in Y2. apply pair_equal_spec in Y2 as [<- _]. split.
  - split; [|split; [|now rewrite Y3]].
    + rewrite Y9. destruct W1 as [[A1 A2] W]. split; [split|].
      * clear -A1. induction A1 as [|g l H _ IH]; cbn [map]; constructor; [|exact IH]. clear -H. induction H; cbn [map]; constructor; auto.
      * clear -A2. induction A2; cbn [map]; constructor; auto.
      * clear -W. induction W as [|g l (o & c & d & H) _ IH]; cbn [map]; constructor; [|exact IH]. exists o, c, d. exact H.
    + rewrite Y9. clear -W2. induction W2; cbn [map]; constructor; auto.
  - assert (HB : m_base m2 = BStr match m_base m with BInt z => str_of_int z | BStr s => s end).
    { unfold map_to_xml in X1. apply bind_ok in X1 as (cs & _ & X1). apply Ok_inj in X1. subst doc. unfold map_from_xml in X2. destruct (func_value _); [|discriminate].
      destruct (load_regs _ _ _ _) as [l r]. apply pair_equal_spec in X2 as [<- _]. reflexivity. }
    unfold map_to_xml in *. rewrite HB, Y3, Y5, Y6, Y7, Y8, Y9.
    replace (map_res regs_to_xml (map _ (m_regs m))) with (map_res regs_to_xml (m_regs m)); [exact X1|].
    clear. induction (m_regs m) as [|g l IH]; [reflexivity|]. cbn [map map_res]. rewrite <- IH. reflexivity.
Qed.
Print Assumptions C104_again.

(** ** an example: the program of C97_ex_mapped on the map C_Stack.ex_map, saved after its seventh operation and resumed *)
Example C104_ex_whole : whole_map C_Stack.ex_map.
Proof.
  split; [|split; [repeat constructor|now left]]. split; [split; [repeat constructor|repeat constructor; vm_compute; discriminate]|].
  constructor; [|constructor]. exists 0, (zlen C_Scan.scan_image / 2), C_Scan.scan_image. split; [reflexivity|]. split; [reflexivity|]. split; [reflexivity|].
  split; [vm_compute; discriminate|]. split; [vm_compute; reflexivity|]. apply Forall_forall. intros x Hx.
  assert (HB : forallb (fun x => (0 <=? x) && (x <? 256)) C_Scan.scan_image = true) by (vm_compute; reflexivity).
  rewrite forallb_forall in HB. specialize (HB x Hx). unfold is_byte. lia.
Qed.
Example C104_ex_bytes : bytes_only (C_Session.ex_next 40000).
Proof. intros h a d H. exfalso. unfold C_Session.ex_next in H. repeat match type of H with context [match ?x with _ => _ end] => destruct x end; discriminate H. Qed.
Definition ex_stop (n : nat) (m : mbmap) (cd : cdevice) (next : list obs -> option op) := program map_client C_Scale.env_ex 10 10 C_Device.ex_types n next m cd [].
Example C104_ex : let '(m1, cd1, r1) := ex_stop 7 C_Stack.ex_map new_cdevice (C_Session.ex_next 40000) in
  match map_to_xml m1 with
  | Ok doc => let '(m2, r) := map_from_xml C_Scale.env_ex empty_map doc in
      r = Ok tt /\ match map_read m2 40000 19 3 with Ok d => eqb_list d C_Scan.scan_image = false | Raise _ => False end /\ snd (ex_stop 20 m2 cd1 (fun h => C_Session.ex_next 40000 (r1 ++ h))) = skipn 7 C_Session.ex_results
  | Raise _ => False
  end.
Proof. vm_compute. repeat split. Qed.
