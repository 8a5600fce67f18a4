(** * P_Resume: a program on two devices that answer alike (the proof of P_Session, with any relation between two devices). *)
From Coq Require Import ZifyBool.
From Verif Require Import Py P_List M_Util M_Float M_Suns M_Point M_Mbmap M_Device M_Client M_Scan M_Wrapper S_Client M_Session P_Client3.

Section Sim.
  Context {D1 D : Type} (ci : sclient D1) (c : sclient D) (rel : D1 -> D -> Prop).
  Hypothesis HRD : forall s1 s2 a n, rel s1 s2 -> exists s2', dv_read (scl_dev c) s2 a n = (s2', snd (dv_read (scl_dev ci) s1 a n)) /\ rel (fst (dv_read (scl_dev ci) s1 a n)) s2'.
  Hypothesis HWR : forall s1 s2 a d, Forall is_byte d -> rel s1 s2 ->
    exists s2', dv_write (scl_dev c) s2 a d = (s2', snd (dv_write (scl_dev ci) s1 a d)) /\ rel (fst (dv_write (scl_dev ci) s1 a d)) s2'.
  Hypothesis HCI : scl_connect ci = None.
  Hypothesis HC : scl_connect c = None.

  Definition fine (s : D1) : Prop := True.
  Definition agrees {X} (s1 : D1) (x1 : D1 * X) (f2 : D -> D * X) : Prop :=
    fine (fst x1) -> fine s1 /\ forall s2, rel s1 s2 -> exists s2', f2 s2 = (s2', snd x1) /\ rel (fst x1) s2'.
  Definition agrees3 {X Y} (s1 : D1) (x1 : D1 * Y * X) (f2 : D -> D * Y * X) : Prop :=
    fine (fst (fst x1)) -> fine s1 /\ forall s2, rel s1 s2 ->
      exists s2', f2 s2 = (s2', snd (fst x1), snd x1) /\ rel (fst (fst x1)) s2'.
  Let I := scl_dev ci.
  Let V := scl_dev c.

  Lemma cl_read_agrees s1 a n : agrees s1 (cl_read I s1 a n) (fun s2 => cl_read V s2 a n).
  Proof.
    intros _. split; [exact Logic.I|]. intros s2 R. destruct (HRD s1 s2 a n R) as (s2' & E & R'). unfold cl_read, V, I. rewrite E.
    destruct (dv_read (scl_dev ci) s1 a n) as [s [o|e]]; cbn [fst snd] in *; exists s2'; auto.
  Qed.
  Lemma cl_write_agrees s1 a d : Forall is_byte d -> agrees s1 (cl_write I s1 a d) (fun s2 => cl_write V s2 a d).
  Proof.
    intros HB _. split; [exact Logic.I|]. intros s2 R. destruct (HWR s1 s2 a d HB R) as (s2' & E & R'). unfold cl_write, V, I. rewrite E.
    destruct (dv_write (scl_dev ci) s1 a d) as [s [o|e]]; cbn [fst snd] in *; exists s2'; auto.
  Qed.
  (** sequencing *)
  Lemma agrees_step {X Y} s1 (x1 : D1 * X) f2 (k1 : D1 -> X -> D1 * Y) (k2 : D -> X -> D * Y) :
    agrees s1 x1 f2 -> (forall s r, agrees s (k1 s r) (fun s2 => k2 s2 r)) ->
    agrees s1 (k1 (fst x1) (snd x1)) (fun s2 => k2 (fst (f2 s2)) (snd (f2 s2))).
  Proof.
    intros H1 H2 F. destruct (H2 (fst x1) (snd x1) F) as [F1 G]. destruct (H1 F1) as [F0 G1]. split; [exact F0|]. intros s2 R.
    destruct (G1 s2 R) as (s2' & E & R'). rewrite E. cbn [fst snd]. exact (G s2' R').
  Qed.
  Lemma agrees_ret {X} s1 (r : X) : agrees s1 (s1, r) (fun s2 => (s2, r)).
  Proof. intros F. split; [exact F|]. intros s2 R. exists s2. auto. Qed.
  Lemma agrees3_ret {X Y} s1 (y : Y) (r : X) : agrees3 s1 (s1, y, r) (fun s2 => (s2, y, r)).
  Proof. intros F. split; [exact F|]. intros s2 R. exists s2. auto. Qed.
  Lemma agrees_step3 {X Y Z'} s1 (x1 : D1 * X) f2 (k1 : D1 -> X -> D1 * Y * Z') (k2 : D -> X -> D * Y * Z') :
    agrees s1 x1 f2 -> (forall s r, agrees3 s (k1 s r) (fun s2 => k2 s2 r)) ->
    agrees3 s1 (k1 (fst x1) (snd x1)) (fun s2 => k2 (fst (f2 s2)) (snd (f2 s2))).
  Proof.
    intros H1 H2 F. destruct (H2 (fst x1) (snd x1) F) as [F1 G]. destruct (H1 F1) as [F0 G1]. split; [exact F0|]. intros s2 R.
    destruct (G1 s2 R) as (s2' & E & R'). rewrite E. cbn [fst snd]. exact (G s2' R').
  Qed.
  Lemma agrees33 {X Y X' Y'} s1 (x1 : D1 * X * Y) f2 (k1 : D1 -> X -> Y -> D1 * X' * Y') (k2 : D -> X -> Y -> D * X' * Y') :
    agrees3 s1 x1 f2 -> (forall s r r', agrees3 s (k1 s r r') (fun s2 => k2 s2 r r')) ->
    agrees3 s1 (k1 (fst (fst x1)) (snd (fst x1)) (snd x1)) (fun s2 => k2 (fst (fst (f2 s2))) (snd (fst (f2 s2))) (snd (f2 s2))).
  Proof.
    intros H1 H2 F. destruct (H2 _ _ _ F) as [F1 G]. destruct (H1 F1) as [F0 G1]. split; [exact F0|]. intros s2 R.
    destruct (G1 s2 R) as (s2' & E & R'). rewrite E. cbn [fst snd]. exact (G s2' R').
  Qed.
  Lemma agrees_ext {X} s1 (x1 x1' : D1 * X) f2 f2' : x1 = x1' -> (forall s, f2 s = f2' s) -> agrees s1 x1 f2 -> agrees s1 x1' f2'.
  Proof. intros <- E H F. destruct (H F) as [F0 G]. split; [exact F0|]. intros s2 R. destruct (G s2 R) as (s' & E1 & R'). exists s'. now rewrite <- E. Qed.
  Lemma agrees3_ext {X Y} s1 (x1 x1' : D1 * X * Y) f2 f2' : x1 = x1' -> (forall s, f2 s = f2' s) -> agrees3 s1 x1 f2 -> agrees3 s1 x1' f2'.
  Proof. intros <- E H F. destruct (H F) as [F0 G]. split; [exact F0|]. intros s2 R. destruct (G s2 R) as (s' & E1 & R'). exists s'. now rewrite <- E. Qed.

  Lemma read_chunks_agrees e : forall starts s1 data, agrees s1 (read_chunks I s1 starts e data) (fun s2 => read_chunks V s2 starts e data).
  Proof.
    induction starts as [|a rest IH]; intros s1 data; [apply agrees_ret|]. cbn [read_chunks]. cbv zeta.
    set (n := match rest with [] => e - a | a' :: _ => a' - a end).
    refine (agrees_ext _ _ _ _ _ _ _ (agrees_step s1 _ _
      (fun s r => match r with Raise x => (s, Raise x) | Ok None => (s, Raise EType) | Ok (Some d) => read_chunks I s rest e (data ++ d) end)
      (fun s r => match r with Raise x => (s, Raise x) | Ok None => (s, Raise EType) | Ok (Some d) => read_chunks V s rest e (data ++ d) end)
      (cl_read_agrees s1 a n) _)).
    - now destruct (cl_read I s1 a n) as [? [[?|]|?]].
    - intros s. now destruct (cl_read V s a n) as [? [[?|]|?]].
    - intros s [[d|]|x]; [apply IH|apply agrees_ret|apply agrees_ret].
  Qed.
  Lemma read_model_data_agrees m s1 : agrees s1 (read_model_data I s1 m) (fun s2 => read_model_data V s2 m).
  Proof.
    unfold read_model_data. destruct (md_reads m) as [|x [|y l]]; [apply read_chunks_agrees| |apply read_chunks_agrees].
    refine (agrees_ext _ _ _ _ _ _ _ (agrees_step s1 _ _
      (fun s r => match r with Raise x => (s, Raise x) | Ok None => (s, Ok []) | Ok (Some d) => (s, Ok d) end)
      (fun s r => match r with Raise x => (s, Raise x) | Ok None => (s, Ok []) | Ok (Some d) => (s, Ok d) end)
      (cl_read_agrees s1 (md_addr m) (md_len m)) _)).
    - now destruct (cl_read I s1 _ _) as [? [[?|]|?]].
    - intros s. now destruct (cl_read V s _ _) as [? [[?|]|?]].
    - intros s [[d|]|z]; apply agrees_ret.
  Qed.
  Lemma read_points_agrees m s1 : agrees3 s1 (read_points I s1 m) (fun s2 => read_points V s2 m).
  Proof.
    unfold read_points. destruct (md_type m); [|apply agrees3_ret].
    set (K := fun r : res bytes => match r with
       | Raise e => (m, Raise (wrap_both e)) | Ok [] => (m, Ok tt)
       | Ok data => if negb (zlen data =? 2 * md_len m) then (m, Raise ESunSpecClient)
         else let '(bs, r) := read_blocks None (md_addr m) data (md_blocks m) in (with_blocks m bs, match r with Ok _ => Ok tt | Raise e => Raise (wrap_both e) end) end).
    refine (agrees3_ext _ _ _ _ _ _ _ (agrees_step3 s1 _ _ (fun s r => (s, fst (K r), snd (K r))) (fun s r => (s, fst (K r), snd (K r)))
      (read_model_data_agrees m s1) _)).
    - destruct (read_model_data I s1 m) as [s [[|b d]|e]]; try reflexivity. cbn [fst snd]. unfold K.
      destruct (negb _); [reflexivity|]. now destruct (read_blocks _ _ _ _).
    - intros s0. destruct (read_model_data V s0 m) as [s [[|b d]|e]]; try reflexivity. cbn [fst snd]. unfold K.
      destruct (negb _); [reflexivity|]. now destruct (read_blocks _ _ _ _).
    - intros s r. apply agrees3_ret.
  Qed.
  Lemma device_read_points_agrees : forall l s1, agrees3 s1 (device_read_points I s1 l) (fun s2 => device_read_points V s2 l).
  Proof.
    induction l as [|m l IH]; intros s1; [apply agrees3_ret|]. cbn [device_read_points].
    refine (agrees3_ext _ _ _ _ _ _ _ (agrees33 s1 _ _
      (fun s m' r => match r with Raise e => (s, m' :: l, Raise e) | Ok _ => (fst (fst (device_read_points I s l)), m' :: snd (fst (device_read_points I s l)), snd (device_read_points I s l)) end)
      (fun s m' r => match r with Raise e => (s, m' :: l, Raise e) | Ok _ => (fst (fst (device_read_points V s l)), m' :: snd (fst (device_read_points V s l)), snd (device_read_points V s l)) end)
      (read_points_agrees m s1) _)).
    - destruct (read_points I s1 m) as [[s m'] [u|e]]; [|reflexivity]. cbn [fst snd]. now destruct (device_read_points I s l) as [[? ?] ?].
    - intros s0. destruct (read_points V s0 m) as [[s m'] [u|e]]; [|reflexivity]. cbn [fst snd]. now destruct (device_read_points V s l) as [[? ?] ?].
    - intros s m' [u|e]; [|apply agrees3_ret]. intros F. cbn [fst snd] in *. destruct (IH s F) as [F0 G]. split; [exact F0|]. intros s2 R.
      destruct (G s2 R) as (s' & E & R'). exists s'. rewrite E. auto.
  Qed.
  Lemma agrees33P {X Y X' Y'} (P : Y -> Prop) s1 (x1 : D1 * X * Y) f2 (k1 : D1 -> X -> Y -> D1 * X' * Y') (k2 : D -> X -> Y -> D * X' * Y') :
    agrees3 s1 x1 f2 -> P (snd x1) -> (forall s r r', P r' -> agrees3 s (k1 s r r') (fun s2 => k2 s2 r r')) ->
    agrees3 s1 (k1 (fst (fst x1)) (snd (fst x1)) (snd x1)) (fun s2 => k2 (fst (fst (f2 s2))) (snd (fst (f2 s2))) (snd (f2 s2))).
  Proof.
    intros H1 HP H2 F. destruct (H2 _ _ _ HP F) as [F1 G]. destruct (H1 F1) as [F0 G1]. split; [exact F0|]. intros s2 R.
    destruct (G1 s2 R) as (s2' & E & R'). rewrite E. cbn [fst snd]. exact (G s2' R').
  Qed.
  Lemma write_pts_bytes : forall l s addr next data s' pts a n data', Forall is_byte data ->
    write_pts I s addr next data l = (s', pts, Ok (a, n, data')) -> Forall is_byte data'.
  Proof.
    induction l as [|p l IH]; intros s addr next data s' pts a n data' HB E; cbn [write_pts] in E.
    - apply pair_equal_spec in E as [_ HX]. apply Ok_inj in HX.
      apply pair_equal_spec in HX as [_ <-]. exact HB.
    - cbv zeta in E. destruct (p_dirty p).
      2:{ destruct (write_pts I s addr next data l) as [[s1 r1] e1] eqn:E1. apply pair_equal_spec in E as [_ ->]. eauto. }
      destruct (to_data _ _ _) as [d|x] eqn:ED; [|apply pair_equal_spec in E as [_ E]; discriminate E]. apply to_data_bytes in ED.
      assert (HK : forall s a0 data1, Forall is_byte data1 ->
        (let '(s2, r', e) := write_pts I s (Some a0) (p_addr p + pt_len (p_type p)) (data1 ++ d) l in (s2, set_dirty p false :: r', e)) = (s', pts, Ok (a, n, data')) -> Forall is_byte data').
      { intros s0 a0 data1 H1 H2. destruct (write_pts I s0 _ _ _ l) as [[s1 r1] e1] eqn:E1. apply pair_equal_spec in H2 as [_ ->].
        eapply IH; [|exact E1]. apply Forall_app. auto. }
      destruct addr as [a0|]; [|eapply HK; [|exact E]; constructor]. destruct (p_addr p =? next); [eapply HK; [exact HB|exact E]|].
      destruct (cl_write I s a0 data) as [s2 [u|e]]; [|apply pair_equal_spec in E as [_ E]; discriminate E]. eapply HK; [constructor|exact E].
  Qed.
  Lemma write_pts_agrees : forall l s1 addr next data, Forall is_byte data -> agrees3 s1 (write_pts I s1 addr next data l) (fun s2 => write_pts V s2 addr next data l).
  Proof.
    induction l as [|p l IH]; intros s1 addr next data HB; [apply agrees3_ret|]. cbn [write_pts]. cbv zeta.
    destruct (p_dirty p).
    2:{ intros F. specialize (IH s1 addr next data HB). unfold agrees3 in IH. destruct (write_pts I s1 addr next data l) as [[s r] e] eqn:E. cbn [fst snd] in *.
        destruct (IH F) as [F0 G]. split; [exact F0|]. intros s2 R. destruct (G s2 R) as (s' & E2 & R'). exists s'. rewrite E2. auto. }
    destruct (to_data _ _ _) as [d|x] eqn:ED; [|apply agrees3_ret]. apply to_data_bytes in ED.
    assert (HK : forall s a data1, Forall is_byte data1 -> agrees3 s
      (let '(s2, r', e) := write_pts I s (Some a) (p_addr p + pt_len (p_type p)) (data1 ++ d) l in (s2, set_dirty p false :: r', e))
      (fun s0 => let '(s2, r', e) := write_pts V s0 (Some a) (p_addr p + pt_len (p_type p)) (data1 ++ d) l in (s2, set_dirty p false :: r', e))).
    { intros s a data1 H1 F. specialize (IH s (Some a) (p_addr p + pt_len (p_type p)) (data1 ++ d) ltac:(apply Forall_app; auto)). unfold agrees3 in IH.
      destruct (write_pts I s _ _ _ l) as [[s' r] e] eqn:E. cbn [fst snd] in *.
      destruct (IH F) as [F0 G]. split; [exact F0|]. intros s2 R. destruct (G s2 R) as (s3 & E2 & R'). exists s3. rewrite E2. auto. }
    destruct addr as [a|]; [|apply HK; constructor]. destruct (p_addr p =? next); [apply HK, HB|].
    refine (agrees3_ext _ _ _ _ _ _ _ (agrees_step3 s1 _ _
      (fun s r => match r with Raise e => (s, p :: l, Raise e) | Ok _ =>
        let '(s2, r', e) := write_pts I s (Some (p_addr p)) (p_addr p + pt_len (p_type p)) ([] ++ d) l in (s2, set_dirty p false :: r', e) end)
      (fun s r => match r with Raise e => (s, p :: l, Raise e) | Ok _ =>
        let '(s2, r', e) := write_pts V s (Some (p_addr p)) (p_addr p + pt_len (p_type p)) ([] ++ d) l in (s2, set_dirty p false :: r', e) end)
      (cl_write_agrees s1 a data HB) _)).
    - now destruct (cl_write I s1 a data) as [? [?|?]].
    - intros s. now destruct (cl_write V s a data) as [? [?|?]].
    - intros s [u|e]; [apply HK; constructor|apply agrees3_ret].
  Qed.
  Lemma write_blocks_agrees : forall l s1, agrees3 s1 (write_blocks I s1 l) (fun s2 => write_blocks V s2 l).
  Proof.
    induction l as [|b l IH]; intros s1; [apply agrees3_ret|]. cbn [write_blocks].
    assert (HR : forall s pts, agrees3 s
      (let '(s3, r', e) := write_blocks I s l in (s3, with_points b pts :: r', e))
      (fun s0 => let '(s3, r', e) := write_blocks V s0 l in (s3, with_points b pts :: r', e))).
    { intros s pts F. specialize (IH s). unfold agrees3 in IH. destruct (write_blocks I s l) as [[s' r] e] eqn:E. cbn [fst snd] in *.
      destruct (IH F) as [F0 G]. split; [exact F0|]. intros s2 R. destruct (G s2 R) as (s3 & E2 & R'). exists s3. rewrite E2. auto. }
    assert (HW : forall s a data pts, Forall is_byte data -> agrees3 s
      (match cl_write I s a data with (s2, Raise e) => (s2, with_points b pts :: l, Raise e)
        | (s2, Ok _) => let '(s3, r', e) := write_blocks I s2 l in (s3, with_points b pts :: r', e) end)
      (fun s0 => match cl_write V s0 a data with (s2, Raise e) => (s2, with_points b pts :: l, Raise e)
        | (s2, Ok _) => let '(s3, r', e) := write_blocks V s2 l in (s3, with_points b pts :: r', e) end)).
    { intros s a data pts HB. refine (agrees3_ext _ _ _ _ _ _ _ (agrees_step3 s _ _
        (fun s r => match r with Raise e => (s, with_points b pts :: l, Raise e) | Ok _ => let '(s3, r', e) := write_blocks I s l in (s3, with_points b pts :: r', e) end)
        (fun s r => match r with Raise e => (s, with_points b pts :: l, Raise e) | Ok _ => let '(s3, r', e) := write_blocks V s l in (s3, with_points b pts :: r', e) end)
        (cl_write_agrees s a data HB) _)).
      - now destruct (cl_write I s a data) as [? [?|?]].
      - intros s0. now destruct (cl_write V s0 a data) as [? [?|?]].
      - intros s0 [u|e]; [apply HR|apply agrees3_ret]. }
    refine (agrees3_ext _ _ _ _ _ _ _ (agrees33P (fun r => match r with Ok (_, _, data) => Forall is_byte data | Raise _ => True end) s1 _ _
      (fun s pts r => match r with Raise e => (s, with_points b pts :: l, Raise e)
         | Ok (addr, _, data) => match (match addr with Some a => cl_write I s a data | None => (s, Ok tt) end) with
            | (s2, Raise e) => (s2, with_points b pts :: l, Raise e)
            | (s2, Ok _) => let '(s3, r', e) := write_blocks I s2 l in (s3, with_points b pts :: r', e) end end)
      (fun s pts r => match r with Raise e => (s, with_points b pts :: l, Raise e)
         | Ok (addr, _, data) => match (match addr with Some a => cl_write V s a data | None => (s, Ok tt) end) with
            | (s2, Raise e) => (s2, with_points b pts :: l, Raise e)
            | (s2, Ok _) => let '(s3, r', e) := write_blocks V s2 l in (s3, with_points b pts :: r', e) end end)
      (write_pts_agrees (b_points b) s1 None 0 [] (Forall_nil _)) _ _)).
    - now destruct (write_pts I s1 None 0 [] (b_points b)) as [[? ?] [[[? ?] ?]|?]].
    - intros s. now destruct (write_pts V s None 0 [] (b_points b)) as [[? ?] [[[? ?] ?]|?]].
    - destruct (write_pts I s1 None 0 [] (b_points b)) as [[s' pts'] [[[a' n'] data']|e]] eqn:EW; cbn [snd]; [|exact Logic.I].
      eapply write_pts_bytes; [|exact EW]. constructor.
    - intros s pts [[[[a|] ?] data]|e] HP; [apply HW, HP| |apply agrees3_ret]. apply HR.
  Qed.
  Lemma write_points_agrees m s1 : agrees3 s1 (write_points I s1 m) (fun s2 => write_points V s2 m).
  Proof.
    unfold write_points. intros F. pose proof (write_blocks_agrees (md_blocks m) s1) as H. unfold agrees3 in H.
    destruct (write_blocks I s1 (md_blocks m)) as [[s bs] r]. cbn [fst snd] in *. destruct (H F) as [F0 G]. split; [exact F0|].
    intros s2 R. destruct (G s2 R) as (s' & E & R'). exists s'. rewrite E. auto.
  Qed.
  Lemma point_write_agrees p s1 : agrees3 s1 (point_write I s1 p) (fun s2 => point_write V s2 p).
  Proof.
    unfold point_write. destruct (to_data _ _ _) as [d|e] eqn:ED; [|apply agrees3_ret]. apply to_data_bytes in ED.
    refine (agrees3_ext _ _ _ _ _ _ _ (agrees_step3 s1 _ _
      (fun s r => match r with Raise e => (s, p, Raise e) | Ok _ => (s, set_dirty p false, Ok tt) end)
      (fun s r => match r with Raise e => (s, p, Raise e) | Ok _ => (s, set_dirty p false, Ok tt) end) (cl_write_agrees s1 (p_addr p) d ED) _)).
    - now destruct (cl_write I s1 _ d) as [? [?|?]].
    - intros s. now destruct (cl_write V s _ d) as [? [?|?]].
    - intros s [u|e]; apply agrees3_ret.
  Qed.

  Section ScanSim.
    Variables (lfuel : nat) (types : Z -> res modeltype) (progress : option (list Z -> bool)).
    Lemma find_base_agrees : forall l s1, agrees s1 (find_base ci s1 l) (fun s2 => find_base c s2 l).
    Proof.
      induction l as [|a l IH]; intros s1; [apply agrees_ret|]. cbn [find_base].
      refine (agrees_ext _ _ _ _ _ _ _ (agrees_step s1 _ _
        (fun s r => match r with Raise e => if is_sunspec_client_error e then find_base ci s l else (s, Raise e) | Ok None => (s, Raise EType)
           | Ok (Some d) => if eqb_list (py_slice 0 4 d) SUNS then (s, Ok (Some (a, d))) else find_base ci s l end)
        (fun s r => match r with Raise e => if is_sunspec_client_error e then find_base c s l else (s, Raise e) | Ok None => (s, Raise EType)
           | Ok (Some d) => if eqb_list (py_slice 0 4 d) SUNS then (s, Ok (Some (a, d))) else find_base c s l end)
        (cl_read_agrees s1 a 3) _)).
      - unfold I. now destruct (cl_read (scl_dev ci) s1 a 3) as [? [[?|]|?]].
      - intros s. unfold V. now destruct (cl_read (scl_dev c) s a 3) as [? [[?|]|?]].
      - intros s [[d|]|e]; [destruct (eqb_list _ _); [apply agrees_ret|apply IH]|apply agrees_ret|destruct (is_sunspec_client_error e); [apply IH|apply agrees_ret]].
    Qed.
    (** what follows the second read of a round *)
    Lemma scan_loop_agrees : forall fuel s1 id addr hist ms,
      agrees3 s1 (scan_loop ci lfuel types progress fuel s1 id addr hist ms) (fun s2 => scan_loop c lfuel types progress fuel s2 id addr hist ms).
    Proof.
      induction fuel as [|fuel IH]; intros s1 id addr hist ms; [apply agrees3_ret|]. cbn [scan_loop]. cbv zeta.
      destruct (id =? END_MODEL_ID); [apply agrees3_ret|].
      set (K2 := fun (E : Type) (go : E -> Z -> Z -> list Z -> list model -> E * list model * res unit) (hist' : list Z) (models' : list model) (addr' : Z) (s2 : E) (r : res (option bytes)) =>
        match r with
        | Raise e => (s2, models', Raise e)
        | Ok o2 => match two_bytes o2 with
          | None => (s2, models', Ok tt)
          | Some d2 => match data_to_u16 d2 with Raise e => (s2, models', Raise e) | Ok id' => go s2 id' addr' hist' models' end end end).
      set (K1 := fun (E : Type) (rd : E -> Z -> Z -> E * res (option bytes)) (go : E -> Z -> Z -> list Z -> list model -> E * list model * res unit) (sx : E) (r : res (option bytes)) =>
        match r with
        | Raise e => (sx, ms, Raise e)
        | Ok o => match two_bytes o with
          | None => (sx, ms, Ok tt)
          | Some d =>
            if (match progress with Some f => negb (f (hist ++ [id])) | None => false end) then (sx, ms, Raise ESunSpecClient)
            else match data_to_u16 d with
              | Raise e => (sx, ms, Raise e)
              | Ok len =>
                match model_load lfuel types (new_model id (addr + 2) len) with
                | (_, Raise EFuel) => (sx, ms, Raise EFuel)
                | (m, r) => let q := rd sx (addr + (len + 2)) 1 in
                   K2 E go (hist ++ [id]) (ms ++ [match r with Ok _ => m | Raise e => with_error m e end]) (addr + (len + 2)) (fst q) (snd q)
                end end end end).
      refine (agrees3_ext _ _ _ _ _ _ _ (agrees_step3 s1 _ _
        (fun s r => K1 D1 (cl_read I) (scan_loop ci lfuel types progress fuel) s r)
        (fun s r => K1 D (cl_read V) (scan_loop c lfuel types progress fuel) s r)
        (cl_read_agrees s1 (addr + 1) 1) _)).
      - unfold I. destruct (cl_read (scl_dev ci) s1 (addr + 1) 1) as [s [o|e]]; [|reflexivity]. cbn [fst snd K1].
        destruct (two_bytes o); [|reflexivity]. destruct (match progress with Some _ => _ | None => _ end); [reflexivity|]. destruct (data_to_u16 b) as [len|e]; [|reflexivity].
        destruct (model_load lfuel types _) as [m r]. unfold K1, K2.
        destruct r as [u|e]; [|destruct e; try reflexivity]; destruct (cl_read (scl_dev ci) s (addr + (len + 2)) 1) as [? [?|?]]; reflexivity.
      - intros s0. unfold V. destruct (cl_read (scl_dev c) s0 (addr + 1) 1) as [s [o|e]]; [|reflexivity]. cbn [fst snd K1].
        destruct (two_bytes o); [|reflexivity]. destruct (match progress with Some _ => _ | None => _ end); [reflexivity|]. destruct (data_to_u16 b) as [len|e]; [|reflexivity].
        destruct (model_load lfuel types _) as [m r]. unfold K1, K2.
        destruct r as [u|e]; [|destruct e; try reflexivity]; destruct (cl_read (scl_dev c) s (addr + (len + 2)) 1) as [? [?|?]]; reflexivity.
      - intros s [o|e]; [|apply agrees3_ret]. unfold K1. destruct (two_bytes o) as [d|]; [|apply agrees3_ret].
        destruct (match progress with Some _ => _ | None => _ end); [apply agrees3_ret|]. destruct (data_to_u16 d) as [len|e]; [|apply agrees3_ret].
        assert (HK : forall m', agrees3 s (K2 D1 (scan_loop ci lfuel types progress fuel) (hist ++ [id]) (ms ++ [m']) (addr + (len + 2)) (fst (cl_read I s (addr + (len + 2)) 1)) (snd (cl_read I s (addr + (len + 2)) 1)))
           (fun s2 => K2 D (scan_loop c lfuel types progress fuel) (hist ++ [id]) (ms ++ [m']) (addr + (len + 2)) (fst (cl_read V s2 (addr + (len + 2)) 1)) (snd (cl_read V s2 (addr + (len + 2)) 1)))).
        { intros m'. apply (agrees_step3 s _ _ (K2 D1 (scan_loop ci lfuel types progress fuel) (hist ++ [id]) (ms ++ [m']) (addr + (len + 2)))
            (K2 D (scan_loop c lfuel types progress fuel) (hist ++ [id]) (ms ++ [m']) (addr + (len + 2))) (cl_read_agrees s _ 1)).
          intros s' [o2|e]; [|apply agrees3_ret]. unfold K2. destruct (two_bytes o2) as [d2|]; [|apply agrees3_ret].
          destruct (data_to_u16 d2) as [id'|e]; [apply IH|apply agrees3_ret]. }
        destruct (model_load lfuel types _) as [m [u|e]]; [apply HK|]. destruct e; first [apply HK|apply agrees3_ret].
    Qed.
    Lemma scan_body_agrees fuel cd s1 : agrees3 s1 (scan_body ci lfuel types progress fuel s1 cd) (fun s2 => scan_body c lfuel types progress fuel s2 cd).
    Proof.
      unfold scan_body. destruct (cd_base cd); [apply agrees3_ret|].
      refine (agrees3_ext _ _ _ _ _ _ _ (agrees_step3 s1 _ _
        (fun s r => match r with Raise e => (s, cd, Raise e) | Ok None => (s, cd, Raise ESunSpecClient)
           | Ok (Some (a, d)) => match data_to_u16 (py_slice 4 6 d) with Raise e => (s, mkCD (Some a) (cd_models cd), Raise e)
              | Ok id => let '(s2, models, r) := scan_loop ci lfuel types progress fuel s id (a + 2) [] (cd_models cd) in (s2, mkCD (Some a) models, r) end end)
        (fun s r => match r with Raise e => (s, cd, Raise e) | Ok None => (s, cd, Raise ESunSpecClient)
           | Ok (Some (a, d)) => match data_to_u16 (py_slice 4 6 d) with Raise e => (s, mkCD (Some a) (cd_models cd), Raise e)
              | Ok id => let '(s2, models, r) := scan_loop c lfuel types progress fuel s id (a + 2) [] (cd_models cd) in (s2, mkCD (Some a) models, r) end end)
        (find_base_agrees BASE_ADDRS s1) _)).
      - now destruct (find_base ci s1 BASE_ADDRS) as [? [[[? ?]|]|?]].
      - intros s. now destruct (find_base c s BASE_ADDRS) as [? [[[? ?]|]|?]].
      - intros s [[[a d]|]|e]; [|apply agrees3_ret|apply agrees3_ret]. destruct (data_to_u16 _) as [id|e]; [|apply agrees3_ret].
        intros F. pose proof (scan_loop_agrees fuel s id (a + 2) [] (cd_models cd)) as H. unfold agrees3 in H.
        destruct (scan_loop ci lfuel types progress fuel s id (a + 2) [] (cd_models cd)) as [[s' l] r]. cbn [fst snd] in *.
        destruct (H F) as [F0 G]. split; [exact F0|]. intros s2 R. destruct (G s2 R) as (s3 & E & R'). exists s3. rewrite E. auto.
    Qed.
    Lemma scan_agrees fuel cd s1 : agrees3 s1 (scan ci lfuel types progress fuel s1 cd) (fun s2 => scan c lfuel types progress fuel s2 cd).
    Proof. unfold scan. rewrite HCI, HC. apply scan_body_agrees. Qed.
  End ScanSim.

  Definition op_bytes (o : op) : Prop := match o with OpRawWrite _ d => Forall is_byte d | _ => True end.
  Lemma do_op_agrees E lfuel fuel types o s1 cd : op_bytes o ->
    agrees3 s1 (do_op ci E lfuel fuel types s1 cd o) (fun s2 => do_op c E lfuel fuel types s2 cd o).
  Proof.
    intros HO. destruct o as [progress| |k|k|k i id|k i id v|k i id|a n|a d]; cbn [do_op].
    - intros F. pose proof (scan_agrees lfuel types progress fuel cd s1) as H. unfold agrees3 in H. destruct (scan ci _ _ _ _ _ _) as [[s cd'] r]. cbn [fst snd] in *.
      destruct (H F) as [F0 G]. split; [exact F0|]. intros s2 R. destruct (G s2 R) as (s' & EE & R'). exists s'. rewrite EE. auto.
    - intros F. pose proof (device_read_points_agrees (cd_models cd) s1) as H. unfold agrees3, I in H. destruct (device_read_points _ s1 _) as [[s cd'] r]. cbn [fst snd] in *.
      destruct (H F) as [F0 G]. split; [exact F0|]. intros s2 R. destruct (G s2 R) as (s' & EE & R'). exists s'. unfold V in EE. rewrite EE. auto.
    - destruct (nth_error _ k) as [m|]; [|apply agrees3_ret].
      intros F. pose proof (read_points_agrees m s1) as H. unfold agrees3, I in H. destruct (read_points _ s1 _) as [[s cd'] r]. cbn [fst snd] in *.
      destruct (H F) as [F0 G]. split; [exact F0|]. intros s2 R. destruct (G s2 R) as (s' & EE & R'). exists s'. unfold V in EE. rewrite EE. auto.
    - destruct (nth_error _ k) as [m|]; [|apply agrees3_ret].
      intros F. pose proof (write_points_agrees m s1) as H. unfold agrees3, I in H. destruct (write_points _ s1 _) as [[s cd'] r]. cbn [fst snd] in *.
      destruct (H F) as [F0 G]. split; [exact F0|]. intros s2 R. destruct (G s2 R) as (s' & EE & R'). exists s'. unfold V in EE. rewrite EE. auto.
    - destruct (nth_error _ k) as [m|]; apply agrees3_ret.
    - destruct (nth_error _ k) as [m|]; [|apply agrees3_ret]. destruct (script_set _ _ _ _ _); apply agrees3_ret.
    - destruct (nth_error _ k) as [m|]; [|apply agrees3_ret]. destruct (nth_error _ i) as [b|]; [|apply agrees3_ret].
      destruct (point_place _ _) as [j|]; [|apply agrees3_ret]. destruct (nth_error _ j) as [p|]; [|apply agrees3_ret].
      intros F. pose proof (point_write_agrees p s1) as H. unfold agrees3, I in H. destruct (point_write _ s1 _) as [[s cd'] r]. cbn [fst snd] in *.
      destruct (H F) as [F0 G]. split; [exact F0|]. intros s2 R. destruct (G s2 R) as (s' & EE & R'). exists s'. unfold V in EE. rewrite EE. auto.
    - intros F. pose proof (cl_read_agrees s1 a n) as H. unfold agrees, I in H. destruct (cl_read _ s1 _ _) as [s r]. cbn [fst snd] in *.
      destruct (H F) as [F0 G]. split; [exact F0|]. intros s2 R. destruct (G s2 R) as (s' & EE & R'). exists s'. unfold V in EE. rewrite EE. auto.
    - intros F. pose proof (cl_write_agrees s1 a d HO) as H. unfold agrees, I in H. destruct (cl_write _ s1 _ _) as [s r]. cbn [fst snd] in *.
      destruct (H F) as [F0 G]. split; [exact F0|]. intros s2 R. destruct (G s2 R) as (s' & EE & R'). exists s'. unfold V in EE. rewrite EE. auto.
  Qed.
  Lemma program_agrees E lfuel fuel types next : (forall h o, next h = Some o -> op_bytes o) -> forall n s1 cd hist,
    agrees3 s1 (program ci E lfuel fuel types n next s1 cd hist) (fun s2 => program c E lfuel fuel types n next s2 cd hist).
  Proof.
    intros HO. induction n as [|n IH]; intros s1 cd hist; [apply agrees3_ret|]. cbn [program]. destruct (next hist) as [o|] eqn:EN; [|apply agrees3_ret].
    refine (agrees3_ext _ _ _ _ _ _ _ (agrees33 s1 _ _ (fun s cd' x => program ci E lfuel fuel types n next s cd' (hist ++ [x]))
      (fun s cd' x => program c E lfuel fuel types n next s cd' (hist ++ [x])) (do_op_agrees E lfuel fuel types o s1 cd (HO _ _ EN)) _)).
    - now destruct (do_op ci E lfuel fuel types s1 cd o) as [[? ?] ?].
    - intros s. now destruct (do_op c E lfuel fuel types s cd o) as [[? ?] ?].
    - intros s cd' x. apply IH.
  Qed.
End Sim.
