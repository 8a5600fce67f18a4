(** * C_Client: theorems C44-C47 (reading and writing the points of a model). *)
From Coq Require Import String Sorted.
From Verif Require Import Py P_List M_Util M_Float M_Suns M_Point S_Codec P_Codec P_Types M_Mbmap M_Device S_Device P_Device C_Device M_Client S_Client P_Client P_Client2 P_Client3 P_Client4 C_Scale.

(** A memory is a device that behaves as a memory: the hypothesis [implements] can be met. *)
Theorem mem_dev_implements : forall lo hi wmax, implements mem_dev mem_eq lo hi wmax.
Proof.
  intros lo hi wmax. split.
  - intros s mem a n HR HA HN HH. exists s. split; [|exact HR]. cbn [mem_dev dv_read]. do 3 f_equal. apply mem_bytes_ext. intros x _. apply HR.
  - intros s mem a d HR _ _ _ _ _ _. exists (mem_store s a d). split; [reflexivity|]. intros x. unfold mem_store. destruct (_ && _); [reflexivity|apply HR].
  - intros s mem mem' HR HE x. rewrite HR. apply HE.
Qed.

(** an example: model 100 with one repeating block, loaded at 40004, and a device memory *)
Definition ex_model : model := fst (model_load 10 ex_types (new_model 100 40004 9)).
Definition ex_image : bytes :=
  [1; 44;  255; 255; 255; 156;  0; 0;  255; 254;  0; 3;   0; 7;  0; 0; 0; 9].
Definition ex_mem : memory := mem_store (fun _ => 0) 40004 ex_image.
Lemma ex_loaded : loaded 40004 9 ex_model.
Proof.
  exists 10%nat, ex_types, 100, 9, ex_mt, 6. split; [reflexivity|]. split; [left; split; [discriminate|reflexivity]|].
  split; [right; split; [intros [H _]; discriminate|reflexivity]|]. split.
  - unfold good_def. split; [cbn; lia|]. split.
    + intros rt R ER EB. cbn in ER. apply Some_inj in ER. subst rt. vm_compute in EB. apply Ok_inj in EB. subst R. cbn. lia.
    + split; [repeat constructor|]. intros rt ER. cbn in ER. apply Some_inj in ER. subst rt. repeat constructor.
  - vm_compute. reflexivity.
Qed.

(** ** C44: reading. *)
Theorem C44_read_decodes :
  forall D (dv : mdev D) rel lo hi wmax, implements dv rel lo hi wmax ->
  forall s mem addr L m, rel s mem -> loaded addr L m -> lo <= addr -> addr + L <= hi -> 0 < L ->
  exists s' m', read_points dv s m = (s', m', Ok tt) /\ rel s' mem /\ model_read mem m m'.
Proof.
  intros D dv rel lo hi wmax HI s mem addr L m HR HL HLO HHI HL0. apply loaded_placed in HL.
  destruct (read_points_placed dv rel lo hi wmax HI mem addr L m s HL HR HLO HHI HL0) as (s' & bs & E & HR' & EB).
  exists s', (with_blocks m bs). split; [exact E|]. split; [exact HR'|].
  destruct (read_blocks_spec mem addr L m HL) as (bs' & EB' & fixed & F1 & F2). rewrite EB in EB'. apply pair_equal_spec in EB' as [<- _].
  exists fixed. split; [exact F1|]. split; [exact F2|reflexivity].
Qed.
Print Assumptions C44_read_decodes.
(** an answer of the wrong length is rejected and no point changes *)
Theorem C44_short_answer_rejected :
  forall D (dv : mdev D) s addr L m ds s', loaded addr L m ->
  answers dv s (chunks (md_reads m) (addr + L)) ds s' -> concat ds <> [] -> zlen (concat ds) <> 2 * L ->
  read_points dv s m = (s', m, Raise ESunSpecClient).
Proof.
  intros D dv s addr L m ds s' HL HA HN HZ. apply loaded_placed in HL. unfold read_points. pose proof (pl_type _ _ _ HL) as HT.
  destruct (md_type m); [|congruence]. rewrite (answers_model dv addr L m s ds s' HL HA). destruct (concat ds) as [|x d] eqn:E; [congruence|].
  rewrite (pl_len _ _ _ HL). destruct (Z.eqb_spec (zlen (x :: d)) (2 * L)); [congruence|]. reflexivity.
Qed.
Print Assumptions C44_short_answer_rejected.
(** whatever happens during a read (also an exception while decoding), no point object is lost or moved, and types,
    addresses, scale factor links and pending marks stay *)
Theorem C44_read_keeps_structure :
  forall D (dv : mdev D) s m s' m' r, read_points dv s m = (s', m', r) ->
  m' = with_blocks m (md_blocks m') /\
  Forall2 (fun b b' => b_addr b' = b_addr b /\ b_len b' = b_len b /\ b_type b' = b_type b /\ b_index b' = b_index b /\
     Forall2 same_point (b_points b) (b_points b') /\ Forall2 same_point (b_sfs b) (b_sfs b')) (md_blocks m) (md_blocks m').
Proof.
  assert (HPP : forall p, same_point p p) by (intros p; unfold same_point; auto).
  assert (HPL : forall l, Forall2 same_point l l) by (induction l; constructor; auto).
  assert (HMU : forall f, (forall p p', f p = Ok p' -> same_point p p') -> forall l, Forall2 same_point l (fst (map_until f l))).
  { intros f Hf. induction l as [|p l IH]; cbn [map_until]; [constructor|]. destruct (f p) as [p'|] eqn:EP; [|apply HPL].
    destruct (map_until f l) as [l' e]. cbn [fst] in *. constructor; [now apply Hf|exact IH]. }
  set (R := fun b b' => _). assert (HRR : forall b, R b b) by (intros b; unfold R; auto 8).
  assert (HRL : forall l, Forall2 R l l) by (induction l; constructor; auto).
  assert (HB : forall fixed a d b, R b (fst (read_block fixed a d b))).
  { intros fixed a d b. unfold read_block. pose proof (HMU (read_sf_point a d)) as H1. 
    assert (H1' := H1 ltac:(intros p p' H; unfold read_sf_point in H; apply bind_ok in H as (v & _ & H); apply Ok_inj in H; subst p'; unfold same_point; auto) (b_sfs b)). clear H1.
    destruct (map_until (read_sf_point a d) (b_sfs b)) as [sfs r1]. cbn [fst] in H1'. destruct r1 as [u|e]; [|unfold R; cbn; auto 8].
    pose proof (HMU (read_point sfs (match fixed with Some f => f | None => sfs end) a d)) as H2.
    assert (H2' := H2 ltac:(intros p p' H; unfold read_point in H; apply bind_ok in H as (v & _ & H); apply Ok_inj in H; subst p'; destruct (is_impl _ _); unfold same_point; auto) (b_points b)). clear H2.
    destruct (map_until (read_point sfs _ a d) (b_points b)) as [pts r2]. cbn [fst] in *. unfold R. cbn. auto 8. }
  assert (HBS : forall a d l fixed, Forall2 R l (fst (read_blocks fixed a d l))).
  { intros a d. induction l as [|b l IH]; intros fixed; cbn [read_blocks]; [constructor|]. specialize (HB fixed a d b). destruct (read_block fixed a d b) as [b' [u|e]]; cbn [fst] in *.
    - specialize (IH (Some (match fixed with Some f => f | None => b_sfs b' end))). destruct (read_blocks _ a d l) as [l' e]. cbn [fst] in *. constructor; auto.
    - constructor; auto. }
  intros D dv s m s' m' r H. assert (HSELF : m = with_blocks m (md_blocks m) /\ Forall2 R (md_blocks m) (md_blocks m)) by (split; [now destruct m|apply HRL]).
  unfold read_points in H. destruct (md_type m); [|apply pair_equal_spec in H as [H _]; apply pair_equal_spec in H as [_ <-]; exact HSELF].
  destruct (read_model_data dv s m) as [s1 [d|e]]; [|apply pair_equal_spec in H as [H _]; apply pair_equal_spec in H as [_ <-]; exact HSELF].
  destruct d as [|x d]; [apply pair_equal_spec in H as [H _]; apply pair_equal_spec in H as [_ <-]; exact HSELF|].
  destruct (negb _); [apply pair_equal_spec in H as [H _]; apply pair_equal_spec in H as [_ <-]; exact HSELF|].
  specialize (HBS (md_addr m) (x :: d) (md_blocks m) None). destruct (read_blocks None (md_addr m) (x :: d) (md_blocks m)) as [bs r0].
  apply pair_equal_spec in H as [H _]; apply pair_equal_spec in H as [_ <-]. cbn [fst md_blocks with_blocks] in *. split; [reflexivity|exact HBS].
Qed.
Print Assumptions C44_read_keeps_structure.
(** when a request fails, the exception is a SunSpecClientError (for every Modbus and SunSpec error of the device; any other
    exception passes unchanged) and no point changes *)
Theorem C44_failed_request :
  forall D (dv : mdev D) s addr L m rs a n rest ds s1 s2 e, loaded addr L m ->
  chunks (md_reads m) (addr + L) = rs ++ (a, n) :: rest -> answers dv s rs ds s1 -> dv_read dv s1 a n = (s2, Raise e) ->
  read_points dv s m = (s2, m, Raise (if is_modbus_client_error e || is_sunspec_error e then ESunSpecClient else e)).
Proof.
  intros D dv s addr L m rs a n rest ds s1 s2 e HL HC HA HX. apply loaded_placed in HL. unfold read_points. pose proof (pl_type _ _ _ HL) as HT.
  destruct (md_type m); [|congruence]. rewrite (failing_model dv addr L m s rs a n rest ds s1 s2 e HL HC HA HX). unfold wrap_both, wrap_modbus. do 2 f_equal.
  destruct e; reflexivity.
Qed.
Print Assumptions C44_failed_request.
Example C44_failed_request_ex : read_points (mkDev unit (fun s _ _ => (s, Raise EModbusTimeout)) (fun s _ _ => (s, Ok tt))) tt ex_model = (tt, ex_model, Raise ESunSpecClient).
Proof. vm_compute. reflexivity. Qed.
(** but an empty answer is taken for a successful read: the old values stay *)
Theorem C44_empty_answer_refuted :
  exists (dv : mdev unit) m, loaded 40004 9 m /\ md_len m = 9 /\ dv_read dv tt 40004 9 = (tt, Ok (Some [])) /\
  read_points dv tt m = (tt, m, Ok tt) /\ Forall (fun p => p_base p = VNone) (points_of m).
Proof.
  exists (mkDev unit (fun s _ _ => (s, Ok (Some []))) (fun s _ _ => (s, Ok tt))), ex_model. split; [exact ex_loaded|].
  split; [reflexivity|]. split; [reflexivity|]. split; [vm_compute; reflexivity|]. vm_compute. repeat constructor.
Qed.
Print Assumptions C44_empty_answer_refuted.
Definition summary (p : point) : str * value * value := (pt_id (p_type p), p_base p, p_sf p).
Example C44_ex :
  let '(_, m', r) := read_points mem_dev ex_mem ex_model in
  r = Ok tt /\ map summary (points_of m') =
    [(lit "A", VInt 300, VInt (-2)); (lit "B", VInt (-100), VInt (-2)); (lit "C", VInt 3, VNone);
     (lit "V", VInt 7, VInt (-2)); (lit "W", VInt 9, VNone)]%string.
Proof. vm_compute. auto. Qed.

(** ** C45: writing. *)
(** What is sent is, byte for byte and in order, the encodings of the modified points at their
    addresses: nothing else, whatever the model. *)
Theorem C45_writes_sent :
  forall m, Forall (fun p => p_dirty p = true -> enc_ok p) (points_of m) -> Forall (fun p => p_dirty p = true -> 0 < pt_len (p_type p)) (points_of m) ->
  exists ds log, write_points log_dev [] m = (log, clean m, Ok tt) /\
    Forall2 encoding (modified m) ds /\
    flat_map cells log = flat_map cells (combine (map p_addr (modified m)) ds).
Proof.
  intros m HE HP.
  destruct (write_blocks_log (fold_right Z.min 0 (map p_addr (points_of m))) (fold_right Z.max 0 (map (fun p => p_addr p + pt_len (p_type p)) (points_of m))) (md_blocks m)) with (lg := @nil (Z * bytes)) as (ds & lg & W1 & W2 & W3 & W4).
  { fold (points_of m). rewrite Forall_forall in *. intros p HI HD. split; [auto|]. unfold okp. split; [|split; [auto|]].
    - clear - HI. induction (points_of m) as [|q l IH]; [destruct HI|]. cbn [map fold_right]. destruct HI as [->|HI]; [lia|]. specialize (IH HI). lia.
    - clear - HI. induction (points_of m) as [|q l IH]; [destruct HI|]. cbn [map fold_right]. destruct HI as [->|HI]; [lia|]. specialize (IH HI). lia. }
  { constructor. }
  exists ds, lg. unfold write_points. rewrite W1. split; [reflexivity|]. split; [|exact W3].
  change (encodings (modified m) ds) in W2. clear - W2. induction W2; constructor; auto.
Qed.
Print Assumptions C45_writes_sent.
(** On a device memory: the registers of every modified point hold its encoding, all other bytes are
    unchanged and no point stays marked. *)
Theorem C45_write_stores :
  forall D (dv : mdev D) rel lo hi wmax, implements dv rel lo hi wmax ->
  forall s mem addr L m, rel s mem -> loaded addr L m -> lo <= addr -> addr + L <= hi -> L <= wmax ->
  (forall p, In p (modified m) -> exists d, encoding p d) ->
  exists s' mem', write_points dv s m = (s', clean m, Ok tt) /\ rel s' mem' /\
    (forall p, In p (modified m) -> exists d, encoding p d /\ regs_of mem' p = d) /\
    (forall x, (forall p, In p (modified m) -> ~ covers p x) -> mem' x = mem x).
Proof.
  intros D dv rel lo hi wmax HI s mem addr L m HR HL HLO HHI HW HE. apply loaded_placed in HL.
  apply (write_points_spec dv rel lo hi wmax HI mem addr L m s HL HR HLO HHI HW). rewrite Forall_forall. exact HE.
Qed.
Print Assumptions C45_write_stores.
(** unmodified points are not written: with nothing modified nothing is sent *)
Theorem C45_nothing_modified : forall D (dv : mdev D) s m, modified m = [] -> write_points dv s m = (s, clean m, Ok tt).
Proof.
  intros D dv s m H. destruct (C45_writes_sent m) as (ds & log & W1 & W2 & W3).
  - rewrite Forall_forall. intros p HP HD. assert (In p (modified m)) by (apply filter_In; auto). rewrite H in *. contradiction.
  - rewrite Forall_forall. intros p HP HD. assert (In p (modified m)) by (apply filter_In; auto). rewrite H in *. contradiction.
  - rewrite H in *. inversion W2; subst. cbn in W3. unfold write_points in *. destruct (write_blocks log_dev [] (md_blocks m)) as [[lg bs] r] eqn:EB.
    apply pair_equal_spec in W1 as [W1 ->]. apply pair_equal_spec in W1 as [-> W1].
    assert (HL : forall D (dv : mdev D) s, write_blocks dv s (md_blocks m) = (s, map clean_block (md_blocks m), Ok tt)).
    { clear - H. unfold modified, points_of in H. revert H. generalize (md_blocks m). intros bs H D dv s. induction bs as [|b bs IH]; [reflexivity|].
      cbn [flat_map] in H. rewrite filter_app in H. apply app_eq_nil in H as [H1 H2]. cbn [write_blocks map].
      assert (HP : forall l a n d, filter p_dirty l = [] -> write_pts dv s a n d l = (s, map (fun p => set_dirty p false) l, Ok (a, n, d))).
      { clear. induction l as [|p l IH]; intros a n d HF; [reflexivity|]. cbn [filter write_pts map] in *. destruct (p_dirty p) eqn:E; [discriminate|].
        rewrite IH by exact HF. now rewrite set_dirty_false_id. }
      rewrite HP by exact H1. rewrite IH by exact H2. reflexivity. }
    rewrite HL. reflexivity.
Qed.
Print Assumptions C45_nothing_modified.
(** [m] with values assigned to the points of block 0 *)
Definition assign (E : pyenv) (vs : list (option value)) (m : model) : model :=
  match md_blocks m with
  | [] => m
  | b :: r =>
    let set x := match x with
                 | (p, Some v) => match point_set E v p with Ok p' => p' | Raise _ => p end
                 | (p, None) => p
                 end in
    with_blocks m (with_points b (map set (combine (b_points b) vs)) :: r)
  end.
Example C45_ex :
  let m := assign env_ex [Some (VInt 77); Some (VInt (-5)); Some (VInt 4)] ex_model in
  map p_addr (modified m) = [40004; 40005; 40009] /\
  fst (fst (write_points log_dev [] m)) = [(40004, [0; 77; 255; 255; 255; 251]); (40009, [0; 4])].
Proof. vm_compute. auto. Qed.
Example C45_ex_hyp : let m := assign env_ex [Some (VInt 77); Some (VInt (-5)); Some (VInt 4)] ex_model in
  loaded 40004 9 m /\ forall p, In p (modified m) -> exists d, encoding p d.
Proof.
  split.
  - eapply loaded_erase; [|exact ex_loaded]. vm_compute. reflexivity.
  - intros p HP. vm_compute in HP. destruct HP as [<-|[<-|[<-|[]]]]; eexists; split; vm_compute; reflexivity.
Qed.
(** Texts of fewer than eight registers are encoded with one byte too many (util.py:143-151): the write
    is not a whole number of registers and what follows is shifted. *)
Definition short_mt : modeltype := mkMT 1 (Some 100) (Some 5) None None None None
  (mkBT Fixed (BStr (lit "5"%string)) (Some (lit "fixed"%string)) [pt "S" 0 Tstring 4 None; pt "B" 4 Tuint16 1 None]) None [].
Definition short_model : model :=
  assign env_ex [Some (VStr (lit "AB"%string)); Some (VInt 258)] (fst (model_load 10 (fun _ => Ok short_mt) (new_model 100 40004 5))).
Theorem C45_short_text_refuted :
  exists m d, loaded 40004 5 m /\ write_points log_dev [] m = ([(40004, d)], clean m, Ok tt) /\
  d = [65; 66; 0; 0; 0; 0; 0; 0] ++ [0] ++ [1; 2] /\
  map (fun p => to_data (pt_type (p_type p)) (p_base p) (2 * pt_len (p_type p))) (modified m) = [Ok [65; 66; 0; 0; 0; 0; 0; 0; 0]; Ok [1; 2]].
Proof.
  exists short_model, ([65; 66; 0; 0; 0; 0; 0; 0] ++ [0] ++ [1; 2]). split.
  - exists 10%nat, (fun _ => Ok short_mt), 100, 5, short_mt, 5. split; [reflexivity|]. split; [left; split; [discriminate|reflexivity]|].
    split; [right; split; [intros [H _]; discriminate|reflexivity]|]. split.
    + unfold good_def. split; [cbn; lia|]. split; [intros rt R ER; discriminate|]. split; [repeat constructor|intros rt ER; discriminate].
    + vm_compute. reflexivity.
  - vm_compute. auto.
Qed.
Print Assumptions C45_short_text_refuted.

(** ** C46: values written read back: after reading a model, assigning values, writing and reading
    again, every point (assigned or not) has the value it had before the write. *)
Theorem C46_write_then_read :
  forall D (dv : mdev D) rel lo hi wmax, implements dv rel lo hi wmax ->
  forall s0 mem addr L m0 s1 m1 m2, rel s0 mem -> loaded addr L m0 -> lo <= addr -> addr + L <= hi -> 0 < L -> L <= wmax ->
  read_points dv s0 m0 = (s1, m1, Ok tt) -> assigned m1 m2 -> Forall storable (modified m2) ->
  exists s2 s3, write_points dv s1 m2 = (s2, clean m2, Ok tt) /\ read_points dv s2 (clean m2) = (s3, clean m2, Ok tt).
Proof. intros D dv rel lo hi wmax HI s0 mem addr L m0 s1 m1 m2 HR HL HLO HHI HL0 HW E HA HS. eapply roundtrip; eauto. Qed.
Print Assumptions C46_write_then_read.
(** [point.value = v] is such an assignment *)
Theorem C46_set_is_assignment :
  forall E v p p', point_set E v p = Ok p' -> p_base p <> VNone \/ p_link p = SfNone -> assigned_point p p' /\ p_dirty p' = true.
Proof.
  intros E v p p' H HB. unfold point_set in H. apply bind_ok in H as (b & _ & H). apply Ok_inj in H. subst p'. split; [|reflexivity]. right. split; [eauto|exact HB].
Qed.
Print Assumptions C46_set_is_assignment.
(** integers in range, other than the unimplemented value of their type, are storable *)
Theorem C46_integers_storable :
  forall p z, int_type (pt_type (p_type p)) = true -> pt_type (p_type p) <> Tuint64 -> pt_type (p_type p) <> Tacc64 -> size_ok (p_type p) ->
  p_base p = VInt z -> in_range (type_bytes (pt_type (p_type p))) (signed_type (pt_type (p_type p))) z -> z <> unimpl_int (pt_type (p_type p)) -> storable p.
Proof.
  intros p z HT N1 N2 HS HB HR HU.
  assert (HC : exists d, to_data (pt_type (p_type p)) (VInt z) (2 * pt_len (p_type p)) = Ok d /\ zlen d = type_bytes (pt_type (p_type p)) /\
            data_to (pt_type (p_type p)) d = Ok (VInt z)).
  { revert HR. destruct (pt_type (p_type p)); try discriminate; try congruence; cbn [type_bytes signed_type to_data data_to pack_obj];
    unfold s16_to_data, u16_to_data, s32_to_data, u32_to_data, s64_to_data, data_to_s16, data_to_u16, data_to_s32, data_to_u32, data_to_s64;
    intros HR;
    match goal with |- exists d, pack_int ?w ?s z = _ /\ _ => 
      destruct (codec_exact_int w s ltac:(lia)) as (_ & _ & HX & _); destruct (HX z HR) as (d & D1 & D2 & D3) end;
    exists d; (split; [exact D1|]); (split; [exact D3|]); rewrite D2; reflexivity. }
  destruct HC as (d & D1 & D2 & D3). exists d. unfold encoding. rewrite HB. split; [split; [exact D1|]|].
  - unfold size_ok in HS. rewrite D2. destruct (pt_type (p_type p)); try discriminate; lia.
  - split; [exact D3|]. unfold implemented. rewrite is_impl_int by exact HT. cbn [eq_int]. destruct (Z.eqb_spec z (unimpl_int (pt_type (p_type p)))); [congruence|reflexivity].
Qed.
Print Assumptions C46_integers_storable.
(** texts of at least eight registers, not empty, Latin-1, fitting and without a NUL at either end, too *)
Theorem C46_texts_storable :
  forall p s, pt_type (p_type p) = Tstring -> 8 <= pt_len (p_type p) -> p_base p = VStr s -> latin1 s -> zlen s <= 2 * pt_len (p_type p) ->
  (exists c r, s = c :: r /\ c <> 0) -> ~ ends_in_nul s -> storable p.
Proof.
  intros p s HT HL HB H1 H2 (c & r & E & HC) HN.
  destruct (string_roundtrip s (2 * pt_len (p_type p)) H1 ltac:(congruence) HN H2) as (d & D1 & D2). exists d. unfold encoding, implemented. rewrite HT, HB. cbn [to_data data_to is_impl].
  split; [split; [exact D1|]|].
  - unfold str_to_data in D1. apply bind_ok in D1 as (b & _ & D1). destruct (Z.ltb_spec (2 * pt_len (p_type p)) 16); [lia|]. eapply pack_s_zlen; exact D1.
  - rewrite D2. split; [reflexivity|]. rewrite E. destruct (Z.eqb_spec c 0); [congruence|reflexivity].
Qed.
Print Assumptions C46_texts_storable.
(** A point the device reports as unimplemented has no scale factor in the client: a value assigned to it is
    stored unscaled and reads back as another value. *)
(** a device that holds the registers of the example model as a list of bytes *)
Definition img_dev : mdev bytes := mkDev bytes
  (fun s a n => (s, Ok (Some (slice (2 * (a - 40004)) (2 * (a - 40004) + 2 * n) s))))
  (fun s a d => (ztake (2 * (a - 40004)) s ++ d ++ zdrop (2 * (a - 40004) + zlen d) s, Ok tt)).
Definition ex_image2 : bytes := [255; 255] ++ zdrop 2 ex_image.
Theorem C46_unimplemented_scaled_refuted :
  exists m0 m1 m2 image2 m3 p2 p3, loaded 40004 9 m0 /\
  read_points img_dev ex_image2 m0 = (ex_image2, m1, Ok tt) /\ m2 = assign env_ex [Some (VInt 5); None; None] m1 /\
  hd_error (points_of m2) = Some p2 /\ value_getter env_ex (p_base p2) (p_sf p2) = Ok (VInt 5) /\
  write_points img_dev ex_image2 m2 = (image2, clean m2, Ok tt) /\ read_points img_dev image2 (clean m2) = (image2, m3, Ok tt) /\
  hd_error (points_of m3) = Some p3 /\
  value_getter env_ex (p_base p3) (p_sf p3) = Ok (VFlt (S754_finite false 7205759403792794 (-57))) (* 0.05 *).
Proof.
  pose (m1 := snd (fst (read_points img_dev ex_image2 ex_model))).
  pose (m2 := assign env_ex [Some (VInt 5); None; None] m1).
  pose (image2 := fst (fst (write_points img_dev ex_image2 m2))).
  pose (m3 := snd (fst (read_points img_dev image2 (clean m2)))).
  exists ex_model, m1, m2, image2, m3, (hd (new_point (pt "A" 0 Tuint16 1 None) 0) (points_of m2)), (hd (new_point (pt "A" 0 Tuint16 1 None) 0) (points_of m3)).
  split; [exact ex_loaded|]. vm_compute. auto 10.
Qed.
Print Assumptions C46_unimplemented_scaled_refuted.
Example C46_ex :
  let m1 := snd (fst (read_points img_dev ex_image ex_model)) in
  let m2 := assign env_ex [Some (VInt 5); None; Some (VInt 1)] m1 in
  map summary (points_of m2) = [(lit "A", VInt 500, VInt (-2)); (lit "B", VInt (-100), VInt (-2)); (lit "C", VInt 1, VNone);
     (lit "V", VInt 7, VInt (-2)); (lit "W", VInt 9, VNone)]%string /\
  map p_dirty (points_of m2) = [true; false; true; false; false] /\
  let image2 := fst (fst (write_points img_dev ex_image m2)) in
  image2 = [1; 244;  255; 255; 255; 156;  0; 0;  255; 254;  0; 1;   0; 7;  0; 0; 0; 9] /\
  read_points img_dev image2 (clean m2) = (image2, clean m2, Ok tt).
Proof. vm_compute. auto. Qed.
Example C46_ex_hyp :
  let m1 := snd (fst (read_points img_dev ex_image ex_model)) in
  let m2 := assign env_ex [Some (VInt 5); None; Some (VInt 1)] m1 in
  assigned m1 m2 /\ Forall storable (modified m2).
Proof.
  split.
  - exists (md_blocks (assign env_ex [Some (VInt 5); None; Some (VInt 1)] (snd (fst (read_points img_dev ex_image ex_model))))).
    split; [vm_compute; reflexivity|].
    assert (E : forall l l' k k', l = l' -> k = k' -> Forall2 assigned_block l' k' -> Forall2 assigned_block l k) by (intros; subst; auto).
    eapply E; [vm_compute; reflexivity|vm_compute; reflexivity|]. constructor; [|constructor; [|constructor]]; (eexists; split; [unfold with_points; reflexivity|]).
    + constructor; [right; split; [eexists; reflexivity|left; discriminate]|].
      constructor; [left; reflexivity|]. constructor; [right; split; [eexists; reflexivity|left; discriminate]|constructor].
    + constructor; [left; reflexivity|]. constructor; [left; reflexivity|constructor].
  - assert (E : forall l l', l = l' -> Forall storable l' -> Forall storable l) by (intros; subst; auto).
    eapply E; [vm_compute; reflexivity|].
    constructor; [|constructor; [|constructor]]; (eapply C46_integers_storable; [reflexivity|discriminate|discriminate|reflexivity|reflexivity|vm_compute; split; congruence|discriminate]).
Qed.

(** ** C47: failed writes. *)
(** ClientPoint.write: the mark goes only if the device took the write; calling it again sends the
    same data. *)
Theorem C47_point_write_partial :
  forall D (dv : mdev D) s p s' p' r, point_write dv s p = (s', p', r) ->
  match r with
  | Ok _ => p' = set_dirty p false /\ exists d, to_data (pt_type (p_type p)) (p_base p) (pt_len (p_type p) * 2) = Ok d /\ dv_write dv s (p_addr p) d = (s', Ok tt)
  | Raise _ => p' = p
  end.
Proof.
  intros D dv s p s' p' r H. unfold point_write in H. destruct (to_data _ _ _) as [d|e].
  - unfold cl_write in H. destruct (dv_write dv s (p_addr p) d) as [s1 [u|e]] eqn:E; apply pair_equal_spec in H as [H <-]; apply pair_equal_spec in H as [-> <-].
    + destruct u. split; [reflexivity|]. eauto.
    + reflexivity.
  - apply pair_equal_spec in H as [H <-]. apply pair_equal_spec in H as [_ <-]. reflexivity.
Qed.
Print Assumptions C47_point_write_partial.
(** ClientModel.write_points: when it fails, the points that lost their mark are the first ones of the
    modified points; all later ones keep their mark, and no value changes. *)
Theorem C47_write_points_partial :
  forall D (dv : mdev D) s m s' m' e, write_points dv s m = (s', m', Raise e) ->
  exists k, points_of m' = unmark k (points_of m) /\ m' = with_blocks m (md_blocks m') /\
    Forall2 (fun b b' => b' = with_points b (b_points b')) (md_blocks m) (md_blocks m').
Proof.
  intros D dv s m s' m' e H. unfold write_points in H. destruct (write_blocks dv s (md_blocks m)) as [[s1 bs] r] eqn:E.
  apply pair_equal_spec in H as [H ->]. apply pair_equal_spec in H as [_ <-]. apply write_blocks_marks in E as (k & K1 & K2).
  exists k. split; [exact K1|]. split; [reflexivity|exact K2].
Qed.
Print Assumptions C47_write_points_partial.
(** but the first ones include points that were not written: the marks are cleared before the data is sent.
    Here every write fails, nothing is sent, and all marks are gone: calling again sends nothing. *)
Definition dead_dev : mdev unit := mkDev unit (fun s _ _ => (s, Raise EModbusTimeout)) (fun s _ _ => (s, Raise EModbusTimeout)).
Theorem C47_marks_lost_refuted :
  exists m m', loaded 40004 9 m /\ length (modified m) = 2%nat /\
  write_points dead_dev tt m = (tt, m', Raise ESunSpecClient) /\ modified m' = [] /\
  write_points dead_dev tt m' = (tt, m', Ok tt).
Proof.
  exists (assign env_ex [Some (VInt 77); Some (VInt (-5)); None] ex_model), (clean (assign env_ex [Some (VInt 77); Some (VInt (-5)); None] ex_model)).
  split; [eapply loaded_erase; [|exact ex_loaded]; vm_compute; reflexivity|]. vm_compute. auto.
Qed.
Print Assumptions C47_marks_lost_refuted.
