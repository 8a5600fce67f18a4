(** * P_Client3: writing points. *)
From Coq Require Import Sorted.
From Verif Require Import Py P_List M_Util M_Float M_Suns S_Codec P_Codec P_Types M_Mbmap M_Device S_Device P_Device C_Device M_Client S_Client P_Client P_Client2.

(** ** storing byte by byte *)
Definition poke (mem : memory) (c : Z * Z) : memory := fun x => if x =? fst c then snd c else mem x.
Definition pokes (cs : list (Z * Z)) (mem : memory) : memory := fold_left poke cs mem.
Lemma pokes_app cs cs' mem : pokes (cs ++ cs') mem = pokes cs' (pokes cs mem).
Proof. apply fold_left_app. Qed.
Lemma pokes_ext cs : forall mem mem', (forall x, mem x = mem' x) -> forall x, pokes cs mem x = pokes cs mem' x.
Proof.
  induction cs as [|c cs IH]; intros mem mem' H x; [apply H|]. cbn. apply IH. intros y. unfold poke. destruct (y =? fst c); [reflexivity|apply H].
Qed.
Lemma zseq_S a n : zseq a (S n) = a :: zseq (a + 1) n.
Proof.
  unfold zseq. cbn [seq map]. rewrite Z.add_0_r. f_equal. rewrite <- seq_shift, map_map. apply map_ext. intros; lia.
Qed.
Lemma pokes_run d : forall a mem x,
  pokes (combine (zseq a (length d)) d) mem x = if (a <=? x) && (x <? a + zlen d) then znth (x - a) d else mem x.
Proof.
  induction d as [|b d IH]; intros a mem x.
  - cbn [length zseq combine pokes fold_left]. rewrite zlen_nil. destruct (Z.leb_spec a x), (Z.ltb_spec x (a + 0)); try reflexivity; lia.
  - cbn [length]. rewrite zseq_S. cbn [combine]. change (pokes ((a, b) :: combine (zseq (a + 1) (length d)) d) mem) with (pokes (combine (zseq (a + 1) (length d)) d) (poke mem (a, b))).
    rewrite IH. unfold poke. cbn [fst snd]. rewrite zlen_cons. pose proof (zlen_nonneg d).
    destruct (Z.eqb_spec x a) as [->|N].
    + destruct (Z.leb_spec (a + 1) a); [lia|]. destruct (Z.leb_spec a a); [|lia]. destruct (Z.ltb_spec a (a + (1 + zlen d))); [|lia].
      cbn [andb]. unfold znth. replace (a - a) with 0 by lia. reflexivity.
    + destruct (Z.leb_spec (a + 1) x); destruct (Z.leb_spec a x); try lia; cbn [andb].
      * destruct (Z.ltb_spec x (a + 1 + zlen d)), (Z.ltb_spec x (a + (1 + zlen d))); try reflexivity; try lia.
        unfold znth. replace (Z.to_nat (x - a)) with (S (Z.to_nat (x - (a + 1)))) by lia. reflexivity.
      * reflexivity.
Qed.
Lemma mem_store_pokes mem a d x : mem_store mem a d x = pokes (cells (a, d)) mem x.
Proof. unfold cells. cbn [fst snd]. rewrite pokes_run. reflexivity. Qed.
Lemma combine_app {A B} (a a' : list A) (b b' : list B) : length a = length b -> combine (a ++ a') (b ++ b') = combine a b ++ combine a' b'.
Proof. revert b. induction a as [|x a IH]; intros [|y b] H; try discriminate; [reflexivity|]. cbn. f_equal. apply IH. now injection H. Qed.
Lemma cells_app a n d d' : zlen d = 2 * n -> cells (a, d ++ d') = cells (a, d) ++ cells (a + n, d').
Proof.
  intros H. unfold cells. cbn [fst snd]. rewrite app_length, zseq_app, combine_app by apply zseq_length.
  do 3 f_equal. unfold zlen in H. lia.
Qed.
Definition storing (ws : list (Z * bytes)) (mem : memory) : memory := fold_left (fun mem w => mem_store mem (fst w) (snd w)) ws mem.
Lemma storing_pokes ws : forall mem mem', (forall x, mem x = mem' x) -> forall x, storing ws mem x = pokes (flat_map cells ws) mem' x.
Proof.
  induction ws as [|[a d] ws IH]; intros mem mem' H x; [apply H|]. cbn [storing fold_left flat_map fst snd]. rewrite pokes_app.
  apply IH. intros y. rewrite mem_store_pokes. now apply pokes_ext.
Qed.

(** ** the writes sent *)
Definition enc_ok (p : point) : Prop := exists d, encoding p d.
Inductive encodings : list point -> list bytes -> Prop :=
| enc_nil : encodings [] []
| enc_cons p d l ds : encoding p d -> encodings l ds -> encodings (p :: l) (d :: ds).
Definition pcells (l : list point) (ds : list bytes) : list (Z * Z) := flat_map cells (combine (map p_addr l) ds).
Definition pend (addr : option Z) (data : bytes) : list (Z * Z) := match addr with Some a => cells (a, data) | None => [] end.

(** a write request within lo .. hi of whole registers *)
Definition okw (lo hi : Z) (w : Z * bytes) : Prop :=
  lo <= fst w /\ fst w + zlen (snd w) / 2 <= hi /\ zlen (snd w) mod 2 = 0 /\ 0 < zlen (snd w) /\ Forall is_byte (snd w).
Definition okp (lo hi : Z) (p : point) : Prop := lo <= p_addr p /\ 0 < pt_len (p_type p) /\ p_addr p + pt_len (p_type p) <= hi.

Lemma pack_s_bytes n s d : Forall is_byte s -> pack_s n s = Ok d -> Forall is_byte d.
Proof.
  intros HS H. unfold pack_s in H. destruct (n <? 0) eqn:E; [discriminate|]. apply Ok_inj in H. subst d.
  apply Forall_app. split; [now apply Forall_ztake|]. apply Forall_forall. intros x HX. apply repeat_spec in HX. subst. unfold is_byte. lia.
Qed.
Lemma pack_int_bytes w sgn z d : pack_int w sgn z = Ok d -> Forall is_byte d.
Proof. unfold pack_int. destruct (_ && _); [|discriminate]. intros H. apply Ok_inj in H. subst d. apply be_bytes_bytes. Qed.
Lemma pack_f_bytes f d : pack_f f = Ok d -> Forall is_byte d.
Proof.
  unfold pack_f. intros H. assert (exists z, d = be_bytes 4 z) as [z ->]; [|apply be_bytes_bytes].
  destruct f; try (apply Ok_inj in H; eauto; fail). destruct (to_single _); try discriminate; apply Ok_inj in H; eauto.
Qed.
Lemma hex_val_up_range c x : hex_val_up c = Some x -> 0 <= x < 16.
Proof.
  unfold hex_val_up. destruct (Z.leb_spec 48 c), (Z.leb_spec c 57), (Z.leb_spec 65 c), (Z.leb_spec c 70); cbn [andb]; intros H'; try discriminate; apply Some_inj in H'; lia.
Qed.
Lemma unhex_bytes : forall n s d, (length s <= n)%nat -> unhex_up s = Ok d -> Forall is_byte d.
Proof.
  induction n as [|n IH]; intros [|a [|b r]] d HL H; cbn [unhex_up] in H; try discriminate; try (cbn in HL; lia);
    try (apply Ok_inj in H; subst d; constructor; fail).
  destruct (hex_val_up a) as [x|] eqn:EA; [|discriminate]. destruct (hex_val_up b) as [y|] eqn:EB; [|discriminate].
  apply bind_ok in H as (t & ET & H). apply Ok_inj in H. subst d. apply hex_val_up_range in EA. apply hex_val_up_range in EB.
  constructor; [unfold is_byte; lia|]. eapply IH; [|exact ET]. cbn in HL. lia.
Qed.
Lemma to_data_bytes t v n d : to_data t v n = Ok d -> Forall is_byte d.
Proof.
  assert (HP : forall w sgn, pack_obj (pack_int w sgn) v = Ok d -> Forall is_byte d).
  { intros w sgn. unfold pack_obj. destruct v; try discriminate. apply pack_int_bytes. }
  destruct t; cbn [to_data]; try (apply HP).
  - destruct v; try discriminate. unfold ipv6addr_to_data. intros H. apply bind_ok in H as (s' & H1 & H2). eapply pack_s_bytes; [|exact H2].
    unfold b16decode in H1. destruct (forallb _ _); [|discriminate]. destruct (forallb _ _); [|discriminate]. eapply unhex_bytes; [|exact H1]. reflexivity.
  - destruct v; try discriminate; [destruct (float_of_int z); [|discriminate]|]; apply pack_f_bytes.
  - destruct v; try discriminate. unfold str_to_data. intros H. apply bind_ok in H as (s' & H1 & H2).
    unfold latin1_encode in H1. destruct (forallb is_byteb s) eqn:E; [|discriminate]. apply Ok_inj in H1. subst s'. apply forallb_is_byte in E.
    destruct (n <? 16); eapply pack_s_bytes; try exact H2; auto. apply Forall_app. split; [exact E|]. constructor; [unfold is_byte; lia|constructor].
  - discriminate.
Qed.

(** the points of one block, with a device that records the writes *)
Lemma write_pts_log lo hi l : Forall (fun p => p_dirty p = true -> enc_ok p /\ okp lo hi p) l ->
  forall lg addr next data, (forall a, addr = Some a -> 2 * next = 2 * a + zlen data /\ okw lo hi (a, data)) -> Forall (okw lo hi) lg ->
  exists ds lg' addr' next' data', write_pts log_dev lg addr next data l = (lg ++ lg', map (fun p => set_dirty p false) l, Ok (addr', next', data')) /\
    encodings (filter p_dirty l) ds /\
    flat_map cells lg' ++ pend addr' data' = pend addr data ++ pcells (filter p_dirty l) ds /\
    Forall (okw lo hi) lg' /\ (forall a, addr' = Some a -> okw lo hi (a, data')).
Proof.
  induction 1 as [|p l HP HF IH]; intros lg addr next data HA HLG.
  - exists [], [], addr, next, data. rewrite app_nil_r. split; [reflexivity|]. split; [constructor|]. split; [cbn; now rewrite app_nil_r|].
    split; [constructor|]. intros a E. apply HA. exact E.
  - cbn [write_pts filter map]. destruct (p_dirty p) eqn:ED.
    + destruct (HP eq_refl) as ((d & E1 & E2) & O1 & O2 & O3). clear HP. replace (pt_len (p_type p) * 2) with (2 * pt_len (p_type p)) by lia. rewrite E1.
      assert (HB : Forall is_byte d) by (eapply to_data_bytes; exact E1).
      assert (HD2 : zlen d / 2 = pt_len (p_type p)) by (rewrite E2, Z.mul_comm; apply Z.div_mul; lia).
      assert (HD3 : zlen d mod 2 = 0) by (rewrite E2, Z.mul_comm; apply Z.mod_mul; lia).
      destruct addr as [a|].
      * destruct (HA a eq_refl) as (A1 & A2). destruct A2 as (B1 & B2 & B3 & B4 & B5). cbn [fst snd] in *.
        destruct (Z.eqb_spec (p_addr p) next) as [EN|EN].
        -- destruct (IH lg (Some a) (p_addr p + pt_len (p_type p)) (data ++ d)) as (ds & lg' & addr' & next' & data' & F1 & F2 & F3 & F4 & F5).
           { intros a' EA. apply Some_inj in EA. subst a'. rewrite zlen_app. split; [lia|]. unfold okw. cbn [fst snd]. rewrite zlen_app.
             split; [exact B1|]. split; [|split; [|split; [lia|now apply Forall_app]]].
             - replace (zlen data + zlen d) with ((p_addr p + pt_len (p_type p) - a) * 2) by lia. rewrite Z.div_mul by lia. lia.
             - rewrite Z.add_mod, B3, HD3 by lia. reflexivity. }
           { exact HLG. }
           exists (d :: ds), lg', addr', next', data'. rewrite F1. split; [reflexivity|]. split; [constructor; [split; assumption|exact F2]|]. split; [|split; assumption].
           rewrite F3. unfold pcells. cbn [map combine flat_map pend]. rewrite app_assoc. f_equal. rewrite EN.
           replace next with (a + (next - a)) by lia. apply cells_app. lia.
        -- assert (EC : cl_write log_dev lg a data = (lg ++ [(a, data)], Ok tt)) by reflexivity. rewrite EC.
           destruct (IH (lg ++ [(a, data)]) (Some (p_addr p)) (p_addr p + pt_len (p_type p)) ([] ++ d)) as (ds & lg' & addr' & next' & data' & F1 & F2 & F3 & F4 & F5).
           { intros a' EA. apply Some_inj in EA. subst a'. cbn [app]. split; [lia|]. unfold okw. cbn [fst snd]. rewrite HD2, HD3. auto with zarith. }
           { apply Forall_app. split; [exact HLG|]. constructor; [|constructor]. unfold okw. auto. }
           exists (d :: ds), ((a, data) :: lg'), addr', next', data'. rewrite F1. split; [now rewrite <- app_assoc|]. split; [constructor; [split; assumption|exact F2]|].
           split; [|split; [constructor; [unfold okw; auto|assumption]|assumption]].
           cbn [flat_map]. rewrite <- app_assoc, F3. unfold pcells. cbn [map combine flat_map pend app]. reflexivity.
      * destruct (IH lg (Some (p_addr p)) (p_addr p + pt_len (p_type p)) ([] ++ d)) as (ds & lg' & addr' & next' & data' & F1 & F2 & F3 & F4 & F5).
        { intros a' EA. apply Some_inj in EA. subst a'. cbn [app]. split; [lia|]. unfold okw. cbn [fst snd]. rewrite HD2, HD3. auto with zarith. }
        { exact HLG. }
        exists (d :: ds), lg', addr', next', data'. rewrite F1. split; [reflexivity|]. split; [constructor; [split; assumption|exact F2]|].
        split; [|split; assumption]. rewrite F3. reflexivity.
    + destruct (IH lg addr next data HA HLG) as (ds & lg' & addr' & next' & data' & F1 & F2 & F3 & F4 & F5).
      exists ds, lg', addr', next', data'. rewrite F1. split; [|auto]. do 3 f_equal. unfold set_dirty. destruct p; cbn in *. now subst.
Qed.
Lemma encodings_app l ds l' ds' : encodings l ds -> encodings l' ds' -> encodings (l ++ l') (ds ++ ds').
Proof. induction 1; intros; cbn; [assumption|constructor; auto]. Qed.
Lemma encodings_length l ds : encodings l ds -> length l = length ds.
Proof. induction 1; cbn; lia. Qed.
Lemma pcells_app l ds l' ds' : encodings l ds -> pcells (l ++ l') (ds ++ ds') = pcells l ds ++ pcells l' ds'.
Proof.
  intros H. apply encodings_length in H. unfold pcells. rewrite map_app, combine_app by (now rewrite map_length). apply flat_map_app.
Qed.
Lemma write_blocks_log lo hi bs : Forall (fun p => p_dirty p = true -> enc_ok p /\ okp lo hi p) (flat_map b_points bs) ->
  forall lg, Forall (okw lo hi) lg ->
  exists ds lg', write_blocks log_dev lg bs = (lg ++ lg', map clean_block bs, Ok tt) /\
    encodings (filter p_dirty (flat_map b_points bs)) ds /\
    flat_map cells lg' = pcells (filter p_dirty (flat_map b_points bs)) ds /\ Forall (okw lo hi) lg'.
Proof.
  induction bs as [|b bs IH]; intros HF lg HLG.
  - exists [], []. rewrite app_nil_r. split; [reflexivity|]. split; [constructor|]. split; [reflexivity|constructor].
  - cbn [flat_map] in HF. apply Forall_app in HF as [HF1 HF2]. cbn [write_blocks flat_map map].
    destruct (write_pts_log lo hi (b_points b) HF1 lg None 0 [] ltac:(discriminate) HLG) as (ds & lg' & addr' & next' & data' & F1 & F2 & F3 & F4 & F5).
    rewrite F1. destruct addr' as [a|].
    + assert (EC : cl_write log_dev (lg ++ lg') a data' = ((lg ++ lg') ++ [(a, data')], Ok tt)) by reflexivity. rewrite EC.
      destruct (IH HF2 ((lg ++ lg') ++ [(a, data')])) as (ds2 & lg2 & G1 & G2 & G3 & G4).
      { apply Forall_app. split; [apply Forall_app; auto|]. constructor; [|constructor]. now apply F5. }
      rewrite G1. exists (ds ++ ds2), (lg' ++ [(a, data')] ++ lg2). split; [now rewrite !app_assoc|]. rewrite filter_app.
      split; [now apply encodings_app|]. split.
      * rewrite !flat_map_app, G3, pcells_app by exact F2. cbn [flat_map pend] in *. rewrite app_nil_r, app_assoc, F3. reflexivity.
      * apply Forall_app. split; [exact F4|]. apply Forall_app. split; [|exact G4]. constructor; [now apply F5|constructor].
    + destruct (IH HF2 (lg ++ lg')) as (ds2 & lg2 & G1 & G2 & G3 & G4); [apply Forall_app; auto|].
      rewrite G1. exists (ds ++ ds2), (lg' ++ lg2). split; [now rewrite !app_assoc|]. rewrite filter_app.
      split; [now apply encodings_app|]. split; [|apply Forall_app; auto].
      rewrite flat_map_app, G3, pcells_app by exact F2. cbn [pend] in F3. rewrite app_nil_r in F3. now rewrite F3.
Qed.

(** ** any device that accepts the writes *)
Fixpoint send {D} (dv : mdev D) (s : D) (ws : list (Z * bytes)) : D * res unit :=
  match ws with
  | [] => (s, Ok tt)
  | (a, d) :: r => match cl_write dv s a d with
                   | (s', Ok _) => send dv s' r
                   | (s', Raise e) => (s', Raise e)
                   end
  end.
Lemma send_app {D} (dv : mdev D) ws ws' : forall s s', send dv s (ws ++ ws') = (s', Ok tt) ->
  exists s1, send dv s ws = (s1, Ok tt) /\ send dv s1 ws' = (s', Ok tt).
Proof.
  induction ws as [|[a d] ws IH]; intros s s' H; cbn [app send] in *; [eauto|].
  destruct (cl_write dv s a d) as [s1 [u|e]]; [|apply pair_equal_spec in H as [_ H]; discriminate]. exact (IH _ _ H).
Qed.
Lemma write_pts_extends l : forall lg addr next data s r e, write_pts log_dev lg addr next data l = (s, r, e) -> exists k, s = lg ++ k.
Proof.
  induction l as [|p l IH]; intros lg addr next data s r e H; cbn [write_pts] in H.
  - apply pair_equal_spec in H as [H _]. apply pair_equal_spec in H as [<- _]. exists []. now rewrite app_nil_r.
  - destruct (p_dirty p).
    + destruct (to_data _ _ _) as [d|x].
      2:{ apply pair_equal_spec in H as [H _]. apply pair_equal_spec in H as [<- _]. exists []. now rewrite app_nil_r. }
      destruct addr as [a|]; [destruct (p_addr p =? next)|].
      * destruct (write_pts log_dev lg _ _ _ l) as [[s2 r'] e'] eqn:EW. apply pair_equal_spec in H as [H _]. apply pair_equal_spec in H as [<- _]. eauto.
      * assert (EC : cl_write log_dev lg a data = (lg ++ [(a, data)], Ok tt)) by reflexivity. rewrite EC in H.
        destruct (write_pts log_dev _ _ _ _ l) as [[s2 r'] e'] eqn:EW. apply pair_equal_spec in H as [H _]. apply pair_equal_spec in H as [<- _].
        apply IH in EW as [k ->]. exists ([(a, data)] ++ k). now rewrite app_assoc.
      * destruct (write_pts log_dev lg _ _ _ l) as [[s2 r'] e'] eqn:EW. apply pair_equal_spec in H as [H _]. apply pair_equal_spec in H as [<- _]. eauto.
    + destruct (write_pts log_dev lg _ _ _ l) as [[s2 r'] e'] eqn:EW. apply pair_equal_spec in H as [H _]. apply pair_equal_spec in H as [<- _]. eauto.
Qed.
Lemma app_self_nil {A} (l k : list A) : l = l ++ k -> k = [].
Proof. intros H. rewrite <- (app_nil_r l) in H at 1. apply app_inv_head in H. now symmetry. Qed.
Lemma write_pts_sim {D} (dv : mdev D) l : forall lg addr next data lg' pts x,
  write_pts log_dev lg addr next data l = (lg ++ lg', pts, Ok x) -> forall s s', send dv s lg' = (s', Ok tt) ->
  write_pts dv s addr next data l = (s', pts, Ok x).
Proof.
  induction l as [|p l IH]; intros lg addr next data lg' pts x H s s' HS; cbn [write_pts] in *.
  - apply pair_equal_spec in H as [H E]. apply pair_equal_spec in H as [H1 H2].
    assert (lg' = []) by (destruct lg'; [reflexivity|]; apply (f_equal (@length _)) in H1; rewrite app_length in H1; cbn in H1; lia).
    subst. apply pair_equal_spec in HS as [-> _]. apply Ok_inj in E. now subst x.
  - destruct (p_dirty p).
    + destruct (to_data _ _ _) as [d|e]; [|apply pair_equal_spec in H as [_ H]; discriminate].
      destruct addr as [a|]; [destruct (p_addr p =? next)|].
      * destruct (write_pts log_dev lg (Some a) _ _ l) as [[s2 r'] e] eqn:EW. apply pair_equal_spec in H as [H ->]. apply pair_equal_spec in H as [-> <-].
        erewrite IH by eassumption. reflexivity.
      * assert (EC : cl_write log_dev lg a data = (lg ++ [(a, data)], Ok tt)) by reflexivity. rewrite EC in H.
        destruct (write_pts log_dev (lg ++ [(a, data)]) _ _ _ l) as [[s2 r'] e] eqn:EW. apply pair_equal_spec in H as [H ->]. apply pair_equal_spec in H as [-> <-].
        assert (exists lg2, lg' = (a, data) :: lg2) as [lg2 ->].
        { apply write_pts_extends in EW as [k HK]. rewrite <- app_assoc in HK. apply app_inv_head in HK. exists k. exact HK. }
        cbn [send] in HS. destruct (cl_write dv s a data) as [s1 [u|e']]; [|apply pair_equal_spec in HS as [_ HS]; discriminate].
        replace (lg ++ (a, data) :: lg2) with ((lg ++ [(a, data)]) ++ lg2) in EW by (now rewrite <- app_assoc).
        erewrite IH by eassumption. reflexivity.
      * destruct (write_pts log_dev lg _ _ _ l) as [[s2 r'] e] eqn:EW. apply pair_equal_spec in H as [H ->]. apply pair_equal_spec in H as [-> <-].
        erewrite IH by eassumption. reflexivity.
    + destruct (write_pts log_dev lg _ _ _ l) as [[s2 r'] e] eqn:EW. apply pair_equal_spec in H as [H ->]. apply pair_equal_spec in H as [-> <-].
      erewrite IH by eassumption. reflexivity.
Qed.
Lemma write_blocks_extends bs : forall lg s r e, write_blocks log_dev lg bs = (s, r, e) -> exists k, s = lg ++ k.
Proof.
  induction bs as [|b bs IH]; intros lg s r e H; cbn [write_blocks] in H.
  - apply pair_equal_spec in H as [H _]. apply pair_equal_spec in H as [<- _]. exists []. now rewrite app_nil_r.
  - destruct (write_pts log_dev lg None 0 [] (b_points b)) as [[s1 pts] [[[addr nx] data]|x]] eqn:EW; apply write_pts_extends in EW as [k ->].
    + destruct addr as [a|].
      * assert (EC : cl_write log_dev (lg ++ k) a data = ((lg ++ k) ++ [(a, data)], Ok tt)) by reflexivity. rewrite EC in H.
        destruct (write_blocks log_dev _ bs) as [[s3 r'] e'] eqn:EB. apply pair_equal_spec in H as [H _]. apply pair_equal_spec in H as [<- _].
        apply IH in EB as [k' ->]. exists (k ++ [(a, data)] ++ k'). now rewrite !app_assoc.
      * destruct (write_blocks log_dev _ bs) as [[s3 r'] e'] eqn:EB. apply pair_equal_spec in H as [H _]. apply pair_equal_spec in H as [<- _].
        apply IH in EB as [k' ->]. exists (k ++ k'). now rewrite !app_assoc.
    + apply pair_equal_spec in H as [H _]. apply pair_equal_spec in H as [<- _]. eauto.
Qed.
Lemma write_blocks_sim {D} (dv : mdev D) bs : forall lg lg' bs',
  write_blocks log_dev lg bs = (lg ++ lg', bs', Ok tt) -> forall s s', send dv s lg' = (s', Ok tt) ->
  write_blocks dv s bs = (s', bs', Ok tt).
Proof.
  induction bs as [|b bs IH]; intros lg lg' bs' H s s' HS; cbn [write_blocks] in *.
  - apply pair_equal_spec in H as [H _]. apply pair_equal_spec in H as [H1 H2]. apply app_self_nil in H1. subst.
    apply pair_equal_spec in HS as [-> _]. reflexivity.
  - destruct (write_pts log_dev lg None 0 [] (b_points b)) as [[s1 pts] [[[addr nx] data]|x]] eqn:EW; [|apply pair_equal_spec in H as [_ H]; discriminate].
    destruct (write_pts_extends _ _ _ _ _ _ _ _ EW) as [k ->]. destruct addr as [a|].
    + assert (EC : cl_write log_dev (lg ++ k) a data = ((lg ++ k) ++ [(a, data)], Ok tt)) by reflexivity. rewrite EC in H.
      destruct (write_blocks log_dev _ bs) as [[s3 r'] e'] eqn:EB. apply pair_equal_spec in H as [H ->]. apply pair_equal_spec in H as [-> <-].
      destruct (write_blocks_extends _ _ _ _ _ EB) as [k' HK]. rewrite <- !app_assoc in HK. apply app_inv_head in HK. subst lg'.
      apply send_app in HS as (s2 & S1 & S2). rewrite (write_pts_sim dv _ _ _ _ _ _ _ _ EW _ _ S1).
      cbn [app send] in S2. destruct (cl_write dv s2 a data) as [s4 [u|e]]; [|apply pair_equal_spec in S2 as [_ S2]; discriminate].
      replace (lg ++ k ++ [(a, data)] ++ k') with (((lg ++ k) ++ [(a, data)]) ++ k') in EB by (now rewrite !app_assoc).
      now rewrite (IH _ _ _ EB _ _ S2).
    + destruct (write_blocks log_dev _ bs) as [[s3 r'] e'] eqn:EB. apply pair_equal_spec in H as [H ->]. apply pair_equal_spec in H as [-> <-].
      destruct (write_blocks_extends _ _ _ _ _ EB) as [k' HK]. rewrite <- !app_assoc in HK. apply app_inv_head in HK. subst lg'.
      apply send_app in HS as (s2 & S1 & S2). rewrite (write_pts_sim dv _ _ _ _ _ _ _ _ EW _ _ S1).
      rewrite app_assoc in EB. now rewrite (IH _ _ _ EB _ _ S2).
Qed.
Lemma send_impl {D} (dv : mdev D) rel lo hi wmax (HI : implements dv rel lo hi wmax) a0 e0 ws :
  lo <= a0 -> e0 <= hi -> e0 - a0 <= wmax -> Forall (okw a0 e0) ws -> forall s mem, rel s mem ->
  exists s', send dv s ws = (s', Ok tt) /\ rel s' (storing ws mem).
Proof.
  intros H1 H2 H3. induction 1 as [|[a d] ws (A & B & C & E & F) H IH]; intros s mem HR; cbn [fst snd] in *; [exists s; split; [reflexivity|exact HR]|].
  assert (HZ : zlen d <= 2 * wmax) by (rewrite (Z.div_mod (zlen d) 2) by lia; lia).
  destruct (impl_write _ _ _ _ _ HI s mem a d HR ltac:(lia) ltac:(lia) C E HZ F) as (s1 & E1 & HR1). cbn [send]. unfold cl_write. rewrite E1.
  exact (IH s1 _ HR1).
Qed.

(** ** memory after writing *)
Lemma pokes_other l ds : encodings l ds -> forall mem x, (forall p, In p l -> ~ covers p x) -> pokes (pcells l ds) mem x = mem x.
Proof.
  induction 1 as [|p d l ds (E1 & E2) H IH]; intros mem x HN; [reflexivity|]. unfold pcells. cbn [map combine flat_map]. rewrite pokes_app.
  fold (pcells l ds). rewrite IH by (intros q HQ; apply HN; now right). rewrite <- mem_store_pokes. unfold mem_store.
  specialize (HN p (or_introl eq_refl)). unfold covers in HN. destruct (Z.leb_spec (2 * p_addr p) x), (Z.ltb_spec x (2 * p_addr p + zlen d)); cbn [andb]; try reflexivity. lia.
Qed.
Lemma pokes_point l ds : encodings l ds -> ForallOrdPairs before l -> forall mem p, In p l ->
  exists d, encoding p d /\ regs_of (pokes (pcells l ds) mem) p = d.
Proof.
  induction 1 as [|p d l ds HE H IH]; intros HO mem q HQ; [destruct HQ|]. inversion HO as [|? ? O1 O2]; subst.
  assert (EP : forall m, pokes (pcells (p :: l) (d :: ds)) m = pokes (pcells l ds) (pokes (cells (p_addr p, d)) m)) by (intros; unfold pcells; cbn [map combine flat_map]; apply pokes_app).
  rewrite EP. destruct HQ as [<-|HQ]; [|now apply IH].
  exists d. split; [exact HE|]. destruct HE as [E1 E2].
  assert (HD2 : zlen d / 2 = pt_len (p_type p)) by (rewrite E2, Z.mul_comm; apply Z.div_mul; lia).
  assert (HD3 : zlen d mod 2 = 0) by (rewrite E2, Z.mul_comm; apply Z.mod_mul; lia).
  unfold regs_of. rewrite <- (mem_bytes_store mem (p_addr p) d HD3) at 2. rewrite HD2. apply mem_bytes_ext. intros x HX.
  rewrite (pokes_other l ds H); [symmetry; apply mem_store_pokes|].
  intros q HQ HC. rewrite Forall_forall in O1. specialize (O1 q HQ). unfold covers, before in *. lia.
Qed.
Lemma size_pos t : size_ok t -> 0 < pt_len t.
Proof. unfold size_ok. destruct (pt_type t); cbn [type_bytes]; lia. Qed.
Lemma filter_FOP {A} (R : A -> A -> Prop) f l : ForallOrdPairs R l -> ForallOrdPairs R (filter f l).
Proof. apply FOP_filter. Qed.
Lemma placed_okp addr L m lo hi : placed addr L m -> lo <= addr -> addr + L <= hi -> Forall (okp lo hi) (points_of m).
Proof.
  intros HP HL HH. rewrite Forall_forall. intros p HPP. apply in_flat_map in HPP as (b & B1 & B2).
  destruct (pl_range _ _ _ HP b p B1) as (A & B & C & D); [apply in_or_app; now left|]. apply size_pos in D. unfold okp. lia.
Qed.
Lemma write_points_spec {D} (dv : mdev D) rel lo hi wmax (HI : implements dv rel lo hi wmax) mem addr L m s :
  placed addr L m -> rel s mem -> lo <= addr -> addr + L <= hi -> L <= wmax -> Forall enc_ok (modified m) ->
  exists s' mem', write_points dv s m = (s', clean m, Ok tt) /\ rel s' mem' /\
    (forall p, In p (modified m) -> exists d, encoding p d /\ regs_of mem' p = d) /\
    (forall x, (forall p, In p (modified m) -> ~ covers p x) -> mem' x = mem x).
Proof.
  intros HP HR HL HH HW HE.
  destruct (write_blocks_log addr (addr + L) (md_blocks m)) with (lg := @nil (Z * bytes)) as (ds & lg & W1 & W2 & W3 & W4).
  { pose proof (placed_okp _ _ _ addr (addr + L) HP (Z.le_refl _) (Z.le_refl _)) as HO. rewrite Forall_forall in *. intros p HPP HD. split; [|now apply HO].
    apply HE. apply filter_In. split; assumption. }
  { constructor. }
  destruct (send_impl dv rel lo hi wmax HI addr (addr + L) lg HL HH ltac:(lia) W4 s mem HR) as (s' & E & HR').
  exists s', (pokes (pcells (modified m) ds) mem). unfold write_points. rewrite (write_blocks_sim dv _ _ _ _ W1 _ _ E).
  split; [reflexivity|]. split.
  - eapply (impl_ext _ _ _ _ _ HI); [exact HR'|]. intros x. rewrite (storing_pokes lg mem mem) by reflexivity. now rewrite W3.
  - split; [|intros x HX; now apply pokes_other].
    intros p HPP. eapply pokes_point; eauto. apply FOP_filter. exact (pl_order _ _ _ HP).
Qed.
