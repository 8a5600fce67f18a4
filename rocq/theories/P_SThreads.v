(** * P_SThreads: proofs for C109 *)
From Verif Require Import Py P_List M_Crc M_Wire M_Rtu M_SThreads S_SThreads.

Section Alone.
  Context {D : Type}.
  Variable dev : sdev D.
  Variable slave : Z.
  Variable c : scall.

  Definition lstep (x : spc * port D) : spc * port D := local_step dev slave c (fst x) (snd x).
  Fixpoint lrun (n : nat) (x : spc * port D) : spc * port D := match n with O => x | S n' => lrun n' (lstep x) end.
  Lemma lrun_add a b x : lrun (a + b) x = lrun b (lrun a x).
  Proof. revert x. induction a as [|a IH]; intros x; [reflexivity|]. cbn [Nat.add lrun]. apply IH. Qed.
  Lemma lrun_done n r p : lrun n (PDone r, p) = (PDone r, p).
  Proof. induction n as [|n IH]; [reflexivity|]. cbn [lrun]. exact IH. Qed.

  Lemma total_le resp : Forall is_byte resp -> total c resp <= 260.
  Proof.
    intros H. unfold total, read_total, write_total. destruct c; [|lia].
    assert (is_byte (znth 2 resp)); [|unfold is_byte in *; lia].
    unfold znth. destruct (nth_in_or_default (Z.to_nat 2) resp 0) as [HI| ->]; [|unfold is_byte; lia].
    rewrite Forall_forall in H. now apply H.
  Qed.

  Lemma recv_run fuel : forall (count offset : Z) (acc resp : bytes) (remaining : Z) (found : bool) (exc : option Z) (p : port D),
    Forall is_byte resp -> Forall is_byte (w_bytes (pt_in p)) ->
    Z.max 0 remaining + (if found then 0 else 260) < Z.of_nat fuel ->
    exists n p', (n <= fuel)%nat /\ pt_dev p' = pt_dev p /\
      lrun n (PRecv count offset acc resp remaining found exc, p) =
      (match rtu_recv fuel (total c) resp remaining found exc (pt_in p) with
       | Raise e => fails c e
       | Ok (resp', exc', _) => checked slave c count offset acc resp' exc'
       end, p').
  Proof.
    induction fuel as [|fuel IH]; intros count offset acc resp remaining found exc p HR HW HF; [destruct found; lia|].
    cbn [rtu_recv]. destruct (Z.ltb_spec 0 remaining) as [Hr|Hr].
    2:{ exists 1%nat, p. split; [lia|]. split; [reflexivity|]. cbn [lrun]. unfold lstep. cbn [fst snd local_step].
        destruct (Z.ltb_spec 0 remaining); [lia|]. reflexivity. }
    assert (L0 : lstep (PRecv count offset acc resp remaining found exc, p) =
      match wread remaining (pt_in p) with
        | Raise e => (fails c e, p)
        | Ok (b, w') =>
          let p' := mkPort (pt_dev p) w' in
          let go remaining' found' exc' := (PRecv count offset acc (resp ++ b) remaining' found' exc', p') in
          if 0 <? zlen b then
            if negb found && (5 <=? zlen (resp ++ b)) then
              if Z.land (znth 1 (resp ++ b)) 0x80 =? 0
              then go (total c (resp ++ b) - zlen (resp ++ b)) true exc
              else go (remaining - zlen b) found (Some (znth 2 (resp ++ b)))
            else go (remaining - zlen b) found exc
          else (fails c EModbusTimeout, p')
        end).
    { unfold lstep. cbn [fst snd local_step]. rewrite (proj2 (Z.ltb_lt 0 remaining) Hr). reflexivity. }
    destruct (wread remaining (pt_in p)) as [ [b w']|e] eqn:EW; cbn [bind].
    2:{ exists 1%nat, p. split; [lia|]. split; [reflexivity|]. cbn [lrun]. exact L0. }
    assert (HB : Forall is_byte b /\ Forall is_byte (w_bytes w')).
    { clear -EW HW. unfold wread in EW. destruct (w_bytes (pt_in p)) as [|x l] eqn:EB.
      - destruct (w_end (pt_in p)); [|discriminate]. apply Ok_inj, pair_equal_spec in EW as [<- <-]. rewrite EB. split; constructor.
      - rewrite <- EB in *. apply Ok_inj, pair_equal_spec in EW as [<- <-]. cbn [w_bytes].
        split; [now apply Forall_ztake|now apply Forall_zdrop]. }
    destruct HB as [HB1 HB2]. cbv zeta in L0 |- *.
    assert (HRB : Forall is_byte (resp ++ b)) by (apply Forall_app; auto).
    assert (G : forall (remaining' : Z) (found' : bool) (exc' : option Z),
      lstep (PRecv count offset acc resp remaining found exc, p) = (PRecv count offset acc (resp ++ b) remaining' found' exc', mkPort (pt_dev p) w') ->
      Z.max 0 remaining' + (if found' then 0 else 260) < Z.of_nat fuel ->
      exists n p', (n <= S fuel)%nat /\ pt_dev p' = pt_dev p /\
        lrun n (PRecv count offset acc resp remaining found exc, p) =
        (match rtu_recv fuel (total c) (resp ++ b) remaining' found' exc' w' with
         | Raise e => fails c e
         | Ok (resp', exc', _) => checked slave c count offset acc resp' exc'
         end, p')).
    { intros remaining' found' exc' HL HM.
      destruct (IH count offset acc (resp ++ b) remaining' found' exc' (mkPort (pt_dev p) w') HRB HB2 HM) as (n & p' & Hn & Hp & HE).
      exists (S n), p'. split; [lia|]. split; [exact Hp|]. cbn [lrun]. rewrite HL. exact HE. }
    destruct (Z.ltb_spec 0 (zlen b)) as [Hb|Hb].
    2:{ exists 1%nat, (mkPort (pt_dev p) w'). split; [lia|]. split; [reflexivity|]. cbn [lrun]. exact L0. }
    destruct (negb found && (5 <=? zlen (resp ++ b))) eqn:EC.
    - apply andb_true_iff in EC as [EF E5]. destruct found; [discriminate|].
      destruct (Z.land (znth 1 (resp ++ b)) 128 =? 0).
      + apply G; [exact L0|]. pose proof (total_le _ HRB). lia.
      + apply G; [exact L0|]. cbv iota in HF |- *. lia.
    - apply G; [exact L0|]. destruct found; lia.
  Qed.

  (** one request and its response *)
  Lemma request_run count offset acc req p : sends_bytes dev -> 0 < count -> request slave c count offset = Ok req ->
    exists n p', (n <= 295)%nat /\ pt_dev p' = fst (dev (pt_dev p) req) /\
      lrun n (PLoop count offset acc, p) =
      (match snd (dev (pt_dev p) req) with
       | None => fails c EModbusClient
       | Some w => match rtu_recv recv_fuel (total c) [] 5 false None w with
                   | Raise e => fails c e
                   | Ok (resp', exc', _) => checked slave c count offset acc resp' exc'
                   end
       end, p').
  Proof.
    intros HB Hc HQ.
    assert (L1 : lstep (PLoop count offset acc, p) = (PSend count offset acc req, mkPort (pt_dev p) no_input)).
    { unfold lstep. cbn [fst snd local_step]. rewrite (proj2 (Z.ltb_lt 0 count) Hc), HQ. reflexivity. }
    destruct (dev (pt_dev p) req) as [s' [w|]] eqn:ED; cbn [fst snd].
    - assert (L2 : lstep (PSend count offset acc req, mkPort (pt_dev p) no_input) = (PRecv count offset acc [] 5 false None, mkPort s' w)).
      { unfold lstep. cbn [fst snd local_step pt_dev]. rewrite ED. reflexivity. }
      assert (HK : forall fuel, (290 <= fuel)%nat -> rtu_recv fuel (total c) [] 5 false None w = rtu_recv 290 (total c) [] 5 false None w).
      { intros fuel Hf.
        assert (M : forall f1 f2 resp remaining (found : bool) exc w0, Forall is_byte resp -> Forall is_byte (w_bytes w0) ->
          Z.max 0 remaining + (if found then 0 else 260) < Z.of_nat f1 -> (f1 <= f2)%nat ->
          rtu_recv f2 (total c) resp remaining found exc w0 = rtu_recv f1 (total c) resp remaining found exc w0).
        { clear. induction f1 as [|f1 IH]; intros f2 resp remaining found exc w0 HR HW HM HL; [destruct found; lia|].
          destruct f2 as [|f2]; [lia|]. cbn [rtu_recv]. destruct (Z.ltb_spec 0 remaining) as [Hr|Hr]; [|reflexivity].
          destruct (wread remaining w0) as [ [b w']|e] eqn:EW; cbn [bind]; [|reflexivity].
          assert (HB : Forall is_byte b /\ Forall is_byte (w_bytes w')).
          { clear -EW HW. unfold wread in EW. destruct (w_bytes w0) as [|x l] eqn:EB.
            - destruct (w_end w0); [|discriminate]. apply Ok_inj, pair_equal_spec in EW as [<- <-]. rewrite EB. split; constructor.
            - rewrite <- EB in *. apply Ok_inj, pair_equal_spec in EW as [<- <-]. cbn [w_bytes].
              split; [now apply Forall_ztake|now apply Forall_zdrop]. }
          destruct HB as [HB1 HB2]. assert (HRB : Forall is_byte (resp ++ b)) by (apply Forall_app; auto). cbv zeta.
          destruct (Z.ltb_spec 0 (zlen b)) as [Hb|Hb]; [|reflexivity].
          destruct (negb found && (5 <=? zlen (resp ++ b))) eqn:EC.
          - apply andb_true_iff in EC as [EF E5]. destruct found; [discriminate|].
            destruct (Z.land (znth 1 (resp ++ b)) 128 =? 0).
            + apply IH; auto; [|lia]. pose proof (total_le _ HRB). lia.
            + apply IH; auto; [|lia]. cbv iota in HM |- *. lia.
          - apply IH; auto; [|lia]. destruct found; lia. }
        apply M; auto; [exact (HB _ _ _ _ ED)|lia]. }
      rewrite (HK recv_fuel) by (apply Nat.leb_le; reflexivity).
      destruct (recv_run 290 count offset acc [] 5 false None (mkPort s' w) (Forall_nil _) (HB _ _ _ _ ED) ltac:(lia)) as (n & p' & Hn & Hp & HE).
      exists (2 + n)%nat, p'. split; [lia|]. split; [exact Hp|]. change (2 + n)%nat with (S (S n)). cbn [lrun]. rewrite L1, L2. exact HE.
    - exists 2%nat, (mkPort s' no_input). split; [lia|]. split; [reflexivity|]. cbn [lrun]. rewrite L1. unfold lstep. cbn [fst snd local_step pt_dev pt_in].
      rewrite ED. reflexivity.
  Qed.
End Alone.

(** one request in the words of the threads; [R] is the receive loop (kept abstract: unfolding it is slow) *)
Definition reply_spec (R : scall -> wire -> res (bytes * option Z * wire)) : Prop :=
  (forall D (dev : sdev D) slave addr count0 op mc count offset acc s,
  let c := SRead addr count0 op mc in
  rtu_read1 dev false slave (addr + offset) (chunk c count) op s =
  match request slave c count offset with
  | Raise e => (s, Raise e)
  | Ok req =>
    (fst (dev s req),
     match snd (dev s req) with
     | None => Raise EModbusClient
     | Some w =>
       match R c w with
       | Raise e => Raise e
       | Ok (resp, exc, _) =>
         match checked slave c count offset acc resp exc with
         | PDone (RRead (Raise e)) => Raise e
         | PDone _ => Ok []
         | _ => Ok (slice 3 (zlen resp - 2) resp)
         end
       end
     end)
  end) /\
  (forall D (dev : sdev D) slave addr data mc count offset acc s,
  let c := SWrite addr data mc in
  rtu_write1 dev slave (addr + offset) (slice (2 * offset) (2 * offset + chunk c count) data) s =
  match request slave c count offset with
  | Raise e => (s, Raise e)
  | Ok req =>
    (fst (dev s req),
     match snd (dev s req) with
     | None => Raise EModbusClient
     | Some w =>
       match R c w with
       | Raise e => Raise e
       | Ok (resp, exc, _) =>
         match checked slave c count offset acc resp exc with
         | PDone (RWrite (Raise e)) => Raise e
         | _ => Ok tt
         end
       end
     end)
  end) /\
  (forall D (dev : sdev D) slave c count offset acc req p, sends_bytes dev -> 0 < count -> request slave c count offset = Ok req ->
    exists n p', (n <= 295)%nat /\ pt_dev p' = fst (dev (pt_dev p) req) /\
      lrun dev slave c n (PLoop count offset acc, p) =
      (match snd (dev (pt_dev p) req) with
       | None => fails c EModbusClient
       | Some w => match R c w with
                   | Raise e => fails c e
                   | Ok (resp', exc', _) => checked slave c count offset acc resp' exc'
                   end
       end, p')).
Lemma reply_exists : exists R, reply_spec R.
Proof.
  exists (fun c w => rtu_recv recv_fuel (total c) [] 5 false None w). split; [|split].
  - intros D dev slave addr count0 op mc count offset acc s. cbv zeta. unfold rtu_read1. set (c := SRead addr count0 op mc).
    change (rtu_read_req slave op (addr + offset) (chunk c count)) with (request slave c count offset).
    destruct (request slave c count offset) as [req|e]; [|reflexivity].
    destruct (dev s req) as [s' [w|]]; cbn [fst snd]; [|reflexivity]. f_equal.
    unfold rtu_read_response. subst c. cbn [total].
    generalize (rtu_recv recv_fuel read_total [] 5 false None w). intros [ [ [resp exc] w']|e]; cbn [bind]; [|reflexivity].
    unfold checked. destruct (negb (rtu_crc_ok resp)); [reflexivity|]. destruct (exc_raise exc); [reflexivity|].
    destruct (slice 3 (zlen resp - 2) resp); reflexivity.
  - intros D dev slave addr data mc count offset acc s. cbv zeta. unfold rtu_write1. set (c := SWrite addr data mc).
    change (rtu_write_req slave (addr + offset) (slice (2 * offset) (2 * offset + chunk c count) data)) with (request slave c count offset).
    destruct (request slave c count offset) as [req|e]; [|reflexivity].
    destruct (dev s req) as [s' [w|]]; cbn [fst snd]; [|reflexivity]. f_equal.
    unfold rtu_write_response. subst c. cbn [total].
    generalize (rtu_recv recv_fuel write_total [] 5 false None w). intros [ [ [resp exc] w']|e]; cbn [bind]; [|reflexivity].
    unfold checked. destruct (negb (rtu_crc_ok resp)); [reflexivity|]. destruct (exc_raise exc); [reflexivity|].
    destruct (negb (zlen resp =? 8)); [reflexivity|]. destruct (_ || _)%bool; reflexivity.
  - intros D dev slave c count offset acc req p. exact (request_run dev slave c count offset acc req p).
Qed.
Lemma read_run {D} (dev : sdev D) slave addr count0 op mc : sends_bytes dev -> 1 <= mc ->
  forall fuel count offset acc p, (Z.to_nat count < fuel)%nat ->
  let c := SRead addr count0 op mc in
  let out := rtu_read_loop dev false fuel slave addr count op mc offset acc (pt_dev p) in
  exists n p', Z.of_nat n <= 1 + 300 * Z.max 0 count /\ pt_dev p' = fst out /\
    lrun dev slave c n (PLoop count offset acc, p) = (PDone (RRead (snd out)), p').
Proof.
  intros HB Hmc. destruct reply_exists as [R (RR & RW & RQ)]. induction fuel as [|fuel IH]; intros count offset acc p HF; [lia|]. cbv zeta. cbn [rtu_read_loop].
  set (c := SRead addr count0 op mc).
  destruct (Z.ltb_spec 0 count) as [Hc|Hc].
  2:{ exists 1%nat, p. split; [lia|]. split; [reflexivity|]. cbn [lrun]. unfold lstep. cbn [fst snd local_step].
      destruct (Z.ltb_spec 0 count); [lia|]. reflexivity. }
  change (if mc <? count then mc else count) with (chunk c count).
  assert (Hrc : 1 <= chunk c count <= count) by (unfold c; cbn [chunk]; destruct (Z.ltb_spec mc count); lia).
  pose proof (RR D dev slave addr count0 op mc count offset acc (pt_dev p)) as E1. cbv zeta in E1. fold c in E1. rewrite E1. clear E1.
  destruct (request slave c count offset) as [req|e] eqn:EQ.
  2:{ exists 1%nat, p. split; [lia|]. split; [reflexivity|]. cbn [lrun]. unfold lstep. cbn [fst snd local_step].
      rewrite (proj2 (Z.ltb_lt 0 count) Hc), EQ. reflexivity. }
  destruct (RQ D dev slave c count offset acc req p HB Hc EQ) as (n & p1 & Hn & Hp1 & HE).
  destruct (dev (pt_dev p) req) as [s' [w|]] eqn:ED; cbn [fst snd] in *.
  2:{ exists n, p1. split; [lia|]. split; [exact Hp1|]. exact HE. }
  destruct (R c w) as [ [ [resp exc] w']|e].
  2:{ exists n, p1. split; [lia|]. split; [exact Hp1|]. exact HE. }
  assert (HK : (exists r, checked slave c count offset acc resp exc = PDone (RRead r) /\ (r = Ok None \/ exists e, r = Raise e)) \/
    exists d l, slice 3 (zlen resp - 2) resp = d :: l /\
    checked slave c count offset acc resp exc = PLoop (count - chunk c count) (offset + chunk c count) (acc ++ d :: l)).
  { clear. unfold checked. destruct (negb (rtu_crc_ok resp)); [left; eexists; split; [reflexivity|right; eauto]|].
    destruct (exc_raise exc); [left; eexists; split; [reflexivity|right; eauto]|]. unfold c at 1 3 5.
    destruct (slice 3 (zlen resp - 2) resp) as [|d l]; [left; eauto|right; eauto]. }
  destruct HK as [(r & HK & Hr)|(d & l & HS & HK)]; rewrite HK in *.
  - exists n, p1. split; [lia|]. destruct Hr as [->|[e ->]]; cbn [fst snd]; split; assumption.
  - rewrite HS.
    destruct (IH (count - chunk c count) (offset + chunk c count) (acc ++ d :: l) p1 ltac:(lia)) as (n2 & p2 & Hn2 & Hp2 & HE2). rewrite Hp1 in *.
    exists (n + n2)%nat, p2. split; [lia|]. split; [exact Hp2|]. rewrite lrun_add, HE. exact HE2.
Qed.
Lemma write_run {D} (dev : sdev D) slave addr data mc : sends_bytes dev -> 1 <= mc ->
  forall fuel count offset acc p, (Z.to_nat count < fuel)%nat ->
  let c := SWrite addr data mc in
  let out := rtu_write_loop dev fuel slave addr count mc offset data (pt_dev p) in
  exists n p', Z.of_nat n <= 1 + 300 * Z.max 0 count /\ pt_dev p' = fst out /\
    lrun dev slave c n (PLoop count offset acc, p) = (PDone (RWrite (snd out)), p').
Proof.
  intros HB Hmc. destruct reply_exists as [R (RR & RW & RQ)]. induction fuel as [|fuel IH]; intros count offset acc p HF; [lia|]. cbv zeta. cbn [rtu_write_loop].
  set (c := SWrite addr data mc).
  destruct (Z.ltb_spec 0 count) as [Hc|Hc].
  2:{ exists 1%nat, p. split; [lia|]. split; [reflexivity|]. cbn [lrun]. unfold lstep. cbn [fst snd local_step].
      destruct (Z.ltb_spec 0 count); [lia|]. reflexivity. }
  change (if 2 * mc <? count then 2 * mc else count) with (chunk c count).
  assert (Hwc : 1 <= chunk c count <= count) by (unfold c; cbn [chunk]; destruct (Z.ltb_spec (2 * mc) count); lia).
  pose proof (RW D dev slave addr data mc count offset acc (pt_dev p)) as E1. cbv zeta in E1. fold c in E1. rewrite E1. clear E1.
  destruct (request slave c count offset) as [req|e] eqn:EQ.
  2:{ exists 1%nat, p. split; [lia|]. split; [reflexivity|]. cbn [lrun]. unfold lstep. cbn [fst snd local_step].
      rewrite (proj2 (Z.ltb_lt 0 count) Hc), EQ. reflexivity. }
  destruct (RQ D dev slave c count offset acc req p HB Hc EQ) as (n & p1 & Hn & Hp1 & HE).
  destruct (dev (pt_dev p) req) as [s' [w|]] eqn:ED; cbn [fst snd] in *.
  2:{ exists n, p1. split; [lia|]. split; [exact Hp1|]. exact HE. }
  destruct (R c w) as [ [ [resp exc] w']|e].
  2:{ exists n, p1. split; [lia|]. split; [exact Hp1|]. exact HE. }
  assert (HK : (exists e, checked slave c count offset acc resp exc = PDone (RWrite (Raise e))) \/
    checked slave c count offset acc resp exc = PLoop (count - chunk c count) (offset + chunk c count / 2) []).
  { clear. unfold checked. destruct (negb (rtu_crc_ok resp)); [left; eexists; reflexivity|].
    destruct (exc_raise exc); [left; eexists; reflexivity|]. cbv delta [c] iota.
    destruct (negb (zlen resp =? 8)); [left; eexists; reflexivity|]. destruct (_ || _)%bool; [left; eexists; reflexivity|right; reflexivity]. }
  destruct HK as [(e & HK)|HK]; rewrite HK in *.
  - exists n, p1. split; [lia|]. cbn [fst snd]; split; assumption.
  - destruct (IH (count - chunk c count) (offset + chunk c count / 2) [] p1 ltac:(lia)) as (n2 & p2 & Hn2 & Hp2 & HE2). rewrite Hp1 in *.
    exists (n + n2)%nat, p2. split; [lia|]. split; [exact Hp2|]. rewrite lrun_add, HE. exact HE2.
Qed.
Lemma call_run {D} (dev : sdev D) slave c p n : sends_bytes dev -> 1 <= max_count_of c -> enough c <= Z.of_nat n ->
  exists p', pt_dev p' = fst (sequential dev slave c (pt_dev p)) /\
    lrun dev slave c n (begins c, p) = (PDone (snd (sequential dev slave c (pt_dev p))), p').
Proof.
  intros HB Hmc HE. destruct c as [addr count op mc|addr data mc]; cbn [max_count_of] in Hmc; unfold enough in HE; cbn [size_of] in HE.
  - destruct (read_run dev slave addr count op mc HB Hmc (S (Z.to_nat count)) count 0 [] p ltac:(lia)) as (n1 & p' & Hn & Hp & HL).
    cbn [begins sequential]. unfold rtu_read. destruct (rtu_read_loop _ _ _ _ _ _ _ _ _ _ _) as [s' r] eqn:ER. cbn [fst snd] in *.
    exists p'. split; [exact Hp|]. replace n with (n1 + (n - n1))%nat by lia. rewrite lrun_add, HL. apply lrun_done.
  - destruct (write_run dev slave addr data mc HB Hmc (S (length data)) (zlen data) 0 [] p ltac:(unfold zlen; lia)) as (n1 & p' & Hn & Hp & HL).
    cbn [begins sequential]. unfold rtu_write. destruct (rtu_write_loop _ _ _ _ _ _ _ _ _) as [s' r] eqn:ER. cbn [fst snd] in *.
    exists p'. split; [exact Hp|]. replace n with (n1 + (n - n1))%nat by lia. rewrite lrun_add, HL. apply lrun_done.
Qed.

(** ** many threads *)
Lemma nth_put_same {A} (l : list A) i x y : nth_error l i = Some y -> nth_error (put_nth l i x) i = Some x.
Proof. revert i. induction l as [|a l IH]; intros [|i] H; cbn in *; try discriminate; auto. Qed.
Lemma nth_put_other {A} (l : list A) i j x : i <> j -> nth_error (put_nth l i x) j = nth_error l j.
Proof. revert i j. induction l as [|a l IH]; intros [|i] [|j] H; cbn; auto; try congruence. Qed.
(** nothing of a step reaches a thread or port that is not the stepping thread's *)
Lemma sstep_other {D} (dev : nat -> sdev D) w i j : i <> j -> nth_error (sw_threads (sstep dev w i)) j = nth_error (sw_threads w) j.
Proof.
  intros H. unfold sstep. destruct (nth_error (sw_threads w) i) as [t|] eqn:E; [|reflexivity].
  destruct (local_step _ _ _ _ _). cbn [sw_threads]. now apply nth_put_other.
Qed.
Lemma sstep_port {D} (dev : nat -> sdev D) w i q : (forall t, nth_error (sw_threads w) i = Some t -> st_port t <> q) -> sw_ports (sstep dev w i) q = sw_ports w q.
Proof.
  intros H. unfold sstep. destruct (nth_error (sw_threads w) i) as [t|] eqn:E; [|reflexivity].
  destruct (local_step _ _ _ _ _). cbn [sw_ports]. unfold upd. specialize (H t eq_refl). destruct (Nat.eqb_spec q (st_port t)); [congruence|reflexivity].
Qed.
Lemma sstep_ports {D} (dev : nat -> sdev D) w i : map st_port (sw_threads (sstep dev w i)) = map st_port (sw_threads w).
Proof.
  unfold sstep. destruct (nth_error (sw_threads w) i) as [t|] eqn:E; [|reflexivity].
  destruct (local_step _ _ _ _ _) as [pc p]. cbn [sw_threads].
  assert (G : forall l k, nth_error l k = Some t -> map st_port (put_nth l k (mkS (st_port t) (st_slave t) (st_call t) pc)) = map st_port l).
  { induction l as [|a l IH]; intros [|k] H; cbn in *; try discriminate; [now apply Some_inj in H as ->|f_equal; auto]. }
  now apply G.
Qed.
Definition at_step (t : sthread) (pc : spc) : sthread := mkS (st_port t) (st_slave t) (st_call t) pc.
Lemma sstep_self {D} (dev : nat -> sdev D) w i t : nth_error (sw_threads w) i = Some t ->
  let x := lstep (dev (st_port t)) (st_slave t) (st_call t) (st_pc t, sw_ports w (st_port t)) in
  nth_error (sw_threads (sstep dev w i)) i = Some (at_step t (fst x)) /\ sw_ports (sstep dev w i) (st_port t) = snd x.
Proof.
  intros H. cbv zeta. unfold sstep, lstep. rewrite H. cbn [fst snd]. destruct (local_step _ _ _ _ _) as [pc p]. cbn [fst snd sw_threads sw_ports].
  split; [eapply nth_put_same; exact H|]. unfold upd. now rewrite Nat.eqb_refl.
Qed.
Lemma ports_distinct {D} (w : sworld D) i j t u : NoDup (map st_port (sw_threads w)) -> nth_error (sw_threads w) i = Some t ->
  nth_error (sw_threads w) j = Some u -> i <> j -> st_port u <> st_port t.
Proof.
  intros HN Hi Hj Hij E. apply Hij. apply (proj1 (NoDup_nth_error _) HN).
  - rewrite map_length. apply nth_error_Some. congruence.
  - rewrite !nth_error_map, Hi, Hj. cbn. congruence.
Qed.
Lemma sched_run {D} (dev : nat -> sdev D) sched : forall w i t, NoDup (map st_port (sw_threads w)) -> nth_error (sw_threads w) i = Some t ->
  let x := lrun (dev (st_port t)) (st_slave t) (st_call t) (length (turns i sched)) (st_pc t, sw_ports w (st_port t)) in
  nth_error (sw_threads (ssched dev w sched)) i = Some (at_step t (fst x)) /\ sw_ports (ssched dev w sched) (st_port t) = snd x.
Proof.
  induction sched as [|j sched IH]; intros w i t HN HT; cbv zeta.
  - cbn. split; [|reflexivity]. rewrite HT. now destruct t.
  - change (ssched dev w (j :: sched)) with (ssched dev (sstep dev w j) sched). unfold turns. cbn [filter]. destruct (Nat.eqb_spec i j) as [<-|Hij].
    + destruct (sstep_self dev w i t HT) as [H1 H2]. cbv zeta in H1, H2. cbn [length lrun].
      destruct (lstep (dev (st_port t)) (st_slave t) (st_call t) (st_pc t, sw_ports w (st_port t))) as [pc p]. cbn [fst snd] in *.
      destruct (IH (sstep dev w i) i _ ltac:(now rewrite sstep_ports) H1) as [H3 H4]. cbn [at_step st_port st_slave st_call st_pc] in H3, H4.
      rewrite H2 in H3, H4. unfold turns in H3, H4. split; assumption.
    + rewrite <- (sstep_other dev w j i) in HT by congruence.
      destruct (IH (sstep dev w j) i t ltac:(now rewrite sstep_ports) HT) as [H3 H4].
      assert (EP : sw_ports (sstep dev w j) (st_port t) = sw_ports w (st_port t)).
      { apply sstep_port. rewrite (sstep_other dev w j i) in HT by congruence. intros u Hu. eapply ports_distinct; eauto. }
      rewrite EP in H3, H4. split; assumption.
Qed.
Lemma sched_alone {D} (dev : nat -> sdev D) n : forall w i t, nth_error (sw_threads w) i = Some t ->
  let x := lrun (dev (st_port t)) (st_slave t) (st_call t) n (st_pc t, sw_ports w (st_port t)) in
  let w' := ssched dev w (repeat i n) in
  nth_error (sw_threads w') i = Some (at_step t (fst x)) /\ sw_ports w' (st_port t) = snd x /\
  (forall j, j <> i -> nth_error (sw_threads w') j = nth_error (sw_threads w) j) /\ forall q, q <> st_port t -> sw_ports w' q = sw_ports w q.
Proof.
  induction n as [|n IH]; intros w i t HT; cbv zeta.
  - cbn. repeat split; auto. rewrite HT. now destruct t.
  - cbn [repeat]. change (ssched dev w (i :: repeat i n)) with (ssched dev (sstep dev w i) (repeat i n)). cbn [lrun].
    destruct (sstep_self dev w i t HT) as [H1 H2]. cbv zeta in H1, H2.
    destruct (lstep (dev (st_port t)) (st_slave t) (st_call t) (st_pc t, sw_ports w (st_port t))) as [pc p]. cbn [fst snd] in *.
    destruct (IH (sstep dev w i) i _ H1) as (H3 & H4 & H5 & H6). cbn [at_step st_port st_slave st_call st_pc] in H3, H4, H6. rewrite H2 in H3, H4.
    repeat split; auto.
    + intros j Hj. rewrite H5 by exact Hj. apply sstep_other. congruence.
    + intros q Hq. rewrite H6 by exact Hq. apply sstep_port. intros u Hu. congruence.
Qed.
