(** * P_Torn *)
From Verif Require Import Py P_List M_Util M_Float M_Suns S_Codec P_Codec M_Mbmap M_Device S_Device P_Device M_Client S_Client P_Client P_Client2 P_Client3 P_Client4 S_Torn.

(** the writes of a list carried out in order up to the first that fails *)
Inductive executed {D} (dv : mdev D) : D -> list (Z * bytes) -> D -> bool -> Prop :=
| ex_nil s : executed dv s [] s true
| ex_fail s w ws s' e : dv_write dv s (fst w) (snd w) = (s', Raise e) -> executed dv s (w :: ws) s' false
| ex_ok s w ws s1 s' b : dv_write dv s (fst w) (snd w) = (s1, Ok tt) -> executed dv s1 ws s' b -> executed dv s (w :: ws) s' b.
Lemma executed_app {D} (dv : mdev D) s ws s1 ws' s2 b : executed dv s ws s1 true -> executed dv s1 ws' s2 b -> executed dv s (ws ++ ws') s2 b.
Proof.
  intros H. remember true as t eqn:ET. induction H; intros H2; [exact H2|discriminate|]. cbn [app]. econstructor; eauto.
Qed.
Lemma executed_stop {D} (dv : mdev D) s ws s1 ws' : executed dv s ws s1 false -> executed dv s (ws ++ ws') s1 false.
Proof. intros H. remember false as t eqn:ET. induction H; [discriminate| |]; cbn [app]; [eapply ex_fail; eauto|econstructor; eauto]. Qed.

Lemma cl_write_log lg a d : cl_write log_dev lg a d = (lg ++ [(a, d)], Ok tt).
Proof. reflexivity. Qed.
Definition isok {A} (r : res A) : bool := match r with Ok _ => true | Raise _ => false end.
Lemma cl_write_exec {D} (dv : mdev D) s a d s' r : cl_write dv s a d = (s', r) -> executed dv s [(a, d)] s' (isok r).
Proof.
  unfold cl_write. destruct (dv_write dv s a d) as [s1 [[]|e]] eqn:E; intros H; apply pair_equal_spec in H as [<- <-]; cbn [isok].
  - econstructor; [exact E|constructor].
  - eapply ex_fail. exact E.
Qed.

Section Sim.
  Context {D : Type} (dv : mdev D).
  Lemma write_pts_exec l : forall lg addr next data lg' pts pd, write_pts log_dev lg addr next data l = (lg', pts, Ok pd) ->
    exists ws, lg' = lg ++ ws /\ forall s s' pts' r, write_pts dv s addr next data l = (s', pts', r) ->
      executed dv s ws s' (isok r) /\ (forall pd', r = Ok pd' -> pd' = pd).
  Proof.
    induction l as [|p l IH]; intros lg addr next data lg' pts pd H.
    - cbn [write_pts] in H. apply pair_equal_spec in H as [H E]. apply pair_equal_spec in H as [<- <-]. apply Ok_inj in E. exists []. rewrite app_nil_r. split; [reflexivity|].
      intros s s' pts' r H. cbn [write_pts] in H. apply pair_equal_spec in H as [H <-]. apply pair_equal_spec in H as [<- <-]. split; [constructor|].
      intros pd' E'. apply Ok_inj in E'. congruence.
    - cbn [write_pts] in *. destruct (p_dirty p).
      + destruct (to_data _ _ _) as [d|e]; [|apply pair_equal_spec in H as [_ H]; discriminate].
        destruct addr as [a|]; [destruct (p_addr p =? next)|].
        * destruct (write_pts log_dev lg (Some a) (p_addr p + pt_len (p_type p)) (data ++ d) l) as [[lg1 pts1] r1] eqn:E1.
          apply pair_equal_spec in H as [H ->]. apply pair_equal_spec in H as [-> _].
          destruct (IH _ _ _ _ _ _ _ E1) as (ws & -> & HS). exists ws. split; [reflexivity|].
          intros s s' pts' r H. destruct (write_pts dv s (Some a) _ _ l) as [[s1 q1] r1] eqn:E2. apply pair_equal_spec in H as [H <-]. apply pair_equal_spec in H as [<- _].
          eapply HS. exact E2.
        * rewrite cl_write_log in H. cbn [app] in H.
          destruct (write_pts log_dev (lg ++ [(a, data)]) (Some (p_addr p)) (p_addr p + pt_len (p_type p)) d l) as [[lg1 pts1] r1] eqn:E1.
          apply pair_equal_spec in H as [H ->]. apply pair_equal_spec in H as [-> _].
          destruct (IH _ _ _ _ _ _ _ E1) as (ws & -> & HS). exists ((a, data) :: ws). split; [now rewrite <- app_assoc|].
          intros s s' pts' r H. destruct (cl_write dv s a data) as [s1 [u|e]] eqn:EW; apply cl_write_exec in EW; cbn [isok] in EW.
          -- cbn [app] in H. destruct (write_pts dv s1 (Some (p_addr p)) _ d l) as [[s2 q1] r1] eqn:E2. apply pair_equal_spec in H as [H <-]. apply pair_equal_spec in H as [<- _].
             destruct (HS _ _ _ _ E2) as [X1 X2]. split; [|exact X2]. apply (executed_app dv s [(a, data)] s1 ws s2); assumption.
          -- apply pair_equal_spec in H as [H <-]. apply pair_equal_spec in H as [<- _]. split; [|discriminate].
             apply (executed_stop dv s [(a, data)] s1 ws EW).
        * cbn [app] in H. destruct (write_pts log_dev lg (Some (p_addr p)) (p_addr p + pt_len (p_type p)) d l) as [[lg1 pts1] r1] eqn:E1.
          apply pair_equal_spec in H as [H ->]. apply pair_equal_spec in H as [-> _].
          destruct (IH _ _ _ _ _ _ _ E1) as (ws & -> & HS). exists ws. split; [reflexivity|].
          intros s s' pts' r H. cbn [app] in H. destruct (write_pts dv s (Some (p_addr p)) _ d l) as [[s1 q1] r1] eqn:E2. apply pair_equal_spec in H as [H <-]. apply pair_equal_spec in H as [<- _].
          eapply HS. exact E2.
      + destruct (write_pts log_dev lg addr next data l) as [[lg1 pts1] r1] eqn:E1.
        apply pair_equal_spec in H as [H ->]. apply pair_equal_spec in H as [-> _].
        destruct (IH _ _ _ _ _ _ _ E1) as (ws & -> & HS). exists ws. split; [reflexivity|].
        intros s s' pts' r H. destruct (write_pts dv s addr next data l) as [[s1 q1] r1] eqn:E2. apply pair_equal_spec in H as [H <-]. apply pair_equal_spec in H as [<- _].
        eapply HS. exact E2.
  Qed.
  Lemma write_blocks_exec l : forall lg lg' bs, write_blocks log_dev lg l = (lg', bs, Ok tt) ->
    exists ws, lg' = lg ++ ws /\ forall s s' bs' r, write_blocks dv s l = (s', bs', r) -> executed dv s ws s' (isok r).
  Proof.
    induction l as [|b l IH]; intros lg lg' bs H.
    - cbn [write_blocks] in H. apply pair_equal_spec in H as [H _]. apply pair_equal_spec in H as [<- _]. exists []. rewrite app_nil_r. split; [reflexivity|].
      intros s s' bs' r H. cbn [write_blocks] in H. apply pair_equal_spec in H as [H <-]. apply pair_equal_spec in H as [<- _]. constructor.
    - cbn [write_blocks] in H. destruct (write_pts log_dev lg None 0 [] (b_points b)) as [[lg1 pts] r1] eqn:E1.
      destruct r1 as [[[addr nx] data]|e]; [|apply pair_equal_spec in H as [_ H]; discriminate].
      destruct (write_pts_exec _ _ _ _ _ _ _ _ E1) as (ws & -> & HS).
      destruct addr as [a|].
      + rewrite cl_write_log in H. destruct (write_blocks log_dev ((lg ++ ws) ++ [(a, data)]) l) as [[lg2 bs2] r2] eqn:E2.
        apply pair_equal_spec in H as [H ->]. apply pair_equal_spec in H as [-> _]. destruct (IH _ _ _ E2) as (ws2 & -> & HS2).
        exists (ws ++ (a, data) :: ws2). split; [now rewrite <- !app_assoc|].
        intros s s' bs' r H. cbn [write_blocks] in H. destruct (write_pts dv s None 0 [] (b_points b)) as [[s1 q1] r1] eqn:F1.
        destruct (HS _ _ _ _ F1) as [X1 X2]. destruct r1 as [[[addr' nx'] data']|e].
        * specialize (X2 _ eq_refl). apply pair_equal_spec in X2 as [X2 ->]. apply pair_equal_spec in X2 as [-> ->].
          apply (executed_app dv s ws s1); [exact X1|].
          destruct (cl_write dv s1 a data) as [s2 [u|e]] eqn:EW; apply cl_write_exec in EW; cbn [isok] in EW.
          -- destruct (write_blocks dv s2 l) as [[s3 q3] r3] eqn:F3. apply pair_equal_spec in H as [H <-]. apply pair_equal_spec in H as [<- _].
             apply (executed_app dv s1 [(a, data)] s2 ws2); [exact EW|]. eapply HS2. exact F3.
          -- apply pair_equal_spec in H as [H <-]. apply pair_equal_spec in H as [<- _]. apply (executed_stop dv s1 [(a, data)] s2 ws2 EW).
        * apply pair_equal_spec in H as [H <-]. apply pair_equal_spec in H as [<- _]. apply executed_stop. exact X1.
      + destruct (write_blocks log_dev (lg ++ ws) l) as [[lg2 bs2] r2] eqn:E2.
        apply pair_equal_spec in H as [H ->]. apply pair_equal_spec in H as [-> _]. destruct (IH _ _ _ E2) as (ws2 & -> & HS2).
        exists (ws ++ ws2). split; [now rewrite <- !app_assoc|].
        intros s s' bs' r H. cbn [write_blocks] in H. destruct (write_pts dv s None 0 [] (b_points b)) as [[s1 q1] r1] eqn:F1.
        destruct (HS _ _ _ _ F1) as [X1 X2]. destruct r1 as [[[addr' nx'] data']|e].
        * specialize (X2 _ eq_refl). apply pair_equal_spec in X2 as [X2 ->]. apply pair_equal_spec in X2 as [-> ->].
          apply (executed_app dv s ws s1); [exact X1|].
          destruct (write_blocks dv s1 l) as [[s3 q3] r3] eqn:F3. apply pair_equal_spec in H as [H <-]. apply pair_equal_spec in H as [<- _].
          eapply HS2. exact F3.
        * apply pair_equal_spec in H as [H <-]. apply pair_equal_spec in H as [<- _]. apply executed_stop. exact X1.
  Qed.
End Sim.

(** every byte of the memory after such writes is the old one or one of the data *)
Lemma in_cells a d x : 2 * a <= x < 2 * a + zlen d -> In (x, znth (x - 2 * a) d) (cells (a, d)).
Proof.
  intros H. unfold cells. cbn [fst snd]. remember (2 * a) as b eqn:E. clear E. revert b H. induction d as [|y d IH]; intros b H.
  - change (zlen (@nil Z)) with 0 in H. lia.
  - rewrite zlen_cons in H. cbn [length]. rewrite zseq_S. cbn [combine]. destruct (Z.eq_dec x b) as [->|N].
    + left. unfold znth. rewrite Z.sub_diag. reflexivity.
    + right. replace (znth (x - b) (y :: d)) with (znth (x - (b + 1)) d).
      * apply IH. lia.
      * unfold znth. replace (Z.to_nat (x - b)) with (S (Z.to_nat (x - (b + 1)))) by lia. reflexivity.
Qed.
Lemma prefix_some {D} (dv : mdev D) (mem : D -> memory) : stores_prefix dv mem -> stores_some dv mem.
Proof. intros H s a d s' r H1 H2 H3. destruct (H s a d s' r H1 H2 H3) as (k & K1 & K2 & _). eauto. Qed.
Lemma some_bytes (f g : memory) a d k x : 0 <= k <= zlen d -> f x = mem_store g a (ztake k d) x -> f x = g x \/ In (x, f x) (cells (a, d)).
Proof.
  intros K1 ->. unfold mem_store.
  destruct (Z.leb_spec (2 * a) x), (Z.ltb_spec x (2 * a + zlen (ztake k d))); cbn [andb]; auto. right.
  rewrite zlen_ztake in * by lia. unfold znth at 1, ztake. replace (nth (Z.to_nat (x - 2 * a)) (firstn (Z.to_nat k) d) 0) with (znth (x - 2 * a) d).
  - apply in_cells. lia.
  - unfold znth. rewrite <- (firstn_skipn (Z.to_nat k) d) at 1. rewrite app_nth1; [reflexivity|]. rewrite firstn_length. unfold zlen in *. lia.
Qed.
Lemma executed_bytes {D} (dv : mdev D) (mem : D -> memory) : stores_some dv mem ->
  forall ws s s' b, executed dv s ws s' b -> Forall (fun w => zlen (snd w) mod 2 = 0 /\ Forall is_byte (snd w)) ws ->
  forall x, mem s' x = mem s x \/ In (x, mem s' x) (flat_map cells ws).
Proof.
  intros HP ws s s' b H. induction H as [s|s [a d] ws s' e HW|s [a d] ws s1 s' b HW H IH]; intros HF x.
  - now left.
  - inversion HF as [|? ? (F1 & F2) _]; subst. cbn [fst snd] in *. destruct (HP _ _ _ _ _ F1 F2 HW) as (k & K1 & K2).
    destruct (some_bytes _ _ _ _ _ x K1 (K2 x)) as [E|E]; [now left|right]. cbn [flat_map]. apply in_or_app. now left.
  - inversion HF as [|? ? (F1 & F2) HF2]; subst. cbn [fst snd] in *. destruct (HP _ _ _ _ _ F1 F2 HW) as (k & K1 & K2).
    cbn [flat_map]. destruct (IH HF2 x) as [E|E]; [|right; apply in_or_app; now right]. rewrite E.
    destruct (some_bytes _ _ _ _ _ x K1 (K2 x)) as [G|G]; [now left|right]. apply in_or_app. now left.
Qed.
Lemma in_cells_inv a d x v : In (x, v) (cells (a, d)) -> 2 * a <= x < 2 * a + zlen d /\ v = znth (x - 2 * a) d.
Proof.
  unfold cells. cbn [fst snd]. remember (2 * a) as b eqn:E. clear E. revert b. induction d as [|y d IH]; intros b H; [destruct H|].
  cbn [length] in H. rewrite zseq_S in H. cbn [combine] in H. rewrite zlen_cons. destruct H as [H|H].
  - apply pair_equal_spec in H as [<- <-]. pose proof (zlen_nonneg d). split; [lia|]. unfold znth. rewrite Z.sub_diag. reflexivity.
  - apply IH in H as [H ->]. split; [lia|]. unfold znth. replace (Z.to_nat (x - b)) with (S (Z.to_nat (x - (b + 1)))) by lia. reflexivity.
Qed.
Lemma pcells_new l ds x v : encodings l ds -> In (x, v) (pcells l ds) -> exists p d, In p l /\ encoding p d /\ covers p x /\ v = znth (x - 2 * p_addr p) d.
Proof.
  induction 1 as [|p d l ds HE H IH]; intros HI; [destruct HI|]. unfold pcells in HI. cbn [map combine flat_map] in HI. apply in_app_or in HI as [HI|HI].
  - apply in_cells_inv in HI as [H1 ->]. exists p, d. split; [now left|]. split; [exact HE|]. split; [|reflexivity]. unfold covers. destruct HE as [_ HE]. lia.
  - destruct (IH HI) as (q & e & Q1 & Q2). exists q, e. split; [now right|exact Q2].
Qed.
