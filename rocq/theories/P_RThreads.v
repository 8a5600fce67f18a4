(** * P_RThreads: lemmas for C113. *)
From Verif Require Import Py P_List M_Registry S_Registry P_Registry M_RThreads S_RThreads.

Lemma uses_started t n : uses (started t) n -> uses t n.
Proof.
  intros [(a & Ha & E)|[H|H]]; [|right; left; exact H|right; right; exact H].
  left. exists a. split; [|exact E]. cbn [started t_prog] in Ha. destruct (t_prog t); [contradiction|right; exact Ha].
Qed.
Lemma uses_at_pc t pc n : uses (at_pc t pc) n -> uses t n \/ pc_name pc = Some n.
Proof. intros [H|[H|H]]; [left; left; exact H|right; exact H|left; right; right; exact H]. Qed.
Lemma uses_returns t r n : uses (returns t r) n -> uses t n.
Proof. intros [H|[H|H]]; [left; exact H|discriminate|right; right; exact H]. Qed.
Lemma uses_made t d n : uses (made t d) n -> uses t n \/ qd_name d = n.
Proof.
  intros [H|[H|(e & He & E)]]; [left; left; exact H|left; right; left; exact H|].
  cbn [made t_devs] in He. apply in_app_or in He as [He|[<-|[]]]; [left; right; right; eauto|right; exact E].
Qed.
Lemma uses_pc t n : pc_name (t_pc t) = Some n -> uses t n.
Proof. intros H. right; left; exact H. Qed.

(** a step reads and writes only ports the thread uses *)
Lemma tstep_local i t P Q : (forall n, uses t n -> P n = Q n) -> tstep i t P = tstep i t Q.
Proof.
  intros H. unfold tstep. destruct (t_pc t) eqn:EP.
  - destruct (t_prog t) as [|[slave name baud parity can|k] rest] eqn:ET; [reflexivity| |].
    + rewrite (H name); [reflexivity|]. left. eexists. rewrite ET. split; [now left|reflexivity].
    + destruct (nth_error (t_devs t) k) eqn:ED; [|reflexivity]. rewrite (H (qd_name q)); [reflexivity|].
      right; right. apply nth_error_In in ED. eauto.
  - rewrite (H name); [reflexivity|]. apply uses_pc. now rewrite EP.
  - rewrite (H name); [reflexivity|]. apply uses_pc. now rewrite EP.
  - rewrite (H name); [reflexivity|]. apply uses_pc. now rewrite EP.
  - rewrite (H (qd_name d)); [reflexivity|]. apply uses_pc. now rewrite EP.
  - rewrite (H (qd_name d)); [reflexivity|]. apply uses_pc. now rewrite EP.
  - rewrite (H (qd_name d)); [reflexivity|]. apply uses_pc. now rewrite EP.
  - rewrite (H (qd_name d)); [reflexivity|]. apply uses_pc. now rewrite EP.
  - rewrite (H (qd_name d)); [reflexivity|]. apply uses_pc. now rewrite EP.
Qed.
Lemma tstep_uses i t P : (forall n p, fst (tstep i t P) = Some (n, p) -> uses t n) /\ (forall n, uses (snd (tstep i t P)) n -> uses t n).
Proof.
  assert (HD : forall j d, nth_error (t_devs t) j = Some d -> uses t (qd_name d)) by (intros j d Hd; apply nth_error_In in Hd; right; right; eauto).
  assert (HS : forall pc m, (forall n, pc_name pc = Some n -> uses t n) -> uses (at_pc (started t) pc) m -> uses t m).
  { intros pc m Hpc Hu. apply uses_at_pc in Hu as [Hu|Hu]; [now apply uses_started|now apply Hpc]. }
  assert (HA : forall pc m, (forall n, pc_name pc = Some n -> uses t n) -> uses (at_pc t pc) m -> uses t m).
  { intros pc m Hpc Hu. apply uses_at_pc in Hu as [Hu|Hu]; [exact Hu|now apply Hpc]. }
  assert (HR : forall r m, uses (returns (started t) r) m -> uses t m) by (intros r m Hu; apply uses_started; now apply uses_returns in Hu).
  unfold tstep. destruct (t_pc t) eqn:EP.
  - destruct (t_prog t) as [|[slave name baud parity can|k] rest] eqn:ET; cbn [fst snd].
    + split; [discriminate|auto].
    + assert (HN : uses t name) by (left; eexists; rewrite ET; split; [now left|reflexivity]).
      destruct (q_reg (P name)).
      * destruct (match baud with Some b => negb _ | None => false end); cbn [fst snd]; [split; [discriminate|apply HR]|].
        destruct (match parity with Some b => negb _ | None => false end); cbn [fst snd]; [split; [discriminate|apply HR]|].
        split; [discriminate|]. intros m. apply HS. cbn. intros ? [= <-]. exact HN.
      * cbn [fst snd]. split; [discriminate|]. intros m. apply HS. cbn. intros ? [= <-]. exact HN.
    + destruct (nth_error (t_devs t) k) eqn:ED; cbn [fst snd]; (split; [discriminate|]); [|apply HR].
      intros m. apply HS. intros n. destruct (has _ _); cbn; intros [= <-]; eauto.
  - assert (HN : uses t name) by (apply uses_pc; now rewrite EP). destruct can_open; cbn [fst snd]; split; try discriminate.
    + now intros ? ? [= <- _].
    + intros m. apply HA. cbn. now intros ? [= <-].
    + apply uses_returns.
  - assert (HN : uses t name) by (apply uses_pc; now rewrite EP). cbn [fst snd]. split; [now intros ? ? [= <- _]|]. intros m. apply HA. cbn. now intros ? [= <-].
  - assert (HN : uses t name) by (apply uses_pc; now rewrite EP). cbn [fst snd]. split; [now intros ? ? [= <- _]|].
    intros m Hu. apply uses_returns, uses_made in Hu as [Hu|<-]; [exact Hu|exact HN].
  - assert (HN : uses t (qd_name d)) by (apply uses_pc; now rewrite EP). destruct (has _ _); cbn [fst snd]; split; try discriminate.
    + now intros ? ? [= <- _].
    + intros m. apply HA. cbn. now intros ? [= <-].
    + apply uses_returns.
  - assert (HN : uses t (qd_name d)) by (apply uses_pc; now rewrite EP). destruct (_ =? 0)%nat; cbn [fst snd]; split; try discriminate.
    + intros m. apply HA. cbn. now intros ? [= <-].
    + apply uses_returns.
  - assert (HN : uses t (qd_name d)) by (apply uses_pc; now rewrite EP). cbn [fst snd]. split; [now intros ? ? [= <- _]|]. intros m. apply HA. cbn. now intros ? [= <-].
  - assert (HN : uses t (qd_name d)) by (apply uses_pc; now rewrite EP). destruct (q_reg _); cbn [fst snd]; split; try discriminate.
    + intros m. apply HA. cbn. now intros ? [= <-].
    + apply uses_returns.
  - assert (HN : uses t (qd_name d)) by (apply uses_pc; now rewrite EP). destruct (q_reg _); cbn [fst snd]; split; try discriminate.
    + now intros ? ? [= <- _].
    + apply uses_returns.
    + apply uses_returns.
Qed.

Lemma nth_error_upd {A} (l : list A) i j x : nth_error (upd l i x) j = if (j =? i)%nat then option_map (fun _ => x) (nth_error l i) else nth_error l j.
Proof.
  revert i j. induction l as [|y l IH]; intros i j; [cbn; destruct i, j; cbn; try reflexivity; now destruct (_ =? _)%nat|].
  destruct i as [|i], j as [|j]; cbn; try reflexivity. apply IH.
Qed.
Lemma setp_other x P n : (forall m p, x = Some (m, p) -> m <> n) -> setp x P n = P n.
Proof. intros H. destruct x as [[m p]|]; [|reflexivity]. cbn [setp]. specialize (H _ _ eq_refl). apply eqb_list_neq in H. now rewrite H. Qed.
Lemma setp_same P Q x n : P n = Q n -> setp x P n = setp x Q n.
Proof. intros H. destruct x as [[m p]|]; [|exact H]. cbn [setp]. now rewrite H. Qed.

(** ** Threads of a group are as if the others did not run. *)
Section apart.
  Variables (G : nat -> bool) (N : str -> Prop).
  Definition split_names (w : qworld) : Prop :=
    forall i t n, nth_error (w_threads w) i = Some t -> uses t n -> if G i then N n else ~ N n.
  Record alike (w v : qworld) : Prop := {
    al_threads : forall i, G i = true -> nth_error (w_threads w) i = nth_error (w_threads v) i;
    al_ports : forall n, N n -> w_ports w n = w_ports v n }.
  Lemma split_step i w : split_names w -> split_names (qstep i w).
  Proof.
    intros H. unfold qstep. destruct (nth_error (w_threads w) i) as [t|] eqn:ET; [|exact H].
    destruct (tstep_uses i t (w_ports w)) as [_ HU]. destruct (tstep i t (w_ports w)) as [x t']. cbn [snd] in HU.
    intros j u n. cbn [w_threads]. rewrite nth_error_upd. destruct (Nat.eqb_spec j i) as [->|]; [|apply H].
    rewrite ET. cbn [option_map]. intros [= <-] Hu. exact (H i t n ET (HU n Hu)).
  Qed.
  Lemma alike_own i w v : split_names w -> split_names v -> G i = true -> alike w v -> alike (qstep i w) (qstep i v).
  Proof.
    intros HW HV HG [HT HP]. unfold qstep. rewrite <- (HT i HG). destruct (nth_error (w_threads w) i) as [t|] eqn:ET; [|now split].
    rewrite (tstep_local i t (w_ports w) (w_ports v)).
    2: { intros n Hn. apply HP. specialize (HW i t n ET Hn). now rewrite HG in HW. }
    destruct (tstep i t (w_ports v)) as [x t']. split; cbn [w_threads w_ports].
    - intros j HJ. rewrite !nth_error_upd. rewrite <- (HT i HG), ET, (HT j HJ). reflexivity.
    - intros n Hn. now apply setp_same, HP.
  Qed.
  Lemma alike_other i w v : split_names w -> G i = false -> alike w v -> alike (qstep i w) v.
  Proof.
    intros HW HG [HT HP]. unfold qstep. destruct (nth_error (w_threads w) i) as [t|] eqn:ET; [|now split].
    destruct (tstep_uses i t (w_ports w)) as [HU _]. destruct (tstep i t (w_ports w)) as [x t']. cbn [fst] in HU. split; cbn [w_threads w_ports].
    - intros j HJ. rewrite nth_error_upd. destruct (Nat.eqb_spec j i) as [->|]; [congruence|]. now apply HT.
    - intros n Hn. rewrite setp_other; [now apply HP|]. intros m p E Emn. subst m. specialize (HW i t n ET (HU _ _ E)). rewrite HG in HW. contradiction.
  Qed.
  Lemma split_sched sched w : split_names w -> split_names (qsched sched w).
  Proof. revert w. induction sched as [|i sched IH]; intros w H; [exact H|]. cbn. apply IH. now apply split_step. Qed.
  Lemma alike_sched sched w v : split_names w -> split_names v -> alike w v -> alike (qsched sched w) (qsched (filter G sched) v).
  Proof.
    revert w v. induction sched as [|i sched IH]; intros w v HW HV H; [exact H|]. cbn [filter]. destruct (G i) eqn:EG; cbn.
    - apply IH; [now apply split_step|now apply split_step|now apply alike_own].
    - apply IH; [now apply split_step|exact HV|now apply alike_other].
  Qed.
End apart.

(** ** One thread by itself. *)
Fixpoint lrun (i n : nat) (P : str -> qport) (t : qthread) : (str -> qport) * qthread :=
  match n with O => (P, t) | S n' => let '(x, t') := tstep i t P in lrun i n' (setp x P) t' end.
Lemma upd_upd {A} (l : list A) i x y : upd (upd l i x) i y = upd l i y.
Proof. revert i. induction l as [|z l IH]; intros [|i]; cbn; [reflexivity..|]. now rewrite IH. Qed.
Lemma upd_same {A} (l : list A) i x : nth_error l i = Some x -> upd l i x = l.
Proof. revert i. induction l as [|z l IH]; intros [|i] H; cbn in *; [reflexivity..|congruence|]. now rewrite IH. Qed.
Lemma sched_lrun i n : forall w t, nth_error (w_threads w) i = Some t ->
  qsched (repeat i n) w = mkQW (fst (lrun i n (w_ports w) t)) (upd (w_threads w) i (snd (lrun i n (w_ports w) t))).
Proof.
  induction n as [|n IH]; intros w t HT; cbn [repeat lrun].
  - cbn. rewrite upd_same by exact HT. now destruct w.
  - cbn [qsched fold_left]. fold (qsched (repeat i n) (qstep i w)). unfold qstep. rewrite HT. destruct (tstep i t (w_ports w)) as [x t'].
    rewrite (IH _ t'); cbn [w_threads w_ports]; [|rewrite nth_error_upd, Nat.eqb_refl, HT; reflexivity]. f_equal. apply upd_upd.
Qed.
Lemma lrun_add i n m P t : lrun i (n + m) P t = lrun i m (fst (lrun i n P t)) (snd (lrun i n P t)).
Proof. revert P t. induction n as [|n IH]; intros P t; [reflexivity|]. cbn [Nat.add lrun]. destruct (tstep i t P) as [x t']. apply IH. Qed.

(** ** Whole calls do what M_Registry says. *)
Lemma same_client_mono g g' n q k : (forall i j d, nth_error (g i) j = Some d -> nth_error (g' i) j = Some d) -> same_client g n q k -> same_client g' n q k.
Proof.
  intros HG (H1 & H2 & H3 & H4 & H5). repeat split; auto. induction H5 as [|e e' l l' [E1 E2] HF IH]; constructor; auto.
Qed.
Lemma str_eq_dec (a b : str) : {a = b} + {a <> b}.
Proof. apply list_eq_dec. apply Z.eq_dec. Qed.
Lemma NoDup_app_snoc {A} (l : list A) x : NoDup l -> ~ In x l -> NoDup (l ++ [x]).
Proof.
  induction 1 as [|y l Hy HN IH]; intros Hx; cbn; [repeat constructor; auto|]. constructor; [|apply IH; intro; apply Hx; now right].
  intros Hin. apply in_app_or in Hin as [Hin|[<-|[]]]; [contradiction|]. apply Hx. now left.
Qed.
Lemma so_upd P s g names c n k q' k' g' P' s' : same_objects P s g names -> nth_error names c = Some (n, k) ->
  (forall i j d, nth_error (g i) j = Some d -> nth_error (g' i) j = Some d) -> same_client g' n q' k' ->
  q_clients (P' n) = upd (q_clients (P n)) k q' -> (forall m, m <> n -> P' m = P m) -> r_clients s' = upd (r_clients s) c k' ->
  match q_reg (P' n), registered s' n with Some k, Some c => nth_error names c = Some (n, k) | None, None => True | _, _ => False end ->
  (forall m, m <> n -> registered s' m = registered s m) -> same_objects P' s' g' names.
Proof.
  intros [H1 H2 H3 H4 H5] HC HG HK HP HO HS HR HM.
  assert (HL : (c < length (r_clients s))%nat) by (rewrite <- H2; apply nth_error_Some; congruence).
  split; [exact H1|rewrite HS, upd_length; exact H2| | |].
  - intros c0 n0 k0 E. unfold get_client. rewrite HS. rewrite upd_nth by exact HL. destruct (Nat.eqb_spec c0 c) as [->|Hne].
    + assert (En : (n0, k0) = (n, k)) by congruence. apply pair_equal_spec in En as [-> ->]. exists q'. split; [|exact HK].
      rewrite HP, nth_error_upd, Nat.eqb_refl. destruct (H3 _ _ _ HC) as (q & -> & _). reflexivity.
    + destruct (H3 _ _ _ E) as (q & Eq & Hq). exists q. split; [|exact (same_client_mono _ _ _ _ _ HG Hq)].
      destruct (str_eq_dec n0 n) as [->|Hn]; [|now rewrite HO]. rewrite HP, nth_error_upd. destruct (Nat.eqb_spec k0 k) as [->|]; [|exact Eq].
      exfalso. apply Hne. rewrite NoDup_nth_error in H1. apply H1; [apply nth_error_Some; congruence|congruence].
  - intros m j Hj. apply H4. destruct (str_eq_dec m n) as [->|Hn]; [|now rewrite HO in Hj]. rewrite HP, upd_length in Hj. exact Hj.
  - intros m. destruct (str_eq_dec m n) as [->|Hn]; [exact HR|]. rewrite HO, HM by exact Hn. apply H5.
Qed.
Lemma so_new P s g names n q' k' P' s' : same_objects P s g names -> same_client g n q' k' ->
  P' n = mkQP (q_clients (P n) ++ [q']) (Some (length (q_clients (P n)))) -> (forall m, m <> n -> P' m = P m) -> r_clients s' = r_clients s ++ [k'] ->
  registered s' n = Some (length (r_clients s)) ->
  (forall m, m <> n -> registered s' m = registered s m) -> same_objects P' s' g (names ++ [(n, length (q_clients (P n)))]).
Proof.
  intros [H1 H2 H3 H4 H5] HK HP HO HS HR HM.
  assert (HI : forall k, In (n, k) names -> (k < length (q_clients (P n)))%nat).
  { intros k Hin. apply In_nth_error in Hin as [c Hc]. destruct (H3 _ _ _ Hc) as (q & Eq & _). apply nth_error_Some. congruence. }
  split.
  - apply NoDup_app_snoc; [exact H1|]. intros Hin. apply HI in Hin. lia.
  - rewrite HS, !app_length, H2. reflexivity.
  - intros c m k Hc. unfold get_client. rewrite HS. destruct (Nat.lt_ge_cases c (length names)) as [HL|HL].
    + rewrite nth_error_app1 in Hc by exact HL. rewrite app_nth1 by (rewrite <- H2; exact HL). destruct (H3 _ _ _ Hc) as (q & Eq & Hq). exists q. split; [|exact Hq].
      destruct (str_eq_dec m n) as [->|Hn]; [|now rewrite HO]. rewrite HP. cbn [q_clients]. rewrite nth_error_app1; [exact Eq|]. apply nth_error_Some. congruence.
    + assert (c = length names). { assert (nth_error (names ++ [(n, length (q_clients (P n)))]) c <> None) by congruence. apply nth_error_Some in H. rewrite app_length in H. cbn in H. lia. }
      subst c. rewrite nth_error_app2, Nat.sub_diag in Hc by lia. cbn in Hc. apply Some_inj in Hc. apply pair_equal_spec in Hc as [<- <-].
      exists q'. rewrite H2, app_nth2, Nat.sub_diag by lia. cbn [nth]. split; [|exact HK]. rewrite HP. cbn [q_clients]. rewrite nth_error_app2, Nat.sub_diag by lia. reflexivity.
  - intros m k Hk. destruct (str_eq_dec m n) as [->|Hn].
    + rewrite HP in Hk. cbn [q_clients] in Hk. rewrite app_length in Hk. cbn in Hk. apply in_or_app. destruct (Nat.eq_dec k (length (q_clients (P n)))) as [->|]; [right; now left|].
      left. apply H4. lia.
    + rewrite HO in Hk by exact Hn. apply in_or_app. left. now apply H4.
  - intros m. destruct (str_eq_dec m n) as [->|Hn].
    + rewrite HP, HR. cbn [q_reg]. rewrite <- H2, nth_error_app2, Nat.sub_diag by lia. reflexivity.
    + rewrite HO, HM by exact Hn. specialize (H5 m). destruct (q_reg (P m)), (registered s m); auto. rewrite nth_error_app1; [exact H5|]. apply nth_error_Some. congruence.
Qed.

(** the steps of one call *)
Inductive path (i : nat) : (str -> qport) -> qthread -> (str -> qport) -> qthread -> Prop :=
| path_last P t x t' : tstep i t P = (x, t') -> t_pc t' = QIdle -> path i P t (setp x P) t'
| path_step P t x t1 P' t' : tstep i t P = (x, t1) -> t_pc t1 <> QIdle -> path i (setp x P) t1 P' t' -> path i P t P' t'.
Lemma path_lrun i P t P' t' : path i P t P' t' ->
  exists n, (0 < n)%nat /\ lrun i n P t = (P', t') /\ t_pc t' = QIdle /\ forall m, (0 < m < n)%nat -> t_pc (snd (lrun i m P t)) <> QIdle.
Proof.
  induction 1 as [P t x t' E HI|P t x t1 P' t' E HI HP (n & Hn & HL & HQ & HM)].
  - exists 1%nat. cbn [lrun]. rewrite E. split; [lia|]. split; [reflexivity|]. split; [exact HI|]. intros m Hm. lia.
  - exists (S n). cbn [lrun]. rewrite E. split; [lia|]. split; [exact HL|]. split; [exact HQ|]. intros [|[|m]] Hm; [lia|cbn [lrun]; rewrite E; exact HI|].
    cbn [lrun]. rewrite E. specialize (HM (S m) ltac:(lia)). exact HM.
Qed.
Lemma setp_eq n p P : setp (Some (n, p)) P n = p.
Proof. cbn [setp]. now rewrite eqb_list_refl. Qed.
Lemma setp_neq n p P m : m <> n -> setp (Some (n, p)) P m = P m.
Proof. intros H. cbn [setp]. apply not_eq_sym in H. apply eqb_list_neq in H. now rewrite H. Qed.

(** what a whole call does, in both models *)
Definition call_ok (i : nat) (a : act) (P : str -> qport) (t : qthread) (P' : str -> qport) (t' : qthread) : Prop :=
  forall s g o names, same_objects P s g names -> Forall2 (same_device s names) (t_devs t) (g i) -> t_out t = o i ->
  let z := one_call (i, a) (mkOne s g o) in
  exists more, same_objects P' (o_state z) (o_devs z) (names ++ more) /\
    Forall2 (same_device (o_state z) (names ++ more)) (t_devs t') (o_devs z i) /\ t_out t' = o_out z i.

Lemma add_at_eq {A} i (x : A) f : add_at i x f i = f i ++ [x].
Proof. unfold add_at. now rewrite Nat.eqb_refl. Qed.
Lemma add_at_mono {A} i (x : A) f j k d : nth_error (f j) k = Some d -> nth_error (add_at i x f j) k = Some d.
Proof.
  unfold add_at. destruct (Nat.eqb_spec i j) as [->|]; [|auto]. intros H. rewrite nth_error_app1; [exact H|]. apply nth_error_Some. congruence.
Qed.
Lemma cl_of (P : str -> qport) n k q : nth_error (q_clients (P n)) k = Some q -> cl (P n) k = q.
Proof. intros H. unfold cl. now apply nth_error_nth. Qed.
Lemma zset_rel {A B} (R : A -> B -> Prop) k v v' l l' : R v v' -> Forall2 (fun e e' => fst e = fst e' /\ R (snd e) (snd e')) l l' ->
  Forall2 (fun e e' => fst e = fst e' /\ R (snd e) (snd e')) (zset k v l) (zset k v' l').
Proof.
  intros HV. induction 1 as [|[a b] [a' b'] l l' [E HR] HF IH]; cbn in *; [repeat constructor; auto|]. subst a'. destruct (k =? a); repeat constructor; auto.
Qed.
Lemma zdel_rel {A B} (R : A -> B -> Prop) k l l' : Forall2 (fun e e' => fst e = fst e' /\ R (snd e) (snd e')) l l' ->
  Forall2 (fun e e' => fst e = fst e' /\ R (snd e) (snd e')) (zdel k l) (zdel k l').
Proof.
  induction 1 as [|[a b] [a' b'] l l' [E HR] HF IH]; cbn in *; [constructor|]. subst a'. destruct (k =? a); cbn; repeat constructor; auto.
Qed.
Lemma zdel_absent k l : has k l = false -> zdel k l = l.
Proof.
  unfold has, zdel. induction l as [|[a b] l IH]; cbn; intros H; [reflexivity|]. apply orb_false_iff in H as [H1 H2]. rewrite H1. cbn. now rewrite IH.
Qed.
Lemma F2_len {A B} (R : A -> B -> Prop) l l' : Forall2 R l l' -> length l = length l'.
Proof. induction 1; cbn; congruence. Qed.
Lemma Forall2_impl' {A B} (R S : A -> B -> Prop) l l' : (forall a b, R a b -> S a b) -> Forall2 R l l' -> Forall2 S l l'.
Proof. intros H. induction 1; constructor; auto. Qed.
Lemma dev_mono s s' names more d x ext : r_devices s' = r_devices s ++ ext -> same_device s names d x -> same_device s' (names ++ more) d x.
Proof.
  intros E (c & H1 & H2). exists c. rewrite E. split; rewrite nth_error_app1; auto; apply nth_error_Some; congruence.
Qed.
Lemma devs_mono s s' names more l l' ext : r_devices s' = r_devices s ++ ext -> Forall2 (same_device s names) l l' -> Forall2 (same_device s' (names ++ more)) l l'.
Proof. intros E. induction 1; constructor; auto. eapply dev_mono; eauto. Qed.

(** adding the device to a client that is in hand *)
Lemma add_ok i slave name c t s1 g o names cid P :
  same_objects P s1 g names -> nth_error names cid = Some (name, c) -> Forall2 (same_device s1 names) (t_devs t) (g i) -> t_out t = o i ->
  let k := get_client s1 cid in let d := length (r_devices s1) in
  let s' := mkRS (upd (r_clients s1) cid (mkRC (c_name k) (c_baud k) (c_parity k) (c_open k) (zset slave d (c_devs k)))) (r_devices s1 ++ [mkRD slave name cid]) (r_registry s1) in
  let q := cl (P name) c in
  same_objects (setp (Some (name, put_cl (P name) c (devs q (zset slave (i, length (t_devs t)) (q_devs q))))) P) s' (add_at i d g) names /\
  Forall2 (same_device s' names) (t_devs (returns (made t (mkQD slave name c)) (Ok (Some (length (t_devs t)))))) (add_at i d g i) /\
  t_out t ++ [Ok (Some (length (t_devs t)))] = add_at i (Ok (Some (length (g i)))) o i.
Proof.
  intros HS HC HD HO k d s' q. destruct (so_client _ _ _ _ HS _ _ _ HC) as (q0 & Eq & HQ). assert (q = q0) by (unfold q; now apply cl_of). subst q0.
  pose proof (F2_len _ _ _ HD) as HL. split; [|split].
  - eapply so_upd with (c := cid) (n := name) (k := c); [exact HS|exact HC|intros; now apply add_at_mono| |rewrite setp_eq; reflexivity|intros; now apply setp_neq|reflexivity| |reflexivity].
    + fold k in HQ. destruct HQ as (H1 & H2 & H3 & H4 & H5). repeat split; auto. cbn [c_devs devs q_devs].
      apply (zset_rel (fun e d' => nth_error (add_at i d g (fst e)) (snd e) = Some d')).
      * cbn [fst snd]. rewrite add_at_eq, HL, nth_error_app2, Nat.sub_diag by lia. reflexivity.
      * eapply Forall2_impl'; [|exact H5]. cbn. intros e e' [E1 E2]. split; [exact E1|now apply add_at_mono].
    + rewrite setp_eq. cbn [put_cl q_reg]. exact (so_reg _ _ _ _ HS name).
  - cbn [returns made t_devs]. rewrite add_at_eq. apply Forall2_app.
    + rewrite <- (app_nil_r names). eapply devs_mono; [|exact HD]. reflexivity.
    + constructor; [|constructor]. exists cid. cbn [qd_slave qd_name qd_client]. split; [|exact HC]. unfold s'. cbn [r_devices]. unfold d. rewrite nth_error_app2, Nat.sub_diag by lia. reflexivity.
  - rewrite add_at_eq, HO, HL. reflexivity.
Qed.

Lemma whole_open i slave name baud parity can rest P t : t_pc t = QIdle -> t_prog t = AOpen slave name baud parity can :: rest ->
  exists P' t', path i P t P' t' /\ t_prog t' = rest /\ call_ok i (AOpen slave name baud parity can) P t P' t'.
Proof.
  intros HP HG.
  assert (E0 : forall P, tstep i t P = match q_reg (P name) with
      | None => (None, at_pc (started t) (QNew slave name baud parity can))
      | Some c =>
        let k := cl (P name) c in
        if match baud with Some b => negb (q_baud k =? b) | None => false end then (None, returns (started t) (Raise EModbusClient))
        else if match parity with Some p => negb (eqb_list (q_parity k) p) | None => false end
        then (None, returns (started t) (Raise EModbusClient))
        else (None, at_pc (started t) (QAdd slave name c))
      end) by (intros Q; unfold tstep; rewrite HP, HG; reflexivity).
  assert (ES : t_prog (started t) = rest) by (unfold started; cbn [t_prog]; now rewrite HG).
  assert (HREG : forall s g names, same_objects P s g names -> forall c, q_reg (P name) = Some c -> exists cid, dget name (r_registry s) = Some cid /\ nth_error names cid = Some (name, c) /\
      q_baud (cl (P name) c) = c_baud (get_client s cid) /\ q_parity (cl (P name) c) = c_parity (get_client s cid)).
  { intros s g names HS c Hc. pose proof (so_reg _ _ _ _ HS name) as HR. rewrite Hc in HR. unfold registered in HR. destruct (dget name (r_registry s)) as [cid|]; [|contradiction].
    exists cid. split; [reflexivity|]. split; [exact HR|]. destruct (so_client _ _ _ _ HS _ _ _ HR) as (q & Eq & H1 & H2 & H3 & _). rewrite (cl_of _ _ _ _ Eq). auto. }
  destruct (q_reg (P name)) as [c|] eqn:ER.
  - specialize (E0 P). rewrite ER in E0. cbv zeta in E0.
    destruct (match baud with Some b => negb (q_baud (cl (P name) c) =? b) | None => false end) eqn:EB.
    { do 2 eexists. split; [apply path_last; [exact E0|reflexivity]|]. split; [exact ES|]. intros s g o names HS HD HO. cbv zeta. exists []. rewrite app_nil_r.
      destruct (HREG s g names HS c eq_refl) as (cid & HR & HN & HB & HPA). cbn [one_call o_state o_devs o_out]. unfold dev_open, rtu_client. rewrite HR. rewrite <- HB, EB.
      cbn [o_state o_devs o_out setp]. split; [exact HS|]. split; [exact HD|]. rewrite add_at_eq. cbn [returns started t_out]. now rewrite HO. }
    destruct (match parity with Some b => negb _ | None => false end) eqn:EPA.
    { do 2 eexists. split; [apply path_last; [exact E0|reflexivity]|]. split; [exact ES|]. intros s g o names HS HD HO. cbv zeta. exists []. rewrite app_nil_r.
      destruct (HREG s g names HS c eq_refl) as (cid & HR & HN & HB & HPA). cbn [one_call o_state o_devs o_out]. unfold dev_open, rtu_client. rewrite HR. rewrite <- HB, EB, <- HPA, EPA.
      cbn [o_state o_devs o_out setp]. split; [exact HS|]. split; [exact HD|]. rewrite add_at_eq. cbn [returns started t_out]. now rewrite HO. }
    do 2 eexists. split; [eapply path_step; [exact E0|discriminate|]; cbn [setp]; eapply path_last; [reflexivity|reflexivity]|]. split; [exact ES|].
    intros s g o names HS HD HO. cbv zeta. exists []. rewrite app_nil_r.
    destruct (HREG s g names HS c eq_refl) as (cid & HR & HN & HB & HPA). cbn [one_call o_state o_devs o_out]. unfold dev_open, rtu_client. rewrite HR. rewrite <- HB, EB, <- HPA, EPA.
    pose proof (add_ok i slave name c (at_pc (started t) (QAdd slave name c)) s g o names cid P HS HN HD HO) as HA. cbv zeta in HA. exact HA.
  - specialize (E0 P). rewrite ER in E0. destruct can.
    + do 2 eexists. split; [eapply path_step; [exact E0|discriminate|]; cbn [setp]; eapply path_step; [reflexivity|discriminate|];
        eapply path_step; [reflexivity|discriminate|]; eapply path_last; [reflexivity|reflexivity]|]. split; [exact ES|].
      intros s g o names HS HD HO. cbv zeta. exists [(name, length (q_clients (P name)))].
      assert (HR : dget name (r_registry s) = None). { pose proof (so_reg _ _ _ _ HS name) as HR. rewrite ER in HR. unfold registered in HR. now destruct (dget name (r_registry s)). }
      cbn [one_call o_state o_devs o_out]. unfold dev_open, rtu_client. rewrite HR. cbv iota beta zeta.
      set (b := match baud with Some b => b | None => 9600 end). set (pa := match parity with Some p => p | None => PARITY_NONE end).
      set (s1 := mkRS (r_clients s ++ [mkRC name b pa true []]) (r_devices s) (dset name (length (r_clients s)) (r_registry s))).
      set (x1 := setp (Some (name, mkQP (q_clients (P name) ++ [mkQC b pa true []]) (q_reg (P name)))) P).
      set (x2 := setp (Some (name, reg (x1 name) (Some (length (q_clients (P name)))))) x1).
      assert (HS1 : same_objects x2 s1 g (names ++ [(name, length (q_clients (P name)))])).
      { eapply so_new with (k' := mkRC name b pa true []) (q' := mkQC b pa true []); [exact HS| | | |reflexivity|apply dget_dset_eq|].
        - repeat split. constructor.
        - unfold x2. rewrite setp_eq. unfold x1. rewrite setp_eq. reflexivity.
        - intros m Hm. unfold x2. rewrite setp_neq by exact Hm. unfold x1. now rewrite setp_neq.
        - intros m Hm. apply dget_dset_neq. now apply not_eq_sym. }
      assert (HN1 : nth_error (names ++ [(name, length (q_clients (P name)))]) (length (r_clients s)) = Some (name, length (q_clients (P name)))).
      { rewrite <- (so_len _ _ _ _ HS), nth_error_app2, Nat.sub_diag by lia. reflexivity. }
      assert (HD1 : Forall2 (same_device s1 (names ++ [(name, length (q_clients (P name)))])) (t_devs t) (g i)).
      { eapply devs_mono; [|exact HD]. symmetry. apply app_nil_r. }
      pose proof (add_ok i slave name (length (q_clients (P name))) (at_pc (at_pc (started t) (QSet slave name (length (q_clients (P name))))) (QAdd slave name (length (q_clients (P name))))) s1 g o _ (length (r_clients s)) x2 HS1 HN1 HD1 HO) as HA. cbv zeta in HA. exact HA.
    + do 2 eexists. split; [eapply path_step; [exact E0|discriminate|]; cbn [setp]; eapply path_last; [reflexivity|reflexivity]|]. split; [exact ES|].
      intros s g o names HS HD HO. cbv zeta. exists []. rewrite app_nil_r.
      assert (HR : dget name (r_registry s) = None). { pose proof (so_reg _ _ _ _ HS name) as HR. rewrite ER in HR. unfold registered in HR. now destruct (dget name (r_registry s)). }
      cbn [one_call o_state o_devs o_out]. unfold dev_open, rtu_client. rewrite HR.
      cbn [o_state o_devs o_out setp]. split; [exact HS|]. split; [exact HD|]. rewrite add_at_eq. cbn [returns started at_pc t_out]. now rewrite HO.
Qed.

(** taking the device out of its client, and the rest of remove_device *)
Definition closed_port (p : qport) (c : nat) (slave : Z) : qport :=
  let k := cl p c in let l := zdel slave (q_devs k) in
  if (length l =? 0)%nat then mkQP (upd (q_clients p) c (mkQC (q_baud k) (q_parity k) false l)) None
  else mkQP (upd (q_clients p) c (devs k l)) (q_reg p).
Lemma close_ok i j d t s g o names P P' x :
  same_objects P s g names -> Forall2 (same_device s names) (t_devs t) (g i) -> nth_error (t_devs t) j = Some d -> nth_error (g i) j = Some x ->
  t_out t = o i -> P' (qd_name d) = closed_port (P (qd_name d)) (qd_client d) (qd_slave d) -> (forall m, m <> qd_name d -> P' m = P m) ->
  same_objects P' (dev_close x s) g names /\ Forall2 (same_device (dev_close x s) names) (t_devs t) (g i).
Proof.
  intros HS HD Hj Hx HO HP HN.
  assert (HV : same_device s names d x).
  { clear -HD Hj Hx. revert j Hj Hx. induction HD as [|a b l l' HR HF IH]; intros [|j] H1 H2; cbn in *; try discriminate; [congruence|eauto]. }
  destruct HV as (c & Hd & Hc). destruct (so_client _ _ _ _ HS _ _ _ Hc) as (q & Eq & HQ).
  assert (Ecl : cl (P (qd_name d)) (qd_client d) = q) by now apply cl_of.
  assert (ED : r_devices (dev_close x s) = r_devices s) by (unfold dev_close; rewrite Hd; destruct (length _ =? 0)%nat; reflexivity).
  split.
  2: { clear -HD ED. induction HD as [|a b l l' HR HF IH]; constructor; auto. destruct HR as (c & H1 & H2). exists c. now rewrite ED. }
  unfold dev_close. rewrite Hd. cbn [d_client d_slave]. set (k := get_client s c) in *. destruct HQ as (H1 & H2 & H3 & H4 & H5).
  pose proof (zdel_rel (fun e d' => nth_error (g (fst e)) (snd e) = Some d') (qd_slave d) _ _ H5) as H6.
  pose proof (F2_len _ _ _ H6) as HL. unfold closed_port in HP. rewrite Ecl in HP. cbv zeta in HP. rewrite HL in HP.
  destruct (length (zdel (qd_slave d) (c_devs k)) =? 0)%nat eqn:EL.
  - eapply so_upd with (c := c) (n := qd_name d) (k := qd_client d) (q' := mkQC (q_baud q) (q_parity q) false (zdel (qd_slave d) (q_devs q)));
      [exact HS|exact Hc|auto| |rewrite HP; reflexivity|exact HN|reflexivity| |].
    + repeat split; auto.
    + rewrite HP. cbn [q_reg]. unfold registered. cbn [r_registry set_client]. rewrite H1, dget_ddel_eq. exact I.
    + intros m Hm. unfold registered. cbn [r_registry set_client]. rewrite H1. apply dget_ddel_neq. now apply not_eq_sym.
  - eapply so_upd with (c := c) (n := qd_name d) (k := qd_client d) (q' := devs q (zdel (qd_slave d) (q_devs q)));
      [exact HS|exact Hc|auto| |rewrite HP; reflexivity|exact HN|reflexivity| |reflexivity].
    + repeat split; auto.
    + rewrite HP. cbn [q_reg]. exact (so_reg _ _ _ _ HS (qd_name d)).
Qed.
Lemma cl_put p c k : (c < length (q_clients p))%nat -> cl (put_cl p c k) c = k.
Proof. intros H. unfold cl, put_cl. cbn [q_clients]. rewrite upd_nth by exact H. now rewrite Nat.eqb_refl. Qed.
Lemma put_put p c k k' : put_cl (put_cl p c k) c k' = put_cl p c k'.
Proof. unfold put_cl. cbn [q_clients q_reg]. now rewrite upd_upd. Qed.
Lemma put_back p c : (c < length (q_clients p))%nat -> put_cl p c (cl p c) = p.
Proof.
  intros H. unfold put_cl, cl. rewrite upd_same; [now destruct p|]. apply nth_error_nth'. exact H.
Qed.

Ltac skipset := lazymatch goal with |- path _ (setp None ?Q) _ _ _ => change (setp None Q) with Q end.
(** from len(self.devices) == 0 on *)
Lemma tail_path i d t P : t_pc t = QLen d -> (qd_client d < length (q_clients (P (qd_name d))))%nat ->
  exists P' t', path i P t P' t' /\ t_prog t' = t_prog t /\ t_devs t' = t_devs t /\ t_out t' = t_out t ++ [Ok None] /\
  (forall m, m <> qd_name d -> P' m = P m) /\
  P' (qd_name d) = (let p := P (qd_name d) in let k := cl p (qd_client d) in if (length (q_devs k) =? 0)%nat then mkQP (upd (q_clients p) (qd_client d) (mkQC (q_baud k) (q_parity k) false (q_devs k))) None else p).
Proof.
  intros HP HC. assert (E0 : tstep i t P = if (length (q_devs (cl (P (qd_name d)) (qd_client d))) =? 0)%nat then (None, at_pc t (QShut d)) else (None, returns t (Ok None)))
    by (unfold tstep; now rewrite HP).
  cbv zeta. destruct (length _ =? 0)%nat eqn:EL.
  2: { do 2 eexists. split; [eapply path_last; [exact E0|reflexivity]|]. repeat split; reflexivity. }
  set (k := cl (P (qd_name d)) (qd_client d)) in *.
  set (P2 := setp (Some (qd_name d, put_cl (P (qd_name d)) (qd_client d) (mkQC (q_baud k) (q_parity k) false (q_devs k)))) P).
  assert (E2 : q_reg (P2 (qd_name d)) = q_reg (P (qd_name d))) by (unfold P2; rewrite setp_eq; reflexivity).
  assert (EG : tstep i (at_pc t (QGet d)) P2 = match q_reg (P (qd_name d)) with Some _ => (None, at_pc t (QUnreg d)) | None => (None, returns t (Ok None)) end).
  { unfold tstep. cbn [t_pc at_pc]. rewrite E2. reflexivity. }
  destruct (q_reg (P (qd_name d))) as [r|] eqn:ER.
  - exists (setp (Some (qd_name d, reg (P2 (qd_name d)) None)) P2), (returns t (Ok None)). split.
    + eapply path_step; [exact E0|discriminate|]. skipset. eapply path_step; [reflexivity|discriminate|]. fold k. fold P2.
      eapply path_step; [exact EG|discriminate|]. skipset. eapply path_last; [|reflexivity]. unfold tstep. cbn [t_pc at_pc]. rewrite E2. reflexivity.
    + repeat split; [reflexivity..| |]. { intros m Hm. rewrite setp_neq by exact Hm. unfold P2. now rewrite setp_neq. }
      rewrite setp_eq. unfold P2. rewrite setp_eq. reflexivity.
  - exists P2, (returns t (Ok None)). split.
    + eapply path_step; [exact E0|discriminate|]. skipset. eapply path_step; [reflexivity|discriminate|]. fold k. fold P2.
      change P2 with (setp None P2) at 2. eapply path_last; [exact EG|reflexivity].
    + repeat split; [reflexivity..| |]. { intros m Hm. unfold P2. now rewrite setp_neq. }
      unfold P2. rewrite setp_eq. unfold put_cl. now rewrite ER.
Qed.
Lemma whole_close i j rest P t : t_pc t = QIdle -> t_prog t = AClose j :: rest ->
  (forall d, In d (t_devs t) -> (qd_client d < length (q_clients (P (qd_name d))))%nat) ->
  exists P' t', path i P t P' t' /\ t_prog t' = rest /\ call_ok i (AClose j) P t P' t'.
Proof.
  intros HP HG HV.
  assert (ES : t_prog (started t) = rest) by (unfold started; cbn [t_prog]; now rewrite HG).
  assert (E0 : tstep i t P = match nth_error (t_devs t) j with
      | None => (None, returns (started t) (Ok None))
      | Some d => (None, at_pc (started t) (if has (qd_slave d) (q_devs (cl (P (qd_name d)) (qd_client d))) then QDel d else QLen d))
      end) by (unfold tstep; now rewrite HP, HG).
  destruct (nth_error (t_devs t) j) as [d|] eqn:EJ.
  2: { do 2 eexists. split; [eapply path_last; [exact E0|reflexivity]|]. split; [exact ES|]. intros s g o names HS HD HO. cbv zeta. exists []. rewrite app_nil_r.
       cbn [one_call o_state o_devs o_out setp]. assert (EN : nth_error (g i) j = None). { apply nth_error_None. rewrite <- (F2_len _ _ _ HD). now apply nth_error_None. }
       rewrite EN. split; [exact HS|]. split; [exact HD|]. rewrite add_at_eq. cbn [returns started t_out]. now rewrite HO. }
  assert (HC : (qd_client d < length (q_clients (P (qd_name d))))%nat) by (apply HV; now apply nth_error_In in EJ).
  set (k := cl (P (qd_name d)) (qd_client d)) in *.
  assert (HOK : forall P' t', t_devs t' = t_devs t -> t_out t' = t_out t ++ [Ok None] -> (forall m, m <> qd_name d -> P' m = P m) ->
      P' (qd_name d) = closed_port (P (qd_name d)) (qd_client d) (qd_slave d) -> call_ok i (AClose j) P t P' t').
  { intros P' t' H1 H2 H3 H4 s g o names HS HD HO. cbv zeta. exists []. rewrite app_nil_r. cbn [one_call o_state o_devs o_out].
    assert (EX : exists x, nth_error (g i) j = Some x). { destruct (nth_error (g i) j) eqn:EX; [eauto|]. apply nth_error_None in EX. rewrite <- (F2_len _ _ _ HD) in EX. apply nth_error_None in EX. congruence. }
    destruct EX as [x EX]. rewrite EX. destruct (close_ok i j d t s g o names P P' x HS HD EJ EX HO H4 H3) as [HA HB].
    split; [exact HA|]. rewrite H1. split; [exact HB|]. rewrite H2, add_at_eq, HO. reflexivity. }
  destruct (has (qd_slave d) (q_devs k)) eqn:EH.
  - set (P1 := setp (Some (qd_name d, put_cl (P (qd_name d)) (qd_client d) (devs k (zdel (qd_slave d) (q_devs k))))) P).
    assert (E1 : tstep i (at_pc (started t) (QDel d)) P = (Some (qd_name d, put_cl (P (qd_name d)) (qd_client d) (devs k (zdel (qd_slave d) (q_devs k)))), at_pc (at_pc (started t) (QDel d)) (QLen d))).
    { unfold tstep. cbn [t_pc at_pc]. fold k. rewrite EH. reflexivity. }
    assert (HL1 : (qd_client d < length (q_clients (P1 (qd_name d))))%nat) by (unfold P1; rewrite setp_eq; cbn [put_cl q_clients]; now rewrite upd_length).
    destruct (tail_path i d (at_pc (at_pc (started t) (QDel d)) (QLen d)) P1 eq_refl HL1) as (P' & t' & HT & HT1 & HT2 & HT3 & HT4 & HT5).
    exists P', t'. split; [eapply path_step; [exact E0|discriminate|]; skipset; eapply path_step; [exact E1|discriminate|exact HT]|].
    split; [now rewrite HT1|]. apply HOK; [exact HT2|exact HT3| |].
    + intros m Hm. rewrite HT4 by exact Hm. unfold P1. now rewrite setp_neq.
    + rewrite HT5. unfold P1. rewrite setp_eq. cbv zeta. rewrite cl_put by exact HC. cbn [devs q_devs q_baud q_parity]. unfold closed_port. fold k. cbv zeta.
      destruct (length (zdel _ _) =? 0)%nat; [|reflexivity]. cbn [put_cl q_clients]. now rewrite upd_upd.
  - destruct (tail_path i d (at_pc (started t) (QLen d)) P eq_refl HC) as (P' & t' & HT & HT1 & HT2 & HT3 & HT4 & HT5).
    exists P', t'. split; [eapply path_step; [exact E0|discriminate|exact HT]|].
    split; [now rewrite HT1|]. apply HOK; [exact HT2|exact HT3|exact HT4|].
    rewrite HT5. cbv zeta. fold k. unfold closed_port. fold k. cbv zeta. rewrite (zdel_absent _ _ EH). destruct (length _ =? 0)%nat; [reflexivity|].
    pose proof (put_back _ _ HC) as HB. fold k in HB. unfold put_cl in HB. unfold devs. destruct k. exact (eq_sym HB).
Qed.

(** ** Histories. *)
Lemma dev_open_ext slave name baud parity can s s' r : dev_open slave name baud parity can s = (s', r) -> exists ext, r_devices s' = r_devices s ++ ext.
Proof.
  unfold dev_open. destruct (rtu_client name baud parity can s) as [s1 r1] eqn:E.
  assert (E1 : r_devices s1 = r_devices s).
  { unfold rtu_client in E. destruct (dget name (r_registry s)).
    - destruct (match baud with Some b => negb _ | None => false end); [|destruct (match parity with Some b => negb _ | None => false end)]; apply pair_equal_spec in E as [<- _]; reflexivity.
    - destruct can; apply pair_equal_spec in E as [<- _]; reflexivity. }
  destruct r1; intros H; apply pair_equal_spec in H as [<- _]; cbn [r_devices set_client]; rewrite E1; [eauto|exists []; symmetry; apply app_nil_r].
Qed.
Lemma one_call_ext ia o : exists ext, r_devices (o_state (one_call ia o)) = r_devices (o_state o) ++ ext.
Proof.
  destruct ia as [i [slave name baud parity can|k]]; cbn [one_call o_state].
  - destruct (dev_open slave name baud parity can (o_state o)) as [s' r] eqn:E. apply dev_open_ext in E as [ext E]. exists ext. destruct r; exact E.
  - exists []. rewrite app_nil_r. destruct (nth_error (o_devs o i) k); [|reflexivity]. unfold dev_close. destruct (nth_error _ n); [|reflexivity]. destruct (length _ =? 0)%nat; reflexivity.
Qed.
Lemma one_call_other i a o j : j <> i -> o_devs (one_call (i, a) o) j = o_devs o j /\ o_out (one_call (i, a) o) j = o_out o j.
Proof.
  intros H. assert (EN : (i =? j)%nat = false) by (apply Nat.eqb_neq; auto).
  destruct a; cbn [one_call]; [destruct (dev_open _ _ _ _ _ _) as [s' [d|e]]|]; cbn [o_devs o_out]; unfold add_at; rewrite ?EN; auto.
Qed.

Lemma whole w o i t a rest : agrees w o -> nth_error (w_threads w) i = Some t -> t_pc t = QIdle -> t_prog t = a :: rest ->
  exists n, (0 < n)%nat /\ (forall m, (0 < m < n)%nat -> exists u, nth_error (w_threads (qsched (repeat i m) w)) i = Some u /\ t_pc u <> QIdle) /\
    agrees (qsched (repeat i n) w) (one_call (i, a) o) /\
    exists u, nth_error (w_threads (qsched (repeat i n) w)) i = Some u /\ t_pc u = QIdle /\ t_prog u = rest.
Proof.
  intros (names & HS & HT) Hi HI HP. destruct (HT i t Hi) as [HD HO].
  assert (HW : exists P' t', path i (w_ports w) t P' t' /\ t_prog t' = rest /\ call_ok i a (w_ports w) t P' t').
  { destruct a as [slave name baud parity can|j]; [now apply whole_open|]. apply whole_close; auto.
    intros d Hin. clear -HD Hin HS. induction HD as [|d0 x l l' HR HF IH]; [contradiction|]. destruct Hin as [->|Hin]; [|auto].
    destruct HR as (c & _ & Hc). destruct (so_client _ _ _ _ HS _ _ _ Hc) as (q & Eq & _). apply nth_error_Some. congruence. }
  destruct HW as (P' & t' & HPath & HR & HOK). destruct (path_lrun _ _ _ _ _ HPath) as (n & Hn & HL & HQ & HM).
  assert (HN : forall m, nth_error (w_threads (qsched (repeat i m) w)) i = Some (snd (lrun i m (w_ports w) t))).
  { intros m. rewrite (sched_lrun i m w t Hi). cbn [w_threads]. now rewrite nth_error_upd, Nat.eqb_refl, Hi. }
  exists n. split; [exact Hn|]. split; [intros m Hm; eexists; split; [apply HN|now apply HM]|]. split.
  2: { exists t'. rewrite HN, HL. auto. }
  destruct (HOK (o_state o) (o_devs o) (o_out o) names HS HD HO) as (more & HS' & HD' & HO').
  assert (Eo : mkOne (o_state o) (o_devs o) (o_out o) = o) by now destruct o. rewrite Eo in HS', HD', HO'.
  exists (names ++ more). rewrite (sched_lrun i n w t Hi), HL. cbn [fst snd w_ports w_threads]. split; [exact HS'|].
  intros j u. rewrite nth_error_upd. destruct (Nat.eqb_spec j i) as [->|Hne].
  - rewrite Hi. cbn [option_map]. intros Hu. apply Some_inj in Hu. subst u. auto.
  - intros Hu. destruct (HT j u Hu) as [HA HB]. destruct (one_call_other i a o j Hne) as [E1 E2]. rewrite E1, E2. split; [|exact HB].
    destruct (one_call_ext (i, a) o) as [ext Ex]. eapply devs_mono; [exact Ex|exact HA].
Qed.
Lemma agrees0 progs : agrees (qworld0 progs) one0.
Proof.
  exists []. split.
  - split; [constructor|reflexivity| | |].
    + intros [|c] n k H; discriminate.
    + intros n k H. cbn in H. lia.
    + intros n. exact I.
  - intros i t H. cbn [qworld0 w_threads] in H. rewrite nth_error_map in H. destruct (nth_error progs i); [|discriminate]. apply Some_inj in H. subst t.
    cbn [t_devs t_out one0 o_devs o_out]. auto.
Qed.
Lemma qsched_app a b w : qsched (a ++ b) w = qsched b (qsched a w).
Proof. unfold qsched. apply fold_left_app. Qed.

(** a thread that runs by itself, at any moment between its calls *)
Lemma solo i n : forall w o t t', agrees w o -> nth_error (w_threads w) i = Some t -> t_pc t = QIdle ->
  nth_error (w_threads (qsched (repeat i n) w)) i = Some t' -> t_pc t' = QIdle ->
  exists k, agrees (qsched (repeat i n) w) (fold_left (fun o a => one_call (i, a) o) (firstn k (t_prog t)) o) /\ t_prog t' = skipn k (t_prog t) /\ (k <= length (t_prog t))%nat.
Proof.
  induction n as [n IH] using (well_founded_induction lt_wf). intros w o t t' HA Hi HI Ht' HI'.
  destruct (t_prog t) as [|a rest] eqn:HP.
  - exists 0%nat. cbn [firstn skipn fold_left length].
    assert (E : forall m, qsched (repeat i m) w = w).
    { induction m as [|m IHm]; [reflexivity|]. cbn [repeat qsched fold_left]. fold (qsched (repeat i m) (qstep i w)).
      assert (ES : qstep i w = w). { unfold qstep. rewrite Hi. unfold tstep. rewrite HI, HP. cbn [setp]. rewrite upd_same by exact Hi. now destruct w. }
      now rewrite ES. }
    rewrite E in *. split; [exact HA|]. split; [|lia]. congruence.
  - destruct (whole w o i t a rest HA Hi HI HP) as (n0 & Hn0 & HM & HA' & u & Hu & HIu & HPu).
    destruct (Nat.eq_dec n 0) as [->|Hn].
    { exists 0%nat. cbn [repeat qsched fold_left firstn skipn] in *. split; [exact HA|]. split; [congruence|lia]. }
    destruct (Nat.lt_ge_cases n n0) as [Hlt|Hge].
    { destruct (HM n ltac:(lia)) as (v & Hv & HIv). congruence. }
    assert (ER : repeat i n = repeat i n0 ++ repeat i (n - n0)). { rewrite <- repeat_app. f_equal. lia. }
    rewrite ER, qsched_app in *. destruct (IH (n - n0)%nat ltac:(lia) _ _ u t' HA' Hu HIu Ht' HI') as (k & HK & HPk & Hk). rewrite HPu in HK, HPk, Hk.
    exists (S k). cbn [firstn skipn fold_left length]. split; [exact HK|]. split; [exact HPk|lia].
Qed.

(** with one thread, M_Registry's histories *)
Lemma nth_error_seq n k : nth_error (seq 0 n) k = if (k <? n)%nat then Some k else None.
Proof.
  destruct (Nat.ltb_spec k n) as [H|H].
  - rewrite (nth_error_nth' _ 0%nat) by (rewrite seq_length; exact H). now rewrite seq_nth.
  - apply nth_error_None. now rewrite seq_length.
Qed.
Lemma dev_close_len d s : length (r_devices (dev_close d s)) = length (r_devices s).
Proof. unfold dev_close. destruct (nth_error _ _); [|reflexivity]. destruct (length _ =? 0)%nat; reflexivity. Qed.
Lemma dev_open_res slave name baud parity can s s' r : dev_open slave name baud parity can s = (s', r) ->
  match r with Ok d => d = length (r_devices s) /\ length (r_devices s') = S (length (r_devices s)) | Raise _ => r_devices s' = r_devices s end.
Proof.
  intros H. unfold dev_open in H. destruct (rtu_client name baud parity can s) as [s1 r1] eqn:E.
  assert (E1 : r_devices s1 = r_devices s).
  { unfold rtu_client in E. destruct (dget name (r_registry s)).
    - destruct (match baud with Some b => negb _ | None => false end); [|destruct (match parity with Some b => negb _ | None => false end)]; apply pair_equal_spec in E as [<- _]; reflexivity.
    - destruct can; apply pair_equal_spec in E as [<- _]; reflexivity. }
  destruct r1; apply pair_equal_spec in H as [<- <-]; [|exact E1]. cbn [r_devices set_client]. rewrite app_length, E1. cbn. split; [reflexivity|lia].
Qed.
Lemma one_thread i h : let o := fold_left (fun o a => one_call (i, a) o) h one0 in
  o_state o = fst (run (map ev_of h)) /\ o_devs o i = seq 0 (length (r_devices (o_state o))) /\ length (o_out o i) = length h.
Proof.
  cbv zeta. induction h as [|a h IH] using rev_ind; [repeat split|]. rewrite fold_left_app, map_app, app_length. cbn [fold_left map length]. rewrite run_snoc.
  destruct IH as (H1 & H2 & H3). set (o := fold_left _ h one0) in *. destruct a as [slave name baud parity can|k]; cbn [one_call ev_of run1].
  - rewrite <- H1. destruct (dev_open slave name baud parity can (o_state o)) as [s' [d|e]] eqn:E; apply dev_open_res in E; cbn [o_state o_devs o_out fst]; rewrite add_at_eq.
    + destruct E as [-> E]. rewrite E, add_at_eq, H2, app_length, H3. cbn [length]. split; [reflexivity|]. split; [|lia]. now rewrite seq_S.
    + rewrite app_length, H3. cbn [length]. split; [reflexivity|]. split; [|lia]. now rewrite E.
  - cbn [o_state o_devs o_out fst]. rewrite <- H1. rewrite add_at_eq, app_length, H3. cbn [length]. 
    assert (EN : nth_error (o_devs o i) k = if (k <? length (r_devices (o_state o)))%nat then Some k else None) by (rewrite H2; apply nth_error_seq). rewrite EN.
    destruct (Nat.ltb_spec k (length (r_devices (o_state o)))) as [HL|HL].
    + rewrite dev_close_len. split; [reflexivity|]. split; [exact H2|lia].
    + split; [|split; [exact H2|lia]]. unfold dev_close. apply nth_error_None in HL. now rewrite HL.
Qed.

(** a call takes at most six steps, whatever the others do *)
Definition rank (pc : qpc) : nat :=
  match pc with QIdle => 0 | QNew _ _ _ _ _ => 3 | QSet _ _ _ => 2 | QAdd _ _ _ => 1 | QDel _ => 5 | QLen _ => 4 | QShut _ => 3 | QGet _ => 2 | QUnreg _ => 1 end.
Definition todo (t : qthread) : nat := rank (t_pc t) + 6 * length (t_prog t).
Lemma todo_step i t P : (todo (snd (tstep i t P)) <= todo t - 1)%nat.
Proof.
  unfold tstep, todo. destruct (t_pc t) eqn:EP; cbn [rank].
  - destruct (t_prog t) as [|[slave name baud parity can|k] rest] eqn:ET; cbn [snd length].
    + rewrite EP, ET. cbn. lia.
    + destruct (q_reg (P name)); [destruct (match baud with Some b => negb _ | None => false end); [|destruct (match parity with Some b => negb _ | None => false end)]|];
        cbn [snd returns started at_pc t_pc t_prog]; rewrite ET; cbn [tl rank]; lia.
    + destruct (nth_error (t_devs t) k); [destruct (has _ _)|]; cbn [snd returns started at_pc t_pc t_prog]; rewrite ET; cbn [tl rank]; lia.
  - destruct can_open; cbn [snd returns at_pc t_pc t_prog rank]; lia.
  - cbn [snd returns at_pc t_pc t_prog rank]; lia.
  - cbn [snd returns made at_pc t_pc t_prog rank]; lia.
  - destruct (has _ _); cbn [snd returns at_pc t_pc t_prog rank]; lia.
  - destruct (_ =? 0)%nat; cbn [snd returns at_pc t_pc t_prog rank]; lia.
  - cbn [snd returns at_pc t_pc t_prog rank]; lia.
  - destruct (q_reg _); cbn [snd returns at_pc t_pc t_prog rank]; lia.
  - destruct (q_reg _); cbn [snd returns at_pc t_pc t_prog rank]; lia.
Qed.
Lemma todo_sched i sched : forall w t, nth_error (w_threads w) i = Some t ->
  exists t', nth_error (w_threads (qsched sched w)) i = Some t' /\ (todo t' <= todo t - length (filter (Nat.eqb i) sched))%nat.
Proof.
  induction sched as [|j sched IH]; intros w t Ht; [exists t; split; [exact Ht|cbn; lia]|]. cbn [qsched fold_left]. fold (qsched sched (qstep j w)).
  unfold qstep. cbn [filter]. destruct (Nat.eqb_spec i j) as [<-|Hne].
  - rewrite Ht. pose proof (todo_step i t (w_ports w)) as HS. destruct (tstep i t (w_ports w)) as [x t1]. cbn [snd] in HS.
    destruct (IH (mkQW (setp x (w_ports w)) (upd (w_threads w) i t1)) t1) as (t' & H1 & H2); [cbn [w_threads]; rewrite nth_error_upd, Nat.eqb_refl, Ht; reflexivity|]. exists t'. split; [exact H1|]. cbn [length]. lia.
  - destruct (nth_error (w_threads w) j) as [u|] eqn:Eu; [|now apply IH]. destruct (tstep j u (w_ports w)) as [x u1]. apply IH. cbn [w_threads].
    rewrite nth_error_upd. apply Nat.eqb_neq in Hne. now rewrite Hne.
Qed.
