(** * P_Registry: invariant of the serial client registry. *)
From Verif Require Import Py P_List M_Registry S_Registry.

Lemma dget_dset_eq {A} k (v : A) d : dget k (dset k v d) = Some v.
Proof.
  induction d as [|[k' v'] d IH]; cbn; [now rewrite eqb_list_refl|].
  destruct (eqb_list k k') eqn:E; cbn; rewrite E; [reflexivity|exact IH].
Qed.
Lemma dget_dset_neq {A} k k' (v : A) d : k <> k' -> dget k' (dset k v d) = dget k' d.
Proof.
  intros H. induction d as [|[k1 v1] d IH]; cbn.
  - now rewrite (proj2 (eqb_list_neq k' k)) by congruence.
  - destruct (eqb_list k k1) eqn:E; cbn.
    + apply eqb_list_eq in E; subst. now rewrite (proj2 (eqb_list_neq k' k1)) by congruence.
    + now rewrite IH.
Qed.
Lemma dget_ddel_eq {A} k (d : list (str * A)) : dget k (ddel k d) = None.
Proof.
  induction d as [|[k' v'] d IH]; cbn; [reflexivity|].
  destruct (eqb_list k k') eqn:E; cbn; [exact IH|]. now rewrite E.
Qed.
Lemma dget_ddel_neq {A} k k' (d : list (str * A)) : k <> k' -> dget k' (ddel k d) = dget k' d.
Proof.
  intros H. induction d as [|[k1 v1] d IH]; cbn; [reflexivity|].
  destruct (eqb_list k k1) eqn:E; cbn.
  - apply eqb_list_eq in E; subst. rewrite (proj2 (eqb_list_neq k' k1)) by congruence. exact IH.
  - fold (ddel k d). now rewrite IH.
Qed.
Lemma zset_new {A} k (v : A) l : (forall v', ~ In (k, v') l) -> zset k v l = l ++ [(k, v)].
Proof.
  induction l as [|[k' v'] l IH]; cbn; intros H; [reflexivity|].
  destruct (Z.eqb_spec k k'); [subst; destruct (H v'); auto|].
  rewrite IH; [reflexivity|]. intros v1 H1. apply (H v1). auto.
Qed.
Lemma in_zdel {A} k k' (v : A) l : In (k', v) (zdel k l) <-> In (k', v) l /\ k <> k'.
Proof.
  unfold zdel. rewrite filter_In. cbn. destruct (Z.eqb_spec k k'); cbn; intuition congruence.
Qed.
Lemma upd_length {A} (l : list A) i x : length (upd l i x) = length l.
Proof. revert i; induction l; intros [|i]; cbn; auto. Qed.
Lemma upd_nth {A} (l : list A) i j x d : (i < length l)%nat -> nth j (upd l i x) d = if (j =? i)%nat then x else nth j l d.
Proof.
  revert i j; induction l as [|y l IH]; intros [|i] [|j] H; cbn in *; try lia; auto. apply IH; lia.
Qed.

Record rinv (s : rstate) (u : in_use) : Prop := {
  inv_use : forall d sl n, In (d, (sl, n)) u -> exists c,
    nth_error (r_devices s) d = Some (mkRD sl n c) /\ registered s n = Some c /\ In (sl, d) (c_devs (get_client s c));
  inv_one : forall d1 d2 sl n, In (d1, (sl, n)) u -> In (d2, (sl, n)) u -> d1 = d2;
  inv_reg : forall n c, registered s n = Some c ->
    (c < length (r_clients s))%nat /\ c_name (get_client s c) = n /\ port_open s c = true /\
    c_devs (get_client s c) <> [] /\ forall sl d, In (sl, d) (c_devs (get_client s c)) -> In (d, (sl, n)) u;
  inv_open : forall c, (c < length (r_clients s))%nat -> port_open s c = true -> registered s (c_name (get_client s c)) = Some c }.

Lemma rinv0 : rinv rstate0 [].
Proof. constructor; cbn; try contradiction; intros; try discriminate; lia. Qed.

Lemma get_set s c k c' : (c < length (r_clients s))%nat ->
  get_client (set_client s c k) c' = if (c' =? c)%nat then k else get_client s c'.
Proof. intros H. unfold get_client, set_client. cbn [r_clients]. now apply upd_nth. Qed.

(** adding a device to a client that is registered *)
Lemma rinv_add s u c k sl name bd :
  rinv s u -> (forall d, ~ In (d, (sl, name)) u) ->
  registered s name = Some c -> k = get_client s c ->
  let d := length (r_devices s) in
  let s2 := set_client s c (mkRC (c_name k) bd (c_parity k) (c_open k) (zset sl d (c_devs k))) in
  rinv (mkRS (r_clients s2) (r_devices s2 ++ [mkRD sl name c]) (r_registry s2)) ((d, (sl, name)) :: u).
Proof.
  intros I HN HR -> d s2. destruct (inv_reg _ _ I _ _ HR) as (Hc & Hname & Hop & Hne & Hdevs).
  assert (HZ : zset sl d (c_devs (get_client s c)) = c_devs (get_client s c) ++ [(sl, d)]).
  { apply zset_new. intros v Hv. apply (HN v). now apply Hdevs. }
  set (s3 := mkRS _ _ _).
  assert (G : forall c', get_client s3 c' = if (c' =? c)%nat then mkRC (c_name (get_client s c)) bd (c_parity (get_client s c))
      (c_open (get_client s c)) (c_devs (get_client s c) ++ [(sl, d)]) else get_client s c').
  { intros c'. rewrite <- HZ. exact (get_set s c _ c' Hc). }
  assert (R : forall n, registered s3 n = registered s n) by reflexivity.
  assert (L : length (r_clients s3) = length (r_clients s)) by (cbn; apply upd_length).
  constructor.
  - intros d' sl' n' [E|Hin].
    + injection E as <- <- <-. exists c. split; [|split; [exact HR|]].
      * cbn [s3 r_devices]. rewrite nth_error_app2 by (cbn; lia). cbn [s2 set_client r_devices]. unfold d. now rewrite Nat.sub_diag.
      * rewrite G, Nat.eqb_refl. cbn. apply in_or_app. cbn; auto.
    + destruct (inv_use _ _ I _ _ _ Hin) as (c' & Hd & Hr & Hi). exists c'. split; [|split; [exact Hr|]].
      * cbn [s3 r_devices s2 set_client]. rewrite nth_error_app1; [exact Hd|]. apply nth_error_Some. congruence.
      * rewrite G. destruct (Nat.eqb_spec c' c); [|exact Hi]. subst. cbn. apply in_or_app; auto.
  - intros d1 d2 sl' n' H1 H2. destruct H1 as [H1|H1], H2 as [H2|H2].
    + congruence.
    + injection H1 as <- <- <-. destruct (HN _ H2).
    + injection H2 as <- <- <-. destruct (HN _ H1).
    + eapply inv_one; eauto.
  - intros n c' H. rewrite R in H. destruct (inv_reg _ _ I _ _ H) as (A1 & A2 & A3 & A4 & A5).
    unfold port_open in *. rewrite L, !G. destruct (Nat.eqb_spec c' c).
    + subst. cbn. repeat split; auto. { destruct (c_devs (get_client s c)); discriminate. }
      intros sl' d' Hin. apply in_app_or in Hin as [Hin|[E|[]]]; [right; auto|]. left. congruence.
    + repeat split; auto. intros sl' d' Hin. right. auto.
  - intros c' Hc' Ho. rewrite L in Hc'. unfold port_open in *. rewrite R. rewrite G in *. destruct (Nat.eqb_spec c' c); cbn in *.
    + subst. apply (inv_open _ _ I); auto.
    + apply (inv_open _ _ I); auto.
Qed.

Lemma rinv_open s u sl name baud parity can s' r :
  rinv s u -> (forall d, ~ In (d, (sl, name)) u) -> dev_open sl name baud parity can s = (s', r) ->
  rinv s' (match r with Ok d => (d, (sl, name)) :: u | Raise _ => u end).
Proof.
  intros I HN H. unfold dev_open, rtu_client in H. fold (registered s name) in H.
  destruct (registered s name) as [c|] eqn:HR.
  - destruct (match baud with Some b => _ | None => _ end); [injection H as <- <-; exact I|].
    destruct (match parity with Some b => _ | None => _ end); [injection H as <- <-; exact I|].
    injection H as <- <-. eapply rinv_add; eauto.
  - destruct can; [|injection H as <- <-; exact I].
    set (b := match baud with Some b => b | None => 9600 end) in H.
    set (p := match parity with Some b => b | None => PARITY_NONE end) in H.
    injection H as <- <-.
    (* a fresh client: the invariant is re-established in one step *)
    set (c := length (r_clients s)).
    assert (HU : forall d sl', ~ In (d, (sl', name)) u).
    { intros d sl' Hin. destruct (inv_use _ _ I _ _ _ Hin) as (c' & _ & Hr & _). congruence. }
    set (d := length (r_devices s)).
    set (s3 := mkRS _ _ _).
    assert (L : length (r_clients s3) = S c).
    { cbn. rewrite upd_length, app_length. cbn. unfold c. lia. }
    assert (G : forall c', get_client s3 c' = if (c' =? c)%nat then mkRC name b p true [(sl, d)] else get_client s c').
    { intros c'. unfold s3, get_client at 1. cbn [r_clients set_client].
      rewrite upd_nth by (rewrite app_length; cbn; lia). destruct (Nat.eqb_spec c' c) as [E|E].
      - replace (get_client _ _) with (mkRC name b p true []); [reflexivity|]. unfold get_client. cbn [r_clients]. symmetry. apply nth_middle.
      - unfold get_client. destruct (Nat.lt_ge_cases c' c); [now rewrite app_nth1|].
        rewrite !nth_overflow; auto; try (rewrite app_length; cbn); fold c; lia. }
    assert (R1 : registered s3 name = Some c) by apply dget_dset_eq.
    assert (R2 : forall n, n <> name -> registered s3 n = registered s n).
    { intros n Hn. apply dget_dset_neq. congruence. }
    constructor.
    + intros d' sl' n' [E|Hin].
      * injection E as <- <- <-. exists c. split; [|split; [exact R1|]].
        -- cbn [s3 r_devices set_client]. rewrite nth_error_app2 by (cbn; lia). now rewrite Nat.sub_diag.
        -- rewrite G, Nat.eqb_refl. cbn; auto.
      * destruct (inv_use _ _ I _ _ _ Hin) as (c' & Hd & Hr & Hi).
        assert (n' <> name) by (intros ->; exact (HU _ _ Hin)).
        destruct (inv_reg _ _ I _ _ Hr) as (Hlt & _).
        exists c'. split; [|split].
        -- cbn [s3 r_devices set_client]. rewrite nth_error_app1; [exact Hd|]. apply nth_error_Some. congruence.
        -- rewrite R2; auto.
        -- rewrite G. destruct (Nat.eqb_spec c' c); [|exact Hi]. unfold c in *. lia.
    + intros d1 d2 sl' n' H1 H2. destruct H1 as [H1|H1], H2 as [H2|H2].
      * congruence.
      * injection H1 as <- <- <-. destruct (HU _ _ H2).
      * injection H2 as <- <- <-. destruct (HU _ _ H1).
      * eapply inv_one; eauto.
    + intros n c' H. unfold port_open. rewrite L, G.
      destruct (list_eq_dec Z.eq_dec n name) as [->|Hn].
      * rewrite R1 in H. injection H as <-. rewrite Nat.eqb_refl. cbn. repeat split; auto; try discriminate.
        intros sl' d' [E|[]]. left. congruence.
      * rewrite R2 in H by auto. destruct (inv_reg _ _ I _ _ H) as (A1 & A2 & A3 & A4 & A5).
        destruct (Nat.eqb_spec c' c) as [->|]; [unfold c in *; lia|]. repeat split; auto; fold c in A1; try lia.
        intros sl' d' Hin. right. auto.
    + intros c' Hc' Ho. unfold port_open in Ho. rewrite G in *. destruct (Nat.eqb_spec c' c) as [->|E]; cbn in *; [exact R1|].
      rewrite L in Hc'. assert (HO : registered s (c_name (get_client s c')) = Some c').
      { apply (inv_open _ _ I); auto. fold c. lia. }
      rewrite R2; [exact HO|]. intros E'. rewrite E' in HO. congruence.
Qed.

Lemma rinv_close s u d : rinv s u -> (exists x, In (d, x) u) ->
  rinv (dev_close d s) (filter (fun p => negb (fst p =? d)%nat) u).
Proof.
  intros I [[sl n] Hin]. destruct (inv_use _ _ I _ _ _ Hin) as (c & Hd & HR & Hdev).
  destruct (inv_reg _ _ I _ _ HR) as (Hc & Hname & Hop & Hne & Hdevs).
  unfold dev_close. rewrite Hd. cbn [d_client d_slave].
  set (k := get_client s c) in *. set (devs := zdel sl (c_devs k)).
  assert (HD : forall sl' d', In (sl', d') devs <-> In (sl', d') (c_devs k) /\ d' <> d).
  { intros sl' d'. unfold devs. rewrite in_zdel. split; intros [H1 H2]; split; auto.
    - intros ->. apply Hdevs in H1. destruct (inv_use _ _ I _ _ _ H1) as (c1 & E & _). congruence.
    - intros <-. apply H2. apply Hdevs in H1. eapply inv_one; eauto. }
  assert (HU : forall d' x, In (d', x) (filter (fun p => negb (fst p =? d)%nat) u) <-> In (d', x) u /\ d' <> d).
  { intros d' x. rewrite filter_In. cbn. destruct (Nat.eqb_spec d' d); cbn; intuition congruence. }
  assert (HO : forall d' sl' n' , In (d', (sl', n')) u -> d' <> d -> n' = n -> In (sl', d') devs).
  { intros d' sl' n' H1 H2 ->. apply HD. split; auto. destruct (inv_use _ _ I _ _ _ H1) as (c1 & _ & E2 & E3).
    rewrite HR in E2. injection E2 as <-. exact E3. }
  destruct (length devs =? 0)%nat eqn:HE.
  - apply Nat.eqb_eq, length_zero_iff_nil in HE. rewrite HE in *.
    set (s2 := mkRS _ _ _).
    assert (L : length (r_clients s2) = length (r_clients s)) by (cbn; apply upd_length).
    assert (G : forall c', get_client s2 c' = if (c' =? c)%nat then mkRC (c_name k) (c_baud k) (c_parity k) false [] else get_client s c').
    { intros c'. exact (get_set s c _ c' Hc). }
    assert (R1 : registered s2 n = None) by (rewrite <- Hname; apply dget_ddel_eq).
    assert (R2 : forall n', n' <> n -> registered s2 n' = registered s n').
    { intros n' Hn. apply dget_ddel_neq. rewrite Hname. congruence. }
    constructor.
    + intros d' sl' n' H. apply HU in H as [H H'].
      assert (n' <> n). { intros ->. exact (HO _ _ _ H H' eq_refl). }
      destruct (inv_use _ _ I _ _ _ H) as (c' & E1 & E2 & E3). exists c'. split; [exact E1|split; [rewrite R2; auto|]].
      rewrite G. destruct (Nat.eqb_spec c' c) as [->|]; [|exact E3].
      destruct (inv_reg _ _ I _ _ E2) as (_ & E4 & _). fold k in E4. congruence.
    + intros d1 d2 sl' n' H1 H2. apply HU in H1 as [H1 _]. apply HU in H2 as [H2 _]. eapply inv_one; eauto.
    + intros n' c' H. unfold port_open in *.
      assert (n' <> n) by congruence. rewrite R2 in H by auto.
      destruct (inv_reg _ _ I _ _ H) as (A1 & A2 & A3 & A4 & A5). rewrite L, G.
      destruct (Nat.eqb_spec c' c) as [->|]; [fold k in A2; congruence|].
      repeat split; auto. intros sl' d' Hi. apply HU. split; [auto|]. intros ->. apply A5 in Hi.
      destruct (inv_use _ _ I _ _ _ Hi) as (c1 & E & _). congruence.
    + intros c' Hc' Ho. unfold port_open in Ho. rewrite G in *. destruct (Nat.eqb_spec c' c); cbn in *; [discriminate|].
      rewrite L in Hc'. pose proof (inv_open _ _ I _ Hc' Ho) as E. rewrite R2; [exact E|].
      intros E1. rewrite E1 in E. congruence.
  - set (s2 := set_client _ _ _).
    assert (L : length (r_clients s2) = length (r_clients s)) by (cbn; apply upd_length).
    assert (G : forall c', get_client s2 c' = if (c' =? c)%nat then mkRC (c_name k) (c_baud k) (c_parity k) (c_open k) devs else get_client s c').
    { intros c'. exact (get_set s c _ c' Hc). }
    assert (R : forall n', registered s2 n' = registered s n') by reflexivity.
    constructor.
    + intros d' sl' n' H. apply HU in H as [H H'].
      destruct (inv_use _ _ I _ _ _ H) as (c' & E1 & E2 & E3). exists c'. split; [exact E1|split; [rewrite R; auto|]].
      rewrite G. destruct (Nat.eqb_spec c' c) as [->|]; [|exact E3]. cbn. apply HD. split; auto.
    + intros d1 d2 sl' n' H1 H2. apply HU in H1 as [H1 _]. apply HU in H2 as [H2 _]. eapply inv_one; eauto.
    + intros n' c' H. unfold port_open in *. rewrite R in H.
      destruct (inv_reg _ _ I _ _ H) as (A1 & A2 & A3 & A4 & A5). rewrite L, G.
      destruct (Nat.eqb_spec c' c) as [->|N]; cbn.
      * repeat split; auto. { destruct devs; discriminate. } intros sl' d' Hi. apply HD in Hi as [Hi Hi']. apply HU; auto.
      * repeat split; auto. intros sl' d' Hi. apply HU. split; [auto|]. intros ->. apply A5 in Hi.
        destruct (inv_use _ _ I _ _ _ Hi) as (c1 & E & E2 & _). congruence.
    + intros c' Hc' Ho. unfold port_open in Ho. rewrite G in *. rewrite R. rewrite L in Hc'.
      destruct (Nat.eqb_spec c' c) as [->|]; cbn in *; apply (inv_open _ _ I); auto.
Qed.

Lemma run_snoc evs ev : run (evs ++ [ev]) = run1 ev (run evs).
Proof. unfold run. now rewrite fold_left_app. Qed.

Lemma rinv_run evs : disciplined evs -> rinv (fst (run evs)) (snd (run evs)).
Proof.
  induction 1 as [|evs ev HD IH HA]; [apply rinv0|].
  rewrite run_snoc. destruct ev as [sl name baud parity can|d]; cbn [run1].
  - destruct (dev_open sl name baud parity can (fst (run evs))) as [s' r] eqn:E.
    pose proof (rinv_open _ _ _ _ _ _ _ _ _ IH HA E) as I. destruct r; exact I.
  - apply rinv_close; auto.
Qed.
