(** * P_List: lemmas about the list/slice/struct helpers of [Py]. *)
From Verif Require Import Py.
From Coq Require Import ZifyBool.

Lemma zlen_nonneg {A} (l : list A) : 0 <= zlen l.
Proof. unfold zlen; lia. Qed.
Lemma zlen_nil {A} : zlen (@nil A) = 0. Proof. reflexivity. Qed.
Lemma zlen_cons {A} (x : A) l : zlen (x :: l) = 1 + zlen l.
Proof. unfold zlen; cbn [length]; lia. Qed.
Lemma zlen_app {A} (a b : list A) : zlen (a ++ b) = zlen a + zlen b.
Proof. unfold zlen; rewrite app_length; lia. Qed.
Lemma zlen_repeat {A} (x : A) n : zlen (repeat x n) = Z.of_nat n.
Proof. unfold zlen; rewrite repeat_length; lia. Qed.
Lemma zlen_map {A B} (f : A -> B) l : zlen (map f l) = zlen l.
Proof. unfold zlen; rewrite map_length; lia. Qed.
Lemma zlen_zero_nil {A} (l : list A) : zlen l <= 0 -> l = [].
Proof. destruct l; [auto|]. rewrite zlen_cons. pose proof (zlen_nonneg l); lia. Qed.

Lemma zlen_ztake {A} n (l : list A) : 0 <= n -> zlen (ztake n l) = Z.min n (zlen l).
Proof. intros; unfold zlen, ztake; rewrite firstn_length; lia. Qed.
Lemma zlen_ztake_le {A} n (l : list A) : 0 <= n <= zlen l -> zlen (ztake n l) = n.
Proof. intros; rewrite zlen_ztake; lia. Qed.
Lemma zlen_zdrop {A} n (l : list A) : 0 <= n -> zlen (zdrop n l) = Z.max 0 (zlen l - n).
Proof. intros; unfold zlen, zdrop; rewrite skipn_length; lia. Qed.
Lemma zlen_slice {A} a b (l : list A) :
  0 <= a -> zlen (slice a b l) = Z.max 0 (Z.min (b - a) (zlen l - a)).
Proof.
  intros. unfold slice. unfold zlen, ztake, zdrop. rewrite firstn_length, skipn_length. lia.
Qed.
Lemma zlen_slice_in {A} a b (l : list A) :
  0 <= a <= b -> b <= zlen l -> zlen (slice a b l) = b - a.
Proof. intros; rewrite zlen_slice; lia. Qed.

Lemma ztake_all {A} n (l : list A) : zlen l <= n -> ztake n l = l.
Proof. unfold zlen, ztake; intros; apply firstn_all2; lia. Qed.
Lemma ztake_neg {A} n (l : list A) : n <= 0 -> ztake n l = [].
Proof. unfold ztake; intros; replace (Z.to_nat n) with O by lia; reflexivity. Qed.
Lemma zdrop_neg {A} n (l : list A) : n <= 0 -> zdrop n l = l.
Proof. unfold zdrop; intros; replace (Z.to_nat n) with O by lia; reflexivity. Qed.
Lemma zdrop_all {A} n (l : list A) : zlen l <= n -> zdrop n l = [].
Proof. unfold zlen, zdrop; intros; apply skipn_all2; lia. Qed.
Lemma ztake_zdrop {A} n (l : list A) : ztake n l ++ zdrop n l = l.
Proof. apply firstn_skipn. Qed.

Lemma ztake_app_l {A} n (a b : list A) : n <= zlen a -> ztake n (a ++ b) = ztake n a.
Proof.
  unfold zlen, ztake; intros. rewrite firstn_app.
  replace (Z.to_nat n - length a)%nat with O by lia. cbn. apply app_nil_r.
Qed.
Lemma ztake_app_r {A} n (a b : list A) : zlen a <= n -> ztake n (a ++ b) = a ++ ztake (n - zlen a) b.
Proof.
  unfold zlen, ztake; intros. rewrite firstn_app, firstn_all2 by lia. do 2 f_equal. lia.
Qed.
Lemma ztake_app_exact {A} n (a b : list A) : n = zlen a -> ztake n (a ++ b) = a.
Proof. intros ->. rewrite ztake_app_l by lia. apply ztake_all; lia. Qed.
Lemma zdrop_app_l {A} n (a b : list A) : n <= zlen a -> zdrop n (a ++ b) = zdrop n a ++ b.
Proof.
  unfold zlen, zdrop; intros. rewrite skipn_app.
  replace (Z.to_nat n - length a)%nat with O by lia. reflexivity.
Qed.
Lemma zdrop_app_r {A} n (a b : list A) : zlen a <= n -> zdrop n (a ++ b) = zdrop (n - zlen a) b.
Proof.
  unfold zlen, zdrop; intros. rewrite skipn_app, skipn_all2 by lia. cbn. f_equal. lia.
Qed.
Lemma zdrop_app_exact {A} n (a b : list A) : n = zlen a -> zdrop n (a ++ b) = b.
Proof. intros ->. rewrite zdrop_app_r by lia. apply zdrop_neg; lia. Qed.
Lemma zdrop_zdrop {A} n m (l : list A) : 0 <= n -> 0 <= m -> zdrop n (zdrop m l) = zdrop (m + n) l.
Proof.
  unfold zdrop; intros. revert l. replace (Z.to_nat (m + n)) with (Z.to_nat m + Z.to_nat n)%nat by lia.
  induction (Z.to_nat m) as [|k IH]; intros l; [reflexivity|].
  destruct l; cbn; [now rewrite skipn_nil|apply IH].
Qed.
Lemma ztake_ztake {A} n m (l : list A) : ztake n (ztake m l) = ztake (Z.min n m) l.
Proof.
  unfold ztake; rewrite firstn_firstn. f_equal. lia.
Qed.
Lemma zdrop_ztake {A} n m (l : list A) : 0 <= n -> zdrop n (ztake m l) = ztake (m - n) (zdrop n l).
Proof.
  unfold zdrop, ztake; intros. rewrite skipn_firstn_comm. f_equal. lia.
Qed.

(** pointwise view *)
Lemma znth_error_ztake {A} (l : list A) n i :
  (i < Z.to_nat n)%nat -> nth_error (ztake n l) i = nth_error l i.
Proof.
  unfold ztake. revert i l; induction (Z.to_nat n) as [|k IH]; intros i l Hi; [lia|].
  destruct l, i; cbn; auto. apply IH; lia.
Qed.
Lemma nth_error_skipn {A} (l : list A) n i : nth_error (skipn n l) i = nth_error l (n + i).
Proof.
  revert l; induction n as [|n IH]; intros l; [reflexivity|].
  destruct l; cbn; [now destruct i|apply IH].
Qed.
Lemma znth_error_slice {A} (l : list A) a b i :
  0 <= a -> (Z.of_nat i < b - a) -> nth_error (slice a b l) i = nth_error l (Z.to_nat a + i).
Proof.
  intros. unfold slice. rewrite znth_error_ztake by lia. unfold zdrop. apply nth_error_skipn.
Qed.

Lemma slice_empty {A} a b (l : list A) : b <= a -> slice a b l = [].
Proof. intros; unfold slice; apply ztake_neg; lia. Qed.
Lemma slice_full {A} a b (l : list A) : a <= 0 -> zlen l <= b -> slice a b l = l.
Proof.
  intros; unfold slice; rewrite zdrop_neg by lia. apply ztake_all. lia.
Qed.
Lemma slice_app_l {A} a b (x y : list A) : 0 <= a -> b <= zlen x -> slice a b (x ++ y) = slice a b x.
Proof.
  intros. unfold slice. destruct (Z_lt_le_dec b a).
  - rewrite !ztake_neg by lia. reflexivity.
  - rewrite zdrop_app_l by lia. rewrite ztake_app_l; [reflexivity|].
    rewrite zlen_zdrop by lia. lia.
Qed.
Lemma slice_app_r {A} a b (x y : list A) :
  zlen x <= a -> slice a b (x ++ y) = slice (a - zlen x) (b - zlen x) y.
Proof.
  intros. unfold slice. rewrite zdrop_app_r by lia. f_equal. lia.
Qed.
Lemma slice_split {A} a m b (l : list A) :
  0 <= a <= m -> m <= b -> slice a b l = slice a m l ++ slice m b l.
Proof.
  intros. unfold slice.
  rewrite <- (ztake_zdrop (m - a) (ztake (b - a) (zdrop a l))).
  f_equal.
  - rewrite ztake_ztake. f_equal. lia.
  - rewrite zdrop_ztake by lia. rewrite zdrop_zdrop by lia. f_equal; [lia|]. f_equal. lia.
Qed.

Lemma Forall_ztake {A} (P : A -> Prop) n l : Forall P l -> Forall P (ztake n l).
Proof.
  intros H. rewrite <- (ztake_zdrop n l) in H. apply Forall_app in H. apply H.
Qed.
Lemma Forall_zdrop {A} (P : A -> Prop) n l : Forall P l -> Forall P (zdrop n l).
Proof.
  intros H. rewrite <- (ztake_zdrop n l) in H. apply Forall_app in H. apply H.
Qed.
Lemma Forall_slice {A} (P : A -> Prop) a b l : Forall P l -> Forall P (slice a b l).
Proof. intros; apply Forall_ztake, Forall_zdrop; auto. Qed.

Lemma py_slice_nonneg {A} a b (l : list A) : 0 <= a <= b -> py_slice a b l = slice a b l.
Proof.
  intros Ha. unfold py_slice, py_bound.
  destruct (Z.ltb_spec a 0); [lia|]. destruct (Z.ltb_spec b 0); [lia|].
  pose proof (zlen_nonneg l). unfold slice.
  destruct (Z_le_dec (zlen l) a).
  - rewrite !zdrop_all by lia. rewrite !ztake_all by (rewrite zlen_nil; lia). reflexivity.
  - replace (Z.min a (zlen l)) with a by lia.
    destruct (Z_le_dec (zlen l) b).
    + rewrite !ztake_all; auto; rewrite zlen_zdrop; lia.
    + f_equal. lia.
Qed.

(** ** be_bytes / be_int *)
Lemma be_bytes_length n z : length (be_bytes n z) = n.
Proof. revert z; induction n; intros; cbn; auto. rewrite app_length, IHn. cbn. lia. Qed.
Lemma be_bytes_zlen n z : zlen (be_bytes n z) = Z.of_nat n.
Proof. unfold zlen; now rewrite be_bytes_length. Qed.
Lemma be_bytes_bytes n z : Forall is_byte (be_bytes n z).
Proof.
  revert z; induction n; intros; cbn; [constructor|].
  apply Forall_app; split; auto. constructor; [|constructor].
  red. apply Z.mod_pos_bound; lia.
Qed.
Lemma be_int_app a b : be_int (a ++ [b]) = be_int a * 256 + b.
Proof. unfold be_int. rewrite fold_left_app. reflexivity. Qed.
Lemma be_int_be_bytes n z : be_int (be_bytes n z) = z mod 256 ^ Z.of_nat n.
Proof.
  revert z; induction n as [|n IH]; intros z.
  - cbn [be_bytes]. change (256 ^ Z.of_nat 0) with 1. rewrite Z.mod_1_r. reflexivity.
  - cbn [be_bytes]. rewrite be_int_app, IH.
    rewrite Nat2Z.inj_succ, Z.pow_succ_r by lia.
    rewrite (Z.rem_mul_r z 256 (256 ^ Z.of_nat n)) by (try apply Z.pow_nonzero; lia). lia.
Qed.
Lemma be_int_bound d : Forall is_byte d -> 0 <= be_int d < 256 ^ zlen d.
Proof.
  induction d as [|b d IH] using rev_ind; intros H.
  - unfold be_int; cbn; lia.
  - apply Forall_app in H as [H1 H2]. inversion H2; subst. red in H3.
    rewrite be_int_app, zlen_app. specialize (IH H1).
    replace (zlen d + zlen [b]) with (Z.succ (zlen d)) by (unfold zlen; cbn; lia).
    rewrite Z.pow_succ_r by apply zlen_nonneg. lia.
Qed.
Lemma be_bytes_be_int d : Forall is_byte d -> be_bytes (length d) (be_int d) = d.
Proof.
  induction d as [|b d IH] using rev_ind; intros H; [reflexivity|].
  apply Forall_app in H as [H1 H2]. inversion H2; subst. red in H3.
  rewrite be_int_app, app_length. cbn [length]. rewrite Nat.add_1_r. cbn [be_bytes].
  replace ((be_int d * 256 + b) / 256) with (be_int d) by (rewrite Z.div_add_l by lia; rewrite Z.div_small; lia).
  replace ((be_int d * 256 + b) mod 256) with b
    by (rewrite Z.add_comm, Z.mod_add by lia; rewrite Z.mod_small; lia).
  rewrite IH by auto. reflexivity.
Qed.
Lemma be_bytes_mod n z : be_bytes n (z mod 256 ^ Z.of_nat n) = be_bytes n z.
Proof.
  rewrite <- be_int_be_bytes. rewrite <- (be_bytes_length n z) at 1.
  apply be_bytes_be_int, be_bytes_bytes.
Qed.
Lemma pow256 n : 0 <= n -> 256 ^ n = 2 ^ (8 * n).
Proof. intros. change 256 with (2 ^ 8). rewrite <- Z.pow_mul_r; lia. Qed.

Lemma is_byteb_true b : is_byteb b = true <-> is_byte b.
Proof. unfold is_byteb, is_byte. lia. Qed.
Lemma forallb_is_byte d : forallb is_byteb d = true <-> Forall is_byte d.
Proof.
  rewrite forallb_forall, Forall_forall. split; intros H x Hx; apply is_byteb_true; auto.
Qed.

Lemma bind_ok {A B} (m : res A) (f : A -> res B) b :
  bind m f = Ok b <-> exists a, m = Ok a /\ f a = Ok b.
Proof. destruct m; cbn; split; [eauto|intros (a' & [= ->] & ?); auto|discriminate|intros (a' & ? & ?); discriminate]. Qed.
Lemma bind_raise {A B} (m : res A) (f : A -> res B) e :
  bind m f = Raise e <-> m = Raise e \/ exists a, m = Ok a /\ f a = Raise e.
Proof.
  destruct m; cbn; split; intros H.
  - right; eauto.
  - destruct H as [H|(a' & [= ->] & ?)]; [discriminate|auto].
  - left; injection H as ->; auto.
  - destruct H as [H|(a' & ? & ?)]; [injection H as ->; auto|discriminate].
Qed.

Lemma Some_inj {A} (a b : A) : Some a = Some b -> a = b. Proof. congruence. Qed.
Lemma Ok_inj {A} (a b : A) : Ok a = Ok b -> a = b. Proof. congruence. Qed.
