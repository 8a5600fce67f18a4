(** * P_Assign: proofs about assigning to an unscaled point (C87). *)
From Coq Require Import Reals Psatz String.
From Flocq Require Import Core BinarySingleNaN.
From Verif Require Import Py P_List M_Util M_Float M_Suns M_Point S_Codec S_Assign P_IntText P_Float P_Scale.
Local Open Scope Z_scope.

Lemma trunc_finite f : is_finite_SF f = true -> int_trunc f = Ok (Ztrunc (SF2R radix2 f)).
Proof.
  destruct f as [s|s| |s m e]; cbn [is_finite_SF]; try discriminate; intros _; cbn [int_trunc SF2R].
  - now rewrite (Ztrunc_IZR 0).
  - f_equal. unfold F2R. cbn [Fnum Fexp].
    assert (P : Ztrunc (IZR (Zpos m) * bpow radix2 e) =
                if 0 <=? e then Zpos m * 2 ^ e else Zpos m / 2 ^ (- e)).
    { destruct (Z.leb_spec 0 e) as [L|L].
      - rewrite <- IZR_Zpower by exact L. rewrite <- mult_IZR. apply Ztrunc_IZR.
      - replace e with (- - e) at 1 by lia. rewrite bpow_opp, <- IZR_Zpower by lia.
        change (Ztrunc (IZR (Z.pos m) / IZR (2 ^ (- e))) = Z.pos m / 2 ^ (- e)).
        assert (0 < 2 ^ (- e)) by (apply Z.pow_pos_nonneg; lia).
        rewrite Ztrunc_div by lia. apply Z.quot_div_nonneg; lia. }
    destruct s; cbn [cond_Zopp].
    + rewrite opp_IZR, Ropp_mult_distr_l_reverse, Ztrunc_opp, P. reflexivity.
    + now rewrite P.
Qed.

Lemma unscaled_falsy sf : unscaled sf -> sf_truthy sf = false.
Proof. intros [-> | ->]; reflexivity. Qed.
Lemma set_unscaled E t sf v : unscaled sf -> value_setter E t sf v = to_value E t v.
Proof. intros H. unfold value_setter. now rewrite (unscaled_falsy _ H). Qed.

Lemma int_to_value E t v : holds_int t -> to_value E t v = let! z := suns_to_int v in Ok (VInt z).
Proof.
  intros [H1 H2]. unfold holds_text in H1. destruct t; try reflexivity; exfalso; try (apply H1; cbn; tauto); now apply H2.
Qed.

Lemma suns_to_int_spec v z : suns_to_int v = Ok z <-> denotes_int v z.
Proof.
  split.
  - destruct v as [|z0|s|f]; cbn [suns_to_int]; intros H.
    + discriminate.
    + assert (z0 = z) by congruence. subst. constructor.
    + constructor. now apply int_of_str0_spec.
    + destruct (is_finite_SF f) eqn:F.
      * rewrite (trunc_finite f F) in H. assert (Q : Ztrunc (SF2R radix2 f) = z) by congruence.
        rewrite <- Q. now constructor.
      * destruct f; discriminate.
  - intros H; destruct H; cbn [suns_to_int].
    + reflexivity.
    + now apply int_of_str0_spec.
    + now apply trunc_finite.
Qed.

Lemma suns_to_int_error v : (forall z, ~ denotes_int v z) ->
  suns_to_int v = Raise (match v with VNone => EType | VFlt (S754_infinity _) => EOverflow | _ => EValue end).
Proof.
  intros H. destruct v as [|z|s|f]; cbn [suns_to_int].
  - reflexivity.
  - exfalso. apply (H z). constructor.
  - apply int_of_str0_reject. intros z L. apply (H z). now constructor.
  - destruct f; try reflexivity; exfalso; eapply H; now constructor.
Qed.

Lemma set_int E t sf v r : unscaled sf -> holds_int t ->
  (value_setter E t sf v = Ok r <-> exists z, denotes_int v z /\ r = VInt z).
Proof.
  intros U T. rewrite (set_unscaled E t sf v U), (int_to_value E t v T). split.
  - intros H. apply bind_ok in H as (z & H1 & H2). exists z. split; [now apply suns_to_int_spec|congruence].
  - intros (z & H & ->). apply suns_to_int_spec in H. now rewrite H.
Qed.
Lemma set_int_error E t sf v : unscaled sf -> holds_int t -> (forall z, ~ denotes_int v z) ->
  value_setter E t sf v =
  Raise (match v with VNone => EType | VFlt (S754_infinity _) => EOverflow | _ => EValue end).
Proof.
  intros U T H. rewrite (set_unscaled E t sf v U), (int_to_value E t v T), (suns_to_int_error v H). reflexivity.
Qed.

(** a number has one canonical decimal text *)
Definition dval (ds : list Z) : Z := fold_left (fun acc c => acc * 10 + (c - 48)) ds 0.
Lemma dval_snoc ds d : dval (ds ++ [d]) = dval ds * 10 + (d - 48).
Proof. unfold dval. now rewrite fold_left_app. Qed.
Lemma dval_nonneg ds : Forall (fun c => 48 <= c <= 57) ds -> 0 <= dval ds.
Proof.
  induction ds as [|d ds IH] using rev_ind; intros H; [unfold dval; cbn [fold_left]; lia|].
  apply Forall_app in H as [H1 H2]. inversion H2; subst. rewrite dval_snoc. specialize (IH H1). lia.
Qed.
Lemma dval_pos ds : Forall (fun c => 48 <= c <= 57) ds -> ds <> [] -> hd 0 ds <> 48 -> 0 < dval ds.
Proof.
  induction ds as [|d ds IH] using rev_ind; intros H N Hh; [congruence|].
  apply Forall_app in H as [H1 H2]. inversion H2; subst. rewrite dval_snoc.
  destruct ds as [|c ds].
  - cbn [app hd] in Hh. unfold dval; cbn [fold_left]. lia.
  - cbn [app hd] in Hh. specialize (IH H1 ltac:(discriminate) Hh). lia.
Qed.
Lemma dval_inj : forall a b, Forall (fun c => 48 <= c <= 57) a -> Forall (fun c => 48 <= c <= 57) b ->
  (hd 0 a = 48 -> a = [48]) -> (hd 0 b = 48 -> b = [48]) -> a <> [] -> b <> [] -> dval a = dval b -> a = b.
Proof.
  assert (Z1 : forall a x, (hd 0 (a ++ [x]) = 48 -> a ++ [x] = [48]) -> a <> [] -> hd 0 a <> 48).
  { intros [|c a] x H N Q; [congruence|]. cbn [app hd] in H, Q. specialize (H Q).
    apply (f_equal (@List.length Z)) in H. cbn [List.length] in H. rewrite app_length in H.
    cbn [List.length] in H. lia. }
  induction a as [|x a IH] using rev_ind; intros b Ha Hb Ca Cb Na Nb E; [congruence|].
  destruct b as [|y b _] using rev_ind; [congruence|].
  rewrite !dval_snoc in E. apply Forall_app in Ha as [Ha Hx]. apply Forall_app in Hb as [Hb Hy].
  inversion Hx; inversion Hy; subst.
  assert (x = y /\ dval a = dval b) as [-> E2] by lia.
  f_equal.
  assert (K : forall l z, (hd 0 (l ++ [z]) = 48 -> l ++ [z] = [48]) -> Forall (fun c => 48 <= c <= 57) l ->
             l <> [] -> 0 < dval l).
  { intros l z C F N. apply dval_pos; auto. now apply (Z1 l z). }
  destruct a as [|c a]; destruct b as [|d b]; [reflexivity| | |].
  - specialize (K _ _ Cb Hb ltac:(discriminate)). change (dval []) with 0 in E2. lia.
  - specialize (K _ _ Ca Ha ltac:(discriminate)). change (dval []) with 0 in E2. lia.
  - apply IH; auto; try discriminate.
    + intros Q. exfalso. now apply (Z1 _ _ Ca ltac:(discriminate)).
    + intros Q. exfalso. now apply (Z1 _ _ Cb ltac:(discriminate)).
Qed.
Lemma canonical_decimal_inj z s1 s2 : canonical_decimal z s1 -> canonical_decimal z s2 -> s1 = s2.
Proof.
  intros (a & -> & Na & Ca & Fa & Va) (b & -> & Nb & Cb & Fb & Vb). f_equal.
  apply dval_inj; auto. unfold dval. congruence.
Qed.

Lemma text_to_value E t v : holds_text t -> to_value E t v = Ok (VStr (suns_to_str E v)).
Proof. intros [<-|[<-|[<-|[]]]]; reflexivity. Qed.
Lemma set_text E t sf v s : unscaled sf -> holds_text t -> denotes_text v s ->
  value_setter E t sf v = Ok (VStr s).
Proof.
  intros U T D. rewrite (set_unscaled E t sf v U), (text_to_value E t v T).
  destruct D as [s|z s D]; cbn [suns_to_str]; [reflexivity|].
  do 2 f_equal. apply canonical_decimal_inj with z; [apply str_of_int_canonical|exact D].
Qed.
