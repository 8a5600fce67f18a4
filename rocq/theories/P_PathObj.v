(** * P_PathObj: lemmas for C121. *)
From Coq Require Import String.
From Coq Require Import ZifyBool.
From Verif Require Import Py P_List S_Codec M_Suns M_Mbmap S_Mbmap M_Path M_PathObj S_PathObj.

Lemma find_app {A} (f : A -> bool) a b : find f (a ++ b) = match find f a with Some x => Some x | None => find f b end.
Proof. induction a as [|x a IH]; [reflexivity|]. cbn [app find]. destruct (f x); [reflexivity|exact IH]. Qed.
(** ** the objects *)
Section Objs.
  Context (prt : Z -> bool).
  Definition named (t : list (pop * pout)) (r : nat) : Prop := exists l, In (PNewList l, ONum r) t.
  Record Inv (s : pstate) (t : list (pop * pout)) : Prop := mkInv {
    inv_obj : forall o k, nth_error (ps_objs s) o = Some k -> (k < length (ps_lists s))%nat /\
      match made_from t o with
      | Some (Some r) => k = r /\ named t r
      | Some None => ~ named t k /\ (forall o', nth_error (ps_objs s) o' = Some k -> o' = o) /\ nth_error (ps_lists s) k = Some (added t o)
      | None => False
      end;
    inv_made : forall o, made_from t o <> None -> (o < length (ps_objs s))%nat;
    inv_named : forall r, named t r -> nth_error (ps_lists s) r = Some (in_list t r);
    inv_new : forall r, (length (ps_lists s) <= r)%nat -> in_list t r = [];
    inv_newo : forall o, (length (ps_objs s) <= o)%nat -> added t o = [];
    inv_add : forall o p, In (PAdd o p, OUnit) t -> made_from t o <> None }.

  Lemma made_stable t e o : made_from t o <> None -> made_from (t ++ [e]) o = made_from t o.
  Proof.
    unfold made_from. rewrite find_app. destruct (find _ t) as [[a b]|]; [|contradiction]. reflexivity.
  Qed.
  Lemma made_snoc t e o : (forall r, e <> (PNew r, ONum o)) -> made_from (t ++ [e]) o = made_from t o.
  Proof.
    intros H. unfold made_from. rewrite find_app. destruct (find _ t) as [[a b]|]; [reflexivity|]. cbn [find].
    destruct e as [[] []]; try reflexivity. destruct (Nat.eqb_spec n o) as [->|]; [exfalso; eapply H; reflexivity|reflexivity].
  Qed.
  Lemma made_new t r o : made_from t o = None -> made_from (t ++ [(PNew r, ONum o)]) o = Some r.
  Proof.
    unfold made_from. intros H. rewrite find_app.
    destruct (find _ t) as [[a b]|] eqn:E; [|cbn [find]; now rewrite Nat.eqb_refl].
    apply find_some in E as [_ E]. destruct a; try discriminate.
  Qed.
  Lemma in_list_snoc s t e r : Inv s t -> in_list (t ++ [e]) r = in_list t r ++ match e with
    | (PNewList l, ONum n) => if Nat.eqb n r then l else []
    | (PAppend n p, OUnit) => if Nat.eqb n r then [p] else []
    | (PAdd o p, OUnit) => match made_from (t ++ [e]) o with Some (Some n) => if Nat.eqb n r then [p] else [] | _ => [] end
    | _ => [] end.
  Proof.
    intros HI. unfold in_list at 1. rewrite flat_map_app. f_equal.
    - unfold in_list. rewrite !flat_map_concat_map. f_equal. apply map_ext_in. intros [[] []] HE; try reflexivity.
      now rewrite made_stable by exact (inv_add s t HI _ _ HE).
    - cbn [flat_map]. now rewrite app_nil_r.
  Qed.
  Lemma added_snoc t e o : added (t ++ [e]) o = added t o ++ match e with (PAdd o' p, OUnit) => if Nat.eqb o' o then [p] else [] | _ => [] end.
  Proof. unfold added. rewrite flat_map_app. cbn [flat_map]. now rewrite app_nil_r. Qed.
  Lemma named_snoc t e r : named (t ++ [e]) r <-> named t r \/ exists l, e = (PNewList l, ONum r).
  Proof.
    unfold named. split.
    - intros (l & H). apply in_app_or in H as [H|[H|[]]]; [left; now exists l|right; now exists l].
    - intros [(l & H)|(l & ->)]; exists l; apply in_or_app; [now left|right; now left].
  Qed.
  Lemma upd_len {A} (f : A -> A) l n : length (upd f n l) = length l.
  Proof. revert n. induction l as [|a l IH]; intros [|n]; cbn; auto. Qed.
  Lemma upd_same {A} (f : A -> A) l n a : nth_error l n = Some a -> nth_error (upd f n l) n = Some (f a).
  Proof. revert n. induction l as [|b l IH]; intros [|n]; cbn; try discriminate; auto. now intros [= ->]. Qed.
  Lemma upd_other {A} (f : A -> A) l n m : n <> m -> nth_error (upd f n l) m = nth_error l m.
  Proof. revert n m. induction l as [|b l IH]; intros [|n] [|m] H; cbn; auto; try contradiction. Qed.

  (** events that change nothing *)
  Definition idle (e : pop * pout) : Prop := match e with (PNew _, ONum _) | (PNewList _, ONum _) | (_, OUnit) => False | _ => True end.
  Lemma inv_idle s t e : idle e -> Inv s t -> Inv s (t ++ [e]).
  Proof.
    intros HE HI.
    assert (M : forall o, made_from (t ++ [e]) o = made_from t o) by (intros o; apply made_snoc; intros r ->; exact HE).
    assert (L : forall r, in_list (t ++ [e]) r = in_list t r).
    { intros r. rewrite (in_list_snoc s t e r HI). destruct e as [[] []]; cbn in HE; try contradiction; apply app_nil_r. }
    assert (A : forall o, added (t ++ [e]) o = added t o).
    { intros o. rewrite added_snoc. destruct e as [[] []]; cbn in HE; try contradiction; apply app_nil_r. }
    assert (N : forall r, named (t ++ [e]) r <-> named t r).
    { intros r. rewrite named_snoc. split; [|auto]. intros [H|(l & ->)]; [exact H|contradiction]. }
    constructor.
    - intros o k Hk. rewrite M, A. destruct (inv_obj s t HI o k Hk) as [H1 H2]. split; [exact H1|]. destruct (made_from t o) as [[r|]|]; [|rewrite N; exact H2|exact H2]. rewrite N. exact H2.
    - intros o. rewrite M. apply (inv_made s t HI).
    - intros r. rewrite N, L. apply (inv_named s t HI).
    - intros r. rewrite L. apply (inv_new s t HI).
    - intros o. rewrite A. apply (inv_newo s t HI).
    - intros o p H. rewrite M. apply in_app_or in H as [H|[H|[]]]; [exact (inv_add s t HI o p H)|subst e; contradiction].
  Qed.
  Lemma inv_len s t o k : Inv s t -> nth_error (ps_objs s) o = Some k -> exists l, nth_error (ps_lists s) k = Some l.
  Proof. intros HI H. apply (inv_obj s t HI) in H as [H _]. apply nth_error_Some in H. destruct (nth_error _ _) as [l|]; [now exists l|contradiction]. Qed.
  (** the lists a program names are its own *)
  Definition own (t : list (pop * pout)) (a : pop) : Prop := match a with PAppend r _ | PNew (Some r) => named t r | _ => True end.

  Lemma named_lt s t r : Inv s t -> named t r -> (r < length (ps_lists s))%nat.
  Proof. intros HI H. apply (inv_named s t HI) in H. apply nth_error_Some. congruence. Qed.
  Lemma unmade s t : Inv s t -> made_from t (length (ps_objs s)) = None.
  Proof. intros HI. destruct (made_from t (length (ps_objs s))) eqn:E; [|reflexivity]. pose proof (inv_made s t HI (length (ps_objs s)) ltac:(congruence)). lia. Qed.
  Lemma inv_step fs s t a : Inv s t -> own t a -> let '(s', out) := pstep prt fs s a in Inv s' (t ++ [(a, out)]).
  Proof.
    intros HI HO. destruct a as [l|r p|[r|]|o p|o f|o]; cbn [pstep own] in *.
    - (* PNewList *) set (n := length (ps_lists s)). set (e := (PNewList l, ONum n)).
      assert (M : forall o, made_from (t ++ [e]) o = made_from t o) by (intros o; apply made_snoc; discriminate).
      assert (L : forall r, in_list (t ++ [e]) r = in_list t r ++ if Nat.eqb n r then l else []) by (intros r; apply (in_list_snoc s t e r HI)).
      assert (A : forall o, added (t ++ [e]) o = added t o) by (intros o; rewrite added_snoc; apply app_nil_r).
      assert (N : forall r, named (t ++ [e]) r <-> named t r \/ r = n).
      { intros r. rewrite named_snoc. split; (intros [H|H]; [now left|right]); [destruct H as (l' & H); unfold e in H; congruence|subst r; now exists l]. }
      constructor; cbn [ps_lists ps_objs].
      + intros o k Hk. rewrite M, A. destruct (inv_obj s t HI o k Hk) as [H1 H2]. rewrite app_length. cbn [length]. split; [lia|]. destruct (made_from t o) as [[r|]|]; [| |exact H2].
        * destruct H2 as [H2 H3]. split; [exact H2|apply N; now left].
        * destruct H2 as (H2 & H3 & H4). split; [rewrite N; intros [H|H]; [auto|unfold n in H; lia]|]. split; [exact H3|]. now rewrite nth_error_app1.
      + intros o. rewrite M. apply (inv_made s t HI).
      + intros r. rewrite N, L. intros [H| ->].
        * pose proof (named_lt s t r HI H). rewrite nth_error_app1 by assumption. destruct (Nat.eqb_spec n r); [unfold n in *; lia|]. rewrite app_nil_r. now apply (inv_named s t HI).
        * rewrite nth_error_app2, Nat.sub_diag by (unfold n; lia). cbn [nth_error]. rewrite Nat.eqb_refl, (inv_new s t HI n) by (unfold n; lia). reflexivity.
      + intros r. rewrite app_length, L. cbn [length]. intros H. destruct (Nat.eqb_spec n r); [unfold n in *; lia|]. rewrite app_nil_r. apply (inv_new s t HI). lia.
      + intros o. rewrite A. apply (inv_newo s t HI).
      + intros o p H. rewrite M. apply in_app_or in H as [H|[H|[]]]; [exact (inv_add s t HI o p H)|discriminate].
    - (* PAppend *) pose proof (named_lt s t r HI HO) as HL. destruct (Nat.ltb_spec r (length (ps_lists s))) as [_|]; [|lia].
      set (e := (PAppend r p, OUnit)).
      assert (M : forall o, made_from (t ++ [e]) o = made_from t o) by (intros o; apply made_snoc; discriminate).
      assert (L : forall n, in_list (t ++ [e]) n = in_list t n ++ if Nat.eqb r n then [p] else []) by (intros n; apply (in_list_snoc s t e n HI)).
      assert (A : forall o, added (t ++ [e]) o = added t o) by (intros o; rewrite added_snoc; apply app_nil_r).
      assert (N : forall n, named (t ++ [e]) n <-> named t n).
      { intros n. rewrite named_snoc. split; [|auto]. intros [H|(l & H)]; [exact H|discriminate]. }
      constructor; cbn [ps_lists ps_objs].
      + intros o k Hk. rewrite M, A, upd_len. destruct (inv_obj s t HI o k Hk) as [H1 H2]. split; [exact H1|]. destruct (made_from t o) as [[n|]|]; [rewrite N; exact H2| |exact H2].
        destruct H2 as (H2 & H3 & H4). split; [now rewrite N|]. split; [exact H3|]. rewrite upd_other; [exact H4|]. intros ->. contradiction.
      + intros o. rewrite M. apply (inv_made s t HI).
      + intros n. rewrite N, L. intros H. destruct (Nat.eqb_spec r n) as [->|HN].
        * erewrite upd_same; [reflexivity|]. now apply (inv_named s t HI).
        * rewrite upd_other, app_nil_r by assumption. now apply (inv_named s t HI).
      + intros n. rewrite upd_len, L. intros H. destruct (Nat.eqb_spec r n); [lia|]. rewrite app_nil_r. now apply (inv_new s t HI).
      + intros o. rewrite A. apply (inv_newo s t HI).
      + intros o q H. rewrite M. apply in_app_or in H as [H|[H|[]]]; [exact (inv_add s t HI o q H)|discriminate].
    - (* PNew (Some r) *) pose proof (named_lt s t r HI HO) as HL. destruct (Nat.ltb_spec r (length (ps_lists s))) as [_|]; [|lia].
      set (n := length (ps_objs s)). set (e := (PNew (Some r), ONum n)). pose proof (unmade s t HI) as HU. fold n in HU.
      assert (MN : made_from (t ++ [e]) n = Some (Some r)) by (now apply made_new).
      assert (M : forall o, o <> n -> made_from (t ++ [e]) o = made_from t o) by (intros o Ho; apply made_snoc; unfold e; congruence).
      assert (L : forall k, in_list (t ++ [e]) k = in_list t k) by (intros k; rewrite (in_list_snoc s t e k HI); apply app_nil_r).
      assert (A : forall o, added (t ++ [e]) o = added t o) by (intros o; rewrite added_snoc; apply app_nil_r).
      assert (N : forall k, named (t ++ [e]) k <-> named t k).
      { intros k. rewrite named_snoc. split; [|auto]. intros [H|(l & H)]; [exact H|discriminate]. }
      constructor; cbn [ps_lists ps_objs].
      + intros o k Hk. destruct (Nat.eq_dec o n) as [->|Ho].
        * rewrite nth_error_app2, Nat.sub_diag in Hk by (unfold n; lia). cbn [nth_error] in Hk. apply Some_inj in Hk. subst k. split; [exact HL|]. rewrite MN. split; [reflexivity|now apply N].
        * assert (Hk' : nth_error (ps_objs s) o = Some k).
          { rewrite nth_error_app1 in Hk; [exact Hk|]. assert (o < length (ps_objs s ++ [r]))%nat by (apply nth_error_Some; congruence). rewrite app_length in H. cbn [length] in H. unfold n in Ho. lia. }
          rewrite (M o Ho), A. destruct (inv_obj s t HI o k Hk') as [H1 H2]. split; [exact H1|]. destruct (made_from t o) as [[q|]|]; [rewrite N; exact H2| |exact H2].
          destruct H2 as (H2 & H3 & H4). split; [now rewrite N|]. split; [|exact H4]. intros o' Ho'. destruct (Nat.eq_dec o' n) as [->|Hn].
          -- exfalso. rewrite nth_error_app2, Nat.sub_diag in Ho' by (unfold n; lia). cbn [nth_error] in Ho'. apply Some_inj in Ho'. subst k. contradiction.
          -- apply H3. rewrite nth_error_app1 in Ho'; [exact Ho'|]. assert (o' < length (ps_objs s ++ [r]))%nat by (apply nth_error_Some; congruence). rewrite app_length in H. cbn [length] in H. unfold n in Hn. lia.
      + intros o H. rewrite app_length. cbn [length]. destruct (Nat.eq_dec o n) as [->|Ho]; [unfold n; lia|]. rewrite (M o Ho) in H. apply (inv_made s t HI) in H. lia.
      + intros k. rewrite N, L. apply (inv_named s t HI).
      + intros k. rewrite L. apply (inv_new s t HI).
      + intros o. rewrite app_length, A. cbn [length]. intros H. apply (inv_newo s t HI). lia.
      + intros o q H. apply in_app_or in H as [H|[H|[]]]; [|discriminate]. pose proof (inv_add s t HI o q H) as HM. rewrite made_stable; assumption.
    - (* PNew None *) set (n := length (ps_objs s)). set (m := length (ps_lists s)). set (e := (PNew None, ONum n)). pose proof (unmade s t HI) as HU. fold n in HU.
      assert (MN : made_from (t ++ [e]) n = Some None) by (now apply made_new).
      assert (M : forall o, o <> n -> made_from (t ++ [e]) o = made_from t o) by (intros o Ho; apply made_snoc; unfold e; congruence).
      assert (L : forall k, in_list (t ++ [e]) k = in_list t k) by (intros k; rewrite (in_list_snoc s t e k HI); apply app_nil_r).
      assert (A : forall o, added (t ++ [e]) o = added t o) by (intros o; rewrite added_snoc; apply app_nil_r).
      assert (N : forall k, named (t ++ [e]) k <-> named t k).
      { intros k. rewrite named_snoc. split; [|auto]. intros [H|(l & H)]; [exact H|discriminate]. }
      constructor; cbn [ps_lists ps_objs].
      + intros o k Hk. rewrite app_length. cbn [length]. destruct (Nat.eq_dec o n) as [->|Ho].
        * rewrite nth_error_app2, Nat.sub_diag in Hk by (unfold n; lia). cbn [nth_error] in Hk. apply Some_inj in Hk. subst k. split; [lia|]. rewrite MN, A.
          split; [rewrite N; intros H; pose proof (named_lt s t m HI H); unfold m in *; lia|]. split.
          -- intros o' Ho'. destruct (Nat.eq_dec o' n) as [|Hn]; [assumption|]. exfalso.
             assert (nth_error (ps_objs s) o' = Some m).
             { rewrite nth_error_app1 in Ho'; [exact Ho'|]. assert (o' < length (ps_objs s ++ [m]))%nat by (apply nth_error_Some; congruence). rewrite app_length in H. cbn [length] in H. unfold n in Hn. lia. }
             apply (inv_obj s t HI) in H as [H _]. unfold m in H. lia.
          -- rewrite nth_error_app2, Nat.sub_diag by (unfold m; lia). cbn [nth_error]. now rewrite (inv_newo s t HI) by (unfold n; lia).
        * assert (Hk' : nth_error (ps_objs s) o = Some k).
          { rewrite nth_error_app1 in Hk; [exact Hk|]. assert (o < length (ps_objs s ++ [m]))%nat by (apply nth_error_Some; congruence). rewrite app_length in H. cbn [length] in H. unfold n in Ho. lia. }
          rewrite (M o Ho), A. destruct (inv_obj s t HI o k Hk') as [H1 H2]. split; [lia|]. destruct (made_from t o) as [[q|]|]; [rewrite N; exact H2| |exact H2].
          destruct H2 as (H2 & H3 & H4). split; [now rewrite N|]. split; [|rewrite nth_error_app1 by exact H1; exact H4]. intros o' Ho'. destruct (Nat.eq_dec o' n) as [->|Hn].
          -- exfalso. rewrite nth_error_app2, Nat.sub_diag in Ho' by (unfold n; lia). cbn [nth_error] in Ho'. apply Some_inj in Ho'. unfold m in Ho'. lia.
          -- apply H3. rewrite nth_error_app1 in Ho'; [exact Ho'|]. assert (o' < length (ps_objs s ++ [m]))%nat by (apply nth_error_Some; congruence). rewrite app_length in H. cbn [length] in H. unfold n in Hn. lia.
      + intros o H. rewrite app_length. cbn [length]. destruct (Nat.eq_dec o n) as [->|Ho]; [unfold n; lia|]. rewrite (M o Ho) in H. apply (inv_made s t HI) in H. lia.
      + intros k. rewrite N, L. intros H. rewrite nth_error_app1 by exact (named_lt s t k HI H). now apply (inv_named s t HI).
      + intros k. rewrite L, app_length. cbn [length]. intros H. apply (inv_new s t HI). lia.
      + intros o. rewrite app_length, A. cbn [length]. intros H. apply (inv_newo s t HI). lia.
      + intros o q H. apply in_app_or in H as [H|[H|[]]]; [|discriminate]. pose proof (inv_add s t HI o q H) as HM. rewrite made_stable; assumption.
    - (* PAdd *) unfold list_of. destruct (nth_error (ps_objs s) o) as [k|] eqn:EO; [|apply inv_idle; [exact Logic.I|exact HI]].
      destruct (inv_len s t o k HI EO) as [l EL]. rewrite EL. set (e := (PAdd o p, OUnit)).
      pose proof (inv_obj s t HI o k EO) as [HK HM]. assert (HMo : made_from t o <> None) by (destruct (made_from t o); [discriminate|contradiction]).
      assert (M : forall o', made_from (t ++ [e]) o' = made_from t o') by (intros o'; apply made_snoc; discriminate).
      assert (L : forall n, in_list (t ++ [e]) n = in_list t n ++ match made_from t o with Some (Some n') => if Nat.eqb n' n then [p] else [] | _ => [] end).
      { intros n. rewrite (in_list_snoc s t e n HI). unfold e at 1. now rewrite M. }
      assert (A : forall o', added (t ++ [e]) o' = added t o' ++ if Nat.eqb o o' then [p] else []) by (intros o'; apply added_snoc).
      assert (N : forall n, named (t ++ [e]) n <-> named t n).
      { intros n. rewrite named_snoc. split; [|auto]. intros [H|(l' & H)]; [exact H|discriminate]. }
      constructor; cbn [ps_lists ps_objs].
      + intros o' k' Hk. rewrite M, A, upd_len. destruct (inv_obj s t HI o' k' Hk) as [H1 H2]. split; [exact H1|]. destruct (made_from t o') as [[n|]|] eqn:EM; [rewrite N; exact H2| |exact H2].
        destruct H2 as (H2 & H3 & H4). split; [now rewrite N|]. split; [exact H3|]. destruct (Nat.eqb_spec o o') as [->|Ho].
        * assert (k' = k) by congruence. subst k'. exact (upd_same (fun l => l ++ [p]) _ _ _ H4).
        * rewrite app_nil_r, upd_other; [exact H4|]. intros ->. apply Ho. now apply H3.
      + intros o'. rewrite M. apply (inv_made s t HI).
      + intros n. rewrite N, L. intros H. pose proof (inv_named s t HI n H) as HN. destruct (made_from t o) as [[r|]|] eqn:EM; [| |contradiction].
        * destruct HM as [-> HM]. destruct (Nat.eqb_spec r n) as [->|Hn]; [exact (upd_same (fun l => l ++ [p]) _ _ _ HN)|]. now rewrite app_nil_r, upd_other.
        * destruct HM as (H2 & _). rewrite app_nil_r, upd_other; [exact HN|]. intros ->. contradiction.
      + intros n. rewrite upd_len, L. intros H. rewrite (inv_new s t HI n H). destruct (made_from t o) as [[r|]|]; try reflexivity. destruct HM as [-> _]. destruct (Nat.eqb_spec r n); [lia|reflexivity].
      + intros o' H. rewrite A, (inv_newo s t HI o' H). assert (o < length (ps_objs s))%nat by (apply nth_error_Some; congruence). destruct (Nat.eqb_spec o o'); [lia|reflexivity].
      + intros o' q H. rewrite M. apply in_app_or in H as [H|[H|[]]]; [exact (inv_add s t HI o' q H)|]. assert (o' = o) by (unfold e in H; congruence). now subst o'.
    - unfold list_of. destruct (nth_error (ps_objs s) o) as [k|]; [destruct (nth_error (ps_lists s) k)|]; apply inv_idle; try exact HI; exact Logic.I.
    - unfold list_of. destruct (nth_error (ps_objs s) o) as [k|]; [destruct (nth_error (ps_lists s) k)|]; apply inv_idle; try exact HI; exact Logic.I.
  Qed.
  Lemma inv_list s t o : Inv s t -> option_map snd (list_of s o) = paths_of t o.
  Proof.
    intros HI. unfold list_of, paths_of. destruct (nth_error (ps_objs s) o) as [k|] eqn:EO.
    - pose proof (inv_obj s t HI o k EO) as [H1 H2]. destruct (made_from t o) as [[r|]|]; [| |contradiction].
      + destruct H2 as [-> H2]. rewrite (inv_named s t HI r H2). reflexivity.
      + destruct H2 as (_ & _ & H2). now rewrite H2.
    - destruct (made_from t o) eqn:EM; [|reflexivity]. pose proof (inv_made s t HI o ltac:(congruence)) as H. apply nth_error_Some in H. contradiction.
  Qed.
  Lemma inv_start : Inv no_objects [].
  Proof.
    constructor; cbn; auto; try (intros; contradiction).
    - intros [|o] k H; discriminate.
    - intros r (l & []).
  Qed.
  Lemma inv_run h : forall s t0 s' t, Inv s t0 -> prun prt s h = (s', t) ->
    (forall t1 a out t2, t = t1 ++ (a, out) :: t2 -> own (t0 ++ t1) a) -> Inv s' (t0 ++ t).
  Proof.
    induction h as [|[fs a] h IH]; intros s t0 s' t HI H HO; cbn [prun] in H.
    - apply pair_equal_spec in H as [-> <-]. now rewrite app_nil_r.
    - pose proof (inv_step fs s t0 a HI) as HS. destruct (pstep prt fs s a) as [s1 o]. destruct (prun prt s1 h) as [s2 t'] eqn:E. apply pair_equal_spec in H as [<- <-].
      change ((a, o) :: t') with ([(a, o)] ++ t'). rewrite app_assoc. apply (IH s1 (t0 ++ [(a, o)]) s2 t'); [|exact E|].
      + apply HS. rewrite <- (app_nil_r t0). apply (HO [] a o t'). reflexivity.
      + intros t1 b out t2 ->. rewrite <- app_assoc. apply (HO ((a, o) :: t1) b out t2). reflexivity.
  Qed.
  Lemma prun_app h h' : forall s, prun prt s (h ++ h') = let '(s1, t1) := prun prt s h in let '(s2, t2) := prun prt s1 h' in (s2, t1 ++ t2).
  Proof.
    induction h as [|[fs a] h IH]; intros s; cbn [app prun]; [now destruct (prun prt s h')|]. destruct (pstep prt fs s a) as [s1 o]. rewrite IH.
    destruct (prun prt s1 h) as [s2 t1]. destruct (prun prt s2 h') as [s3 t2]. reflexivity.
  Qed.
End Objs.
