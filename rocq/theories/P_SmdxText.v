(** * P_SmdxText: texts and symbols of loaded model definitions (C75, C76). *)
From Coq Require Import String Permutation.
From Verif Require Import Py P_List M_Util M_Float M_Suns M_Xml M_Mbmap M_Device M_Path M_Smdx S_Smdx P_Smdx.

(** ** Lists *)
Lemma nth_snoc_lt {A} (l : list A) x n : (n < length l)%nat -> nth_error (l ++ [x]) n = nth_error l n.
Proof. intros H. apply nth_error_app1, H. Qed.
Lemma nth_snoc_eq {A} (l : list A) x : nth_error (l ++ [x]) (length l) = Some x.
Proof. rewrite nth_error_app2, Nat.sub_diag by lia. reflexivity. Qed.
Lemma nth_snoc_inv {A} (l : list A) x n y : nth_error (l ++ [x]) n = Some y ->
  nth_error l n = Some y \/ (n = length l /\ y = x).
Proof.
  intros H. destruct (Nat.lt_ge_cases n (length l)) as [Hn|Hn].
  - rewrite nth_snoc_lt in H by exact Hn. auto.
  - assert (Hm : (n < length (l ++ [x]))%nat) by (apply nth_error_Some; congruence).
    rewrite app_length in Hm. cbn [length] in Hm. assert (n = length l) by lia. subst n. rewrite nth_snoc_eq in H.
    right. split; [reflexivity|congruence].
Qed.
Lemma opt_eqb_eq a b : opt_eqb a b = true <-> a = b.
Proof.
  destruct a, b; cbn [opt_eqb]; try (split; congruence). rewrite eqb_list_eq. split; congruence.
Qed.
Lemma key_eqb_eq a b : key_eqb a b = true <-> a = b.
Proof.
  unfold key_eqb. rewrite andb_true_iff, opt_eqb_eq, eqb_list_eq. destruct a, b; cbn [fst snd]. split; [intros [-> ->]; reflexivity|].
  intros H. apply pair_equal_spec in H. exact H.
Qed.

Lemma selected_filter (P : xml -> Prop) f l : (forall e, f e = true <-> P e) -> selected P l (filter f l).
Proof.
  intros HF. induction l as [|e l IH]; cbn [filter]; [constructor|]. destruct (f e) eqn:E.
  - constructor; [now apply HF|exact IH].
  - constructor; [|exact IH]. intros H. apply HF in H. congruence.
Qed.
Lemma selected_fun P l r1 r2 : selected P l r1 -> selected P l r2 -> r1 = r2.
Proof. intros H. revert r2. induction H; intros r2 H2; inversion H2; subst; try contradiction; f_equal; auto. Qed.

Lemma flat_map_ext_in {A B} (f g : A -> list B) l : (forall x, In x l -> f x = g x) -> flat_map f l = flat_map g l.
Proof.
  induction l as [|x l IH]; intros H; cbn [flat_map]; [reflexivity|]. rewrite (H x) by (left; reflexivity). f_equal. apply IH.
  intros y Hy. apply H. right. exact Hy.
Qed.

(** ** The last text *)
Lemma last_text_nil t : last_text t [] None.
Proof. left. split; [constructor|reflexivity]. Qed.
Lemma last_text_snoc t l r e : last_text t l r -> last_text t (l ++ [e]) (if eqb_list (x_tag e) (lit t) then x_text e else r).
Proof.
  intros H. destruct (eqb_list (x_tag e) (lit t)) eqn:E.
  - apply eqb_list_eq in E. right. exists l, e, []. auto.
  - apply eqb_list_neq in E. destruct H as [[H ->]|(a & x & b & -> & H1 & H2 & H3)].
    + left. split; [|reflexivity]. apply Forall_app. auto.
    + right. exists a, x, (b ++ [e]). rewrite <- app_assoc. split; [reflexivity|]. split; [exact H1|]. split; [exact H2|].
      apply Forall_app. auto.
Qed.
Definition tgiven (cs : list xml) (t : texts) : Prop := texts_given cs (tx_label t) (tx_description t) (tx_notes t).
Lemma text_child_given cs t e : tgiven cs t -> tgiven (cs ++ [e]) (text_child t e).
Proof.
  intros (H1 & H2 & H3). unfold tgiven, texts_given.
  pose proof (last_text_snoc _ _ _ e H1) as K1. pose proof (last_text_snoc _ _ _ e H2) as K2. pose proof (last_text_snoc _ _ _ e H3) as K3.
  unfold text_child, SMDX_LABEL, SMDX_DESCRIPTION, SMDX_NOTES.
  destruct (eqb_list (x_tag e) (lit "label")) eqn:E1; [|destruct (eqb_list (x_tag e) (lit "description")) eqn:E2;
    [|destruct (eqb_list (x_tag e) (lit "notes")) eqn:E3]]; cbn [tx_label tx_description tx_notes].
  - apply eqb_list_eq in E1. rewrite E1 in K2, K3. split; [exact K1|]. split; [exact K2|exact K3].
  - apply eqb_list_eq in E2. rewrite E2 in K3. split; [exact K1|]. split; [exact K2|exact K3].
  - split; [exact K1|]. split; [exact K2|exact K3].
  - split; [exact K1|]. split; [exact K2|exact K3].
Qed.
Lemma texts_given_app l cs t : tgiven cs t -> tgiven (cs ++ l) (fold_left text_child l t).
Proof.
  revert cs t. induction l as [|e l IH]; intros cs t H; cbn [fold_left]; [rewrite app_nil_r; exact H|].
  replace (cs ++ e :: l) with ((cs ++ [e]) ++ l) by (rewrite <- app_assoc; reflexivity). apply IH, text_child_given, H.
Qed.
Lemma text_child_symbol t e : eqb_list (x_tag e) SMDX_SYMBOL = true -> text_child t e = t.
Proof. intros H. apply eqb_list_eq in H. unfold text_child. rewrite H. reflexivity. Qed.

(** ** Texts of points *)
Definition TI (cs : list xml) (p : pointtype) : Prop := point_texts cs p.
Lemma TI_texts cs p : TI cs p <-> tgiven cs (pt_texts p).
Proof. reflexivity. Qed.
Lemma point_child_texts strings p log e p' log' : point_child strings (p, log) e = Ok (p', log') -> pt_texts p' = text_child (pt_texts p) e.
Proof.
  unfold point_child. destruct (eqb_list (x_tag e) SMDX_SYMBOL) eqn:E.
  - intros H. apply bind_ok in H as ([n log1] & _ & H). apply bind_ok in H as (s & _ & H). apply Ok_inj, pair_equal_spec in H as [<- _].
    rewrite text_child_symbol by exact E. destruct p. reflexivity.
  - intros H. apply Ok_inj, pair_equal_spec in H as [<- _]. destruct (text_child (pt_texts p) e). reflexivity.
Qed.
Lemma point_children_texts strings l : forall p log p' log' cs, foldM (point_child strings) l (p, log) = Ok (p', log') ->
  TI cs p -> TI (cs ++ l) p'.
Proof.
  induction l as [|e l IH]; intros p log p' log' cs H HT; cbn [foldM] in H.
  - apply Ok_inj, pair_equal_spec in H as [<- _]. rewrite app_nil_r. exact HT.
  - apply bind_ok in H as ([p1 log1] & H1 & H). replace (cs ++ e :: l) with ((cs ++ [e]) ++ l) by (rewrite <- app_assoc; reflexivity).
    apply (IH _ _ _ _ _ H). apply TI_texts. rewrite (point_child_texts _ _ _ _ _ _ H1). apply text_child_given. exact HT.
Qed.
Lemma point_from_texts log e p log' : point_from_smdx log e = Ok (p, log') -> TI (x_children e) p.
Proof.
  intros H. unfold point_from_smdx in H. apply bind_ok in H as (p0 & H0 & H). apply point_header_spec in H0 as [_ H0].
  apply (point_children_texts _ _ _ _ _ _ [] H). rewrite <- H0. split; [|split]; apply last_text_nil.
Qed.

(** ** The symbol log *)
Lemma last_index_spec k l : forall n0 found r, last_index_from n0 k l found = r ->
  (r = found /\ (forall n s, nth_error l n = Some (k, s) -> False)) \/
  (exists n s, r = Some (n0 + n)%nat /\ nth_error l n = Some (k, s)).
Proof.
  induction l as [|[k' s'] l IH]; intros n0 found r H; cbn [last_index_from] in H.
  - left. split; [auto|]. intros [|n] s E; discriminate.
  - destruct (IH _ _ _ H) as [[H1 H2]|(n & s & H1 & H2)].
    + destruct (key_eqb k k') eqn:E.
      * apply key_eqb_eq in E. subst k'. right. exists 0%nat, s'. rewrite Nat.add_0_r. auto.
      * left. split; [exact H1|]. intros [|n] s HN; cbn [nth_error] in HN.
        -- apply Some_inj, pair_equal_spec in HN as [HN _]. subst k'. rewrite (proj2 (key_eqb_eq k k) eq_refl) in E. discriminate.
        -- eapply H2, HN.
    + right. exists (S n), s. split; [rewrite H1; f_equal; lia|exact H2].
Qed.
Lemma symbol_get_some k l n : symbol_get k l = Some n -> exists s, nth_error l n = Some (k, s).
Proof.
  intros H. destruct (last_index_spec k l 0 None _ eq_refl) as [[H1 _]|(m & s & H1 & H2)]; unfold symbol_get in H; rewrite H in H1.
  - discriminate.
  - apply Some_inj in H1. cbn [Nat.add] in H1. subst. eauto.
Qed.
Lemma symbol_get_none k l n s : symbol_get k l = None -> nth_error l n = Some (k, s) -> False.
Proof.
  intros H. destruct (last_index_spec k l 0 None _ eq_refl) as [[_ H1]|(m & s' & H1 & _)]; [eauto|].
  unfold symbol_get in H. rewrite H in H1. discriminate.
Qed.
Lemma nth_set_symbol s l : forall n k s0 m, nth_error l n = Some (k, s0) ->
  nth_error (set_symbol n s l) m = if Nat.eqb m n then Some (k, s) else nth_error l m.
Proof.
  induction l as [|[k' s'] l IH]; intros [|n] k s0 m H; try discriminate; cbn [nth_error set_symbol] in *.
  - apply Some_inj, pair_equal_spec in H as [-> _]. destruct m; reflexivity.
  - destruct m as [|m]; [reflexivity|]. cbn [nth_error Nat.eqb]. eapply IH, H.
Qed.
Lemma get_symbol_nth n l k s : nth_error l n = Some (k, s) -> get_symbol n l = s.
Proof. intros H. unfold get_symbol. rewrite H. reflexivity. Qed.

(** a child element with the flag of the call that handled it *)
Definition is_sym (e : xml) : bool := eqb_list (x_tag e) SMDX_SYMBOL.
Definition defs (cs : list (bool * xml)) : list xml := map snd (filter (fun c => negb (fst c) && is_sym (snd c)) cs).
Definition id_is (i : str) (e : xml) : bool := opt_eqb (x_get A_ID e) (Some i).
Definition syms (i : str) (cs : list (bool * xml)) : list xml := filter (fun e => is_sym e && id_is i e) (map snd cs).
Definition ids_of (l : list xml) : list str := flat_map (fun d => match x_get A_ID d with Some i => [i] | None => [] end) l.
Definition named (log : symlog) (refs : list nat) : list str :=
  flat_map (fun n => match sy_id (get_symbol n log) with Some i => [i] | None => [] end) refs.

Record SI (cs : list (bool * xml)) (p : pointtype) (log : symlog) : Prop := {
  si_refs : forall n, In n (pt_symbols p) <-> exists k s, nth_error log n = Some (k, s) /\ snd k = pt_id p;
  si_key : forall n k s, nth_error log n = Some (k, s) -> snd k = pt_id p -> fst k = sy_id s;
  si_uniq : forall n m k s k' s' i, nth_error log n = Some (k, s) -> snd k = pt_id p -> sy_id s = Some i ->
            nth_error log m = Some (k', s') -> snd k' = pt_id p -> sy_id s' = Some i -> n = m;
  si_value : forall n k s i, nth_error log n = Some (k, s) -> snd k = pt_id p -> sy_id s = Some i ->
             exists a d b, defs cs = a ++ d :: b /\ id_is i d = true /\ sy_value s = x_text d /\ Forall (fun x => id_is i x = false) b;
  si_texts : forall n k s i, nth_error log n = Some (k, s) -> snd k = pt_id p -> sy_id s = Some i ->
             texts_given (flat_map x_children (syms i cs)) (sy_label s) (sy_description s) (sy_notes s);
  si_order : named log (pt_symbols p) = firsts (ids_of (defs cs));
  si_idless : forall n k s, nth_error log n = Some (k, s) -> snd k = pt_id p -> sy_id s = None ->
              exists a c b, cs = a ++ (true, c) :: b /\ is_sym c = true /\
                            forall d, In d (defs a) -> x_get A_ID d <> x_get A_ID c;
  si_defs : forall d, In d (defs cs) -> x_get A_ID d <> None }.

(** entries of a point id are the same *)
Definition same_at (pid : str) (l l' : symlog) : Prop :=
  forall n k s, snd k = pid -> (nth_error l n = Some (k, s) <-> nth_error l' n = Some (k, s)).
Lemma same_at_trans pid a b c : same_at pid a b -> same_at pid b c -> same_at pid a c.
Proof. intros H1 H2 n k s E. rewrite (H1 n k s E). apply H2, E. Qed.
Lemma SI_same cs p l l' : same_at (pt_id p) l l' -> SI cs p l -> SI cs p l'.
Proof.
  intros HS [A B C D E F G K]. split; [| | | | | | |exact K].
  - intros n. rewrite A. split; intros (k & s & H & HK); exists k, s; (split; [now apply (HS n k s HK)|exact HK]).
  - intros n k s H HK. apply (HS n k s HK) in H. eauto.
  - intros n m k s k' s' i H HK HI H' HK' HI'. apply (HS _ _ _ HK) in H. apply (HS _ _ _ HK') in H'. eauto.
  - intros n k s i H HK HI. apply (HS n k s HK) in H. eauto.
  - intros n k s i H HK HI. apply (HS n k s HK) in H. eauto.
  - rewrite <- F. unfold named. apply flat_map_ext_in. intros n Hn. apply A in Hn as (k & s & H & HK).
    rewrite (get_symbol_nth _ _ _ _ H). apply (HS n k s HK) in H. rewrite (get_symbol_nth _ _ _ _ H). reflexivity.
  - intros n k s H HK HI. apply (HS n k s HK) in H. eauto.
Qed.

(** ** Steps *)
Lemma defs_snoc cs st e : defs (cs ++ [(st, e)]) = defs cs ++ (if negb st && is_sym e then [e] else []).
Proof.
  unfold defs. rewrite filter_app, map_app. cbn [filter fst snd]. destruct (negb st && is_sym e); reflexivity.
Qed.
Lemma syms_snoc i cs st e : syms i (cs ++ [(st, e)]) = syms i cs ++ (if is_sym e && id_is i e then [e] else []).
Proof.
  unfold syms. rewrite map_app, filter_app. cbn [map filter snd]. destruct (is_sym e && id_is i e); reflexivity.
Qed.
Lemma id_is_spec i e : id_is i e = true <-> x_get A_ID e = Some i.
Proof. apply opt_eqb_eq. Qed.
Lemma id_is_false i e : id_is i e = false <-> x_get A_ID e <> Some i.
Proof. rewrite <- not_true_iff_false, id_is_spec. reflexivity. Qed.
Lemma in_firsts i l : In i (firsts l) <-> In i l.
Proof.
  induction l as [|j l IH]; cbn [firsts In]; [reflexivity|]. rewrite filter_In, IH, negb_true_iff, eqb_list_neq.
  split; [tauto|]. intros [->|H]; [auto|]. destruct (eqb_list i j) eqn:E; [apply eqb_list_eq in E; auto|]. apply eqb_list_neq in E. auto.
Qed.
Lemma firsts_snoc_in l i : In i l -> firsts (l ++ [i]) = firsts l.
Proof.
  induction l as [|j l IH]; intros H; [destruct H|]. cbn [app firsts]. f_equal.
  destruct (eqb_list i j) eqn:E.
  - apply eqb_list_eq in E. subst j. clear H. destruct (in_dec (list_eq_dec Z.eq_dec) i l) as [HI|HI]; [rewrite IH by exact HI; reflexivity|].
    clear IH. assert (H : forall l, filter (fun j => negb (eqb_list j i)) (firsts (l ++ [i])) = filter (fun j => negb (eqb_list j i)) (firsts l)).
    { clear. induction l as [|j l IH]; cbn [app firsts filter].
      - rewrite (proj2 (eqb_list_eq i i) eq_refl). reflexivity.
      - assert (HC : forall l, filter (fun j0 => negb (eqb_list j0 i)) (filter (fun j0 => negb (eqb_list j0 j)) l) = filter (fun j0 => negb (eqb_list j0 j)) (filter (fun j0 => negb (eqb_list j0 i)) l)).
        { clear. induction l as [|x l IH]; cbn [filter]; [reflexivity|].
          destruct (negb (eqb_list x j)) eqn:E1, (negb (eqb_list x i)) eqn:E2; cbn [filter]; rewrite ?E1, ?E2, IH; reflexivity. }
        rewrite !HC, IH. reflexivity. }
    apply H.
  - apply eqb_list_neq in E. destruct H as [H|H]; [congruence|]. rewrite IH by exact H. reflexivity.
Qed.
Lemma firsts_snoc_new l i : ~ In i l -> firsts (l ++ [i]) = firsts l ++ [i].
Proof.
  induction l as [|j l IH]; intros H; [reflexivity|]. cbn [app firsts]. rewrite IH by (intros HI; apply H; right; exact HI).
  rewrite filter_app. cbn [filter app]. replace (eqb_list i j) with false; [reflexivity|]. symmetry. apply eqb_list_neq. intros ->. apply H. left. reflexivity.
Qed.
Lemma in_ids_of i l : In i (ids_of l) <-> exists d, In d l /\ x_get A_ID d = Some i.
Proof.
  unfold ids_of. rewrite in_flat_map. split; intros (d & H1 & H2); exists d; (split; [exact H1|]).
  - destruct (x_get A_ID d); [|destruct H2]. destruct H2 as [->|[]]. reflexivity.
  - rewrite H2. left. reflexivity.
Qed.
Lemma in_named log refs i : In i (named log refs) <-> exists n, In n refs /\ sy_id (get_symbol n log) = Some i.
Proof.
  unfold named. rewrite in_flat_map. split; intros (d & H1 & H2); exists d; (split; [exact H1|]).
  - destruct (sy_id (get_symbol d log)); [|destruct H2]. destruct H2 as [->|[]]. reflexivity.
  - rewrite H2. left. reflexivity.
Qed.
(** an id defined so far has an entry *)
Lemma SI_entry cs p log d i : SI cs p log -> In d (defs cs) -> x_get A_ID d = Some i ->
  exists n s, nth_error log n = Some ((Some i, pt_id p), s) /\ sy_id s = Some i.
Proof.
  intros HS Hd Hi. assert (HI : In i (named log (pt_symbols p))).
  { rewrite (si_order _ _ _ HS). apply in_firsts, in_ids_of. eauto. }
  apply in_named in HI as (n & Hn & Hs). apply (si_refs _ _ _ HS) in Hn as (k & s & H & HK).
  rewrite (get_symbol_nth _ _ _ _ H) in Hs. pose proof (si_key _ _ _ HS _ _ _ H HK) as HE.
  exists n, s. split; [|exact Hs]. rewrite H. destruct k as [k1 k2]. cbn [fst snd] in *. congruence.
Qed.
Lemma symbol_from_id strings s e s' : symbol_from_smdx strings s e = Ok s' ->
  sy_id s' = (if strings then sy_id s else x_get A_ID e) /\
  sy_value s' = (if strings then sy_value s else x_text e) /\
  (strings = false -> x_get A_ID e <> None) /\
  mkTexts (sy_label s') (sy_description s') (sy_notes s') =
  fold_left text_child (x_children e) (mkTexts (sy_label s) (sy_description s) (sy_notes s)).
Proof.
  unfold symbol_from_smdx. destruct strings.
  - intros H. apply Ok_inj in H. subst s'. cbn [sy_id sy_value sy_label sy_description sy_notes].
    split; [reflexivity|]. split; [reflexivity|]. split; [discriminate|]. destruct (fold_left _ _ _); reflexivity.
  - destruct (x_get A_ID e) as [i|]; [|discriminate]. intros H. apply Ok_inj in H. subst s'. cbn [sy_id sy_value sy_label sy_description sy_notes].
    split; [reflexivity|]. split; [reflexivity|]. split; [discriminate|]. destruct (fold_left _ _ _); reflexivity.
Qed.
Lemma last_text_twice t l r : last_text t (l ++ l) r -> last_text t l r.
Proof.
  intros [[H ->]|(a & e & b & H1 & H2 & H3 & H4)].
  - left. apply Forall_app in H as [H _]. auto.
  - right. destruct (Nat.lt_ge_cases (length b) (length l)) as [Hb|Hb].
    + (* the element is in the second copy *)
      assert (HE : skipn (length l) (l ++ l) = skipn (length l) (a ++ e :: b)) by (f_equal; exact H1).
      rewrite skipn_app, skipn_all, Nat.sub_diag in HE. cbn [app skipn] in HE.
      assert (HL : (length l <= length a)%nat) by (apply (f_equal (@length xml)) in H1; rewrite !app_length in H1; cbn [length] in H1; lia).
      rewrite skipn_app in HE. replace (length l - length a)%nat with 0%nat in HE by lia. cbn [skipn] in HE.
      exists (skipn (length l) a), e, b. auto.
    + exfalso. assert (HL : (length a < length l)%nat) by (apply (f_equal (@length xml)) in H1; rewrite !app_length in H1; cbn [length] in H1; lia).
      assert (HI : In e b).
      { assert (HN : nth_error (l ++ l) (length a) = Some e) by (rewrite H1, nth_error_app2, Nat.sub_diag by lia; reflexivity).
        rewrite nth_error_app1 in HN by exact HL.
        assert (HN2 : nth_error (l ++ l) (length l + length a) = Some e) by (rewrite nth_error_app2 by lia; replace (length l + length a - length l)%nat with (length a) by lia; exact HN).
        rewrite H1, nth_error_app2 in HN2 by lia. replace (length l + length a - length a)%nat with (S (length l - 1))%nat in HN2 by lia.
        cbn [nth_error] in HN2. eapply nth_error_In, HN2. }
      rewrite Forall_forall in H4. exact (H4 e HI H2).
Qed.

Lemma point_child_SI strings p log e p' log' cs :
  point_child strings (p, log) e = Ok (p', log') -> SI cs p log -> (strings = false -> Forall (fun c => fst c = false) cs) ->
  SI (cs ++ [(strings, e)]) p' log' /\ (forall pid, pid <> pt_id p -> same_at pid log log').
Proof.
  intros H HS HF. pose proof (point_child_header _ _ _ _ H) as HH. cbn [fst] in HH.
  assert (HPID : pt_id p' = pt_id p) by (change (pt_id p') with (pt_id (header p')); rewrite HH; reflexivity).
  unfold point_child in H. destruct (eqb_list (x_tag e) SMDX_SYMBOL) eqn:ET; fold (is_sym e) in ET.
  2:{ apply Ok_inj, pair_equal_spec in H as [<- <-]. split; [|intros pid _ n k s _; reflexivity].
      destruct HS as [A B C D E F G K]. split; rewrite ?defs_snoc, ?ET, ?andb_false_r, ?app_nil_r; auto.
      - intros n k s i H1 H2 H3. rewrite syms_snoc, ET. cbn [andb]. rewrite app_nil_r. eauto.
      - intros n k s H1 H2 H3. destruct (G n k s H1 H2 H3) as (a & c & b & -> & HG). exists a, c, (b ++ [(strings, e)]).
        rewrite <- app_assoc. auto. }
  remember (x_get A_ID e) as sid eqn:Esid. cbv zeta in H.
  destruct (symbol_get (sid, pt_id p) log) as [n|] eqn:EG.
  - (* found *)
    cbn [bind] in H. apply symbol_get_some in EG as (s0 & EN). apply bind_ok in H as (s & Hs & H).
    rewrite (get_symbol_nth _ _ _ _ EN) in Hs. apply symbol_from_id in Hs as (Hid & Hval & Hnm & Htx).
    pose proof (si_key _ _ _ HS _ _ _ EN eq_refl) as HK. cbn [fst] in HK.
    assert (Hid' : sy_id s = sid) by (rewrite Hid, <- Esid; destruct strings; congruence).
    assert (HIN : In n (pt_symbols p)) by (apply (si_refs _ _ _ HS); exists (sid, pt_id p), s0; auto).
    assert (HB : has_symbol sid log (pt_symbols p) = true).
    { unfold has_symbol. apply existsb_exists. exists n. split; [exact HIN|]. rewrite (get_symbol_nth _ _ _ _ EN). apply opt_eqb_eq. congruence. }
    rewrite HB in H. apply Ok_inj, pair_equal_spec in H as [<- <-]. clear HH HPID.
    assert (HN : forall m, nth_error (set_symbol n s log) m = if Nat.eqb m n then Some ((sid, pt_id p), s) else nth_error log m)
      by (intros m; eapply nth_set_symbol, EN).
    assert (HINV : forall m k s', nth_error (set_symbol n s log) m = Some (k, s') ->
      exists s'', nth_error log m = Some (k, s'') /\ sy_id s'' = sy_id s' /\ ((m = n /\ k = (sid, pt_id p) /\ s' = s) \/ (m <> n /\ s'' = s'))).
    { intros m k s' E. rewrite HN in E. destruct (Nat.eqb m n) eqn:EM.
      - apply Nat.eqb_eq in EM. subst m. apply Some_inj, pair_equal_spec in E as [<- <-]. exists s0. split; [exact EN|]. split; [congruence|]. left; auto.
      - apply Nat.eqb_neq in EM. exists s'. split; [exact E|]. split; [reflexivity|]. right; auto. }
    split.
    2:{ intros pid HP m k s' HKp. rewrite HN. destruct (Nat.eqb m n) eqn:EM; [|reflexivity].
        apply Nat.eqb_eq in EM. subst m. rewrite EN. split; intros E; exfalso; apply Some_inj, pair_equal_spec in E as [<- _]; cbn [snd] in HKp; congruence. }
    assert (HOTHER : forall m k s' i, nth_error log m = Some (k, s') -> snd k = pt_id p -> sy_id s' = Some i -> m <> n -> sid <> Some i).
    { intros m k s' i E1 E2 E3 HM E4. apply HM. apply (si_uniq _ _ _ HS m n k s' _ s0 i E1 E2 E3 EN eq_refl). congruence. }
    split; cbn [pt_with pt_id pt_symbols].
    + intros m. rewrite (si_refs _ _ _ HS m). split; intros (k & s' & E & HKp).
      * destruct (Nat.eqb m n) eqn:EM.
        -- exists (sid, pt_id p), s. rewrite HN, EM. auto.
        -- exists k, s'. rewrite HN, EM. auto.
      * apply HINV in E as (s'' & E & _). eauto.
    + intros m k s' E HKp. apply HINV in E as (s'' & E & EI & _). rewrite <- EI. eapply si_key; eauto.
    + intros m m' k s1 k' s2 i E1 K1 I1 E2 K2 I2. apply HINV in E1 as (t1 & E1 & J1 & _). apply HINV in E2 as (t2 & E2 & J2 & _).
      apply (si_uniq _ _ _ HS m m' k t1 k' t2 i E1 K1 ltac:(congruence) E2 K2 ltac:(congruence)).
    + intros m k s' i E HKp HI. apply HINV in E as (s'' & E & EI & [(-> & _ & ->)|(HM & ->)]).
      * destruct (si_value _ _ _ HS n k s'' i E HKp ltac:(congruence)) as (a & d & b & H1 & H2 & H3 & H4).
        assert (s'' = s0) by congruence. subst s''. rewrite defs_snoc, ET, andb_true_r. destruct strings; cbn [negb].
        -- rewrite app_nil_r. exists a, d, b. rewrite Hval. auto.
        -- exists (defs cs), e, []. split; [reflexivity|]. split; [apply id_is_spec; congruence|]. split; [exact Hval|constructor].
      * destruct (si_value _ _ _ HS m k s' i E HKp HI) as (a & d & b & H1 & H2 & H3 & H4).
        exists a, d, (b ++ (if negb strings && is_sym e then [e] else [])). rewrite defs_snoc, H1, <- app_assoc. split; [reflexivity|]. split; [exact H2|].
        split; [exact H3|]. apply Forall_app. split; [exact H4|]. destruct (negb strings && is_sym e); constructor; [|constructor].
        apply id_is_false. rewrite <- Esid. eapply HOTHER; eauto.
    + intros m k s' i E HKp HI. apply HINV in E as (s'' & E & EI & [(-> & _ & ->)|(HM & ->)]).
      * assert (s'' = s0) by congruence. subst s''. pose proof (si_texts _ _ _ HS n k s0 i E HKp ltac:(congruence)) as HT.
        rewrite syms_snoc, ET. cbn [andb]. replace (id_is i e) with true by (symmetry; apply id_is_spec; congruence).
        rewrite flat_map_app. cbn [flat_map]. rewrite app_nil_r.
        pose proof (texts_given_app (x_children e) _ (mkTexts (sy_label s0) (sy_description s0) (sy_notes s0)) HT) as HT'. rewrite <- Htx in HT'. exact HT'.
      * rewrite syms_snoc, ET. cbn [andb]. replace (id_is i e) with false by (symmetry; apply id_is_false; rewrite <- Esid; eapply HOTHER; eauto).
        rewrite app_nil_r. eapply (si_texts _ _ _ HS); eauto.
    + transitivity (named log (pt_symbols p)).
      { unfold named. apply flat_map_ext_in. intros m Hm. apply (si_refs _ _ _ HS) in Hm as (k & s' & E & HKp).
        unfold get_symbol. rewrite HN, E. destruct (Nat.eqb m n) eqn:EM; [|reflexivity]. apply Nat.eqb_eq in EM. subst m.
        assert (s' = s0) by congruence. subst s'. replace (sy_id s) with (sy_id s0) by congruence. reflexivity. }
      rewrite (si_order _ _ _ HS), defs_snoc, ET, andb_true_r. destruct strings; cbn [negb]; [rewrite app_nil_r; reflexivity|].
      unfold ids_of. rewrite flat_map_app. fold (ids_of (defs cs)). cbn [flat_map]. rewrite app_nil_r, <- Esid.
      destruct sid as [i|]; [|exfalso; apply (Hnm eq_refl); congruence]. symmetry. apply firsts_snoc_in. apply in_ids_of.
      destruct (si_value _ _ _ HS n _ s0 i EN eq_refl ltac:(congruence)) as (a & d & b & H1 & H2 & _).
      exists d. split; [rewrite H1; apply in_elt|now apply id_is_spec].
    + intros m k s' E HKp HI. apply HINV in E as (s'' & E & EI & _).
      destruct (si_idless _ _ _ HS m k s'' E HKp ltac:(congruence)) as (a & c & b & -> & HG). exists a, c, (b ++ [(strings, e)]).
      rewrite <- app_assoc. auto.
    + intros d Hd. rewrite defs_snoc, ET, andb_true_r in Hd. apply in_app_iff in Hd as [Hd|Hd]; [eapply si_defs; eauto|].
      destruct strings; cbn [negb] in Hd; [destruct Hd|]. destruct Hd as [<-|[]]. apply Hnm. reflexivity.
  - (* not found *)
    assert (HNONE : forall m s', nth_error log m = Some ((sid, pt_id p), s') -> False) by (intros m s' E; exact (symbol_get_none _ _ m s' EG E)).
    apply bind_ok in H as ([n log1] & H1 & H). apply bind_ok in H1 as (s1 & Hs1 & H1).
    apply Ok_inj, pair_equal_spec in H1 as [<- <-]. apply bind_ok in H as (s & Hs & H).
    set (log1 := log ++ [((sy_id s1, pt_id p), s1)]) in *.
    assert (EN1 : nth_error log1 (length log) = Some ((sy_id s1, pt_id p), s1)) by apply nth_snoc_eq.
    rewrite (get_symbol_nth _ _ _ _ EN1) in Hs. apply symbol_from_id in Hs1 as (Hid1 & Hval1 & Hnm & Htx1). apply symbol_from_id in Hs as (Hid & Hval & _ & Htx).
    rewrite <- Esid in Hid1, Hid, Hnm.
    assert (HIDS : sy_id s = if strings then None else sid) by (destruct strings; [rewrite Hid, Hid1; reflexivity|exact Hid]).
    assert (HIDS1 : sy_id s1 = if strings then None else sid) by (destruct strings; [rewrite Hid1; reflexivity|exact Hid1]).
    assert (HLT : forall m k s', nth_error log m = Some (k, s') -> (m < length log)%nat) by (intros m k s' E; apply nth_error_Some; congruence).
    assert (HB : has_symbol sid log1 (pt_symbols p) = false).
    { apply not_true_iff_false. intros HB. unfold has_symbol in HB. apply existsb_exists in HB as (m & Hm & HB). apply opt_eqb_eq in HB.
      apply (si_refs _ _ _ HS) in Hm as (k & s' & E & HKp). pose proof (si_key _ _ _ HS _ _ _ E HKp) as HE.
      assert (E1 : nth_error log1 m = Some (k, s')) by (unfold log1; rewrite nth_snoc_lt by eauto; exact E).
      rewrite (get_symbol_nth _ _ _ _ E1) in HB. apply (HNONE m s'). rewrite E. destruct k as [k1 k2]. cbn [fst snd] in *. congruence. }
    rewrite HB in H. apply Ok_inj, pair_equal_spec in H as [<- <-]. clear HH HPID.
    assert (HN : forall m, nth_error (set_symbol (length log) s log1) m = if Nat.eqb m (length log) then Some ((sy_id s1, pt_id p), s) else nth_error log m).
    { intros m. rewrite (nth_set_symbol s log1 _ _ _ m EN1). destruct (Nat.eqb m (length log)) eqn:EM; [reflexivity|]. apply Nat.eqb_neq in EM.
      unfold log1. destruct (Nat.lt_ge_cases m (length log)) as [HL|HL]; [apply nth_snoc_lt, HL|].
      rewrite (proj2 (nth_error_None log m) HL). apply nth_error_None. rewrite app_length. cbn [length]. lia. }
    assert (HINV : forall m k s', nth_error (set_symbol (length log) s log1) m = Some (k, s') ->
      (m = length log /\ k = (sy_id s1, pt_id p) /\ s' = s) \/ (nth_error log m = Some (k, s') /\ m <> length log)).
    { intros m k s' E. rewrite HN in E. destruct (Nat.eqb m (length log)) eqn:EM.
      - apply Nat.eqb_eq in EM. subst m. apply Some_inj, pair_equal_spec in E as [<- <-]. auto.
      - apply Nat.eqb_neq in EM. auto. }
    assert (HIN : forall m k s', nth_error log m = Some (k, s') -> nth_error (set_symbol (length log) s log1) m = Some (k, s')).
    { intros m k s' E. rewrite HN. pose proof (HLT _ _ _ E). destruct (Nat.eqb m (length log)) eqn:EM; [apply Nat.eqb_eq in EM; lia|exact E]. }
    split.
    2:{ intros pid HP m k s' HKp. split; [apply HIN|]. intros E. apply HINV in E as [(_ & -> & _)|[E _]]; [cbn [snd] in HKp; congruence|exact E]. }
    (* an entry of the point with an id is for another id *)
    assert (HOTHER : forall m k s' i, nth_error log m = Some (k, s') -> snd k = pt_id p -> sy_id s' = Some i -> sid <> Some i).
    { intros m k s' i E1 E2 E3 E4. apply (HNONE m s'). pose proof (si_key _ _ _ HS _ _ _ E1 E2). rewrite E1. destruct k. cbn [fst snd] in *. congruence. }
    assert (HNEW : forall d, In d (defs cs) -> x_get A_ID d <> sid).
    { intros d Hd E. destruct sid as [i|]; [|exact (si_defs _ _ _ HS d Hd E)].
      destruct (SI_entry _ _ _ _ _ HS Hd E) as (m & s' & E1 & _). exact (HNONE _ _ E1). }
    split; cbn [pt_with pt_id pt_symbols].
    + intros m. rewrite in_app_iff. cbn [In]. rewrite (si_refs _ _ _ HS m). split.
      * intros [(k & s' & E & HKp)|[<-|[]]]; [exists k, s'; split; [apply HIN, E|exact HKp]|].
        exists (sy_id s1, pt_id p), s. rewrite HN, Nat.eqb_refl. auto.
      * intros (k & s' & E & HKp). apply HINV in E as [(-> & _)|[E _]]; [auto|left; eauto].
    + intros m k s' E HKp. apply HINV in E as [(-> & -> & ->)|[E _]]; [cbn [fst]; congruence|eapply si_key; eauto].
    + intros m m' k sa k' sb i E1 K1 I1 E2 K2 I2. apply HINV in E1 as [(-> & -> & ->)|[E1 _]], E2 as [(-> & -> & ->)|[E2 _]].
      * reflexivity.
      * exfalso. destruct strings; [congruence|]. apply (HOTHER _ _ _ _ E2 K2 I2). congruence.
      * exfalso. destruct strings; [congruence|]. apply (HOTHER _ _ _ _ E1 K1 I1). congruence.
      * exact (si_uniq _ _ _ HS m m' k sa k' sb i E1 K1 I1 E2 K2 I2).
    + intros m k s' i E HKp HI. rewrite defs_snoc, ET, andb_true_r. apply HINV in E as [(-> & -> & ->)|[E _]].
      * destruct strings; [congruence|]. cbn [negb]. exists (defs cs), e, []. split; [reflexivity|]. split; [apply id_is_spec; congruence|].
        split; [exact Hval|constructor].
      * destruct (si_value _ _ _ HS m k s' i E HKp HI) as (a & d & b & H1 & H2 & H3 & H4).
        exists a, d, (b ++ (if negb strings then [e] else [])). rewrite H1, <- app_assoc. split; [reflexivity|]. split; [exact H2|].
        split; [exact H3|]. apply Forall_app. split; [exact H4|]. destruct (negb strings); constructor; [|constructor].
        apply id_is_false. rewrite <- Esid. eapply HOTHER; eauto.
    + intros m k s' i E HKp HI. rewrite syms_snoc, ET. cbn [andb]. apply HINV in E as [(-> & -> & ->)|[E _]].
      * destruct strings; [congruence|]. assert (HE : x_get A_ID e = Some i) by congruence.
        replace (id_is i e) with true by (symmetry; apply id_is_spec; exact HE).
        assert (HSY : syms i cs = []).
        { unfold syms. assert (HA : forall c, In c cs -> is_sym (snd c) && id_is i (snd c) = false).
          { intros c Hc. apply not_true_iff_false. intros HA. apply andb_true_iff in HA as [HA1 HA2]. apply id_is_spec in HA2.
            apply (HNEW (snd c)); [|congruence]. unfold defs. apply in_map, filter_In. split; [exact Hc|].
            specialize (HF eq_refl). rewrite Forall_forall in HF. rewrite (HF c Hc), HA1. reflexivity. }
          clear -HA. induction cs as [|c cs IH]; cbn [map filter]; [reflexivity|]. rewrite (HA c) by (left; reflexivity). apply IH. intros x Hx. apply HA. right. exact Hx. }
        rewrite HSY. cbn [app flat_map]. rewrite app_nil_r.
        assert (HT : tgiven (x_children e ++ x_children e) (mkTexts (sy_label s) (sy_description s) (sy_notes s))).
        { rewrite Htx, Htx1. apply texts_given_app. apply (texts_given_app (x_children e) []). split; [|split]; apply last_text_nil. }
        destruct HT as (T1 & T2 & T3). cbn [tx_label tx_description tx_notes] in *. split; [|split]; apply last_text_twice; assumption.
      * replace (id_is i e) with false by (symmetry; apply id_is_false; rewrite <- Esid; eapply HOTHER; eauto).
        rewrite app_nil_r. eapply (si_texts _ _ _ HS); eauto.
    + unfold named. rewrite flat_map_app. cbn [flat_map]. rewrite app_nil_r.
      assert (HNM : flat_map (fun m => match sy_id (get_symbol m (set_symbol (length log) s log1)) with Some i => [i] | None => [] end) (pt_symbols p) = named log (pt_symbols p)).
      { unfold named. apply flat_map_ext_in. intros m Hm. apply (si_refs _ _ _ HS) in Hm as (k & s' & E & HKp).
        rewrite (get_symbol_nth _ _ _ _ E), (get_symbol_nth _ _ _ _ (HIN _ _ _ E)). reflexivity. }
      rewrite HNM, (si_order _ _ _ HS), defs_snoc, ET, andb_true_r.
      assert (HG : get_symbol (length log) (set_symbol (length log) s log1) = s) by (apply (get_symbol_nth _ _ (sy_id s1, pt_id p)); rewrite HN, Nat.eqb_refl; reflexivity).
      rewrite HG, HIDS. destruct strings; cbn [negb]; [rewrite !app_nil_r; reflexivity|].
      unfold ids_of. rewrite flat_map_app. fold (ids_of (defs cs)). cbn [flat_map]. rewrite app_nil_r, <- Esid.
      destruct sid as [i|]; [|exfalso; apply (Hnm eq_refl); reflexivity]. symmetry. apply firsts_snoc_new.
      intros HI. apply in_ids_of in HI as (d & Hd & E). exact (HNEW d Hd E).
    + intros m k s' E HKp HI. apply HINV in E as [(-> & -> & ->)|[E _]].
      * destruct strings; [|exfalso; apply (Hnm eq_refl); congruence]. exists cs, e, []. split; [reflexivity|]. split; [exact ET|].
        intros d Hd. rewrite <- Esid. apply HNEW, Hd.
      * destruct (si_idless _ _ _ HS m k s' E HKp HI) as (a & c & b & -> & HG). exists a, c, (b ++ [(strings, e)]).
        rewrite <- app_assoc. auto.
    + intros d Hd. rewrite defs_snoc, ET, andb_true_r in Hd. apply in_app_iff in Hd as [Hd|Hd]; [eapply si_defs; eauto|].
      destruct strings; cbn [negb] in Hd; [destruct Hd|]. destruct Hd as [<-|[]]. rewrite <- Esid. apply Hnm. reflexivity.
Qed.

(** ** Points *)
Lemma point_children_SI strings l : forall p log p' log' cs,
  foldM (point_child strings) l (p, log) = Ok (p', log') -> SI cs p log -> (strings = false -> Forall (fun c => fst c = false) cs) ->
  SI (cs ++ map (pair strings) l) p' log' /\ pt_id p' = pt_id p /\ (forall pid, pid <> pt_id p -> same_at pid log log').
Proof.
  induction l as [|e l IH]; intros p log p' log' cs H HS HF; cbn [foldM] in H.
  - apply Ok_inj, pair_equal_spec in H as [<- <-]. cbn [map]. rewrite app_nil_r. split; [exact HS|]. split; [reflexivity|].
    intros pid _ n k s _. reflexivity.
  - apply bind_ok in H as ([p1 log1] & H1 & H). destruct (point_child_SI _ _ _ _ _ _ _ H1 HS HF) as [HS1 HO1].
    pose proof (point_child_header _ _ _ _ H1) as HH. cbn [fst] in HH.
    assert (HPID : pt_id p1 = pt_id p) by (change (pt_id p1) with (pt_id (header p1)); rewrite HH; reflexivity).
    destruct (IH _ _ _ _ _ H HS1) as (A & B & C).
    + intros E. apply Forall_app. split; [apply HF, E|]. constructor; [exact E|constructor].
    + cbn [map]. replace (cs ++ (strings, e) :: map (pair strings) l) with ((cs ++ [(strings, e)]) ++ map (pair strings) l) by (rewrite <- app_assoc; reflexivity).
      split; [exact A|]. split; [congruence|]. intros pid Hp. eapply same_at_trans; [apply HO1, Hp|apply C; congruence].
Qed.
Definition own (e : xml) : list (bool * xml) := map (pair false) (x_children e).
Definition logpids (log : symlog) (ids : list str) : Prop := forall n k s, nth_error log n = Some (k, s) -> In (snd k) ids.
Lemma point_from_SI log e p log' : point_from_smdx log e = Ok (p, log') ->
  (forall n k s, nth_error log n = Some (k, s) -> snd k <> pt_id p) ->
  SI (own e) p log' /\ (forall pid, pid <> pt_id p -> same_at pid log log').
Proof.
  intros H HL. unfold point_from_smdx in H. apply bind_ok in H as (p0 & H0 & H). apply point_header_spec in H0 as [_ H0].
  pose proof (point_children_header _ _ _ _ H) as HH. cbn [fst] in HH.
  assert (HPID : pt_id p = pt_id p0) by (change (pt_id p) with (pt_id (header p)); rewrite HH; reflexivity).
  destruct (point_children_SI _ _ _ _ _ _ [] H) as (A & B & C).
  - assert (HR : pt_symbols p0 = []) by (rewrite <- H0; reflexivity).
    split; try (intros; exfalso; eapply HL; [eassumption|congruence]).
    + intros n. rewrite HR. split; [intros []|]. intros (k & s & E & HK). exfalso. eapply HL; [exact E|congruence].
    + rewrite HR. reflexivity.
    + intros d [].
  - intros _. constructor.
  - split; [exact A|]. intros pid Hp. apply C. congruence.
Qed.
Lemma logpids_step pid log log' ids : (forall q, q <> pid -> same_at q log log') -> logpids log ids -> logpids log' (ids ++ [pid]).
Proof.
  intros HO HL n k s E. apply in_app_iff. destruct (eqb_list (snd k) pid) eqn:EK.
  - apply eqb_list_eq in EK. right. left. auto.
  - apply eqb_list_neq in EK. left. apply (HO (snd k) EK n k s eq_refl) in E. eauto.
Qed.

Lemma Forall2_snoc {A B} (R : A -> B -> Prop) l l' x y : Forall2 R l l' -> R x y -> Forall2 R (l ++ [x]) (l' ++ [y]).
Proof. intros H HR. apply Forall2_app; [exact H|]. constructor; [exact HR|constructor]. Qed.
Lemma Forall2_impl_in {A B} (R S : A -> B -> Prop) l l' : (forall x y, In x l -> In y l' -> R x y -> S x y) -> Forall2 R l l' -> Forall2 S l l'.
Proof.
  intros HI H. induction H as [|x y l l' HR _ IH]; constructor.
  - apply HI; [left; reflexivity|left; reflexivity|exact HR].
  - apply IH. intros a b Ha Hb. apply HI; right; assumption.
Qed.

Lemma block_points_texts es : forall pts log pts' log' done,
  foldM block_point es (pts, log) = Ok (pts', log') ->
  Forall2 (fun e p => TI (x_children e) p) done pts -> Forall2 (fun e p => TI (x_children e) p) (done ++ es) pts'.
Proof.
  induction es as [|e es IH]; intros pts log pts' log' done H HF; cbn [foldM] in H.
  - apply Ok_inj, pair_equal_spec in H as [<- <-]. rewrite app_nil_r. auto.
  - apply bind_ok in H as ([pts1 log1] & H1 & H). unfold block_point in H1. apply bind_ok in H1 as ([p log2] & Hp & H1).
    destruct (find_pt (pt_id p) pts) eqn:EF; [discriminate|]. apply Ok_inj, pair_equal_spec in H1 as [<- <-].
    replace (done ++ e :: es) with ((done ++ [e]) ++ es) by (rewrite <- app_assoc; reflexivity).
    apply (IH _ _ _ _ _ H). apply Forall2_snoc; [exact HF|]. eapply point_from_texts, Hp.
Qed.
Lemma block_points_ids es : forall pts log pts' log', foldM block_point es (pts, log) = Ok (pts', log') ->
  exists r, map pt_id pts' = map pt_id pts ++ r.
Proof.
  induction es as [|e es IH]; intros pts log pts' log' H; cbn [foldM] in H.
  - apply Ok_inj, pair_equal_spec in H as [<- <-]. exists []. rewrite app_nil_r. reflexivity.
  - apply bind_ok in H as ([pts1 log1] & H1 & H). unfold block_point in H1. apply bind_ok in H1 as ([p log2] & Hp & H1).
    destruct (find_pt (pt_id p) pts) eqn:EF; [discriminate|]. apply Ok_inj, pair_equal_spec in H1 as [<- <-].
    apply IH in H as (r & ->). rewrite map_app, <- app_assoc. eauto.
Qed.
Lemma block_points_logpids es O : forall pts log pts' log',
  foldM block_point es (pts, log) = Ok (pts', log') -> logpids log (O ++ map pt_id pts) -> NoDup (O ++ map pt_id pts') ->
  logpids log' (O ++ map pt_id pts').
Proof.
  induction es as [|e es IH]; intros pts log pts' log' H HL HN; cbn [foldM] in H.
  - apply Ok_inj, pair_equal_spec in H as [<- <-]. exact HL.
  - apply bind_ok in H as ([pts1 log1] & H1 & H). unfold block_point in H1. apply bind_ok in H1 as ([p log2] & Hp & H1).
    destruct (find_pt (pt_id p) pts) eqn:EF; [discriminate|]. apply Ok_inj, pair_equal_spec in H1 as [<- <-].
    apply (IH _ _ _ _ H); [|exact HN]. rewrite map_app, app_assoc. cbn [map]. eapply logpids_step; [|exact HL].
    eapply point_from_SI; [exact Hp|]. intros n k s E HK. apply HL in E.
    destruct (block_points_ids _ _ _ _ _ H) as (r & HR). rewrite HR, map_app in HN. cbn [map] in HN. rewrite <- app_assoc in HN. cbn [app] in HN.
    rewrite app_assoc in HN. apply NoDup_remove_2 in HN. apply HN. apply in_app_iff. left. rewrite <- HK. exact E.
Qed.
Lemma block_points_SI es O : forall pts log pts' log' done,
  foldM block_point es (pts, log) = Ok (pts', log') ->
  logpids log (O ++ map pt_id pts) -> NoDup (O ++ map pt_id pts') ->
  Forall2 (fun e p => SI (own e) p log) done pts ->
  Forall2 (fun e p => SI (own e) p log') (done ++ es) pts' /\ (forall pid, In pid O -> same_at pid log log').
Proof.
  induction es as [|e es IH]; intros pts log pts' log' done H HL HN HF; cbn [foldM] in H.
  - apply Ok_inj, pair_equal_spec in H as [<- <-]. rewrite app_nil_r. split; [exact HF|]. intros pid _ n k s _. reflexivity.
  - apply bind_ok in H as ([pts1 log1] & H1 & H). unfold block_point in H1. apply bind_ok in H1 as ([p log2] & Hp & H1).
    destruct (find_pt (pt_id p) pts) eqn:EF; [discriminate|]. apply Ok_inj, pair_equal_spec in H1 as [<- <-].
    destruct (block_points_ids _ _ _ _ _ H) as (r & HR). pose proof HN as HN'. rewrite HR, map_app in HN'. cbn [map] in HN'.
    rewrite <- app_assoc in HN'. cbn [app] in HN'. rewrite app_assoc in HN'. apply NoDup_remove_2 in HN'.
    assert (HNI : ~ In (pt_id p) (O ++ map pt_id pts)) by (intros HI; apply HN'; apply in_app_iff; left; exact HI).
    destruct (point_from_SI _ _ _ _ Hp) as [HS1 HO1].
    { intros n k s E HK. apply HL in E. apply HNI. rewrite <- HK. exact E. }
    replace (done ++ e :: es) with ((done ++ [e]) ++ es) by (rewrite <- app_assoc; reflexivity).
    destruct (IH _ _ _ _ (done ++ [e]) H) as [A B].
    + rewrite map_app, app_assoc. cbn [map]. eapply logpids_step; [exact HO1|exact HL].
    + exact HN.
    + apply Forall2_snoc; [|exact HS1]. eapply Forall2_impl_in; [|exact HF]. intros x q _ Hq HSq. cbv beta in HSq.
      eapply SI_same; [|exact HSq]. apply HO1. intros E. apply HNI. rewrite <- E. apply in_app_iff. right. apply in_map, Hq.
    + split; [exact A|]. intros pid Hp1. eapply same_at_trans; [|apply B, Hp1]. apply HO1. intros ->. apply HNI. apply in_app_iff. left. exact Hp1.
Qed.

(** ** Blocks *)
Definition pts (r : option blocktype) : list pointtype := match r with Some b => bt_points b | None => [] end.
Definition pids (r : option blocktype) : list str := map pt_id (pts r).
(** the point elements of the block of a kind *)
Definition elements (k : btype) (bs : list xml) : list xml := flat_map (findall SMDX_POINT) (filter (has_kind k) bs).

Definition phase1 (bs : list xml) (st : mstate) : Prop :=
  let '(f, r, log) := st in
  slot Fixed bs f /\ slot Repeating bs r /\
  Forall2 (fun e p => TI (x_children e) p) (elements Fixed bs) (pts f) /\
  Forall2 (fun e p => TI (x_children e) p) (elements Repeating bs) (pts r) /\
  (NoDup (pids f ++ pids r) ->
   Forall2 (fun e p => SI (own e) p log) (elements Fixed bs) (pts f) /\
   Forall2 (fun e p => SI (own e) p log) (elements Repeating bs) (pts r) /\ logpids log (pids f ++ pids r)).
Lemma elements_other k bs e : has_kind k e = false -> elements k (bs ++ [e]) = elements k bs.
Proof. intros H. unfold elements. rewrite filter_app. cbn [filter]. rewrite H, app_nil_r. reflexivity. Qed.
Lemma elements_new k bs e : has_kind k e = true -> slot k bs None -> elements k (bs ++ [e]) = findall SMDX_POINT e.
Proof.
  intros H HS. unfold elements. rewrite filter_app. cbn [filter]. rewrite H.
  destruct HS as [[-> _]|(x & b & _ & E & _)]; [|discriminate]. cbn [app flat_map]. apply app_nil_r.
Qed.
Lemma NoDup_app_l {A} (a b : list A) : NoDup (a ++ b) -> NoDup a.
Proof. induction a as [|x a IH]; intros H; constructor; cbn [app] in H; inversion H; subst; [|auto]. intros HI. apply H2, in_app_iff. auto. Qed.
Lemma NoDup_app_comm {A} (a b : list A) : NoDup (a ++ b) -> NoDup (b ++ a).
Proof. intros H. eapply Permutation_NoDup; [apply Permutation_app_comm|exact H]. Qed.
Lemma logpids_incl log a b : (forall x, In x a -> In x b) -> logpids log a -> logpids log b.
Proof. intros H HL n k s E. apply H. eapply HL, E. Qed.
Lemma block_phase1 bs st e st' : phase1 bs st -> model_block st e = Ok st' -> phase1 (bs ++ [e]) st'.
Proof.
  destruct st as [[f r] log]. intros (SF & SR & TF & TR & HSI) H. unfold model_block in H.
  apply bind_ok in H as ([b log1] & Hb & H). destruct (block_from_smdx_sound _ _ _ _ Hb) as [HD HV].
  destruct (kind_other _ _ HD) as [HK1 HK2]. unfold block_from_smdx in Hb.
  destruct (btype_of_name _) as [bt|]; [|discriminate]. destruct (x_get A_LEN e) as [len|]; [|discriminate].
  apply bind_ok in Hb as ([ps log2] & Hps & Hb). apply Ok_inj, pair_equal_spec in Hb as [<- <-]. cbn [bt_type] in *.
  pose proof (block_points_texts _ _ _ _ _ [] Hps ltac:(constructor)) as HT. cbn [app] in HT.
  destruct bt.
  - destruct f; [discriminate|]. apply Ok_inj in H. subst st'. unfold phase1.
    rewrite (elements_new Fixed) by (exact HK1 || exact SF). rewrite (elements_other Repeating) by (apply HK2; discriminate).
    split; [apply slot_new; auto|]. split; [apply slot_snoc; [apply HK2; discriminate|exact SR]|]. split; [exact HT|]. split; [exact TR|].
    unfold pids at 1 3. cbn [pts bt_points]. intros HN. apply NoDup_app_comm in HN.
    destruct (HSI) as (A & B & C); [cbn [pids pts map app]; eapply NoDup_app_l, HN|]. cbn [pids pts map app] in C.
    destruct (block_points_SI _ (pids r) _ _ _ _ [] Hps) as [D E]; [cbn [map]; rewrite app_nil_r; exact C|exact HN|constructor|].
    split; [exact D|]. split.
    + eapply Forall2_impl_in; [|exact B]. intros x q _ Hq HSq. cbv beta in HSq. eapply SI_same; [|exact HSq]. apply E. apply in_map, Hq.
    + eapply logpids_incl; [|eapply (block_points_logpids _ (pids r)); [exact Hps|cbn [map]; rewrite app_nil_r; exact C|exact HN]].
      intros x. rewrite !in_app_iff. tauto.
  - destruct r; [discriminate|]. apply Ok_inj in H. subst st'. unfold phase1.
    rewrite (elements_new Repeating) by (exact HK1 || exact SR). rewrite (elements_other Fixed) by (apply HK2; discriminate).
    split; [apply slot_snoc; [apply HK2; discriminate|exact SF]|]. split; [apply slot_new; auto|]. split; [exact TF|]. split; [exact HT|].
    unfold pids at 2 4. cbn [pts bt_points]. intros HN.
    destruct (HSI) as (A & B & C); [cbn [pids pts map app]; rewrite app_nil_r; eapply NoDup_app_l, HN|]. cbn [pids pts map app] in C.
    destruct (block_points_SI _ (pids f) _ _ _ _ [] Hps) as [D E]; [cbn [map]; exact C|exact HN|constructor|].
    split; [|split; [exact D|]].
    + eapply Forall2_impl_in; [|exact A]. intros x q _ Hq HSq. cbv beta in HSq. eapply SI_same; [|exact HSq]. apply E. apply in_map, Hq.
    + eapply (block_points_logpids _ (pids f)); [exact Hps|exact C|exact HN].
Qed.
Lemma blocks_phase1 es : forall bs st st', phase1 bs st -> foldM model_block es st = Ok st' -> phase1 (bs ++ es) st'.
Proof.
  induction es as [|e es IH]; intros bs st st' HP H; cbn [foldM] in H.
  - apply Ok_inj in H. subst. rewrite app_nil_r. exact HP.
  - apply bind_ok in H as (st1 & H1 & H). replace (bs ++ e :: es) with ((bs ++ [e]) ++ es) by (rewrite <- app_assoc; reflexivity).
    eapply IH; [|exact H]. eapply block_phase1; eauto.
Qed.
Lemma phase1_init : phase1 [] (None, None, []).
Proof.
  split; [left; auto|]. split; [left; auto|]. split; [constructor|]. split; [constructor|]. intros _. split; [constructor|]. split; [constructor|].
  intros [|n] k s E; discriminate.
Qed.

(** ** Strings *)
(** the children of the strings elements for a point id *)
Definition sc (done : list xml) (pid : str) : list xml := flat_map x_children (filter (id_is pid) done).
Lemma sc_snoc done q pid : sc (done ++ [q]) pid = sc done pid ++ (if id_is pid q then x_children q else []).
Proof.
  unfold sc. rewrite filter_app, flat_map_app. cbn [filter]. destruct (id_is pid q); cbn [flat_map]; [rewrite app_nil_r|]; reflexivity.
Qed.
Definition mem (i : str) (l : list str) : bool := existsb (eqb_list i) l.
Lemma mem_spec i l : mem i l = true <-> In i l.
Proof.
  unfold mem. rewrite existsb_exists. split; [intros (x & H & E); apply eqb_list_eq in E; subst x; exact H|]. intros H. exists i. split; [exact H|apply eqb_list_eq; reflexivity].
Qed.
Definition rep_sc (f : option blocktype) (done : list xml) (pid : str) : list xml := if mem pid (pids f) then [] else sc done pid.
Definition phase2 (ef er : list xml) (done : list xml) (st : mstate) : Prop :=
  let '(f, r, log) := st in
  NoDup (pids f) /\ NoDup (pids r) /\
  Forall2 (fun e p => TI (x_children e ++ sc done (pt_id p)) p) ef (pts f) /\
  Forall2 (fun e p => TI (x_children e ++ rep_sc f done (pt_id p)) p) er (pts r) /\
  (NoDup (pids f ++ pids r) ->
   Forall2 (fun e p => SI (own e ++ map (pair true) (sc done (pt_id p))) p log) ef (pts f) /\
   Forall2 (fun e p => SI (own e ++ map (pair true) (sc done (pt_id p))) p log) er (pts r)).
(** replacing one point *)
Lemma set_pt_Forall2 (R S : xml -> pointtype -> Prop) es l p p' :
  Forall2 R es l -> NoDup (map pt_id l) -> find_pt (pt_id p) l = Some p -> pt_id p' = pt_id p ->
  (forall e, R e p -> S e p') -> (forall e q, pt_id q <> pt_id p -> In q l -> R e q -> S e q) -> Forall2 S es (set_pt p' l).
Proof.
  intros HR HN HF HI H1 H2. unfold find_pt in HF. induction HR as [|e q es l HQ HR IH]; [discriminate|].
  cbn [set_pt find map] in *. rewrite HI. inversion HN as [|x y Hx Hy]; subst. destruct (eqb_list (pt_id q) (pt_id p)) eqn:E.
  - apply Some_inj in HF. subst q. constructor; [apply H1, HQ|]. eapply Forall2_impl_in; [|exact HR]. intros a b _ Hb Hab.
    apply H2; [|right; exact Hb|exact Hab]. intros HE. apply Hx. rewrite <- HE. apply in_map, Hb.
  - apply eqb_list_neq in E. constructor; [apply H2; [exact E|left; reflexivity|exact HQ]|]. apply IH; [exact Hy|exact HF|]. intros a b Hb1 Hb2. apply H2; [exact Hb1|right; exact Hb2].
Qed.
Lemma set_pt_ids p' l : map pt_id (set_pt p' l) = map pt_id l.
Proof.
  induction l as [|q l IH]; cbn [set_pt map]; [reflexivity|]. destruct (eqb_list (pt_id q) (pt_id p')) eqn:E; cbn [map].
  - apply eqb_list_eq in E. f_equal. symmetry. exact E.
  - f_equal. exact IH.
Qed.
Lemma pids_set p b : pids (option_map (bt_set p) b) = pids b.
Proof. destruct b as [b|]; [|reflexivity]. unfold pids, pts. cbn [option_map bt_set bt_points]. apply set_pt_ids. Qed.
Lemma pts_set p b : pts (option_map (bt_set p) b) = set_pt p (pts b).
Proof. destruct b; reflexivity. Qed.
Lemma lookup_pts pid b p : lookup_pt pid b = Some p -> pid = Some (pt_id p) /\ find_pt (pt_id p) (pts b) = Some p.
Proof. intros H. apply lookup_pt_spec in H as (bt & -> & H1 & H2). auto. Qed.
Lemma lookup_none i b : lookup_pt (Some i) b = None -> ~ In i (pids b).
Proof. destruct b as [b|]; cbn [lookup_pt]; [|intros _ []]. apply find_pt_none. Qed.
Lemma find_pt_in i l p : find_pt i l = Some p -> In p l /\ pt_id p = i.
Proof. intros H. unfold find_pt in H. apply find_some in H as [H1 H2]. apply eqb_list_eq in H2. auto. Qed.
Lemma map_own_app e a b : own e ++ map (pair true) (a ++ b) = (own e ++ map (pair true) a) ++ map (pair true) b.
Proof. rewrite map_app, app_assoc. reflexivity. Qed.

Lemma strings_point_phase2 ef er done st q st' : phase2 ef er done st -> strings_point st q = Ok st' -> phase2 ef er (done ++ [q]) st'.
Proof.
  destruct st as [[f r] log]. intros (NF & NR & TF & TR & HSI) H. unfold strings_point in H. cbv zeta in H.
  destruct (lookup_pt (x_get A_ID q) f) as [p|] eqn:EF.
  - apply lookup_pts in EF as [EI EF]. apply bind_ok in H as ([p' log'] & Hp & H). apply Ok_inj in H. subst st'.
    pose proof (point_children_header _ _ _ _ Hp) as HH. cbn [fst] in HH.
    assert (HPID : pt_id p' = pt_id p) by (change (pt_id p') with (pt_id (header p')); rewrite HH; reflexivity).
    assert (HQ : id_is (pt_id p) q = true) by (apply id_is_spec; exact EI).
    assert (HQ' : forall i, i <> pt_id p -> id_is i q = false) by (intros i Hi; apply id_is_false; congruence).
    assert (HMEM : In (pt_id p) (pids f)) by (destruct (find_pt_in _ _ _ EF) as [HA HB]; apply in_map, HA).
    unfold phase2. rewrite pids_set, pts_set.
    split; [exact NF|]. split; [exact NR|]. split; [|split].
    + eapply (set_pt_Forall2 _ _ _ _ p p' TF NF EF HPID).
      * intros e HT. cbv beta in HT |- *. rewrite HPID, sc_snoc, HQ, app_assoc. eapply point_children_texts; [exact Hp|exact HT].
      * intros e x Hx _ HT. cbv beta in HT |- *. rewrite sc_snoc, (HQ' _ Hx), app_nil_r. exact HT.
    + eapply Forall2_impl_in; [|exact TR]. intros e x _ Hx HT. cbv beta in HT |- *. unfold rep_sc in *. rewrite pids_set.
      destruct (mem (pt_id x) (pids f)) eqn:EM; [exact HT|]. rewrite sc_snoc, HQ', app_nil_r; [exact HT|].
      intros HE. rewrite HE, (proj2 (mem_spec _ _) HMEM) in EM. discriminate.
    + intros HN. destruct (HSI HN) as [SF SR]. assert (HFR : forall pid, pid <> pt_id p -> same_at pid log log').
      { destruct (find_pt_in _ _ _ EF) as [HA _]. clear -SF HA Hp. induction SF as [|e x l l' HS _ IH]; [destruct HA|].
        destruct HA as [->|HA]; [|auto]. eapply point_children_SI; [exact Hp|exact HS|discriminate]. }
      split.
      * eapply (set_pt_Forall2 _ _ _ _ p p' SF NF EF HPID).
        -- intros e HT. cbv beta in HT |- *. rewrite HPID, sc_snoc, HQ, map_own_app. eapply point_children_SI; [exact Hp|exact HT|discriminate].
        -- intros e x Hx _ HT. cbv beta in HT |- *. rewrite sc_snoc, (HQ' _ Hx), app_nil_r. eapply SI_same; [apply HFR, Hx|exact HT].
      * eapply Forall2_impl_in; [|exact SR]. intros e x _ Hx HT. cbv beta in HT |- *.
        assert (HNE : pt_id x <> pt_id p).
        { intros HE. apply in_split in HMEM as (l1 & l2 & HL). rewrite HL, <- app_assoc in HN. cbn [app] in HN. apply NoDup_remove_2 in HN.
          apply HN. rewrite <- HE. apply in_app_iff. right. apply in_app_iff. right. apply in_map, Hx. }
        rewrite sc_snoc, HQ', app_nil_r by exact HNE. eapply SI_same; [apply HFR, HNE|exact HT].
  - destruct (lookup_pt (x_get A_ID q) r) as [p|] eqn:ER.
    + apply lookup_pts in ER as [EI ER]. apply bind_ok in H as ([p' log'] & Hp & H). apply Ok_inj in H. subst st'.
      rewrite EI in EF. apply lookup_none in EF.
      pose proof (point_children_header _ _ _ _ Hp) as HH. cbn [fst] in HH.
      assert (HPID : pt_id p' = pt_id p) by (change (pt_id p') with (pt_id (header p')); rewrite HH; reflexivity).
      assert (HQ : id_is (pt_id p) q = true) by (apply id_is_spec; exact EI).
      assert (HQ' : forall i, i <> pt_id p -> id_is i q = false) by (intros i Hi; apply id_is_false; congruence).
      assert (HF' : forall x, In x (pts f) -> pt_id x <> pt_id p) by (intros x Hx HE; apply EF; rewrite <- HE; apply in_map, Hx).
      unfold phase2. rewrite pids_set, pts_set.
      split; [exact NF|]. split; [exact NR|]. split; [|split].
      * eapply Forall2_impl_in; [|exact TF]. intros e x _ Hx HT. cbv beta in HT |- *. rewrite sc_snoc, HQ', app_nil_r by auto. exact HT.
      * eapply (set_pt_Forall2 _ _ _ _ p p' TR NR ER HPID).
        -- intros e HT. cbv beta in HT |- *. unfold rep_sc in *. rewrite HPID. replace (mem (pt_id p) (pids f)) with false in * by (symmetry; apply not_true_iff_false; rewrite mem_spec; exact EF).
           rewrite sc_snoc, HQ, app_assoc. eapply point_children_texts; [exact Hp|exact HT].
        -- intros e x Hx _ HT. cbv beta in HT |- *. unfold rep_sc in *. rewrite sc_snoc, (HQ' _ Hx), app_nil_r. exact HT.
      * intros HN. destruct (HSI HN) as [SF SR]. assert (HFR : forall pid, pid <> pt_id p -> same_at pid log log').
        { destruct (find_pt_in _ _ _ ER) as [HA _]. clear -SR HA Hp. induction SR as [|e x l l' HS _ IH]; [destruct HA|].
          destruct HA as [->|HA]; [|auto]. eapply point_children_SI; [exact Hp|exact HS|discriminate]. }
        split.
        -- eapply Forall2_impl_in; [|exact SF]. intros e x _ Hx HT. cbv beta in HT |- *. rewrite sc_snoc, HQ', app_nil_r by auto.
           eapply SI_same; [apply HFR; auto|exact HT].
        -- eapply (set_pt_Forall2 _ _ _ _ p p' SR NR ER HPID).
           ++ intros e HT. cbv beta in HT |- *. rewrite HPID, sc_snoc, HQ, map_own_app. eapply point_children_SI; [exact Hp|exact HT|discriminate].
           ++ intros e x Hx _ HT. cbv beta in HT |- *. rewrite sc_snoc, (HQ' _ Hx), app_nil_r. eapply SI_same; [apply HFR, Hx|exact HT].
    + apply Ok_inj in H. subst st'.
      assert (HNO : forall x, In x (pts f) \/ In x (pts r) -> id_is (pt_id x) q = false).
      { intros x Hx. apply id_is_false. intros HE. rewrite HE in EF, ER. apply lookup_none in EF, ER.
        destruct Hx as [Hx|Hx]; [apply EF|apply ER]; apply in_map, Hx. }
      unfold phase2. split; [exact NF|]. split; [exact NR|]. split; [|split].
      * eapply Forall2_impl_in; [|exact TF]. intros e x _ Hx HT. cbv beta in HT |- *. rewrite sc_snoc, HNO, app_nil_r by auto. exact HT.
      * eapply Forall2_impl_in; [|exact TR]. intros e x _ Hx HT. cbv beta in HT |- *. unfold rep_sc in *. rewrite sc_snoc, HNO, app_nil_r by auto. exact HT.
      * intros HN. destruct (HSI HN) as [SF SR]. split.
        -- eapply Forall2_impl_in; [|exact SF]. intros e x _ Hx HT. cbv beta in HT |- *. rewrite sc_snoc, HNO, app_nil_r by auto. exact HT.
        -- eapply Forall2_impl_in; [|exact SR]. intros e x _ Hx HT. cbv beta in HT |- *. rewrite sc_snoc, HNO, app_nil_r by auto. exact HT.
Qed.
Lemma strings_points_phase2 ef er qs : forall done st st', phase2 ef er done st -> foldM strings_point qs st = Ok st' -> phase2 ef er (done ++ qs) st'.
Proof.
  induction qs as [|q qs IH]; intros done st st' HP H; cbn [foldM] in H.
  - apply Ok_inj in H. subst. rewrite app_nil_r. exact HP.
  - apply bind_ok in H as (st1 & H1 & H). replace (done ++ q :: qs) with ((done ++ [q]) ++ qs) by (rewrite <- app_assoc; reflexivity).
    eapply IH; [|exact H]. eapply strings_point_phase2; eauto.
Qed.
(** all sections: the texts and the points separately *)
Definition model_children (s : xml) : list xml := match xfind SMDX_MODEL s with Some m => x_children m | None => [] end.
Lemma strings_sections_split id ss : forall t ms t' ms' cs, foldM (strings_section id) ss (t, ms) = Ok (t', ms') -> tgiven cs t ->
  let ss' := filter (fun s => opt_eqb (x_get A_ID s) (Some (id_text id))) ss in
  tgiven (cs ++ flat_map model_children ss') t' /\ foldM strings_point (flat_map (findall SMDX_POINT) ss') ms = Ok ms'.
Proof.
  cbv zeta. induction ss as [|s ss IH]; intros t ms t' ms' cs H HT; cbn [foldM filter] in *.
  - apply Ok_inj, pair_equal_spec in H as [<- <-]. cbn [flat_map]. rewrite app_nil_r. auto.
  - apply bind_ok in H as ([t1 ms1] & H1 & H). unfold strings_section in H1.
    destruct (opt_eqb (x_get A_ID s) (Some (id_text id))).
    + apply bind_ok in H1 as (ms2 & H1 & H2). apply Ok_inj, pair_equal_spec in H2 as [<- <-].
      cbn [flat_map]. rewrite app_assoc. destruct (IH _ _ _ _ (cs ++ model_children s) H) as [A B].
      { unfold model_children. destruct (xfind SMDX_MODEL s); [apply texts_given_app, HT|rewrite app_nil_r; exact HT]. }
      split; [exact A|]. assert (HAPP : forall l a st st1, foldM strings_point l st = Ok st1 -> foldM strings_point (l ++ a) st = foldM strings_point a st1).
      { clear. induction l as [|x l IH]; intros a st st1 H; cbn [foldM app] in *; [apply Ok_inj in H; now subst|].
        apply bind_ok in H as (st2 & -> & H). cbn [bind]. apply IH, H. }
      rewrite (HAPP _ _ _ _ H1). exact B.
    + apply Ok_inj, pair_equal_spec in H1 as [<- <-]. apply (IH _ _ _ _ _ H HT).
Qed.

(** ** Documents *)
Lemma phase1_phase2 bs st : phase1 bs st -> phase2 (elements Fixed bs) (elements Repeating bs) [] st.
Proof.
  destruct st as [[f r] log]. intros (SF & SR & TF & TR & HSI).
  assert (HND : forall k b, slot k bs b -> NoDup (pids b)).
  { intros k b [[_ ->]|(e & b' & _ & -> & (_ & _ & _ & ps & _ & _ & HN))]; [constructor|exact HN]. }
  split; [eapply HND, SF|]. split; [eapply HND, SR|]. split; [|split].
  - eapply Forall2_impl_in; [|exact TF]. intros e p _ _ H. cbv beta in H |- *. change (sc [] (pt_id p)) with (@nil xml). rewrite app_nil_r. exact H.
  - eapply Forall2_impl_in; [|exact TR]. intros e p _ _ H. cbv beta in H |- *. unfold rep_sc. change (sc [] (pt_id p)) with (@nil xml).
    replace (if mem (pt_id p) (pids f) then [] else []) with (@nil xml) by (destruct (mem _ _); reflexivity). rewrite app_nil_r. exact H.
  - intros HN. destruct (HSI HN) as (A & B & _). split; (eapply Forall2_impl_in; [|eassumption]); intros e p _ _ H; cbv beta in H |- *;
      change (sc [] (pt_id p)) with (@nil xml); cbn [map]; rewrite app_nil_r; exact H.
Qed.
Lemma phase2_fixed ef er done f r log : phase2 ef er done (f, r, log) ->
  phase2 ef er done (Some (match f with Some b => b | None => mkBT Fixed (BInt 0) None [] end), r, log).
Proof. destruct f; exact (fun H => H). Qed.
Lemma model_parts oid root t m ms : model_from_smdx oid root = Ok t -> findall SMDX_MODEL root = m :: ms ->
  exists id, attr_number "id" m id /\ mt_id t = Some id /\
    let ss := filter (fun s => opt_eqb (x_get A_ID s) (Some (str_of_int id))) (findall SMDX_STRINGS root) in
    tgiven (flat_map model_children ss) (mkTexts (mt_label t) (mt_description t) (mt_notes t)) /\
    phase2 (elements Fixed (findall SMDX_BLOCK m)) (elements Repeating (findall SMDX_BLOCK m)) (flat_map (findall SMDX_POINT) ss)
           (Some (mt_fixed t), mt_rep t, mt_symbols t).
Proof.
  intros H HM. unfold model_from_smdx in H. rewrite HM in H. apply bind_ok in H as ([[[id len] name] st] & H1 & H).
  apply bind_ok in H1 as (idz & Hid & H1). apply attr_int_spec in Hid.
  destruct (x_get A_LEN m) as [l|] eqn:El; [|discriminate]. apply bind_ok in H1 as (lenz & Hlen & H1).
  apply bind_ok in H1 as (st1 & Hst & H1). apply Ok_inj, pair_equal_spec in H1 as [H1 <-]. apply pair_equal_spec in H1 as [H1 <-].
  apply pair_equal_spec in H1 as [<- <-]. cbv beta iota in H. apply bind_ok in H as ([tx [[f r] log]] & HS & H). apply Ok_inj in H. subst t.
  exists idz. split; [exact Hid|]. split; [reflexivity|]. cbn [mt_label mt_description mt_notes mt_fixed mt_rep mt_symbols]. cbv zeta.
  destruct (strings_sections_split _ _ _ _ _ _ [] HS) as [A B]; [split; [|split]; apply last_text_nil|]. cbn [id_text] in A, B.
  split; [exact A|]. apply phase2_fixed.
  refine (strings_points_phase2 _ _ _ [] _ _ _ B). apply phase1_phase2. refine (blocks_phase1 _ [] _ _ phase1_init Hst).
Qed.

(** the relations of the specification *)
Lemma sections_for_filter root id ss : sections_for root id ss ->
  ss = filter (fun s => opt_eqb (x_get A_ID s) (Some (str_of_int id))) (findall SMDX_STRINGS root).
Proof.
  intros H. unfold findall. apply (selected_fun _ _ _ _ H).
  assert (HFF : forall (f g : xml -> bool) l, filter g (filter f l) = filter (fun x => f x && g x) l).
  { clear. intros f g. induction l as [|x l IH]; cbn [filter]; [reflexivity|]. destruct (f x); cbn [filter andb]; [|exact IH]. destruct (g x); rewrite IH; reflexivity. }
  rewrite HFF. apply selected_filter. intros e. rewrite andb_true_iff, eqb_list_eq, opt_eqb_eq. reflexivity.
Qed.
Lemma section_model_fun s cs : section_model s cs -> cs = model_children s.
Proof.
  pose proof (findall_children SMDX_MODEL s) as HC. unfold model_children, xfind.
  intros [(m & r & H & ->)|[H ->]]; pose proof (children_of_fun _ _ _ _ HC H) as ->; reflexivity.
Qed.
Lemma filter_flat_map (f : xml -> bool) (l : list xml) : filter f (flat_map x_children l) = flat_map (fun s => filter f (x_children s)) l.
Proof. induction l as [|x l IH]; cbn [flat_map]; [reflexivity|]. rewrite filter_app, IH. reflexivity. Qed.
Lemma point_strings_sc ss pid cs : point_strings_for ss pid cs -> cs = sc (flat_map (findall SMDX_POINT) ss) pid.
Proof.
  intros (qs & H & ->). unfold sc. f_equal.
  apply (selected_fun _ _ _ _ H). unfold findall. rewrite <- filter_flat_map.
  assert (HFF : forall (f g : xml -> bool) l, filter g (filter f l) = filter (fun x => f x && g x) l).
  { clear. intros f g. induction l as [|x l IH]; cbn [filter]; [reflexivity|]. destruct (f x); cbn [filter andb]; [|exact IH]. destruct (g x); rewrite IH; reflexivity. }
  rewrite HFF. apply selected_filter. intros e. rewrite andb_true_iff, eqb_list_eq, id_is_spec. reflexivity.
Qed.
Lemma elements_one k bs fb ps : of_kind k bs [fb] -> children_of (lit "point"%string) (x_children fb) ps -> elements k bs = ps.
Proof.
  intros H HC. unfold elements. rewrite (of_kind_fun _ _ _ _ (of_kind_filter k bs) H). cbn [flat_map]. rewrite app_nil_r.
  exact (children_of_fun _ _ _ _ (findall_children SMDX_POINT fb) HC).
Qed.

(** ** Symbols of a point *)
Lemma defs_own e cs : defs (own e ++ map (pair true) cs) = filter is_sym (x_children e).
Proof.
  unfold defs, own. rewrite filter_app, map_app.
  assert (H1 : forall l, map snd (filter (fun c : bool * xml => negb (fst c) && is_sym (snd c)) (map (pair false) l)) = filter is_sym l)
    by (induction l as [|x l IH]; cbn [map filter fst snd negb andb]; [reflexivity|]; destruct (is_sym x); cbn [map snd]; rewrite IH; reflexivity).
  assert (H2 : forall l, filter (fun c : bool * xml => negb (fst c) && is_sym (snd c)) (map (pair true) l) = [])
    by (induction l as [|x l IH]; cbn [map filter fst snd negb andb]; [reflexivity|]; exact IH).
  rewrite H1, H2. apply app_nil_r.
Qed.
Lemma syms_own i e cs : syms i (own e ++ map (pair true) cs) = filter (id_is i) (filter is_sym (x_children e) ++ filter is_sym cs).
Proof.
  unfold syms, own. rewrite map_app, !map_map. cbn [snd]. rewrite !map_id, <- filter_app. generalize (x_children e ++ cs).
  induction l as [|x l IH]; cbn [filter]; [reflexivity|]. destruct (is_sym x); cbn [andb filter]; [|exact IH]. destruct (id_is i x); rewrite IH; reflexivity.
Qed.
Lemma SI_symbols e cs p t : SI (own e ++ map (pair true) cs) p (mt_symbols t) ->
  let d := filter is_sym (x_children e) in let s := filter is_sym cs in
  exists l, symbols_of t p l /\ symbols_described d s l /\
            (Forall (fun c => exists x i, In x d /\ attr "id" x i /\ attr "id" c i) s -> Forall (fun y => sy_id y <> None) l).
Proof.
  intros HS. cbv zeta. set (log := mt_symbols t) in *. exists (map (fun n => get_symbol n log) (pt_symbols p)).
  assert (HREF : forall n, In n (pt_symbols p) -> exists k, nth_error log n = Some (k, get_symbol n log) /\ snd k = pt_id p).
  { intros n Hn. apply (si_refs _ _ _ HS) in Hn as (k & s & E & HK). exists k. rewrite (get_symbol_nth _ _ _ _ E). auto. }
  split; [|split].
  - unfold symbols_of. fold log. clear -HREF. induction (pt_symbols p) as [|n l IH]; cbn [map]; constructor.
    + destruct (HREF n) as (k & E & _); [left; reflexivity|]. eauto.
    + apply IH. intros m Hm. apply HREF. right. exact Hm.
  - exists (ids_of (filter is_sym (x_children e))). split.
    + pose proof (si_defs _ _ _ HS) as HD. rewrite defs_own in HD. clear -HD. induction (filter is_sym (x_children e)) as [|x l IH]; cbn [ids_of flat_map]; [constructor|].
      destruct (x_get A_ID x) as [i|] eqn:E; [|exfalso; apply (HD x); [left; reflexivity|exact E]]. cbn [app]. constructor; [exact E|].
      apply IH. intros y Hy. apply HD. right. exact Hy.
    + pose proof (si_order _ _ _ HS) as HO. rewrite defs_own in HO. rewrite <- HO. clear HO. unfold named.
      assert (HG : forall n, In n (pt_symbols p) -> forall i, sy_id (get_symbol n log) = Some i -> symbol_described (filter is_sym (x_children e)) (filter is_sym cs) i (get_symbol n log)).
      { intros n Hn i Hi. destruct (HREF n Hn) as (k & E & HK). split; [exact Hi|]. split.
        - destruct (si_value _ _ _ HS n k _ i E HK Hi) as (a & d & b & H1 & H2 & H3 & H4). rewrite defs_own in H1.
          exists a, d, b. split; [exact H1|]. split; [apply id_is_spec in H2; exact H2|]. split; [exact H3|]. eapply Forall_impl; [|exact H4].
          intros x Hx HA. cbv beta in Hx. apply id_is_false in Hx. exact (Hx HA).
        - pose proof (si_texts _ _ _ HS n k _ i E HK Hi) as HT. rewrite syms_own in HT. eexists. split; [|exact HT].
          apply selected_filter. intros x. apply id_is_spec. }
      clear HREF. induction (pt_symbols p) as [|n l IH]; cbn [flat_map map filter]; [constructor|].
      assert (IH' := IH ltac:(intros m Hm; apply HG; right; exact Hm)). unfold has_id at 1. destruct (sy_id (get_symbol n log)) as [i|] eqn:E; cbn [app]; [|exact IH'].
      constructor; [|exact IH']. apply HG; [left; reflexivity|exact E].
  - intros HN. apply Forall_forall. intros y Hy HNone. apply in_map_iff in Hy as (n & <- & Hn). destruct (HREF n Hn) as (k & E & HK).
    destruct (si_idless _ _ _ HS n k _ E HK HNone) as (a & c & b & H1 & H2 & H3).
    assert (HA : exists a', a = own e ++ a' /\ map (pair true) cs = a' ++ (true, c) :: b).
    { clear -H1. unfold own in *. revert a H1. induction (x_children e) as [|x l IH]; intros a H1; cbn [map app] in H1; [exists a; auto|].
      destruct a as [|y a]; cbn [app] in H1; [discriminate|]. apply (f_equal (fun z => match z with h :: r => (h, r) | [] => (y, []) end)) in H1.
      cbv beta iota in H1. apply pair_equal_spec in H1 as [<- H1]. destruct (IH _ H1) as (a' & -> & HM). exists a'. auto. }
    destruct HA as (a' & -> & HM). assert (HC : In c (filter is_sym cs)).
    { apply filter_In. split; [|exact H2]. assert (HI : In (true, c) (map (pair true) cs)) by (rewrite HM; apply in_elt).
      apply in_map_iff in HI as (c' & HE & HI). apply pair_equal_spec in HE as [_ ->]. exact HI. }
    rewrite Forall_forall in HN. destruct (HN c HC) as (x & i & Hx & Hi & Hc). apply (H3 x).
    + unfold defs. rewrite filter_app, map_app, in_app_iff. left. pose proof (defs_own e []) as HD. cbn [map] in HD. rewrite app_nil_r in HD.
      change (In x (defs (own e))). rewrite HD. exact Hx.
    + change (x_get A_ID x) with (dget (lit "id"%string) (x_attrs x)). change (x_get A_ID c) with (dget (lit "id"%string) (x_attrs c)). unfold attr in Hi, Hc. congruence.
Qed.
Lemma children_symbols l r : children_of (lit "symbol"%string) l r -> r = filter is_sym l.
Proof. intros H. exact (children_of_fun _ _ _ _ H (filter_children SMDX_SYMBOL l)). Qed.
