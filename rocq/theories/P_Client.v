(** * P_Client: proofs about reading and writing points. *)
From Coq Require Import Sorted.
From Verif Require Import Py P_List M_Util M_Float M_Suns S_Codec P_Codec P_Types M_Mbmap M_Device S_Device P_Device C_Device M_Client S_Client.

(** ** memory *)
Lemma zseq_app a n k : zseq a (n + k) = zseq a n ++ zseq (a + Z.of_nat n) k.
Proof.
  unfold zseq. rewrite seq_app, map_app. f_equal. rewrite <- (Nat.add_0_l n) at 1.
  assert (forall k s, map (fun i => a + Z.of_nat i) (seq (s + n) k) = map (fun i => a + Z.of_nat n + Z.of_nat i) (seq s k)) as H; [|apply H].
  induction k0 as [|k0 IH]; intros s; [reflexivity|]. cbn [seq map]. f_equal; [lia|]. apply (IH (S s)).
Qed.
Lemma zseq_length a n : length (zseq a n) = n.
Proof. unfold zseq. now rewrite map_length, seq_length. Qed.
Lemma zlen_mem_bytes mem a n : 0 <= n -> zlen (mem_bytes mem a n) = 2 * n.
Proof. intros. unfold mem_bytes, zlen. rewrite map_length, zseq_length. lia. Qed.
Lemma mem_bytes_app mem a n k : 0 <= n -> 0 <= k -> mem_bytes mem a (n + k) = mem_bytes mem a n ++ mem_bytes mem (a + n) k.
Proof.
  intros. unfold mem_bytes. rewrite <- map_app. f_equal. replace (Z.to_nat (2 * (n + k))) with (Z.to_nat (2 * n) + Z.to_nat (2 * k))%nat by lia.
  rewrite zseq_app. do 2 f_equal. lia.
Qed.
Lemma mem_bytes_0 mem a : mem_bytes mem a 0 = [].
Proof. reflexivity. Qed.
Lemma slice_mem_bytes mem a n x k : a <= x -> 0 <= k -> x + k <= a + n ->
  slice (2 * (x - a)) (2 * (x - a) + 2 * k) (mem_bytes mem a n) = mem_bytes mem x k.
Proof.
  intros H1 H2 H3. replace n with ((x - a) + (k + (a + n - x - k))) by lia. rewrite !mem_bytes_app by lia.
  replace (a + (x - a)) with x by lia.
  rewrite slice_app_r by (rewrite ?zlen_mem_bytes; lia). rewrite zlen_mem_bytes by lia.
  rewrite slice_app_l by (rewrite ?zlen_mem_bytes; lia). apply slice_full; [lia|]. rewrite zlen_mem_bytes; lia.
Qed.
Lemma zseq_In x a n : In x (zseq a n) <-> a <= x < a + Z.of_nat n.
Proof.
  unfold zseq. rewrite in_map_iff. split.
  - intros (i & <- & H). apply in_seq in H. lia.
  - intros H. exists (Z.to_nat (x - a)). split; [lia|]. apply in_seq. lia.
Qed.
Lemma mem_bytes_ext mem mem' a n : (forall x, 2 * a <= x < 2 * (a + n) -> mem x = mem' x) -> mem_bytes mem a n = mem_bytes mem' a n.
Proof. intros H. unfold mem_bytes. apply map_ext_in. intros x HX. apply zseq_In in HX. apply H. lia. Qed.
Lemma mem_bytes_store mem a d : zlen d mod 2 = 0 -> mem_bytes (mem_store mem a d) a (zlen d / 2) = d.
Proof.
  intros H. assert (E : 2 * (zlen d / 2) = zlen d) by (rewrite (Z.div_mod (zlen d) 2) at 2 by lia; lia).
  unfold mem_bytes. rewrite E. unfold zlen. rewrite Nat2Z.id.
  apply nth_ext with (d := 0) (d' := 0); [now rewrite map_length, zseq_length|].
  intros n HN. rewrite map_length, zseq_length in HN. rewrite nth_indep with (d' := mem_store mem a d 0) by (rewrite map_length, zseq_length; exact HN).
  rewrite map_nth with (d := 0). unfold zseq. rewrite nth_indep with (d' := 2 * a + Z.of_nat 0) by (rewrite map_length, seq_length; exact HN).
  rewrite map_nth with (f := fun i => 2 * a + Z.of_nat i), seq_nth by exact HN. cbn [Nat.add].
  unfold mem_store, znth, zlen. destruct (Z.leb_spec (2 * a) (2 * a + Z.of_nat n)); [|lia].
  destruct (Z.ltb_spec (2 * a + Z.of_nat n) (2 * a + Z.of_nat (length d))); [|lia]. cbn [andb].
  now replace (Z.to_nat (2 * a + Z.of_nat n - 2 * a)) with n by lia.
Qed.

(** ** loaded models *)
(** the facts about a loaded model that reading and writing rely on; they do not involve values *)
Definition before (p q : point) : Prop := p_addr p + pt_len (p_type p) <= p_addr q.
Definition apart (p q : point) : Prop := before p q \/ before q p.
Record placed (addr L : Z) (m : model) : Prop := {
  pl_addr : md_addr m = addr;
  pl_len : md_len m = L;
  pl_type : md_type m <> None;
  pl_reads : exists more, md_reads m = addr :: more;
  pl_sorted : StronglySorted Z.le (md_reads m);
  pl_reads_end : Forall (fun s => s <= addr + L) (md_reads m);
  pl_blocks : md_blocks m <> [];
  pl_range : forall b p, In b (md_blocks m) -> In p (all_points b) ->
     addr <= p_addr p /\ 0 <= pt_len (p_type p) /\ p_addr p + pt_len (p_type p) <= addr + L /\ size_ok (p_type p);
  pl_sf : forall b p, In b (md_blocks m) -> In p (b_sfs b) -> pt_type (p_type p) = Tsunssf;
  pl_links : forall fixed rest, md_blocks m = fixed :: rest -> forall b p, In b (md_blocks m) -> In p (b_points b) ->
     match p_link p with
     | SfOwn id => exists q, find_point id (b_sfs b) = Some q
     | SfFixed id => exists q, find_point id (b_sfs fixed) = Some q
     | _ => True
     end;
  pl_order : ForallOrdPairs before (points_of m);
  pl_sf_apart : forall b b' p q, In b (md_blocks m) -> In b' (md_blocks m) -> In p (b_points b) -> In q (b_sfs b') -> apart p q }.

(** facts about block types *)
Lemma ordered_from_lo l : forall lo lo' len, ordered_from lo len l -> lo' <= lo -> ordered_from lo' len l.
Proof.
  induction l as [|t l IH]; intros lo lo' len H HL; cbn [ordered_from] in *; [lia|].
  destruct (pt_type t); try (destruct H as (A & B & C); split; [lia|]; auto; fail). eapply IH; eauto.
Qed.
Definition nonpad (t : pointtype) : bool := negb (is_pad (pt_type t)).
Definition tbefore (t u : pointtype) : Prop := pt_offset t + pt_len t <= pt_offset u.
Lemma ordered_facts l : forall lo len, ordered_from lo len l ->
  lo <= len /\ Forall (fun t => lo <= pt_offset t /\ 0 <= pt_len t /\ pt_offset t + pt_len t <= len) (filter nonpad l) /\
  ForallOrdPairs tbefore (filter nonpad l).
Proof.
  induction l as [|t l IH]; intros lo len H; cbn [ordered_from filter] in *; [split; [exact H|split; constructor]|].
  destruct (is_pad (pt_type t)) eqn:EP.
  - replace (nonpad t) with false by (unfold nonpad; now rewrite EP). apply IH. destruct (pt_type t); try discriminate. exact H.
  - assert (HH : lo <= pt_offset t /\ 0 <= pt_len t /\ ordered_from (pt_offset t + pt_len t) len l) by (destruct (pt_type t); auto; discriminate).
    destruct HH as (A & B & C). destruct (IH _ _ C) as (D & E & F).
    replace (nonpad t) with true by (unfold nonpad; now rewrite EP). split; [lia|]. split.
    + constructor; [lia|]. eapply Forall_impl; [|exact E]. cbn. intros; lia.
    + constructor; [|exact F]. eapply Forall_impl; [|exact E]. unfold tbefore. cbn. intros; lia.
Qed.

(** placement of one block *)
Definition at_off (a : Z) (t : pointtype) (p : point) : Prop := p_type p = t /\ p_addr p = a + pt_offset t.
Definition bplaced (a len : Z) (b : block) : Prop :=
  Forall2 (at_off a) (filter plain (bt_points (b_type b))) (b_points b) /\
  Forall2 (at_off a) (filter scale (bt_points (b_type b))) (b_sfs b) /\
  ordered_from 0 len (bt_points (b_type b)) /\
  Forall size_ok (filter nonpad (bt_points (b_type b))).

Lemma plain_nonpad t : plain t = true -> nonpad t = true.
Proof. unfold plain, nonpad. destruct (pt_type t); auto. Qed.
Lemma scale_nonpad t : scale t = true -> nonpad t = true.
Proof. unfold scale, nonpad. destruct (pt_type t); auto. Qed.
Lemma bplaced_type a len b p : bplaced a len b -> In p (all_points b) -> In (p_type p) (filter nonpad (bt_points (b_type b))) /\ p_addr p = a + pt_offset (p_type p).
Proof.
  intros (H1 & H2 & _ & _) HI. apply in_app_or in HI as [HI|HI].
  - destruct (Forall2_in_r _ _ _ _ H1 HI) as (t & T1 & T2 & T3). subst t. apply filter_In in T1 as [T1 T4]. split; [|exact T3].
    apply filter_In. split; [exact T1|now apply plain_nonpad].
  - destruct (Forall2_in_r _ _ _ _ H2 HI) as (t & T1 & T2 & T3). subst t. apply filter_In in T1 as [T1 T4]. split; [|exact T3].
    apply filter_In. split; [exact T1|now apply scale_nonpad].
Qed.
Lemma bplaced_range a len b p : bplaced a len b -> In p (all_points b) ->
  a <= p_addr p /\ 0 <= pt_len (p_type p) /\ p_addr p + pt_len (p_type p) <= a + len /\ size_ok (p_type p).
Proof.
  intros HB HI. destruct (bplaced_type _ _ _ _ HB HI) as [H1 H2]. destruct HB as (_ & _ & HO & HS).
  apply ordered_facts in HO as (_ & HF & _). rewrite Forall_forall in HF, HS. specialize (HF _ H1). specialize (HS _ H1).
  rewrite H2. split; [lia|]. split; [lia|]. split; [lia|exact HS].
Qed.
Lemma FOP_filter {A} (R : A -> A -> Prop) (f : A -> bool) l : ForallOrdPairs R l -> ForallOrdPairs R (filter f l).
Proof.
  induction 1 as [|x l H1 H2 IH]; cbn; [constructor|]. destruct (f x); [|exact IH]. constructor; [|exact IH].
  rewrite Forall_forall in *. intros y HY. apply filter_In in HY as [HY _]. auto.
Qed.
Lemma filter_filter {A} (f g : A -> bool) l : (forall x, f x = true -> g x = true) -> filter f (filter g l) = filter f l.
Proof.
  intros H. induction l as [|x l IH]; [reflexivity|]. cbn. destruct (g x) eqn:EG; cbn; [now rewrite IH|].
  destruct (f x) eqn:EF; [rewrite H in EG; congruence|exact IH].
Qed.
Lemma bplaced_order a len b : bplaced a len b -> ForallOrdPairs before (b_points b).
Proof.
  intros (H1 & _ & HO & _). apply ordered_facts in HO as (_ & _ & HF). apply (FOP_filter _ plain) in HF.
  rewrite filter_filter in HF by exact plain_nonpad. revert H1 HF. generalize (filter plain (bt_points (b_type b))) (b_points b).
  intros l l' H. induction H as [|t p l l' [E1 E2] H IH]; intros HF; [constructor|]. inversion HF as [|? ? F1 F2]; subst. constructor; [|now apply IH].
  rewrite Forall_forall in *. intros q HQ. destruct (Forall2_in_r _ _ _ _ H HQ) as (u & U1 & U2 & U3). subst u.
  specialize (F1 _ U1). unfold before, tbefore in *. lia.
Qed.
Lemma bplaced_apart a len b p q : bplaced a len b -> In p (b_points b) -> In q (b_sfs b) -> apart p q.
Proof.
  intros (H1 & H2 & HO & _) HP HQ.
  destruct (Forall2_in_r _ _ _ _ H1 HP) as (t & T1 & T2 & T3). destruct (Forall2_in_r _ _ _ _ H2 HQ) as (u & U1 & U2 & U3). subst t u.
  apply filter_In in T1 as [T1 T4]. apply filter_In in U1 as [U1 U4].
  apply ordered_facts in HO as (_ & _ & HF).
  destruct (ForallOrdPairs_In HF (p_type p) (p_type q)) as [E|[E|E]].
  - apply filter_In. split; [exact T1|now apply plain_nonpad].
  - apply filter_In. split; [exact U1|now apply scale_nonpad].
  - rewrite E in T4. unfold plain, scale in *. destruct (pt_type (p_type q)); discriminate.
  - left. unfold before, tbefore in *. lia.
  - right. unfold before, tbefore in *. lia.
Qed.

(** blocks back to back *)
Inductive chain : Z -> Z -> list block -> Prop :=
| chain_nil a e : a <= e -> chain a e []
| chain_cons a len e b l : 0 <= len -> bplaced a len b -> chain (a + len) e l -> chain a e (b :: l).
Lemma chain_range a e l : chain a e l -> a <= e /\ forall b p, In b l -> In p (all_points b) ->
  a <= p_addr p /\ 0 <= pt_len (p_type p) /\ p_addr p + pt_len (p_type p) <= e /\ size_ok (p_type p).
Proof.
  induction 1 as [a e H|a len e b l HL HB HC [IH1 IH2]]; [split; [exact H|intros ? ? []]|]. split; [lia|].
  intros c p [->|HI] HP.
  - eapply bplaced_range in HP as (A & B & C & D); [|exact HB]. split; [lia|]. split; [lia|]. split; [lia|exact D].
  - destruct (IH2 _ _ HI HP) as (A & B & C & D). split; [lia|]. split; [lia|]. split; [lia|exact D].
Qed.
Lemma FOP_app {A} (R : A -> A -> Prop) l l' : ForallOrdPairs R l -> ForallOrdPairs R l' -> (forall x y, In x l -> In y l' -> R x y) -> ForallOrdPairs R (l ++ l').
Proof.
  intros H H' HX. induction H as [|x l H1 H2 IH]; cbn; [exact H'|]. constructor.
  - apply Forall_app. split; [exact H1|]. rewrite Forall_forall. intros y HY. apply HX; [now left|exact HY].
  - apply IH. intros. apply HX; [now right|assumption].
Qed.
Lemma chain_order a e l : chain a e l -> ForallOrdPairs before (flat_map b_points l).
Proof.
  induction 1 as [a e H|a len e b l HL HB HC IH]; cbn [flat_map]; [constructor|]. apply FOP_app; auto.
  - eapply bplaced_order; eauto.
  - intros p q HP HQ. apply in_flat_map in HQ as (c & C1 & C2).
    destruct (bplaced_range _ _ _ p HB) as (A & _ & B & _); [apply in_or_app; now left|].
    destruct (chain_range _ _ _ HC) as [_ HR]. destruct (HR c q C1) as (A' & _); [apply in_or_app; now left|]. unfold before. lia.
Qed.
Lemma chain_apart a e l : chain a e l -> forall b b' p q, In b l -> In b' l -> In p (b_points b) -> In q (b_sfs b') -> apart p q.
Proof.
  induction 1 as [a e H|a len e b l HL HB HC IH]; [intros ? ? ? ? []|]. intros c c' p q H1 H2 HP HQ.
  destruct (chain_range _ _ _ HC) as [_ HR]. destruct H1 as [<-|H1], H2 as [<-|H2].
  - eapply bplaced_apart; eauto.
  - destruct (bplaced_range _ _ _ p HB) as (_ & _ & B & _); [apply in_or_app; now left|].
    destruct (HR c' q H2) as (A' & _); [apply in_or_app; now right|]. left. unfold before. lia.
  - destruct (bplaced_range _ _ _ q HB) as (_ & _ & B & _); [apply in_or_app; now right|].
    destruct (HR c p H1) as (A' & _); [apply in_or_app; now left|]. right. unfold before. lia.
  - eauto.
Qed.

(** ** from [loaded] to [placed] *)
Lemma block_of_placed bt a len i b : block_of bt a len i (erase_block b) -> ordered_from 0 len (bt_points bt) ->
  Forall size_ok (filter nonpad (bt_points bt)) -> bplaced a len b.
Proof.
  intros (H1 & _ & _ & _ & H5 & H6) HO HS. unfold erase_block in *. cbn [b_type b_points b_sfs] in *. subst bt.
  assert (HG : forall l l', Forall2 (instance a) l (map erase_point l') -> Forall2 (at_off a) l l').
  { intros l l'. revert l. induction l' as [|p l' IH]; intros l H; cbn [map] in H; inversion H as [|? ? ? ? A B]; subst; constructor; auto.
    destruct A as (A1 & A2 & _). split; [exact A1|exact A2]. }
  split; [now apply HG|]. split; [now apply HG|]. split; [exact HO|exact HS].
Qed.
Lemma has_sf_find id b : has_sf id (erase_block b) -> exists q, find_point id (b_sfs b) = Some q.
Proof.
  intros (q & H1 & H2). cbn [erase_block b_sfs] in H1. apply in_map_iff in H1 as (q' & <- & H1). apply find_point_has. exists q'. auto.
Qed.
Lemma linked_erase fixed b p : In p (b_points b) -> Forall (fun p => linked (erase_block fixed) (erase_block b) p (p_link p)) (b_points (erase_block b)) ->
  match p_link p with
  | SfOwn id => exists q, find_point id (b_sfs b) = Some q
  | SfFixed id => exists q, find_point id (b_sfs fixed) = Some q
  | _ => True
  end.
Proof.
  intros HI HF. rewrite Forall_forall in HF. specialize (HF (erase_point p)). cbn [erase_block b_points] in HF.
  specialize (HF (in_map _ _ _ HI)). change (p_link (erase_point p)) with (p_link p) in HF.
  destruct HF; auto; now apply has_sf_find.
Qed.
Lemma reps_chain rt R fixed (HO : ordered_from 0 R (bt_points rt)) (HS : Forall size_ok (filter nonpad (bt_points rt))) e l :
  forall a i, reps_at rt R (erase_block fixed) a i (map erase_block l) -> a + zlen l * R <= e ->
  chain a e l /\ forall b p, In b l -> In p (b_points b) ->
    match p_link p with
    | SfOwn id => exists q, find_point id (b_sfs b) = Some q
    | SfFixed id => exists q, find_point id (b_sfs fixed) = Some q
    | _ => True
    end.
Proof.
  pose proof (ordered_facts _ _ _ HO) as (HR & _).
  induction l as [|b l IH]; intros a i H HE.
  - split; [constructor; unfold zlen in HE; cbn in HE; lia|intros ? ? []].
  - cbn [map] in H. inversion H as [|? ? ? ? [A1 A2] B]; subst. rewrite zlen_cons in HE.
    apply IH in B as [B1 B2]; [|lia]. split.
    + apply chain_cons with (len := R); [exact HR|exact (block_of_placed _ _ _ _ _ A1 HO HS)|exact B1].
    + intros c p [<-|HI] HP; [|exact (B2 c p HI HP)]. exact (linked_erase fixed b p HP A2).
Qed.
Lemma loaded_placed addr L m : loaded addr L m -> placed addr L m.
Proof.
  intros (fuel & types & id & len & mt & F & ET & HU & HF & (HO1 & HO2 & HS1 & HS2) & H).
  pose proof (C42_points_in_one_chunk _ _ _ _ _ _ _ _ _ H ET HU HF HO1 HO2) as (R1 & R2 & R3 & _).
  unfold model_load, new_model in H. cbn [md_id md_len md_addr md_blocks md_reads md_exposed md_error md_index] in H. rewrite ET in H.
  assert (EL : (if len =? 0 then mt_len mt else Some len) = Some L) by (destruct HU as [[N ->]|[-> E]]; [destruct (Z.eqb_spec len 0); congruence|exact E]).
  rewrite EL in H. destruct (base_int (bt_len (mt_fixed mt))) as [F0|] eqn:EF; [|discriminate].
  assert (EFF : (if (id =? 1) && (L =? 65) then L else F0) = F).
  { destruct HF as [(-> & -> & ->)|(N & E)]; [reflexivity|]. destruct (Z.eqb_spec id 1), (Z.eqb_spec L 65); cbn [andb]; try congruence. tauto. }
  rewrite EFF in H. destruct (load_loop _ _ _ _ _ _ _ _ _ _) as [[blocks reads] r] eqn:ELOOP.
  apply pair_equal_spec in H as [HM ->].
  assert (HMB : map erase_block (md_blocks m) = blocks) by (change (md_blocks (erase m) = blocks); rewrite <- HM; reflexivity).
  assert (HMA : md_addr m = addr) by (change (md_addr (erase m) = addr); rewrite <- HM; reflexivity).
  assert (HML : md_len m = L) by (change (md_len (erase m) = L); rewrite <- HM; reflexivity).
  assert (HMT : md_type m = Some mt) by (change (md_type (erase m) = Some mt); rewrite <- HM; reflexivity).
  apply load_loop_ok in ELOOP as (b & rest & EB & [HB HLB] & HR). cbn [app] in EB. rewrite EB in HMB. cbn [hd] in *.
  destruct (md_blocks m) as [|b0 rest0] eqn:EMB; [discriminate|]. cbn [map] in HMB. 
  assert (E1 : erase_block b0 = b) by congruence. assert (E2 : map erase_block rest0 = rest) by congruence. clear HMB. subst b rest.
  assert (HP0 : bplaced addr F b0) by (eapply block_of_placed; eauto).
  assert (HCH : chain addr (addr + L) (b0 :: rest0) /\ forall b p, In b (b0 :: rest0) -> In p (b_points b) ->
    match p_link p with
    | SfOwn id => exists q, find_point id (b_sfs b) = Some q
    | SfFixed id => exists q, find_point id (b_sfs b0) = Some q
    | _ => True
    end).
  { pose proof (ordered_facts _ _ _ HO1) as (HF0 & _).
    destruct (mt_rep mt) as [rt|] eqn:ERT.
    - destruct HR as (R & EBR & HRA & HE). rewrite zlen_map in HE.
      destruct (reps_chain rt R b0 (HO2 _ _ eq_refl EBR) (HS2 _ eq_refl) (addr + L) rest0 _ _ HRA ltac:(lia)) as [C1 C2].
      split; [econstructor; [exact HF0|exact HP0|exact C1]|]. intros c p [<-|HI] HP; [|exact (C2 c p HI HP)]. exact (linked_erase b0 b0 p HP HLB).
    - destruct HR as [HR HE]. apply map_eq_nil in HR. subst rest0.
      split; [econstructor; [exact HF0|exact HP0|constructor; lia]|]. intros c p [<-|[]] HP. exact (linked_erase b0 b0 p HP HLB). }
  destruct HCH as [HCH HLK]. destruct (chain_range _ _ _ HCH) as [_ HRG].
  split; try assumption.
  - congruence.
  - rewrite EMB. discriminate.
  - intros c p. rewrite EMB. apply HRG.
  - intros c p HC HP. rewrite EMB in HC. clear - HCH HC HP. induction HCH as [|a len e b l HL HB HC' IH]; [destruct HC|].
    destruct HC as [->|HC]; [|auto]. destruct HB as (_ & HB & _). destruct (Forall2_in_r _ _ _ _ HB HP) as (t & T1 & T2 & _).
    apply filter_In in T1 as [_ T1]. subst t. unfold scale in T1. destruct (pt_type (p_type p)); auto; discriminate.
  - intros fixed rest EQ. rewrite EMB in *. injection EQ as <- <-. exact HLK.
  - unfold points_of. rewrite EMB. eapply chain_order; eauto.
  - rewrite EMB. eapply chain_apart; eauto.
Qed.

(** ** reading *)
Lemma read_chunks_spec {D} (dv : mdev D) rel lo hi wmax (HI : implements dv rel lo hi wmax) mem e starts :
  forall s a more data, starts = a :: more -> StronglySorted Z.le starts -> Forall (fun x => x <= e) starts ->
  rel s mem -> lo <= a -> e <= hi ->
  exists s', read_chunks dv s starts e data = (s', Ok (data ++ mem_bytes mem a (e - a))) /\ rel s' mem.
Proof.
  induction starts as [|x starts IH]; intros s a more data E HS HF HR HL HH; [discriminate|]. injection E as <- <-.
  inversion HS as [|? ? S1 S2]; subst. inversion HF as [|? ? F1 F2]; subst. cbn [read_chunks]. destruct starts as [|y starts].
  - destruct (impl_read _ _ _ _ _ HI s mem x (e - x) HR HL ltac:(lia) ltac:(lia)) as (s' & E & HR'). unfold cl_read. rewrite E.
    exists s'. split; [reflexivity|exact HR'].
  - inversion S2 as [|? ? A B]; subst. inversion F2 as [|? ? C D0]; subst.
    destruct (impl_read _ _ _ _ _ HI s mem x (y - x) HR HL ltac:(lia) ltac:(lia)) as (s' & E & HR'). unfold cl_read. rewrite E.
    destruct (IH s' y starts (data ++ mem_bytes mem x (y - x)) eq_refl S1 F2 HR' ltac:(lia) HH) as (s2 & E2 & HR2).
    exists s2. split; [|exact HR2]. rewrite E2, <- app_assoc. do 3 f_equal.
    replace (e - x) with ((y - x) + (e - y)) by lia. rewrite mem_bytes_app by lia. now replace (x + (y - x)) with y by lia.
Qed.
Lemma read_model_data_spec {D} (dv : mdev D) rel lo hi wmax (HI : implements dv rel lo hi wmax) mem addr L m s :
  placed addr L m -> rel s mem -> lo <= addr -> addr + L <= hi -> 0 <= L ->
  exists s', read_model_data dv s m = (s', Ok (mem_bytes mem addr L)) /\ rel s' mem.
Proof.
  intros HP HR HL HH HL0. unfold read_model_data. destruct (pl_reads _ _ _ HP) as [more ER].
  pose proof (pl_sorted _ _ _ HP) as HS. pose proof (pl_reads_end _ _ _ HP) as HE. rewrite ER in *.
  rewrite (pl_addr _ _ _ HP), (pl_len _ _ _ HP). destruct more as [|y more].
  - destruct (impl_read _ _ _ _ _ HI s mem addr L HR HL HL0 HH) as (s' & E & HR'). unfold cl_read. rewrite E. eauto.
  - destruct (read_chunks_spec dv rel lo hi wmax HI mem (addr + L) (addr :: y :: more) s addr (y :: more) [] eq_refl HS HE HR HL HH) as (s' & E & HR').
    exists s'. split; [|exact HR']. rewrite E. cbn [app]. do 3 f_equal. lia.
Qed.

Lemma unpack_int_ok w sgn d : length d = w -> exists z, unpack_int w sgn d = Ok z.
Proof. intros <-. unfold unpack_int. rewrite Nat.eqb_refl. eauto. Qed.
Lemma data_to_total t d : (t <> Tstring -> zlen d = type_bytes t) -> exists v, data_to t d = Ok v.
Proof.
  intros H. destruct t; cbn [data_to]; try (eexists; reflexivity);
  (specialize (H ltac:(discriminate)); cbn [type_bytes] in H;
   unfold data_to_s16, data_to_u16, data_to_s32, data_to_u32, data_to_s64, data_to_float;
   match goal with
   | |- exists v, bind (unpack_int ?w ?s ?d) _ = _ =>
       destruct (unpack_int_ok w s d) as [z E]; [unfold zlen in H; lia|]; rewrite E; cbn [bind]; eauto
   | _ => idtac
   end).
  all: try (unfold unpack_f; destruct (unpack_int_ok 4 false d) as [z E]; [unfold zlen in H; lia|]; rewrite E; cbn [bind]; eauto).
Qed.
