(** * P_Client2: reading and writing points, continued. *)
From Coq Require Import Sorted.
From Verif Require Import Py P_List M_Util M_Float M_Suns S_Codec P_Codec P_Types M_Mbmap M_Device S_Device P_Device C_Device M_Client S_Client P_Client.

Lemma map_until_ok {A} (f : A -> res A) l : Forall (fun x => exists y, f x = Ok y) l ->
  exists l', map_until f l = (l', Ok tt) /\ Forall2 (fun x y => f x = Ok y) l l'.
Proof.
  induction 1 as [|x l (y & E) H (l' & E' & IH)]; [exists []; split; [reflexivity|constructor]|].
  exists (y :: l'). cbn [map_until]. rewrite E, E'. split; [reflexivity|]. constructor; assumption.
Qed.
Lemma map_until_inv {A} (f : A -> res A) l : forall l', map_until f l = (l', Ok tt) -> Forall2 (fun x y => f x = Ok y) l l'.
Proof.
  induction l as [|x l IH]; intros l' H; cbn [map_until] in H; [apply pair_equal_spec in H as [<- _]; constructor|].
  destruct (f x) as [y|] eqn:E; [|apply pair_equal_spec in H as [_ H]; discriminate].
  destruct (map_until f l) as [r e]. apply pair_equal_spec in H as [<- ->]. constructor; auto.
Qed.
Lemma map_until_of {A} (f : A -> res A) l l' : Forall2 (fun x y => f x = Ok y) l l' -> map_until f l = (l', Ok tt).
Proof. induction 1 as [|x y l l' E H IH]; [reflexivity|]. cbn [map_until]. now rewrite E, IH. Qed.

(** the data of a point in the data of the model *)
Definition fits (addr L : Z) (p : point) : Prop :=
  addr <= p_addr p /\ 0 <= pt_len (p_type p) /\ p_addr p + pt_len (p_type p) <= addr + L /\ size_ok (p_type p).
Lemma point_data_regs mem addr L p : fits addr L p -> point_data addr (mem_bytes mem addr L) p = regs_of mem p.
Proof.
  intros (A & B & C & _). unfold point_data, regs_of. rewrite py_slice_nonneg by lia. apply slice_mem_bytes; lia.
Qed.
Lemma fits_decodes mem addr L p : fits addr L p -> exists v, data_to (pt_type (p_type p)) (regs_of mem p) = Ok v.
Proof.
  intros (A & B & C & D). apply data_to_total. intros HT. unfold regs_of. rewrite zlen_mem_bytes by exact B.
  unfold size_ok in D. destruct (pt_type (p_type p)); try congruence; lia.
Qed.
Lemma read_sf_point_ok mem addr L q : fits addr L q -> exists q', read_sf_point addr (mem_bytes mem addr L) q = Ok q'.
Proof.
  intros HF. unfold read_sf_point. rewrite (point_data_regs _ _ _ _ HF). destruct (fits_decodes mem _ _ _ HF) as [v E].
  rewrite E. cbn [bind]. eauto.
Qed.
Lemma read_sf_point_spec mem addr L q q' : fits addr L q -> read_sf_point addr (mem_bytes mem addr L) q = Ok q' -> sf_read mem q q'.
Proof.
  intros HF. unfold read_sf_point. rewrite (point_data_regs _ _ _ _ HF). destruct (fits_decodes mem _ _ _ HF) as [v E].
  rewrite E. cbn [bind]. intros H. apply Ok_inj in H. subst q'. split; [unfold same_point; auto|].
  exists v. split; [exact E|reflexivity].
Qed.
Lemma read_point_ok mem addr L own fixed p : fits addr L p -> exists p', read_point own fixed addr (mem_bytes mem addr L) p = Ok p'.
Proof.
  intros HF. unfold read_point. rewrite (point_data_regs _ _ _ _ HF). destruct (fits_decodes mem _ _ _ HF) as [v E].
  rewrite E. cbn [bind]. eauto.
Qed.
Lemma sf_read_find mem id l l' : Forall2 (sf_read mem) l l' -> (exists q, find_point id l = Some q) -> exists q, find_point id l' = Some q.
Proof.
  unfold find_point. induction 1 as [|q q' l l' (HS & _) H IH]; intros (x & HX); [discriminate|]. cbn [find] in *.
  assert (E : p_id q' = p_id q) by (unfold p_id; destruct HS as (-> & _); reflexivity). rewrite E.
  destruct (eqb_list (p_id q) id); [eauto|]. apply IH. eauto.
Qed.
Lemma find_point_some id l q : find_point id l = Some q -> In q l /\ pt_id (p_type q) = id.
Proof. intros H. apply find_some in H as [H1 H2]. split; [exact H1|]. now apply eqb_list_eq in H2. Qed.

Definition link_ok (own fixed : list point) (p : point) : Prop :=
  match p_link p with
  | SfOwn id => exists q, find_point id own = Some q
  | SfFixed id => exists q, find_point id fixed = Some q
  | _ => True
  end.
Lemma read_point_spec mem addr L fixed b' p p' : fits addr L p -> link_ok (b_sfs b') (b_sfs fixed) p ->
  read_point (b_sfs b') (b_sfs fixed) addr (mem_bytes mem addr L) p = Ok p' -> point_read mem fixed b' p p'.
Proof.
  intros HF HL. unfold read_point. rewrite (point_data_regs _ _ _ _ HF). destruct (fits_decodes mem _ _ _ HF) as [v E].
  rewrite E. cbn [bind]. intros H. apply Ok_inj in H. subst p'. unfold point_read. split.
  - unfold same_point. destruct (is_impl _ _); auto.
  - exists v. split; [exact E|]. unfold implemented. destruct (is_impl (pt_type (p_type p)) v); [|split; reflexivity].
    split; [reflexivity|]. unfold with_values. cbn [p_sf]. unfold link_ok in HL. unfold link_value.
    destruct (p_link p) as [|z|id|id].
    + left. split; reflexivity.
    + right. constructor.
    + right. destruct HL as [q HQ]. rewrite HQ. cbn [option_map]. apply find_point_some in HQ as [Q1 Q2]. now constructor.
    + right. destruct HL as [q HQ]. rewrite HQ. cbn [option_map]. apply find_point_some in HQ as [Q1 Q2]. now constructor.
Qed.

(** one block; [fx] are the scale factor points of the fixed block, if it has been read before *)
Definition bfits (addr L : Z) (b : block) : Prop := Forall (fits addr L) (all_points b).
Lemma read_block_spec mem addr L fx b : bfits addr L b ->
  exists b', read_block fx addr (mem_bytes mem addr L) b = (b', Ok tt) /\
    b_addr b' = b_addr b /\ b_len b' = b_len b /\ b_type b' = b_type b /\ b_index b' = b_index b /\
    Forall2 (fun q q' => read_sf_point addr (mem_bytes mem addr L) q = Ok q') (b_sfs b) (b_sfs b') /\
    Forall2 (fun p p' => read_point (b_sfs b') (match fx with Some f => f | None => b_sfs b' end) addr (mem_bytes mem addr L) p = Ok p')
       (b_points b) (b_points b').
Proof.
  intros HF. unfold bfits, all_points in HF. apply Forall_app in HF as [HF1 HF2]. unfold read_block.
  destruct (map_until_ok (read_sf_point addr (mem_bytes mem addr L)) (b_sfs b)) as (sfs & E1 & S1).
  { eapply Forall_impl; [|exact HF2]. intros q HQ. eapply read_sf_point_ok; eauto. }
  rewrite E1.
  destruct (map_until_ok (read_point sfs (match fx with Some f => f | None => sfs end) addr (mem_bytes mem addr L)) (b_points b)) as (pts & E2 & S2).
  { eapply Forall_impl; [|exact HF1]. intros q HQ. eapply read_point_ok; eauto. }
  rewrite E2. eexists. split; [reflexivity|]. cbn [b_addr b_len b_type b_index b_sfs b_points]. auto 10.
Qed.
Lemma read_blocks_rest mem addr L fixed' l :
  Forall (bfits addr L) l ->
  Forall (fun b => Forall (fun p => match p_link p with SfOwn id => exists q, find_point id (b_sfs b) = Some q | SfFixed id => exists q, find_point id (b_sfs fixed') = Some q | _ => True end) (b_points b)) l ->
  exists l', read_blocks (Some (b_sfs fixed')) addr (mem_bytes mem addr L) l = (l', Ok tt) /\ Forall2 (block_read mem fixed') l l'.
Proof.
  induction l as [|b l IH]; intros HF HL; [exists []; split; [reflexivity|constructor]|].
  inversion HF as [|? ? F1 F2]; subst. inversion HL as [|? ? L1 L2]; subst.
  destruct (read_block_spec mem addr L (Some (b_sfs fixed')) b F1) as (b' & E & A1 & A2 & A3 & A4 & A5 & A6).
  destruct (IH F2 L2) as (l' & E' & H'). exists (b' :: l'). cbn [read_blocks]. rewrite E, E'. split; [reflexivity|].
  constructor; [|exact H']. unfold block_read. unfold bfits, all_points in F1. apply Forall_app in F1 as [G1 G2].
  assert (HSF : Forall2 (sf_read mem) (b_sfs b) (b_sfs b')).
  { clear - A5 G2. revert G2. induction A5 as [|x y l l' H1 H2 IH]; intros G; [constructor|]. inversion G; subst.
    constructor; [eapply read_sf_point_spec; eauto|auto]. }
  do 4 (split; [assumption|]). split; [exact HSF|].
  clear - A6 G1 L1 HSF. revert G1 L1. induction A6 as [|x y l l' H1 H2 IH]; intros G L1; [constructor|].
  inversion G; subst. inversion L1 as [|? ? K1 K2]; subst. constructor; [|auto]. eapply read_point_spec; eauto.
  unfold link_ok. destruct (p_link x); auto. eapply sf_read_find; eauto.
Qed.
Lemma read_blocks_spec mem addr L m : placed addr L m ->
  exists l', read_blocks None addr (mem_bytes mem addr L) (md_blocks m) = (l', Ok tt) /\
  exists fixed, hd_error l' = Some fixed /\ Forall2 (block_read mem fixed) (md_blocks m) l'.
Proof.
  intros HP. pose proof (pl_blocks _ _ _ HP) as HN. destruct (md_blocks m) as [|b l] eqn:EB; [congruence|].
  pose proof (pl_links _ _ _ HP _ _ EB) as HL. pose proof (pl_range _ _ _ HP) as HR. rewrite EB in HL, HR.
  assert (HF : Forall (bfits addr L) (b :: l)).
  { rewrite Forall_forall. intros c HC. unfold bfits. rewrite Forall_forall. intros p HPP. exact (HR c p HC HPP). }
  inversion HF as [|? ? F1 F2]; subst.
  destruct (read_block_spec mem addr L None b F1) as (b' & E & A1 & A2 & A3 & A4 & A5 & A6).
  unfold bfits, all_points in F1. apply Forall_app in F1 as [G1 G2].
  assert (HSF : Forall2 (sf_read mem) (b_sfs b) (b_sfs b')).
  { clear - A5 G2. revert G2. induction A5 as [|x y l l' H1 H2 IH]; intros G; [constructor|]. inversion G; subst.
    constructor; [eapply read_sf_point_spec; eauto|auto]. }
  destruct (read_blocks_rest mem addr L b' l F2) as (l' & E' & H').
  { rewrite Forall_forall. intros c HC. rewrite Forall_forall. intros p HPP. specialize (HL c p (or_intror HC) HPP).
    destruct (p_link p); auto. eapply sf_read_find; eauto. }
  exists (b' :: l'). cbn [read_blocks]. rewrite E, E'. split; [reflexivity|]. exists b'. split; [reflexivity|]. constructor; [|exact H'].
  unfold block_read. do 4 (split; [assumption|]). split; [exact HSF|].
  assert (L1 : Forall (fun p => link_ok (b_sfs b') (b_sfs b') p) (b_points b)).
  { rewrite Forall_forall. intros p HPP. specialize (HL b p (or_introl eq_refl) HPP). unfold link_ok. destruct (p_link p); auto; eapply sf_read_find; eauto. }
  clear - A6 G1 L1. revert G1 L1. induction A6 as [|x y l l' H1 H2 IH]; intros G L1; [constructor|].
  inversion G; subst. inversion L1 as [|? ? K1 K2]; subst. constructor; [|auto]. eapply read_point_spec; eauto.
Qed.
Lemma read_points_placed {D} (dv : mdev D) rel lo hi wmax (HI : implements dv rel lo hi wmax) mem addr L m s :
  placed addr L m -> rel s mem -> lo <= addr -> addr + L <= hi -> 0 < L ->
  exists s' bs, read_points dv s m = (s', with_blocks m bs, Ok tt) /\ rel s' mem /\
    read_blocks None addr (mem_bytes mem addr L) (md_blocks m) = (bs, Ok tt).
Proof.
  intros HP HR HL HH HL0. unfold read_points. pose proof (pl_type _ _ _ HP) as HT. destruct (md_type m) as [mt|]; [|congruence].
  destruct (read_model_data_spec dv rel lo hi wmax HI mem addr L m s HP HR HL HH ltac:(lia)) as (s' & E & HR'). rewrite E.
  destruct (read_blocks_spec mem addr L m HP) as (bs & EB & _).
  pose proof (zlen_mem_bytes mem addr L ltac:(lia)) as HZ.
  destruct (mem_bytes mem addr L) as [|x d] eqn:ED; [rewrite zlen_nil in HZ; lia|].
  rewrite (pl_len _ _ _ HP), (pl_addr _ _ _ HP), HZ, Z.eqb_refl, EB. cbn [negb]. exists s', bs. auto.
Qed.
