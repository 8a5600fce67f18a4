(** * P_PicsDevice: writing a device to PICS and loading it. *)
From Coq Require Import String ZifyBool.
From Verif Require Import Py P_List M_Util M_Float M_Suns M_Point M_Xml M_Mbmap M_Device M_Client M_Scan M_Pics S_Codec S_Device P_IntText P_Device S_Pics P_Pics P_PicsLoad P_PicsModel.

Lemma model_load_addr fuel types m n r : model_load fuel types m = (n, r) -> md_addr n = md_addr m /\ md_index n = md_index m /\ md_id n = md_id m.
Proof.
  unfold model_load. destruct (types (md_id m)) as [mt|]; [|intros H; apply pair_equal_spec in H as [<- _]; auto].
  destruct (if md_len m =? 0 then mt_len mt else Some (md_len m)); [|intros H; apply pair_equal_spec in H as [<- _]; auto].
  destruct (base_int (bt_len (mt_fixed mt))); [|intros H; apply pair_equal_spec in H as [<- _]; auto].
  destruct (load_loop _ _ _ _ _ _ _ _ _ _) as [[bl rd] r0]. intros H. apply pair_equal_spec in H as [<- _]. auto.
Qed.

Lemma model_elem_attrs E single m e : model_to_pics E single m = Ok e ->
  x_tag e = PICS_MODEL /\ x_get PICS_ID e = Some (str_of_int (md_id m)) /\ x_get PICS_LEN e = Some (str_of_int (md_len m)) /\
  match x_get PICS_INDEX e with Some s => s = index_text (md_index m) | None => md_index m = BInt 1 end /\
  blocks_to_pics E single (md_blocks m) = Ok (x_children e).
Proof.
  unfold model_to_pics. intros H. apply bind_ok in H as (es & HE & H). apply Ok_inj in H. subst e. unfold x_get. cbn [x_tag x_attrs x_children].
  split; [reflexivity|]. split; [reflexivity|]. split; [reflexivity|]. split; [|exact HE]. unfold model_attrs.
  destruct (md_index m) as [z|s]; [destruct (Z.eqb_spec z 1) as [->|]|]; reflexivity.
Qed.

Lemma device_elem_roundtrip E fuel types single m e l addr :
  instance_of E fuel types m -> no_gaps m -> (single = true -> Forall (fun b => b_index b <= 1) (md_blocks m)) ->
  model_to_pics E single m = Ok e ->
  exists n, device_elem E fuel types l addr e = (l ++ [n], Ok (addr + (md_len n + 2))) /\ restored_model m n /\ md_addr n = addr + 2.
Proof.
  intros HI HG HS HE. destruct (model_elem_attrs _ _ _ _ HE) as (A1 & A2 & A3 & A4 & A5). unfold device_elem.
  rewrite A1, eqb_list_refl, A2, A3, !int_of_str_roundtrip. cbn [negb].
  destruct HI as [a len m0 t HT HB HL HLEN HSB HV|x HT HX HBL].
  - destruct (model_load_len _ _ _ _ _ _ HL) as [HL1 HL2]. rewrite <- HLEN in HL1.
    destruct (model_load_shift fuel types (md_id m) a (addr + 2 - a) (md_len m) m0 (Ok tt) HL1) as (n0 & N1 & N2 & N3 & N4 & N5 & N6).
    replace (a + (addr + 2 - a)) with (addr + 2) in N1 by lia. rewrite N1.
    destruct (loaded_facts _ _ _ _ _ _ _ N1 HT HB) as (c0 & cr & rt & L1 & L2).
    pose proof (model_load_addr _ _ _ _ _ N1) as (M1 & M2 & M3). cbn [new_model md_addr md_index md_id] in M1, M2, M3.
    assert (HSS : Forall2 same_block (md_blocks m) (md_blocks n0)).
    { rewrite N2. clear -HSB. induction HSB as [|b c l l' H _ IH]; cbn [map]; constructor; [|exact IH]. apply (same_trans _ b); [apply same_sym; exact H|apply shift_same]. }
    destruct (model_roundtrip E single m (x_children e) (md_blocks n0) rt t HS HV HG) as (ds & D1 & D2).
    { exists c0, cr. split; [exact L1|exact L2]. }
    { exact HSS. }
    { exact A5. }
    unfold model_from_pics. cbn [with_index md_blocks]. rewrite D1.
    assert (HTY : md_type n0 = Some t).
    { rewrite N5. unfold model_load, new_model in HL. cbn [md_id md_len md_addr md_blocks md_reads md_exposed md_error md_index] in HL. rewrite HT in HL.
      destruct (if len =? 0 then mt_len t else Some len); [|discriminate]. destruct (base_int (bt_len (mt_fixed t))); [|discriminate].
      destruct (load_loop _ _ _ _ _ _ _ _ _ _) as [[bl rd] r0]. apply pair_equal_spec in HL as [<- _]. reflexivity. }
    cbn [with_blocks with_index md_type md_len]. rewrite HTY.
    replace ((md_len m =? 0) && match mt_len t with None => true | _ => false end) with false.
    2:{ destruct (Z.eqb_spec (md_len m) 0) as [EZ|]; [|reflexivity]. specialize (HL2 ltac:(lia) t HT). destruct (mt_len t); [reflexivity|congruence]. }
    match goal with |- context [l ++ [?X]] => exists X end. split; [reflexivity|]. cbn [md_addr]. split; [|exact M1]. unfold restored_model. cbn [with_blocks with_index md_id md_len md_index md_blocks].
    split; [exact M3|]. split; [lia|]. split; [|exact D2].
    destruct (x_get PICS_INDEX e) as [s|]; [subst s; reflexivity|]. rewrite M2, A4. reflexivity.
  - unfold model_load, new_model. cbn [md_id md_len md_addr md_blocks md_reads md_exposed md_error md_index]. rewrite HT.
    rewrite HBL in A5. cbn [blocks_to_pics] in A5. apply Ok_inj in A5.
    assert (HF : forall (y : model), md_blocks y = [] -> md_type y = None -> md_len y = md_len m -> md_id y = md_id m -> md_addr y = addr + 2 -> md_index y = BInt 1 ->
      exists n, (match model_from_pics E y e with
              | (_, Raise x) => (l, Raise x)
              | (m2, Ok _) =>
                let l' := l ++ [m2] in
                match md_type m2 with
                | Some t => if (md_len m =? 0) && match mt_len t with None => true | _ => false end
                            then (l', Raise EType)
                            else (l', Ok (addr + (md_len m2 + 2)))
                | None => (l', Ok (addr + (md_len m2 + 2)))
                end
              end) = (l ++ [n], Ok (addr + (md_len n + 2))) /\ restored_model m n /\ md_addr n = addr + 2).
    { intros y Y1 Y2 Y3 Y4 Y5 Y6. unfold model_from_pics. rewrite <- A5. cbn [model_elems with_index md_blocks with_blocks md_type]. rewrite Y2.
      match goal with |- context [l ++ [?X]] => exists X end. split; [reflexivity|]. split; [|exact Y5]. unfold restored_model. cbn [with_blocks with_index md_id md_len md_index md_blocks].
      split; [exact Y4|]. split; [exact Y3|]. split; [|rewrite HBL, Y1; constructor].
      destruct (x_get PICS_INDEX e) as [s|]; [subst s; reflexivity|]. rewrite Y6, A4. reflexivity. }
    destruct x; try congruence; apply HF; reflexivity.
Qed.

Lemma device_elems_roundtrip E fuel types single ms : forall es l addr,
  Forall (instance_of E fuel types) ms -> Forall no_gaps ms -> (single = true -> Forall (fun m => Forall (fun b => b_index b <= 1) (md_blocks m)) ms) ->
  models_to_pics E single ms = Ok es ->
  exists ns, device_elems E fuel types l addr es = (l ++ ns, Ok tt) /\ Forall2 restored_model ms ns /\ placed addr ns.
Proof.
  induction ms as [|m ms IH]; intros es l addr HI HG HS HE; cbn [models_to_pics] in HE.
  - apply Ok_inj in HE. subst es. exists []. cbn [device_elems]. rewrite app_nil_r. split; [reflexivity|]. split; [constructor|exact I].
  - apply bind_ok in HE as (e & HE1 & HE). apply bind_ok in HE as (es' & HE2 & HE). apply Ok_inj in HE. subst es. cbn [device_elems].
    destruct (device_elem_roundtrip E fuel types single m e l addr (Forall_inv HI) (Forall_inv HG) (fun X => Forall_inv (HS X)) HE1) as (n & N1 & N2 & N3). rewrite N1.
    destruct (IH es' (l ++ [n]) (addr + (md_len n + 2)) (Forall_inv_tail HI) (Forall_inv_tail HG) (fun X => Forall_inv_tail (HS X)) HE2) as (ns & M1 & M2 & M3).
    exists (n :: ns). rewrite M1, <- app_assoc. split; [reflexivity|]. split; [constructor; assumption|]. cbn [placed]. split; [exact N3|].
    replace (addr + 2 + md_len n) with (addr + (md_len n + 2)) by lia. exact M3.
Qed.

Lemma instance_index E fuel types m : instance_of E fuel types m -> forall k b, nth_error (md_blocks m) k = Some b -> b_index b = Z.of_nat k.
Proof.
  intros [a len m0 t HT HB HL HLEN HSB HV|x HT HX HBL] k b Hk; [|rewrite HBL in Hk; destruct k; discriminate].
  destruct (loaded_facts _ _ _ _ _ _ _ HL HT HB) as (c0 & cr & rt & L1 & (_ & _ & L3 & _) & _ & L4 & _).
  destruct (nth_error (md_blocks m0) k) as [c|] eqn:EK.
  - pose proof (Forall2_nth _ _ _ HSB k c b EK Hk) as (_ & _ & X & _). rewrite X. rewrite L1 in EK. destruct k as [|k]; cbn [nth_error] in EK.
    + apply Some_inj in EK. subst c. exact L3.
    + destruct (L4 k c EK) as (_ & _ & Y & _). exact Y.
  - exfalso. apply nth_error_None in EK. apply Forall2_length in HSB. assert (nth_error (md_blocks m) k <> None) as HN by congruence. apply nth_error_Some in HN. lia.
Qed.
