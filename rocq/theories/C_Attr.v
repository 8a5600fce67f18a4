(** * C_Attr: the wrapper of a model for any names of points and blocks (C102). *)
From Coq Require Import String.
From Verif Require Import Py P_List M_Util M_Float M_Suns M_Point M_Mbmap M_Device M_Wrapper M_Attr S_Attr P_Attr.

(** For every definition without clashes and every model loaded from it: the wrapper can be made; making it changes nothing in
    the model; reading the attribute of a point gives the value of that point and assigning it assigns the point; model,
    name, read, write and repeating are the wrapper's own; the repeating blocks are found in order under repeating and under
    the name of the block, each with its points as attributes; any other name is an AttributeError. *)
Theorem C102_wrapper_partial E lt t m name : no_clash t -> loaded_from t m ->
  exists o ws, wrap_object E lt t m name = Ok o /\ mo_model o = m /\
    (forall i, In i (fixed_ids t) ->
       m_getattr E o i = (let! v := get_in E (model_points m) i in Ok (AVal v)) /\
       forall v, match wmodel_set E m i v with
                 | Ok m' => exists o', m_setattr E lt o i (AVal v) = Ok o' /\ mo_model o' = m'
                 | Raise e => m_setattr E lt o i (AVal v) = Raise e
                 end) /\
    m_getattr E o (lit "model"%string) = Ok AObject /\ m_getattr E o (lit "name"%string) = Ok (AVal (VStr name)) /\
    m_getattr E o (lit "read"%string) = Ok (AMethod (lit "read"%string)) /\
    m_getattr E o (lit "write"%string) = Ok (AMethod (lit "write"%string)) /\
    m_getattr E o (lit "repeating"%string) = Ok AList /\
    (forall b n, In b (tl (md_blocks m)) -> bt_name (b_type b) = Some n -> m_getattr E o n = Ok AList) /\
    mo_list o = None :: map Some ws /\ map bo_block ws = tl (md_blocks m) /\
    (forall w, In w ws ->
       (forall i, In i (rep_ids t) -> b_getattr E w i = (let! v := get_in E (b_points (bo_block w)) i in Ok (AVal v))) /\
       b_getattr E w (lit "name"%string) = Ok (name_val (bt_name (b_type (bo_block w)))) /\
       b_getattr E w (lit "points"%string) = Ok APoints /\
       forall k, ~ In k (rep_ids t) -> ~ In k block_names -> b_getattr E w k = Raise EAttr) /\
    m_getattr E o (lit "points"%string) = Ok APoints /\
    (forall k, ~ In k (fixed_ids t) -> ~ In k model_names -> (forall b, In b (tl (md_blocks m)) -> bt_name (b_type b) <> Some k) -> m_getattr E o k = Raise EAttr).
Proof.
  intros (HF & HR & HN) HL. unfold wrap_object. fold (fixed_ids t).
  rewrite class_props_ok by (cbn [app]; intros HI; apply (HF _ HI); cbn; auto 10). cbn [app bind].
  assert (HC : (match mt_rep t with Some b => let! p := class_props [] (property_ids (bt_points b)) in Ok (Some p) | None => Ok None end)
               = Ok (match mt_rep t with Some b => Some (rep_ids t) | None => None end)).
  { unfold rep_ids. destruct (mt_rep t) as [b|] eqn:ET; [|reflexivity].
    rewrite class_props_ok; [reflexivity|]. cbn [app]. intros HI. apply (HR (lit "points"%string)); [unfold rep_ids; now rewrite ET|cbn; auto]. }
  rewrite HC. cbn [bind]. clear HC.
  assert (HM : forall k, In k model_names -> ~ In k (fixed_ids t)) by (intros k HK HI; exact (HF _ HI HK)).
  assert (HS : exists d ws, m_init E lt (fixed_ids t) (match mt_rep t with Some b => Some (rep_ids t) | None => None end) m name =
                Ok (mkMO (fixed_ids t) d m (None :: map Some ws)) /\ dict_ok name d /\
                (forall b n, In b (tl (md_blocks m)) -> bt_name (b_type b) = Some n -> ~ In n (fixed_ids t) /\ dget n d = Some AList) /\
                map bo_block ws = tl (md_blocks m) /\
                (forall k, ~ In k set_names -> (forall b, In b (tl (md_blocks m)) -> bt_name (b_type b) <> Some k) -> dget k d = None) /\
                (forall w, In w ws -> w = plain_bobj (rep_ids t) (bo_block w) (name_val (bt_name (b_type (bo_block w)))))).
  { assert (HL' : Forall (fun c => mt_rep t = Some (b_type c) /\ exists n, bt_name (b_type c) = Some n) (tl (md_blocks m))).
    { unfold loaded_from in HL. destruct (md_blocks m); [constructor|exact HL]. }
    destruct (tl (md_blocks m)) as [|b r] eqn:EB.
    - rewrite m_init_start by exact HF. rewrite EB. exists (start_dict name), []. cbn [m_blocks map].
      split; [reflexivity|]. split; [apply start_ok|]. split; [intros ? ? []|]. split; [reflexivity|]. split; [intros k HK _; now apply start_none|]. intros ? [].
    - pose proof (Forall_inv HL') as (EM & n & EN). rewrite EM.
      assert (HB : Forall (fun c => bt_name (b_type c) = Some n) (tl (md_blocks m))).
      { rewrite EB. eapply Forall_impl; [|exact HL']. intros c (E1 & _). rewrite EM in E1. apply Some_inj in E1. now rewrite <- E1. }
      destruct (init_shape E lt (fixed_ids t) (rep_ids t) m name n HF HR HB (HN _ _ EM EN)) as (d & E1 & E2 & E3 & E3').
      exists d, (map (fun b => plain_bobj (rep_ids t) b (AVal (VStr n))) (tl (md_blocks m))). rewrite E1, map_map, EB.
      split; [reflexivity|]. split; [exact E2|]. rewrite EB in HB, E3, E3'. split; [|split; [|split] ].
      + intros c k HI HK. rewrite Forall_forall in HB. rewrite (HB c HI) in HK. apply Some_inj in HK. subst k. split; [|apply E3; discriminate].
        destruct (HN _ _ EM EN) as [->|[_ X]]; [apply HM; cbn; auto|exact X].
      + rewrite map_map. cbn [plain_bobj bo_block]. apply map_id.
      + intros k HK HX. apply E3'; [|exact HK]. right. intros ->. inversion HB as [|? ? HB1 _]; subst. exact (HX b (or_introl eq_refl) HB1).
      + intros w HI. apply in_map_iff in HI as (c & <- & HI). cbn [plain_bobj bo_block]. rewrite Forall_forall in HB. rewrite (HB c HI). reflexivity. }
  destruct HS as (d & ws & E1 & (D1 & D2 & D3 & D4) & E3 & E4 & E6 & E5). rewrite E1.
  exists (mkMO (fixed_ids t) d m (None :: map Some ws)), ws. split; [reflexivity|]. split; [reflexivity|].
  rewrite Forall_forall in D4.
  split.
  { intros i HI. split.
    - rewrite m_getattr_prop; auto; apply HM; cbn; auto 10.
    - intros v. unfold m_setattr. cbn [mo_props]. rewrite (proj2 (mem_str_In _ _) HI).
      rewrite m_getattr_method by (try (apply HM; cbn; auto 10); try (cbn; auto); apply D4; cbn; auto). cbn [bind].
      rewrite (m_getattr_dict _ _ _ AObject) by (try (apply HM; cbn; auto 10); exact D1). cbn [bind mo_list mo_model mo_dict].
      rewrite m_assign_val. destruct (wmodel_set E m i v); cbn [bind]; [|reflexivity]. eexists. split; reflexivity. }
  split; [apply m_getattr_dict; [apply HM; cbn; auto 10|exact D1]|].
  split; [apply m_getattr_dict; [apply HM; cbn; auto 10|exact D2]|].
  split; [apply m_getattr_method; [apply HM; cbn; auto 10|apply D4; cbn; auto|cbn; auto]|].
  split; [apply m_getattr_method; [apply HM; cbn; auto 10|apply D4; cbn; auto|cbn; auto]|].
  split; [apply m_getattr_dict; [apply HM; cbn; auto 10|exact D3]|].
  split; [intros b n HI HK; destruct (E3 b n HI HK); now apply m_getattr_dict|].
  split; [reflexivity|]. split; [exact E4|].
  assert (EL : forall l k, ~ In k (map lit l) -> forall s, In s l -> eqb_list k (lit s) = false).
  { intros l k HK s Hs. apply eqb_list_neq. intros ->. apply HK. now apply in_map. }
  assert (SN : forall k, ~ In k model_names -> ~ In k set_names).
  { intros k HK HI. apply HK. unfold model_names, set_names in *. cbn [map In] in *. tauto. }
  split; [|split].
  2:{ unfold m_getattr. cbn [mo_props mo_dict]. rewrite (proj2 (mem_str_false _ _)) by (apply HM; cbn; auto 10).
      assert (NP : dget (lit "points"%string) d = None).
      { apply E6.
        - unfold set_names. cbn [map In]. intros HI. repeat (destruct HI as [HI|HI]; [vm_compute in HI; discriminate|]). exact HI.
        - intros b HI HK. destruct (E3 b _ HI HK) as [_ X]. unfold loaded_from in HL. destruct (md_blocks m) as [|b0 r0]; [destruct HI|]. cbn [tl] in HI.
          rewrite Forall_forall in HL. destruct (HL b HI) as (ER & _). destruct (HN _ _ ER HK) as [Y|[Y _]]; [vm_compute in Y; discriminate|]. apply Y. cbn. auto 10. }
      rewrite NP. reflexivity. }
  2:{ intros k H1 H2 H3. unfold m_getattr. cbn [mo_props mo_dict]. rewrite (proj2 (mem_str_false _ _)) by exact H1. rewrite E6 by auto.
      rewrite (proj2 (mem_str_false _ _)) by (intros HI; apply H2; unfold model_methods, model_names in *; cbn [map In] in *; tauto).
      rewrite (EL _ _ H2 "points"%string) by (cbn; auto 10). reflexivity. }
  intros w HI. pose proof (E5 w HI) as EW. split; [|split; [|split] ].
  - intros i Hi. rewrite EW. cbn [plain_bobj bo_block]. apply b_getattr_plain; [exact HR|exact Hi].
  - rewrite EW. unfold b_getattr. cbn [plain_bobj bo_props bo_dict bo_block].
    rewrite (proj2 (mem_str_false _ _)) by (intros X; apply (HR _ X); cbn; auto). reflexivity.
  - rewrite EW. unfold b_getattr. cbn [plain_bobj bo_props bo_dict bo_block].
    rewrite (proj2 (mem_str_false _ _)) by (intros X; apply (HR _ X); cbn; auto). reflexivity.
  - intros k H1 H2. rewrite EW. unfold b_getattr. cbn [plain_bobj bo_props bo_dict bo_block]. rewrite (proj2 (mem_str_false _ _)) by exact H1.
    cbn [dget]. repeat match goal with |- context [eqb_list ?a ?b] => let X := fresh in destruct (eqb_list a b) eqn:X;
      [apply eqb_list_eq in X; exfalso; apply H2; try (rewrite <- X); try (rewrite X); unfold block_names; cbn [map In]; auto 10|] end.
    rewrite (proj2 (mem_str_false _ _)) by (intros HX; apply H2; unfold block_methods, block_names in *; cbn [map In] in *; tauto). reflexivity.
Qed.

Definition xE : pyenv := {| float_repr := fun _ => []; float_parse := fun _ => None; pow10 := fun _ => Raise EType |}.
Definition xlt (n : nat) : str := lit "[None]"%string.
Definition xp (id : string) (t : ptype) : pointtype := mkPT (lit id) 0 t 1 (lit "false"%string) (lit "r"%string) None None None None None [].
Definition xrep (n : string) (l : list pointtype) : blocktype := mkBT Repeating (BStr (lit "1"%string)) (Some (lit n)) l.
Definition xtype (l : list pointtype) (r : option blocktype) : modeltype :=
  mkMT 0 (Some 160) (Some 1) (Some (lit "mppt"%string)) None None None (mkBT Fixed (BStr (lit "1"%string)) (Some (lit "fixed"%string)) l) r [].
Definition xpoint (t : pointtype) (v : value) : point := mkP t 100 SfNone true v VNone false.
Definition xmodel (t : modeltype) (l : list point) (r : list block) : model :=
  mkModel 160 (BInt 1) (Some t) 100 3 true (mkB 100 1 (mt_fixed t) 0 l [] :: r) [100] None.
Definition xblock (b : blocktype) (k : Z) (l : list point) : block := mkB (100 + k) 1 b k l [].
(** a definition with a repeating block called 'string', and a model with two of them *)
Definition x1 : modeltype := xtype [xp "A" Tuint16; xp "A_SF" Tsunssf] (Some (xrep "string" [xp "S" Tuint16])).
Definition x1m : model :=
  xmodel x1 [xpoint (xp "A" Tuint16) (VInt 7)]
         [xblock (xrep "string" [xp "S" Tuint16]) 1 [xpoint (xp "S" Tuint16) (VInt 1)]; xblock (xrep "string" [xp "S" Tuint16]) 2 [xpoint (xp "S" Tuint16) (VInt 2)]].
Example C102_wrapper_case : no_clash x1 /\ loaded_from x1 x1m.
Proof.
  split; [|repeat constructor; eexists; reflexivity]. split; [|split].
  - intros i [<-|[]] HI. apply in_map_iff in HI as (k & HK & HI). repeat destruct HI as [<-|HI]; try destruct HI; vm_compute in HK; discriminate.
  - intros i [<-|[]] HI. apply in_map_iff in HI as (k & HK & HI). repeat destruct HI as [<-|HI]; try destruct HI; vm_compute in HK; discriminate.
  - intros b n HB HNm. apply Some_inj in HB. subst b. apply Some_inj in HNm. subst n. right. split.
    + intros HI. apply in_map_iff in HI as (k & HK & HI). repeat destruct HI as [<-|HI]; try destruct HI; vm_compute in HK; discriminate.
    + intros [HK|[]]. vm_compute in HK. discriminate.
Qed.
Example C102_wrapper_example : exists o w1 w2, wrap_object xE xlt x1 x1m (lit "mppt"%string) = Ok o /\ mo_list o = [None; Some w1; Some w2] /\
  m_getattr xE o (lit "A"%string) = Ok (AVal (VInt 7)) /\ m_getattr xE o (lit "string"%string) = Ok AList /\
  b_getattr xE w2 (lit "S"%string) = Ok (AVal (VInt 2)) /\ m_getattr xE o (lit "A_SF"%string) = Raise EAttr.
Proof. do 3 eexists. split; [vm_compute; reflexivity|]. repeat split. Qed.

(** A point called "points", in the fixed or in the repeating block: no wrapper can be made (AttributeError). *)
Theorem C102_points_refuted E lt t m name : In (lit "points"%string) (fixed_ids t) \/ (~ In (lit "points"%string) (fixed_ids t) /\ In (lit "points"%string) (rep_ids t)) ->
  wrap_object E lt t m name = Raise EAttr.
Proof.
  unfold wrap_object. fold (fixed_ids t). intros [H|[H1 H2]]; [now rewrite class_props_clash|].
  rewrite class_props_ok by exact H1. cbn [bind]. unfold rep_ids in H2. destruct (mt_rep t); [|destruct H2].
  now rewrite class_props_clash.
Qed.
Example C102_points_case : In (lit "points"%string) (fixed_ids (xtype [xp "points" Tuint16] None)).
Proof. left. reflexivity. Qed.

(** A point called "model": the first assignment calls itself without end (RecursionError). *)
Theorem C102_model_refuted E lt t m name : In (lit "model"%string) (fixed_ids t) ->
  (forall i, In i (fixed_ids t) -> i <> lit "points"%string /\ i <> lit "_set_property"%string) -> ~ In (lit "points"%string) (rep_ids t) ->
  wrap_object E lt t m name = Raise EFuel.
Proof.
  intros H HX HR. unfold wrap_object. fold (fixed_ids t).
  rewrite class_props_ok by (cbn [app]; intros HI; apply HX in HI as [HI _]; congruence). cbn [app bind].
  assert (HC : exists c, (match mt_rep t with Some b => let! p := class_props [] (property_ids (bt_points b)) in Ok (Some p) | None => Ok None end) = Ok c).
  { unfold rep_ids in HR. destruct (mt_rep t) as [b|]; [|eexists; reflexivity]. rewrite class_props_ok by exact HR. eexists. reflexivity. }
  destruct HC as [c ->]. cbn [bind]. unfold m_init, m_setattr at 1. cbn [mo_props]. rewrite (proj2 (mem_str_In _ _) H).
  rewrite m_getattr_method; cbn [mo_props mo_dict]; [|intros HI; apply HX in HI as [_ HI]; congruence|reflexivity|cbn; auto].
  cbn [bind]. unfold m_getattr. cbn [mo_props]. rewrite (proj2 (mem_str_In _ _) H), orb_true_r. reflexivity.
Qed.
Example C102_model_case : exists t, In (lit "model"%string) (fixed_ids t) /\
  (forall i, In i (fixed_ids t) -> i <> lit "points"%string /\ i <> lit "_set_property"%string) /\ ~ In (lit "points"%string) (rep_ids t).
Proof.
  exists (xtype [xp "model" Tuint16] None). split; [left; reflexivity|]. split; [|intros []].
  intros i [<-|[]]. split; apply eqb_list_neq; reflexivity.
Qed.

(** A string point called "name": making the wrapper assigns the name of the model to it — the device said "inv-7" — and marks
    it as modified, so that the next write() of the model sends it to the device. *)
Definition x2 : modeltype := xtype [xp "A" Tuint16; xp "name" Tstring] None.
Definition x2m : model := xmodel x2 [xpoint (xp "A" Tuint16) (VInt 7); xpoint (xp "name" Tstring) (VStr (lit "inv-7"%string))] [].
Theorem C102_name_refuted : exists o, wrap_object xE xlt x2 x2m (lit "mppt"%string) = Ok o /\
  map p_base (model_points x2m) = [VInt 7; VStr (lit "inv-7"%string)] /\
  map p_base (model_points (mo_model o)) = [VInt 7; VStr (lit "mppt"%string)] /\
  map p_dirty (model_points x2m) = [false; false] /\ map p_dirty (model_points (mo_model o)) = [false; true].
Proof. eexists. split; [vm_compute; reflexivity|]. repeat split. Qed.
(** A number called "name": the wrapper of the model cannot be made (ValueError). *)
Theorem C102_name_number_refuted : exists e,
  wrap_object xE xlt (xtype [xp "name" Tuint16] None) (xmodel (xtype [xp "name" Tuint16] None) [xpoint (xp "name" Tuint16) (VInt 7)] [])
              (lit "mppt"%string) = Raise e.
Proof. eexists. vm_compute. reflexivity. Qed.

(** A point called "read" or "write": the method is gone, the attribute is the value of the point. *)
Definition x3 : modeltype := xtype [xp "read" Tuint16] None.
Definition x3m : model := xmodel x3 [xpoint (xp "read" Tuint16) (VInt 7)] [].
Theorem C102_read_refuted : exists o, wrap_object xE xlt x3 x3m (lit "mppt"%string) = Ok o /\
  m_getattr xE o (lit "read"%string) = Ok (AVal (VInt 7)) /\ m_getattr xE o (lit "write"%string) = Ok (AMethod (lit "write"%string)).
Proof. eexists. split; [vm_compute; reflexivity|]. split; reflexivity. Qed.

(** A repeating block called like a string point: the text of the list becomes the value of the point; called "model": no
    point can be read any more; called "read": the list hides the method. *)
Definition x4 (n : string) (l : list pointtype) : modeltype := xtype l (Some (xrep n [xp "S" Tuint16])).
Definition x4m (n : string) (l : list pointtype) (v : value) : model :=
  xmodel (x4 n l) (map (fun p => xpoint p v) l) [xblock (xrep n [xp "S" Tuint16]) 1 [xpoint (xp "S" Tuint16) (VInt 1)]].
Theorem C102_block_name_refuted :
  (exists o, wrap_object xE xlt (x4 "Nam" [xp "Nam" Tstring]) (x4m "Nam" [xp "Nam" Tstring] (VStr (lit "inv-7"%string))) (lit "mppt"%string) = Ok o /\
     map p_base (model_points (mo_model o)) = [VStr (xlt 1)] /\ map p_dirty (model_points (mo_model o)) = [true]) /\
  (exists o, wrap_object xE xlt (x4 "model" [xp "A" Tuint16]) (x4m "model" [xp "A" Tuint16] (VInt 7)) (lit "mppt"%string) = Ok o /\
     m_getattr xE o (lit "A"%string) = Raise EAttr) /\
  (exists o, wrap_object xE xlt (x4 "read" [xp "A" Tuint16]) (x4m "read" [xp "A" Tuint16] (VInt 7)) (lit "mppt"%string) = Ok o /\
     m_getattr xE o (lit "read"%string) = Ok AList).
Proof. split; [|split]; eexists; (split; [vm_compute; reflexivity|]); try split; reflexivity. Qed.

(** A string point called "repeating" in a model with repeating blocks: the wrapper cannot be made (AttributeError: the list of the
    blocks is stored as the value of the point). *)
Theorem C102_repeating_refuted :
  wrap_object xE xlt (x4 "repeating" [xp "repeating" Tstring]) (x4m "repeating" [xp "repeating" Tstring] (VStr (lit "inv-7"%string))) (lit "mppt"%string) = Raise EAttr.
Proof. vm_compute. reflexivity. Qed.
Print Assumptions C102_repeating_refuted.

Print Assumptions C102_wrapper_partial.
Print Assumptions C102_points_refuted.
Print Assumptions C102_model_refuted.
Print Assumptions C102_name_refuted.
Print Assumptions C102_name_number_refuted.
Print Assumptions C102_read_refuted.
Print Assumptions C102_block_name_refuted.

(** A definition without a repeating block does not fit a model that has some (it was changed since the model was loaded):
    whatever the names, the wrapper cannot be made. *)
Theorem C102_no_repeating_class E lt t m name o : mt_rep t = None -> tl (md_blocks m) <> [] -> wrap_object E lt t m name <> Ok o.
Proof.
  intros HR HB H. unfold wrap_object in H. rewrite HR in H. apply bind_ok in H as (props & _ & H). cbn [bind] in H. unfold m_init in H.
  apply bind_ok in H as (o1 & _ & H). apply bind_ok in H as (o2 & _ & H). apply bind_ok in H as (o3 & _ & H). apply bind_ok in H as (o4 & _ & H).
  destruct (tl (md_blocks m)) as [|b r]; [congruence|]. cbn [m_blocks] in H. apply bind_ok in H as (o5 & H & _). unfold m_block in H.
  apply bind_ok in H as (x1 & _ & H). apply bind_ok in H as (x2 & _ & H). apply bind_ok in H as (x3 & _ & H). discriminate H.
Qed.
Example C102_no_repeating_case : mt_rep x2 = None /\ tl (md_blocks x1m) <> [].
Proof. split; [reflexivity|discriminate]. Qed.
Print Assumptions C102_no_repeating_class.
