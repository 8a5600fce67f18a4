(** * C_Report: property C89 — the report of scripts/suns.py. *)
From Coq Require Import String ZifyBool.
From Verif Require Import Py P_List M_Util M_Float M_Suns M_Point M_Mbmap M_Device M_Smdx S_Codec S_Device M_Client S_Client.
From Verif Require Import M_Report S_Report P_Report C_Scale C_Device C_Client.

(** ** C89: if every model has a definition and every value can be computed, the report has one section per model, in
    order, with a heading and exactly one line for every point that has a value, showing that value *)
Theorem C89_report_complete_partial :
  forall E l, Forall (fun m => md_type m <> None /\ showable_model E m) l ->
  exists secs, report E l = (concat secs, Ok tt) /\ Forall2 (section_of E) l secs.
Proof. exact report_spec. Qed.
Print Assumptions C89_report_complete_partial.

(** ** After a successful read of the points only the scale factors can prevent that: points are showable if they are
    unscaled, or no bit fields and their scaled value can be computed *)
Theorem C89_read_models_showable_partial :
  forall E mem m m', (forall a, is_byte (mem a)) -> model_read mem m m' ->
  (forall p, In p (points_of m') -> p_sf p = VNone \/ p_sf p = VInt 0 \/
     (pt_type (p_type p) <> Tbitfield16 /\ pt_type (p_type p) <> Tbitfield32 /\ exists v, value_getter E (p_base p) (p_sf p) = Ok v)) ->
  showable_model E m'.
Proof.
  intros E mem m m' HM (fixed & _ & HB & _) HS. unfold showable_model. apply Forall_forall. intros b Hb. apply Forall_forall. intros p Hp.
  assert (HIN : In p (points_of m')) by (apply in_flat_map; eauto).
  assert (HR : exists p0 b0, point_read mem fixed b0 p0 p).
  { clear -HB Hb Hp. induction HB as [|b0 b1 l l' H1 _ IH]; [contradiction|]. destruct Hb as [->|Hb]; [|auto].
    destruct H1 as (_ & _ & _ & _ & _ & H1). revert Hp. generalize (b_points b0), (b_points b), H1. clear.
    intros x y H. induction H as [|p0 p1 x y H1 _ IH]; [contradiction|]. intros [<-|Hp]; eauto. }
  destruct HR as (p0 & b0 & HSP & v & HD & HI).
  assert (BIT : pt_type (p_type p) = Tbitfield16 \/ pt_type (p_type p) = Tbitfield32 -> p_base p = VNone \/ exists z, p_base p = VInt z /\ 0 <= z).
  { intros HT. destruct (implemented p0 v); [|left; apply HI]. destruct HI as [-> _]. right. unfold decodes in HD.
    destruct HSP as (ET & _). rewrite ET in HT.
    assert (BB : Forall is_byte (regs_of mem p0)).
    { unfold regs_of, mem_bytes. apply Forall_forall. intros x Hx. apply in_map_iff in Hx as (a & <- & _). apply HM. }
    destruct HT as [HT|HT]; rewrite HT in HD; cbn [data_to] in HD; apply bind_ok in HD as (z & HZ & HD); apply Ok_inj in HD; subst v;
      exists z; (split; [reflexivity|]); unfold data_to_u16, data_to_u32, unpack_int in HZ; destruct (_ =? _)%nat in HZ; try discriminate;
      cbn [andb] in HZ; apply Ok_inj in HZ; subst z; apply be_int_bound; exact BB. }
  destruct (HS p HIN) as [E0|[E0|(N1 & N2 & v' & HV)]].
  - exists (p_base p). split; [rewrite E0; reflexivity|exact BIT].
  - exists (p_base p). split; [rewrite E0; reflexivity|exact BIT].
  - exists v'. split; [exact HV|]. intros [K|K]; contradiction.
Qed.
Print Assumptions C89_read_models_showable_partial.

(** ** REFUTED: one model without a definition ends the report there, whatever follows *)
Theorem C89_unknown_model_refuted :
  forall E pre m post secs, report E pre = (secs, Ok tt) -> md_type m = None ->
  report E (pre ++ m :: post) = (secs, Raise EAttr).
Proof.
  intros E pre m post secs H HT. rewrite (report_app E pre (m :: post) secs H). cbn [report]. rewrite HT. now rewrite app_nil_r.
Qed.
Print Assumptions C89_unknown_model_refuted.

(** ** A report that fails shows everything up to the failure *)
Theorem C89_failing_report_partial :
  forall E l ls e, (forall m b p, In m l -> In b (md_blocks m) -> In p (b_points b) -> shown_if_computed E p) -> report E l = (ls, Raise e) -> stopped E l e ls.
Proof.
  intros E l. induction l as [|m l IH]; intros ls e HF H; cbn [report] in H; [apply pair_equal_spec in H as [_ H]; discriminate H|].
  destruct (md_type m) as [t|] eqn:ET.
  - destruct (block_lines E (md_blocks m)) as [ls0 r0] eqn:EB. pose proof (block_lines_prefix E (md_blocks m) ls0 r0) as HB. specialize (HB ltac:(apply Forall_forall; intros b Hb; apply Forall_forall; intros p Hp; apply (HF m b p (or_introl eq_refl) Hb Hp)) EB).
    destruct r0 as [u|e0].
    + destruct (report E l) as [ls1 r1] eqn:ER. apply pair_equal_spec in H as [<- ->]. destruct (IH ls1 e ltac:(intros; eapply HF; eauto; now right) eq_refl) as (pre & m' & post & secs & part & -> & HS & -> & HR).
      exists (m :: pre), m', post, ((model_header t (md_id m) :: ls0) :: secs), part. split; [reflexivity|]. split; [|split; [|exact HR]].
      * constructor; [|exact HS]. exists t, (model_header t (md_id m)), ls0. split; [exact ET|]. split; [reflexivity|]. split; [apply header_ok|exact HB].
      * cbn [concat app]. now rewrite <- app_assoc.
    + apply pair_equal_spec in H as [<- H]. assert (e0 = e) by congruence. subst e0. exists [], m, l, [], (model_header t (md_id m) :: ls0). repeat split; [constructor|]. right.
      destruct HB as (bs1 & b & bs2 & l1 & p & l2 & H1 & H2 & H3 & H4). exists t, (model_header t (md_id m)), ls0, bs1, b, bs2, l1, p, l2. repeat split; auto. apply header_ok.
  - apply pair_equal_spec in H as [<- _]. exists [], m, l, [], []. repeat split; [constructor|]. left. auto.
Qed.
Print Assumptions C89_failing_report_partial.

(** ** Bit fields are shown in hexadecimal, with all their digits *)
Theorem C89_bitfield_digits :
  forall E i p z, p_base p = VInt z -> sf_truthy (p_sf p) = false ->
  forall w, (pt_type (p_type p) = Tbitfield16 /\ w = 4%nat) \/ (pt_type (p_type p) = Tbitfield32 /\ w = 8%nat) -> 0 <= z < 16 ^ Z.of_nat w ->
  exists line before blank d after, point_line E i p = Ok (Some line) /\ line = before ++ blank ++ lit "0x"%string ++ d ++ after /\
    blanks blank /\ blank <> [] /\ numeral 16 d z /\ length d = w /\ hd_error after = Some 32.
Proof.
  intros E i p z HB HS w HW HZ. destruct (hex_fixed w z ltac:(lia) HZ) as [HL HN].
  assert (HT : value_text E (pt_type (p_type p)) (VInt z) = Ok (lit "0x"%string ++ zfill w (hex_nonneg z))).
  { destruct HW as [[-> ->]|[-> ->]]; cbn [value_text format_hex]; replace (z <? 0) with false by lia; reflexivity. }
  unfold point_line, value_getter. rewrite HS, HB. cbn [bind is_none]. rewrite HT. cbn [bind].
  eexists _, (ljust 40 (point_label i (p_type p))), (32 :: repeat 32 (20 - length (lit "0x"%string ++ zfill w (hex_nonneg z)))), (zfill w (hex_nonneg z)), _.
  split; [reflexivity|]. split; [unfold rjust; cbn [app]; rewrite <- !app_assoc; reflexivity|].
  split; [constructor; [now left|apply blanks_repeat]|]. split; [discriminate|]. auto.
Qed.
Print Assumptions C89_bitfield_digits.

(** ** REFUTED: one scale factor register whose power of ten is no float (309 or more) ends it, too *)
Theorem C89_large_scale_refuted :
  forall E index p r z, p_sf p = VInt z -> z <> 0 -> pow10 E z = Raise EOverflow ->
  point_lines E index (p :: r) = ([], Raise EOverflow).
Proof.
  intros E index p r z H1 H2 H3. cbn [point_lines]. unfold point_line, value_getter. rewrite H1. cbn [sf_truthy].
  destruct (Z.eqb_spec z 0); [contradiction|]. cbn [negb math_pow10]. rewrite H3. reflexivity.
Qed.
Print Assumptions C89_large_scale_refuted.

(** non-vacuity: the example model, read from the example memory, is reported with five lines *)
Definition ex_read : model := snd (fst (read_points mem_dev ex_mem ex_model)).
Definition env_rep : pyenv := {|
  float_repr := fun f => match f with S754_finite _ 3 _ => lit "3.0"%string | _ => lit "0.1"%string end;
  float_parse := fun _ => None; pow10 := pow10 env_ex |}.
Definition showableb (E : pyenv) (p : point) : bool :=
  match value_getter E (p_base p) (p_sf p) with
  | Ok v => match pt_type (p_type p), v with
            | Tbitfield16, VInt z | Tbitfield32, VInt z => 0 <=? z
            | Tbitfield16, VNone | Tbitfield32, VNone => true
            | Tbitfield16, _ | Tbitfield32, _ => false
            | _, _ => true
            end
  | Raise _ => false
  end.
Lemma showableb_ok E m : forallb (fun b => forallb (showableb E) (b_points b)) (md_blocks m) = true -> showable_model E m.
Proof.
  intros H. apply Forall_forall. intros b Hb. apply Forall_forall. intros p Hp. rewrite forallb_forall in H. specialize (H b Hb). cbv beta in H.
  rewrite forallb_forall in H. specialize (H p Hp). unfold showableb in H. unfold showable.
  destruct (value_getter E (p_base p) (p_sf p)) as [v|]; [|discriminate]. exists v. split; [reflexivity|].
  intros [K|K]; rewrite K in H; destruct v; try discriminate; auto; right; eexists; split; try reflexivity; lia.
Qed.
Example C89_ex :
  md_type ex_read <> None /\ showable_model env_rep ex_read /\
  fst (report env_rep [ex_read]) = map lit
    ["
model: (100)
"; "      (A):                                                0.1           "]%string ++ tl (tl (fst (report env_rep [ex_read]))) /\
  length (fst (report env_rep [ex_read])) = 6%nat /\ snd (report env_rep [ex_read]) = Ok tt.
Proof.
  split; [vm_compute; discriminate|]. split.
  - apply showableb_ok. vm_compute. reflexivity.
  - vm_compute. auto.
Qed.
Example C89_hex_ex : value_text env_rep Tbitfield16 (VInt 0x1a) = Ok (lit "0x001a"%string) /\
  value_text env_rep Tbitfield32 (VInt 0xdeadbeef) = Ok (lit "0xdeadbeef"%string) /\
  point_label 3 (mkPT (lit "PhV"%string) 0 Tint16 1 [] [] None None (Some (lit "Phase"%string)) None None []) = lit "   03:Phase (PhV):"%string.
Proof. vm_compute. auto. Qed.
Example C89_failing_ex : exists ls, report env_rep [ex_read; new_model 9 0 0] = (ls, Raise EAttr) /\ length ls = length (fst (report env_rep [ex_read])) /\ ls <> [].
Proof. eexists. vm_compute. repeat split. discriminate. Qed.
