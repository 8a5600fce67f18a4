(** * C_MbmapEq: property C93: a Modbus map compared with the map loaded from its document. *)
From Coq Require Import String.
From Verif Require Import Py P_List M_Util M_Suns P_IntText M_Xml M_Mbmap S_Mbmap P_Mbmap C_Mbmap.

(** saved and loaded, a map (with whole register blocks) compares equal exactly if it was itself loaded from a document that gives its address, and
    has no register blocks but readable ones *)
Theorem C93_answer_partial :
  forall E func base m0 m, new_map func base = Ok m0 -> whole (m_regs m) -> Forall (fun g => 0 < num2 (g_count g)) (m_regs m) ->
  m_func m = 3 \/ m_func m = 4 ->
  exists x m' diff, map_to_xml m = Ok x /\ map_from_xml E m0 x = (m', Ok tt) /\ map_not_equal m m' = Ok diff /\
    (diff = false <-> (exists s, m_base m = BStr s) /\ Forall (fun g => g_access g = lit "r"%string) (m_regs m)).
Proof.
  intros E func base m0 m H0 HW HP HF.
  destruct (C19_roundtrip_partial E func base m0 m H0 HW HP HF) as (x & m' & X1 & X2 & X3 & _ & _ & _ & _ & _ & X9 & _).
  assert (HW' : whole (m_regs m')).
  { rewrite X9. destruct HW as [W1 W2]. split; [destruct W1 as [A1 A2]; split|].
    - clear -A1. induction A1 as [|g l H _ IH]; cbn [map]; constructor; [|exact IH]. clear -H. induction H; cbn [map]; constructor; auto.
    - clear -A2. induction A2; cbn [map]; constructor; auto.
    - clear -W2. induction W2 as [|g l (o & c & d & H) _ IH]; cbn [map]; constructor; [|exact IH]. exists o, c, d. exact H. }
  assert (HB : m_base m' = BStr match m_base m with BInt z => str_of_int z | BStr s => s end).
  { unfold map_to_xml in X1. apply bind_ok in X1 as (cs & _ & X1). apply Ok_inj in X1. subst x. unfold map_from_xml in X2. destruct (func_value _); [|discriminate].
    destruct (load_regs _ _ _ _) as [l r]. apply pair_equal_spec in X2 as [<- _]. reflexivity. }
  destruct (C69_equal_iff_no_difference m m' HW HW') as [N1 [d N2]]. exists x, m', d. split; [exact X1|]. split; [exact X2|]. split; [exact N2|].
  assert (HD : d = false <-> map_not_equal m m' = Ok false) by (rewrite N2; split; [congruence|apply Ok_inj]). rewrite HD, N1, HB, X3, X9. split.
  - intros (B & _ & R). split; [eauto|]. clear -R. induction (m_regs m) as [|g l IH]; constructor; cbn [map] in R.
    + assert (H := f_equal (fun l => match l with h :: _ => g_access h | [] => [] end) R). exact H.
    + apply IH. exact (f_equal (fun l => match l with _ :: t => t | [] => [] end) R).
  - intros [[s HS] HA]. rewrite HS. split; [reflexivity|]. split; [reflexivity|]. clear -HA. induction HA as [|[o c d a] l H _ IH]; [reflexivity|]. cbn [map g_offset g_count g_data]. cbn [g_access] in H. subst a. f_equal. exact IH.
Qed.
Print Assumptions C93_answer_partial.

(** REFUTED in general: a map made with an address, such as ModbusMap(base_addr=40000), always differs from its saved copy: the loaded address is a text. *)
Theorem C93_int_base_refuted :
  forall E func base m0 m z, new_map func base = Ok m0 -> whole (m_regs m) -> Forall (fun g => 0 < num2 (g_count g)) (m_regs m) ->
  m_func m = 3 \/ m_func m = 4 -> m_base m = BInt z ->
  exists x m', map_to_xml m = Ok x /\ map_from_xml E m0 x = (m', Ok tt) /\ map_not_equal m m' = Ok true.
Proof.
  intros E func base m0 m z H0 HW HP HF HB. destruct (C93_answer_partial E func base m0 m H0 HW HP HF) as (x & m' & d & X1 & X2 & X3 & X4).
  exists x, m'. split; [exact X1|]. split; [exact X2|]. rewrite X3. destruct d; [reflexivity|]. destruct (proj1 X4 eq_refl) as [[s HS] _]. congruence.
Qed.
Print Assumptions C93_int_base_refuted.
(** A map loaded from a document with an address attribute compares equal to its copy (map1 with one). *)
Definition loaded_map (attrs : list (string * string)) : mbmap := fst (map_from_xml env0 empty_map
  (XE (lit "mbmap"%string) (map (fun p => (lit (fst p), lit (snd p))) attrs) None None (x_children (doc [el [("offset", "0"); ("len", "2")] "0001 0002"; el [("offset", "10"); ("type", "s32")] "-1"]%string)))).
Definition copy_differs (m : mbmap) : res bool :=
  match map_to_xml m with Ok x => map_not_equal m (fst (map_from_xml env0 empty_map x)) | Raise e => Raise e end.
Example C93_ex_hyp : exists s, m_base (loaded_map [("addr", "50000")]%string) = BStr s /\ whole (m_regs (loaded_map [("addr", "50000")]%string)) /\
  Forall (fun g => 0 < num2 (g_count g)) (m_regs (loaded_map [("addr", "50000")]%string)) /\
  Forall (fun g => g_access g = lit "r"%string) (m_regs (loaded_map [("addr", "50000")]%string)) /\ length (m_regs (loaded_map [("addr", "50000")]%string)) = 2%nat.
Proof.
  eexists. split; [vm_compute; reflexivity|]. split; [|split; [repeat constructor|split; [repeat constructor|reflexivity]]].
  split; [split; [repeat constructor|repeat constructor; vm_compute; discriminate]|].
  constructor; [exists 0, 2, [0; 1; 0; 2]|constructor; [exists 10, 2, [255; 255; 255; 255]|constructor]];
    (split; [reflexivity|]; split; [reflexivity|]; split; [reflexivity|]; split; [lia|]; split; [reflexivity|]; repeat constructor; unfold is_byte; lia).
Qed.
Example C93_ex : copy_differs (loaded_map [("addr", "50000")]%string) = Ok false /\ copy_differs (loaded_map []) = Ok true /\ copy_differs map1 = Ok true.
Proof. split; [|split]; vm_compute; reflexivity. Qed.
