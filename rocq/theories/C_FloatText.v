(** * C_FloatText: property C116: float values survive being written as text, with Python's own texts of floats. *)
From Coq Require Import String Reals.
From Flocq Require Import Core BinarySingleNaN.
From Verif Require C_Rtu S_Modbus C_Device C_PicsRead C_PicsEq C_XmlText M_Data.
From Verif Require Import Py P_List M_Util M_Float M_Suns M_Xml M_Point M_Mbmap M_Device S_Codec S_Device S_Accuracy S_FloatText M_FloatText P_Float P_FloatText S_Mbmap.
From Verif Require Import M_Path M_DataText P_XmlWrite M_Client S_Client M_Scan S_Scan M_Pics M_Files M_XmlText S_XmlText S_Assign P_Assign M_Wire M_Tcp S_Tcp S_Stack S_Pics S_PicsRead P_PicsModel P_PicsRead.
Local Open Scope Z_scope.

(** ** Python's texts *)
(** what a decimal text is read as: the binary64 number nearest to the real number it denotes *)
Theorem C116_nearest : forall t s v, decimal_text t s v -> exists f, py_float t = Some f /\ rounds_to s v f.
Proof. exact float_read. Qed.
Print Assumptions C116_nearest.
(** the text of a finite float is such a decimal text, and no other float is as near to what it denotes *)
Theorem C116_text_is_decimal : forall s m e, SpecFloat.bounded 53 1024 m e = true ->
  exists v, decimal_text (py_repr (S754_finite s m e)) s v /\ forall f, rounds_to s v f <-> f = S754_finite s m e.
Proof.
  intros s m e H. destruct (shortest_text m e s H) as (v & HT & HR). exists v. split; [exact HT|]. intros f. split; [intros HF; eapply rounds_to_eq; eauto|intros ->; exact HR].
Qed.
Print Assumptions C116_text_is_decimal.
(** every float but NaN is read back from its text *)
Theorem C116_text_is_read : forall f, SpecFloat.valid_binary 53 1024 f = true -> f <> S754_nan -> py_float (py_repr f) = Some f.
Proof. exact text_read. Qed.
Print Assumptions C116_text_is_read.
(** so two floats with the same text are the same *)
Theorem C116_texts_differ : forall f g, SpecFloat.valid_binary 53 1024 f = true -> SpecFloat.valid_binary 53 1024 g = true -> f <> S754_nan -> g <> S754_nan ->
  py_repr f = py_repr g -> f = g.
Proof. intros f g H1 H2 H3 H4 E. apply Some_inj. rewrite <- (text_read f), <- (text_read g) by assumption. now rewrite E. Qed.
Print Assumptions C116_texts_differ.
(** what C90, C92 and C108 assume of texts of floats, and what C112 does, holds *)
Theorem C116_float_texts : forall pow, float_texts (py_env pow).
Proof.
  intros pow f HV HN. cbn [float_repr float_parse py_env]. split; [now apply repr_nonempty|]. split; [|now apply text_read].
  intros (t & E). pose proof (repr_core f) as H. rewrite E in H. apply Forall_app in H as [_ H]. apply Forall_inv in H. unfold core, digit in H. lia.
Qed.
Print Assumptions C116_float_texts.
Theorem C116_clean_floats : forall pow, clean_floats (py_env pow).
Proof.
  intros pow f. cbn [float_repr py_env]. eapply Forall_impl; [|apply repr_core]. intros c H. unfold core, digit in H. unfold xml_char. lia.
Qed.
Print Assumptions C116_clean_floats.

(** ** registers, texts, registers *)
Theorem C116_registers : forall d f, Forall is_byte d -> data_to_float d = Ok (Some f) ->
  exists g, py_float (py_repr f) = Some g /\ float_to_data32 g = Ok d.
Proof.
  intros d f HB HF. destruct (Z.eq_dec (zlen d) 4) as [HL|HL]; [|rewrite float32_bad_len in HF by exact HL; discriminate].
  destruct (float32_exact d HB HL) as [H1 H2]. pose proof (float32_valid d f HB HF) as HV.
  assert (HN : ~ nan_bits 23 8 (positional d)) by (intros HC; rewrite (H1 HC) in HF; discriminate).
  destruct (H2 HN) as (f' & E1 & E2 & E3). assert (f' = f) by congruence. subst f'. exists f. split; [now apply text_read|exact E3].
Qed.
Print Assumptions C116_registers.
(** assigning a text to a float point: the nearest float; the text of a float: that float *)
Theorem C116_assigned : forall pow sf, unscaled sf ->
  (forall t s v, decimal_text t s v -> exists f, value_setter (py_env pow) Tfloat32 sf (VStr t) = Ok (VFlt f) /\ rounds_to s v f) /\
  (forall f, SpecFloat.valid_binary 53 1024 f = true -> f <> S754_nan -> value_setter (py_env pow) Tfloat32 sf (VStr (py_repr f)) = Ok (VFlt f)).
Proof.
  intros pow sf U. split.
  - intros t s v H. destruct (float_read t s v H) as (f & E & HR). exists f. split; [|exact HR]. rewrite (set_unscaled _ _ sf _ U). cbn [to_value suns_to_float float_parse py_env]. now rewrite E.
  - intros f HV HN. rewrite (set_unscaled _ _ sf _ U). cbn [to_value suns_to_float float_parse py_env]. now rewrite (text_read f HV HN).
Qed.
Print Assumptions C116_assigned.
(** an element of a map document with the text of a float32 value stands for its registers *)
Theorem C116_map_element : forall pow r d f, elem_type r = lit "f32"%string -> elem_text r [48] = py_repr f -> Forall is_byte d -> data_to_float d = Ok (Some f) ->
  declares (py_env pow) r d.
Proof.
  intros pow r d f HT HX HB HF. destruct (C116_registers d f HB HF) as (g & E1 & E2). apply (decl_f32 _ _ g); [exact HT| |exact E2]. rewrite HX. exact E1.
Qed.
Print Assumptions C116_map_element.

(** ** archives *)
(** what is read from a device (C90), written to a file as a PICS document, indented or not (C112), and loaded: the same *)
Theorem C116_archive_file :
  forall pow lfuel types, loads_end lfuel types -> (forall id t, types id = Ok t -> block_types_ok t) ->
  forall mem l ms ms', byte_memory mem -> Forall (readable lfuel types) l -> Forall2 (model_for lfuel types) l ms -> Forall2 (values_read mem) ms ms' ->
  Forall one_repeat ms' -> Forall (values_defined (py_env pow)) ms' -> Forall clean_model ms' ->
  forall base a, exists e, device_to_pics (py_env pow) false (mkDevice base ms') = Ok e /\
  forall pretty fs name, fs name = Some (FFile (tostring (pics_document pretty e)) None) ->
  exists d', device_from_file (py_env pow) lfuel types fs fromstring (new_device a) name None None = (d', Ok tt) /\ Forall2 restored_model ms' (d_models d').
Proof.
  intros pow lfuel types HLE HB mem l ms ms' HM HR HF HV HG HD HC base a.
  destruct (C_PicsRead.C90_archive_one_repeat (py_env pow) lfuel types (C116_float_texts pow) HLE HB mem l ms ms' HM HR HF HV HG HD base a false) as (e & d' & E1 & E2 & E3).
  exists e. split; [exact E1|]. intros pretty fs name HFS. exists d'. split; [|exact E3].
  assert (HP : pics_data fs None None name = Ok (tostring (pics_document pretty e))).
  { unfold pics_data. cbn [try_paths bind]. unfold open_read. now rewrite HFS. }
  rewrite (C_XmlText.C112_pics_partial (py_env pow) (C116_clean_floats pow) false (mkDevice base ms') e HC E1 pretty fs None None name HP lfuel types). exact E2.
Qed.
Print Assumptions C116_archive_file.
(** with any number of repeating blocks, if a point has a value in all of them or in none (C54) *)
Theorem C116_archive_gapless :
  forall pow lfuel types, loads_end lfuel types -> (forall id t, types id = Ok t -> block_types_ok t) ->
  forall mem l ms ms', byte_memory mem -> Forall (readable lfuel types) l -> Forall2 (model_for lfuel types) l ms -> Forall2 (values_read mem) ms ms' ->
  Forall no_gaps ms' -> Forall (values_defined (py_env pow)) ms' -> Forall clean_model ms' ->
  forall base a, exists e, device_to_pics (py_env pow) false (mkDevice base ms') = Ok e /\
  forall pretty fs name, fs name = Some (FFile (tostring (pics_document pretty e)) None) ->
  exists d', device_from_file (py_env pow) lfuel types fs fromstring (new_device a) name None None = (d', Ok tt) /\ Forall2 restored_model ms' (d_models d').
Proof.
  intros pow lfuel types HLE HB mem l ms ms' HM HR HF HV HG HD HC base a.
  destruct (C_PicsRead.C90_archive_partial (py_env pow) lfuel types (C116_float_texts pow) HLE HB mem l ms ms' HM HR HF HV HG HD base a) as (e & d' & E1 & E2 & E3).
  exists e. split; [exact E1|]. intros pretty fs name HFS. exists d'. split; [|exact E3].
  assert (HP : pics_data fs None None name = Ok (tostring (pics_document pretty e))).
  { unfold pics_data. cbn [try_paths bind]. unfold open_read. now rewrite HFS. }
  rewrite (C_XmlText.C112_pics_partial (py_env pow) (C116_clean_floats pow) false (mkDevice base ms') e HC E1 pretty fs None None name HP lfuel types). exact E2.
Qed.
Print Assumptions C116_archive_gapless.

(** ** Examples *)
(** texts CPython 3 prints (checked by hand against it on some 360 more) *)
Example C116_texts : map py_repr [S754_finite false 7205759403792794 (-56); S754_finite true 5 (-1); S754_finite false 4503599627370496 1; S754_finite false 5000000000000000 1; S754_finite false 5902958103587057 (-69); S754_finite false 4503599627370496 (-96); S754_finite false 1 (-1074)] =
  map lit ["0.1"; "-2.5"; "9007199254740992.0"; "1e+16"; "1e-05"; "5.684341886080802e-14"; "5e-324"]%string.
Proof. vm_compute. reflexivity. Qed.
Example C116_parses : map py_float (map lit [" 0.1"; "-2.5e0"; "1_000"; "1e400"; "-Infinity"; "1e"; "0x10"; ".5"]%string) =
  [Some (S754_finite false 7205759403792794 (-56)); Some (S754_finite true 5629499534213120 (-51)); Some (S754_finite false 8796093022208000 (-43)); Some (S754_infinity false); Some (S754_infinity true); None; None; Some (S754_finite false 4503599627370496 (-53))].
Proof. vm_compute. reflexivity. Qed.
(** "0.1" is a decimal text of 1/10 *)
Example C116_decimal_case : decimal_text (lit " -0.1e+01"%string) true (IZR 1 * ten (1 - Z.of_nat 1)).
Proof.
  assert (H : denotes [48; 49] 1) by exact (den_snoc [48] 0 49 (den_snoc [] 0 48 den_nil ltac:(unfold digit; lia)) ltac:(unfold digit; lia)).
  apply (dec_text [32] [45] true [48] [46; 49] [49] (101 :: [43] ++ [48; 49]) 1 [] 1); [constructor; [left; reflexivity|constructor]|constructor|constructor|constructor| |exact H|discriminate].
  exact (ex_some 101 [43] false [48; 49] 1 (or_introl eq_refl) sg_plus H ltac:(discriminate)).
Qed.
(** the registers of 0.1 as a float32 *)
Example C116_registers_case : data_to_float [61; 204; 204; 205] = Ok (Some (S754_finite false 7205759511166976 (-56))) /\
  py_repr (S754_finite false 7205759511166976 (-56)) = lit "0.10000000149011612"%string /\
  (let! g := match py_float (lit "0.10000000149011612"%string) with Some g => Ok g | None => Raise EValue end in float_to_data32 g) = Ok [61; 204; 204; 205].
Proof. vm_compute. auto. Qed.
(** scan and read over serial, save as a file and load: a model with two float points, 0.1 and -3.4028234663852886e+38 *)
Definition ff_types (id : Z) : res modeltype :=
  if id =? 200 then Ok (mkMT 1 (Some 200) (Some 4) (Some (lit "ff"%string)) None None None
    (mkBT Fixed (BStr (lit "4"%string)) (Some (lit "fixed"%string)) [C_Device.pt "F" 0 Tfloat32 2 None; C_Device.pt "G" 2 Tfloat32 2 None]) None []) else Raise ESunSpec.
Definition ff_regs : S_Modbus.memory := fun a => if a =? 50000 then 21365 else if a =? 50001 then 28243 else if a =? 50002 then 200 else if a =? 50003 then 4 else
  if a =? 50004 then 15820 else if a =? 50005 then 52429 else if a =? 50006 then 65407 else 65535.
Definition ff_session : list (res unit) * list (list value) * str :=
  let E := py_env (fun _ => Raise EType) in
  let c := rtu_client C_Rtu.ex_dev false true 1 in
  let '(s1, cd, r1) := scan c 10 ff_types None 10 ff_regs new_cdevice in
  let '(s2, ms, r2) := device_read_points (scl_dev c) s1 (cd_models cd) in
  match device_to_pics E false (mkDevice (BInt 50000) ms) with
  | Ok x => let text := tostring (pics_document true x) in
            let '(d', r3) := device_from_file E 10 ff_types (fun _ => Some (FFile text None)) fromstring (new_device 0) (lit "a.xml"%string) None None in
            ([r1; r2; r3], map (fun l => flat_map (fun m => map p_base (flat_map b_points (md_blocks m))) l) [ms; d_models d'], text)
  | Raise _ => ([], [], [])
  end.
Example C116_session : exists text, ff_session =
  ([Ok tt; Ok tt; Ok tt], [[VFlt (S754_finite false 7205759511166976 (-56)); VFlt (S754_finite true 9007198717870080 75)];
                           [VFlt (S754_finite false 7205759511166976 (-56)); VFlt (S754_finite true 9007198717870080 75)]], text).
Proof. eexists. vm_compute. reflexivity. Qed.
