(** * C_XmlText: C112, documents stored as text and loaded again *)
From Coq Require Import String.
From Verif Require Import Py P_List M_Util M_Float M_Suns M_Point M_Xml M_Path M_Mbmap M_Device M_Pics M_Files M_Data M_XmlText M_DataText
  S_Codec S_Mbmap S_Device S_Pics S_Data S_XmlText P_XmlText P_XmlDoc P_XmlWrite P_Data C_Device C_Mbmap C_Pics C_Data.
Open Scope Z_scope.

(** ** any document: what ET.tostring writes is what ET.fromstring reads, with or without indentation *)
Theorem C112_text : forall x, writable x -> white_opt (x_tail x) ->
  (exists y, fromstring (tostring x) = Ok y /\ same_doc x y) /\
  (exists y, fromstring (tostring (indent 0 x)) = Ok y /\ same_doc (indent 0 x) y).
Proof.
  intros x HW HT. split.
  - exists (with_tail (norm x) None). split; [now apply writable_round|]. pose proof (norm_same x) as H. destruct H. now constructor.
  - exists (with_tail (norm (indent 0 x)) None). split; [apply writable_round; [now apply indent_writable|now apply indent_tail]|].
    pose proof (norm_same (indent 0 x)) as H. destruct H. now constructor.
Qed.
Print Assumptions C112_text.
(** no text is empty and nothing follows: exactly the same *)
Theorem C112_text_exact : forall x, writable x -> x_tail x = None -> same_doc x x -> fromstring (tostring x) = Ok x.
Proof.
  intros x HW HT HS. rewrite writable_round by (exact HW || (rewrite HT; apply white_none)). f_equal.
  assert (HN : forall x, same_doc x x -> norm_text (x_tail x) = x_tail x -> norm x = x).
  { clear. induction x as [tag attrs text tail cs IH] using P_Path.xml_ind'. intros HS HT. inversion HS as [? ? ? ? ? ? ? ? H1 H2 H3]; subst. cbn [norm x_tail] in *. rewrite HT.
    assert (E1 : forall t, same_text t t -> norm_text t = t) 
      by (intros t [[_ H]|[H1' H2']]; [destruct t as [[|]|]; try reflexivity; exfalso; now apply H|rewrite H1' in H2'; discriminate]).
    rewrite (E1 text H1). f_equal. clear - IH H2 H3 E1. induction IH as [|c cs Hc _ IH]; [reflexivity|]. inversion H2; inversion H3; subst. cbn [map]. f_equal; [|now apply IH].
    apply Hc; [assumption|]. now apply E1. }
  rewrite (HN x HS) by (rewrite HT; reflexivity). rewrite <- HT. apply with_tail_same.
Qed.
Print Assumptions C112_text_exact.
Definition ex_doc : xml :=
  XE (lit "a"%string) [(lit "k"%string, lit "x < ""y"" & z"%string ++ [10; 13; 9; 233; 8364])] (Some (lit "1 > 0"%string)) None
    [XE (lit "b-2"%string) [] None (Some [10; 32; 32]) []; XE (lit "c"%string) [(lit "i"%string, []); (lit "j"%string, lit "'"%string)] (Some [960; 128512]) None []].
Lemma ex_doc_fine : writable ex_doc.
Proof.
  assert (HP : forall n, plain_nameb n = true -> plain_name n) by apply plain_b.
  assert (HC : forall s, forallb (fun c => is_xml_char c && negb (c =? 13)) s = true -> clean_opt (Some s)).
  { intros s H t [= <-]. rewrite forallb_forall in H. apply Forall_forall. intros c Hc. apply H in Hc. apply Bool.andb_true_iff in Hc as [H1 H2].
    split; [|now destruct (Z.eqb_spec c 13)]. assert (HA : Forall xml_char [c]) by (apply chars_b; cbn [forallb]; now rewrite H1). now inversion HA. }
  constructor; [apply HP; reflexivity| |apply nodup_b; reflexivity|apply HC; reflexivity|apply clean_none|].
  - apply Forall_cons; [|apply Forall_nil]. split; [apply HP; reflexivity|apply chars_b; reflexivity].
  - apply Forall_cons; [|apply Forall_cons; [|apply Forall_nil]].
    + constructor; [apply HP; reflexivity|apply Forall_nil|apply nodup_b; reflexivity|apply clean_none|apply HC; reflexivity|apply Forall_nil].
    + constructor; [apply HP; reflexivity| |apply nodup_b; reflexivity|apply HC; reflexivity|apply clean_none|apply Forall_nil].
      apply Forall_cons; [|apply Forall_cons; [|apply Forall_nil]]; (split; [apply HP; reflexivity|apply chars_b; reflexivity]).
Qed.
Example C112_text_case : writable ex_doc /\ x_tail ex_doc = None /\ fromstring (tostring ex_doc) = Ok ex_doc /\
  tostring ex_doc = lit "<a k=""x &lt; &quot;y&quot; &amp; z&#10;&#13;&#09;&#233;&#8364;"">1 &gt; 0<b-2 />"%string ++ [10; 32; 32] ++
    lit "<c i="""" j=""'"">&#960;&#128512;</c></a>"%string.
Proof. split; [exact ex_doc_fine|]. split; [reflexivity|]. split; vm_compute; reflexivity. Qed.

(** ** PICS documents *)
(** A device element in a document stored in a file is loaded from the file as it is loaded from the element, whether or not
    the document was indented; so what C53, C54, C90 and C92 say of the element holds of the file. *)
Theorem C112_pics_partial : forall E, clean_floats E -> forall single d e, Forall clean_model (d_models d) -> device_to_pics E single d = Ok e ->
  forall pretty fs supplied current name, pics_data fs supplied current name = Ok (tostring (pics_document pretty e)) ->
  forall fuel types d0, device_from_file E fuel types fs fromstring d0 name supplied current = device_from_pics E fuel types d0 e.
Proof.
  intros E HE single d e HM H pretty fs supplied current name HF fuel types d0. unfold device_from_file. rewrite HF. cbn [bind].
  destruct (pics_text E single d e pretty fuel types d0 HE HM H) as (y & -> & Y). exact Y.
Qed.
Print Assumptions C112_pics_partial.
(** in particular (C54): what was stored is restored *)
Theorem C112_pics_restored_partial : forall E fuel types d e, clean_floats E -> Forall clean_model (d_models d) ->
  Forall (instance_of E fuel types) (d_models d) -> Forall no_gaps (d_models d) -> device_to_pics E false d = Ok e ->
  forall pretty fs name, fs name = Some (FFile (tostring (pics_document pretty e)) None) ->
  forall a, exists d', device_from_file E fuel types fs fromstring (new_device a) name None None = (d', Ok tt) /\
    Forall2 restored_model (d_models d) (d_models d').
Proof.
  intros E fuel types d e HE HM HI HG H pretty fs name HF a.
  assert (HP : pics_data fs None None name = Ok (tostring (pics_document pretty e))).
  { unfold pics_data. cbn [try_paths bind]. unfold open_read. now rewrite HF. }
  rewrite (C112_pics_partial E HE false d e HM H pretty fs None None name HP fuel types).
  destruct (C54_roundtrip_partial E fuel types d e a HI HG H) as (d' & D1 & _ & D2 & _). exists d'. auto.
Qed.
Print Assumptions C112_pics_restored_partial.

(** ** maps *)
Theorem C112_map_partial : forall m x, clean_map m -> byte_map m -> map_to_xml m = Ok x ->
  forall (pretty : bool) E fs pathlist name, mbmap_data fs pathlist name = Ok (tostring (if pretty then indent 0 x else x)) ->
  forall m0, map_from_file E fs fromstring m0 name pathlist = map_from_xml E m0 x.
Proof.
  intros m x HC HB H pretty E fs pathlist name HF m0. unfold map_from_file. rewrite HF. cbn [bind].
  destruct (map_text m x pretty E m0 HC HB H) as (y & -> & Y). exact Y.
Qed.
Print Assumptions C112_map_partial.
(** in particular (C19): the registers of a stored map are read from the loaded map *)
Theorem C112_map_restored_partial : forall E m0 m, new_map V_HOLDING 40000 = Ok m0 -> clean_map m -> byte_map m ->
  whole (m_regs m) -> Forall (fun g => 0 < num2 (g_count g)) (m_regs m) -> m_func m = 3 \/ m_func m = 4 ->
  forall pretty : bool, exists text, (exists x, map_to_xml m = Ok x /\ text = tostring (if pretty then indent 0 x else x)) /\
  forall fs name, fs name = Some (FFile text None) ->
  exists m', map_from_file E fs fromstring m0 name None = (m', Ok tt) /\
    forall addr count op, map_read m' addr count op = map_read m addr count op.
Proof.
  intros E m0 m H0 HC HB HW HP HF pretty. destruct (C19_roundtrip_partial E V_HOLDING 40000 m0 m H0 HW HP HF) as (x & m' & X1 & X2 & _ & _ & _ & _ & _ & _ & _ & XR).
  exists (tostring (if pretty then indent 0 x else x)). split; [eauto|]. intros fs name HFS. exists m'.
  rewrite (C112_map_partial m x HC HB X1 pretty E fs None name) by (unfold mbmap_data, open_read; now rewrite HFS). auto.
Qed.
Print Assumptions C112_map_restored_partial.
Example C112_map_case : clean_map map1 /\ byte_map map1 /\ whole (m_regs map1) /\ Forall (fun g => 0 < num2 (g_count g)) (m_regs map1) /\ m_func map1 = 3 /\
  (exists x, map_to_xml map1 = Ok x /\ tostring (indent 0 x) =
    lit "<mbmap addr=""40000"" func=""holding"">"%string ++ [10; 32; 32] ++ lit "<regs offset=""0"" len=""3"">000100020003</regs>"%string ++
    [10; 32; 32] ++ lit "<regs offset=""10"" len=""2"">ffffffff</regs>"%string ++ [10] ++ lit "</mbmap>"%string ++ [10]).
Proof.
  assert (HA : (exists z, m_base map1 = BInt z) /\ [m_ns map1; m_lid map1; m_mapid map1; m_time map1] = [None; None; None; None])
    by (split; [eexists|]; vm_compute; reflexivity). destruct HA as [[z HA1] HA2].
  unfold clean_map. rewrite HA1, HA2. split; [split; [discriminate|intros s [H|[H|[H|[H|[]]]]]; discriminate]|]. clear HA1 HA2.
  split.
  { assert (HB : forallb (fun g => match g_data g with Some d => forallb (fun b => (0 <=? b) && (b <? 256)) d | None => true end) (m_regs map1) = true) by (vm_compute; reflexivity).
    intros g d Hg Hd. rewrite forallb_forall in HB. apply HB in Hg. rewrite Hd in Hg. rewrite forallb_forall in Hg. apply Forall_forall. intros b Hb. apply Hg in Hb. lia. }
  destruct C19_ex as (A & B & C). split; [exact A|]. split; [exact B|]. split; [exact C|].
  eexists. split; vm_compute; reflexivity.
Qed.

(** ** data records *)
(** The text of to_xml_str (pretty or not), given to SunSpecData, is read as the element to_xml makes is read: C62 holds of
    texts. *)
Theorem C112_record_partial : forall E s pretty t, clean_record E s -> record_text E pretty s = Ok t ->
  exists e, sdata_to_xml E s = Ok e /\ forall s0, sdata_from_text E s0 t = sdata_from_xml E s0 e.
Proof. intros E s pretty t HC H. now apply (record_reads E s pretty). Qed.
Print Assumptions C112_record_partial.
Theorem C112_record_restored_partial : forall E s (pretty : bool), typed_record s -> no_later_index s -> clean_record E s ->
  exists t s', record_text E pretty s = Ok t /\ sdata_of_text E t = Ok s' /\ kept_record E s s'.
Proof.
  intros E s pretty HT HN HC. destruct (C62_to_text_partial E s HT HN) as (e & H1 & H2).
  assert (HX : exists t, record_text E pretty s = Ok t) by (unfold record_text; rewrite H1; cbn [bind]; eauto). destruct HX as [t HX].
  destruct (C112_record_partial E s pretty t HC HX) as (e' & E1 & E2). destruct (C62_what_is_kept E s HT) as (e'' & s' & K1 & K2 & K3).
  exists t, s'. split; [exact HX|]. split; [|exact K3]. unfold sdata_of_text. rewrite E2. rewrite E1 in K1. apply Ok_inj in K1. now subst e''.
Qed.
Print Assumptions C112_record_restored_partial.
Definition one_value (v : value) : sdata :=
  mkSD (VStr (lit "1"%string)) [mkDD VNone VNone VNone VNone VNone VNone VNone VNone VNone VNone [mkMD (VInt 103) VNone VNone [mkPD (VStr (lit "P"%string)) v VNone VNone VNone VNone VNone]]].
Definition value_read (s : sdata) : option value :=
  match sd_devices s with d :: _ => match dd_models d with m :: _ => match md_points m with p :: _ => Some (pd_value p) | [] => None end | [] => None end | [] => None end.
Example C112_record_case : forall E v, value_clean E v ->
  typed_record (one_value v) /\ no_later_index (one_value v) /\ clean_record E (one_value v).
Proof.
  intros E v HV. unfold one_value. split; [|split].
  - unfold typed_record, typed_device, typed_model, typed_point, text_or_none, int_or_none. cbn. prove_plain.
  - unfold no_later_index. cbn [sd_devices dd_models]. repeat apply Forall_cons; try apply Forall_nil. cbn. repeat apply Forall_cons; try apply Forall_nil. intros z [=].
  - assert (HA : forall w, forallb is_xml_char (suns_to_str E w) = true -> attr_clean E w) by (intros w; apply chars_b).
    assert (HL : forall l, forallb (fun w => forallb is_xml_char (suns_to_str E w)) l = true -> Forall (attr_clean E) l)
      by (intros l H; rewrite forallb_forall in H; apply Forall_forall; intros w Hw; now apply HA, H).
    split; [apply HA; reflexivity|]. apply Forall_cons; [|apply Forall_nil]. split; [apply HL; reflexivity|].
    apply Forall_cons; [|apply Forall_nil]. split; [apply HL; reflexivity|].
    apply Forall_cons; [|apply Forall_nil]. split; [apply HL; reflexivity|exact HV].
Qed.
(** Refuted: a value with a control character is written without complaint, and the text cannot be read back. *)
Theorem C112_control_refuted : forall E c, 0 <= c < 32 -> c <> 9 -> c <> 10 -> c <> 13 ->
  exists t, record_text E false (one_value (VStr [c])) = Ok t /\ sdata_of_text E t = Raise EParse.
Proof.
  intros E c H N1 N2 N3.
  assert (HC : In c (map Z.of_nat (seq 0 32))) by (apply in_map_iff; exists (Z.to_nat c); split; [lia|apply in_seq; lia]).
  cbn [map seq In] in HC.
  repeat match type of HC with _ \/ _ => destruct HC as [HC|HC] end; try contradiction; subst c; try (exfalso; lia);
    (eexists; split; [vm_compute; reflexivity|vm_compute; reflexivity]).
Qed.
Print Assumptions C112_control_refuted.
(** A carriage return comes back as a line feed, and an empty value as no value. *)
Theorem C112_cr_refuted : forall E, exists t s', record_text E false (one_value (VStr (lit "a"%string ++ [13] ++ lit "b"%string))) = Ok t /\
  sdata_of_text E t = Ok s' /\ value_read s' = Some (VStr (lit "a"%string ++ [10] ++ lit "b"%string)).
Proof. intros E. do 2 eexists. split; [vm_compute; reflexivity|]. split; vm_compute; reflexivity. Qed.
Print Assumptions C112_cr_refuted.
Theorem C112_empty_refuted : forall E, exists t s', record_text E false (one_value (VStr [])) = Ok t /\
  sdata_of_text E t = Ok s' /\ value_read s' = Some VNone.
Proof. intros E. do 2 eexists. split; [vm_compute; reflexivity|]. split; vm_compute; reflexivity. Qed.
Print Assumptions C112_empty_refuted.
(** A device with such a value in a string point: to_pics writes a document that from_pics refuses, while the element itself is loaded
    with its value. *)
Definition string_type : pointtype := mkPT (lit "Nam"%string) 0 Tstring 8 (lit "false"%string) (lit "r"%string) None None None None None [].
Definition string_types (id : Z) : res modeltype := Ok (mkMT 0 (Some id) (Some 8) None None None None (mkBT Fixed (BStr (lit "8"%string)) None [string_type]) None []).
Definition string_device (v : value) : device :=
  let t := string_type in
  mkDevice (BInt 40000) [mkModel 64001 (BInt 1) None 40004 8 true [mkB 40004 8 (mkBT Fixed (BStr (lit "8"%string)) None [t]) 0 [mkP t 40004 SfNone true v VNone false] []] [] None].
Theorem C112_pics_control_refuted : forall E, exists e, device_to_pics E true (string_device (VStr (lit "a"%string ++ [1]))) = Ok e /\
  (exists d, device_from_pics E 10 string_types (new_device 0) e = (d, Ok tt) /\
     map p_base (flat_map b_points (flat_map md_blocks (d_models d))) = [VStr (lit "a"%string ++ [1])]) /\
  forall fs name, fs name = Some (FFile (tostring (pics_document false e)) None) ->
  device_from_file E 10 string_types fs fromstring (new_device 0) name None None = (new_device 0, Raise ESunSpec).
Proof.
  intros E. eexists. split; [vm_compute; reflexivity|]. split; [eexists; split; vm_compute; reflexivity|]. intros fs name HF. unfold device_from_file, pics_data. cbn [try_paths bind].
  unfold open_read. rewrite HF. vm_compute. reflexivity.
Qed.
Print Assumptions C112_pics_control_refuted.
Example C112_pics_case : Forall clean_model (d_models (string_device (VStr (lit "a<b>&"%string ++ [10; 0; 0])))) /\
  exists e, device_to_pics C_Pics.ex_env true (string_device (VStr (lit "a<b>&"%string ++ [10; 0; 0]))) = Ok e /\
  tostring (pics_document false e) =
    lit "<sunSpecPics><device v=""1""><model id=""64001"" len=""8""><block><point id=""Nam"">a&lt;b&gt;&amp;"%string ++ [10] ++
    lit "</point></block></model></device></sunSpecPics>"%string.
Proof.
  split; [|eexists; split; vm_compute; reflexivity]. apply Forall_cons; [|apply Forall_nil]. split; [discriminate|]. cbn [md_blocks string_device].
  intros b p [<-|[]] [[<-|[]]|[]]. split; [apply chars_b; reflexivity|]. cbn [p_base]. intros s [= <-]. exists (lit "a<b>&"%string ++ [10]), 2%nat. split; [reflexivity|].
  repeat (apply Forall_cons; [unfold xml_char; cbn; lia|]). apply Forall_nil.
Qed.
Example C112_floats_case : clean_floats C_Pics.ex_env.
Proof. intros f. apply Forall_cons; [unfold xml_char; lia|apply Forall_nil]. Qed.

(** What the parser of the model takes and refuses beyond what tostring writes (samples). *)
Definition nlc : string := String (Ascii.ascii_of_nat 10) EmptyString.
Definition crc : string := String (Ascii.ascii_of_nat 13) EmptyString.
Example C112_parser_samples :
  (fromstring (lit (nlc ++ "<a k = 'x""y' b=""&#x4a;&#X;""/>"))%string = Raise EParse) /\
  (fromstring (lit (nlc ++ "<a k = 'x""y'" ++ nlc ++ "b=""&#x4a;&#x4A;&#74;&apos;&gt;&lt;&quot;&amp;""/>" ++ nlc))%string =
     Ok (XE (lit "a"%string) [(lit "k"%string, lit "x""y"%string); (lit "b"%string, lit "JJJ'><""&"%string)] None None [])) /\
  (fromstring (lit ("<a k='1" ++ crc ++ nlc ++ "2'>x" ++ crc ++ "y" ++ crc ++ nlc ++ "</a >"))%string =
     Ok (XE (lit "a"%string) [(lit "k"%string, lit "1 2"%string)] (Some (lit ("x" ++ nlc ++ "y" ++ nlc)%string)) None [])) /\
  (fromstring (lit "<a><b>1</b>t<b/> </a>"%string) =
     Ok (XE (lit "a"%string) [] None None [XE (lit "b"%string) [] (Some (lit "1"%string)) (Some (lit "t"%string)) []; XE (lit "b"%string) [] None (Some (lit " "%string)) []])) /\
  Forall (fun s => fromstring (lit s) = Raise EParse)
    [""; " "; "a"; "<a>"; "<a></b>"; "<a/><b/>"; "<a/>x"; "<a k='1' k='2'/>"; "<a k=1/>"; "<a k='<'/>"; "<a k='1'b='2'/>"; "<a k/>"; "<a k='1/>"; "<1a/>"; "< a/>";
     "<a>&x;</a>"; "<a>&amp</a>"; "<a>&#;</a>"; "<a>&#x;</a>"; "<a>&#3a;</a>"; "<a>&#0;</a>"; "<a>&#xD800;</a>"; "<a>&;</a>"; "<a / >"; "<a></a"; "<a></a b>"; "<a k='&x'/>";
     "<a>&#xg;</a>"; "<a>&#1114112;</a>"]%string.
Proof. split; [vm_compute; reflexivity|]. split; [vm_compute; reflexivity|]. split; [vm_compute; reflexivity|]. split; [vm_compute; reflexivity|]. repeat (apply Forall_cons; [vm_compute; reflexivity|]). apply Forall_nil. Qed.
