(** * C_Format: property C108: the documents the library writes have the published formats (S_Format). *)
From Coq Require Import String.
From Verif Require Import Py P_List M_Util M_Float M_Suns M_Point M_Xml M_Mbmap S_Mbmap P_Mbmap M_Device M_Client S_Codec S_Device M_Scan S_Scan S_Stack S_Pics M_Pics P_Pics S_PicsRead P_PicsModel P_PicsRead S_Format P_Format.
From Verif Require M_Data C_Device C_Pics C_Mbmap C_Data.

(** ** PICS: a device whose models were loaded and whose points have values of their types *)
Theorem C108_pics_format : forall E fuel types single d e,
  Forall (instance_of E fuel types) (d_models d) -> device_to_pics E single d = Ok e -> pics_device E single (d_models d) e.
Proof.
  intros E fuel types single d e HI H. apply device_format; [|exact H]. eapply Forall_impl; [|exact HI]. intros m. apply instance_complete.
Qed.
Print Assumptions C108_pics_format.
(** in particular a device that was scanned and read *)
Theorem C108_read_device_format :
  forall E lfuel types, float_texts E -> loads_end lfuel types -> (forall id t, types id = Ok t -> block_types_ok t) ->
  forall mem l ms ms', byte_memory mem -> Forall (readable lfuel types) l -> Forall2 (model_for lfuel types) l ms -> Forall2 (values_read mem) ms ms' ->
  Forall (values_defined E) ms' ->
  forall base single, exists e, device_to_pics E single (mkDevice base ms') = Ok e /\ pics_device E single ms' e.
Proof.
  intros E lfuel types HE HLE HB mem l ms ms' HM HR HF HV HD base single.
  pose proof (entries_instances E lfuel types mem HE HM HLE HB l ms ms' HR HF HV) as HI.
  destruct (models_to_pics_ok E single ms') as [es HES]; [intros m b p Hm Hb Hp; rewrite Forall_forall in HD; exact (HD m Hm b p Hb Hp)|].
  assert (HX : exists e, device_to_pics E single (mkDevice base ms') = Ok e) by (unfold device_to_pics; cbn [d_models]; rewrite HES; cbn [bind]; eauto).
  destruct HX as [e HX]. exists e. split; [exact HX|]. exact (C108_pics_format E lfuel types single (mkDevice base ms') e HI HX).
Qed.
Print Assumptions C108_read_device_format.
(** ** Modbus maps *)
Theorem C108_map_format : forall m, whole (m_regs m) -> exists e, map_to_xml m = Ok e /\ map_doc m e.
Proof. intros m HW. destruct (map_writes m HW) as [e HE]. exists e. split; [exact HE|]. now apply map_format. Qed.
Print Assumptions C108_map_format.
(** ** Data records *)
Theorem C108_record_format : forall E s, text_record s -> exists e, M_Data.sdata_to_xml E s = Ok e /\ sdx_doc E s e.
Proof. intros E s HT. destruct (sdx_writes E s HT) as [e HE]. exists e. split; [exact HE|]. now apply sdx_format. Qed.
Print Assumptions C108_record_format.

(** ** Documents *)
Local Open Scope string_scope.
Example C108_pics_ex : exists e, device_to_pics C_Pics.ex_env true (mkDevice (BInt 50000) [C_Pics.ex_m C_Pics.ex_vals; C_Pics.ex_unknown]) = Ok e /\
  pics_device C_Pics.ex_env true [C_Pics.ex_m C_Pics.ex_vals; C_Pics.ex_unknown] e /\
  e = XE (lit "device") [(lit "v", lit "1")] None None
    [XE (lit "model") [(lit "id", lit "100"); (lit "len", lit "12")] None None
       [XE (lit "block") [] None None
          [XE (lit "point") [(lit "id", lit "A"); (lit "access", lit "rw")] (Some (lit "300")) None []; XE (lit "point") [(lit "id", lit "B"); (lit "access", lit "rw")] (Some (lit "-100")) None [];
           XE (lit "point") [(lit "id", lit "A_SF"); (lit "access", lit "rw")] (Some (lit "-2")) None []; XE (lit "point") [(lit "id", lit "C"); (lit "access", lit "rw")] (Some (lit "3")) None []];
        XE (lit "block") [(lit "type", lit "repeating")] None None
          [XE (lit "point") [(lit "id", lit "V"); (lit "access", lit "rw")] (Some (lit "7")) None []; XE (lit "point") [(lit "id", lit "W"); (lit "impl", lit "false")] None None []]];
     XE (lit "model") [(lit "id", lit "64001"); (lit "len", lit "8"); (lit "index", lit "2")] None None []].
Proof.
  assert (HE : exists e, device_to_pics C_Pics.ex_env true (mkDevice (BInt 50000) [C_Pics.ex_m C_Pics.ex_vals; C_Pics.ex_unknown]) = Ok e) by (eexists; vm_compute; reflexivity).
  destruct HE as [e HE]. exists e. split; [exact HE|]. split.
  - apply (C108_pics_format _ 10%nat C_Device.ex_types true (mkDevice (BInt 50000) [C_Pics.ex_m C_Pics.ex_vals; C_Pics.ex_unknown]) e); [|exact HE].
    constructor; [exact C_Pics.ex_m_instance|constructor; [exact C_Pics.ex_unknown_instance|constructor]].
  - vm_compute in HE. apply Ok_inj in HE. rewrite <- HE. vm_compute. reflexivity.
Qed.
Example C108_map_ex : whole (m_regs C_Mbmap.map1) /\ exists a, map_to_xml C_Mbmap.map1 = Ok (XE (lit "mbmap") [(lit "addr", a); (lit "func", lit "holding")] None None
  [XE (lit "regs") [(lit "offset", lit "0"); (lit "len", lit "3")] (Some (lit "000100020003")) None []; XE (lit "regs") [(lit "offset", lit "10"); (lit "len", lit "2")] (Some (lit "ffffffff")) None []]).
Proof. split; [exact C_Mbmap.whole_map1|]. eexists. vm_compute. reflexivity. Qed.
Example C108_record_ex : forall E, text_record C_Data.ex_record1 /\ M_Data.sdata_to_xml E C_Data.ex_record1 = Ok (
  M_Data.DE (lit "sunSpecData") [(lit "v", VStr (lit "1"))] VNone
    [M_Data.DE (lit "d") [(lit "lid", VStr (lit "logger")); (lit "id", VStr (lit "dev1")); (lit "man", VStr (lit "man")); (lit "mod", VStr (lit "mod")); (lit "sn", VStr (lit "123"))] VNone
       [M_Data.DE (lit "m") [(lit "id", VStr (lit "103")); (lit "x", VInt 2)] VNone
          [M_Data.DE (lit "p") [(lit "id", VStr (lit "W")); (lit "index", VStr (lit "3")); (lit "sf", VStr (lit "-2")); (lit "t", VStr (lit "2013-01-01T00:00:00Z"))] (VStr (lit "42")) []]];
     M_Data.DE (lit "d") [] VNone []]).
Proof. intros E. split; [|vm_compute; reflexivity]. unfold text_record, text_models, text_points. repeat first [constructor | discriminate | vm_compute; discriminate]. Qed.
