(** * S_XmlText: documents that can be written as text and read again *)
From Verif Require Import Py M_Util M_Suns M_Xml M_Point M_Device M_Mbmap M_Data.

(** the characters a document can contain at all: XML 1.0, "Char ::= #x9 | #xA | #xD | [#x20-#xD7FF] | [#xE000-#xFFFD] |
    [#x10000-#x10FFFF]" *)
Definition xml_char (c : Z) : Prop :=
  c = 9 \/ c = 10 \/ c = 13 \/ 32 <= c <= 55295 \/ 57344 <= c <= 65533 \/ 65536 <= c <= 1114111.
(** names of elements and attributes: a letter or '_' and then letters, digits, '_', '-' and '.' *)
Definition letter (c : Z) : Prop := 65 <= c <= 90 \/ 97 <= c <= 122 \/ c = 95.
Definition name_char (c : Z) : Prop := letter c \/ 48 <= c <= 57 \/ c = 45 \/ c = 46.
Definition plain_name (n : str) : Prop := exists c r, n = c :: r /\ letter c /\ Forall name_char r.

(** text that is kept: such characters, but no carriage returns *)
Definition clean (s : str) : Prop := Forall (fun c => xml_char c /\ c <> 13) s.
Definition clean_opt (t : option str) : Prop := forall s, t = Some s -> clean s.
Inductive writable : xml -> Prop :=
| writable_elem tag attrs text tail children :
    plain_name tag ->
    Forall (fun kv => plain_name (fst kv) /\ Forall xml_char (snd kv)) attrs -> NoDup (map fst attrs) ->
    clean_opt text -> clean_opt tail -> Forall writable children ->
    writable (XE tag attrs text tail children).
(** what is read: the same elements with the same attributes and texts, an empty text being none *)
Definition same_text (t t' : option str) : Prop := t' = t /\ t <> Some [] \/ t = Some [] /\ t' = None.
Inductive same_doc : xml -> xml -> Prop :=
| same_elem tag attrs text text' tail tail' children children' :
    same_text text text' -> Forall2 same_doc children children' ->
    Forall2 (fun c c' => same_text (x_tail c) (x_tail c')) children children' ->
    same_doc (XE tag attrs text tail children) (XE tag attrs text' tail' children').
(** nothing but white space *)
Definition white_opt (t : option str) : Prop := forall s, t = Some s -> Forall (fun c => c = 32 \/ c = 9 \/ c = 10) s.

(** ** devices, maps and records that can be written *)
(** a text, perhaps padded with NULs, which are not written *)
Definition padded_clean (s : str) : Prop := exists t n, s = t ++ repeat 0 n /\ clean t.
Definition clean_model (m : model) : Prop :=
  (forall s, M_Device.md_index m = BStr s -> Forall xml_char s) /\
  forall b p, In b (md_blocks m) -> In p (b_points b) \/ In p (b_sfs b) ->
    Forall xml_char (pt_id (p_type p)) /\ (forall s, p_base p = VStr s -> padded_clean s).
Definition clean_floats (E : pyenv) : Prop := forall f, clean (float_repr E f).
Definition clean_map (m : mbmap) : Prop :=
  (forall s, m_base m = BStr s -> Forall xml_char s) /\
  forall s, In (Some s) [m_ns m; m_lid m; m_mapid m; m_time m] -> Forall xml_char s.
(** the registers of a map are bytes *)
Definition byte_map (m : mbmap) : Prop := forall g d, In g (m_regs m) -> g_data g = Some d -> Forall (fun b => 0 <= b < 256) d.

(** what stands in an attribute; a value, of which there must be something to see *)
Definition attr_clean (E : pyenv) (v : value) : Prop := Forall xml_char (suns_to_str E v).
Definition value_clean (E : pyenv) (v : value) : Prop := v <> VNone -> suns_to_str E v <> [] /\ clean (suns_to_str E v).
Definition clean_pdata (E : pyenv) (p : pdata) : Prop :=
  Forall (attr_clean E) [pd_point_id p; pd_index p; pd_sf p; pd_time p] /\ value_clean E (pd_value p).
Definition clean_mdata (E : pyenv) (m : mdata) : Prop :=
  Forall (attr_clean E) [md_model_id m; M_Data.md_index m; md_namespace m] /\ Forall (clean_pdata E) (md_points m).
Definition clean_ddata (E : pyenv) (d : ddata) : Prop :=
  Forall (attr_clean E) [dd_logger_id d; dd_namespace d; dd_device_id d; dd_ifc d; dd_man d; dd_mod d; dd_sn d; dd_timestamp d; dd_cid d] /\
  Forall (clean_mdata E) (dd_models d).
Definition clean_record (E : pyenv) (s : sdata) : Prop := attr_clean E (sd_version s) /\ Forall (clean_ddata E) (sd_devices s).
