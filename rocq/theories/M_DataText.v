(** * M_DataText: data records as text (data.py:71-75, 106-127) and the document device.to_pics is made for *)
From Coq Require Import String.
From Verif Require Import Py M_Util M_Suns M_Point M_Xml M_Path M_Pics M_Data M_XmlText.

(** the ElementTree element of a [M_Data.elem] whose attribute values are all text (M_Data checks that before, to_xml_str) *)
Definition text_of (v : value) : option str := match v with VStr s => Some s | _ => None end.
Definition attr_text (v : value) : str := match v with VStr s => s | _ => [] end.
Fixpoint xml_of (e : elem) : xml :=
  match e with DE tag attrs text children => XE tag (map (fun kv => (fst kv, attr_text (snd kv))) attrs) (text_of text) None (map xml_of children) end.
(** ... and the other way: what data.py sees of a parsed element *)
Fixpoint elem_of (x : xml) : elem :=
  match x with XE tag attrs text _ children =>
    DE tag (map (fun kv => (fst kv, VStr (snd kv))) attrs) (match text with Some s => VStr s | None => VNone end) (map elem_of children) end.
(** SunSpecData.to_xml_str(pretty_print), data.py:106-127: indent, ET.tostring, and its bytes as characters *)
Definition record_text (E : pyenv) (pretty : bool) (s : sdata) : res str :=
  let! e := to_xml_str E s in
  Ok (tostring (if pretty then indent 0 (xml_of e) else xml_of e)).
(** SunSpecData.from_xml(data_record=text), data.py:71-89, and SunSpecData(data_record=text), 129-135 *)
Definition sdata_from_text (E : pyenv) (s : sdata) (text : str) : res sdata :=
  let! x := fromstring text in sdata_from_xml E s (elem_of x).
Definition sdata_of_text (E : pyenv) (text : str) : res sdata := sdata_from_text E new_sdata text.

(** the document around a device element, as in device.py:200-213 (commented out there; callers of to_pics do it):
    root = ET.Element(pics.PICS_ROOT); device.to_pics(root); util.indent(root) if it is to be pretty *)
Definition pics_document (pretty : bool) (e : xml) : xml :=
  let root := XE PICS_ROOT [] None None [e] in if pretty then indent 0 root else root.
