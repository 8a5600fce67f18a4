(** * M_Xml: xml.etree.ElementTree elements (standard library), as used by mbmap.py, pics.py,
    smdx.py, device.py and data.py.  Attributes are in insertion order; [attrib.get] is [dget]. *)
From Verif Require Import Py.

Inductive xml : Type :=
  XE (tag : str) (attrs : list (str * str)) (text tail : option str) (children : list xml).

Definition x_tag (x : xml) : str := match x with XE t _ _ _ _ => t end.
Definition x_attrs (x : xml) : list (str * str) := match x with XE _ a _ _ _ => a end.
Definition x_text (x : xml) : option str := match x with XE _ _ t _ _ => t end.
Definition x_tail (x : xml) : option str := match x with XE _ _ _ t _ => t end.
Definition x_children (x : xml) : list xml := match x with XE _ _ _ _ c => c end.

Definition x_get (k : str) (x : xml) : option str := dget k (x_attrs x).
(** [element.findall(tag)] and [element.find(tag)] for a plain tag name: direct children *)
Definition findall (tag : str) (x : xml) : list xml := filter (fun c => eqb_list (x_tag c) tag) (x_children x).
Definition xfind (tag : str) (x : xml) : option xml := hd_error (findall tag x).
