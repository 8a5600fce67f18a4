(** * M_XmlText: XML documents as text, as ET.tostring and ET.fromstring of the Python library write and read them (used by
    data.py:73, 120, device.py:157, 921 and mbmap.py:178, and by programs that store what to_pics returns).

    The library is modelled after xml/etree/ElementTree.py of Python 3.9 and later (_serialize_xml, _escape_cdata,
    _escape_attrib, encoding us-ascii with errors=xmlcharrefreplace) and the XML 1.0 recommendation (sections 2.2, 2.11, 3.1,
    3.3.3, 4.1).  Simplified: the parser reads documents of elements, attributes and text (no comments, processing instructions,
    CDATA sections, declarations or name spaces, no names outside ASCII; these are errors here, and "]]>" in text is not); a
    document is the sequence of its characters (for the ASCII texts tostring makes that is the sequence of its bytes). *)
From Coq Require Import String.
From Verif Require Import Py M_Util M_Suns M_Xml.

(** ** writing *)
(** _escape_cdata *)
Definition esc_text (c : Z) : str :=
  if c =? 38 then lit "&amp;"%string else if c =? 60 then lit "&lt;"%string else if c =? 62 then lit "&gt;"%string else [c].
(** _escape_attrib *)
Definition esc_attr (c : Z) : str :=
  if c =? 34 then lit "&quot;"%string else if c =? 13 then lit "&#13;"%string else if c =? 10 then lit "&#10;"%string
  else if c =? 9 then lit "&#09;"%string else esc_text c.
Definition ser_attr (kv : str * str) : str := [32] ++ fst kv ++ [61; 34] ++ flat_map esc_attr (snd kv) ++ [34].
Definition opt_text (t : option str) : str := match t with Some s => s | None => [] end.
Definition is_nil {A} (l : list A) : bool := match l with [] => true | _ => false end.
(** _serialize_xml (short_empty_elements); the text of None and of '' is the same *)
Fixpoint ser (x : xml) : str :=
  match x with
  | XE tag attrs text tail children =>
    [60] ++ tag ++ flat_map ser_attr attrs ++
    (if is_nil (opt_text text) && is_nil children then lit " />"%string
     else [62] ++ flat_map esc_text (opt_text text) ++ flat_map ser children ++ [60; 47] ++ tag ++ [62]) ++
    flat_map esc_text (opt_text tail)
  end.
(** the encoding: characters outside ASCII become character references *)
Definition ascii (c : Z) : str := if c <? 128 then [c] else lit "&#"%string ++ str_of_int c ++ lit ";"%string.
(** ET.tostring(x) *)
Definition tostring (x : xml) : str := flat_map ascii (ser x).

(** ** reading *)
Definition is_ws (c : Z) : bool := (c =? 32) || (c =? 9) || (c =? 10) || (c =? 13).
(** XML 1.0, production 2 *)
Definition is_xml_char (c : Z) : bool :=
  (c =? 9) || (c =? 10) || (c =? 13) || ((32 <=? c) && (c <=? 55295)) || ((57344 <=? c) && (c <=? 65533)) || ((65536 <=? c) && (c <=? 1114111)).
Definition is_alpha (c : Z) : bool := ((65 <=? c) && (c <=? 90)) || ((97 <=? c) && (c <=? 122)) || (c =? 95).
Definition is_name_char (c : Z) : bool := is_alpha c || ((48 <=? c) && (c <=? 57)) || (c =? 45) || (c =? 46).
Definition is_digit (c : Z) : bool := (48 <=? c) && (c <=? 57).
(** 2.11: line ends *)
Fixpoint newlines (s : str) : str :=
  match s with
  | [] => []
  | c :: r => if c =? 13 then match r with d :: r' => if d =? 10 then 10 :: newlines r' else 10 :: newlines r | [] => [10] end else c :: newlines r
  end.
Fixpoint span (f : Z -> bool) (s : str) : str * str :=
  match s with
  | [] => ([], [])
  | c :: r => if f c then let '(a, b) := span f r in (c :: a, b) else ([], s)
  end.
Definition skip (s : str) : str := snd (span is_ws s).
Definition parse_name (s : str) : res (str * str) :=
  let '(n, r) := span is_name_char s in
  match n with
  | c :: _ => if is_alpha c then Ok (n, r) else Raise EParse
  | [] => Raise EParse
  end.
Definition hex_value (c : Z) : option Z :=
  if is_digit c then Some (c - 48) else if (97 <=? c) && (c <=? 102) then Some (c - 87)
  else if (65 <=? c) && (c <=? 70) then Some (c - 55) else None.
Fixpoint number (base : Z) (acc : Z) (s : str) : option Z :=
  match s with
  | [] => Some acc
  | c :: r => match hex_value c with
              | Some v => if v <? base then number base (acc * base + v) r else None
              | None => None
              end
  end.
(** the character of a reference &b; *)
Definition reference (b : str) : res Z :=
  if eqb_list b (lit "lt"%string) then Ok 60 else if eqb_list b (lit "gt"%string) then Ok 62
  else if eqb_list b (lit "amp"%string) then Ok 38 else if eqb_list b (lit "quot"%string) then Ok 34
  else if eqb_list b (lit "apos"%string) then Ok 39
  else
    match b with
    | h :: d =>
      if h =? 35 then
        match (match d with
               | [] => None
               | x :: hex => if x =? 120 then (if is_nil hex then None else number 16 0 hex) else number 10 0 d
               end) with
        | Some z => if is_xml_char z then Ok z else Raise EParse
        | None => Raise EParse
        end
      else Raise EParse
    | [] => Raise EParse
    end.
(** the value of an attribute up to the quote [q], and what follows; [pend]: a reference that was begun *)
Fixpoint attr_value (q : Z) (pend : option str) (s : str) : res (str * str) :=
  match s with
  | [] => Raise EParse
  | c :: r =>
    match pend with
    | Some b =>
      if c =? 59 then let! z := reference b in let! (v, r') := attr_value q None r in Ok (z :: v, r')
      else attr_value q (Some (b ++ [c])) r
    | None =>
      if c =? q then Ok ([], r)
      else if c =? 60 then Raise EParse
      else if c =? 38 then attr_value q (Some []) r
      else if negb (is_xml_char c) then Raise EParse
      else let! (v, r') := attr_value q None r in Ok ((if is_ws c then 32 else c) :: v, r')
    end
  end.
(** text up to the next tag *)
Fixpoint text_run (pend : option str) (s : str) : res (str * str) :=
  match s with
  | [] => match pend with Some _ => Raise EParse | None => Ok ([], []) end
  | c :: r =>
    match pend with
    | Some b =>
      if c =? 59 then let! z := reference b in let! (v, r') := text_run None r in Ok (z :: v, r')
      else text_run (Some (b ++ [c])) r
    | None =>
      if c =? 60 then Ok ([], s)
      else if c =? 38 then text_run (Some []) r
      else if negb (is_xml_char c) then Raise EParse
      else let! (v, r') := text_run None r in Ok (c :: v, r')
    end
  end.
(** the attributes of a tag, up to its end; true: the tag ends with /> *)
Fixpoint parse_attrs (fuel : nat) (acc : list (str * str)) (s : str) : res (list (str * str) * bool * str) :=
  match fuel with
  | O => Raise EParse
  | S fuel =>
    match skip s with
    | [] => Raise EParse
    | c1 :: r1 =>
      if c1 =? 62 then Ok (acc, false, r1)
      else if c1 =? 47 then
        match r1 with c2 :: r2 => if c2 =? 62 then Ok (acc, true, r2) else Raise EParse | [] => Raise EParse end
      else
        match s with
        | c :: _ =>
          if is_ws c then
            let! (k, s2) := parse_name (c1 :: r1) in
            match skip s2 with
            | e :: s3 =>
              if e =? 61 then
                match skip s3 with
                | q :: s4 =>
                  if (q =? 34) || (q =? 39) then
                    let! (v, s5) := attr_value q None s4 in
                    match dget k acc with
                    | Some _ => Raise EParse
                    | None => parse_attrs fuel (acc ++ [(k, v)]) s5
                    end
                  else Raise EParse
                | [] => Raise EParse
                end
              else Raise EParse
            | [] => Raise EParse
            end
          else Raise EParse
        | [] => Raise EParse
        end
    end
  end.
Definition some_text (t : str) : option str := match t with [] => None | _ => Some t end.
Definition with_tail (x : xml) (t : option str) : xml := match x with XE tag a text _ c => XE tag a text t c end.
(** an element whose "<" was read; the contents of an element up to "</": its text and its children *)
Fixpoint parse_elem (fuel : nat) (s : str) : res (xml * str) :=
  match fuel with
  | O => Raise EParse
  | S fuel =>
    let! (tag, s1) := parse_name s in
    let! (attrs, empty, s2) := parse_attrs fuel [] s1 in
    if empty : bool then Ok (XE tag attrs None None [], s2)
    else
      let! (text, children, s3) := parse_content fuel s2 in
      let! (tag', s4) := parse_name s3 in
      if eqb_list tag' tag then
        match skip s4 with
        | c :: s5 => if c =? 62 then Ok (XE tag attrs (some_text text) None children, s5) else Raise EParse
        | [] => Raise EParse
        end
      else Raise EParse
  end
with parse_content (fuel : nat) (s : str) : res (str * list xml * str) :=
  match fuel with
  | O => Raise EParse
  | S fuel =>
    let! (text, s1) := text_run None s in
    match s1 with
    | _ :: c :: s2 =>
      if c =? 47 then Ok (text, [], s2)
      else
        let! (x, s3) := parse_elem fuel (c :: s2) in
        let! (tail, children, s4) := parse_content fuel s3 in
        Ok (text, with_tail x (some_text tail) :: children, s4)
    | _ => Raise EParse
    end
  end.
(** ET.fromstring(s) *)
Definition fromstring (s : str) : res xml :=
  let s1 := newlines s in
  match skip s1 with
  | c :: r =>
    if c =? 60 then
      let! (x, r2) := parse_elem (S (length r)) r in
      match skip r2 with [] => Ok x | _ => Raise EParse end
    else Raise EParse
  | [] => Raise EParse
  end.
