(** * M_Smdx: loading model definitions, sunspec/core/smdx.py and sunspec/core/device.py:889-933, 991-1062, 1150-1183,
    1335-1412, 1447-1470.

    The parser (ET.fromstring, standard library) is an argument: it maps the content of a file to its root element. *)
From Coq Require Import String.
From Verif Require Import Py M_Util M_Float M_Suns M_Xml M_Mbmap M_Device M_Path.

(** ** File names, smdx.py:118-132 *)
Definition SMDX_PREFIX : str := lit "smdx_"%string.
Definition SMDX_SUFFIX : str := lit ".xml"%string.
(** zeros before a decimal text of at least [n] characters *)
Definition zfill (n : nat) (s : str) : str := repeat 48 (n - length s) ++ s.
(** '%05d' % z: padded with zeros to 5 characters, the sign included *)
Definition format_05d (z : Z) : str :=
  if z <? 0 then 45 :: zfill 4 (dec_nonneg (- z)) else zfill 5 (dec_nonneg z).
(** smdx.py:118-120 *)
Definition model_id_to_filename (model_id : Z) : str := SMDX_PREFIX ++ format_05d model_id ++ SMDX_SUFFIX.
(** smdx.py:122-132 *)
Definition model_filename_to_id (filename : str) : option Z :=
  if eqb_list (py_slice 0 5 filename) SMDX_PREFIX && eqb_list (py_slice (-4) (zlen filename) filename) SMDX_SUFFIX then
    match int_of_str (py_slice 5 (-4) filename) with Ok z => Some z | Raise _ => None end
  else None.

(** ** Names, smdx.py:26-46 *)
Definition SMDX_MODEL := lit "model"%string.
Definition SMDX_BLOCK := lit "block"%string.
Definition SMDX_POINT := lit "point"%string.
Definition SMDX_SYMBOL := lit "symbol"%string.
Definition SMDX_STRINGS := lit "strings"%string.
Definition SMDX_LABEL := lit "label"%string.
Definition SMDX_DESCRIPTION := lit "description"%string.
Definition SMDX_NOTES := lit "notes"%string.
Definition A_ID := lit "id"%string.
Definition A_LEN := lit "len"%string.
Definition A_NAME := lit "name"%string.
Definition A_TYPE := lit "type"%string.
Definition A_OFFSET := lit "offset"%string.
Definition A_MANDATORY := lit "mandatory"%string.
Definition A_ACCESS := lit "access"%string.
Definition A_SF := lit "sf"%string.
Definition A_UNITS := lit "units"%string.
Definition get_default (k d : str) (x : xml) : str := match x_get k x with Some v => v | None => d end.

(** smdx_mandatory_types and smdx_access_types, smdx.py:76-84: both map each key to itself *)
Definition mandatory_types : list str := [lit "false"%string; lit "true"%string].
Definition access_types : list str := [lit "r"%string; lit "rw"%string].
Definition in_table (t : list str) (s : str) : option str := find (eqb_list s) t.

(** int(attribute); a missing attribute is a TypeError *)
Definition attr_int (a : option str) : res Z := match a with None => Raise EType | Some s => int_of_str s end.

(** ** Texts: label, description and notes *)
Record texts := mkTexts { tx_label : option str; tx_description : option str; tx_notes : option str }.
(** one child element in the loops of device.py:1032-1038, 1377-1382, 1457-1463 *)
Definition text_child (t : texts) (e : xml) : texts :=
  if eqb_list (x_tag e) SMDX_LABEL then mkTexts (x_text e) (tx_description t) (tx_notes t)
  else if eqb_list (x_tag e) SMDX_DESCRIPTION then mkTexts (tx_label t) (x_text e) (tx_notes t)
  else if eqb_list (x_tag e) SMDX_NOTES then mkTexts (tx_label t) (tx_description t) (x_text e)
  else t.

(** ** Symbols *)
(** Symbol.from_smdx, device.py:1456-1470 *)
Definition symbol_from_smdx (strings : bool) (s : symbol) (e : xml) : res symbol :=
  let t := fold_left text_child (x_children e) (mkTexts (sy_label s) (sy_description s) (sy_notes s)) in
  if strings then Ok (mkSym (sy_id s) (sy_value s) (tx_label t) (tx_description t) (tx_notes t))
  else match x_get A_ID e with
       | None => Raise ESunSpec
       | Some i => Ok (mkSym (Some i) (x_text e) (tx_label t) (tx_description t) (tx_notes t))
       end.
Definition new_symbol : symbol := mkSym None None None None None.

(** the Symbol objects of a model type, with their keys in the dict (see M_Device.modeltype) *)
Definition symlog := list ((option str * str) * symbol).
Definition opt_eqb (a b : option str) : bool :=
  match a, b with None, None => true | Some x, Some y => eqb_list x y | _, _ => false end.
Definition key_eqb (a b : option str * str) : bool := opt_eqb (fst a) (fst b) && eqb_list (snd a) (snd b).
(** position of the last entry with the key: ModelType.symbol_get, device.py:1060-1061 *)
Fixpoint last_index_from (n : nat) (k : option str * str) (l : symlog) (found : option nat) : option nat :=
  match l with
  | [] => found
  | (k', _) :: r => last_index_from (S n) k r (if key_eqb k k' then Some n else found)
  end.
Definition symbol_get (k : option str * str) (l : symlog) : option nat := last_index_from 0 k l None.
(** store a changed object *)
Fixpoint set_symbol (n : nat) (s : symbol) (l : symlog) : symlog :=
  match l, n with
  | [], _ => []
  | (k, _) :: r, O => (k, s) :: r
  | x :: r, S n' => x :: set_symbol n' s r
  end.
Definition get_symbol (n : nat) (l : symlog) : symbol := match nth_error l n with Some (_, s) => s | None => new_symbol end.
(** PointType.symbol_get, device.py:1409-1412 *)
Definition has_symbol (sid : option str) (l : symlog) (refs : list nat) : bool :=
  existsb (fun n => opt_eqb (sy_id (get_symbol n l)) sid) refs.

(** ** Point types *)
Definition pt_with (p : pointtype) (t : texts) (syms : list nat) : pointtype :=
  mkPT (pt_id p) (pt_offset p) (pt_type p) (pt_len p) (pt_mandatory p) (pt_access p) (pt_units p) (pt_sf p)
       (tx_label t) (tx_description t) (tx_notes t) syms.
Definition pt_texts (p : pointtype) : texts := mkTexts (pt_label p) (pt_description p) (pt_notes p).

(** one child element in the loop of device.py:1376-1407 *)
Definition point_child (strings : bool) (st : pointtype * symlog) (e : xml) : res (pointtype * symlog) :=
  let '(p, log) := st in
  if eqb_list (x_tag e) SMDX_SYMBOL then
    let sid := x_get A_ID e in
    let! (n, log1) :=
      match symbol_get (sid, pt_id p) log with
      | Some n => Ok (n, log)
      | None =>
        let! s := symbol_from_smdx strings new_symbol e in
        Ok (length log, log ++ [((sy_id s, pt_id p), s)])
      end in
    let syms := if has_symbol sid log1 (pt_symbols p) then pt_symbols p else pt_symbols p ++ [n] in
    let! s := symbol_from_smdx strings (get_symbol n log1) e in
    Ok (pt_with p (pt_texts p) syms, set_symbol n s log1)
  else Ok (pt_with p (text_child (pt_texts p) e) (pt_symbols p), log).
Fixpoint foldM {A B} (f : A -> B -> res A) (l : list B) (a : A) : res A :=
  match l with [] => Ok a | x :: r => let! a' := f a x in foldM f r a' end.

(** PointType.from_smdx(element), device.py:1335-1374 (the checks and attributes) *)
Definition point_header (e : xml) : res pointtype :=
  let! offset := attr_int (x_get A_OFFSET e) in
  match x_get A_ID e with
  | None => Raise ESunSpec
  | Some id =>
    match x_get A_TYPE e with
    | None => Raise ESunSpec
    | Some ty =>
      if eqb_list ty (lit "string"%string) && (match x_get A_LEN e with None => true | Some _ => false end) then Raise ESunSpec
      else
        match ptype_of_name ty with
        | None => Raise ESunSpec
        | Some t =>
          match in_table mandatory_types (get_default A_MANDATORY (lit "false"%string) e) with
          | None => Raise ESunSpec
          | Some m =>
            match in_table access_types (get_default A_ACCESS (lit "r"%string) e) with
            | None => Raise ESunSpec
            | Some a =>
              let! len := match x_get A_LEN e with
                          | Some l => int_of_str l
                          | None => match type_len t with Some n => Ok n | None => Raise EType end
                          end in
              Ok (mkPT id offset t len m a (x_get A_UNITS e) (x_get A_SF e) None None None [])
            end
          end
        end
    end
  end.
(** PointType().from_smdx(e), device.py:1335-1407 *)
Definition point_from_smdx (log : symlog) (e : xml) : res (pointtype * symlog) :=
  let! p := point_header e in
  foldM (point_child false) (x_children e) (p, log).
(** point_type.from_smdx(e, strings=True) *)
Definition point_strings (p : pointtype) (log : symlog) (e : xml) : res (pointtype * symlog) :=
  foldM (point_child true) (x_children e) (p, log).

(** ** Block types *)
Definition find_pt (id : str) (l : list pointtype) : option pointtype := find (fun p => eqb_list (pt_id p) id) l.
(** one point element in the loop of device.py:1174-1183 *)
Definition block_point (st : list pointtype * symlog) (e : xml) : res (list pointtype * symlog) :=
  let '(pts, log) := st in
  let! (p, log') := point_from_smdx log e in
  match find_pt (pt_id p) pts with
  | Some _ => Raise ESunSpec
  | None => Ok (pts ++ [p], log')
  end.
Definition btype_of_name (s : str) : option btype :=
  if eqb_list s (lit "fixed"%string) then Some Fixed
  else if eqb_list s (lit "repeating"%string) then Some Repeating else None.
Definition btype_name (b : btype) : str := match b with Fixed => lit "fixed"%string | Repeating => lit "repeating"%string end.
(** BlockType.from_smdx, device.py:1150-1183 *)
Definition block_from_smdx (log : symlog) (e : xml) : res (blocktype * symlog) :=
  match btype_of_name (get_default A_TYPE (lit "fixed"%string) e) with
  | None => Raise ESunSpec
  | Some bt =>
    match x_get A_LEN e with
    | None => Raise ESunSpec
    | Some len =>
      let! (pts, log') := foldM block_point (findall SMDX_POINT e) ([], log) in
      Ok (mkBT bt (BStr len) (Some (get_default A_NAME (btype_name bt) e)) pts, log')
    end
  end.

(** ** Model types *)
(** the state of the blocks while loading: fixed_block, repeating_block, symbols *)
Definition mstate := (option blocktype * option blocktype * symlog)%type.
(** one block element in the loop of device.py:1010-1024 *)
Definition model_block (st : mstate) (e : xml) : res mstate :=
  let '(fixed, rep, log) := st in
  let! (b, log') := block_from_smdx log e in
  match bt_type b with
  | Fixed => match fixed with None => Ok (Some b, rep, log') | Some _ => Raise ESunSpec end
  | Repeating => match rep with None => Ok (fixed, Some b, log') | Some _ => Raise ESunSpec end
  end.
Fixpoint set_pt (p : pointtype) (l : list pointtype) : list pointtype :=
  match l with
  | [] => []
  | q :: r => if eqb_list (pt_id q) (pt_id p) then p :: r else q :: set_pt p r
  end.
Definition bt_set (p : pointtype) (b : blocktype) : blocktype := mkBT (bt_type b) (bt_len b) (bt_name b) (set_pt p (bt_points b)).
Definition lookup_pt (pid : option str) (b : option blocktype) : option pointtype :=
  match pid, b with Some id, Some bt => find_pt id (bt_points bt) | _, _ => None end.
(** one point element of a strings section, device.py:1040-1049 *)
Definition strings_point (st : mstate) (e : xml) : res mstate :=
  let '(fixed, rep, log) := st in
  let pid := x_get A_ID e in
  match lookup_pt pid fixed with
  | Some p => let! (p', log') := point_strings p log e in Ok (option_map (bt_set p') fixed, rep, log')
  | None =>
    match lookup_pt pid rep with
    | Some p => let! (p', log') := point_strings p log e in Ok (fixed, option_map (bt_set p') rep, log')
    | None => Ok st
    end
  end.
(** str(self.id) *)
Definition id_text (id : option Z) : str := match id with Some z => str_of_int z | None => lit "None"%string end.
(** one strings section, device.py:1029-1049 *)
Definition strings_section (id : option Z) (st : texts * mstate) (s : xml) : res (texts * mstate) :=
  let '(t, ms) := st in
  if opt_eqb (x_get A_ID s) (Some (id_text id)) then
    let t' := match xfind SMDX_MODEL s with Some m => fold_left text_child (x_children m) t | None => t end in
    let! ms' := foldM strings_point (findall SMDX_POINT s) ms in
    Ok (t', ms')
  else Ok st.
(** ModelType().from_smdx(element), device.py:979-1055 *)
Definition model_from_smdx (oid : Z) (root : xml) : res modeltype :=
  let! (id, len, name, ms) :=
    match findall SMDX_MODEL root with
    | [] => Ok (None, None, None, (None, None, []))
    | m :: _ =>
      let! id := attr_int (x_get A_ID m) in
      match x_get A_LEN m with
      | None => Raise ESunSpec
      | Some l =>
        let! len := int_of_str l in
        let! ms := foldM model_block (findall SMDX_BLOCK m) (None, None, []) in
        Ok (Some id, Some len, Some (get_default A_NAME (lit "model_"%string ++ str_of_int id) m), ms)
      end
    end in
  let! (t, (fixed, rep, log)) := foldM (strings_section id) (findall SMDX_STRINGS root) (mkTexts None None None, ms) in
  Ok (mkMT oid id len name (tx_label t) (tx_description t) (tx_notes t)
           (match fixed with Some b => b | None => mkBT Fixed (BInt 0) None [] end) rep log).

(** ** model_type_get, device.py:886-933 *)
(** keys of the dict model_types: the texts looked up and the ids stored *)
Inductive tkey := KText (s : str) | KId (id : option Z).
Definition tkey_eqb (a b : tkey) : bool :=
  match a, b with
  | KText x, KText y => eqb_list x y
  | KId None, KId None => true
  | KId (Some x), KId (Some y) => x =? y
  | _, _ => false
  end.
Fixpoint tget (k : tkey) (d : list (tkey * modeltype)) : option modeltype :=
  match d with [] => None | (k', v) :: r => if tkey_eqb k k' then Some v else tget k r end.
Fixpoint tset (k : tkey) (v : modeltype) (d : list (tkey * modeltype)) : list (tkey * modeltype) :=
  match d with
  | [] => [(k, v)]
  | (k', v') :: r => if tkey_eqb k k' then (k', v) :: r else (k', v') :: tset k v r
  end.
(** the process: the dict, the number of objects created so far, and the contents parsed so far (observation) *)
Record tstate := mkTS { ts_types : list (tkey * modeltype); ts_next : Z; ts_parsed : list bytes }.
(** what the lookup depends on: the file system, the path list (file_pathlist.path or None), the working directory is
    part of [fs] (relative names), the default directory, and the parser *)
Record tenv := mkTE { te_fs : fsys; te_paths : option (list str); te_default : str; te_parse : bytes -> res xml }.

(** the data found for a file name, device.py:900-918; [None]: none or empty *)
Definition smdx_data (V : tenv) (filename : str) : res (option bytes) :=
  let! d1 := match te_paths V with
             | None => Ok None
             | Some ps => match pathlist_read (te_fs V) ps filename with
                          | Ok d => Ok (Some d)
                          | Raise EName => Ok None
                          | Raise e => Raise e
                          end
             end in
  match d1 with
  | Some (c :: d) => Ok (Some (c :: d))
  | _ =>
    let fn := if fs_exists (te_fs V) filename then filename else te_default V ++ [SEP] ++ filename in
    match te_fs V fn with
    | Some (FFile (c :: d) _) => Ok (Some (c :: d))
    | Some (FFile [] _) => Ok None
    | Some FDir => Raise ESunSpec
    | None => Ok None
    end
  end.
Definition model_type_get (V : tenv) (st : tstate) (model_id : Z) : tstate * res modeltype :=
  match tget (KText (str_of_int model_id)) (ts_types st) with
  | Some t => (st, Ok t)
  | None =>
    match smdx_data V (model_id_to_filename model_id) with
    | Raise e => (st, Raise e)
    | Ok None => (st, Raise ESunSpec)
    | Ok (Some d) =>
      match te_parse V d with
      | Raise e => (mkTS (ts_types st) (ts_next st) (ts_parsed st ++ [d]), Raise e)
      | Ok root =>
        match model_from_smdx (ts_next st) root with
        | Raise _ => (mkTS (ts_types st) (ts_next st + 1) (ts_parsed st ++ [d]), Raise ESunSpec)
        | Ok t => (mkTS (tset (KId (mt_id t)) t (ts_types st)) (ts_next st + 1) (ts_parsed st ++ [d]), Ok t)
        end
      end
    end
  end.
Definition initial_types : tstate := mkTS [] 0 [].
