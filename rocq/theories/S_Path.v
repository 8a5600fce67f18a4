(** * S_Path: path lists, pretty printing, temporary path lists (specification, C64-C66). *)
From Coq Require Import String.
From Verif Require Import Py M_Xml M_Path.

(** ** C64 *)
(** a path as its names: relative or absolute, no empty names *)
Record cpath := mkCP { cp_abs : bool; cp_names : list str }.
Definition name_ok (e : str) : Prop := e <> [] /\ ~ In SEP e.
Definition path_ok (p : cpath) : Prop := cp_names p <> [] /\ Forall name_ok (cp_names p).
Fixpoint join (l : list str) : str :=
  match l with [] => [] | [e] => e | e :: r => e ++ [SEP] ++ join r end.
Definition path_text (p : cpath) : str := (if cp_abs p then [SEP] else []) ++ join (cp_names p).
Definition zip_name (e : str) : Prop := exists s, e = s ++ ZIP.

(** the path [p] contains the file [f] with content [d]: in a directory, or in a zip archive named in the path *)
Inductive contains (fs : fsys) (p : cpath) (f : str) : bytes -> Prop :=
| in_dir d m : Forall (fun e => ~ zip_name e) (cp_names p) -> fs (path_text p ++ [SEP] ++ f) = Some (FFile d m) -> contains fs p f d
| in_zip pre z post c members d : cp_names p = pre ++ z :: post -> zip_name z ->
    fs (path_text (mkCP (cp_abs p) (pre ++ [z]))) = Some (FFile c (Some members)) -> members (join (post ++ [f])) = Some d -> contains fs p f d.

(** paths as documented: at most one name ends in .zip *)
Definition documented (p : cpath) : Prop := path_ok p /\
  (Forall (fun e => ~ zip_name e) (cp_names p) \/
   exists pre z post, cp_names p = pre ++ z :: post /\ zip_name z /\ Forall (fun e => ~ zip_name e) pre /\ Forall (fun e => ~ zip_name e) post).
Definition archive (p : cpath) : Prop := exists z, In z (cp_names p) /\ zip_name z.
(** the archive a path names exists *)
Definition archive_exists (fs : fsys) (p : cpath) : Prop :=
  exists pre z post, cp_names p = pre ++ z :: post /\ zip_name z /\ fs (path_text (mkCP (cp_abs p) (pre ++ [z]))) <> None.

(** file systems: what is in a directory has a directory; what is called .zip is an archive, and the file sought is
    not a directory *)
Definition fs_ok (fs : fsys) (f : str) : Prop :=
  (forall p, fs (p ++ [SEP] ++ f) <> None -> fs p <> None) /\
  (forall p, fs (p ++ [SEP] ++ f) <> Some FDir) /\
  (forall p n, zip_name p -> fs p = Some n -> exists c m, n = FFile c (Some m)).

(** ** C65 *)
(** the characters str.isspace() accepts; absent text and text of these only is blank *)
Definition white_space : list Z := [9; 10; 11; 12; 13; 28; 29; 30; 31; 32; 133; 160; 5760; 8192; 8193; 8194; 8195; 8196; 8197; 8198; 8199;
  8200; 8201; 8202; 8232; 8233; 8239; 8287; 12288].
Definition white (s : option str) : Prop := match s with None => True | Some t => Forall (fun c => In c white_space) t end.
(** a new line followed by two spaces per level *)
Definition line_start (level : nat) : str := 10 :: concat (repeat [32; 32] level).
(** text may only change if it was blank, and stays blank *)
Definition kept (s s' : option str) : Prop := s' = s \/ (white s /\ white s').
Inductive same_content : xml -> xml -> Prop :=
| sc_leaf tag attrs text tail tail' : kept tail tail' -> same_content (XE tag attrs text tail []) (XE tag attrs text tail' [])
| sc_node tag attrs text text' tail tail' cs cs' : kept text text' -> kept tail tail' -> Forall2 same_content cs cs' ->
    same_content (XE tag attrs text tail cs) (XE tag attrs text' tail' cs').
(** element trees without text between the elements *)
Inductive no_mixed_text : xml -> Prop :=
| nm_leaf tag attrs text tail : white tail -> no_mixed_text (XE tag attrs text tail [])
| nm_node tag attrs text tail cs : white text -> white tail -> Forall no_mixed_text cs -> no_mixed_text (XE tag attrs text tail cs).
(** every child on a line of its own, two more spaces in than its parent: [laid_out level tail x] *)
Inductive laid_out : nat -> str -> xml -> Prop :=
| lo_leaf level tail tag attrs text : laid_out level tail (XE tag attrs text (Some tail) [])
| lo_node level tail tag attrs cs last : Forall (laid_out (S level) (line_start (S level))) cs -> laid_out (S level) (line_start level) last ->
    laid_out level tail (XE tag attrs (Some (line_start (S level))) (Some tail) (cs ++ [last])).

(** ** C66 *)
(** every argument of every fresh_file_pathlist call of the program is a path *)
Fixpoint args_are_paths (p : prog) : Prop :=
  match p with
  | PSeq a b | PTry a b => args_are_paths a /\ args_are_paths b
  | PFresh paths body => Forall (fun a => a <> None) paths /\ args_are_paths body
  | _ => True
  end.
