(** * M_Path: model of sunspec/core/util.py:160-173 (indent) and 178-259 (PathList), and of
    sunspec/core/device.py:46-59 (fresh_file_pathlist).

    Files are looked up on a POSIX system (os.sep is '/'); the file system does not change during a call. *)
From Coq Require Import String.
From Verif Require Import Py M_Xml.

(** ** PathList *)
(** The file system (environment): what a path names.  For a file: its content and, if it is a zip archive, its
    members. *)
Inductive fnode := FDir | FFile (content : bytes) (members : option (str -> option bytes)).
Definition fsys := str -> option fnode.

Definition SEP : Z := 47.
(** str.split(os.sep) *)
Fixpoint split_sep (s : str) : list str :=
  match s with
  | [] => [[]]
  | c :: r => if c =? SEP then [] :: split_sep r
              else match split_sep r with [] => [[c]] | w :: l => (c :: w) :: l end
  end.
(** str.endswith *)
Definition ends_with (suffix s : str) : bool :=
  (zlen suffix <=? zlen s) && eqb_list (zdrop (zlen s - zlen suffix) s) suffix.
Definition ZIP : str := lit ".zip"%string.
Definition fs_exists (fs : fsys) (p : str) : bool := match fs p with Some _ => true | None => false end.

(** the loop over the elements of one path, util.py:215-230; state: file_path and zip_file_path.  [sep] is '/' in
    either of its two values. *)
Fixpoint path_loop (fs : fsys) (els : list str) (file_path zip_file_path : str) : str * str :=
  match els with
  | [] => (file_path, zip_file_path)
  | e :: r =>
    let fp1 := match e with
               | [] => file_path ++ [SEP]
               | _ => if negb (eqb_list file_path []) && negb (eqb_list file_path [SEP]) then file_path ++ [SEP] else file_path
               end in
    let fp2 := fp1 ++ e in
    if ends_with ZIP e then
      if fs_exists fs fp2 then path_loop fs r [] fp2
      else (fp2, [])       (* break *)
    else path_loop fs r fp2 zip_file_path
  end.
(** PathList.read, util.py:205-251.  zip_file_path is set before the loop over the paths and keeps its value from one
    path to the next.  zipfile.ZipFile of something that is no archive, and open() of a directory, raise (EOS). *)
Fixpoint pathlist_loop (fs : fsys) (paths : list str) (filename zip_file_path : str) : res bytes :=
  match paths with
  | [] => Raise EName
  | p :: r =>
    let '(fp0, zp) := path_loop fs (split_sep p) [] zip_file_path in
    let fp1 := if negb (eqb_list fp0 []) && negb (eqb_list fp0 [SEP]) then fp0 ++ [SEP] else fp0 in
    let fp := fp1 ++ filename in
    if negb (eqb_list zp []) then
      match fs zp with
      | Some (FFile _ (Some members)) => match members fp with Some d => Ok d | None => pathlist_loop fs r filename zp end
      | _ => Raise EOS
      end
    else
      match fs fp with
      | Some (FFile d _) => Ok d
      | Some FDir => Raise EOS
      | None => pathlist_loop fs r filename zp
      end
  end.
Definition pathlist_read (fs : fsys) (paths : list str) (filename : str) : res bytes := pathlist_loop fs paths filename [].

(** ** indent, util.py:160-173 *)
(** str.isspace characters (Unicode White_Space and the separators \x1c-\x1f), as removed by str.strip() *)
Definition is_space (c : Z) : bool :=
  ((9 <=? c) && (c <=? 13)) || ((28 <=? c) && (c <=? 32)) || (c =? 133) || (c =? 160) || (c =? 5760) ||
  ((8192 <=? c) && (c <=? 8202)) || (c =? 8232) || (c =? 8233) || (c =? 8239) || (c =? 8287) || (c =? 12288).
(** not s or not s.strip() *)
Definition blank (s : option str) : bool := match s with None => true | Some t => forallb is_space t end.
(** "\n" + level*"  " *)
Definition nl (level : nat) : str := 10 :: repeat 32 (2 * level).
Definition set_if_blank (new : str) (s : option str) : option str := if blank s then Some new else s.
Definition set_tail (t : option str) (x : xml) : xml := match x with XE a b c _ d => XE a b c t d end.
(** apply [f] to the last element of a list *)
Fixpoint on_last {A} (f : A -> A) (l : list A) : list A :=
  match l with [] => [] | [x] => [f x] | x :: r => x :: on_last f r end.
(** In the [for elem in elem] loop the name elem is rebound, so the last statement sets the tail of the last child
    (170-171).  The elements of a tree are distinct objects, and no element contains itself. *)
Fixpoint indent (level : nat) (x : xml) : xml :=
  match x with
  | XE tag attrs text tail children =>
    let i := nl level in
    match children with
    | [] => XE tag attrs text (match level with O => tail | _ => set_if_blank i tail end) []
    | _ => XE tag attrs (set_if_blank (i ++ [32; 32]) text) (set_if_blank i tail)
              (on_last (fun c => set_tail (set_if_blank i (x_tail c)) c) (map (indent (S level)) children))
    end
  end.

(** ** fresh_file_pathlist, device.py:46-59: programs that use it *)
(** A program of [with fresh_file_pathlist( *paths):] blocks, reads of the path list in effect, additions to it
    (file_pathlist.add), sequences, raised exceptions and try/except.  The global variable is a reference: path lists
    are objects in a heap (their paths), [None] is Python's None. *)
Inductive prog :=
| PSkip
| PLook                                  (* observe the paths in effect *)
| PAdd (path : str)                      (* device.file_pathlist.add(path) *)
| PSeq (a b : prog)
| PRaise (e : exn)
| PTry (body handler : prog)
| PFresh (paths : list (option str)) (body : prog).   (* [None]: an object os.fspath rejects with a TypeError *)
(** the loop of device.py:53-54: the paths added, and whether all arguments were paths *)
Fixpoint fspaths (paths : list (option str)) : list str * bool :=
  match paths with
  | [] => ([], true)
  | None :: _ => ([], false)
  | Some p :: r => let '(l, ok) := fspaths r in (p :: l, ok)
  end.
Record pstate := mkPS { ps_heap : list (list str); ps_cur : option nat; ps_seen : list (option (list str)) }.
Definition heap_get (h : list (list str)) (r : option nat) : option (list str) := match r with None => None | Some n => nth_error h n end.
Fixpoint heap_add (h : list (list str)) (n : nat) (p : str) : list (list str) :=
  match h, n with
  | [], _ => []
  | l :: r, O => (l ++ [p]) :: r
  | l :: r, S n' => l :: heap_add r n' p
  end.
Fixpoint run (p : prog) (s : pstate) : pstate * res unit :=
  match p with
  | PSkip => (s, Ok tt)
  | PLook => (mkPS (ps_heap s) (ps_cur s) (ps_seen s ++ [heap_get (ps_heap s) (ps_cur s)]), Ok tt)
  | PAdd path => match ps_cur s with
                 | None => (s, Raise EAttr)
                 | Some n => (mkPS (heap_add (ps_heap s) n path) (ps_cur s) (ps_seen s), Ok tt)
                 end
  | PSeq a b => match run a s with (s', Ok _) => run b s' | r => r end
  | PRaise e => (s, Raise e)
  | PTry a h => match run a s with (s', Raise _) => run h s' | r => r end
  | PFresh paths body =>
    let original := ps_cur s in                                       (* 50 *)
    let '(added, ok) := fspaths paths in
    let s1 := mkPS (ps_heap s ++ [added]) (Some (length (ps_heap s))) (ps_seen s) in   (* 51-54 *)
    if ok then
      let '(s2, r) := run body s1 in
      (mkPS (ps_heap s2) original (ps_seen s2), r)                    (* finally, 58-59 *)
    else (s1, Raise EType)                                            (* raised before the try statement *)
  end.
