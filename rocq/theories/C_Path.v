(** * C_Path: properties C64 (PathList.read), C65 (indent) and C66 (fresh_file_pathlist). *)
From Coq Require Import String.
From Verif Require Import Py P_List M_Xml M_Path S_Path P_Path.

(** ** C64: the first path that contains the file wins; NameError only if none does.  Partial: the paths must be as
    documented, without empty names, and no directory may come after a path with an existing archive. *)
Theorem C64_first_path_wins_partial :
  forall fs f ps, fs_ok fs f -> Forall documented ps -> ForallOrdPairs (fun p q => archive_exists fs p -> archive q) ps ->
  match pathlist_read fs (map path_text ps) f with
  | Ok d => exists a p b, ps = a ++ p :: b /\ contains fs p f d /\ forall q d', In q a -> ~ contains fs q f d'
  | Raise e => e = EName /\ forall q d, In q ps -> ~ contains fs q f d
  end.
Proof. intros fs f ps HF HD HO. apply (pathlist_spec fs f HF ps []); auto. Qed.
Print Assumptions C64_first_path_wins_partial.
(** refuted in general: a directory after an existing archive is not searched *)
Definition ex_fs : fsys := fun p =>
  if eqb_list p (lit "/a/m.zip"%string) then Some (FFile [80; 75] (Some (fun m => if eqb_list m (lit "dir/g.xml"%string) then Some [1] else None)))
  else if eqb_list p (lit "/b/f.xml"%string) then Some (FFile [2] None)
  else if eqb_list p (lit "/a"%string) || eqb_list p (lit "/b"%string) then Some FDir
  else None.
Theorem C64_directory_after_archive_refuted :
  let ps := [mkCP true [lit "a"; lit "m.zip"]; mkCP true [lit "b"]]%string in
  Forall documented ps /\ contains ex_fs (mkCP true [lit "b"%string]) (lit "f.xml"%string) [2] /\
  pathlist_read ex_fs (map path_text ps) (lit "f.xml"%string) = Raise EName.
Proof.
  assert (NZ : forall e, ends_with ZIP e = false -> ~ zip_name e) by (intros e H; now apply ends_with_false).
  assert (NO : forall e, e <> [] -> forallb (fun c => negb (c =? SEP)) e = true -> name_ok e).
  { intros e H1 H2. split; [exact H1|]. intros HI. rewrite forallb_forall in H2. specialize (H2 _ HI). discriminate. }
  split; [|split].
  - constructor; [|constructor; [|constructor]].
    + split; [split; [discriminate|]|].
      * constructor; [|constructor; [|constructor]]; apply NO; (discriminate || reflexivity).
      * right. exists [lit "a"%string], (lit "m.zip"%string), []. split; [reflexivity|]. split; [apply ends_with_spec; reflexivity|]. split; [|constructor]. constructor; [|constructor]. apply NZ. reflexivity.
    + split; [split; [discriminate|]|].
      * constructor; [|constructor]; apply NO; (discriminate || reflexivity).
      * left. constructor; [|constructor]. apply NZ. reflexivity.
  - eapply in_dir; [|reflexivity]. constructor; [|constructor]. apply NZ. reflexivity.
  - vm_compute. reflexivity.
Qed.
Print Assumptions C64_directory_after_archive_refuted.
(** ... and an archive path with a trailing separator never contains anything; the empty path names the root directory
    instead of the current one *)
Theorem C64_trailing_separator_refuted :
  pathlist_read ex_fs [lit "/a/m.zip/dir"%string] (lit "g.xml"%string) = Ok [1] /\
  pathlist_read ex_fs [lit "/a/m.zip/dir/"%string] (lit "g.xml"%string) = Raise EName /\
  pathlist_read (fun p => if eqb_list p (lit "/f"%string) then Some (FFile [7] None) else None) [[]] (lit "f"%string) = Ok [7].
Proof. vm_compute. auto. Qed.
Print Assumptions C64_trailing_separator_refuted.
Example C64_ex : 
  pathlist_read ex_fs [lit "x/y.zip"; lit "/b"; lit "/a/m.zip/dir"]%string (lit "f.xml"%string) = Ok [2] /\
  pathlist_read ex_fs [lit "/a"; lit "/b"; lit "/a/m.zip/dir"]%string (lit "g.xml"%string) = Ok [1] /\
  pathlist_read ex_fs [lit "/a"; lit "/b"; lit "/a/m.zip/dir"]%string (lit "h.xml"%string) = Raise EName.
Proof. vm_compute. auto. Qed.
(** a file system without archives meets [fs_ok]; any path list of directories meets the order condition *)
Example C64_ex_hyp : let fs p := if eqb_list p (lit "d/f"%string) then Some (FFile [3] None) else if eqb_list p (lit "d"%string) then Some FDir else None in
  fs_ok fs (lit "f"%string) /\ contains fs (mkCP false [lit "d"%string]) (lit "f"%string) [3].
Proof.
  intros fs. split.
  - unfold fs_ok, fs. split; [|split].
    + intros p H. destruct (eqb_list (p ++ [SEP] ++ lit "f"%string) (lit "d/f"%string)) eqn:E.
      * apply eqb_list_eq in E. change (lit "d/f"%string) with (lit "d"%string ++ [SEP] ++ lit "f"%string) in E. apply app_inv_tail in E. subst p. discriminate.
      * destruct (eqb_list (p ++ [SEP] ++ lit "f"%string) (lit "d"%string)) eqn:E2; [|congruence].
        apply eqb_list_eq in E2. apply (f_equal (@length Z)) in E2. rewrite !app_length in E2. cbn in E2. lia.
    + intros p. destruct (eqb_list _ _); [discriminate|]. destruct (eqb_list (p ++ [SEP] ++ lit "f"%string) (lit "d"%string)) eqn:E2; [|discriminate].
      apply eqb_list_eq in E2. apply (f_equal (@length Z)) in E2. rewrite !app_length in E2. cbn in E2. lia.
    + intros p n (s & ->) H. exfalso. destruct (eqb_list _ _) eqn:E1.
      * apply eqb_list_eq in E1. apply (f_equal (@rev Z)) in E1. rewrite rev_app_distr in E1. discriminate.
      * destruct (eqb_list (s ++ ZIP) (lit "d"%string)) eqn:E2; [|discriminate]. apply eqb_list_eq in E2. apply (f_equal (@rev Z)) in E2. rewrite rev_app_distr in E2. discriminate.
  - eapply in_dir; [|reflexivity]. constructor; [|constructor]. apply ends_with_false. reflexivity.
Qed.

(** ** C65: pretty printing changes only blank text around elements, and is idempotent *)
Theorem C65_content_preserved : forall level x, same_content x (indent level x).
Proof. intros. apply indent_same. Qed.
Print Assumptions C65_content_preserved.
Theorem C65_idempotent : forall level x, indent level (indent level x) = indent level x.
Proof. intros. apply indent_idem. Qed.
Print Assumptions C65_idempotent.
(** documents without mixed text come out with every element on a line of its own, two spaces per level *)
Theorem C65_layout : forall x level, no_mixed_text x -> (0 < level)%nat \/ x_children x <> [] -> laid_out level (line_start level) (indent level x).
Proof. intros. now apply indent_layout. Qed.
Print Assumptions C65_layout.
Example C65_ex : let e t c := XE (lit t) [] None None c in
  indent 0 (e "a" [e "b" [XE (lit "c") [] (Some (lit " x ")) None []]; XE (lit "d") [] None (Some (lit "tail")) []]%string)%string
  = XE (lit "a") [] (Some (nl 1)) (Some (nl 0)) [
      XE (lit "b") [] (Some (nl 2)) (Some (nl 1)) [XE (lit "c") [] (Some (lit " x ")) (Some (nl 1)) []];
      XE (lit "d") [] None (Some (lit "tail")) []]%string.
Proof. reflexivity. Qed.

(** ** C66: the path list in effect before a block is in effect after it, however the block ends and whatever it does *)
Theorem C66_path_list_restored_partial :
  forall paths body s s' r, Forall (fun a => a <> None) paths -> run (PFresh paths body) s = (s', r) -> ps_cur s' = ps_cur s.
Proof. exact fresh_cur. Qed.
Print Assumptions C66_path_list_restored_partial.
Theorem C66_program_partial : forall p s s' r, args_are_paths p -> run p s = (s', r) -> ps_cur s' = ps_cur s.
Proof. intros p s s' r HA H. exact (run_cur p HA s s' r H). Qed.
Print Assumptions C66_program_partial.
(** Not so if an argument is no path: the arguments are converted after the global variable was set and before the try
    statement, so a new list with the paths in front of that argument stays in effect for the rest of the program. *)
Theorem C66_path_list_restored_refuted :
  forall good bad_rest body s, (forall n, ps_cur s = Some n -> (n < length (ps_heap s))%nat) ->
  exists s', run (PFresh (map Some good ++ None :: bad_rest) body) s = (s', Raise EType) /\ ps_cur s' <> ps_cur s /\
    heap_get (ps_heap s') (ps_cur s') = Some good.
Proof.
  intros good rest body s HN. cbn [run]. rewrite fspaths_bad. eexists. split; [reflexivity|]. cbn [ps_cur ps_heap heap_get]. split.
  - intros G. symmetry in G. apply HN in G. lia.
  - rewrite nth_error_app2 by lia. now rewrite Nat.sub_diag.
Qed.
Print Assumptions C66_path_list_restored_refuted.
(** a block leaves the paths of the list in effect before it alone: what was added inside is gone *)
Theorem C66_outer_list_unchanged :
  forall paths body s s' r n, Forall (fun a => a <> None) paths -> run (PFresh paths body) s = (s', r) -> ps_cur s = Some n -> (n < length (ps_heap s))%nat ->
  ps_cur s' = Some n /\ heap_get (ps_heap s') (ps_cur s') = heap_get (ps_heap s) (ps_cur s).
Proof.
  intros paths body s s' r n HA H HC HN. pose proof (fresh_cur _ _ _ _ _ HA H) as EC. rewrite EC, HC. split; [reflexivity|]. cbn [heap_get].
  cbn [run] in H. destruct (fspaths_ok _ HA) as (l & El & _). rewrite El in H. destruct (run body _) as [s2 r2] eqn:E. apply pair_equal_spec in H as [<- _]. cbn [ps_heap].
  destruct (run_others _ _ _ _ E) as (_ & _ & H2). cbn [ps_heap ps_cur] in H2. rewrite app_length in H2. cbn [length] in H2.
  rewrite H2; [now rewrite nth_error_app1 by lia|lia|]. intros G. apply Some_inj in G. lia.
Qed.
Print Assumptions C66_outer_list_unchanged.
(** inside, exactly the given paths are in effect *)
Theorem C66_inside : forall paths s, exists s', run (PFresh (map Some paths) PLook) s = (s', Ok tt) /\ ps_seen s' = ps_seen s ++ [Some paths].
Proof.
  intros paths s. cbn [run]. rewrite fspaths_some. eexists. split; [reflexivity|]. cbn [run ps_seen ps_heap ps_cur heap_get]. rewrite nth_error_app2 by lia. now rewrite Nat.sub_diag.
Qed.
Print Assumptions C66_inside.
(** file_pathlist.add(path) puts the path behind those in effect *)
Theorem C66_add : forall path s n paths, ps_cur s = Some n -> nth_error (ps_heap s) n = Some paths ->
  exists s', run (PSeq (PAdd path) PLook) s = (s', Ok tt) /\ ps_seen s' = ps_seen s ++ [Some (paths ++ [path])] /\ ps_cur s' = ps_cur s.
Proof.
  intros path s n paths HC HP. cbn [run]. rewrite HC. eexists. split; [reflexivity|]. cbn [ps_seen ps_heap ps_cur heap_get]. split; [|reflexivity].
  do 2 f_equal. clear HC. revert n HP. induction (ps_heap s) as [|l h IH]; intros [|n] HP; try discriminate; cbn [heap_add nth_error] in *; auto. congruence.
Qed.
Print Assumptions C66_add.
(** without a list in effect (file_pathlist is None) it is an AttributeError, and nothing changes *)
Theorem C66_add_without_list : forall path s, ps_cur s = None -> run (PAdd path) s = (s, Raise EAttr).
Proof. intros path s HC. cbn [run]. now rewrite HC. Qed.
Print Assumptions C66_add_without_list.
Example C66_ex :
  let inner := PFresh [Some (lit "q"%string)] (PSeq (PAdd (lit "r"%string)) (PSeq PLook (PRaise EValue))) in
  let p := PSeq PLook (PSeq (PTry (PFresh [Some (lit "p"%string)] (PSeq (PTry inner PLook) (PSeq (PAdd (lit "s"%string)) (PSeq PLook inner)))) PSkip) PLook) in
  args_are_paths p /\
  let '(s, r) := run p (mkPS [[lit "base"%string]] (Some 0%nat) []) in
  r = Ok tt /\ ps_cur s = Some 0%nat /\ ps_seen s = [Some [lit "base"]; Some [lit "q"; lit "r"]; Some [lit "p"]; Some [lit "p"; lit "s"]; Some [lit "q"; lit "r"]; Some [lit "base"]]%string.
Proof. split; [repeat (split || constructor); try exact I; discriminate|vm_compute; auto]. Qed.
(** fresh_file_pathlist('a', 5) in a program that goes on: the list ['a'] stays in effect *)
Example C66_bad_argument :
  let p := PSeq (PTry (PFresh [Some (lit "a"%string); None] PSkip) PSkip) PLook in
  let '(s, r) := run p (mkPS [[lit "base"%string]] (Some 0%nat) []) in r = Ok tt /\ ps_seen s = [Some [lit "a"%string]].
Proof. vm_compute. auto. Qed.
