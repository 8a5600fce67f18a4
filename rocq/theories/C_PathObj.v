(** * C_PathObj: property C121: what is in a path list, and its text.

    [prun]: a program makes Python lists and PathLists (from a list, or without), appends to the lists, adds paths, reads files
    and prints, in any order, while the files change.  It names no lists but those it made ([lists_known]). *)
From Coq Require Import String.
From Verif Require Import Py P_List S_Codec M_Suns M_Mbmap M_Path M_PathObj S_PathObj P_PathObj P_Repr.

(** the lists named in a record of operations were made before *)
Definition lists_known (t : list (pop * pout)) : Prop :=
  forall t1 a out t2, t = t1 ++ (a, out) :: t2 ->
  match a with PAppend r _ | PNew (Some r) => exists l, In (PNewList l, ONum r) t1 | _ => True end.

(** ** what a PathList holds is told by the record: made without a list, exactly the paths added to it; made from a list, what
    the list was made with, appended to it by the program, and added to any PathList made from it *)
Theorem C121_read : forall prt h fs o f s t out,
  prun prt no_objects (h ++ [(fs, PRead o f)]) = (s, t ++ [(PRead o f, out)]) -> lists_known t ->
  out = match paths_of t o with Some l => OData (pathlist_read fs l f) | None => OBad end.
Proof.
  intros prt h fs o f s t out H HK. rewrite prun_app in H. destruct (prun prt no_objects h) as [s1 t1] eqn:E. cbn [prun pstep] in H.
  assert (HT : t1 = t). { destruct (list_of s1 o) as [[k l]|]; apply pair_equal_spec in H as [_ H]; now apply app_inj_tail in H as [H _]. }
  subst t1. pose proof (inv_run prt h no_objects [] s1 t inv_start E HK) as HI. cbn [app] in HI. rewrite <- (inv_list s1 t o HI).
  destruct (list_of s1 o) as [[k l]|]; cbn [option_map snd]; apply pair_equal_spec in H as [_ H]; apply app_inj_tail in H as [_ H]; congruence.
Qed.
Print Assumptions C121_read.
Theorem C121_text : forall prt h fs o s t out,
  prun prt no_objects (h ++ [(fs, PStr o)]) = (s, t ++ [(PStr o, out)]) -> lists_known t ->
  out = match paths_of t o with Some l => OText (pathlist_str prt l) | None => OBad end.
Proof.
  intros prt h fs o s t out H HK. rewrite prun_app in H. destruct (prun prt no_objects h) as [s1 t1] eqn:E. cbn [prun pstep] in H.
  assert (HT : t1 = t). { destruct (list_of s1 o) as [[k l]|]; apply pair_equal_spec in H as [_ H]; now apply app_inj_tail in H as [H _]. }
  subst t1. pose proof (inv_run prt h no_objects [] s1 t inv_start E HK) as HI. cbn [app] in HI. rewrite <- (inv_list s1 t o HI).
  destruct (list_of s1 o) as [[k l]|]; cbn [option_map snd]; apply pair_equal_spec in H as [_ H]; apply app_inj_tail in H as [_ H]; congruence.
Qed.
Print Assumptions C121_text.

(** ** the text of a path list is a Python list display of string literals that denote its paths (eval gives the paths back), and
    path lists with the same text have the same paths in the same order *)
Theorem C121_text_is_display : forall prt l, Forall (Forall char_ok) l -> display (pathlist_str prt l) l.
Proof. intros prt l H. now apply list_display. Qed.
Print Assumptions C121_text_is_display.
(** a path is in double quotes if it has single quotes and no double quotes, in single quotes otherwise *)
Theorem C121_quotes : forall prt s, exists q b, str_repr prt s = [q] ++ b ++ [q] /\
  (In 39 s /\ ~ In 34 s -> q = 34) /\ (~ In 39 s \/ In 34 s -> q = 39).
Proof.
  intros prt s. exists (quote_for s), (flat_map (esc prt (quote_for s)) s). split; [reflexivity|].
  assert (HB : forall c, In c s <-> existsb (Z.eqb c) s = true).
  { intros c. rewrite existsb_exists. split; [intros H; exists c; split; [exact H|apply Z.eqb_refl]|intros (x & H & E); apply Z.eqb_eq in E; now subst x]. }
  rewrite !HB. unfold quote_for. destruct (existsb (Z.eqb 39) s), (existsb (Z.eqb 34) s); cbn [andb negb]; split; intros H; try reflexivity; exfalso; intuition congruence.
Qed.
Print Assumptions C121_quotes.
Theorem C121_text_tells_paths : forall prt l l', Forall (Forall char_ok) l -> Forall (Forall char_ok) l' ->
  pathlist_str prt l = pathlist_str prt l' -> l = l'.
Proof.
  intros prt l l' F1 F2 H. unfold pathlist_str, list_str in H. apply app_inv_head in H. exact (commas_inj prt l l' [] [] F1 F2 H).
Qed.
Print Assumptions C121_text_tells_paths.

(** ** a path added at the end is searched last: it changes the outcome only if the file was not found *)
Theorem C121_add_last : forall fs l more f, pathlist_read fs l f <> Raise EName -> pathlist_read fs (l ++ more) f = pathlist_read fs l f.
Proof.
  intros fs l more f. unfold pathlist_read. generalize (@nil Z). induction l as [|p l IH]; intros z H; [now exfalso; apply H|]. cbn [app pathlist_loop] in *.
  destruct (path_loop fs (split_sep p) [] z) as [fp0 zp]. destruct (negb (eqb_list zp [])).
  - destruct (fs zp) as [[|c [m|]]|]; try reflexivity. destruct (m _); [reflexivity|]. now apply IH.
  - destruct (fs _) as [[|c m]|]; try reflexivity. now apply IH.
Qed.
Print Assumptions C121_add_last.

(** ** two PathLists made from one list, one made without; the file is in b *)
Definition ex_fs : fsys := fun p => if eqb_list p (lit "b/f"%string) then Some (FFile (lit "x"%string) None) else None.
Definition ex_ops : list pop :=
  [PNewList [lit "a"%string]; PNew (Some 0%nat); PNew (Some 0%nat); PNew None; PRead 1 (lit "f"%string);
   PAdd 0 (lit "b"%string); PRead 1 (lit "f"%string); PRead 2 (lit "f"%string); PAdd 2 (lit "it's"%string); PAppend 0 [9; 233; 8364]; PStr 1].
Definition ex_trace := snd (prun (fun _ => false) no_objects (map (fun a => (ex_fs, a)) ex_ops)).
Example C121_ex : map snd ex_trace =
  [ONum 0; ONum 0; ONum 1; ONum 2; OData (Raise EName); OUnit; OData (Ok (lit "x"%string)); OData (Raise EName); OUnit; OUnit;
   OText (lit "['a', 'b', '\t\xe9\u20ac']"%string)].
Proof. vm_compute. reflexivity. Qed.
(** deciding [lists_known] *)
Fixpoint knownb (seen : list nat) (t : list (pop * pout)) : bool :=
  match t with
  | [] => true
  | (a, out) :: r => match a with PAppend n _ | PNew (Some n) => existsb (Nat.eqb n) seen | _ => true end &&
                     knownb (match a, out with PNewList _, ONum n => n :: seen | _, _ => seen end) r
  end.
Lemma knownb_ok t : forall seen t0, (forall n, In n seen -> exists l, In (PNewList l, ONum n) t0) -> knownb seen t = true ->
  forall t1 a out t2, t = t1 ++ (a, out) :: t2 -> match a with PAppend r _ | PNew (Some r) => exists l, In (PNewList l, ONum r) (t0 ++ t1) | _ => True end.
Proof.
  induction t as [|[b o] t IH]; intros seen t0 HS H t1 a out t2 E; [destruct t1; discriminate|]. cbn [knownb] in H. apply andb_true_iff in H as [H1 H2].
  destruct t1 as [|e t1]; cbn [app] in E.
  - assert (b = a) by congruence. subst b. rewrite app_nil_r. destruct a as [|r p|[r|]|o' p|o' f|o']; auto; apply existsb_exists in H1 as (n & H1 & H3); apply Nat.eqb_eq in H3; subst n; auto.
  - assert (e = (b, o)) by congruence. subst e. assert (E' : t = t1 ++ (a, out) :: t2) by congruence.
    change ((b, o) :: t1) with ([(b, o)] ++ t1). rewrite app_assoc. revert E'. apply (IH (match b, o with PNewList _, ONum n => n :: seen | _, _ => seen end) (t0 ++ [(b, o)])); [|exact H2].
    intros n Hn. assert (HC : In n seen \/ exists l, (b, o) = (PNewList l, ONum n)).
    { destruct b, o; try (left; exact Hn). destruct Hn as [<-|Hn]; [right; eexists; reflexivity|now left]. }
    destruct HC as [HC|(l & ->)]; [destruct (HS n HC) as (l & HL); exists l; apply in_or_app; now left|exists l; apply in_or_app; right; now left].
Qed.
Example C121_ex_known : lists_known ex_trace.
Proof. intros t1 a out t2. apply (knownb_ok ex_trace [] [] ltac:(intros n []) ltac:(vm_compute; reflexivity)). Qed.
(** a program that appended to a list it was not given could reach into a PathList: the condition is needed *)
Example C121_known_needed : let h := [PNew None; PAppend 0 (lit "a"%string); PStr 0] in
  let t := snd (prun (fun _ => false) no_objects (map (fun a => (ex_fs, a)) h)) in
  paths_of t 0 = Some [] /\ map snd t = [ONum 0; OUnit; OText (lit "['a']"%string)].
Proof. vm_compute. split; reflexivity. Qed.
