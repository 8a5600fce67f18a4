(** * P_Access: the requests of write_points on a device that fails at any time *)
From Coq Require Import String.
From Verif Require Import Py P_List M_Util M_Float M_Suns M_Point M_Device M_Client M_Mbmap S_Client S_Access.
Open Scope Z_scope.

Section Recording.
  Context {D : Type} (dv : mdev D).
  Lemma cl_write_recorded s lg a d : cl_write (recording dv) (s, lg) a d =
    let '(s', r) := cl_write dv s a d in ((s', lg ++ [(a, d)]), r).
  Proof. unfold cl_write, recording. cbn [dv_write fst snd]. destruct (dv_write dv s a d) as [s' [u|e]]; reflexivity. Qed.
  Lemma write_pts_recorded l : forall s lg a n d,
    exists x rest l1 l2 r1 r2,
      write_pts (recording dv) (s, lg) a n d l = ((fst (fst (write_pts dv s a n d l)), lg ++ x), l1, r1) /\
      (l1, r1) = (snd (fst (write_pts dv s a n d l)), snd (write_pts dv s a n d l)) /\
      write_pts log_dev lg a n d l = (lg ++ x ++ rest, l2, r2) /\ (forall y, r1 = Ok y -> rest = [] /\ r2 = Ok y).
  Proof.
    induction l as [|p l IH]; intros s lg a n d; cbn [write_pts].
    - exists [], [], [], [], (Ok (a, n, d)), (Ok (a, n, d)). cbn [fst snd app]. rewrite app_nil_r. repeat split; congruence.
    - destruct (p_dirty p).
      + destruct (to_data _ _ _) as [d'|e].
        2: { exists [], [], (p :: l), (p :: l), (Raise e), (Raise e). cbn [fst snd app]. rewrite app_nil_r. repeat split; congruence. }
        cbv zeta. destruct a as [a|].
        * destruct (p_addr p =? n).
          -- destruct (IH s lg (Some a) (p_addr p + pt_len (p_type p)) (d ++ d')) as (x & rest & l1 & l2 & r1 & r2 & H1 & H2 & H3 & H4).
             apply pair_equal_spec in H2 as [-> ->]. rewrite H1, H3.
             destruct (write_pts dv s _ _ _ l) as [[s2 l'] r]. cbn [fst snd] in *. exists x, rest. eexists _, _, _, r2. split; [reflexivity|]. split; [reflexivity|]. split; [reflexivity|]. exact H4.
          -- rewrite cl_write_recorded.
             change (cl_write log_dev lg a d) with (lg ++ [(a, d)], Ok tt). cbv iota beta.
             destruct (cl_write dv s a d) as [s1 [u|e]].
             ++ destruct (IH s1 (lg ++ [(a, d)]) (Some (p_addr p)) (p_addr p + pt_len (p_type p)) ([] ++ d')) as (x & rest & l1 & l2 & r1 & r2 & H1 & H2 & H3 & H4).
                apply pair_equal_spec in H2 as [-> ->]. rewrite H1, H3.
                destruct (write_pts dv s1 _ _ _ l) as [[s2 l'] r]. cbn [fst snd] in *. exists ((a, d) :: x), rest. eexists _, _, _, r2. rewrite <- !app_assoc. cbn [app].
                split; [reflexivity|]. split; [reflexivity|]. split; [reflexivity|]. exact H4.
             ++ destruct (write_pts log_dev (lg ++ [(a, d)]) (Some (p_addr p)) (p_addr p + pt_len (p_type p)) ([] ++ d') l) as [[lg2 l2] r2] eqn:EL.
                assert (HX : exists rest, lg2 = lg ++ [(a, d)] ++ rest).
                { clear - EL IH s. destruct (IH s (lg ++ [(a, d)]) (Some (p_addr p)) (p_addr p + pt_len (p_type p)) ([] ++ d')) as (x & rest & l1 & l3 & r1 & r3 & _ & _ & H3 & _).
                  rewrite H3 in EL. apply pair_equal_spec in EL as [EL _]. apply pair_equal_spec in EL as [<- _].
                  exists (x ++ rest). now rewrite <- app_assoc. }
                destruct HX as [rest ->]. exists [(a, d)], rest, (p :: l), (set_dirty p false :: l2), (Raise e), r2. cbn [fst snd].
                repeat split; congruence.
        * destruct (IH s lg (Some (p_addr p)) (p_addr p + pt_len (p_type p)) ([] ++ d')) as (x & rest & l1 & l2 & r1 & r2 & H1 & H2 & H3 & H4).
          apply pair_equal_spec in H2 as [-> ->]. rewrite H1, H3.
          destruct (write_pts dv s _ _ _ l) as [[s2 l'] r]. cbn [fst snd] in *. exists x, rest. eexists _, _, _, r2. split; [reflexivity|]. split; [reflexivity|]. split; [reflexivity|]. exact H4.
      + destruct (IH s lg a n d) as (x & rest & l1 & l2 & r1 & r2 & H1 & H2 & H3 & H4).
        apply pair_equal_spec in H2 as [-> ->]. rewrite H1, H3.
        destruct (write_pts dv s _ _ _ l) as [[s2 l'] r]. cbn [fst snd] in *. exists x, rest. eexists _, _, _, r2. split; [reflexivity|]. split; [reflexivity|]. split; [reflexivity|]. exact H4.
  Qed.
  Lemma write_blocks_recorded l : forall s lg,
    exists x rest l2 r2,
      write_blocks (recording dv) (s, lg) l =
        ((fst (fst (write_blocks dv s l)), lg ++ x), snd (fst (write_blocks dv s l)), snd (write_blocks dv s l)) /\
      write_blocks log_dev lg l = (lg ++ x ++ rest, l2, r2) /\ (snd (write_blocks dv s l) = Ok tt -> rest = [] /\ r2 = Ok tt).
  Proof.
    induction l as [|b l IH]; intros s lg; cbn [write_blocks].
    - exists [], [], [], (Ok tt). cbn [fst snd app]. rewrite app_nil_r. auto.
    - destruct (write_pts_recorded (b_points b) s lg None 0 []) as (x & rest & l1 & l2 & r1 & r2 & H1 & H2 & H3 & H4).
      rewrite H1, H3. clear H1 H3.
      destruct (write_pts dv s None 0 [] (b_points b)) as [[s1 pts] r]. cbn [fst snd] in *. apply pair_equal_spec in H2 as [-> ->].
      assert (HG : forall lg' l', exists more, fst (fst (write_blocks log_dev lg' l')) = lg' ++ more).
      { clear. intros lg' l'. revert lg'. induction l' as [|b' l' IH]; intros lg'; cbn [write_blocks fst]; [exists []; now rewrite app_nil_r|].
        assert (HP : forall ps lg0 a n d, exists more, fst (fst (write_pts log_dev lg0 a n d ps)) = lg0 ++ more).
        { clear. induction ps as [|p ps IH]; intros lg0 a n d; cbn [write_pts fst]; [exists []; now rewrite app_nil_r|].
          destruct (p_dirty p).
          - destruct (to_data _ _ _) as [d'|e]; [|exists []; now rewrite app_nil_r]. cbv zeta. destruct a as [a|].
            + destruct (p_addr p =? n).
              * destruct (IH lg0 (Some a) (p_addr p + pt_len (p_type p)) (d ++ d')) as [more H]. exists more.
                destruct (write_pts log_dev lg0 _ _ _ ps) as [[? ?] ?]. exact H.
              * change (cl_write log_dev lg0 a d) with (lg0 ++ [(a, d)], Ok tt). cbv iota.
                destruct (IH (lg0 ++ [(a, d)]) (Some (p_addr p)) (p_addr p + pt_len (p_type p)) ([] ++ d')) as [more H].
                exists ((a, d) :: more). destruct (write_pts log_dev _ _ _ _ ps) as [[? ?] ?]. cbn [fst] in *. rewrite H, <- app_assoc. reflexivity.
            + destruct (IH lg0 (Some (p_addr p)) (p_addr p + pt_len (p_type p)) ([] ++ d')) as [more H]. exists more.
              destruct (write_pts log_dev lg0 _ _ _ ps) as [[? ?] ?]. exact H.
          - destruct (IH lg0 a n d) as [more H]. exists more. destruct (write_pts log_dev lg0 _ _ _ ps) as [[? ?] ?]. exact H. }
        destruct (HP (b_points b') lg' None 0 []) as [m1 E1].
        destruct (write_pts log_dev lg' None 0 [] (b_points b')) as [[lg1 pts1] [[[a n] d]|e]]; cbn [fst] in E1; subst lg1; [|exists m1; reflexivity].
        assert (HW : exists m2, (match a with Some a0 => cl_write log_dev (lg' ++ m1) a0 d | None => (lg' ++ m1, Ok tt) end) = (lg' ++ m2, Ok tt)).
        { destruct a as [a|]; [exists (m1 ++ [(a, d)]); rewrite app_assoc; reflexivity|exists m1; reflexivity]. }
        destruct HW as [m2 ->]. destruct (IH (lg' ++ m2)) as [m3 E3].
        destruct (write_blocks log_dev (lg' ++ m2) l') as [[lg3 bs3] r3]. cbn [fst] in *. subst lg3. exists (m2 ++ m3). now rewrite app_assoc. }
      destruct r as [[[a n] d]|e].
      2: { destruct r2 as [[[a2 n2] d2]|e2].
           - destruct (match a2 with Some a0 => cl_write log_dev (lg ++ x ++ rest) a0 d2 | None => (lg ++ x ++ rest, Ok tt) end) as [lg2 r3] eqn:EW.
             assert (HW : r3 = Ok tt /\ exists m2, lg2 = lg ++ x ++ rest ++ m2).
             { destruct a2 as [a2|].
               - change (cl_write log_dev (lg ++ x ++ rest) a2 d2) with ((lg ++ x ++ rest) ++ [(a2, d2)], Ok tt) in EW.
                 apply pair_equal_spec in EW as [<- <-]. split; [reflexivity|]. exists [(a2, d2)]. now rewrite <- !app_assoc.
               - apply pair_equal_spec in EW as [<- <-]. split; [reflexivity|]. exists []. now rewrite app_nil_r. }
             destruct HW as [-> [m2 ->]]. destruct (HG (lg ++ x ++ rest ++ m2) l) as [m3 E3].
             destruct (write_blocks log_dev (lg ++ x ++ rest ++ m2) l) as [[lg3 bs3] r3]. cbn [fst] in E3. subst lg3.
             exists x, (rest ++ m2 ++ m3). eexists _, _. cbn [fst snd]. split; [reflexivity|]. rewrite <- !app_assoc. split; [reflexivity|]. discriminate.
           - exists x, rest. eexists _, _. cbn [fst snd]. split; [reflexivity|]. split; [reflexivity|]. discriminate. }
      destruct (H4 _ eq_refl) as [-> ->]. rewrite app_nil_r. destruct a as [a|].
      + rewrite cl_write_recorded.
        change (cl_write log_dev (lg ++ x) a d) with ((lg ++ x) ++ [(a, d)], Ok tt). cbv iota beta.
        destruct (cl_write dv s1 a d) as [s2 [u|e]].
        * destruct (IH s2 ((lg ++ x) ++ [(a, d)])) as (x' & rest' & l3 & r3 & G1 & G2 & G3). rewrite G1, G2.
          destruct (write_blocks dv s2 l) as [[s3 bs3] r]. cbn [fst snd] in *. exists (x ++ [(a, d)] ++ x'), rest'. eexists _, _.
          rewrite <- !app_assoc. split; [reflexivity|]. split; [reflexivity|exact G3].
        * destruct (HG ((lg ++ x) ++ [(a, d)]) l) as [m3 E3]. destruct (write_blocks log_dev ((lg ++ x) ++ [(a, d)]) l) as [[lg3 bs3] r3].
          cbn [fst] in E3. subst lg3. exists (x ++ [(a, d)]), m3. eexists _, _. cbn [fst snd]. rewrite <- !app_assoc.
          split; [reflexivity|]. split; [reflexivity|discriminate].
      + destruct (IH s1 (lg ++ x)) as (x' & rest' & l3 & r3 & G1 & G2 & G3). rewrite G1, G2.
        destruct (write_blocks dv s1 l) as [[s3 bs3] r]. cbn [fst snd] in *. exists (x ++ x'), rest'. eexists _, _.
        rewrite <- !app_assoc. split; [reflexivity|]. split; [reflexivity|exact G3].
  Qed.
  Lemma write_points_recorded s m : exists x rest m2 r2,
    write_points (recording dv) (s, []) m =
      ((fst (fst (write_points dv s m)), x), snd (fst (write_points dv s m)), snd (write_points dv s m)) /\
    write_points log_dev [] m = (x ++ rest, m2, r2) /\ (snd (write_points dv s m) = Ok tt -> rest = []).
  Proof.
    unfold write_points. destruct (write_blocks_recorded (md_blocks m) s []) as (x & rest & l2 & r2 & H1 & H2 & H3).
    rewrite H1, H2. destruct (write_blocks dv s (md_blocks m)) as [[s' bs] r]. cbn [fst snd app] in *.
    exists x, rest. eexists _, r2. split; [reflexivity|]. split; [reflexivity|]. intros H. now apply H3.
  Qed.
End Recording.
