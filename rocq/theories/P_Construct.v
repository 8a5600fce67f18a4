(** * P_Construct *)
From Coq Require Import String.
From Verif Require Import Py P_List M_Xml M_Path M_Suns M_Float M_Mbmap M_Files M_Registry S_Registry P_Registry M_Client M_Device M_Scan M_Construct S_Construct.

Lemma dev_open_client slave name baud parity can s s' d : dev_open slave name baud parity can s = (s', Ok d) ->
  exists c, client_of s' d = Some c /\ d = length (r_devices s).
Proof.
  unfold dev_open. destruct (M_Registry.rtu_client name baud parity can s) as [s1 [c|e]] eqn:E; [|congruence].
  intros H. apply pair_equal_spec in H as [H1 H2]. apply Ok_inj in H2. subst s' d. exists c.
  unfold client_of. cbn [r_devices set_client]. rewrite nth_error_app2 by lia. rewrite Nat.sub_diag. split; [reflexivity|].
  unfold M_Registry.rtu_client in E. destruct (dget name (r_registry s)).
  - destruct (match baud with Some b => negb _ | None => _ end); [congruence|].
    destruct (match parity with Some b => negb _ | None => _ end); [congruence|]. apply pair_equal_spec in E as [<- _]. reflexivity.
  - destruct can; [|congruence]. apply pair_equal_spec in E as [<- _]. reflexivity.
Qed.
Lemma dev_open_fail slave name baud parity can s s' e : dev_open slave name baud parity can s = (s', Raise e) ->
  s' = s /\ e = EModbusClient.
Proof.
  unfold dev_open, M_Registry.rtu_client. destruct (dget name (r_registry s)).
  - destruct (match baud with Some b => negb _ | None => _ end); [intros; split; congruence|].
    destruct (match parity with Some b => negb _ | None => _ end); intros; split; congruence.
  - destruct can; intros; split; congruence.
Qed.
Lemma prun_snoc evs ev : prun (evs ++ [ev]) = pstep ev (prun evs).
Proof. unfold prun. now rewrite fold_left_app. Qed.
Lemma last_given_snoc c l e : last_given c (l ++ [e]) = if (fst e =? c)%nat then match snd e with Some x => x | None => last_given c l end else last_given c l.
Proof. unfold last_given. now rewrite fold_left_app. Qed.

Lemma timeout_spec evs c : pt_timeout (fst (prun evs)) c = last_given c (snd (prun evs)).
Proof.
  induction evs as [|ev evs IH] using rev_ind; [reflexivity|]. rewrite prun_snoc. destruct (prun evs) as [s l]. cbn [fst snd] in IH.
  destruct ev as [slave name baud parity timeout can|d]; cbn [pstep fst snd].
  - unfold rtu_construct. destruct (dev_open slave name baud parity can (pt_reg s)) as [r1 [d|e]] eqn:EO; [|exact IH].
    destruct (dev_open_client _ _ _ _ _ _ _ _ EO) as (k & HK & _). unfold client_of in HK.
    destruct (nth_error (r_devices r1) d) as [dv|] eqn:EN; [|discriminate]. cbn [option_map] in HK. apply Some_inj in HK. subst k.
    destruct timeout as [t|].
    + destruct (t <? 0) eqn:ET; cbn [fst snd]; [exact IH|]. cbn [pt_timeout pt_reg]. unfold client_of. rewrite EN. cbn [option_map].
      rewrite last_given_snoc. cbn [fst snd]. rewrite (Nat.eqb_sym (d_client dv) c). destruct (c =? d_client dv)%nat; [reflexivity|exact IH].
    + cbn [fst snd pt_timeout pt_reg]. unfold client_of. rewrite EN. cbn [option_map]. rewrite last_given_snoc. cbn [fst snd].
      destruct (d_client dv =? c)%nat; exact IH.
  - exact IH.
Qed.
Lemma last_given_one c t a b : (forall e, In e (a ++ b) -> fst e <> c) -> last_given c (a ++ (c, t) :: b) = match t with Some x => x | None => 500 end.
Proof.
  intros H. assert (HA : forall l x, (forall e : nat * option Z, In e l -> fst e <> c) -> 
    fold_left (fun t e => if (fst e =? c)%nat then match snd e with Some x => x | None => t end else t) l x = x).
  { clear. induction l as [|e l IH]; intros x H; [reflexivity|]. cbn [fold_left]. destruct (Nat.eqb_spec (fst e) c) as [E|E].
    - destruct (H e); [now left|exact E].
    - apply IH. intros e' He. apply H. now right. }
  unfold last_given. rewrite fold_left_app. cbn [fold_left fst snd]. rewrite Nat.eqb_refl.
  rewrite (HA b) by (intros e He; apply H; apply in_or_app; right; exact He).
  rewrite (HA a) by (intros e He; apply H; apply in_or_app; left; exact He). reflexivity.
Qed.

(** scanning a device without transport *)
Lemma scan_no_client {D} lfuel types progress fuel (s : D) :
  scan no_client lfuel types progress fuel s new_cdevice = (s, new_cdevice, Raise ESunSpecClient).
Proof. reflexivity. Qed.
