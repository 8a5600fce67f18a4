(** * P_XmlText: what is written is read again *)
From Coq Require Import String.
From Verif Require Import Py P_List M_Util M_Suns M_Xml M_XmlText S_Codec S_XmlText P_IntText P_Path.
Open Scope Z_scope.

(** texts that are read as they are *)
Definition kept_text (t : option str) : Prop :=
  match t with None => True | Some s => s <> [] /\ Forall (fun c => xml_char c /\ c <> 13) s end.
Inductive kept_tree : xml -> Prop :=
| kept_elem tag attrs text tail children :
    plain_name tag ->
    Forall (fun kv => plain_name (fst kv) /\ Forall xml_char (snd kv)) attrs -> NoDup (map fst attrs) ->
    kept_text text -> kept_text tail -> Forall kept_tree children ->
    kept_tree (XE tag attrs text tail children).

Notation enc := (flat_map ascii).
Lemma enc_app a b : enc (a ++ b) = enc a ++ enc b.
Proof. apply flat_map_app. Qed.
Lemma enc_ascii s : Forall (fun c => c < 128) s -> enc s = s.
Proof.
  induction 1 as [|c s H _ IH]; [reflexivity|]. cbn [flat_map]. unfold ascii at 1. destruct (Z.ltb_spec c 128); [|lia]. cbn [app]. now rewrite IH.
Qed.

(** ** characters *)
Lemma xml_char_b c : xml_char c -> is_xml_char c = true.
Proof.
  unfold xml_char, is_xml_char. rewrite !Bool.orb_true_iff, !Bool.andb_true_iff, !Z.leb_le, !Z.eqb_eq. tauto.
Qed.
Lemma name_char_b c : name_char c -> is_name_char c = true /\ c < 128 /\ c <> 13.
Proof.
  unfold name_char, letter, is_name_char, is_alpha. rewrite !Bool.orb_true_iff, !Bool.andb_true_iff, !Z.leb_le, !Z.eqb_eq. lia.
Qed.
Lemma letter_b c : letter c -> is_alpha c = true.
Proof. unfold letter, is_alpha. rewrite !Bool.orb_true_iff, !Bool.andb_true_iff, !Z.leb_le, !Z.eqb_eq. lia. Qed.
Lemma plain_chars n : plain_name n -> Forall name_char n.
Proof. intros (c & r & -> & H1 & H2). constructor; [now left|exact H2]. Qed.
Lemma plain_enc n : plain_name n -> enc n = n.
Proof. intros H. apply enc_ascii. eapply Forall_impl; [|apply plain_chars, H]. intros c Hc. now apply name_char_b in Hc. Qed.
Definition not_name (s : str) : Prop := match s with [] => True | c :: _ => is_name_char c = false end.
Lemma span_app f n s : Forall (fun c => f c = true) n -> match s with [] => True | c :: _ => f c = false end -> span f (n ++ s) = (n, s).
Proof.
  intros H HS. induction H as [|c n Hc _ IH]; cbn [app span].
  - destruct s as [|c s]; [reflexivity|]. cbn [span]. now rewrite HS.
  - rewrite Hc, IH. reflexivity.
Qed.
Lemma parse_name_ok n s : plain_name n -> not_name s -> parse_name (n ++ s) = Ok (n, s).
Proof.
  intros HN HS. unfold parse_name. rewrite span_app.
  - destruct HN as (c & r & -> & H & _). now rewrite letter_b.
  - eapply Forall_impl; [|apply plain_chars, HN]. intros c Hc. now apply name_char_b in Hc.
  - exact HS.
Qed.

(** ** references *)
Lemma number_fold s : forall acc, Forall (fun c => 48 <= c <= 57) s ->
  number 10 acc s = Some (fold_left (fun a c => a * 10 + (c - 48)) s acc).
Proof.
  induction s as [|c s IH]; intros acc H; [reflexivity|]. inversion H as [|? ? Hc HS]; subst. cbn [number fold_left].
  unfold hex_value, is_digit. destruct (Z.leb_spec 48 c); [|lia]. destruct (Z.leb_spec c 57); [|lia]. cbn [andb].
  destruct (Z.ltb_spec (c - 48) 10); [|lia]. now rewrite IH.
Qed.
Lemma reference_dec c : xml_char c -> reference (35 :: str_of_int c) = Ok c.
Proof.
  intros H. assert (H0 : 0 <= c) by (unfold xml_char in H; lia).
  destruct (str_of_int_canonical c) as (ds & E & HNE & _ & HF & HV). rewrite (proj2 (Z.ltb_ge c 0) H0) in E. cbn [app] in E. rewrite E.
  unfold reference.
  replace (eqb_list (35 :: ds) (lit "lt"%string)) with false by reflexivity. replace (eqb_list (35 :: ds) (lit "gt"%string)) with false by reflexivity.
  replace (eqb_list (35 :: ds) (lit "amp"%string)) with false by reflexivity. replace (eqb_list (35 :: ds) (lit "quot"%string)) with false by reflexivity.
  replace (eqb_list (35 :: ds) (lit "apos"%string)) with false by reflexivity. rewrite Z.eqb_refl.
  destruct ds as [|x hex]; [congruence|]. inversion HF as [|? ? Hx _]; subst. destruct (Z.eqb_spec x 120); [lia|].
  rewrite number_fold by exact HF. rewrite HV, Z.abs_eq by exact H0. now rewrite xml_char_b.
Qed.
Lemma int_no_semicolon c : 0 <= c -> ~ In 59 (str_of_int c).
Proof.
  intros H0. destruct (str_of_int_canonical c) as (ds & E & HNE & _ & HF & HV). rewrite (proj2 (Z.ltb_ge c 0) H0) in E. cbn [app] in E. rewrite E.
  rewrite Forall_forall in HF. intros HI. apply HF in HI. lia.
Qed.
Lemma text_pend b : forall a s, ~ In 59 b ->
  text_run (Some a) (b ++ 59 :: s) = (let! z := reference (a ++ b) in let! (v, r) := text_run None s in Ok (z :: v, r)).
Proof.
  induction b as [|c b IH]; intros a s H; cbn [app text_run].
  - rewrite app_nil_r. reflexivity.
  - destruct (Z.eqb_spec c 59) as [->|NE]; [exfalso; apply H; now left|]. rewrite IH by (intros HI; apply H; now right). now rewrite <- app_assoc.
Qed.
Lemma attr_pend q b : forall a s, ~ In 59 b ->
  attr_value q (Some a) (b ++ 59 :: s) = (let! z := reference (a ++ b) in let! (v, r) := attr_value q None s in Ok (z :: v, r)).
Proof.
  induction b as [|c b IH]; intros a s H; cbn [app attr_value].
  - rewrite app_nil_r. reflexivity.
  - destruct (Z.eqb_spec c 59) as [->|NE]; [exfalso; apply H; now left|]. rewrite IH by (intros HI; apply H; now right). now rewrite <- app_assoc.
Qed.
Lemma ascii_big c : 128 <= c -> ascii c = 38 :: (35 :: str_of_int c) ++ [59].
Proof. intros H. unfold ascii. destruct (Z.ltb_spec c 128); [lia|]. reflexivity. Qed.
Lemma text_char c s : xml_char c ->
  text_run None (enc (esc_text c) ++ s) = (let! (v, r) := text_run None s in Ok (c :: v, r)).
Proof.
  intros H. unfold esc_text.
  destruct (Z.eqb_spec c 38) as [->|N1]; [change (enc (lit "&amp;"%string) ++ s) with (38 :: [97; 109; 112] ++ 59 :: s);
    cbn [text_run Z.eqb Pos.eqb]; rewrite text_pend by (cbn; lia); reflexivity|].
  destruct (Z.eqb_spec c 60) as [->|N2]; [change (enc (lit "&lt;"%string) ++ s) with (38 :: [108; 116] ++ 59 :: s);
    cbn [text_run Z.eqb Pos.eqb]; rewrite text_pend by (cbn; lia); reflexivity|].
  destruct (Z.eqb_spec c 62) as [->|N3]; [change (enc (lit "&gt;"%string) ++ s) with (38 :: [103; 116] ++ 59 :: s);
    cbn [text_run Z.eqb Pos.eqb]; rewrite text_pend by (cbn; lia); reflexivity|].
  cbn [flat_map]. rewrite app_nil_r. destruct (Z_lt_ge_dec c 128) as [HA|HA].
  - unfold ascii. destruct (Z.ltb_spec c 128); [|lia]. cbn [app text_run].
    destruct (Z.eqb_spec c 60); [lia|]. destruct (Z.eqb_spec c 38); [lia|]. rewrite xml_char_b by exact H. reflexivity.
  - rewrite ascii_big by lia. cbn [app]. rewrite <- app_assoc. cbn [app]. change (text_run None (38 :: 35 :: str_of_int c ++ 59 :: s)) with (text_run (Some []) ((35 :: str_of_int c) ++ 59 :: s)).
    rewrite text_pend by (cbn [In]; intros [?|HI]; [lia|]; revert HI; apply int_no_semicolon; lia). cbn [app]. rewrite reference_dec by exact H. reflexivity.
Qed.
Lemma attr_char c s : xml_char c ->
  attr_value 34 None (enc (esc_attr c) ++ s) = (let! (v, r) := attr_value 34 None s in Ok (c :: v, r)).
Proof.
  intros H. unfold esc_attr.
  destruct (Z.eqb_spec c 34) as [->|M1]; [change (enc (lit "&quot;"%string) ++ s) with (38 :: [113; 117; 111; 116] ++ 59 :: s);
    cbn [attr_value Z.eqb Pos.eqb]; rewrite attr_pend by (cbn; lia); reflexivity|].
  destruct (Z.eqb_spec c 13) as [->|M2]; [change (enc (lit "&#13;"%string) ++ s) with (38 :: [35; 49; 51] ++ 59 :: s);
    cbn [attr_value Z.eqb Pos.eqb]; rewrite attr_pend by (cbn; lia); reflexivity|].
  destruct (Z.eqb_spec c 10) as [->|M3]; [change (enc (lit "&#10;"%string) ++ s) with (38 :: [35; 49; 48] ++ 59 :: s);
    cbn [attr_value Z.eqb Pos.eqb]; rewrite attr_pend by (cbn; lia); reflexivity|].
  destruct (Z.eqb_spec c 9) as [->|M4]; [change (enc (lit "&#09;"%string) ++ s) with (38 :: [35; 48; 57] ++ 59 :: s);
    cbn [attr_value Z.eqb Pos.eqb]; rewrite attr_pend by (cbn; lia); reflexivity|].
  unfold esc_text.
  destruct (Z.eqb_spec c 38) as [->|N1]; [change (enc (lit "&amp;"%string) ++ s) with (38 :: [97; 109; 112] ++ 59 :: s);
    cbn [attr_value Z.eqb Pos.eqb]; rewrite attr_pend by (cbn; lia); reflexivity|].
  destruct (Z.eqb_spec c 60) as [->|N2]; [change (enc (lit "&lt;"%string) ++ s) with (38 :: [108; 116] ++ 59 :: s);
    cbn [attr_value Z.eqb Pos.eqb]; rewrite attr_pend by (cbn; lia); reflexivity|].
  destruct (Z.eqb_spec c 62) as [->|N3]; [change (enc (lit "&gt;"%string) ++ s) with (38 :: [103; 116] ++ 59 :: s);
    cbn [attr_value Z.eqb Pos.eqb]; rewrite attr_pend by (cbn; lia); reflexivity|].
  cbn [flat_map]. rewrite app_nil_r. destruct (Z_lt_ge_dec c 128) as [HA|HA].
  - unfold ascii. destruct (Z.ltb_spec c 128); [|lia]. cbn [app attr_value].
    destruct (Z.eqb_spec c 34); [lia|]. destruct (Z.eqb_spec c 60); [lia|]. destruct (Z.eqb_spec c 38); [lia|]. rewrite xml_char_b by exact H.
    cbn [negb]. replace (if is_ws c then 32 else c) with c; [reflexivity|].
    unfold is_ws. destruct (Z.eqb_spec c 32); [subst; reflexivity|]. destruct (Z.eqb_spec c 9); [lia|].
    destruct (Z.eqb_spec c 10); [lia|]. destruct (Z.eqb_spec c 13); [lia|]. reflexivity.
  - rewrite ascii_big by lia. cbn [app]. rewrite <- app_assoc. cbn [app]. change (attr_value 34 None (38 :: 35 :: str_of_int c ++ 59 :: s)) with (attr_value 34 (Some []) ((35 :: str_of_int c) ++ 59 :: s)).
    rewrite attr_pend by (cbn [In]; intros [?|HI]; [lia|]; revert HI; apply int_no_semicolon; lia). cbn [app]. rewrite reference_dec by exact H. reflexivity.
Qed.
Lemma text_ok t s : Forall xml_char t -> (match s with [] => True | c :: _ => c = 60 end) ->
  text_run None (enc (flat_map esc_text t) ++ s) = Ok (t, s).
Proof.
  intros H HS. induction H as [|c t Hc _ IH]; cbn [flat_map].
  - cbn [app]. destruct s as [|c s]; [reflexivity|]. subst c. reflexivity.
  - rewrite enc_app, <- app_assoc, text_char by exact Hc. rewrite IH. reflexivity.
Qed.
Lemma attr_ok t s : Forall xml_char t -> attr_value 34 None (enc (flat_map esc_attr t) ++ 34 :: s) = Ok (t, s).
Proof.
  intros H. induction H as [|c t Hc _ IH]; cbn [flat_map].
  - reflexivity.
  - rewrite enc_app, <- app_assoc, attr_char by exact Hc. rewrite IH. reflexivity.
Qed.

(** ** attributes *)
Lemma plain_skip n s : plain_name n -> skip (n ++ s) = n ++ s.
Proof.
  intros (c & r & -> & H & _). unfold skip. cbn [app span]. replace (is_ws c) with false; [reflexivity|].
  unfold letter, is_ws in *. destruct (Z.eqb_spec c 32); [lia|]. destruct (Z.eqb_spec c 9); [lia|]. destruct (Z.eqb_spec c 10); [lia|].
  destruct (Z.eqb_spec c 13); [lia|]. reflexivity.
Qed.
Lemma skip_space s : skip (32 :: s) = skip s.
Proof. unfold skip. cbn [span is_ws Z.eqb Pos.eqb orb]. destruct (span is_ws s). reflexivity. Qed.
Lemma dget_none (k : str) (acc : list (str * str)) : ~ In k (map fst acc) -> dget k acc = None.
Proof.
  induction acc as [|[k' v] acc IH]; intros H; [reflexivity|]. cbn [dget map fst In] in *.
  destruct (eqb_list k k') eqn:E; [apply eqb_list_eq in E; subst; tauto|]. apply IH. tauto.
Qed.
Lemma enc_attr k v : plain_name k -> enc (ser_attr (k, v)) = 32 :: k ++ 61 :: 34 :: enc (flat_map esc_attr v) ++ [34].
Proof. intros H. unfold ser_attr. cbn [fst snd]. rewrite !enc_app, (plain_enc k) by exact H. reflexivity. Qed.
Lemma attrs_ok attrs : Forall (fun kv => plain_name (fst kv) /\ Forall xml_char (snd kv)) attrs ->
  forall fuel acc s, NoDup (map fst (acc ++ attrs)) ->
  parse_attrs (length attrs + fuel) acc (enc (flat_map ser_attr attrs) ++ s) = parse_attrs fuel (acc ++ attrs) s.
Proof.
  induction 1 as [|[k v] attrs [HK HV] _ IH]; intros fuel acc s HD.
  - cbn [length Nat.add flat_map app]. now rewrite app_nil_r.
  - cbn [length Nat.add flat_map]. cbn [fst snd] in HK, HV. rewrite enc_app, enc_attr, <- app_assoc by exact HK.
    cbn [app]. rewrite <- app_assoc. cbn [app parse_attrs]. rewrite skip_space, plain_skip by exact HK.
    pose proof HK as (c & r & EK & HC & _).
    replace (k ++ 61 :: 34 :: (enc (flat_map esc_attr v) ++ [34]) ++ enc (flat_map ser_attr attrs) ++ s)
      with (c :: r ++ 61 :: 34 :: (enc (flat_map esc_attr v) ++ [34]) ++ enc (flat_map ser_attr attrs) ++ s) by (now rewrite EK).
    destruct (Z.eqb_spec c 62); [unfold letter in HC; lia|]. destruct (Z.eqb_spec c 47); [unfold letter in HC; lia|].
    change (is_ws 32) with true. cbv iota.
    replace (c :: r ++ 61 :: 34 :: (enc (flat_map esc_attr v) ++ [34]) ++ enc (flat_map ser_attr attrs) ++ s)
      with (k ++ 61 :: 34 :: (enc (flat_map esc_attr v) ++ [34]) ++ enc (flat_map ser_attr attrs) ++ s) by (now rewrite EK).
    rewrite parse_name_ok by (exact HK || reflexivity). cbn [bind].
    change (skip (61 :: 34 :: (enc (flat_map esc_attr v) ++ [34]) ++ enc (flat_map ser_attr attrs) ++ s))
      with (61 :: 34 :: (enc (flat_map esc_attr v) ++ [34]) ++ enc (flat_map ser_attr attrs) ++ s).
    cbv iota beta. rewrite Z.eqb_refl.
    change (skip (34 :: (enc (flat_map esc_attr v) ++ [34]) ++ enc (flat_map ser_attr attrs) ++ s))
      with (34 :: (enc (flat_map esc_attr v) ++ [34]) ++ enc (flat_map ser_attr attrs) ++ s).
    cbv iota beta. cbn [Z.eqb Pos.eqb orb]. rewrite <- app_assoc. cbn [app]. rewrite attr_ok by exact HV. cbn [bind].
    rewrite dget_none.
    + rewrite IH; [now rewrite <- app_assoc|now rewrite <- app_assoc].
    + rewrite map_app in HD. cbn [map fst] in HD. apply NoDup_remove_2 in HD. intros HI. apply HD, in_or_app. now left.
Qed.

(** ** elements *)
(** an element without the "<" it begins with and without its tail *)
Definition elem_text (x : xml) : str :=
  match x with
  | XE tag attrs text _ children =>
    tag ++ flat_map ser_attr attrs ++
    (if is_nil (opt_text text) && is_nil children then lit " />"%string
     else [62] ++ flat_map esc_text (opt_text text) ++ flat_map ser children ++ [60; 47] ++ tag ++ [62])
  end.
Lemma ser_elem x : ser x = 60 :: elem_text x ++ flat_map esc_text (opt_text (x_tail x)).
Proof.
  destruct x as [tag attrs text tail children]. cbn [ser elem_text x_tail]. cbn [app]. now rewrite <- !app_assoc.
Qed.
Lemma kept_chars t : kept_text t -> Forall xml_char (opt_text t).
Proof.
  destruct t as [s|]; [|constructor]. intros [_ H]. cbn [opt_text]. eapply Forall_impl; [|exact H]. now intros c [Hc _].
Qed.
Lemma kept_some t : kept_text t -> some_text (opt_text t) = t.
Proof. destruct t as [[|c s]|]; intros H; [destruct H; congruence|reflexivity|reflexivity]. Qed.
Lemma with_tail_tail x t : with_tail (with_tail x None) t = with_tail x t.
Proof. destruct x; reflexivity. Qed.
Lemma with_tail_same x : with_tail x (x_tail x) = x.
Proof. destruct x; reflexivity. Qed.
Lemma elem_head x : kept_tree x -> exists c r, elem_text x = c :: r /\ letter c.
Proof. intros [tag attrs text tail cs (c & r & -> & HC & _)]. cbn [elem_text app]. eauto. Qed.
Definition elem_ok (x : xml) : Prop := forall fuel s, (length (enc (elem_text x)) < fuel)%nat ->
  parse_elem fuel (enc (elem_text x) ++ s) = Ok (with_tail x None, s).
Lemma content_ok cs : Forall (fun x => kept_tree x /\ elem_ok x) cs -> forall text fuel s, Forall xml_char text ->
  (length (enc (flat_map esc_text text)) + length (enc (flat_map ser cs)) < fuel)%nat ->
  parse_content fuel (enc (flat_map esc_text text) ++ enc (flat_map ser cs) ++ 60 :: 47 :: s) = Ok (text, cs, s).
Proof.
  induction 1 as [|x cs [HK HX] _ IH]; intros text fuel s HT HF; (destruct fuel as [|fuel]; [lia|]); cbn [parse_content].
  - cbn [flat_map app]. rewrite text_ok by (exact HT || reflexivity). cbn [bind]. rewrite Z.eqb_refl. reflexivity.
  - cbn [flat_map]. rewrite enc_app, ser_elem. cbn [flat_map]. change (ascii 60) with [60]. rewrite enc_app. cbn [app].
    rewrite text_ok by (exact HT || reflexivity). cbn [bind].
    cbn [flat_map] in HF. rewrite enc_app, ser_elem in HF. cbn [flat_map] in HF. change (ascii 60) with [60] in HF. rewrite enc_app in HF.
    cbn [app] in HF. cbn [length] in HF. rewrite !app_length in HF.
    destruct (elem_head x HK) as (c & r & EH & HC).
    assert (HE : exists e, enc (elem_text x) = c :: e).
    { rewrite EH. cbn [flat_map]. unfold ascii. destruct (Z.ltb_spec c 128); [|unfold letter in HC; lia]. cbn [app]. eauto. }
    destruct HE as [e HE].
    rewrite <- !app_assoc. rewrite HE. cbn [app]. destruct (Z.eqb_spec c 47); [unfold letter in HC; lia|].
    change (c :: e ++ enc (flat_map esc_text (opt_text (x_tail x))) ++ enc (flat_map ser cs) ++ 60 :: 47 :: s)
      with ((c :: e) ++ enc (flat_map esc_text (opt_text (x_tail x))) ++ enc (flat_map ser cs) ++ 60 :: 47 :: s).
    rewrite <- HE. rewrite HX by lia. cbn [bind].
    assert (HKT : kept_text (x_tail x)) by (destruct HK; assumption).
    rewrite IH by (apply kept_chars, HKT || lia). cbn [bind]. rewrite with_tail_tail, kept_some by exact HKT. now rewrite with_tail_same.
Qed.
Lemma all_elem_ok x : kept_tree x -> elem_ok x.
Proof.
  induction x as [tag attrs text tail cs IH] using xml_ind'. intros HK fuel s HF.
  inversion HK as [? ? ? ? ? HN HA HD HT HTT HC]; subst. destruct fuel as [|fuel]; [lia|]. cbn [parse_elem with_tail].
  cbn [elem_text] in *. rewrite !enc_app, (plain_enc tag) in HF |- * by exact HN. rewrite !app_length in HF. rewrite <- !app_assoc.
  assert (HLA : (length attrs <= length (enc (flat_map ser_attr attrs)))%nat).
  { clear - HA. induction HA as [|[k v] l [HK _] _ IH]; [cbn; lia|]. cbn [flat_map length]. rewrite enc_app, app_length, enc_attr by exact HK. cbn [length]. lia. }
  assert (HNN : forall z, not_name (enc (flat_map ser_attr attrs) ++
      enc (if is_nil (opt_text text) && is_nil cs then lit " />"%string
           else [62] ++ flat_map esc_text (opt_text text) ++ flat_map ser cs ++ [60; 47] ++ tag ++ [62]) ++ z)).
  { intros z. destruct HA as [|[k v] l [HKp _] _]; [|cbn [flat_map]; rewrite enc_app, enc_attr by exact HKp; reflexivity].
    cbn [flat_map app]. destruct (is_nil (opt_text text) && is_nil cs); reflexivity. }
  rewrite parse_name_ok by (exact HN || apply HNN). cbn [bind].
  replace fuel with (length attrs + (fuel - length attrs))%nat at 1 by lia. rewrite attrs_ok by assumption. change ([] ++ attrs) with attrs.
  destruct (fuel - length attrs)%nat as [|f] eqn:EF.
  { exfalso. assert (HT1 : (1 <= length tag)%nat) by (destruct HN as (c & r & -> & _); cbn [length]; lia). lia. }
  destruct (is_nil (opt_text text) && is_nil cs) eqn:EN.
  - apply Bool.andb_true_iff in EN as [EN1 EN2]. change (enc (lit " />"%string) ++ s) with (32 :: 47 :: 62 :: s). cbn [parse_attrs].
    change (skip (32 :: 47 :: 62 :: s)) with (47 :: 62 :: s). cbn [Z.eqb Pos.eqb bind].
    destruct cs; [|discriminate]. destruct text as [[|c t]|]; [destruct HT; congruence|discriminate|reflexivity].
  - rewrite !enc_app, (plain_enc tag) in HF |- * by exact HN. rewrite <- !app_assoc. change (enc [62]) with [62]. change (enc [60; 47]) with [60; 47].
    change (enc [62]) with [62] in HF. change (enc [60; 47]) with [60; 47] in HF. rewrite !app_length in HF. cbn [length app] in HF |- *. cbn [parse_attrs].
    change (skip (62 :: enc (flat_map esc_text (opt_text text)) ++ enc (flat_map ser cs) ++ 60 :: 47 :: tag ++ 62 :: s))
      with (62 :: enc (flat_map esc_text (opt_text text)) ++ enc (flat_map ser cs) ++ 60 :: 47 :: tag ++ 62 :: s).
    cbv iota beta. rewrite Z.eqb_refl. cbn [bind]. rewrite content_ok.
    + cbn [bind]. rewrite parse_name_ok by (exact HN || reflexivity). cbn [bind]. rewrite eqb_list_refl.
      change (skip (62 :: s)) with (62 :: s). cbv iota. rewrite Z.eqb_refl. now rewrite kept_some.
    + rewrite Forall_forall in *. intros x Hx. split; [now apply HC|]. apply IH; [exact Hx|now apply HC].
    + now apply kept_chars.
    + lia.
Qed.

(** ** documents *)
Lemma no_cr_newlines s : Forall (fun c => c <> 13) s -> newlines s = s.
Proof. induction 1 as [|c s H _ IH]; [reflexivity|]. cbn [newlines]. destruct (Z.eqb_spec c 13); [congruence|]. now rewrite IH. Qed.
Lemma no_cr_b s : forallb (fun c => negb (c =? 13)) s = true -> Forall (fun c => c <> 13) s.
Proof.
  rewrite forallb_forall, Forall_forall. intros H c HI. apply H in HI. destruct (Z.eqb_spec c 13); [discriminate|assumption].
Qed.
Ltac no_cr := apply no_cr_b; reflexivity.
Lemma no_cr_ascii c : c <> 13 -> Forall (fun c => c <> 13) (ascii c).
Proof.
  intros H. unfold ascii. destruct (Z.ltb_spec c 128); [now constructor; [assumption|constructor]|]. rewrite !Forall_app. split; [no_cr|].
  split; [|no_cr]. destruct (str_of_int_canonical c) as (ds & E & _ & _ & HF & _). rewrite (proj2 (Z.ltb_ge c 0) ltac:(lia)) in E.
  cbn [app] in E. rewrite E. eapply Forall_impl; [|exact HF]. cbv beta. lia.
Qed.
Lemma no_cr_enc s : Forall (fun c => c <> 13) s -> Forall (fun c => c <> 13) (enc s).
Proof. induction 1 as [|c s H _ IH]; cbn [flat_map]; [constructor|]. apply Forall_app. split; [now apply no_cr_ascii|exact IH]. Qed.
Lemma no_cr_text t : kept_text t -> Forall (fun c => c <> 13) (flat_map esc_text (opt_text t)).
Proof.
  destruct t as [s|]; [|constructor]. intros [_ H]. cbn [opt_text]. induction H as [|c s [_ H] _ IH]; cbn [flat_map]; [constructor|].
  apply Forall_app. split; [|exact IH]. unfold esc_text. destruct (c =? 38); [no_cr|]. destruct (c =? 60); [no_cr|].
  destruct (c =? 62); [no_cr|]. constructor; [assumption|constructor].
Qed.
Lemma no_cr_attr s : Forall (fun c => c <> 13) (flat_map esc_attr s).
Proof.
  induction s as [|c s IH]; cbn [flat_map]; [constructor|]. apply Forall_app. split; [|exact IH]. unfold esc_attr, esc_text.
  destruct (c =? 34); [no_cr|]. destruct (Z.eqb_spec c 13); [no_cr|]. destruct (c =? 10); [no_cr|].
  destruct (c =? 9); [no_cr|]. destruct (c =? 38); [no_cr|]. destruct (c =? 60); [no_cr|].
  destruct (c =? 62); [no_cr|]. constructor; [assumption|constructor].
Qed.
Lemma no_cr_name n : plain_name n -> Forall (fun c => c <> 13) n.
Proof. intros H. eapply Forall_impl; [|apply plain_chars, H]. intros c Hc. now apply name_char_b in Hc. Qed.
Lemma no_cr_ser x : kept_tree x -> Forall (fun c => c <> 13) (ser x).
Proof.
  induction x as [tag attrs text tail cs IH] using xml_ind'. intros HK. inversion HK as [? ? ? ? ? HN HA HD HT HTT HC]; subst. cbn [ser].
  rewrite !Forall_app. split; [no_cr|]. split; [now apply no_cr_name|]. split.
  { clear - HA. induction HA as [|[k v] l [HK _] _ IH]; cbn [flat_map]; [constructor|]. apply Forall_app. split; [|exact IH].
    unfold ser_attr. cbn [fst snd]. rewrite !Forall_app. split; [no_cr|]. split; [now apply no_cr_name|]. split; [no_cr|].
    split; [apply no_cr_attr|no_cr]. }
  split; [|now apply no_cr_text]. destruct (_ && _); [no_cr|].
  rewrite !Forall_app. split; [no_cr|]. split; [now apply no_cr_text|]. split.
  { clear - IH HC. induction IH as [|x l Hx _ IHl]; cbn [flat_map]; [constructor|]. inversion HC; subst. apply Forall_app. split; [now apply Hx|now apply IHl]. }
  split; [no_cr|]. split; [now apply no_cr_name|no_cr].
Qed.
Lemma white_skip s : Forall (fun c => c = 32 \/ c = 9 \/ c = 10) s -> skip (enc (flat_map esc_text s)) = [].
Proof.
  induction 1 as [|c s H _ IH]; [reflexivity|]. cbn [flat_map]. rewrite enc_app.
  assert (HE : enc (esc_text c) = [c] /\ is_ws c = true) by (destruct H as [->|[->| ->]]; split; reflexivity). destruct HE as [-> HE].
  cbn [app]. unfold skip in *. cbn [span]. rewrite HE. destruct (span is_ws _). exact IH.
Qed.
Lemma text_round x : kept_tree x -> white_opt (x_tail x) -> fromstring (tostring x) = Ok (with_tail x None).
Proof.
  intros HK HT. unfold fromstring, tostring. rewrite no_cr_newlines by (apply no_cr_enc, no_cr_ser, HK).
  rewrite ser_elem. cbn [flat_map]. rewrite enc_app. change (ascii 60) with [60]. cbn [app].
  change (skip (60 :: enc (elem_text x) ++ enc (flat_map esc_text (opt_text (x_tail x))))) with (60 :: enc (elem_text x) ++ enc (flat_map esc_text (opt_text (x_tail x)))).
  cbv iota zeta. rewrite Z.eqb_refl. rewrite all_elem_ok; [|exact HK|rewrite app_length; lia]. cbn [bind].
  rewrite white_skip; [reflexivity|]. destruct (x_tail x) as [t|]; [now apply HT|constructor].
Qed.

(** ** empty texts *)
Definition norm_text (t : option str) : option str := some_text (opt_text t).
Fixpoint norm (x : xml) : xml :=
  match x with XE tag attrs text tail cs => XE tag attrs (norm_text text) (norm_text tail) (map norm cs) end.
Lemma norm_opt t : opt_text (norm_text t) = opt_text t.
Proof. destruct t as [[|]|]; reflexivity. Qed.
Lemma ser_norm x : ser (norm x) = ser x.
Proof.
  induction x as [tag attrs text tail cs IH] using xml_ind'. cbn [norm ser]. rewrite !norm_opt.
  assert (H1 : flat_map ser (map norm cs) = flat_map ser cs).
  { clear - IH. induction IH as [|x l Hx _ IHl]; cbn [map flat_map]; [reflexivity|]. now rewrite Hx, IHl. }
  assert (H2 : is_nil (map norm cs) = is_nil cs) by (destruct cs; reflexivity). now rewrite H1, H2.
Qed.
Lemma norm_kept_text t : clean_opt t -> kept_text (norm_text t).
Proof. intros H. destruct t as [[|c s]|]; cbn; auto. split; [congruence|]. now apply H. Qed.
Lemma norm_kept x : writable x -> kept_tree (norm x).
Proof.
  induction x as [tag attrs text tail cs IH] using xml_ind'. intros HK. inversion HK as [? ? ? ? ? HN HA HD HT HTT HC]; subst. cbn [norm].
  constructor; auto using norm_kept_text. clear - IH HC. induction IH as [|x l Hx _ IHl]; cbn [map]; [constructor|]. inversion HC; subst. constructor; auto.
Qed.
Lemma norm_same_text t : same_text t (norm_text t).
Proof. unfold same_text. destruct t as [[|c s]|]; cbn; [right; auto|left; split; congruence|left; split; congruence]. Qed.
Lemma norm_tail x : x_tail (norm x) = norm_text (x_tail x).
Proof. destruct x; reflexivity. Qed.
Lemma norm_same x : same_doc x (norm x).
Proof.
  induction x as [tag attrs text tail cs IH] using xml_ind'. cbn [norm]. constructor.
  - apply norm_same_text.
  - induction IH as [|x l Hx _ IHl]; cbn [map]; constructor; auto.
  - clear. induction cs as [|c cs IH]; cbn [map]; constructor; auto. rewrite norm_tail. apply norm_same_text.
Qed.
Lemma writable_round x : writable x -> white_opt (x_tail x) -> fromstring (tostring x) = Ok (with_tail (norm x) None).
Proof.
  intros HW HT. unfold tostring. rewrite <- ser_norm. apply text_round; [now apply norm_kept|].
  rewrite norm_tail. destruct (x_tail x) as [[|c s]|]; cbn; [intros ? [=]|exact HT|intros ? [=]].
Qed.
