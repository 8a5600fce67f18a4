(** * P_Types: proofs for the type table properties C06, C08, C09 (all types but float32). *)
From Coq Require Import String.
From Verif Require Import Py P_List M_Util M_Float M_Suns S_Codec P_Codec.
From Coq Require Import ZifyBool.

(** codec used by the table for an integer type: width and signedness *)
Definition tw (t : ptype) : nat := Z.to_nat (type_bytes t).
Definition table_signed (t : ptype) : bool :=
  match t with Tuint64 | Tacc64 => true | _ => signed_type t end.

Lemma tw_pos t : int_type t = true -> (0 < tw t)%nat.
Proof. destruct t; try discriminate; intros _; cbv; lia. Qed.
Lemma tw_Z t : int_type t = true -> Z.of_nat (tw t) = type_bytes t.
Proof. destruct t; try discriminate; reflexivity. Qed.

Lemma data_to_int t d :
  int_type t = true ->
  data_to t d = (let! z := unpack_int (tw t) (table_signed t) d in Ok (VInt z)).
Proof. destruct t; try discriminate; reflexivity. Qed.
Lemma to_data_int t z n :
  int_type t = true -> to_data t (VInt z) n = pack_int (tw t) (table_signed t) z.
Proof. destruct t; try discriminate; reflexivity. Qed.
Lemma is_impl_int t v : int_type t = true -> is_impl t v = negb (eq_int v (unimpl_int t)).
Proof. destruct t; try discriminate; reflexivity. Qed.

Lemma unimpl_bytes t d :
  int_type t = true -> t <> Tuint64 ->
  (pack_int (tw t) (table_signed t) (unimpl_int t) = Ok d <-> not_implemented_int t d).
Proof.
  intros Hi Hn. destruct t; try discriminate; try congruence;
  match goal with |- (pack_int ?w ?s ?v = _ <-> _) =>
    let r := eval vm_compute in (pack_int w s v) in change (pack_int w s v) with r end;
  unfold not_implemented_int;
  (let x := fresh in split; intros x; [injection x as <-; reflexivity|rewrite x; reflexivity]).
Qed.

Lemma int_reported t d :
  int_type t = true -> t <> Tuint64 -> Forall is_byte d -> zlen d = type_bytes t ->
  (not_implemented_int t d -> reported t d = Ok VNone) /\
  (~ not_implemented_int t d ->
     exists v, reported t d = Ok (VInt v) /\ represents (type_bytes t) (table_signed t) v d).
Proof.
  intros Hi Hn HB HL. rewrite <- (unimpl_bytes t d Hi Hn).
  pose proof (tw_pos t Hi) as Hp. pose proof (tw_Z t Hi) as Hz.
  unfold reported. rewrite data_to_int by auto.
  destruct (unpack_int_total (tw t) (table_signed t) d ltac:(lia)) as [v Hv].
  rewrite Hv. cbn [bind]. rewrite is_impl_int by auto. cbn [eq_int].
  pose proof (proj1 (unpack_int_spec _ _ _ _ Hp HB) Hv) as HR.
  rewrite pack_int_spec by auto. split.
  - intros HU. destruct (Z.eqb_spec v (unimpl_int t)) as [|Hne]; [reflexivity|].
    exfalso; apply Hne. apply unpack_int_spec in HU; auto. congruence.
  - intros HU. exists v. destruct (Z.eqb_spec v (unimpl_int t)) as [->|Hne]; [contradiction|].
    rewrite <- Hz. auto.
Qed.

Lemma uint64_reported_small t d :
  t = Tuint64 \/ t = Tacc64 -> Forall is_byte d -> zlen d = 8 -> positional d < 2 ^ 63 ->
  reported t d = Ok (if (positional d =? 0) && ptype_eqb t Tacc64 then VNone else VInt (positional d)).
Proof.
  intros Ht HB HL Hs.
  assert (Hu : unpack_int 8 true d = Ok (positional d)).
  { apply unpack_int_spec; [lia|auto|]. unfold represents.
    pose proof (be_int_bound d HB) as Hb0. rewrite <- positional_be_int in Hb0.
    split; [exact HL|]. split; [auto|]. change (256 ^ Z.of_nat 8 / 2) with (2 ^ 63).
    split; [lia|]. destruct (Z.ltb_spec (positional d) 0); lia. }
  unfold reported. destruct Ht as [-> | ->].
  - change (data_to Tuint64 d) with (let! z := unpack_int 8 true d in Ok (VInt z)).
    rewrite Hu. cbn [bind is_impl eq_int unimpl_int].
    change (ptype_eqb Tuint64 Tacc64) with false. rewrite andb_false_r.
    destruct (Z.eqb_spec (positional d) 0xffffffffffffffff); [lia|reflexivity].
  - change (data_to Tacc64 d) with (let! z := unpack_int 8 true d in Ok (VInt z)).
    rewrite Hu. cbn [bind is_impl eq_int unimpl_int].
    change (ptype_eqb Tacc64 Tacc64) with true. rewrite andb_true_r.
    destruct (Z.eqb_spec (positional d) 0); reflexivity.
Qed.

Lemma hex_pair_head b : is_byte b -> exists c r, hex_pair b = c :: r /\ c <> 0.
Proof.
  intros Hb. rewrite <- hex2_up_pair by auto. unfold hex2_up. do 2 eexists. split; [reflexivity|].
  destruct (nibbles b Hb) as (H1 & _ & _). pose proof (hex_digit_up_range _ H1). lia.
Qed.
Lemma ipv6_text_head d : Forall is_byte d -> zlen d = 16 ->
  exists c r, ipv6_text d = c :: r /\ c <> 0.
Proof.
  intros HB HL. destruct d as [|b d]; [discriminate|]. inversion HB; subst.
  destruct (hex_pair_head b H1) as (c & r & E & Hc). unfold ipv6_text.
  cbn [firstn map concat]. rewrite E. cbn [app]. eauto.
Qed.

Lemma ipv6_reported d :
  Forall is_byte d -> zlen d = 16 ->
  (all_bytes 0 d -> reported Tipv6addr d = Ok VNone) /\
  (~ all_bytes 0 d -> reported Tipv6addr d = Ok (VStr (ipv6_text d))).
Proof.
  intros HB HL. destruct (ipv6_spec d HB) as [H1 H2]. unfold reported. cbn [data_to bind].
  split; intros H.
  - rewrite H2 by auto. reflexivity.
  - destruct (H1 HL H) as [-> _]. cbn [opt_str is_impl].
    destruct (ipv6_text_head d HB HL) as (c & r & E & Hc). rewrite E.
    destruct (Z.eqb_spec c 0); [congruence|reflexivity].
Qed.

(** string: what the code does *)
Lemma string_reported d :
  reported Tstring d =
  Ok (match d with
      | [] => VNone
      | c :: _ => if c =? 0 then VNone else VStr (data_to_str d)
      end).
Proof.
  unfold reported. cbn [data_to bind is_impl]. unfold data_to_str.
  destruct d as [|c [|c' r]]; [reflexivity| |]; cbn [negb]; destruct (c =? 0); reflexivity.
Qed.

(** ** C06: re-encoding a reported value gives the registers back *)
Lemma int_reencode t d v n :
  int_type t = true -> Forall is_byte d -> reported t d = Ok v -> v <> VNone ->
  to_data t v n = Ok d.
Proof.
  intros Hi HB HR Hv. unfold reported in HR. rewrite data_to_int in HR by auto.
  destruct (unpack_int (tw t) (table_signed t) d) as [z|] eqn:E; [|discriminate].
  cbn [bind] in HR. destruct (is_impl t (VInt z)); [|congruence]. injection HR as <-.
  rewrite to_data_int by auto. pose proof (tw_pos t Hi).
  apply pack_int_spec; auto. apply unpack_int_spec in E; auto.
Qed.
Lemma ipv6_reencode d v :
  Forall is_byte d -> zlen d = 16 -> reported Tipv6addr d = Ok v -> v <> VNone ->
  to_data Tipv6addr v 16 = Ok d.
Proof.
  intros HB HL HR Hv. destruct (ipv6_reported d HB HL) as [H1 H2].
  destruct (all_bytes_dec 0 d) as [H|H].
  - rewrite H1 in HR by auto. congruence.
  - rewrite H2 in HR by auto. injection HR as <-. cbn [to_data].
    destruct (ipv6_spec d HB) as [H3 _]. apply (H3 HL H).
Qed.
Lemma string_reencode_reported d v n :
  Forall is_byte d -> zlen d = n -> 16 <= n -> reported Tstring d = Ok v -> v <> VNone ->
  to_data Tstring v n = Ok d.
Proof.
  intros HB HL Hn HR Hv. rewrite string_reported in HR. destruct d as [|c r]; [congruence|].
  destruct (c =? 0); [congruence|]. apply Ok_inj in HR; subst v. cbn [to_data].
  now apply string_reencode.
Qed.
