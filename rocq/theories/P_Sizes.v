(** * P_Sizes: the register sizes of the type table agree with the codecs *)
From Coq Require Import String.
From Verif Require Import Py P_List M_Util M_Float M_Suns S_Codec P_Codec P_Types P_Float.
Local Open Scope Z_scope.

Lemma pack_int_size w s z d : pack_int w s z = Ok d -> zlen d = Z.of_nat w.
Proof. unfold pack_int. destruct (_ && _); [|discriminate]. intros H. apply Ok_inj in H. subst d. apply be_bytes_zlen. Qed.
Lemma pack_f_size f d : float_to_data32 f = Ok d -> zlen d = 4.
Proof.
  unfold float_to_data32, pack_f. intros H.
  destruct f; destruct (to_single _) in H; try discriminate; apply Ok_inj in H; subst d; apply be_bytes_zlen.
Qed.
Lemma unpack_int_size w s d z : unpack_int w s d = Ok z -> zlen d = Z.of_nat w.
Proof. unfold unpack_int. destruct (Nat.eqb_spec (length d) w); [|discriminate]. intros _. unfold zlen. congruence. Qed.

Lemma to_data_size t k v d : type_len t = Some k -> to_data t v (2 * k) = Ok d -> zlen d = 2 * k.
Proof.
  intros HT H. destruct t; cbn [type_len] in HT; try discriminate; apply Some_inj in HT; subst k;
  cbn [to_data] in H; try discriminate H;
  try (unfold pack_obj in H; destruct v; try discriminate H; exact (pack_int_size _ _ _ _ H)).
  - destruct v; try discriminate H. unfold ipv6addr_to_data in H. apply bind_ok in H as (s' & _ & H).
    exact (pack_s_zlen _ _ _ H).
  - destruct v; try discriminate H.
    + destruct (float_of_int _) in H; [|discriminate H]. exact (pack_f_size _ _ H).
    + exact (pack_f_size _ _ H).
Qed.

Lemma data_to_size t k v d : type_len t = Some k -> data_to t d = Ok v -> v <> VNone -> zlen d = 2 * k.
Proof.
  intros HT H Hv. destruct t; cbn [type_len] in HT; try discriminate; apply Some_inj in HT; subst k;
  cbn [data_to] in H; try (apply bind_ok in H as (z & H & _); exact (unpack_int_size _ _ _ _ H)).
  - unfold data_to_ipv6addr in H. destruct (Nat.eqb_spec (length d) 16) as [E|E].
    + unfold zlen. rewrite E. reflexivity.
    + rewrite andb_false_r in H. cbn [opt_str] in H. congruence.
  - destruct (Z.eq_dec (zlen d) 4) as [E|E]; [exact E|]. rewrite (float32_bad_len _ E) in H. discriminate H.
  - unfold data_to_eui48 in H. destruct (Nat.eqb_spec (length d) 8) as [E|E].
    + unfold zlen. rewrite E. reflexivity.
    + rewrite andb_false_r in H. cbn [opt_str] in H. congruence.
Qed.

(** an IPv6 text of any length is padded or cut to the size of the field *)
Lemma ipv6_field_size s n d : to_data Tipv6addr (VStr s) n = Ok d -> zlen d = n.
Proof. cbn [to_data]. unfold ipv6addr_to_data. intros H. apply bind_ok in H as (s' & _ & H). exact (pack_s_zlen _ _ _ H). Qed.
