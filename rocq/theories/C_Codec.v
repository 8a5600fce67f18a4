(** * C_Codec: properties C01-C10. Every theorem is closed by a lemma of the P_ files. *)
From Coq Require Import String Reals.
From Flocq Require Import Core BinarySingleNaN.
From Verif Require Import Py P_List M_Util M_Float M_Suns S_Codec P_Codec P_Types P_Float P_IntText P_Sizes.
Local Open Scope Z_scope.

(** ** C01.  [codec_exact w sgn enc dec] unfolds to six statements: encoding succeeds exactly with
    the big-endian two's-complement representation, decoding succeeds exactly on it, both round
    trips, and rejection with struct.error of everything else. *)
Theorem C01_integer_codecs_exact :
  codec_exact 2 true s16_to_data data_to_s16 /\
  codec_exact 2 false u16_to_data data_to_u16 /\
  codec_exact 4 true s32_to_data data_to_s32 /\
  codec_exact 4 false u32_to_data data_to_u32 /\
  codec_exact 8 true s64_to_data data_to_s64 /\
  codec_exact 8 false u64_to_data data_to_u64.
Proof.
  exact (conj (codec_exact_int 2 true ltac:(lia)) (conj (codec_exact_int 2 false ltac:(lia))
        (conj (codec_exact_int 4 true ltac:(lia)) (conj (codec_exact_int 4 false ltac:(lia))
        (conj (codec_exact_int 8 true ltac:(lia)) (codec_exact_int 8 false ltac:(lia))))))).
Qed.
Print Assumptions C01_integer_codecs_exact.
(** what is not an integer is rejected, too, whatever the integer type *)
Theorem C01_only_integers :
  forall t v n, int_type t = true -> (forall z, v <> VInt z) -> to_data t v n = Raise EStruct.
Proof. intros t v n HT HV. destruct v; try (now destruct (HV z)); destruct t; try discriminate HT; reflexivity. Qed.
Print Assumptions C01_only_integers.
Example C01_ex : s16_to_data (-2) = Ok [255; 254] /\ data_to_s16 [255; 254] = Ok (-2) /\
  represents 2 true (-2) [255; 254] /\ s16_to_data 32768 = Raise EStruct.
Proof.
  split; [reflexivity|]. split; [reflexivity|]. split; [|reflexivity].
  destruct (proj1 C01_integer_codecs_exact) as (H & _). apply H. reflexivity.
Qed.

(** ** C02 *)
Theorem C02_string_roundtrip :
  forall s n, latin1 s -> s <> [] -> ~ ends_in_nul s -> zlen s <= n ->
  exists d, str_to_data s (Some n) = Ok d /\ data_to_str d = s.
Proof. exact string_roundtrip. Qed.
Print Assumptions C02_string_roundtrip.
Theorem C02_string_cut :
  forall s n, latin1 s -> 16 <= n -> n <= zlen s -> str_to_data s (Some n) = Ok (ztake n s).
Proof. exact string_truncates. Qed.
Print Assumptions C02_string_cut.
Theorem C02_string_rejects_non_latin1 :
  forall s n, ~ latin1 s -> str_to_data s n = Raise EUnicode.
Proof. exact string_rejects. Qed.
Print Assumptions C02_string_rejects_non_latin1.
(** The hypothesis [s <> []] above is needed: the empty string comes back as a NUL character
    (which read reports as None). *)
Theorem C02_empty_string_refuted :
  exists d, str_to_data [] (Some 32) = Ok d /\ data_to_str d = [0] /\ data_to_str d <> [].
Proof. exists (repeat 0 32). vm_compute. repeat split; discriminate. Qed.
Print Assumptions C02_empty_string_refuted.
Example C02_ex : exists d, str_to_data (lit "abc") (Some 8) = Ok d /\ data_to_str d = lit "abc"%string.
Proof.
  apply C02_string_roundtrip; [repeat constructor; cbv; auto; discriminate|discriminate| |cbv; discriminate].
  intros [r Hr]. destruct r as [|a [|b [|c [|]]]]; discriminate.
Qed.

(** ** C03.  False of the code for fields of fewer than 8 registers: one byte too many. *)
Theorem C03_string_size_refuted :
  exists s d, latin1 s /\ to_data Tstring (VStr s) 8 = Ok d /\ zlen d = 9.
Proof.
  exists (lit "abc"%string), [97; 98; 99; 0; 0; 0; 0; 0; 0].
  split; [|vm_compute; auto]. apply forallb_is_byte; vm_compute; reflexivity.
Qed.
Print Assumptions C03_string_size_refuted.
(** What holds: exactly the field size from 16 bytes on, and always one byte more below. *)
Theorem C03_string_size_partial :
  forall s n d, to_data Tstring (VStr s) n = Ok d ->
  (16 <= n -> zlen d = n) /\ (0 <= n < 16 -> zlen d = n + 1).
Proof.
  exact (fun s n d H => conj (fun Hn => string_size s n d Hn H) (fun Hn => string_size_small s n d Hn H)).
Qed.
Print Assumptions C03_string_size_partial.
Example C03_ex : to_data Tstring (VStr (lit "abc"%string)) 16 = Ok (lit "abc"%string ++ repeat 0 13).
Proof. reflexivity. Qed.

(** ** C04 *)
Theorem C04_ipv6_roundtrip :
  forall d, Forall is_byte d ->
  (zlen d = 16 -> ~ all_bytes 0 d ->
     data_to_ipv6addr d = Some (ipv6_text d) /\
     ipv6addr_to_data (ipv6_text d) (Some 16) = Ok d /\ ipv6addr_to_data (ipv6_text d) None = Ok d) /\
  (zlen d <> 16 \/ all_bytes 0 d -> data_to_ipv6addr d = None).
Proof. exact ipv6_spec. Qed.
Print Assumptions C04_ipv6_roundtrip.
(** any text accepted for an IPv6 field is padded or cut to exactly the field *)
Theorem C04_ipv6_field_size :
  forall s n d, to_data Tipv6addr (VStr s) n = Ok d -> zlen d = n.
Proof. exact ipv6_field_size. Qed.
Print Assumptions C04_ipv6_field_size.
Example C04_field_ex : to_data Tipv6addr (VStr (lit "FE80"%string)) 4 = Ok [0xFE; 0x80; 0; 0] /\
  to_data Tipv6addr (VStr (lit "FE80:0102"%string)) 2 = Ok [0xFE; 0x80].
Proof. split; reflexivity. Qed.
Example C04_ex :
  data_to_ipv6addr [0xFE; 0x80; 0; 1; 2; 3; 4; 5; 6; 7; 8; 9; 10; 11; 12; 0xAB] =
  Some (lit "FE800001:02030405:06070809:0A0B0CAB"%string).
Proof. reflexivity. Qed.

(** ** C05 *)
Theorem C05_eui48_roundtrip :
  forall x y a b c d e f, Forall is_byte [x; y; a; b; c; d; e; f] ->
  (~ all_bytes 0 [x; y; a; b; c; d; e; f] ->
     data_to_eui48 [x; y; a; b; c; d; e; f] = Some (eui48_text a b c d e f)) /\
  (all_bytes 0 [x; y; a; b; c; d; e; f] -> data_to_eui48 [x; y; a; b; c; d; e; f] = None) /\
  eui48_to_data (eui48_text a b c d e f) = Ok [0; 0; a; b; c; d; e; f].
Proof. exact eui48_spec. Qed.
Print Assumptions C05_eui48_roundtrip.
Theorem C05_eui48_other_length : forall d, zlen d <> 8 -> data_to_eui48 d = None.
Proof. exact eui48_other_len. Qed.
Print Assumptions C05_eui48_other_length.
Example C05_ex : data_to_eui48 [0; 0; 1; 2; 3; 0xAB; 0xCD; 0xEF] = Some (lit "01:02:03:AB:CD:EF"%string).
Proof. reflexivity. Qed.

(** ** C06.  False for eui48 (every write is a TypeError) and for short strings. *)
Theorem C06_every_type_writable_refuted :
  (exists d v, zlen d = 8 /\ Forall is_byte d /\ reported Teui48 d = Ok v /\ v <> VNone /\
     forall n, to_data Teui48 v n = Raise EType) /\
  (exists d v d', zlen d = 8 /\ Forall is_byte d /\ reported Tstring d = Ok v /\ v <> VNone /\
     to_data Tstring v 8 = Ok d' /\ zlen d' = 9).
Proof.
  split.
  - exists [0; 0; 1; 2; 3; 4; 5; 6], (VStr (lit "01:02:03:04:05:06"%string)).
    split; [reflexivity|]. split; [apply forallb_is_byte; vm_compute; reflexivity|].
    split; [vm_compute; reflexivity|]. split; [discriminate|]. reflexivity.
  - exists [65; 66; 67; 68; 69; 70; 71; 72], (VStr (lit "ABCDEFGH"%string)), [65; 66; 67; 68; 69; 70; 71; 72; 0].
    split; [reflexivity|]. split; [apply forallb_is_byte; vm_compute; reflexivity|].
    split; [vm_compute; reflexivity|]. split; [discriminate|]. split; vm_compute; reflexivity.
Qed.
Print Assumptions C06_every_type_writable_refuted.
(** For all other types re-encoding a reported value gives back exactly the registers read. *)
Theorem C06_integer_types_writable_partial :
  forall t d v n, int_type t = true -> Forall is_byte d -> reported t d = Ok v -> v <> VNone ->
  to_data t v n = Ok d.
Proof. exact int_reencode. Qed.
Print Assumptions C06_integer_types_writable_partial.
Theorem C06_ipv6_writable_partial :
  forall d v, Forall is_byte d -> zlen d = 16 -> reported Tipv6addr d = Ok v -> v <> VNone ->
  to_data Tipv6addr v 16 = Ok d.
Proof. exact ipv6_reencode. Qed.
Print Assumptions C06_ipv6_writable_partial.
Theorem C06_long_string_writable_partial :
  forall d v n, Forall is_byte d -> zlen d = n -> 16 <= n -> reported Tstring d = Ok v -> v <> VNone ->
  to_data Tstring v n = Ok d.
Proof. exact string_reencode_reported. Qed.
Print Assumptions C06_long_string_writable_partial.
Lemma float_reencode d v n :
  Forall is_byte d -> zlen d = 4 -> reported Tfloat32 d = Ok v -> v <> VNone -> to_data Tfloat32 v n = Ok d.
Proof.
  intros HB HL HR Hv. destruct (float32_exact d HB HL) as [H1 H2].
  unfold reported in HR. cbn [data_to] in HR.
  destruct (data_to_float d) as [[f|]|] eqn:E; cbn in HR; try congruence.
  assert (Hn : ~ nan_bits 23 8 (positional d)) by (intros H; specialize (H1 H); discriminate).
  destruct (H2 Hn) as (f' & E' & Hf & HD). assert (f' = f) by congruence. subst f'.
  assert (v = VFlt f) by (destruct f; congruence). subst v. exact HD.
Qed.
Theorem C06_float_writable_partial :
  forall d v n, Forall is_byte d -> zlen d = 4 -> reported Tfloat32 d = Ok v -> v <> VNone ->
  to_data Tfloat32 v n = Ok d.
Proof. exact float_reencode. Qed.
Print Assumptions C06_float_writable_partial.
(** For every type of the table that has a size of its own (all but string) the table size is the
    size of the encoding of every value that can be encoded, and the only size that decodes to a
    value. *)
Theorem C06_register_size_partial :
  forall t k, type_len t = Some k ->
  (forall v d, to_data t v (2 * k) = Ok d -> zlen d = 2 * k) /\
  (forall v d, data_to t d = Ok v -> v <> VNone -> zlen d = 2 * k).
Proof. exact (fun t k HT => conj (fun v d => to_data_size t k v d HT) (fun v d => data_to_size t k v d HT)). Qed.
Print Assumptions C06_register_size_partial.
Example C06_register_size_ex : type_len Teui48 = Some 4 /\
  (exists v, data_to Teui48 [0; 0; 1; 2; 3; 4; 5; 6] = Ok v /\ v <> VNone) /\
  type_len Tint64 = Some 4 /\ exists d, to_data Tint64 (VInt (-5)) 8 = Ok d.
Proof.
  split; [reflexivity|]. split; [eexists; split; [vm_compute; reflexivity|discriminate]|].
  split; [reflexivity|]. eexists. vm_compute. reflexivity.
Qed.
Example C06_ex : reported Tint32 [0xFF; 0xFF; 0xFF; 0] = Ok (VInt (-256)) /\
  to_data Tint32 (VInt (-256)) 4 = Ok [0xFF; 0xFF; 0xFF; 0].
Proof. split; reflexivity. Qed.

(** ** C07 *)
Theorem C07_float32_bit_exact :
  forall d, Forall is_byte d -> zlen d = 4 ->
  (nan_bits 23 8 (positional d) -> data_to_float d = Ok None) /\
  (~ nan_bits 23 8 (positional d) ->
     exists f, data_to_float d = Ok (Some f) /\ f <> S754_nan /\ float_to_data32 f = Ok d).
Proof. exact float32_exact. Qed.
Print Assumptions C07_float32_bit_exact.
Theorem C07_float32_value :
  forall d f, Forall is_byte d -> zlen d = 4 -> data_to_float d = Ok (Some f) ->
  let x := positional d in
  let m := x mod 2 ^ 23 in
  let e := (x / 2 ^ 23) mod 2 ^ 8 in
  let sgn := if 2 ^ 31 <=? x then (-1)%R else 1%R in
  SF2R radix2 f =
    if e =? 255 then 0%R       (* infinity: SF2R is 0 by convention *)
    else if e =? 0 then (sgn * (IZR m * bpow radix2 (-149)))%R
    else (sgn * (IZR (m + 2 ^ 23) * bpow radix2 (e - 150)))%R.
Proof. exact float32_value. Qed.
Print Assumptions C07_float32_value.
Theorem C07_double_bit_exact :
  forall d, Forall is_byte d -> zlen d = 8 ->
  (nan_bits 52 11 (positional d) -> data_to_double d = Ok None) /\
  (~ nan_bits 52 11 (positional d) ->
     exists f, data_to_double d = Ok (Some f) /\ f <> S754_nan /\ float_to_data f = Ok d).
Proof. exact float64_exact. Qed.
Print Assumptions C07_double_bit_exact.
Example C07_ex : data_to_float [0x42; 0xF7; 0x33; 0x33] = Ok (Some (S754_finite false 8697576672985088 (-46))) /\
  float_to_data32 (S754_finite false 8697576672985088 (-46)) = Ok [0x42; 0xF7; 0x33; 0x33] /\
  data_to_float [0x7F; 0xC0; 0; 0] = Ok None.
Proof. repeat split; vm_compute; reflexivity. Qed.

(** ** C08.  Proved for all types except uint64/acc64 (see C09), string and eui48. *)
Theorem C08_unimplemented_integers :
  forall t d, int_type t = true -> t <> Tuint64 -> t <> Tacc64 ->
  Forall is_byte d -> zlen d = type_bytes t ->
  (not_implemented_int t d -> reported t d = Ok VNone) /\
  (~ not_implemented_int t d ->
     exists v, reported t d = Ok (VInt v) /\ represents (type_bytes t) (signed_type t) v d).
Proof.
  exact (fun t d Hi H1 H2 HB HL =>
    eq_ind (table_signed t) (fun b => (not_implemented_int t d -> reported t d = Ok VNone) /\
      (~ not_implemented_int t d ->
        exists v, reported t d = Ok (VInt v) /\ represents (type_bytes t) b v d))
      (int_reported t d Hi H1 HB HL) (signed_type t)
      ltac:(destruct t; try reflexivity; congruence)).
Qed.
Print Assumptions C08_unimplemented_integers.
Theorem C08_unimplemented_ipv6 :
  forall d, Forall is_byte d -> zlen d = 16 ->
  (all_bytes 0 d -> reported Tipv6addr d = Ok VNone) /\
  (~ all_bytes 0 d -> reported Tipv6addr d = Ok (VStr (ipv6_text d))).
Proof. exact ipv6_reported. Qed.
Print Assumptions C08_unimplemented_ipv6.
Lemma float_reported d :
  Forall is_byte d -> zlen d = 4 ->
  (nan_bits 23 8 (positional d) -> reported Tfloat32 d = Ok VNone) /\
  (~ nan_bits 23 8 (positional d) ->
     exists f, data_to_float d = Ok (Some f) /\ reported Tfloat32 d = Ok (VFlt f)).
Proof.
  intros HB HL. destruct (float32_exact d HB HL) as [H1 H2]. unfold reported. cbn [data_to].
  split; intros H.
  - rewrite (H1 H). reflexivity.
  - destruct (H2 H) as (f & E & Hf & _). exists f. rewrite E. split; [reflexivity|].
    cbn [bind is_impl]. destruct f; congruence.
Qed.
Theorem C08_unimplemented_float :
  forall d, Forall is_byte d -> zlen d = 4 ->
  (nan_bits 23 8 (positional d) -> reported Tfloat32 d = Ok VNone) /\
  (~ nan_bits 23 8 (positional d) ->
     exists f, data_to_float d = Ok (Some f) /\ reported Tfloat32 d = Ok (VFlt f)).
Proof. exact float_reported. Qed.
Print Assumptions C08_unimplemented_float.
(** string: unimplemented is "all registers zero"; the code reports None as soon as the first
    character is NUL. *)
Theorem C08_string_partial :
  forall d, reported Tstring d =
  Ok (match d with
      | [] => VNone
      | c :: _ => if c =? 0 then VNone else VStr (data_to_str d)
      end).
Proof. exact string_reported. Qed.
Print Assumptions C08_string_partial.
Theorem C08_string_refuted :
  exists d, Forall is_byte d /\ ~ all_bytes 0 d /\ reported Tstring d = Ok VNone.
Proof.
  exists [0; 65]. split; [apply forallb_is_byte; vm_compute; reflexivity|].
  split; [|vm_compute; reflexivity]. intros H; inversion H; subst; inversion H3; discriminate.
Qed.
Print Assumptions C08_string_refuted.
(** eui48: all zero registers are a valid address, but are reported as None. *)
Theorem C08_eui48_refuted : reported Teui48 (repeat 0 8) = Ok VNone.
Proof. vm_compute; reflexivity. Qed.
Print Assumptions C08_eui48_refuted.
Lemma eui48_reported x y a b c d e f :
  Forall is_byte [x; y; a; b; c; d; e; f] -> ~ all_bytes 0 [x; y; a; b; c; d; e; f] ->
  reported Teui48 [x; y; a; b; c; d; e; f] =
  Ok (if eqb_list (eui48_text a b c d e f) (lit "FF:FF:FF:FF:FF:FF"%string) then VNone
      else VStr (eui48_text a b c d e f)).
Proof.
  intros HB HN. destruct (eui48_spec x y a b c d e f HB) as (H & _ & _).
  unfold reported. cbn [data_to]. rewrite (H HN). cbn [bind opt_str is_impl].
  destruct (eqb_list _ _); reflexivity.
Qed.
Theorem C08_eui48_partial :
  forall x y a b c d e f,
  Forall is_byte [x; y; a; b; c; d; e; f] -> ~ all_bytes 0 [x; y; a; b; c; d; e; f] ->
  reported Teui48 [x; y; a; b; c; d; e; f] =
  Ok (if eqb_list (eui48_text a b c d e f) (lit "FF:FF:FF:FF:FF:FF"%string) then VNone
      else VStr (eui48_text a b c d e f)).
Proof. exact eui48_reported. Qed.
Print Assumptions C08_eui48_partial.
Example C08_ex : reported Tenum16 [255; 255] = Ok VNone /\ reported Tenum16 [255; 254] = Ok (VInt 65534)
  /\ not_implemented_int Tenum16 [255; 255].
Proof. vm_compute; auto. Qed.

(** ** C09.  False: the table uses the signed codec. *)
Theorem C09_uint64_refuted :
  reported Tuint64 (repeat 0xff 8) = Ok (VInt (-1)) /\
  reported Tuint64 (0x80 :: repeat 0 7) = Ok (VInt (- 2 ^ 63)) /\
  reported Tacc64 (0x80 :: repeat 0 7) = Ok (VInt (- 2 ^ 63)).
Proof. vm_compute; auto. Qed.
Print Assumptions C09_uint64_refuted.
Theorem C09_uint64_partial :
  forall t d, t = Tuint64 \/ t = Tacc64 -> Forall is_byte d -> zlen d = 8 -> positional d < 2 ^ 63 ->
  reported t d = Ok (if (positional d =? 0) && ptype_eqb t Tacc64 then VNone else VInt (positional d)).
Proof. exact uint64_reported_small. Qed.
Print Assumptions C09_uint64_partial.
Example C09_ex : reported Tuint64 [0; 0; 0; 0; 0; 0; 1; 2] = Ok (VInt 258).
Proof. reflexivity. Qed.

(** ** C10 *)
Theorem C10_int_text_canonical : forall z, canonical_decimal z (str_of_int z).
Proof. exact str_of_int_canonical. Qed.
Print Assumptions C10_int_text_canonical.
Theorem C10_int_text_roundtrip :
  forall z s, canonical_decimal z s -> suns_to_int (VStr s) = Ok z.
Proof. exact (fun z s H => proj2 (int_of_str0_spec s z) (canonical_literal z s H)). Qed.
Print Assumptions C10_int_text_roundtrip.
Theorem C10_int_text_grammar :
  forall s z, suns_to_int (VStr s) = Ok z <-> int_literal s z.
Proof. exact int_of_str0_spec. Qed.
Print Assumptions C10_int_text_grammar.
Theorem C10_int_text_rejects :
  forall s, (forall z, ~ int_literal s z) -> suns_to_int (VStr s) = Raise EValue.
Proof. exact int_of_str0_reject. Qed.
Print Assumptions C10_int_text_rejects.
Example C10_ex : suns_to_int (VStr (lit " -0x1_F "%string)) = Ok (-31) /\
  suns_to_int (VStr (lit "012"%string)) = Raise EValue /\ str_of_int (-1234) = lit "-1234"%string.
Proof. vm_compute; auto. Qed.
