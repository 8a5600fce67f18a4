(** * C110: the timestamps of data records *)
From Coq Require Import String Reals Psatz.
From Flocq Require Import Core BinarySingleNaN.
From Verif Require Import Py M_Util M_Float M_Suns M_Point M_Data M_Time S_Time P_List P_Time.
Open Scope Z_scope.

(** There is exactly one such calendar. *)
Theorem C110_calendar : exists cal, calendar cal /\ forall cal', calendar cal' -> forall n, cal' n = cal n.
Proof. exists civil. split; [exact civil_calendar|]. intros cal' H n. now apply calendar_unique. Qed.
Print Assumptions C110_calendar.

(** A time in a year with four digits is stored as its date and time of day (UTC) in ISO 8601 form, whatever else the record holds. *)
Theorem C110_text cal now d day hour minute second t : calendar cal ->
  0 <= hour < 24 -> 0 <= minute < 60 -> 0 <= second < 60 ->
  t = 86400 * day + 3600 * hour + 60 * minute + second -> four_digit_years t ->
  timestamp_add now d (VInt t) = Ok (with_timestamp d (VStr (iso_text (cal day) hour minute second))).
Proof.
  intros HC Hh Hm Hs -> HY. unfold timestamp_add. cbn [is_none]. rewrite (calendar_unique _ _ HC).
  rewrite format_iso; [reflexivity| |exact Hh|exact Hm|exact Hs].
  apply four_digit_day in HY. now rewrite (proj1 (parts_unique day hour minute second Hh Hm Hs)) in HY.
Qed.
Example C110_text_case : 0 <= 17 < 24 /\ 0 <= 29 < 60 /\ 0 <= 24 < 60 /\
  1387560564 = 86400 * 16059 + 3600 * 17 + 60 * 29 + 24 /\ four_digit_years 1387560564 /\
  (forall cal, calendar cal -> cal 16059 = (2013, 12, 20)) /\
  iso_text (2013, 12, 20) 17 29 24 = lit "2013-12-20T17:29:24Z"%string.
Proof.
  split; [lia|]. split; [lia|]. split; [lia|]. split; [lia|]. split; [unfold four_digit_years; lia|]. split; [|vm_compute; reflexivity].
  intros cal H. rewrite (calendar_unique _ _ H). vm_compute. reflexivity.
Qed.
Print Assumptions C110_text.

(** A float is stored as the second it falls into; without an argument the clock is used. *)
Theorem C110_fraction now d f t : is_finite_SF f = true -> (IZR t <= SF2R radix2 f < IZR (t + 1))%R ->
  timestamp_add now d (VFlt f) = timestamp_add now d (VInt t).
Proof.
  intros HF HR. unfold timestamp_add, format_time. cbn [is_none gmtime]. rewrite int_floor_spec by exact HF.
  rewrite (Zfloor_imp t) by exact HR. reflexivity.
Qed.
Example C110_fraction_case : let f := S754_finite true 3 (-1) in
  is_finite_SF f = true /\ (IZR (-2) <= SF2R radix2 f < IZR (-2 + 1))%R.
Proof.
  split; [reflexivity|]. unfold SF2R, F2R. cbn. lra.
Qed.
Print Assumptions C110_fraction.
Theorem C110_now now d : timestamp_add now d VNone = timestamp_add now d (VFlt now).
Proof. reflexivity. Qed.
Print Assumptions C110_now.

(** The texts sort like the times: a later second has a later text, an equal text means the same second. *)
Theorem C110_order now d t1 t2 : four_digit_years t1 -> four_digit_years t2 ->
  exists s1 s2, timestamp_add now d (VInt t1) = Ok (with_timestamp d (VStr s1)) /\
                timestamp_add now d (VInt t2) = Ok (with_timestamp d (VStr s2)) /\
                (t1 < t2 <-> text_lt s1 s2) /\ (t1 = t2 <-> s1 = s2).
Proof.
  intros H1 H2. pose proof (format_iso_t t1 H1) as E1. pose proof (format_iso_t t2 H2) as E2.
  match type of E1 with _ = Ok ?x => set (s1 := x) in * end. match type of E2 with _ = Ok ?x => set (s2 := x) in * end.
  clearbody s1 s2. exists s1, s2. unfold timestamp_add. cbn [is_none]. rewrite E1, E2. cbn [bind].
  split; [reflexivity|]. split; [reflexivity|]. pose proof (format_lt t1 t2 s1 s2 H1 H2 E1 E2) as L.
  pose proof (format_lt t2 t1 s2 s1 H2 H1 E2 E1) as L'. pose proof (format_lt t1 t1 s1 s1 H1 H1 E1 E1) as L0. split; [exact L|]. split.
  - intros ->. rewrite E1 in E2. now apply Ok_inj in E2.
  - intros <-. rewrite <- L0 in L, L'. lia.
Qed.
Example C110_order_case : four_digit_years (-1) /\ four_digit_years 0.
Proof. unfold four_digit_years. lia. Qed.
Print Assumptions C110_order.

(** Beyond the year 9999 they do not: the last second of 9999 sorts after the first of 10000. *)
Theorem C110_restriction_needed : exists s1 s2,
  format_time (VInt 253402300799) = Ok s1 /\ format_time (VInt 253402300800) = Ok s2 /\ text_lt s2 s1.
Proof.
  exists (lit "9999-12-31T23:59:59Z"%string), (lit "10000-01-01T00:00:00Z"%string).
  split; [vm_compute; reflexivity|]. split; [vm_compute; reflexivity|]. left. vm_compute. reflexivity.
Qed.
Print Assumptions C110_restriction_needed.

(** A device added with a timestamp is written with that text as its 't' attribute. *)
Theorem C110_written E cal s logger_id man mod_ sn cid device_id ifc namespace day hour minute second t : calendar cal ->
  0 <= hour < 24 -> 0 <= minute < 60 -> 0 <= second < 60 ->
  t = 86400 * day + 3600 * hour + 60 * minute + second -> four_digit_years t ->
  exists s' d e, device_add format_time s logger_id man mod_ sn (VInt t) cid device_id ifc namespace = Ok s' /\
  sd_devices s' = sd_devices s ++ [d] /\ dd_timestamp d = VStr (iso_text (cal day) hour minute second) /\
  device_to_xml E d = Ok e /\ e_get (lit "t"%string) e = VStr (iso_text (cal day) hour minute second).
Proof.
  intros HC Hh Hm Hs -> HY. unfold device_add, device_init. cbn [is_none].
  rewrite (calendar_unique _ _ HC). rewrite format_iso; [|  |exact Hh|exact Hm|exact Hs].
  2: { apply four_digit_day in HY. now rewrite (proj1 (parts_unique day hour minute second Hh Hm Hs)) in HY. }
  cbn [bind]. set (x := iso_text (civil day) hour minute second).
  assert (HX : sf_truthy (VStr x) = true).
  { unfold x. destruct (civil day) as [[y m] d]. unfold iso_text. cbn [digits app sf_truthy].
    reflexivity. }
  clearbody x. eexists _, _, _. split; [reflexivity|]. split; [reflexivity|]. split; [reflexivity|]. split; [reflexivity|].
  cbn [dd_logger_id dd_namespace dd_device_id dd_ifc dd_man dd_mod dd_sn dd_timestamp dd_cid]. rewrite HX.
  unfold e_get, e_attrs, attr_if.
  destruct (sf_truthy logger_id), (sf_truthy namespace), (sf_truthy device_id), (sf_truthy ifc), (sf_truthy man), (sf_truthy mod_),
    (sf_truthy sn), (sf_truthy cid); reflexivity.
Qed.
Print Assumptions C110_written.

(** Objects that are no numbers are refused (TypeError). *)
Theorem C110_no_number now d s : timestamp_add now d (VStr s) = Raise EType.
Proof. reflexivity. Qed.
Print Assumptions C110_no_number.
