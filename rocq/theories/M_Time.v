(** * M_Time: the timestamps of data records (sunspec/core/data.py:145-149), with the parts of Python's time module they use.

    time.time(), time.gmtime() and time.strftime() belong to the Python standard library and the C library: they are modelled
    after their documentation (gmtime rounds a number of seconds towards minus infinity), not after their sources.  gmtime is
    computed here with the closed formulas for the civil date of a day number.  The exact errors for times whose year does not
    fit a C int are simplified to OverflowError. *)
From Coq Require Import String.
From Verif Require Import Py M_Util M_Float M_Suns M_Data.

(** math.floor(f): the rounding gmtime applies to a float *)
Definition int_floor (f : flt) : res Z :=
  match f with
  | S754_zero _ => Ok 0
  | S754_infinity _ => Raise EOverflow
  | S754_nan => Raise EValue
  | S754_finite s m e =>
      let z := if s then - Zpos m else Zpos m in
      Ok (if 0 <=? e then z * 2 ^ e else z / 2 ^ (- e))
  end.

(** time.struct_time, the fields used *)
Record tm : Type := mkTM { tm_year : Z; tm_mon : Z; tm_mday : Z; tm_hour : Z; tm_min : Z; tm_sec : Z }.

(** year, month and day of a day number (0 is 1970-01-01), in the Gregorian calendar *)
Definition civil (days : Z) : Z * Z * Z :=
  let z := days + 719468 in
  let era := z / 146097 in
  let doe := z mod 146097 in
  let yoe := (doe - doe / 1460 + doe / 36524 - doe / 146096) / 365 in
  let doy := doe - (365 * yoe + yoe / 4 - yoe / 100) in
  let mp := (5 * doy + 2) / 153 in
  let d := doy - (153 * mp + 2) / 5 + 1 in
  let m := if mp <? 10 then mp + 3 else mp - 9 in
  let y := yoe + era * 400 in
  ((if m <=? 2 then y + 1 else y), m, d).

(** time.gmtime(t), for a whole number of seconds *)
Definition gmtime_int (t : Z) : res tm :=
  let days := t / 86400 in
  let rem := t mod 86400 in
  let '(y, m, d) := civil days in
  if (y - 1900 <? - 2 ^ 31) || (2 ^ 31 <=? y - 1900) then Raise EOverflow
  else Ok (mkTM y m d (rem / 3600) (rem mod 3600 / 60) (rem mod 60)).
Definition gmtime (t : value) : res tm :=
  match t with
  | VInt z => gmtime_int z
  | VFlt f => let! z := int_floor f in gmtime_int z
  | _ => Raise EType
  end.

(** time.strftime(f, t) for the directives used here; an unknown directive is copied *)
Definition two_digits (n : Z) : str := [48 + n / 10; 48 + n mod 10].
Fixpoint strftime (f : str) (t : tm) : str :=
  match f with
  | [] => []
  | c :: r =>
    if c =? 37 then
      match r with
      | [] => [c]
      | k :: r' =>
        (if k =? 89 then str_of_int (tm_year t)
         else if k =? 109 then two_digits (tm_mon t)
         else if k =? 100 then two_digits (tm_mday t)
         else if k =? 72 then two_digits (tm_hour t)
         else if k =? 77 then two_digits (tm_min t)
         else if k =? 83 then two_digits (tm_sec t)
         else [c; k]) ++ strftime r' t
      end
    else c :: strftime r t
  end.

(** data.py:149 *)
Definition format_time (t : value) : res str :=
  let! g := gmtime t in Ok (strftime (lit "%Y-%m-%dT%H:%M:%SZ"%string) g).
Definition with_timestamp (d : ddata) (v : value) : ddata :=
  mkDD (dd_logger_id d) (dd_namespace d) (dd_device_id d) (dd_ifc d) (dd_man d) (dd_mod d) (dd_sn d) v
       (dd_time d) (dd_cid d) (dd_models d).
(** DeviceData.timestamp_add, data.py:145-149.  [now] is what time.time() returns. *)
Definition timestamp_add (now : flt) (d : ddata) (timestamp : value) : res ddata :=
  let t := if is_none timestamp then VFlt now else timestamp in
  let! s := format_time t in
  Ok (with_timestamp d (VStr s)).
