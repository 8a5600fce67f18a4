(** * S_Time: what a timestamp should be.  The Gregorian calendar, ISO 8601 texts and the order of texts. *)
From Coq Require Import String.
From Verif Require Import Py.

(** ** the calendar *)
Definition leap (y : Z) : Prop := y mod 4 = 0 /\ (y mod 100 <> 0 \/ y mod 400 = 0).
Inductive month_length (y : Z) : Z -> Z -> Prop :=
| ml_30 m : In m [4; 6; 9; 11] -> month_length y m 30
| ml_31 m : In m [1; 3; 5; 7; 8; 10; 12] -> month_length y m 31
| ml_28 : ~ leap y -> month_length y 2 28
| ml_29 : leap y -> month_length y 2 29.
(** the day after (year, month, day) *)
Inductive next_day : Z * Z * Z -> Z * Z * Z -> Prop :=
| nd_day y m d n : month_length y m n -> 1 <= d < n -> next_day (y, m, d) (y, m, d + 1)
| nd_month y m n : month_length y m n -> m < 12 -> next_day (y, m, n) (y, m + 1, 1)
| nd_year y : next_day (y, 12, 31) (y + 1, 1, 1).
(** [cal n] is the date [n] days after 1 January 1970 (before, if [n] is negative) *)
Definition calendar (cal : Z -> Z * Z * Z) : Prop :=
  cal 0 = (1970, 1, 1) /\ forall n, next_day (cal n) (cal (n + 1)).

(** ** texts *)
(** the decimal digits of [n], exactly [k] of them *)
Fixpoint digits (k : nat) (n : Z) : str :=
  match k with
  | O => []
  | S k => digits k (n / 10) ++ [48 + n mod 10]
  end.
(** 2013-12-20T17:29:24Z *)
Definition iso_text (date : Z * Z * Z) (hour minute second : Z) : str :=
  let '(y, m, d) := date in
  digits 4 y ++ lit "-"%string ++ digits 2 m ++ lit "-"%string ++ digits 2 d ++ lit "T"%string ++
  digits 2 hour ++ lit ":"%string ++ digits 2 minute ++ lit ":"%string ++ digits 2 second ++ lit "Z"%string.
(** the years with four digits: from 1000-01-01T00:00:00Z to 9999-12-31T23:59:59Z *)
Definition four_digit_years (t : Z) : Prop := -30610224000 <= t < 253402300800.
(** how texts are sorted *)
Fixpoint text_lt (a b : str) : Prop :=
  match a, b with
  | _, [] => False
  | [], _ :: _ => True
  | x :: a', y :: b' => x < y \/ (x = y /\ text_lt a' b')
  end.
