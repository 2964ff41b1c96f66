(** Dates: the Gregorian calendar, and the names of the files of test vectors. *)
From Coq Require Import ZArith String List Bool.
From Verif Require Import Model.Serial.
Import ListNotations.
Open Scope list_scope.
Open Scope Z_scope.

(** ** The calendar *)

Record date : Type := mkDate { year : Z; month : Z; day : Z }.

(** Every fourth year is a leap year, except for three of the four hundreds of years in 400
    years. *)
Definition leap_year (y : Z) : Prop := (4 | y) /\ (~ (100 | y) \/ (400 | y)).

(** The number of days of a month. *)
Inductive has_days (y : Z) : Z -> Z -> Prop :=
| hd_31 m : In m [1; 3; 5; 7; 8; 10; 12] -> has_days y m 31
| hd_30 m : In m [4; 6; 9; 11] -> has_days y m 30
| hd_29 : leap_year y -> has_days y 2 29
| hd_28 : ~ leap_year y -> has_days y 2 28.

Definition valid_date (x : date) : Prop := exists n, has_days (year x) (month x) n /\ 1 <= day x <= n.

(** The day after. *)
Inductive next_day : date -> date -> Prop :=
| nd_day y m d n : has_days y m n -> 1 <= d < n -> next_day (mkDate y m d) (mkDate y m (d + 1))
| nd_month y m n : has_days y m n -> m < 12 -> next_day (mkDate y m n) (mkDate y (m + 1) 1)
| nd_year y : next_day (mkDate y 12 31) (mkDate (y + 1) 1 1).

(** [b] is [n] days after [a]. *)
Inductive days_after (a : date) : Z -> date -> Prop :=
| da_same : days_after a 0 a
| da_next n b c : days_after a n b -> next_day b c -> days_after a (n + 1) c.

(** Galileo time starts on Sunday, 22 August 1999, at midnight. *)
Definition galileo_start : date := mkDate 1999 8 22.

(** ** Names of files *)

Definition digit (n : Z) : Z := 48 + n.
Definition two_digits (n : Z) : list Z := [digit (n / 10); digit (n mod 10)].
Definition four_digits (n : Z) : list Z := two_digits (n / 100) ++ two_digits (n mod 100).
Definition month_name (m : Z) : list Z :=
  match m with
  | 1 => text "JAN" | 2 => text "FEB" | 3 => text "MAR" | 4 => text "APR" | 5 => text "MAY" | 6 => text "JUN"
  | 7 => text "JUL" | 8 => text "AUG" | 9 => text "SEP" | 10 => text "OCT" | 11 => text "NOV" | 12 => text "DEC"
  | _ => []
  end.
(** For example, 16_AUG_2023_GST_05_00_01.csv. *)
Definition file_name (x : date) (h m s : Z) : list Z :=
  two_digits (day x) ++ text "_" ++ month_name (month x) ++ text "_" ++ four_digits (year x) ++ text "_GST_"
  ++ two_digits h ++ text "_" ++ two_digits m ++ text "_" ++ two_digits s ++ text ".csv".
