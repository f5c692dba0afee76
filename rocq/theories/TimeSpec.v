(** * TimeSpec: vocabulary for the statements about timeutils.py *)
From Coq Require Import List ZArith NArith Bool String.
From Verif Require Import PyBase TimeUtils.
Import ListNotations.
Open Scope Z_scope.

(** the last [w] decimal digits of [n] *)
Fixpoint fixed (w : nat) (n : Z) : str :=
  match w with
  | O => []
  | S w' => fixed w' (n / 10) ++ [(48 + Z.to_N (n mod 10))%N]
  end.

(** days in a month of the Gregorian calendar, as a table *)
Definition leap_year (y : Z) : Prop := (4 | y) /\ (~ (100 | y) \/ (400 | y)).
Definition days_in_month (y m n : Z) : Prop :=
  (In m [1; 3; 5; 7; 8; 10; 12] /\ n = 31) \/ (In m [4; 6; 9; 11] /\ n = 30)
  \/ (m = 2 /\ leap_year y /\ n = 29) \/ (m = 2 /\ ~ leap_year y /\ n = 28).

(** a date-time that exists *)
Definition valid_dt (d : dt) : Prop :=
  1 <= dt_m d <= 12 /\ (exists n, days_in_month (dt_y d) (dt_m d) n /\ 1 <= dt_d d <= n)
  /\ 0 <= dt_H d <= 23 /\ 0 <= dt_M d <= 59 /\ 0 <= dt_S d <= 59 /\ 0 <= dt_us d <= 999999.

(** the 14-digit timestamp of a date-time with a four-digit year *)
Definition ts14 (d : dt) : str :=
  fixed 4 (dt_y d) ++ fixed 2 (dt_m d) ++ fixed 2 (dt_d d) ++ fixed 2 (dt_H d) ++ fixed 2 (dt_M d) ++ fixed 2 (dt_S d).
(** the ISO 8601 form without fraction and 'Z' *)
Definition iso19 (d : dt) : str :=
  fixed 4 (dt_y d) ++ [45%N] ++ fixed 2 (dt_m d) ++ [45%N] ++ fixed 2 (dt_d d) ++ [84%N]
  ++ fixed 2 (dt_H d) ++ [58%N] ++ fixed 2 (dt_M d) ++ [58%N] ++ fixed 2 (dt_S d).

(** lexicographic order of strings *)
Fixpoint str_lt (a b : str) : Prop :=
  match a, b with
  | _, [] => False
  | [], _ :: _ => True
  | x :: a', y :: b' => (x < y)%N \/ (x = y /\ str_lt a' b')
  end.
(** chronological order *)
Definition dt_lt (a b : dt) : Prop :=
  let lt1 x y (r : Prop) := x < y \/ (x = y /\ r) in
  lt1 (dt_y a) (dt_y b) (lt1 (dt_m a) (dt_m b) (lt1 (dt_d a) (dt_d b)
    (lt1 (dt_H a) (dt_H b) (lt1 (dt_M a) (dt_M b) (lt1 (dt_S a) (dt_S b) (dt_us a < dt_us b)))))).

(** ** Days *)
Definition date : Type := (Z * Z * Z)%type.
Definition date_of (d : dt) : date := (dt_y d, dt_m d, dt_d d).
(** the day after *)
Definition next_day (a b : date) : Prop :=
  let '(y, m, d) := a in
  exists n, days_in_month y m n
    /\ ((d < n /\ b = (y, m, d + 1)) \/ (d = n /\ m < 12 /\ b = (y, m + 1, 1)) \/ (d = n /\ m = 12 /\ b = (y + 1, 1, 1))).
(** [b] is [n] days after [a] *)
Inductive days_after (a : date) : Z -> date -> Prop :=
| days_same : days_after a 0 a
| days_next n b c : days_after a n b -> next_day b c -> days_after a (n + 1) c.

(** the date of RFC 1123 with the given name of the day *)
Definition week : list str := [lit "Mon"; lit "Tue"; lit "Wed"; lit "Thu"; lit "Fri"; lit "Sat"; lit "Sun"].
Definition months : list str :=
  [lit "Jan"; lit "Feb"; lit "Mar"; lit "Apr"; lit "May"; lit "Jun"; lit "Jul"; lit "Aug"; lit "Sep"; lit "Oct"; lit "Nov"; lit "Dec"].
Definition http29 (day month : str) (d : dt) : str :=
  day ++ lit ", " ++ fixed 2 (dt_d d) ++ lit " " ++ month ++ lit " " ++ fixed 4 (dt_y d) ++ lit " "
  ++ fixed 2 (dt_H d) ++ lit ":" ++ fixed 2 (dt_M d) ++ lit ":" ++ fixed 2 (dt_S d) ++ lit " GMT".
