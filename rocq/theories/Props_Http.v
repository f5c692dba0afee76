(** * Props_Http: days and HTTP dates (C53, C78) *)
From Coq Require Import String List ZArith NArith Bool Lia.
From Coq Require Import ZifyBool ZifyNat ZifyN.
From Verif Require Import PyBase TimeUtils TimeSpec HttpDate.
Import ListNotations.
Open Scope Z_scope.
From Verif Require Import Thm_Http.

(** C53: the number of seconds is counted from 1 January 1970, day by day of the calendar,
    in both directions *)
Theorem C53_seconds :
  forall d, valid_dt d -> 1900 <= dt_y d <= 2999 ->
  exists days, timestamp_to_sec (ts14 d) = Ok (86400 * days + 3600 * dt_H d + 60 * dt_M d + dt_S d)
  /\ (days_after (1970, 1, 1) days (date_of d) \/ days_after (date_of d) (- days) (1970, 1, 1)).
Proof. exact C53_seconds_pf. Qed.
Print Assumptions C53_seconds.

Example C53_sec_ex : timestamp_to_sec (lit "19700102000001") = Ok 86401 /\ timestamp_to_sec (lit "19691231235959") = Ok (-1)
  /\ days_after (1970, 1, 1) 1 (1970, 1, 2) /\ days_after (1969, 12, 31) (- (-1)) (1970, 1, 1).
Proof.
  split; [reflexivity|]. split; [reflexivity|]. split.
  - apply (days_next _ 0 (1970, 1, 1)); [constructor|]. exists 31. split; [left; cbn; auto|]. left. split; [lia|reflexivity].
  - apply (days_next _ 0 (1969, 12, 31)); [constructor|]. exists 31. split; [left; cbn; auto 10|]. right. right. auto.
Qed.

(** C78: the HTTP date of every date-time has its fields, the name of its month, and the name
    of the day of the week, counted from Monday, 1 January of the year 1 *)
Theorem C78_http_date :
  forall d, valid_dt d -> 1 <= dt_y d <= 9999 ->
  exists n day month, days_after (1, 1, 1) n (date_of d) /\ nth_error week (Z.to_nat (n mod 7)) = Some day
  /\ nth_error months (Z.to_nat (dt_m d - 1)) = Some month
  /\ datetime_to_http_date d = Ok (http29 day month d).
Proof. exact C78_http_date_pf. Qed.
Print Assumptions C78_http_date.

Example C78_ex : datetime_to_http_date (mk_dt 2013 12 26 9 50 10 5) = Ok (lit "Thu, 26 Dec 2013 09:50:10 GMT")
  /\ datetime_to_http_date (mk_dt 1 1 1 0 0 0 0) = Ok (lit "Mon, 01 Jan 0001 00:00:00 GMT").
Proof. vm_compute. split; reflexivity. Qed.

(** C78: http_date_to_datetime reads every HTTP date back, whatever the three letters of the
    name of the day (up to the fraction of the second, which HTTP dates do not have), for years
    from 100 *)
Theorem C78_roundtrip :
  forall d day month, valid_dt d -> 100 <= dt_y d <= 9999 -> In day week -> nth_error months (Z.to_nat (dt_m d - 1)) = Some month ->
  http_date_to_datetime (http29 day month d) = Ok (mk_dt (dt_y d) (dt_m d) (dt_d d) (dt_H d) (dt_M d) (dt_S d) 0)
  /\ exists s, datetime_to_http_date d = Ok s
     /\ http_date_to_datetime s = Ok (mk_dt (dt_y d) (dt_m d) (dt_d d) (dt_H d) (dt_M d) (dt_S d) 0)
     /\ (1000 <= dt_y d -> http_date_to_timestamp s = Ok (ts14 d)).
Proof. exact C78_roundtrip_pf. Qed.
Print Assumptions C78_roundtrip.

Example C78_round_ex : let d := mk_dt 2013 12 26 9 50 10 0 in http29 (lit "Thu") (lit "Dec") d = lit "Thu, 26 Dec 2013 09:50:10 GMT"
  /\ nth_error months (Z.to_nat (dt_m d - 1)) = Some (lit "Dec").
Proof. vm_compute. split; reflexivity. Qed.

(** C78: http_date_to_datetime also reads HTTP dates without a space after the comma, and
    without the name of the day *)
Theorem C78_day_optional :
  forall d day month, valid_dt d -> 100 <= dt_y d <= 9999 -> In day week -> nth_error months (Z.to_nat (dt_m d - 1)) = Some month ->
  exists rest, http29 day month d = day ++ lit ", " ++ rest
  /\ http_date_to_datetime (day ++ lit "," ++ rest) = Ok (mk_dt (dt_y d) (dt_m d) (dt_d d) (dt_H d) (dt_M d) (dt_S d) 0)
  /\ http_date_to_datetime rest = Ok (mk_dt (dt_y d) (dt_m d) (dt_d d) (dt_H d) (dt_M d) (dt_S d) 0).
Proof. exact C78_day_optional_pf. Qed.
Print Assumptions C78_day_optional.

Example C78_optional_ex : http_date_to_datetime (lit "Thu,26 Dec 2013 09:50:10 GMT") = Ok (mk_dt 2013 12 26 9 50 10 0)
  /\ http_date_to_datetime (lit "26 Dec 2013 09:50:10 GMT") = Ok (mk_dt 2013 12 26 9 50 10 0).
Proof. vm_compute. split; reflexivity. Qed.

(** C78: timestamps and HTTP dates convert into each other *)
Theorem C78_timestamp :
  forall d, valid_dt d -> 1900 <= dt_y d <= 2999 ->
  exists day month, timestamp_to_http_date (ts14 d) = Ok (http29 day month d) /\ In day week
  /\ nth_error months (Z.to_nat (dt_m d - 1)) = Some month
  /\ http_date_to_timestamp (http29 day month d) = Ok (ts14 d).
Proof. exact C78_timestamp_pf. Qed.
Print Assumptions C78_timestamp.

Example C78_timestamp_ex : timestamp_to_http_date (lit "20131226095010") = Ok (lit "Thu, 26 Dec 2013 09:50:10 GMT")
  /\ http_date_to_timestamp (lit "Thu, 26 Dec 2013 09:50:10 GMT") = Ok (lit "20131226095010").
Proof. vm_compute. split; reflexivity. Qed.

(** RFC 9110 section 5.6.7: the two obsolete formats of HTTP dates *)
Definition hms (d : dt) : str := fixed 2 (dt_H d) ++ lit ":" ++ fixed 2 (dt_M d) ++ lit ":" ++ fixed 2 (dt_S d).
Definition long_week : list str :=
  [lit "Monday"; lit "Tuesday"; lit "Wednesday"; lit "Thursday"; lit "Friday"; lit "Saturday"; lit "Sunday"].
(** Sunday, 06-Nov-94 08:49:37 GMT *)
Definition rfc850 (day month : str) (d : dt) : str :=
  day ++ lit ", " ++ fixed 2 (dt_d d) ++ lit "-" ++ month ++ lit "-" ++ fixed 2 (dt_y d mod 100) ++ lit " " ++ hms d ++ lit " GMT".
(** Sun Nov  6 08:49:37 1994 *)
Definition asctime (day month : str) (d : dt) : str :=
  day ++ lit " " ++ month ++ lit " " ++ (if dt_d d <? 10 then lit " " ++ fixed 1 (dt_d d) else fixed 2 (dt_d d))
  ++ lit " " ++ hms d ++ lit " " ++ fixed 4 (dt_y d).

(** C78: dates in the obsolete RFC 850 format, with the full name of the day and two digits of
    the year, are read as dates of the years 1969 to 2068 *)
Theorem C78_rfc850 :
  forall d day month, valid_dt d -> 1969 <= dt_y d <= 2068 -> In day long_week -> nth_error months (Z.to_nat (dt_m d - 1)) = Some month ->
  http_date_to_datetime (rfc850 day month d) = Ok (mk_dt (dt_y d) (dt_m d) (dt_d d) (dt_H d) (dt_M d) (dt_S d) 0).
Proof. exact C78_rfc850_pf. Qed.
Print Assumptions C78_rfc850.

Example C78_rfc850_ex : http_date_to_datetime (lit "Sunday, 06-Nov-94 08:49:37 GMT") = Ok (mk_dt 1994 11 6 8 49 37 0)
  /\ rfc850 (lit "Sunday") (lit "Nov") (mk_dt 1994 11 6 8 49 37 0) = lit "Sunday, 06-Nov-94 08:49:37 GMT".
Proof. vm_compute. split; reflexivity. Qed.

(** C78: dates in the format of the C function asctime are read, for years from 100 *)
Theorem C78_asctime :
  forall d day month, valid_dt d -> 100 <= dt_y d <= 9999 -> In day week -> nth_error months (Z.to_nat (dt_m d - 1)) = Some month ->
  http_date_to_datetime (asctime day month d) = Ok (mk_dt (dt_y d) (dt_m d) (dt_d d) (dt_H d) (dt_M d) (dt_S d) 0).
Proof. exact C78_asctime_pf. Qed.
Print Assumptions C78_asctime.

Example C78_asctime_ex : http_date_to_datetime (lit "Sun Nov  6 08:49:37 1994") = Ok (mk_dt 1994 11 6 8 49 37 0)
  /\ asctime (lit "Sun") (lit "Nov") (mk_dt 1994 11 6 8 49 37 0) = lit "Sun Nov  6 08:49:37 1994".
Proof. vm_compute. split; reflexivity. Qed.

(** C78 is false for the first hundred years: 1 January of the year 50 is read as 2050 *)
Theorem C78_early_years_refuted :
  exists d s, valid_dt d /\ 1 <= dt_y d /\ datetime_to_http_date d = Ok s /\ http_date_to_datetime s = Ok (mk_dt 2050 1 1 0 0 0 0) /\ dt_y d = 50.
Proof. exact C78_early_years_refuted_pf. Qed.
Print Assumptions C78_early_years_refuted.
