(** * Props_Time: timestamps and dates (C50-C54) *)
From Coq Require Import String List ZArith NArith Bool Lia.
From Coq Require Import ZifyBool ZifyNat ZifyN.
From Verif Require Import PyBase TimeUtils TimeSpec.
Import ListNotations.
Open Scope Z_scope.
From Verif Require Import Thm_Time.

(** C50: any string at all, including non-digits and every length *)
Theorem C50_total :
  forall s : str, exists d, timestamp_to_datetime s = Ok d /\ valid_dt d /\ 1900 <= dt_y d <= 2999 /\ dt_us d = 0.
Proof. exact C50_total_pf. Qed.
Print Assumptions C50_total.

Example C50_ex : timestamp_to_datetime (lit "20119999999999") = Ok (mk_dt 2011 12 31 23 59 59 0)
  /\ timestamp_to_datetime (lit "2010x-") = Ok (mk_dt 2010 12 31 23 59 59 0) /\ timestamp_to_datetime [] = Ok (mk_dt 2999 12 31 23 59 59 0).
Proof. vm_compute. repeat split. Qed.

(** C50: each field of a 14-character string of digits is its value, moved into its range *)
Theorem C50_field_clamping :
  forall y m d H M S, 0 <= y <= 9999 -> 0 <= m <= 99 -> 0 <= d <= 99 -> 0 <= H <= 99 -> 0 <= M <= 99 -> 0 <= S <= 99 ->
  exists r n, timestamp_to_datetime (ts14 (mk_dt y m d H M S 0)) = Ok r
    /\ dt_y r = Z.max 1900 (Z.min y 2999) /\ dt_m r = Z.max 1 (Z.min m 12)
    /\ days_in_month (dt_y r) (dt_m r) n /\ dt_d r = Z.max 1 (Z.min d n)
    /\ dt_H r = Z.min H 23 /\ dt_M r = Z.min M 59 /\ dt_S r = Z.min S 59.
Proof. exact C50_field_clamping_pf. Qed.
Print Assumptions C50_field_clamping.

Example C50_clamp_ex : timestamp_to_datetime (lit "20130231256099") = Ok (mk_dt 2013 2 28 23 59 59 0).
Proof. vm_compute. reflexivity. Qed.

(** C51: [ts14 d] is the 14-digit timestamp of a real date-time *)
Theorem C51_timestamp_roundtrip :
  forall d, valid_dt d -> 1900 <= dt_y d <= 2999 -> dt_us d = 0 ->
  timestamp_to_datetime (ts14 d) = Ok d /\ datetime_to_timestamp d = ts14 d
  /\ timestamp_to_datetime (datetime_to_timestamp d) = Ok d.
Proof. exact C51_timestamp_roundtrip_pf. Qed.
Print Assumptions C51_timestamp_roundtrip.

Example C51_ex : let d := mk_dt 2012 2 29 23 5 9 0 in valid_dt d /\ ts14 d = lit "20120229230509".
Proof.
  split; [|vm_compute; reflexivity]. unfold valid_dt, days_in_month, leap_year. cbn. repeat split; try discriminate.
  exists 29. split; [|lia]. right. right. left. split; [reflexivity|]. split; [|reflexivity]. split; [exists 503; reflexivity|].
  left. intros [k Hk]. lia.
Qed.

(** C52 *)
Theorem C52_iso_roundtrip :
  forall d, valid_dt d -> 1000 <= dt_y d <= 9999 ->
  iso_date_to_datetime (datetime_to_iso_date true d) = Ok d
  /\ iso_date_to_datetime (datetime_to_iso_date false d) = Ok (mk_dt (dt_y d) (dt_m d) (dt_d d) (dt_H d) (dt_M d) (dt_S d) 0).
Proof. exact C52_iso_roundtrip_pf. Qed.
Print Assumptions C52_iso_roundtrip.

Example C52_ex : datetime_to_iso_date true (mk_dt 2013 12 26 10 11 12 1) = lit "2013-12-26T10:11:12.000001Z"
  /\ iso_date_to_datetime (lit "2013-12-26T10:11:12.000001Z") = Ok (mk_dt 2013 12 26 10 11 12 1).
Proof. vm_compute. split; reflexivity. Qed.

(** C52: any number of fraction digits; [micros] is the value of the first six, padded *)
Theorem C52_iso_fraction :
  forall d f, valid_dt d -> 1000 <= dt_y d <= 9999 -> f <> [] -> (forall c, In c f -> (48 <= c <= 57)%N) ->
  forall micros, 0 <= micros < 1000000 -> fixed 6 micros = takeZ 6 (f ++ lit "000000") ->
  iso_date_to_datetime (iso19 d ++ lit "." ++ f ++ lit "Z") = Ok (mk_dt (dt_y d) (dt_m d) (dt_d d) (dt_H d) (dt_M d) (dt_S d) micros).
Proof. exact C52_iso_fraction_pf. Qed.
Print Assumptions C52_iso_fraction.

Example C52_frac_ex : iso_date_to_datetime (lit "2013-12-26T10:11:12.30Z") = Ok (mk_dt 2013 12 26 10 11 12 300000)
  /\ fixed 6 300000 = takeZ 6 (lit "30" ++ lit "000000")
  /\ iso_date_to_datetime (lit "2013-12-26T10:11:12.00000199Z") = Ok (mk_dt 2013 12 26 10 11 12 1)
  /\ fixed 6 1 = takeZ 6 (lit "00000199" ++ lit "000000").
Proof. vm_compute. repeat split. Qed.

(** C52: the two string forms convert into each other *)
Theorem C52_iso_timestamp :
  forall d, valid_dt d -> 1900 <= dt_y d <= 2999 ->
  timestamp_to_iso_date (ts14 d) = Ok (iso19 d ++ lit "Z") /\ iso_date_to_timestamp (iso19 d ++ lit "Z") = Ok (ts14 d).
Proof. exact C52_iso_timestamp_pf. Qed.
Print Assumptions C52_iso_timestamp.

Example C52_ts_ex : timestamp_to_iso_date (lit "20131226101112") = Ok (lit "2013-12-26T10:11:12Z").
Proof. vm_compute. reflexivity. Qed.

(** C53 *)
Theorem C53_seconds_roundtrip :
  forall d, valid_dt d -> 1900 <= dt_y d <= 2999 ->
  exists s, timestamp_to_sec (ts14 d) = Ok s /\ sec_to_timestamp s = Ok (ts14 d).
Proof. exact C53_seconds_roundtrip_pf. Qed.
Print Assumptions C53_seconds_roundtrip.

Example C53_ex : timestamp_to_sec (lit "20131226095010") = Ok 1388051410 /\ sec_to_timestamp (-2208988800) = Ok (lit "19000101000000").
Proof. vm_compute. split; reflexivity. Qed.

(** C53: string order, chronological order and the order of the seconds agree *)
Theorem C53_order :
  forall a b s t, valid_dt a -> 1900 <= dt_y a <= 2999 -> dt_us a = 0 -> valid_dt b -> 1900 <= dt_y b <= 2999 -> dt_us b = 0 ->
  timestamp_to_sec (ts14 a) = Ok s -> timestamp_to_sec (ts14 b) = Ok t ->
  (s < t <-> dt_lt a b) /\ (s < t <-> str_lt (ts14 a) (ts14 b)) /\ (s = t <-> a = b).
Proof. exact C53_order_pf. Qed.
Print Assumptions C53_order.

Example C53_order_ex : str_lt (lit "19991231235959") (lit "20000101000000") /\ timestamp_to_sec (lit "19991231235959") = Ok 946684799
  /\ timestamp_to_sec (lit "20000101000000") = Ok 946684800.
Proof. vm_compute. repeat split. left. reflexivity. Qed.

(** C54 *)
Theorem C54_prefix_is_period_end :
  forall k d, valid_dt d -> 1900 <= dt_y d <= 2999 -> dt_us d = 0 -> In k [4; 6; 8; 10; 12] ->
  exists r, timestamp_to_datetime (takeZ k (ts14 d)) = Ok r /\ valid_dt r /\ takeZ k (ts14 r) = takeZ k (ts14 d)
    /\ forall d', valid_dt d' -> 1900 <= dt_y d' <= 2999 -> dt_us d' = 0 -> takeZ k (ts14 d') = takeZ k (ts14 d) -> d' = r \/ dt_lt d' r.
Proof. exact C54_prefix_is_period_end_pf. Qed.
Print Assumptions C54_prefix_is_period_end.

Example C54_ex : timestamp_to_datetime (lit "201202") = Ok (mk_dt 2012 2 29 23 59 59 0) /\ takeZ 6 (ts14 (mk_dt 2012 2 3 4 5 6 0)) = lit "201202".
Proof. vm_compute. split; reflexivity. Qed.
