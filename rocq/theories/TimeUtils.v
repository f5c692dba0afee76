(** * TimeUtils: model of /repo/warcio/timeutils.py and the parts of datetime and
    calendar it uses. *)
From Coq Require Import List ZArith NArith Bool String.
From Verif Require Import PyBase.
Import ListNotations.
Open Scope Z_scope.

(** datetime.datetime without time zone (tz_aware only attaches UTC and does not
    change any field; simplification: the flag is not modelled). *)
Record dt := mk_dt { dt_y : Z; dt_m : Z; dt_d : Z; dt_H : Z; dt_M : Z; dt_S : Z; dt_us : Z }.

(** calendar.isleap *)
Definition isleap (y : Z) : bool :=
  (y mod 4 =? 0) && (negb (y mod 100 =? 0) || (y mod 400 =? 0)).

(** calendar.monthrange(y, m)[1] *)
Definition month_days (y m : Z) : Z :=
  if m =? 2 then (if isleap y then 29 else 28)
  else if (m =? 4) || (m =? 6) || (m =? 9) || (m =? 11) then 30 else 31.

(** the range checks of the datetime constructor *)
Definition dt_valid (d : dt) : bool :=
  (1 <=? dt_y d) && (dt_y d <=? 9999) && (1 <=? dt_m d) && (dt_m d <=? 12)
  && (1 <=? dt_d d) && (dt_d d <=? month_days (dt_y d) (dt_m d))
  && (0 <=? dt_H d) && (dt_H d <=? 23) && (0 <=? dt_M d) && (dt_M d <=? 59)
  && (0 <=? dt_S d) && (dt_S d <=? 59) && (0 <=? dt_us d) && (dt_us d <=? 999999).

Definition mk_datetime (d : dt) : res dt := if dt_valid d then Ok d else Err ValueErr.

(** two-digit and n-digit zero-padded decimals (strftime, isoformat) *)
Definition pad (w : Z) (n : Z) : str := zpad w (str_of_Z n).

Definition PAD_6_UP : str := lit "299912".       (* timeutils.py:24 *)
Definition PAD_MICRO : str := lit "000000".      (* timeutils.py:25 *)

(** timeutils.py:199-220 pad_timestamp *)
Definition pad_timestamp (s pad_str : str) : str :=
  if lenZ s <? lenZ pad_str then s ++ dropZ (lenZ s) pad_str else s.

(** timeutils.py:322-328 clamp *)
Definition clamp (val : str) (lo hi : Z) : Z :=
  match py_int val with Some v => Z.max lo (Z.min v hi) | None => hi end.

(** timeutils.py:330-334 extract *)
Definition extract (s : str) (start stop lo hi : Z) : Z :=
  if stop <=? lenZ s then clamp (takeZ (stop - start) (dropZ start s)) lo hi else hi.

(** timeutils.py:223-354 timestamp_to_datetime *)
Definition timestamp_to_datetime (s : str) : res dt :=
  let s := pad_timestamp s PAD_6_UP in
  let year := extract s 0 4 1900 2999 in
  let month := extract s 4 6 1 12 in
  let day := extract s 6 8 1 (month_days year month) in
  let hour := extract s 8 10 0 23 in
  let minute := extract s 10 12 0 59 in
  let second := extract s 12 14 0 59 in
  mk_datetime (mk_dt year month day hour minute second 0).

(** timeutils.py:130-136 datetime_to_timestamp: strftime('%Y%m%d%H%M%S').
    glibc's %Y does not pad years below 1000. *)
Definition datetime_to_timestamp (d : dt) : str :=
  str_of_Z (dt_y d) ++ pad 2 (dt_m d) ++ pad 2 (dt_d d) ++ pad 2 (dt_H d) ++ pad 2 (dt_M d)
  ++ pad 2 (dt_S d).

(** timeutils.py:105-127 datetime_to_iso_date: strftime(ISO_DT), or isoformat()+'Z'
    (isoformat pads the year and shows the microseconds only when non-zero) *)
Definition datetime_to_iso_date (use_micros : bool) (d : dt) : str :=
  (if use_micros then pad 4 (dt_y d) else str_of_Z (dt_y d))
  ++ lit "-" ++ pad 2 (dt_m d) ++ lit "-" ++ pad 2 (dt_d d) ++ lit "T"
  ++ pad 2 (dt_H d) ++ lit ":" ++ pad 2 (dt_M d) ++ lit ":" ++ pad 2 (dt_S d)
  ++ (if use_micros && negb (dt_us d =? 0) then lit "." ++ pad 6 (dt_us d) else [])
  ++ lit "Z".

(** \d of a str regex: any Unicode decimal digit *)
Definition is_nd (c : N) : bool := match nd_val c with Some _ => true | None => false end.

Fixpoint ints_of (l : list str) : option (list Z) :=
  match l with
  | [] => Some []
  | x :: t => match py_int x, ints_of t with
              | Some v, Some r => Some (v :: r)
              | _, _ => None
              end
  end.

(** timeutils.py:58-64: split on non-digits, drop a trailing '', pad the
    microseconds *)
Definition iso_nums (s : str) : list str :=
  let nums := split_on (fun c => negb (is_nd c)) s in
  let nums := match rev nums with
              | [] :: r => rev r
              | _ => nums
              end in
  match nums with
  | [a; b; c; d; e; f; g] =>
      let g := takeZ 6 g in [a; b; c; d; e; f; g ++ dropZ (lenZ g) PAD_MICRO]
  | _ => nums
  end.

(** timeutils.py:28-71 iso_date_to_datetime.  datetime( *nums ) needs 3..7 numbers
    (fewer: TypeError; an 8th collides with tzinfo: TypeError). *)
Definition iso_date_to_datetime (s : str) : res dt :=
  match ints_of (iso_nums s) with
  | None => Err ValueErr
  | Some l =>
      match l with
      | [y; m; d] => mk_datetime (mk_dt y m d 0 0 0 0)
      | [y; m; d; h] => mk_datetime (mk_dt y m d h 0 0 0)
      | [y; m; d; h; mi] => mk_datetime (mk_dt y m d h mi 0 0)
      | [y; m; d; h; mi; sec] => mk_datetime (mk_dt y m d h mi sec 0)
      | [y; m; d; h; mi; sec; us] => mk_datetime (mk_dt y m d h mi sec us)
      | _ => Err TypeErr
      end
  end.

(** timeutils.py:163-172 iso_date_to_timestamp *)
Definition iso_date_to_timestamp (s : str) : res str :=
  match iso_date_to_datetime s with Ok d => Ok (datetime_to_timestamp d) | Err e => Err e end.

(** timeutils.py:174-184 timestamp_to_iso_date *)
Definition timestamp_to_iso_date (s : str) : res str :=
  match timestamp_to_datetime s with
  | Ok d => Ok (datetime_to_iso_date false d)
  | Err e => Err e
  end.

(** datetime.py _days_before_year, _days_before_month, _ymd2ord *)
Definition days_before_year (y : Z) : Z :=
  let y := y - 1 in y * 365 + y / 4 - y / 100 + y / 400.
Definition days_before_month (y m : Z) : Z :=
  let base := match m with
              | 1 => 0 | 2 => 31 | 3 => 59 | 4 => 90 | 5 => 120 | 6 => 151
              | 7 => 181 | 8 => 212 | 9 => 243 | 10 => 273 | 11 => 304 | _ => 334
              end in
  base + (if (2 <? m) && isleap y then 1 else 0).
Definition ymd2ord (y m d : Z) : Z := days_before_year y + days_before_month y m + d.

(** datetime.py _ord2ymd *)
Definition ord2ymd (n : Z) : Z * Z * Z :=
  let n := n - 1 in
  let n400 := n / 146097 in
  let n := n mod 146097 in
  let year := n400 * 400 + 1 in
  let n100 := n / 36524 in
  let n := n mod 36524 in
  let n4 := n / 1461 in
  let n := n mod 1461 in
  let n1 := n / 365 in
  let n := n mod 365 in
  let year := year + n100 * 100 + n4 * 4 + n1 in
  if (n1 =? 4) || (n100 =? 4) then (year - 1, 12, 31)
  else
    let leap := (n1 =? 3) && (negb (n4 =? 24) || (n100 =? 3)) in
    let month := (n + 50) / 32 in
    let preceding := (match month with
              | 1 => 0 | 2 => 31 | 3 => 59 | 4 => 90 | 5 => 120 | 6 => 151
              | 7 => 181 | 8 => 212 | 9 => 243 | 10 => 273 | 11 => 304 | _ => 334
              end) + (if (2 <? month) && leap then 1 else 0) in
    let dim m := if m =? 2 then (if leap then 29 else 28)
                 else if (m =? 4) || (m =? 6) || (m =? 9) || (m =? 11) then 30 else 31 in
    if n <? preceding then
      let month := month - 1 in
      let preceding := preceding - dim month in
      (year, month, n - preceding + 1)
    else (year, month, n - preceding + 1).

Definition EPOCH_ORD : Z := 719163.    (* date(1970,1,1).toordinal() *)

(** calendar.timegm(dt.utctimetuple()) *)
Definition timegm (d : dt) : Z :=
  let days := ymd2ord (dt_y d) (dt_m d) 1 - EPOCH_ORD + dt_d d - 1 in
  ((days * 24 + dt_H d) * 60 + dt_M d) * 60 + dt_S d.

(** datetime.fromtimestamp(secs, timezone.utc) for an integer: ValueError when the
    year is out of 1..9999 *)
Definition fromtimestamp (secs : Z) : res dt :=
  let days := secs / 86400 in
  let r := secs mod 86400 in
  let '(y, m, d) := ord2ymd (days + EPOCH_ORD) in
  mk_datetime (mk_dt y m d (r / 3600) (r mod 3600 / 60) (r mod 60) 0).

(** timeutils.py:359-370 timestamp_to_sec *)
Definition timestamp_to_sec (s : str) : res Z :=
  match timestamp_to_datetime s with Ok d => Ok (timegm d) | Err e => Err e end.

(** timeutils.py:373-382 sec_to_timestamp *)
Definition sec_to_timestamp (secs : Z) : res str :=
  match fromtimestamp secs with Ok d => Ok (datetime_to_timestamp d) | Err e => Err e end.

(** email.utils.formatdate(timeval, usegmt=True) for an integer second, on UTC:
    '%s, %02d %s %04d %02d:%02d:%02d GMT' *)
Definition weekday (d : dt) : Z := (ymd2ord (dt_y d) (dt_m d) (dt_d d) + 6) mod 7.
Definition day_name (w : Z) : str :=
  match w with
  | 0 => lit "Mon" | 1 => lit "Tue" | 2 => lit "Wed" | 3 => lit "Thu" | 4 => lit "Fri"
  | 5 => lit "Sat" | _ => lit "Sun" end.
Definition month_name (m : Z) : str :=
  match m with
  | 1 => lit "Jan" | 2 => lit "Feb" | 3 => lit "Mar" | 4 => lit "Apr" | 5 => lit "May"
  | 6 => lit "Jun" | 7 => lit "Jul" | 8 => lit "Aug" | 9 => lit "Sep" | 10 => lit "Oct"
  | 11 => lit "Nov" | _ => lit "Dec" end.
Definition format_http (d : dt) : str :=
  day_name (weekday d) ++ lit ", " ++ pad 2 (dt_d d) ++ lit " " ++ month_name (dt_m d)
  ++ lit " " ++ pad 4 (dt_y d) ++ lit " " ++ pad 2 (dt_H d) ++ lit ":" ++ pad 2 (dt_M d)
  ++ lit ":" ++ pad 2 (dt_S d) ++ lit " GMT".

(** timeutils.py:89-102 datetime_to_http_date *)
Definition datetime_to_http_date (d : dt) : res str :=
  match fromtimestamp (timegm d) with Ok d' => Ok (format_http d') | Err e => Err e end.

(** timeutils.py:385-393 timestamp_to_http_date *)
Definition timestamp_to_http_date (s : str) : res str :=
  match timestamp_to_datetime s with Ok d => datetime_to_http_date d | Err e => Err e end.
