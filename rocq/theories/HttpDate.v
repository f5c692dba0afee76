(** * HttpDate: model of http_date_to_datetime and http_date_to_timestamp
    (/repo/warcio/timeutils.py:74-86, 187-195) and of the part of the standard library's
    email.utils.parsedate they use (the first six fields). *)
From Coq Require Import List ZArith NArith Bool String.
From Verif Require Import PyBase TimeUtils.
Import ListNotations.
Open Scope Z_scope.

(** str.split(): the non-empty pieces between white space *)
Definition words (s : str) : list str :=
  filter (fun w => negb (leqb w [])) (split_on is_uspace s).
Definition last_is (c : N) (s : str) : bool := match rev s with x :: _ => (x =? c)%N | [] => false end.
Definition but_last (s : str) : str := match rev s with _ :: r => rev r | [] => [] end.
(** s[s.rfind(',')+1:] *)
Definition after_comma (s : str) : str := last (split_on (fun x => (x =? 44)%N) s) [].

Definition daynames : list str := [lit "mon"; lit "tue"; lit "wed"; lit "thu"; lit "fri"; lit "sat"; lit "sun"].
Definition monthnames : list str :=
  [lit "jan"; lit "feb"; lit "mar"; lit "apr"; lit "may"; lit "jun"; lit "jul"; lit "aug"; lit "sep"; lit "oct"; lit "nov"; lit "dec";
   lit "january"; lit "february"; lit "march"; lit "april"; lit "may"; lit "june"; lit "july"; lit "august"; lit "september";
   lit "october"; lit "november"; lit "december"].
Fixpoint index_of (x : str) (l : list str) : option Z :=
  match l with
  | [] => None
  | a :: t => if leqb a x then Some 0 else option_map Z.succ (index_of x t)
  end.
(** _monthnames.index(mm) + 1, minus 12 if above 12 *)
Definition month_no (mm : str) : option Z :=
  option_map (fun i => if i + 1 >? 12 then i + 1 - 12 else i + 1) (index_of mm monthnames).

(** s.find(x) *)
Fixpoint find1 (x : N) (s : str) : option nat :=
  match s with
  | [] => None
  | c :: t => if (c =? x)%N then Some O else option_map S (find1 x t)
  end.

(** email/_parseaddr.py _parsedate_tz, without the time zone: (year, month, day, hour, minute,
    second), or None.  str.isdigit() is taken to be "decimal digit"; [lower] is ASCII. *)
Definition split_tz (s : str) : list str :=
  match find1 43 s with
  | Some (S n) => [firstn (S n) s; skipn (S n) s]
  | Some O => [s; []]
  | None => match find1 45 s with
            | Some (S n) => [firstn (S n) s; skipn (S n) s]
            | _ => [s; []]
            end
  end.
Definition time_parts (tm : str) : option (str * str * str) :=
  match split_on (fun x => (x =? 58)%N) tm with
  | [h; m] => Some (h, m, lit "0")
  | [h; m; s] => Some (h, m, s)
  | [x] => match split_on (fun x => (x =? 46)%N) x with
           | [h; m] => Some (h, m, lit "0")
           | [h; m; s] => Some (h, m, s)
           | _ => None
           end
  | _ => None
  end.
Definition parse_fields (dd mm yy tm tz : str) : option (list Z) :=
  if leqb dd [] || leqb mm [] || leqb yy [] then None
  else
    match (match month_no (lower mm) with
           | Some n => Some (dd, n)
           | None => option_map (fun n => (lower mm, n)) (month_no (lower dd))
           end) with
    | None => None
    | Some (dd, mon) =>
        let dd := if last_is 44 dd then but_last dd else dd in
        let '(yy, tm) := match find1 58 yy with Some (S _) => (tm, yy) | _ => (yy, tm) end in
        let yy' := if last_is 44 yy then but_last yy else yy in
        match yy' with
        | [] => None
        | c :: _ =>
            let yy := if is_nd c then yy' else tz in
            let tm := if last_is 44 tm then but_last tm else tm in
            match time_parts tm with
            | None => None
            | Some (h, m, s) =>
                match ints_of [yy; dd; h; m; s] with
                | Some [y; d; h; m; s] =>
                    let y := if y <? 100 then (if y >? 68 then y + 1900 else y + 2000) else y in
                    Some [y; mon; d; h; m; s]
                | _ => None
                end
            end
        end
    end.
Definition parsedate (data : str) : option (list Z) :=
  match words data with
  | [] => None
  | w :: rest =>
      let data := if last_is 44 w || existsb (leqb (lower w)) daynames then rest else after_comma w :: rest in
      let data := match data with
                  | [a; b; c] => match split_on (fun x => (x =? 45)%N) a with
                                 | [x; y; z] => [x; y; z; b; c]
                                 | _ => data
                                 end
                  | _ => data
                  end in
      let data := match data with [a; b; c; d] => [a; b; c] ++ split_tz d | _ => data end in
      match data with
      | dd :: mm :: yy :: tm :: tz :: _ => parse_fields dd mm yy tm tz
      | _ => None
      end
  end.

(** timeutils.py:74-86 http_date_to_datetime; None[:6] is a TypeError *)
Definition http_date_to_datetime (s : str) : res dt :=
  match parsedate s with
  | Some [y; mo; d; h; mi; sec] => mk_datetime (mk_dt y mo d h mi sec 0)
  | _ => Err TypeErr
  end.
(** timeutils.py:187-195 http_date_to_timestamp *)
Definition http_date_to_timestamp (s : str) : res str :=
  match http_date_to_datetime s with Ok d => Ok (datetime_to_timestamp d) | Err e => Err e end.

Example http_ex : http_date_to_datetime (lit "Thu, 26 Dec 2013 09:50:10 GMT") = Ok (mk_dt 2013 12 26 9 50 10 0)
  /\ http_date_to_timestamp (lit "Sun, 26 Jan 2014 20:08:04 GMT") = Ok (lit "20140126200804")
  /\ http_date_to_datetime (lit "Sunday, 06-Nov-94 08:49:37 GMT") = Ok (mk_dt 1994 11 6 8 49 37 0)
  /\ http_date_to_datetime (lit "Nov 6 1994 8:49 -0100") = Ok (mk_dt 1994 11 6 8 49 0 0).
Proof. vm_compute. repeat split. Qed.
