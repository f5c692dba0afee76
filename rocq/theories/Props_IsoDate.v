(** * Props_IsoDate: what iso_date_to_datetime reads (C101) *)
From Coq Require Import String List ZArith NArith Bool Lia.
From Coq Require Import ZifyBool ZifyNat ZifyN.
From Verif Require Import PyBase TimeUtils TimeSpec.
Import ListNotations.
Open Scope Z_scope.
From Verif Require Import Thm_IsoDate.

(** an ASCII digit; an ASCII character that is not a digit; a number *)
Definition digit (c : N) : Prop := (48 <= c <= 57)%N.
Definition separator (c : N) : Prop := (c < 128)%N /\ ~ digit c.
Definition digits (g : str) : Prop := g <> [] /\ Forall digit g.
Definition number (g : str) : Z := fold_left (fun a c => 10 * a + (Z.of_N c - 48)) g 0.
(** [s] consists of the numbers [gs] with one separator between each two of them, and possibly
    one at the end *)
Fixpoint numbers (gs : list str) (s : str) : Prop :=
  match gs with
  | [] => False
  | [g] => digits g /\ (s = g \/ exists c, separator c /\ s = g ++ [c])
  | g :: gs' => exists c s', digits g /\ separator c /\ s = g ++ c :: s' /\ numbers gs' s'
  end.
(** the date-time if it exists, ValueError otherwise *)
Definition date_or_error (r : res dt) (d : dt) : Prop :=
  (valid_dt d /\ 1 <= dt_y d <= 9999 /\ r = Ok d)
  \/ (~ (valid_dt d /\ 1 <= dt_y d <= 9999) /\ r = Err ValueErr).

(** C101: three to six numbers are the year, month, day, hour, minute and second; what is
    missing is zero; whatever stands between the numbers *)
Theorem C101_read :
  forall gs s, numbers gs s -> (3 <= List.length gs <= 6)%nat ->
  let f := fun i => nth i (map number gs) 0 in
  date_or_error (iso_date_to_datetime s) (mk_dt (f 0%nat) (f 1%nat) (f 2%nat) (f 3%nat) (f 4%nat) (f 5%nat) 0).
Proof. exact C101_read_pf. Qed.
Print Assumptions C101_read.

Example C101_ex : numbers [lit "2013"; lit "12"; lit "26"] (lit "2013-12-26")
  /\ iso_date_to_datetime (lit "2013-12-26") = Ok (mk_dt 2013 12 26 0 0 0 0)
  /\ iso_date_to_datetime (lit "2013-12-26T10:11Z") = Ok (mk_dt 2013 12 26 10 11 0 0)
  /\ iso_date_to_datetime (lit "2013-02-29T10:11Z") = Err ValueErr.
Proof.
  split; [|vm_compute; auto].
  assert (D : forall g, g <> [] -> forallb (fun c => (48 <=? c)%N && (c <=? 57)%N) g = true -> digits g).
  { intros g H1 H2. split; [exact H1|]. rewrite forallb_forall in H2. apply Forall_forall. intros c Hc. specialize (H2 c Hc). unfold digit. lia. }
  assert (P : separator 45) by (unfold separator, digit; lia).
  exists 45%N, (lit "12-26"). split; [apply D; [discriminate|reflexivity]|]. split; [exact P|]. split; [reflexivity|].
  exists 45%N, (lit "26"). split; [apply D; [discriminate|reflexivity]|]. split; [exact P|]. split; [reflexivity|].
  split; [apply D; [discriminate|reflexivity]|now left].
Qed.

(** C101: a seventh number is the fraction of the second: its first six digits, padded *)
Theorem C101_fraction :
  forall a b c d e g fr s, numbers [a; b; c; d; e; g; fr] s ->
  date_or_error (iso_date_to_datetime s)
    (mk_dt (number a) (number b) (number c) (number d) (number e) (number g) (number (takeZ 6 (fr ++ lit "000000")))).
Proof. exact C101_fraction_pf. Qed.
Print Assumptions C101_fraction.

Example C101_fraction_ex : iso_date_to_datetime (lit "2013-12-26 10.11.12,25") = Ok (mk_dt 2013 12 26 10 11 12 250000)
  /\ number (takeZ 6 (lit "25" ++ lit "000000")) = 250000.
Proof. vm_compute. auto. Qed.

(** C101: fewer than three or more than seven numbers are a TypeError, not a ValueError *)
Theorem C101_count :
  forall gs s, numbers gs s -> (List.length gs < 3 \/ 7 < List.length gs)%nat -> iso_date_to_datetime s = Err TypeErr.
Proof. exact C101_count_pf. Qed.
Print Assumptions C101_count.

Example C101_count_ex : iso_date_to_datetime (lit "2013-12") = Err TypeErr /\ iso_date_to_datetime (lit "2013-12-26T10:11:12+01:00") = Err TypeErr.
Proof. vm_compute. auto. Qed.

(** C101 is false for the two shortest formats of the W3C profile of ISO 8601 that WARC 1.1
    allows: a year, or a year and a month, is a TypeError *)
Theorem C101_year_month_refuted :
  forall y m, iso_date_to_datetime (fixed 4 y) = Err TypeErr /\ iso_date_to_datetime (fixed 4 y ++ lit "-" ++ fixed 2 m) = Err TypeErr.
Proof. exact C101_year_month_refuted_pf. Qed.
Print Assumptions C101_year_month_refuted.

(** C101 is false for the W3C format with hours, minutes and a time zone: the hours of the
    offset become the seconds and its minutes the fraction *)
Theorem C101_offset_refuted :
  forall d oh om, valid_dt d -> 1 <= dt_y d <= 9999 -> 0 <= oh <= 23 -> 0 <= om <= 59 ->
  iso_date_to_datetime (fixed 4 (dt_y d) ++ lit "-" ++ fixed 2 (dt_m d) ++ lit "-" ++ fixed 2 (dt_d d) ++ lit "T"
                        ++ fixed 2 (dt_H d) ++ lit ":" ++ fixed 2 (dt_M d) ++ lit "+" ++ fixed 2 oh ++ lit ":" ++ fixed 2 om)
  = Ok (mk_dt (dt_y d) (dt_m d) (dt_d d) (dt_H d) (dt_M d) oh (10000 * om)).
Proof. exact C101_offset_refuted_pf. Qed.
Print Assumptions C101_offset_refuted.

Example C101_offset_ex : iso_date_to_datetime (lit "2013-12-26T10:11+01:30") = Ok (mk_dt 2013 12 26 10 11 1 300000).
Proof. vm_compute. reflexivity. Qed.
