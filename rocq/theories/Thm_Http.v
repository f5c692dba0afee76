(** * Thm_Http: proofs of the theorems restated in Props_Http.v *)
From Coq Require Import String List ZArith NArith Bool Lia.
From Coq Require Import ZifyBool ZifyNat ZifyN.
From Verif Require Import PyBase TimeUtils TimeSpec HttpDate.
Import ListNotations.
Open Scope Z_scope.

From Verif Require Import Facts TimeProofs Thm_Time.

Definition ok_date (a : date) : Prop := let '(y, m, d) := a in 1 <= m <= 12 /\ 1 <= d <= month_days y m.
Definition ord (a : date) : Z := let '(y, m, d) := a in ymd2ord y m d.
Definition prev (a : date) : date :=
  let '(y, m, d) := a in
  if 1 <? d then (y, m, d - 1) else if 1 <? m then (y, m - 1, month_days y (m - 1)) else (y - 1, 12, 31).
Lemma dbm_S y m : 1 <= m < 12 -> days_before_month y (m + 1) = days_before_month y m + month_days y m.
Proof.
  intros H. assert (C : m = 1 \/ m = 2 \/ m = 3 \/ m = 4 \/ m = 5 \/ m = 6 \/ m = 7 \/ m = 8 \/ m = 9 \/ m = 10 \/ m = 11) by lia.
  unfold days_before_month, month_days. destruct (isleap y); destruct C as [->|[->|[->|[->|[->|[->|[->|[->|[->|[->| ->]]]]]]]]]]; reflexivity.
Qed.
Lemma dby_S y : days_before_year (y + 1) = days_before_year y + 365 + if isleap y then 1 else 0.
Proof. unfold days_before_year, isleap. cbv zeta. destruct ((y mod 4 =? 0) && (negb (y mod 100 =? 0) || (y mod 400 =? 0))) eqn:E; Z.div_mod_to_equations; lia. Qed.
Lemma prev_ok a : ok_date a -> ok_date (prev a) /\ next_day (prev a) a /\ ord (prev a) = ord a - 1.
Proof.
  destruct a as [[y m] d]. intros [Hm Hd]. unfold prev. destruct (1 <? d) eqn:E1.
  - split; [cbn; lia|]. split.
    + exists (month_days y m). split; [now apply month_days_spec|]. left. split; [lia|]. f_equal. lia.
    + cbn. unfold ymd2ord. lia.
  - assert (d = 1) by lia. subst d. destruct (1 <? m) eqn:E2.
    + pose proof (month_days_range y (m - 1)). split; [cbn; lia|]. split.
      * exists (month_days y (m - 1)). split; [apply month_days_spec; [lia|reflexivity]|]. right. left. split; [reflexivity|]. split; [lia|]. repeat f_equal. lia.
      * cbn. unfold ymd2ord. pose proof (dbm_S y (m - 1) ltac:(lia)) as D. replace (m - 1 + 1) with m in D by lia. lia.
    + assert (m = 1) by lia. subst m. split; [cbn; lia|]. split.
      * exists 31. split; [left; cbn; auto 10|]. right. right. split; [reflexivity|]. split; [reflexivity|]. repeat f_equal. lia.
      * cbn [ord]. unfold ymd2ord. pose proof (dby_S (y - 1)) as D. replace (y - 1 + 1) with y in D by lia. unfold days_before_month. cbn [Z.ltb andb].
        change (2 <? 12) with true. change (2 <? 1) with false. cbn [andb]. destruct (isleap (y - 1)); lia.
Qed.
Lemma ord_inj a b : ok_date a -> ok_date b -> ord a = ord b -> a = b.
Proof.
  destruct a as [[y m] d], b as [[y' m'] d']. intros [Hm Hd] [Hm' Hd'] E. cbn in E.
  rewrite <- (ord2ymd_ymd2ord y m d), <- (ord2ymd_ymd2ord y' m' d') by assumption. now rewrite E.
Qed.
Lemma after_ord a b n : ok_date a -> ok_date b -> ord b = ord a + n -> 0 <= n -> days_after a n b.
Proof.
  intros Ha Hb E Hn. revert b Hb E. pattern n. apply natlike_ind; [|clear n Hn|exact Hn].
  - intros b Hb E. rewrite (ord_inj b a Hb Ha) by lia. constructor.
  - intros n Hn IH b Hb E. destruct (prev_ok b Hb) as (P1 & P2 & P3). unfold Z.succ. eapply days_next; [|exact P2]. apply IH; [exact P1|lia].
Qed.
Lemma next_ok a b : ok_date a -> next_day a b -> ok_date b /\ ord b = ord a + 1.
Proof.
  destruct a as [[y m] d]. intros [Hm Hd] (n & Hn & H). apply month_days_spec in Hn; [|exact Hm]. subst n.
  destruct H as [[H ->]|[(H & H1 & ->)|(H & H1 & ->)]].
  - split; [cbn; lia|]. cbn. unfold ymd2ord. lia.
  - pose proof (month_days_range y (m + 1)). split; [cbn; lia|]. cbn. unfold ymd2ord. rewrite dbm_S by lia. lia.
  - subst m. split; [cbn; lia|]. cbn [ord]. unfold ymd2ord. rewrite dby_S. unfold days_before_month. change (2 <? 12) with true. change (2 <? 1) with false. cbn [andb].
    unfold month_days in H. change (d = 31) in H. subst d. destruct (isleap y); lia.
Qed.
Lemma after_inv a n b : ok_date a -> days_after a n b -> ok_date b /\ ord b = ord a + n.
Proof.
  intros Ha H. induction H as [|n b c _ [IH1 IH2] Hn]; [split; [exact Ha|lia]|].
  destruct (next_ok b c IH1 Hn). split; [assumption|lia].
Qed.
Lemma ok_of d : valid_dt d -> ok_date (date_of d).
Proof. intros (Hm & (n & Hn & Hd) & _). apply month_days_spec in Hn; [|exact Hm]. subst n. split; assumption. Qed.

Lemma C53_seconds_pf :
  forall d, valid_dt d -> 1900 <= dt_y d <= 2999 ->
  exists days, timestamp_to_sec (ts14 d) = Ok (86400 * days + 3600 * dt_H d + 60 * dt_M d + dt_S d)
  /\ (days_after (1970, 1, 1) days (date_of d) \/ days_after (date_of d) (- days) (1970, 1, 1)).
Proof.
intros d Hv Hy. set (d0 := mk_dt (dt_y d) (dt_m d) (dt_d d) (dt_H d) (dt_M d) (dt_S d) 0).
assert (Hv0 : valid_dt d0). { destruct Hv as (? & ? & ? & ? & ? & ?). unfold valid_dt, d0. cbn [dt_y dt_m dt_d dt_H dt_M dt_S dt_us]. repeat split; try tauto; lia. }
exists (ord (date_of d) - EPOCH_ORD). change (ts14 d) with (ts14 d0). unfold timestamp_to_sec. rewrite to_datetime_ts14 by (apply ts_ok_of; auto).
rewrite timegm_days. split; [reflexivity|]. pose proof (ok_of d Hv) as Hok. assert (H0 : ok_date (1970, 1, 1)) by (cbn; lia).
assert (E0 : ord (1970, 1, 1) = EPOCH_ORD) by reflexivity.
destruct (Z_le_gt_dec EPOCH_ORD (ord (date_of d))); [left|right]; apply after_ord; auto; lia.
Qed.

Lemma nth_lt {A} : forall (l : list A) n, (n < List.length l)%nat -> exists x, nth_error l n = Some x.
Proof. intros l n H. destruct (nth_error l n) eqn:E; [eauto|]. apply nth_error_None in E. lia. Qed.
Lemma day_nth w : 0 <= w < 7 -> nth_error week (Z.to_nat w) = Some (day_name w).
Proof. intros H. assert (C : w = 0 \/ w = 1 \/ w = 2 \/ w = 3 \/ w = 4 \/ w = 5 \/ w = 6) by lia. destruct C as [->|[->|[->|[->|[->|[->| ->]]]]]]; reflexivity. Qed.
Lemma month_nth m : 1 <= m <= 12 -> nth_error months (Z.to_nat (m - 1)) = Some (month_name m).
Proof.
  intros H. assert (C : m = 1 \/ m = 2 \/ m = 3 \/ m = 4 \/ m = 5 \/ m = 6 \/ m = 7 \/ m = 8 \/ m = 9 \/ m = 10 \/ m = 11 \/ m = 12) by lia.
  destruct C as [->|[->|[->|[->|[->|[->|[->|[->|[->|[->|[->| ->]]]]]]]]]]]; reflexivity.
Qed.
Lemma http_fmt d : valid_dt d -> 1 <= dt_y d <= 9999 -> datetime_to_http_date d = Ok (http29 (day_name (weekday d)) (month_name (dt_m d)) d).
Proof.
  intros Hv Hy. unfold datetime_to_http_date. rewrite fromtimestamp_timegm by assumption. unfold format_http, http29, weekday. cbn [dt_y dt_m dt_d dt_H dt_M dt_S].
  destruct (pad2_dt d Hv) as (_ & -> & -> & -> & ->). change 4 with (Z.of_nat 4). rewrite pad_fixed by (try lia; destruct value_p10 as (_ & P & _); rewrite P; lia). reflexivity.
Qed.

Lemma C78_http_date_pf :
  forall d, valid_dt d -> 1 <= dt_y d <= 9999 ->
  exists n day month, days_after (1, 1, 1) n (date_of d) /\ nth_error week (Z.to_nat (n mod 7)) = Some day
  /\ nth_error months (Z.to_nat (dt_m d - 1)) = Some month
  /\ datetime_to_http_date d = Ok (http29 day month d).
Proof.
intros d Hv Hy. pose proof (ok_of d Hv) as Hok. assert (H0 : ok_date (1, 1, 1)) by (cbn; lia).
assert (E0 : ord (1, 1, 1) = 1) by reflexivity.
assert (G : 1 <= ord (date_of d)).
{ destruct Hok as [Hm Hd]. cbn. unfold ymd2ord. assert (0 <= days_before_year (dt_y d)) by (unfold days_before_year; cbv zeta; Z.div_mod_to_equations; lia).
  assert (0 <= days_before_month (dt_y d) (dt_m d)).
  { unfold days_before_month. match goal with |- context [match ?m with _ => _ end] => idtac end.
    destruct ((2 <? dt_m d) && isleap (dt_y d)); destruct (dt_m d) as [|p|p]; try lia; do 4 (destruct p as [p|p|]; try lia). }
  lia. }
exists (ord (date_of d) - 1), (day_name (weekday d)), (month_name (dt_m d)).
split; [apply after_ord; auto; lia|]. split.
- assert (E : weekday d = (ord (date_of d) - 1) mod 7). { unfold weekday. change (ymd2ord (dt_y d) (dt_m d) (dt_d d)) with (ord (date_of d)). replace (ord (date_of d) + 6) with (ord (date_of d) - 1 + 1 * 7) by lia. now rewrite Z_mod_plus_full. }
  rewrite <- E. apply day_nth. rewrite E. apply Z.mod_pos_bound. lia.
- split; [apply month_nth; apply Hok|now apply http_fmt].
Qed.

Lemma words_word p a b : forallb (fun x => negb (p x)) a = true -> a <> [] -> forall c, p c = true ->
  filter (fun w => negb (leqb w [])) (split_on p (a ++ c :: b)) = a :: filter (fun w => negb (leqb w [])) (split_on p b).
Proof. intros Ha Hn c Hc. rewrite split_on_sep by assumption. cbn [filter]. destruct a; [contradiction|]. reflexivity. Qed.
Lemma digit_nsp c : is_digit c = true -> is_uspace c = false.
Proof. unfold is_digit. intros H. assert (C : (c = 48 \/ c = 49 \/ c = 50 \/ c = 51 \/ c = 52 \/ c = 53 \/ c = 54 \/ c = 55 \/ c = 56 \/ c = 57)%N) by lia.
  destruct C as [->|[->|[->|[->|[->|[->|[->|[->|[->| ->]]]]]]]]]; reflexivity. Qed.
Lemma fixed_nsp w n : forallb (fun x => negb (is_uspace x)) (fixed w n) = true.
Proof. eapply forallb_impl; [|apply (fixed_digits w n)]. intros c H. now rewrite digit_nsp. Qed.
Lemma fixed_ne w n : (0 < w)%nat -> fixed w n <> [].
Proof. intros H E. pose proof (fixed_length w n) as L. rewrite E in L. cbn in L. lia. Qed.
Lemma fixed_last w n c : (c < 48)%N -> last_is c (fixed (S w) n) = false.
Proof. intros H. unfold last_is. cbn [fixed]. rewrite rev_app_distr. cbn [rev app]. lia. Qed.
Lemma fixed_find w n c : (57 < c)%N -> find1 c (fixed w n) = None.
Proof.
  intros H. pose proof (fixed_digits w n) as D. induction (fixed w n) as [|x t IH]; [reflexivity|]. cbn in D. apply andb_true_iff in D as [D1 D2]. cbn [find1].
  unfold is_digit in D1. replace ((x =? c)%N) with false by lia. now rewrite IH.
Qed.
Lemma fixed_nolast w n c : (57 < c)%N -> last_is c (fixed w n) = false.
Proof.
  intros H. unfold last_is. assert (D : forallb is_digit (rev (fixed w n)) = true) by (rewrite forallb_forall; intros x Hx; apply in_rev in Hx; pose proof (fixed_digits w n) as D; rewrite forallb_forall in D; auto).
  destruct (rev (fixed w n)) as [|x t]; [reflexivity|]. cbn in D. apply andb_true_iff in D as [D _]. unfold is_digit in D. lia.
Qed.
Lemma fixed_nd w n c t : fixed w n = c :: t -> is_nd c = true.
Proof. intros E. pose proof (fixed_digits w n) as D. rewrite E in D. cbn in D. apply andb_true_iff in D as [D _]. now apply digit_nd. Qed.
Lemma hms_split h m s : split_on (fun x => (x =? 58)%N) (fixed 2 h ++ lit ":" ++ fixed 2 m ++ lit ":" ++ fixed 2 s) = [fixed 2 h; fixed 2 m; fixed 2 s].
Proof.
  assert (D : forall n, forallb (fun x => negb (x =? 58)%N) (fixed 2 n) = true).
  { intros n. eapply forallb_impl; [|apply (fixed_digits 2 n)]. unfold is_digit. intros c H. lia. }
  change (lit ":") with [58%N]. cbn [app]. rewrite split_on_sep by auto. rewrite split_on_sep by auto. now rewrite split_on_last.
Qed.

Lemma C78_roundtrip_pf :
  forall d day month, valid_dt d -> 100 <= dt_y d <= 9999 -> In day week -> nth_error months (Z.to_nat (dt_m d - 1)) = Some month ->
  http_date_to_datetime (http29 day month d) = Ok (mk_dt (dt_y d) (dt_m d) (dt_d d) (dt_H d) (dt_M d) (dt_S d) 0)
  /\ exists s, datetime_to_http_date d = Ok s
     /\ http_date_to_datetime s = Ok (mk_dt (dt_y d) (dt_m d) (dt_d d) (dt_H d) (dt_M d) (dt_S d) 0)
     /\ (1000 <= dt_y d -> http_date_to_timestamp s = Ok (ts14 d)).
Proof.
assert (G : forall d day month, valid_dt d -> 100 <= dt_y d <= 9999 -> In day week -> nth_error months (Z.to_nat (dt_m d - 1)) = Some month ->
  http_date_to_datetime (http29 day month d) = Ok (mk_dt (dt_y d) (dt_m d) (dt_d d) (dt_H d) (dt_M d) (dt_S d) 0)).
{ intros d day month Hv Hy Hday Hmon.
  assert (W : words (http29 day month d) = [day ++ lit ","; fixed 2 (dt_d d); month; fixed 4 (dt_y d); fixed 2 (dt_H d) ++ lit ":" ++ fixed 2 (dt_M d) ++ lit ":" ++ fixed 2 (dt_S d); lit "GMT"]).
  { unfold words, http29.
    assert (Em : forallb (fun x => negb (is_uspace x)) month = true /\ month <> []).
    { apply nth_error_In in Hmon. unfold months in Hmon. cbn [In] in Hmon. repeat destruct Hmon as [Hmon|Hmon]; try contradiction; subst month; split; first [reflexivity|discriminate]. }
    assert (Ed : forallb (fun x => negb (is_uspace x)) (day ++ lit ",") = true /\ day ++ lit "," <> []).
    { unfold week in Hday. cbn [In] in Hday. repeat destruct Hday as [Hday|Hday]; try contradiction; subst day; split; first [reflexivity|discriminate]. }
    destruct Em as [Em1 Em2], Ed as [Ed1 Ed2].
    replace (day ++ lit ", " ++ fixed 2 (dt_d d) ++ lit " " ++ month ++ lit " " ++ fixed 4 (dt_y d) ++ lit " " ++ fixed 2 (dt_H d) ++ lit ":" ++ fixed 2 (dt_M d) ++ lit ":" ++ fixed 2 (dt_S d) ++ lit " GMT")
      with ((day ++ lit ",") ++ 32%N :: fixed 2 (dt_d d) ++ 32%N :: month ++ 32%N :: fixed 4 (dt_y d) ++ 32%N :: (fixed 2 (dt_H d) ++ lit ":" ++ fixed 2 (dt_M d) ++ lit ":" ++ fixed 2 (dt_S d)) ++ 32%N :: lit "GMT")
      by (rewrite <- !app_assoc; reflexivity).
    assert (Eh : forallb (fun x => negb (is_uspace x)) (fixed 2 (dt_H d) ++ lit ":" ++ fixed 2 (dt_M d) ++ lit ":" ++ fixed 2 (dt_S d)) = true).
    { rewrite !forallb_app, !fixed_nsp. reflexivity. }
    rewrite words_word by auto. rewrite words_word by (auto using fixed_nsp; apply fixed_ne; lia). rewrite words_word by auto.
    rewrite words_word by (auto using fixed_nsp; apply fixed_ne; lia). rewrite words_word; [reflexivity|exact Eh| |reflexivity].
    intros E. apply app_eq_nil in E as [E _]. revert E. apply fixed_ne. lia. }
  unfold http_date_to_datetime, parsedate. rewrite W.
  assert (L : last_is 44 (day ++ lit ",") = true) by (unfold last_is; rewrite rev_app_distr; reflexivity). rewrite L. cbn [orb].
  assert (M : month_no (lower month) = Some (dt_m d)).
  { destruct Hv as (Hm & _). revert Hmon. assert (C : dt_m d = 1 \/ dt_m d = 2 \/ dt_m d = 3 \/ dt_m d = 4 \/ dt_m d = 5 \/ dt_m d = 6 \/ dt_m d = 7 \/ dt_m d = 8 \/ dt_m d = 9 \/ dt_m d = 10 \/ dt_m d = 11 \/ dt_m d = 12) by lia.
    destruct C as [C|[C|[C|[C|[C|[C|[C|[C|[C|[C|[C|C]]]]]]]]]]]; rewrite C; cbn; intros [= <-]; reflexivity. }
  assert (Nm : month <> []) by (intros ->; discriminate M).
  pose proof (ok_of d Hv) as Hok. destruct Hok as [Hm Hd]. pose proof (month_days_range (dt_y d) (dt_m d)). destruct value_p10 as (P2 & P4 & _).
  destruct Hv as (_ & Hv2 & HH & HM & HS & Hu).
  unfold parse_fields. assert (N2 : leqb (fixed 2 (dt_d d)) [] = false) by (destruct (fixed 2 (dt_d d)) eqn:E; [now apply fixed_ne in E|reflexivity]; lia).
  assert (N4 : leqb (fixed 4 (dt_y d)) [] = false) by (destruct (fixed 4 (dt_y d)) eqn:E; [now apply fixed_ne in E|reflexivity]; lia).
  rewrite N2, N4. assert (N3 : leqb month [] = false) by (destruct month; [contradiction|reflexivity]). rewrite N3. cbn [orb].
  rewrite M. rewrite (fixed_last 1) by reflexivity. rewrite fixed_find by reflexivity. rewrite (fixed_last 3) by reflexivity.
  destruct (fixed 4 (dt_y d)) as [|c t] eqn:E4; [discriminate|]. rewrite (fixed_nd 4 _ c t E4). rewrite <- E4.
  assert (L2 : last_is 44 (fixed 2 (dt_H d) ++ lit ":" ++ fixed 2 (dt_M d) ++ lit ":" ++ fixed 2 (dt_S d)) = false).
  { unfold last_is. rewrite !rev_app_distr. pose proof (fixed_last 1 (dt_S d) 44 eq_refl) as X. unfold last_is in X. cbn [fixed] in *. rewrite rev_app_distr in *. cbn [rev app] in *. exact X. }
  rewrite L2. unfold time_parts. rewrite hms_split. cbn [ints_of]. rewrite !py_int_fixed by (try lia; rewrite ?P2, ?P4; lia).
  cbv zeta. replace (dt_y d <? 100) with false by lia. unfold mk_datetime.
  assert (V : dt_valid (mk_dt (dt_y d) (dt_m d) (dt_d d) (dt_H d) (dt_M d) (dt_S d) 0) = true).
  { apply dt_valid_spec; [cbn; lia|]. unfold valid_dt. cbn [dt_y dt_m dt_d dt_H dt_M dt_S dt_us]. repeat split; try tauto; lia. }
  now rewrite V. }
intros d day month Hv Hy Hday Hmon. split; [now apply G|]. pose proof (http_fmt d Hv ltac:(lia)) as F. eexists. split; [exact F|].
assert (Hw : In (day_name (weekday d)) week). { eapply nth_error_In. apply day_nth. unfold weekday. apply Z.mod_pos_bound. lia. }
assert (Hk : nth_error months (Z.to_nat (dt_m d - 1)) = Some (month_name (dt_m d))) by (apply month_nth, Hv).
pose proof (G d _ _ Hv Hy Hw Hk) as R. split; [exact R|]. intros Hy2. unfold http_date_to_timestamp. rewrite R.
set (d0 := mk_dt (dt_y d) (dt_m d) (dt_d d) (dt_H d) (dt_M d) (dt_S d) 0). change (ts14 d) with (ts14 d0).
rewrite to_timestamp_ts14; [reflexivity| |cbn; lia]. destruct Hv as (? & ? & ? & ? & ? & ?). unfold valid_dt, d0. cbn [dt_y dt_m dt_d dt_H dt_M dt_S dt_us]. repeat split; try tauto; lia.
Qed.

Lemma C78_day_optional_pf :
  forall d day month, valid_dt d -> 100 <= dt_y d <= 9999 -> In day week -> nth_error months (Z.to_nat (dt_m d - 1)) = Some month ->
  exists rest, http29 day month d = day ++ lit ", " ++ rest
  /\ http_date_to_datetime (day ++ lit "," ++ rest) = Ok (mk_dt (dt_y d) (dt_m d) (dt_d d) (dt_H d) (dt_M d) (dt_S d) 0)
  /\ http_date_to_datetime rest = Ok (mk_dt (dt_y d) (dt_m d) (dt_d d) (dt_H d) (dt_M d) (dt_S d) 0).
Proof.
intros d day month Hv Hy Hday Hmon.
set (tm := fixed 2 (dt_H d) ++ lit ":" ++ fixed 2 (dt_M d) ++ lit ":" ++ fixed 2 (dt_S d)).
assert (R : match parse_fields (fixed 2 (dt_d d)) month (fixed 4 (dt_y d)) tm (lit "GMT") with
            | Some [y; mo; d; h; mi; sec] => mk_datetime (mk_dt y mo d h mi sec 0) | _ => Err TypeErr end
            = Ok (mk_dt (dt_y d) (dt_m d) (dt_d d) (dt_H d) (dt_M d) (dt_S d) 0)).
{ unfold tm.
  assert (M : month_no (lower month) = Some (dt_m d)).
  { destruct Hv as (Hm & _). revert Hmon. assert (C : dt_m d = 1 \/ dt_m d = 2 \/ dt_m d = 3 \/ dt_m d = 4 \/ dt_m d = 5 \/ dt_m d = 6 \/ dt_m d = 7 \/ dt_m d = 8 \/ dt_m d = 9 \/ dt_m d = 10 \/ dt_m d = 11 \/ dt_m d = 12) by lia.
    destruct C as [C|[C|[C|[C|[C|[C|[C|[C|[C|[C|[C|C]]]]]]]]]]]; rewrite C; cbn; intros [= <-]; reflexivity. }
  assert (Nm : month <> []) by (intros ->; discriminate M).
  pose proof (ok_of d Hv) as Hok. destruct Hok as [Hm Hd]. pose proof (month_days_range (dt_y d) (dt_m d)). destruct value_p10 as (P2 & P4 & _).
  destruct Hv as (_ & Hv2 & HH & HM & HS & Hu).
  unfold parse_fields. assert (N2 : leqb (fixed 2 (dt_d d)) [] = false) by (destruct (fixed 2 (dt_d d)) eqn:E; [now apply fixed_ne in E|reflexivity]; lia).
  assert (N4 : leqb (fixed 4 (dt_y d)) [] = false) by (destruct (fixed 4 (dt_y d)) eqn:E; [now apply fixed_ne in E|reflexivity]; lia).
  rewrite N2, N4. assert (N3 : leqb month [] = false) by (destruct month; [contradiction|reflexivity]). rewrite N3. cbn [orb].
  rewrite M. rewrite (fixed_last 1) by reflexivity. rewrite fixed_find by reflexivity. rewrite (fixed_last 3) by reflexivity.
  destruct (fixed 4 (dt_y d)) as [|c t] eqn:E4; [discriminate|]. rewrite (fixed_nd 4 _ c t E4). rewrite <- E4.
  assert (L2 : last_is 44 (fixed 2 (dt_H d) ++ lit ":" ++ fixed 2 (dt_M d) ++ lit ":" ++ fixed 2 (dt_S d)) = false).
  { unfold last_is. rewrite !rev_app_distr. pose proof (fixed_last 1 (dt_S d) 44 eq_refl) as X. unfold last_is in X. cbn [fixed] in *. rewrite rev_app_distr in *. cbn [rev app] in *. exact X. }
  rewrite L2. unfold time_parts. rewrite hms_split. cbn [ints_of]. rewrite !py_int_fixed by (try lia; rewrite ?P2, ?P4; lia).
  cbv zeta. replace (dt_y d <? 100) with false by lia. unfold mk_datetime.
  assert (V : dt_valid (mk_dt (dt_y d) (dt_m d) (dt_d d) (dt_H d) (dt_M d) (dt_S d) 0) = true).
  { apply dt_valid_spec; [cbn; lia|]. unfold valid_dt. cbn [dt_y dt_m dt_d dt_H dt_M dt_S dt_us]. repeat split; try tauto; lia. }
  now rewrite V. }
assert (Em : forallb (fun x => negb (is_uspace x)) month = true /\ month <> []).
{ clear - Hmon. apply nth_error_In in Hmon. unfold months in Hmon. cbn [In] in Hmon. repeat destruct Hmon as [Hmon|Hmon]; try contradiction; subst month; split; first [reflexivity|discriminate]. }
destruct Em as [Em1 Em2].
assert (Eh : forallb (fun x => negb (is_uspace x)) tm = true) by (unfold tm; rewrite !forallb_app, !fixed_nsp; reflexivity).
assert (Eh2 : tm <> []) by (intros E; apply app_eq_nil in E as [E _]; revert E; apply fixed_ne; lia).
assert (W : forall pre, forallb (fun x => negb (is_uspace x)) pre = true ->
   words ((pre ++ fixed 2 (dt_d d)) ++ 32%N :: month ++ 32%N :: fixed 4 (dt_y d) ++ 32%N :: tm ++ 32%N :: lit "GMT") = [pre ++ fixed 2 (dt_d d); month; fixed 4 (dt_y d); tm; lit "GMT"]).
{ intros pre Hp. unfold words. assert (Hpd : forallb (fun x => negb (is_uspace x)) (pre ++ fixed 2 (dt_d d)) = true) by (rewrite forallb_app, Hp; apply fixed_nsp).
  assert (Hne : pre ++ fixed 2 (dt_d d) <> []) by (intros E; apply app_eq_nil in E as [_ E]; revert E; apply fixed_ne; lia).
  rewrite words_word by auto. rewrite words_word by auto. rewrite words_word by (auto using fixed_nsp; apply fixed_ne; lia). rewrite words_word; [reflexivity|exact Eh|exact Eh2|reflexivity]. }
assert (LF : forall pre, last_is 44 (pre ++ fixed 2 (dt_d d)) = false).
{ intros pre. pose proof (fixed_last 1 (dt_d d) 44 eq_refl) as X. unfold last_is in *. rewrite rev_app_distr. cbn [fixed] in *. rewrite rev_app_distr in *. cbn [rev app] in *. exact X. }
assert (DN : forall pre, existsb (leqb (lower (pre ++ fixed 2 (dt_d d)))) daynames = false).
{ intros pre. destruct (existsb (leqb (lower (pre ++ fixed 2 (dt_d d)))) daynames) eqn:E; [|reflexivity]. exfalso. apply existsb_exists in E as (x & Hx & Hl). apply leqb_eq in Hl.
  assert (Hla : forall l (a : N), rev (lower (l ++ [a])) = lower1 a :: rev (lower l)) by (intros l a; unfold lower; rewrite map_app, rev_app_distr; reflexivity).
  assert (exists l a, pre ++ fixed 2 (dt_d d) = l ++ [a] /\ (48 <= a <= 57)%N) as (l & a & Ea & Ha).
  { cbn [fixed]. eexists (pre ++ _), _. split; [apply app_assoc|]. pose proof (Z.mod_pos_bound (dt_d d) 10 ltac:(lia)). lia. }
  rewrite Ea in Hl. apply (f_equal (@rev N)) in Hl. rewrite Hla in Hl. assert (Hlow : lower1 a = a) by (clear - Ha; unfold lower1; destruct ((65 <=? a)%N && (a <=? 90)%N) eqn:E; lia).
  rewrite Hlow in Hl. clear - Hx Hl Ha. cbn [daynames In] in Hx. repeat destruct Hx as [Hx|Hx]; try contradiction; subst x; cbn in Hl; injection Hl as Hl; lia. }
assert (AC : forall pre, pre = [] \/ (exists q, pre = q ++ lit ",") -> after_comma (pre ++ fixed 2 (dt_d d)) = fixed 2 (dt_d d)).
{ assert (D : forallb (fun x => negb (x =? 44)%N) (fixed 2 (dt_d d)) = true).
  { eapply forallb_impl; [|apply (fixed_digits 2 (dt_d d))]. unfold is_digit. intros c H. lia. }
  intros pre [->|(q & ->)]; unfold after_comma.
  - cbn [app]. now rewrite split_on_last.
  - rewrite <- app_assoc. change (lit "," ++ fixed 2 (dt_d d)) with (44%N :: fixed 2 (dt_d d)). clear - D.
    induction q as [q H] using (well_founded_induction (Wf_nat.well_founded_ltof _ (@List.length N))).
    destruct (forallb (fun x => negb (x =? 44)%N) q) eqn:Eq.
    + rewrite split_on_sep by auto. now rewrite split_on_last.
    + assert (exists a b, q = a ++ 44%N :: b /\ forallb (fun x => negb (x =? 44)%N) a = true) as (a & b & -> & Ea).
      { clear - Eq. induction q as [|y q IH]; [discriminate|]. cbn [forallb] in Eq. destruct (y =? 44)%N eqn:Ey.
        - apply N.eqb_eq in Ey. subst y. exists [], q. now split.
        - cbn [negb andb] in Eq. destruct (IH Eq) as (a & b & -> & Ea). exists (y :: a), b. split; [reflexivity|]. cbn [forallb]. now rewrite Ey. }
      rewrite <- app_assoc. cbn [app]. rewrite split_on_sep by auto. cbn [last]. rewrite <- (H b) at 2 by (unfold Wf_nat.ltof; rewrite app_length; cbn; lia).
      destruct (split_on _ (b ++ 44%N :: fixed 2 (dt_d d))) eqn:E; [|reflexivity]. exfalso. revert E. destruct (b ++ _) eqn:Eb; [destruct b; discriminate|]. cbn. destruct (_ =? 44)%N; [discriminate|]. destruct (split_on _ l); discriminate. }
assert (P : forall pre, pre = [] \/ (exists q, pre = q ++ lit ",") -> forallb (fun x => negb (is_uspace x)) pre = true ->
   http_date_to_datetime (pre ++ fixed 2 (dt_d d) ++ 32%N :: month ++ 32%N :: fixed 4 (dt_y d) ++ 32%N :: tm ++ 32%N :: lit "GMT")
   = Ok (mk_dt (dt_y d) (dt_m d) (dt_d d) (dt_H d) (dt_M d) (dt_S d) 0)).
{ intros pre Hp Hs. rewrite app_assoc. unfold http_date_to_datetime, parsedate. rewrite W by exact Hs. rewrite LF, DN. cbn [orb]. rewrite AC by exact Hp. exact R. }
exists (fixed 2 (dt_d d) ++ 32%N :: month ++ 32%N :: fixed 4 (dt_y d) ++ 32%N :: tm ++ 32%N :: lit "GMT").
split; [unfold http29, tm; rewrite <- !app_assoc; reflexivity|]. split.
- rewrite app_assoc. apply P; [right; now exists day|]. clear - Hday. unfold week in Hday. cbn [In] in Hday. repeat destruct Hday as [Hday|Hday]; try contradiction; subst day; reflexivity.
- apply (P []); [now left|reflexivity].
Qed.

Lemma C78_timestamp_pf :
  forall d, valid_dt d -> 1900 <= dt_y d <= 2999 ->
  exists day month, timestamp_to_http_date (ts14 d) = Ok (http29 day month d) /\ In day week
  /\ nth_error months (Z.to_nat (dt_m d - 1)) = Some month
  /\ http_date_to_timestamp (http29 day month d) = Ok (ts14 d).
Proof.
intros d Hv Hy. set (d0 := mk_dt (dt_y d) (dt_m d) (dt_d d) (dt_H d) (dt_M d) (dt_S d) 0).
assert (Hv0 : valid_dt d0). { destruct Hv as (? & ? & ? & ? & ? & ?). unfold valid_dt, d0. cbn [dt_y dt_m dt_d dt_H dt_M dt_S dt_us]. repeat split; try tauto; lia. }
exists (day_name (weekday d0)), (month_name (dt_m d)). change (ts14 d) with (ts14 d0). unfold timestamp_to_http_date. rewrite to_datetime_ts14 by (apply ts_ok_of; auto).
assert (F : datetime_to_http_date d0 = Ok (http29 (day_name (weekday d0)) (month_name (dt_m d)) d)) by (apply (http_fmt d0 Hv0); cbn; lia).
split; [exact F|]. assert (Hw : In (day_name (weekday d0)) week). { eapply nth_error_In. apply day_nth. unfold weekday. apply Z.mod_pos_bound. lia. }
assert (Hk : nth_error months (Z.to_nat (dt_m d - 1)) = Some (month_name (dt_m d))) by (apply month_nth, Hv).
split; [exact Hw|]. split; [exact Hk|].
destruct (C78_roundtrip_pf d0 _ _ Hv0 ltac:(cbn; lia) Hw Hk) as (_ & x & Ex & _ & Tx). rewrite F in Ex. injection Ex as <-. apply Tx. cbn. lia.
Qed.

(** RFC 9110 section 5.6.7: the two obsolete formats of HTTP dates *)
Definition hms (d : dt) : str := fixed 2 (dt_H d) ++ lit ":" ++ fixed 2 (dt_M d) ++ lit ":" ++ fixed 2 (dt_S d).
Definition long_week : list str :=
  [lit "Monday"; lit "Tuesday"; lit "Wednesday"; lit "Thursday"; lit "Friday"; lit "Saturday"; lit "Sunday"].
(** Sunday, 06-Nov-94 08:49:37 GMT *)
Definition rfc850 (day month : str) (d : dt) : str :=
  day ++ lit ", " ++ fixed 2 (dt_d d) ++ lit "-" ++ month ++ lit "-" ++ fixed 2 (dt_y d mod 100) ++ lit " " ++ hms d ++ lit " GMT".
(** Sun Nov  6 08:49:37 1994 *)
Definition asctime (day month : str) (d : dt) : str :=
  day ++ lit " " ++ month ++ lit " " ++ (if dt_d d <? 10 then lit " " ++ fixed 1 (dt_d d) else fixed 2 (dt_d d))
  ++ lit " " ++ hms d ++ lit " " ++ fixed 4 (dt_y d).

Lemma hms_nsp d : forallb (fun x => negb (is_uspace x)) (hms d) = true.
Proof. unfold hms. rewrite !forallb_app, !fixed_nsp. reflexivity. Qed.
Lemma hms_ne d : hms d <> [].
Proof. intros E. apply app_eq_nil in E as [E _]. revert E. apply fixed_ne. lia. Qed.
Lemma hms_last d : last_is 44 (hms d) = false.
Proof. unfold hms, last_is. rewrite !rev_app_distr. pose proof (fixed_last 1 (dt_S d) 44 eq_refl) as X. unfold last_is in X. cbn [fixed] in *. rewrite rev_app_distr in *. cbn [rev app] in *. exact X. Qed.
Lemma hms_find d : exists n, find1 58 (hms d) = Some (S n).
Proof.
  exists 1%nat. unfold hms. pose proof (fixed_find 2 (dt_H d) 58 eq_refl) as F. pose proof (fixed_length 2 (dt_H d)) as L.
  destruct (fixed 2 (dt_H d)) as [|a [|b [|c r]]]; try discriminate. cbn [app]. cbn [find1] in *.
  destruct (a =? 58)%N; [discriminate|]. destruct (b =? 58)%N; [discriminate|]. reflexivity.
Qed.
Lemma month_word d month : valid_dt d -> nth_error months (Z.to_nat (dt_m d - 1)) = Some month ->
  month_no (lower month) = Some (dt_m d) /\ forallb (fun x => negb (is_uspace x)) month = true /\ month <> []
  /\ forallb (fun x => negb (x =? 45)%N) month = true /\ leqb month [] = false.
Proof.
  intros (Hm & _). assert (C : dt_m d = 1 \/ dt_m d = 2 \/ dt_m d = 3 \/ dt_m d = 4 \/ dt_m d = 5 \/ dt_m d = 6 \/ dt_m d = 7 \/ dt_m d = 8 \/ dt_m d = 9 \/ dt_m d = 10 \/ dt_m d = 11 \/ dt_m d = 12) by lia.
  destruct C as [C|[C|[C|[C|[C|[C|[C|[C|[C|[C|[C|C]]]]]]]]]]]; rewrite C; cbn; intros [= <-]; repeat split; discriminate.
Qed.
Lemma dt_ok d : valid_dt d -> 1 <= dt_y d <= 9999 -> mk_datetime (mk_dt (dt_y d) (dt_m d) (dt_d d) (dt_H d) (dt_M d) (dt_S d) 0) = Ok (mk_dt (dt_y d) (dt_m d) (dt_d d) (dt_H d) (dt_M d) (dt_S d) 0).
Proof.
  intros (? & ? & ? & ? & ? & ?) Hy. unfold mk_datetime.
  assert (V : dt_valid (mk_dt (dt_y d) (dt_m d) (dt_d d) (dt_H d) (dt_M d) (dt_S d) 0) = true).
  { apply dt_valid_spec; [cbn; lia|]. unfold valid_dt. cbn [dt_y dt_m dt_d dt_H dt_M dt_S dt_us]. repeat split; try tauto; lia. }
  now rewrite V.
Qed.
Lemma fixed_nil w n : (0 < w)%nat -> leqb (fixed w n) [] = false.
Proof. intros H. destruct (fixed w n) eqn:E; [now apply fixed_ne in E|reflexivity]. Qed.
Lemma fixed_low w n : lower (fixed w n) = fixed w n.
Proof.
  pose proof (fixed_digits w n) as D. induction (fixed w n) as [|c t IH]; [reflexivity|]. cbn in D. apply andb_true_iff in D as [D1 D2].
  unfold lower in *. cbn [map]. rewrite (IH D2). f_equal. unfold is_digit in D1. unfold lower1. destruct ((65 <=? c)%N && (c <=? 90)%N) eqn:E; lia.
Qed.

Lemma C78_rfc850_pf :
  forall d day month, valid_dt d -> 1969 <= dt_y d <= 2068 -> In day long_week -> nth_error months (Z.to_nat (dt_m d - 1)) = Some month ->
  http_date_to_datetime (rfc850 day month d) = Ok (mk_dt (dt_y d) (dt_m d) (dt_d d) (dt_H d) (dt_M d) (dt_S d) 0).
Proof.
intros d day month Hv Hy Hday Hmon. destruct (month_word d month Hv Hmon) as (M & Em1 & Em2 & Em3 & Em4).
pose proof (ok_of d Hv) as Hok. destruct Hok as [Hm Hd]. pose proof (month_days_range (dt_y d) (dt_m d)). destruct value_p10 as (P2 & P4 & _).
assert (D45 : forall n, forallb (fun x => negb (x =? 45)%N) (fixed 2 n) = true).
{ intros n. eapply forallb_impl; [|apply (fixed_digits 2 n)]. unfold is_digit. intros c H0. lia. }
set (dmy := fixed 2 (dt_d d) ++ 45%N :: month ++ 45%N :: fixed 2 (dt_y d mod 100)).
assert (W : words (rfc850 day month d) = [day ++ lit ","; dmy; hms d; lit "GMT"]).
{ unfold words, rfc850.
  assert (Ed : forallb (fun x => negb (is_uspace x)) (day ++ lit ",") = true /\ day ++ lit "," <> []).
  { clear - Hday. unfold long_week in Hday. cbn [In] in Hday. repeat destruct Hday as [Hday|Hday]; try contradiction; subst day; split; first [reflexivity|discriminate]. }
  destruct Ed as [Ed1 Ed2].
  replace (day ++ lit ", " ++ fixed 2 (dt_d d) ++ lit "-" ++ month ++ lit "-" ++ fixed 2 (dt_y d mod 100) ++ lit " " ++ hms d ++ lit " GMT")
    with ((day ++ lit ",") ++ 32%N :: dmy ++ 32%N :: hms d ++ 32%N :: lit "GMT") by (unfold dmy; rewrite <- !app_assoc; cbn [app]; rewrite <- !app_assoc; reflexivity).
  rewrite words_word by auto. rewrite words_word; [|unfold dmy; rewrite forallb_app, fixed_nsp; cbn [forallb]; rewrite forallb_app, Em1; cbn [forallb]; rewrite fixed_nsp; reflexivity
    |unfold dmy; intros E; apply app_eq_nil in E as [E _]; revert E; apply fixed_ne; lia|reflexivity].
  rewrite words_word; [reflexivity|apply hms_nsp|apply hms_ne|reflexivity]. }
unfold http_date_to_datetime, parsedate. rewrite W.
assert (L : last_is 44 (day ++ lit ",") = true) by (unfold last_is; rewrite rev_app_distr; reflexivity). rewrite L. cbn [orb].
assert (Sp : split_on (fun x => (x =? 45)%N) dmy = [fixed 2 (dt_d d); month; fixed 2 (dt_y d mod 100)]).
{ unfold dmy. rewrite split_on_sep by auto. rewrite split_on_sep by auto. now rewrite split_on_last. }
rewrite Sp. unfold parse_fields. rewrite !fixed_nil by lia. rewrite Em4. cbn [orb].
rewrite M. rewrite (fixed_last 1) by reflexivity. rewrite fixed_find by reflexivity. rewrite (fixed_last 1) by reflexivity.
pose proof (fixed_ne 2 (dt_y d mod 100) ltac:(lia)) as N2. destruct (fixed 2 (dt_y d mod 100)) as [|c t] eqn:E4; [contradiction|]. rewrite (fixed_nd 2 _ c t E4). rewrite <- E4.
rewrite hms_last. unfold time_parts. unfold hms at 1. rewrite hms_split. pose proof Hv as (_ & Hv2 & HH & HM & HS & Hu).
pose proof (Z.mod_pos_bound (dt_y d) 100 ltac:(lia)).
cbn [ints_of]. rewrite !py_int_fixed by (try lia; rewrite ?P2, ?P4; lia).
cbv zeta. replace (dt_y d mod 100 <? 100) with true by lia.
assert (Y : (if dt_y d mod 100 >? 68 then dt_y d mod 100 + 1900 else dt_y d mod 100 + 2000) = dt_y d).
{ assert (C : dt_y d <= 1999 \/ 2000 <= dt_y d) by lia. destruct C.
  - replace (dt_y d mod 100) with (dt_y d - 1900) by (Z.div_mod_to_equations; lia). replace (dt_y d - 1900 >? 68) with true by lia. lia.
  - replace (dt_y d mod 100) with (dt_y d - 2000) by (Z.div_mod_to_equations; lia). replace (dt_y d - 2000 >? 68) with false by lia. lia. }
rewrite Y. apply dt_ok; [exact Hv|lia].
Qed.

Lemma C78_asctime_pf :
  forall d day month, valid_dt d -> 100 <= dt_y d <= 9999 -> In day week -> nth_error months (Z.to_nat (dt_m d - 1)) = Some month ->
  http_date_to_datetime (asctime day month d) = Ok (mk_dt (dt_y d) (dt_m d) (dt_d d) (dt_H d) (dt_M d) (dt_S d) 0).
Proof.
intros d day month Hv Hy Hday Hmon. destruct (month_word d month Hv Hmon) as (M & Em1 & Em2 & Em3 & Em4).
pose proof (ok_of d Hv) as Hok. destruct Hok as [Hm Hd]. pose proof (month_days_range (dt_y d) (dt_m d)). destruct value_p10 as (P2 & P4 & _).
set (w := if dt_d d <? 10 then 1%nat else 2%nat). assert (Hw : (0 < w)%nat) by (unfold w; destruct (dt_d d <? 10); lia).
assert (Dd : forallb (fun x => negb (is_uspace x)) day = true /\ day <> [] /\ (last_is 44 day || existsb (leqb (lower day)) daynames) = true).
{ clear - Hday. unfold week in Hday. cbn [In] in Hday. repeat destruct Hday as [Hday|Hday]; try contradiction; subst day; repeat split; first [reflexivity|discriminate]. }
destruct Dd as (Ed1 & Ed2 & Ed3).
assert (W : words (asctime day month d) = [day; month; fixed w (dt_d d); hms d; fixed 4 (dt_y d)]).
{ unfold words, asctime. change (lit " ") with [32%N]. cbn [app]. rewrite words_word by auto. rewrite words_word by auto.
  assert (T : filter (fun w => negb (leqb w [])) (split_on is_uspace (fixed w (dt_d d) ++ 32%N :: hms d ++ 32%N :: fixed 4 (dt_y d))) = [fixed w (dt_d d); hms d; fixed 4 (dt_y d)]).
  { rewrite words_word; [|apply fixed_nsp|now apply fixed_ne|reflexivity]. rewrite words_word; [|apply hms_nsp|apply hms_ne|reflexivity].
    rewrite split_on_last by apply fixed_nsp. cbn [filter]. now rewrite (fixed_nil 4) by lia. }
  unfold w in *. destruct (dt_d d <? 10).
  - change ((32%N :: fixed 1 (dt_d d)) ++ 32%N :: hms d ++ 32%N :: fixed 4 (dt_y d)) with ([] ++ 32%N :: (fixed 1 (dt_d d) ++ 32%N :: hms d ++ 32%N :: fixed 4 (dt_y d))).
    rewrite (split_on_sep is_uspace []) by reflexivity. cbn [filter leqb negb]. now rewrite T.
  - now rewrite T. }
unfold http_date_to_datetime, parsedate. rewrite W, Ed3.
assert (N45 : find1 43 (fixed 4 (dt_y d)) = None /\ find1 45 (fixed 4 (dt_y d)) = None).
{ assert (G : forall c, (c < 48)%N -> find1 c (fixed 4 (dt_y d)) = None).
  { clear. intros c Hc. pose proof (fixed_digits 4 (dt_y d)) as D. induction (fixed 4 (dt_y d)) as [|x t IH]; [reflexivity|]. cbn in D. apply andb_true_iff in D as [D1 D2]. cbn [find1].
    unfold is_digit in D1. replace ((x =? c)%N) with false by lia. now rewrite IH. }
  split; apply G; reflexivity. }
destruct N45 as [N43 N45]. unfold split_tz. rewrite N43, N45. cbn [app]. unfold parse_fields. rewrite fixed_nil by exact Hw. rewrite Em4.
assert (Nh : leqb (hms d) [] = false) by (pose proof (hms_ne d); destruct (hms d); [contradiction|reflexivity]). rewrite Nh. cbn [orb].
rewrite fixed_low.
assert (Mn : month_no (fixed w (dt_d d)) = None).
{ unfold month_no. assert (I : forall l, forallb (fun s => match s with c :: _ => (57 <? c)%N | [] => false end) l = true -> index_of (fixed w (dt_d d)) l = None).
  { induction l as [|a l IH]; [reflexivity|]. cbn [forallb]. intros E. apply andb_true_iff in E as [E1 E2]. cbn [index_of]. rewrite (IH E2).
    destruct (leqb a (fixed w (dt_d d))) eqn:El; [|reflexivity]. apply leqb_eq in El. subst a. pose proof (fixed_digits w (dt_d d)) as D. destruct (fixed w (dt_d d)); [discriminate|]. cbn in D. unfold is_digit in D. lia. }
  rewrite I by reflexivity. reflexivity. }
rewrite Mn, M. cbn [option_map].
assert (Lw : last_is 44 (fixed w (dt_d d)) = false) by (destruct w as [|w']; [lia|]; now apply fixed_last). rewrite Lw.
destruct (hms_find d) as (k & Hk). rewrite Hk. rewrite (fixed_last 3) by reflexivity.
pose proof (fixed_ne 4 (dt_y d) ltac:(lia)) as N4. destruct (fixed 4 (dt_y d)) as [|c t] eqn:E4; [contradiction|]. rewrite (fixed_nd 4 _ c t E4). rewrite <- E4.
rewrite hms_last. unfold time_parts. unfold hms at 1. rewrite hms_split. pose proof Hv as (_ & Hv2 & HH & HM & HS & Hu).
cbn [ints_of].
assert (Pd : py_int (fixed w (dt_d d)) = Some (dt_d d)).
{ unfold w. destruct (dt_d d <? 10) eqn:E10; apply py_int_fixed; try lia; try (rewrite P2; lia). change (p10 1) with 10. lia. }
rewrite Pd. rewrite !py_int_fixed by (try lia; rewrite ?P2, ?P4; lia).
cbv zeta. replace (dt_y d <? 100) with false by lia. apply dt_ok; [exact Hv|lia].
Qed.

Lemma C78_early_years_refuted_pf :
  exists d s, valid_dt d /\ 1 <= dt_y d /\ datetime_to_http_date d = Ok s /\ http_date_to_datetime s = Ok (mk_dt 2050 1 1 0 0 0 0) /\ dt_y d = 50.
Proof.
exists (mk_dt 50 1 1 0 0 0 0), (lit "Sat, 01 Jan 0050 00:00:00 GMT"). split.
{ unfold valid_dt, days_in_month. cbn. repeat split; try lia. exists 31. split; [left; auto|lia]. }
split; [cbn; lia|]. vm_compute. auto.
Qed.
