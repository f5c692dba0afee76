(** * Thm_Time: proofs of the theorems restated in Props_Time.v *)
From Coq Require Import String List ZArith NArith Bool Lia.
From Coq Require Import ZifyBool ZifyNat ZifyN.
From Verif Require Import PyBase TimeUtils TimeSpec.
Import ListNotations.
Open Scope Z_scope.

From Verif Require Import Facts TimeProofs.

Lemma app_inj_len {A} (a : list A) : forall b x y, a ++ x = b ++ y -> List.length a = List.length b -> a = b /\ x = y.
Proof.
  induction a as [|c a IH]; intros [|c' b] x y E L; cbn in *; try discriminate; auto.
  injection E as -> E. injection L as L. destruct (IH b x y E L) as [-> ->]. auto.
Qed.
Lemma ts_ok_of d : valid_dt d -> 1900 <= dt_y d <= 2999 -> dt_us d = 0 -> ts_ok d.
Proof. intros; split; auto. Qed.

Lemma pad2_dt d : valid_dt d -> pad 2 (dt_m d) = fixed 2 (dt_m d) /\ pad 2 (dt_d d) = fixed 2 (dt_d d) /\ pad 2 (dt_H d) = fixed 2 (dt_H d)
  /\ pad 2 (dt_M d) = fixed 2 (dt_M d) /\ pad 2 (dt_S d) = fixed 2 (dt_S d).
Proof.
  intros (Hm & (n & Hn & Hd) & HH & HM & HS & Hu). apply month_days_spec in Hn; [|assumption]. subst n.
  pose proof (month_days_range (dt_y d) (dt_m d)). destruct value_p10 as (P2 & _).
  change 2 with (Z.of_nat 2). rewrite !(pad_fixed 2) by lia. auto.
Qed.
Lemma iso_fmt m d : valid_dt d -> 1000 <= dt_y d <= 9999 ->
  datetime_to_iso_date m d = iso19 d ++ (if m && negb (dt_us d =? 0) then lit "." ++ fixed 6 (dt_us d) else []) ++ lit "Z".
Proof.
  intros Hv Hy. unfold datetime_to_iso_date. destruct (pad2_dt d Hv) as (-> & -> & -> & -> & ->).
  assert (E1 : pad 4 (dt_y d) = fixed 4 (dt_y d)) by (change 4 with (Z.of_nat 4); apply pad_fixed; [lia|destruct value_p10; lia]).
  assert (E2 : str_of_Z (dt_y d) = fixed 4 (dt_y d)).
  { apply str_of_Z_fixed; change (4 - 1)%nat with 3%nat; destruct value_p10 as (? & ? & ? & ?); lia. }
  assert (E3 : pad 6 (dt_us d) = fixed 6 (dt_us d)).
  { change 6 with (Z.of_nat 6). apply pad_fixed; [lia|]. destruct value_p10 as (? & ? & ? & ?). destruct Hv as (? & ? & ? & ? & ? & ?). lia. }
  rewrite E1, E2, E3. unfold iso19. rewrite <- !app_assoc. destruct m; reflexivity.
Qed.

Definition last_dt (k : Z) (d : dt) : dt :=
  let m := if k <=? 4 then 12 else dt_m d in
  mk_dt (dt_y d) m (if k <=? 6 then month_days (dt_y d) m else dt_d d) (if k <=? 8 then 23 else dt_H d)
    (if k <=? 10 then 59 else dt_M d) 59 0.

Lemma last_vals d :
  last_dt 4 d = mk_dt (dt_y d) 12 (month_days (dt_y d) 12) 23 59 59 0
  /\ last_dt 6 d = mk_dt (dt_y d) (dt_m d) (month_days (dt_y d) (dt_m d)) 23 59 59 0
  /\ last_dt 8 d = mk_dt (dt_y d) (dt_m d) (dt_d d) 23 59 59 0
  /\ last_dt 10 d = mk_dt (dt_y d) (dt_m d) (dt_d d) (dt_H d) 59 59 0
  /\ last_dt 12 d = mk_dt (dt_y d) (dt_m d) (dt_d d) (dt_H d) (dt_M d) 59 0.
Proof. repeat split. Qed.
Lemma ts_take d :
  takeZ 4 (ts14 d) = fixed 4 (dt_y d)
  /\ takeZ 6 (ts14 d) = fixed 4 (dt_y d) ++ fixed 2 (dt_m d)
  /\ takeZ 8 (ts14 d) = fixed 4 (dt_y d) ++ fixed 2 (dt_m d) ++ fixed 2 (dt_d d)
  /\ takeZ 10 (ts14 d) = fixed 4 (dt_y d) ++ fixed 2 (dt_m d) ++ fixed 2 (dt_d d) ++ fixed 2 (dt_H d)
  /\ takeZ 12 (ts14 d) = fixed 4 (dt_y d) ++ fixed 2 (dt_m d) ++ fixed 2 (dt_d d) ++ fixed 2 (dt_H d) ++ fixed 2 (dt_M d).
Proof. repeat split; reflexivity. Qed.

(** one two-digit field at a known place *)
Lemma field2 pre n post start stop lo hi s : s = pre ++ fixed 2 n ++ post -> 0 <= n < 100 -> start = lenZ pre -> stop = start + 2 -> lo <= n <= hi ->
  extract s start stop lo hi = n.
Proof. intros -> ? ? ? ?. apply extract_field; auto; try lia. Qed.

Lemma last_ok k d : ts_ok d -> In k [4; 6; 8; 10; 12] -> ts_ok (last_dt k d).
Proof.
  intros H Hk. pose proof (ts_ok_bounds d H) as (Hy & Hm & Hd & HH & HM & HS & Hu).
  assert (E : dt_valid (last_dt k d) = true).
  { destruct (last_vals d) as (V4 & V6 & V8 & V10 & V12). cbn [In] in Hk.
    pose proof (month_days_range (dt_y d) 12). pose proof (month_days_range (dt_y d) (dt_m d)).
    destruct Hk as [<-|[<-|[<-|[<-|[<-|[]]]]]]; rewrite ?V4, ?V6, ?V8, ?V10, ?V12; unfold dt_valid; cbn [dt_y dt_m dt_d dt_H dt_M dt_S dt_us]; lia. }
  apply dt_valid_spec in E; [|unfold last_dt; cbn [dt_y]; lia]. apply ts_ok_of; [exact E|unfold last_dt; cbn [dt_y]; lia|reflexivity].
Qed.

Lemma prefix_last k d : ts_ok d -> In k [4; 6; 8; 10; 12] -> timestamp_to_datetime (takeZ k (ts14 d)) = Ok (last_dt k d).
Proof.
  intros H Hk. pose proof (last_ok k d H Hk) as HL.
  assert (HLv : dt_valid (last_dt k d) = true). { destruct HL as (HL & HLy & _). apply dt_valid_spec; [lia|exact HL]. }
  pose proof (ts_ok_bounds d H) as (Hy & Hm & Hd & HH & HM & HS & Hu). destruct value_p10 as (P2 & P4 & _).
  pose proof (month_days_range (dt_y d) (dt_m d)) as Hmd.
  destruct (ts_take d) as (T4 & T6 & T8 & T10 & T12).
  assert (Ey : forall r, extract (fixed 4 (dt_y d) ++ r) 0 4 1900 2999 = dt_y d) by (intros r; apply (extract_field [] 4); [lia|lia|reflexivity|reflexivity|lia]).
  unfold timestamp_to_datetime. cbv zeta. cbn [In] in Hk. destruct Hk as [<-|[<-|[<-|[<-|[<-|[]]]]]].
  - rewrite T4. assert (Ep : pad_timestamp (fixed 4 (dt_y d)) PAD_6_UP = fixed 4 (dt_y d) ++ fixed 2 12).
    { unfold pad_timestamp. rewrite fixed_len. reflexivity. }
    rewrite Ep, Ey.
    assert (E2 : extract (fixed 4 (dt_y d) ++ fixed 2 12) 4 6 1 12 = 12).
    { apply (field2 (fixed 4 (dt_y d)) 12 []); [now rewrite app_nil_r|lia|now rewrite fixed_len|lia|lia]. }
    rewrite E2. rewrite !extract_missing by (rewrite !lenZ_app, !fixed_len; lia).
    unfold mk_datetime. change (mk_dt (dt_y d) 12 (month_days (dt_y d) 12) 23 59 59 0) with (last_dt 4 d). now rewrite HLv.
  - rewrite T6. assert (Ep : pad_timestamp (fixed 4 (dt_y d) ++ fixed 2 (dt_m d)) PAD_6_UP = fixed 4 (dt_y d) ++ fixed 2 (dt_m d)).
    { unfold pad_timestamp. rewrite lenZ_app, !fixed_len. reflexivity. }
    rewrite Ep, Ey.
    assert (E2 : extract (fixed 4 (dt_y d) ++ fixed 2 (dt_m d)) 4 6 1 12 = dt_m d).
    { apply (field2 (fixed 4 (dt_y d)) (dt_m d) []); [now rewrite app_nil_r|lia|now rewrite fixed_len|lia|lia]. }
    rewrite E2. rewrite !extract_missing by (rewrite !lenZ_app, !fixed_len; lia).
    unfold mk_datetime. change (mk_dt (dt_y d) (dt_m d) (month_days (dt_y d) (dt_m d)) 23 59 59 0) with (last_dt 6 d). now rewrite HLv.
  - rewrite T8. set (t := fixed 4 (dt_y d) ++ fixed 2 (dt_m d) ++ fixed 2 (dt_d d)).
    assert (Lt : lenZ t = 8) by (unfold t; rewrite !lenZ_app, !fixed_len; reflexivity).
    assert (Ep : pad_timestamp t PAD_6_UP = t) by (unfold pad_timestamp; rewrite Lt; reflexivity).
    rewrite Ep. assert (E1 : extract t 0 4 1900 2999 = dt_y d) by apply Ey.
    assert (E2 : extract t 4 6 1 12 = dt_m d).
    { apply (field2 (fixed 4 (dt_y d)) (dt_m d) (fixed 2 (dt_d d))); [reflexivity|lia|now rewrite fixed_len|lia|lia]. }
    assert (E3 : extract t 6 8 1 (month_days (dt_y d) (dt_m d)) = dt_d d).
    { apply (field2 (fixed 4 (dt_y d) ++ fixed 2 (dt_m d)) (dt_d d) []); [unfold t; now rewrite app_nil_r, <- app_assoc|lia|now rewrite lenZ_app, !fixed_len|lia|lia]. }
    rewrite E1, E2, E3. rewrite !extract_missing by lia.
    unfold mk_datetime. change (mk_dt (dt_y d) (dt_m d) (dt_d d) 23 59 59 0) with (last_dt 8 d). now rewrite HLv.
  - rewrite T10. set (t := fixed 4 (dt_y d) ++ fixed 2 (dt_m d) ++ fixed 2 (dt_d d) ++ fixed 2 (dt_H d)).
    assert (Lt : lenZ t = 10) by (unfold t; rewrite !lenZ_app, !fixed_len; reflexivity).
    assert (Ep : pad_timestamp t PAD_6_UP = t) by (unfold pad_timestamp; rewrite Lt; reflexivity).
    rewrite Ep. assert (E1 : extract t 0 4 1900 2999 = dt_y d) by apply Ey.
    assert (E2 : extract t 4 6 1 12 = dt_m d).
    { apply (field2 (fixed 4 (dt_y d)) (dt_m d) (fixed 2 (dt_d d) ++ fixed 2 (dt_H d))); [reflexivity|lia|now rewrite fixed_len|lia|lia]. }
    assert (E3 : extract t 6 8 1 (month_days (dt_y d) (dt_m d)) = dt_d d).
    { apply (field2 (fixed 4 (dt_y d) ++ fixed 2 (dt_m d)) (dt_d d) (fixed 2 (dt_H d))); [unfold t; now rewrite <- !app_assoc|lia|now rewrite lenZ_app, !fixed_len|lia|lia]. }
    assert (E4 : extract t 8 10 0 23 = dt_H d).
    { apply (field2 (fixed 4 (dt_y d) ++ fixed 2 (dt_m d) ++ fixed 2 (dt_d d)) (dt_H d) []); [unfold t; now rewrite app_nil_r, <- !app_assoc|lia|now rewrite !lenZ_app, !fixed_len|lia|lia]. }
    rewrite E1, E2, E3, E4. rewrite !extract_missing by lia.
    unfold mk_datetime. change (mk_dt (dt_y d) (dt_m d) (dt_d d) (dt_H d) 59 59 0) with (last_dt 10 d). now rewrite HLv.
  - rewrite T12. set (t := fixed 4 (dt_y d) ++ fixed 2 (dt_m d) ++ fixed 2 (dt_d d) ++ fixed 2 (dt_H d) ++ fixed 2 (dt_M d)).
    assert (Lt : lenZ t = 12) by (unfold t; rewrite !lenZ_app, !fixed_len; reflexivity).
    assert (Ep : pad_timestamp t PAD_6_UP = t) by (unfold pad_timestamp; rewrite Lt; reflexivity).
    rewrite Ep. assert (E1 : extract t 0 4 1900 2999 = dt_y d) by apply Ey.
    assert (E2 : extract t 4 6 1 12 = dt_m d).
    { apply (field2 (fixed 4 (dt_y d)) (dt_m d) (fixed 2 (dt_d d) ++ fixed 2 (dt_H d) ++ fixed 2 (dt_M d))); [reflexivity|lia|now rewrite fixed_len|lia|lia]. }
    assert (E3 : extract t 6 8 1 (month_days (dt_y d) (dt_m d)) = dt_d d).
    { apply (field2 (fixed 4 (dt_y d) ++ fixed 2 (dt_m d)) (dt_d d) (fixed 2 (dt_H d) ++ fixed 2 (dt_M d))); [unfold t; now rewrite <- !app_assoc|lia|now rewrite lenZ_app, !fixed_len|lia|lia]. }
    assert (E4 : extract t 8 10 0 23 = dt_H d).
    { apply (field2 (fixed 4 (dt_y d) ++ fixed 2 (dt_m d) ++ fixed 2 (dt_d d)) (dt_H d) (fixed 2 (dt_M d))); [unfold t; now rewrite <- !app_assoc|lia|now rewrite !lenZ_app, !fixed_len|lia|lia]. }
    assert (E5 : extract t 10 12 0 59 = dt_M d).
    { apply (field2 (fixed 4 (dt_y d) ++ fixed 2 (dt_m d) ++ fixed 2 (dt_d d) ++ fixed 2 (dt_H d)) (dt_M d) []); [unfold t; now rewrite app_nil_r, <- !app_assoc|lia|now rewrite !lenZ_app, !fixed_len|lia|lia]. }
    rewrite E1, E2, E3, E4, E5. rewrite !extract_missing by lia.
    unfold mk_datetime. change (mk_dt (dt_y d) (dt_m d) (dt_d d) (dt_H d) (dt_M d) 59 0) with (last_dt 12 d). now rewrite HLv.
Qed.

Lemma prefix_fields k d d' : ts_ok d -> ts_ok d' -> In k [4; 6; 8; 10; 12] -> takeZ k (ts14 d) = takeZ k (ts14 d') ->
  dt_y d = dt_y d' /\ (6 <= k -> dt_m d = dt_m d') /\ (8 <= k -> dt_d d = dt_d d') /\ (10 <= k -> dt_H d = dt_H d') /\ (12 <= k -> dt_M d = dt_M d').
Proof.
  intros Ha Hb Hk E. apply ts_ok_bounds in Ha as (? & ? & ? & ? & ? & ? & Hua). apply ts_ok_bounds in Hb as (? & ? & ? & ? & ? & ? & Hub).
  pose proof (month_days_range (dt_y d) (dt_m d)). pose proof (month_days_range (dt_y d') (dt_m d')).
  destruct value_p10 as (P2 & P4 & _).
  assert (I4 : fixed 4 (dt_y d) = fixed 4 (dt_y d') -> dt_y d = dt_y d') by (apply fixed_inj; lia).
  assert (I2 : forall p q, 0 <= p < 100 -> 0 <= q < 100 -> fixed 2 p = fixed 2 q -> p = q) by (intros; apply (fixed_inj 2); auto; lia).
  assert (A : forall w a b x y, fixed w a ++ x = fixed w b ++ y -> fixed w a = fixed w b /\ x = y).
  { intros w a b x y Eq. apply app_inj_len in Eq; [exact Eq|now rewrite !fixed_length]. }
  destruct (ts_take d) as (T4 & T6 & T8 & T10 & T12). destruct (ts_take d') as (T4' & T6' & T8' & T10' & T12').
  cbn [In] in Hk. destruct Hk as [<-|[<-|[<-|[<-|[<-|[]]]]]].
  - rewrite T4, T4' in E. repeat split; try lia; auto.
  - rewrite T6, T6' in E. apply A in E as [Ey Em]. repeat split; try lia; auto. intros _. apply I2 in Em; lia.
  - rewrite T8, T8' in E. apply A in E as [Ey E]. apply A in E as [Em Ed]. apply I4 in Ey. apply I2 in Em, Ed; lia.
  - rewrite T10, T10' in E. apply A in E as [Ey E]. apply A in E as [Em E]. apply A in E as [Ed Eh]. apply I4 in Ey. apply I2 in Em, Ed, Eh; lia.
  - rewrite T12, T12' in E. apply A in E as [Ey E]. apply A in E as [Em E]. apply A in E as [Ed E]. apply A in E as [Eh Emi].
    apply I4 in Ey. apply I2 in Em, Ed, Eh, Emi; lia.
Qed.

Lemma last_prefix k d : In k [4; 6; 8; 10; 12] -> takeZ k (ts14 (last_dt k d)) = takeZ k (ts14 d).
Proof.
  intros Hk. destruct (ts_take d) as (T4 & T6 & T8 & T10 & T12). destruct (ts_take (last_dt k d)) as (T4' & T6' & T8' & T10' & T12').
  cbn [In] in Hk. destruct Hk as [<-|[<-|[<-|[<-|[<-|[]]]]]].
  - rewrite T4', T4. reflexivity.
  - rewrite T6', T6. reflexivity.
  - rewrite T8', T8. reflexivity.
  - rewrite T10', T10. reflexivity.
  - rewrite T12', T12. reflexivity.
Qed.

Lemma last_max k d d' : ts_ok d -> ts_ok d' -> In k [4; 6; 8; 10; 12] -> takeZ k (ts14 d') = takeZ k (ts14 d) -> d' = last_dt k d \/ dt_lt d' (last_dt k d).
Proof.
  intros H H' Hk E. symmetry in E. destruct (prefix_fields k d d' H H' Hk E) as (Fy & Fm & Fd & Fh & Fmi).
  destruct (dt_lt_total d' (last_dt k d)) as [L|[L|L]]; auto. exfalso.
  apply ts_ok_bounds in H as (? & ? & ? & ? & ? & ? & Hua). apply ts_ok_bounds in H' as (? & ? & Hd' & ? & ? & ? & Hub).
  rewrite <- Fy in Hd'. cbn [In] in Hk.
  assert (Hmd : month_days (dt_y d) 12 = 31) by reflexivity.
  destruct (last_vals d) as (V4 & V6 & V8 & V10 & V12).
  destruct Hk as [<-|[<-|[<-|[<-|[<-|[]]]]]]; rewrite ?V4, ?V6, ?V8, ?V10, ?V12 in L;
  unfold dt_lt in L; cbn [dt_y dt_m dt_d dt_H dt_M dt_S dt_us] in L; cbv zeta in L.
  - rewrite Hmd in L. pose proof (month_days_range (dt_y d) (dt_m d')). lia.
  - rewrite (Fm ltac:(lia)) in L. lia.
  - rewrite (Fm ltac:(lia)), (Fd ltac:(lia)) in L. lia.
  - rewrite (Fm ltac:(lia)), (Fd ltac:(lia)), (Fh ltac:(lia)) in L. lia.
  - rewrite (Fm ltac:(lia)), (Fd ltac:(lia)), (Fh ltac:(lia)), (Fmi ltac:(lia)) in L. lia.
Qed.

Lemma C50_total_pf :
  forall s : str, exists d, timestamp_to_datetime s = Ok d /\ valid_dt d /\ 1900 <= dt_y d <= 2999 /\ dt_us d = 0.
Proof.
exact to_datetime_total.
Qed.

Lemma C50_field_clamping_pf :
  forall y m d H M S, 0 <= y <= 9999 -> 0 <= m <= 99 -> 0 <= d <= 99 -> 0 <= H <= 99 -> 0 <= M <= 99 -> 0 <= S <= 99 ->
  exists r n, timestamp_to_datetime (ts14 (mk_dt y m d H M S 0)) = Ok r
    /\ dt_y r = Z.max 1900 (Z.min y 2999) /\ dt_m r = Z.max 1 (Z.min m 12)
    /\ days_in_month (dt_y r) (dt_m r) n /\ dt_d r = Z.max 1 (Z.min d n)
    /\ dt_H r = Z.min H 23 /\ dt_M r = Z.min M 59 /\ dt_S r = Z.min S 59.
Proof.
intros y m d H M S Hy Hm Hd HH HM HS. destruct (to_datetime_total (ts14 (mk_dt y m d H M S 0))) as (r & Er & _ & _).
set (n := month_days (Z.max 1900 (Z.min y 2999)) (Z.max 1 (Z.min m 12))). exists r, n. split; [exact Er|].
destruct value_p10 as (P2 & P4 & _).
assert (X : forall pre w v post s start stop lo hi, s = pre ++ fixed w v ++ post -> (0 < w)%nat -> 0 <= v < p10 w -> start = lenZ pre -> stop = start + Z.of_nat w ->
   extract s start stop lo hi = Z.max lo (Z.min v hi)).
{ intros pre w v post s start stop lo hi -> Hw Hv -> ->. unfold extract. rewrite !lenZ_app, fixed_len. pose proof (lenZ_nonneg post).
  replace (_ <=? _) with true by lia. rewrite dropZ_app_exact. rewrite takeZ_app2 by (rewrite fixed_len; lia).
  unfold clamp. now rewrite py_int_fixed by lia. }
unfold timestamp_to_datetime in Er. cbv zeta in Er.
assert (Ep : pad_timestamp (ts14 (mk_dt y m d H M S 0)) PAD_6_UP = ts14 (mk_dt y m d H M S 0)) by (unfold pad_timestamp; rewrite ts14_len; reflexivity).
rewrite Ep in Er. set (t := ts14 (mk_dt y m d H M S 0)) in *. unfold ts14 in t. cbn [dt_y dt_m dt_d dt_H dt_M dt_S] in t.
rewrite (X [] 4%nat y _ t 0 4 1900 2999 eq_refl ltac:(lia) ltac:(lia) eq_refl eq_refl) in Er.
rewrite (X (fixed 4 y) 2%nat m _ t 4 6 1 12 eq_refl) in Er by (try (rewrite fixed_len); lia).
fold n in Er.
rewrite (X (fixed 4 y ++ fixed 2 m) 2%nat d (fixed 2 H ++ fixed 2 M ++ fixed 2 S) t 6 8 1 n) in Er by (rewrite ?lenZ_app, ?fixed_len; try lia; unfold t; now rewrite <- !app_assoc).
rewrite (X (fixed 4 y ++ fixed 2 m ++ fixed 2 d) 2%nat H (fixed 2 M ++ fixed 2 S) t 8 10 0 23) in Er by (rewrite ?lenZ_app, ?fixed_len; try lia; unfold t; now rewrite <- !app_assoc).
rewrite (X (fixed 4 y ++ fixed 2 m ++ fixed 2 d ++ fixed 2 H) 2%nat M (fixed 2 S) t 10 12 0 59) in Er by (rewrite ?lenZ_app, ?fixed_len; try lia; unfold t; now rewrite <- !app_assoc).
rewrite (X (fixed 4 y ++ fixed 2 m ++ fixed 2 d ++ fixed 2 H ++ fixed 2 M) 2%nat S [] t 12 14 0 59) in Er by (rewrite ?lenZ_app, ?fixed_len; try lia; unfold t; now rewrite app_nil_r, <- !app_assoc).
unfold mk_datetime in Er. destruct (dt_valid _); [|discriminate]. injection Er as <-. cbn [dt_y dt_m dt_d dt_H dt_M dt_S].
split; [reflexivity|]. split; [reflexivity|]. split; [apply month_days_spec; [lia|reflexivity]|]. repeat split; lia.
Qed.

Lemma C51_timestamp_roundtrip_pf :
  forall d, valid_dt d -> 1900 <= dt_y d <= 2999 -> dt_us d = 0 ->
  timestamp_to_datetime (ts14 d) = Ok d /\ datetime_to_timestamp d = ts14 d
  /\ timestamp_to_datetime (datetime_to_timestamp d) = Ok d.
Proof.
intros d Hv Hy Hu. assert (E : datetime_to_timestamp d = ts14 d) by (apply to_timestamp_ts14; [exact Hv|lia]).
assert (E2 : timestamp_to_datetime (ts14 d) = Ok d) by (apply to_datetime_ts14; now apply ts_ok_of).
repeat split; auto. now rewrite E.
Qed.

Lemma C52_iso_roundtrip_pf :
  forall d, valid_dt d -> 1000 <= dt_y d <= 9999 ->
  iso_date_to_datetime (datetime_to_iso_date true d) = Ok d
  /\ iso_date_to_datetime (datetime_to_iso_date false d) = Ok (mk_dt (dt_y d) (dt_m d) (dt_d d) (dt_H d) (dt_M d) (dt_S d) 0).
Proof.
intros d Hv Hy. rewrite !iso_fmt by (auto; lia). cbn [andb]. split.
- destruct (dt_us d =? 0) eqn:E; cbn [negb].
  + cbn [app]. rewrite iso_plain by (auto; lia). destruct d as [vy vm vd vH vM vS vu]; cbn [dt_us dt_y dt_m dt_d dt_H dt_M dt_S] in *. f_equal. f_equal. lia.
  + rewrite <- app_assoc. rewrite iso_frac; [|auto|lia| |apply fixed_digits].
    * rewrite takeZ_app2 by now rewrite fixed_len. destruct value_p10 as (_ & _ & P6 & _). destruct Hv as (_ & _ & _ & _ & _ & Hu).
      rewrite value_fixed by lia. rewrite Z.mod_small by lia. destruct d. reflexivity.
    * intros F. pose proof (fixed_length 6 (dt_us d)) as L. rewrite F in L. discriminate.
- cbn [app]. apply iso_plain; [auto|lia].
Qed.

Lemma C52_iso_fraction_pf :
  forall d f, valid_dt d -> 1000 <= dt_y d <= 9999 -> f <> [] -> (forall c, In c f -> (48 <= c <= 57)%N) ->
  forall micros, 0 <= micros < 1000000 -> fixed 6 micros = takeZ 6 (f ++ lit "000000") ->
  iso_date_to_datetime (iso19 d ++ lit "." ++ f ++ lit "Z") = Ok (mk_dt (dt_y d) (dt_m d) (dt_d d) (dt_H d) (dt_M d) (dt_S d) micros).
Proof.
intros d f Hv Hy Hne Hf0 u Hu Eu. assert (Hf : forallb is_digit f = true) by (apply forallb_forall; intros c Hc; specialize (Hf0 c Hc); unfold is_digit; lia). rewrite iso_frac by (auto; lia). rewrite <- Eu. destruct value_p10 as (_ & _ & P6 & _).
rewrite value_fixed by lia. rewrite Z.mod_small by lia. reflexivity.
Qed.

Lemma C52_iso_timestamp_pf :
  forall d, valid_dt d -> 1900 <= dt_y d <= 2999 ->
  timestamp_to_iso_date (ts14 d) = Ok (iso19 d ++ lit "Z") /\ iso_date_to_timestamp (iso19 d ++ lit "Z") = Ok (ts14 d).
Proof.
intros d Hv Hy. set (d0 := mk_dt (dt_y d) (dt_m d) (dt_d d) (dt_H d) (dt_M d) (dt_S d) 0).
assert (Hv0 : valid_dt d0). { destruct Hv as (? & ? & ? & ? & ? & ?). unfold valid_dt, d0. cbn [dt_y dt_m dt_d dt_H dt_M dt_S dt_us]. repeat split; try tauto; lia. }
assert (E1 : ts14 d = ts14 d0) by reflexivity. assert (E2 : iso19 d = iso19 d0) by reflexivity. rewrite E1, E2.
unfold timestamp_to_iso_date, iso_date_to_timestamp. rewrite to_datetime_ts14 by (apply ts_ok_of; auto).
rewrite iso_fmt by (auto; unfold d0; cbn [dt_y]; lia). rewrite iso_plain by (auto; unfold d0; cbn [dt_y]; lia).
split; [reflexivity|]. change (mk_dt (dt_y d0) (dt_m d0) (dt_d d0) (dt_H d0) (dt_M d0) (dt_S d0) 0) with d0.
now rewrite to_timestamp_ts14 by (auto; unfold d0; cbn [dt_y]; lia).
Qed.

Lemma C53_seconds_roundtrip_pf :
  forall d, valid_dt d -> 1900 <= dt_y d <= 2999 ->
  exists s, timestamp_to_sec (ts14 d) = Ok s /\ sec_to_timestamp s = Ok (ts14 d).
Proof.
intros d Hv Hy. set (d0 := mk_dt (dt_y d) (dt_m d) (dt_d d) (dt_H d) (dt_M d) (dt_S d) 0).
assert (Hv0 : valid_dt d0). { destruct Hv as (? & ? & ? & ? & ? & ?). unfold valid_dt, d0. cbn [dt_y dt_m dt_d dt_H dt_M dt_S dt_us]. repeat split; try tauto; lia. }
change (ts14 d) with (ts14 d0). exists (timegm d0). unfold timestamp_to_sec, sec_to_timestamp.
rewrite to_datetime_ts14 by (apply ts_ok_of; auto). rewrite fromtimestamp_timegm by (auto; unfold d0; cbn [dt_y]; lia).
split; [reflexivity|]. change (mk_dt (dt_y d0) (dt_m d0) (dt_d d0) (dt_H d0) (dt_M d0) (dt_S d0) 0) with d0.
now rewrite to_timestamp_ts14 by (auto; unfold d0; cbn [dt_y]; lia).
Qed.

Lemma C53_order_pf :
  forall a b s t, valid_dt a -> 1900 <= dt_y a <= 2999 -> dt_us a = 0 -> valid_dt b -> 1900 <= dt_y b <= 2999 -> dt_us b = 0 ->
  timestamp_to_sec (ts14 a) = Ok s -> timestamp_to_sec (ts14 b) = Ok t ->
  (s < t <-> dt_lt a b) /\ (s < t <-> str_lt (ts14 a) (ts14 b)) /\ (s = t <-> a = b).
Proof.
intros a b s t Ha Hya Hua Hb Hyb Hub. pose proof (ts_ok_of a Ha Hya Hua) as Ka. pose proof (ts_ok_of b Hb Hyb Hub) as Kb.
unfold timestamp_to_sec. rewrite !to_datetime_ts14 by assumption. intros [= <-] [= <-].
assert (Hm : timegm a < timegm b <-> dt_lt a b).
{ split; [|apply timegm_mono; auto; congruence]. intros Hlt. destruct (dt_lt_total a b) as [H|[H|H]]; [exact H| |].
  - subst b. lia.
  - apply timegm_mono in H; auto; [lia|congruence]. }
split; [exact Hm|]. split; [rewrite ts14_lt by assumption; exact Hm|]. split; [|congruence]. intros E.
destruct (dt_lt_total a b) as [H|[H|H]]; [|exact H|]; apply timegm_mono in H; auto; try lia; congruence.
Qed.

Lemma C54_prefix_is_period_end_pf :
  forall k d, valid_dt d -> 1900 <= dt_y d <= 2999 -> dt_us d = 0 -> In k [4; 6; 8; 10; 12] ->
  exists r, timestamp_to_datetime (takeZ k (ts14 d)) = Ok r /\ valid_dt r /\ takeZ k (ts14 r) = takeZ k (ts14 d)
    /\ forall d', valid_dt d' -> 1900 <= dt_y d' <= 2999 -> dt_us d' = 0 -> takeZ k (ts14 d') = takeZ k (ts14 d) -> d' = r \/ dt_lt d' r.
Proof.
intros k d Hv Hy Hu Hk. pose proof (ts_ok_of d Hv Hy Hu) as K. exists (last_dt k d). split; [now apply prefix_last|].
split; [apply (last_ok k d K Hk)|]. split; [now apply last_prefix|]. intros d' Hv' Hy' Hu' E. apply last_max; auto. now apply ts_ok_of.
Qed.
