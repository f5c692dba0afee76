(** * TimeProofs: lemmas about timeutils.py *)
From Coq Require Import String List ZArith NArith Bool Lia.
From Coq Require Import ZifyBool ZifyNat ZifyN.
From Verif Require Import PyBase TimeUtils TimeSpec Facts HeaderProofs.
Import ListNotations.
Open Scope Z_scope.

(** ** Calendar *)
Lemma isleap_spec y : isleap y = true <-> leap_year y.
Proof.
  unfold isleap, leap_year. rewrite <- !Z.mod_divide by lia. lia.
Qed.
Lemma month_days_spec y m : 1 <= m <= 12 -> forall n, days_in_month y m n <-> n = month_days y m.
Proof.
  intros Hm n. unfold days_in_month, month_days. rewrite <- isleap_spec. cbn [In].
  destruct (isleap y); destruct (m =? 2) eqn:E2; [| destruct ((m =? 4) || (m =? 6) || (m =? 9) || (m =? 11)) eqn:E3
   | | destruct ((m =? 4) || (m =? 6) || (m =? 9) || (m =? 11)) eqn:E3]; lia.
Qed.
Lemma month_days_range y m : 28 <= month_days y m <= 31.
Proof. unfold month_days. destruct (m =? 2); [destruct (isleap y); lia|]. destruct (_ || _); lia. Qed.

Lemma dt_valid_spec d : 1 <= dt_y d <= 9999 -> (dt_valid d = true <-> valid_dt d).
Proof.
  intros Hy. unfold dt_valid, valid_dt. split.
  - intros H. split; [lia|]. split; [|lia]. exists (month_days (dt_y d) (dt_m d)). rewrite month_days_spec by lia. lia.
  - intros (Hm & (n & Hn & Hd) & H). apply month_days_spec in Hn; [|lia]. subst n. lia.
Qed.

(** ** Digits *)
Definition p10 (w : nat) : Z := 10 ^ Z.of_nat w.
Lemma p10_S w : p10 (S w) = 10 * p10 w.
Proof. unfold p10. rewrite Nat2Z.inj_succ, Z.pow_succ_r by lia. reflexivity. Qed.
Lemma p10_pos w : 0 < p10 w.
Proof. unfold p10. apply Z.pow_pos_nonneg; lia. Qed.

Lemma fixed_len w : forall n, lenZ (fixed w n) = Z.of_nat w.
Proof. induction w as [|w IH]; intros n; cbn [fixed]; [reflexivity|]. rewrite lenZ_app, IH, lenZ_cons, lenZ_nil. lia. Qed.
Lemma fixed_length w n : List.length (fixed w n) = w.
Proof. pose proof (fixed_len w n). unfold lenZ in *. lia. Qed.

Lemma fixed_digits w : forall n, forallb is_digit (fixed w n) = true.
Proof.
  induction w as [|w IH]; intros n; cbn [fixed]; [reflexivity|]. rewrite forallb_app, IH. cbn [forallb andb]. unfold is_digit.
  pose proof (Z.mod_pos_bound n 10 ltac:(lia)). lia.
Qed.

(** reading digits *)
Definition dval (c : N) : Z := Z.of_N c - 48.
Fixpoint value (acc : Z) (l : str) : Z := match l with [] => acc | c :: t => value (acc * 10 + dval c) t end.

Lemma value_app a : forall acc b, value acc (a ++ b) = value (value acc a) b.
Proof. induction a as [|c a IH]; intros acc b; cbn; [reflexivity|]. apply IH. Qed.

Lemma int_digits_value l : forall acc, forallb is_digit l = true ->
  int_digits 10 true acc l = Some (Z.to_N (value (Z.of_N acc) l)).
Proof.
  induction l as [|c l IH]; intros acc H; cbn [int_digits value].
  - f_equal. lia.
  - cbn [forallb] in H. apply andb_true_iff in H as [Hc Hl]. unfold is_digit in Hc.
    assert (E : digit_in 10 c = Some (c - 48)%N).
    { replace c with (48 + (c - 48))%N at 1 by lia. apply digit_in10. lia. }
    rewrite E, IH by assumption. unfold dval. f_equal. f_equal. f_equal. lia.
Qed.
Lemma int_digits_value0 l : l <> [] -> forallb is_digit l = true -> int_digits 10 false 0 l = Some (Z.to_N (value 0 l)).
Proof.
  destruct l as [|c l]; [contradiction|]. intros _ H. cbn [int_digits value].
  cbn [forallb] in H. apply andb_true_iff in H as [Hc Hl]. unfold is_digit in Hc.
  assert (E : digit_in 10 c = Some (c - 48)%N).
  { replace c with (48 + (c - 48))%N at 1 by lia. apply digit_in10. lia. }
  rewrite E, int_digits_value by assumption. unfold dval. f_equal. f_equal. f_equal. lia.
Qed.
Lemma value_nonneg l : forall acc, 0 <= acc -> forallb is_digit l = true -> 0 <= value acc l.
Proof.
  induction l as [|c l IH]; intros acc Ha H; cbn; [assumption|]. cbn in H. apply andb_true_iff in H as [Hc Hl].
  apply IH; [|assumption]. unfold is_digit, dval in *. lia.
Qed.
Lemma py_int_digits l : l <> [] -> forallb is_digit l = true -> py_int l = Some (value 0 l).
Proof.
  intros Hne H. unfold py_int. rewrite map_to_ascii_digit_ascii.
  2:{ apply (forallb_impl is_digit); [|assumption]. intros c Hc. unfold is_digit in Hc. lia. }
  rewrite (int_core_digits l (Z.to_N (value 0 l)) H (int_digits_value0 l Hne H)). f_equal.
  pose proof (value_nonneg l 0 ltac:(lia) H). lia.
Qed.

Lemma value_fixed w : forall acc n, 0 <= n -> value acc (fixed w n) = acc * p10 w + n mod p10 w.
Proof.
  induction w as [|w IH]; intros acc n Hn; cbn [fixed value].
  - unfold p10. cbn. rewrite Z.mod_1_r. lia.
  - rewrite value_app, IH by (apply Z.div_pos; lia). cbn [value]. unfold dval. rewrite p10_S.
    pose proof (p10_pos w). rewrite (Z.rem_mul_r n 10 (p10 w)) by lia.
    pose proof (Z.mod_pos_bound n 10 ltac:(lia)). nia.
Qed.
Lemma py_int_fixed w n : (0 < w)%nat -> 0 <= n < p10 w -> py_int (fixed w n) = Some n.
Proof.
  intros Hw Hn. rewrite py_int_digits.
  - rewrite value_fixed by lia. rewrite Z.mod_small by lia. reflexivity.
  - intros E. pose proof (fixed_length w n) as L. rewrite E in L. cbn in L. lia.
  - apply fixed_digits.
Qed.

(** str(n) is the shortest fixed form *)
Lemma dec_digits_fixed fuel : forall n w acc, (Z.of_N n < p10 w) -> (0 < w)%nat -> (w = 1%nat \/ p10 (w - 1) <= Z.of_N n) -> (w <= fuel)%nat ->
  dec_digits fuel n acc = fixed w (Z.of_N n) ++ acc.
Proof.
  induction fuel as [|fuel IH]; intros n w acc Hn Hw Hw1 Hf; [lia|]. cbn [dec_digits].
  destruct w as [|w]; [lia|]. cbn [fixed]. rewrite <- app_assoc. cbn [app].
  assert (Ed : (48 + n mod 10)%N = (48 + Z.to_N (Z.of_N n mod 10))%N) by (Z.div_mod_to_equations; lia).
  rewrite Ed. destruct (n <? 10)%N eqn:E.
  - destruct w as [|w].
    + reflexivity.
    + destruct Hw1 as [Hw1|Hw1]; [lia|]. replace (S (S w) - 1)%nat with (S w) in Hw1 by lia.
      rewrite p10_S in Hw1. pose proof (p10_pos w). lia.
  - destruct w as [|w].
    + unfold p10 in Hn. cbn in Hn. lia.
    + rewrite (IH (n / 10)%N (S w)).
      * f_equal. f_equal. Z.div_mod_to_equations; lia.
      * rewrite p10_S in Hn. Z.div_mod_to_equations; lia.
      * lia.
      * destruct Hw1 as [Hw1|Hw1]; [lia|]. replace (S (S w) - 1)%nat with (S w) in Hw1 by lia.
        destruct w as [|w]; [now left|right]. replace (S (S w) - 1)%nat with (S w) by lia. rewrite p10_S in Hw1. Z.div_mod_to_equations; lia.
      * lia.
Qed.
Lemma dec_of_N_fixed n w : Z.of_N n < p10 w -> (0 < w)%nat -> (w = 1%nat \/ p10 (w - 1) <= Z.of_N n) -> dec_of_N n = fixed w (Z.of_N n).
Proof.
  intros H1 H2 H3. unfold dec_of_N. rewrite (dec_digits_fixed _ n w); auto; [now rewrite app_nil_r|].
  (* w <= log2 n + 1 *)
  destruct H3 as [->|H3]; [lia|].
  assert (Hlog : (N.of_nat (w - 1) <= N.log2 n)%N); [|lia].
  assert (Hn : (0 < n)%N) by (pose proof (p10_pos (w - 1)); lia).
  apply N.log2_le_pow2; [assumption|].
  assert (Hp : (2 ^ N.of_nat (w - 1) <= 10 ^ N.of_nat (w - 1))%N) by (apply N.pow_le_mono_l; lia).
  unfold p10 in H3. rewrite <- (N2Z.id n) in *. apply N2Z.inj_le. rewrite N2Z.inj_pow.
  assert (2 ^ Z.of_nat (w-1) <= 10 ^ Z.of_nat (w-1)) by (apply Z.pow_le_mono_l; lia). rewrite nat_N_Z. lia.
Qed.
Lemma str_of_Z_fixed n w : 0 <= n < p10 w -> (0 < w)%nat -> (w = 1%nat \/ p10 (w - 1) <= n) -> str_of_Z n = fixed w n.
Proof.
  intros H1 H2 H3. unfold str_of_Z. replace (n <? 0) with false by lia.
  rewrite (dec_of_N_fixed (Z.to_N n) w) by (rewrite ?Z2N.id by lia; auto; lia). now rewrite Z2N.id by lia.
Qed.
Lemma fixed_zero_pad k : forall w n, 0 <= n < p10 w -> fixed (k + w) n = repeat 48%N k ++ fixed w n.
Proof.
  intros w. revert k. induction w as [|w IH]; intros k n Hn.
  - rewrite Nat.add_0_r. cbn [fixed]. rewrite app_nil_r. unfold p10 in Hn. cbn in Hn. assert (n = 0) by lia. subst n. clear.
    induction k as [|k IH]; [reflexivity|]. cbn [fixed]. change (0 / 10) with 0. rewrite IH. change (48 + Z.to_N (0 mod 10))%N with 48%N.
    now rewrite <- repeat_cons.
  - rewrite Nat.add_succ_r. cbn [fixed]. rewrite IH; [now rewrite app_assoc|]. rewrite p10_S in Hn. Z.div_mod_to_equations; lia.
Qed.
Lemma pad_fixed w : forall n, (0 < w)%nat -> 0 <= n < p10 w -> pad (Z.of_nat w) n = fixed w n.
Proof.
  intros n Hw Hn. unfold pad, zpad.
  assert (exists v, (0 < v <= w)%nat /\ 0 <= n < p10 v /\ (v = 1%nat \/ p10 (v - 1) <= n)) as (v & Hv & Hvn & Hv1).
  { revert Hw Hn. induction w as [|w IH]; [lia|]. intros _ Hn. destruct (Z.ltb_spec n (p10 w)) as [H|H].
    - destruct w as [|w].
      + exists 1%nat. rewrite p10_S in *. cbn in *. repeat split; [lia|lia|lia|lia|now left].
      + destruct (IH ltac:(lia) ltac:(lia)) as (v & ? & ? & ?). exists v. repeat split; auto; lia.
    - exists (S w). repeat split; try lia. right. now replace (S w - 1)%nat with w by lia. }
  rewrite (str_of_Z_fixed n v) by (auto; lia). rewrite fixed_len.
  replace w with ((w - v) + v)%nat at 2 by lia. rewrite fixed_zero_pad by lia. f_equal. f_equal. lia.
Qed.

Lemma value_p10 : p10 2 = 100 /\ p10 4 = 10000 /\ p10 6 = 1000000 /\ p10 3 = 1000.
Proof. repeat split. Qed.

(** ** timestamp_to_datetime *)
Lemma clamp_range v lo hi : lo <= hi -> lo <= clamp v lo hi <= hi.
Proof. intros H. unfold clamp. destruct (py_int v); lia. Qed.
Lemma extract_range s a b lo hi : lo <= hi -> lo <= extract s a b lo hi <= hi.
Proof. intros H. unfold extract. destruct (_ <=? _); [now apply clamp_range|lia]. Qed.

Lemma to_datetime_total s : exists d, timestamp_to_datetime s = Ok d /\ valid_dt d /\ 1900 <= dt_y d <= 2999 /\ dt_us d = 0.
Proof.
  unfold timestamp_to_datetime. cbv zeta. set (s' := pad_timestamp s PAD_6_UP).
  pose proof (extract_range s' 0 4 1900 2999 ltac:(lia)) as Hy. pose proof (extract_range s' 4 6 1 12 ltac:(lia)) as Hm.
  set (y := extract s' 0 4 1900 2999) in *. set (m := extract s' 4 6 1 12) in *.
  pose proof (month_days_range y m) as Hmd.
  pose proof (extract_range s' 6 8 1 (month_days y m) ltac:(lia)) as Hd.
  pose proof (extract_range s' 8 10 0 23 ltac:(lia)) as HH. pose proof (extract_range s' 10 12 0 59 ltac:(lia)) as HM.
  pose proof (extract_range s' 12 14 0 59 ltac:(lia)) as HS.
  set (d := mk_dt y m (extract s' 6 8 1 (month_days y m)) (extract s' 8 10 0 23) (extract s' 10 12 0 59) (extract s' 12 14 0 59) 0).
  assert (Hv : dt_valid d = true). { unfold dt_valid, d. cbn [dt_y dt_m dt_d dt_H dt_M dt_S dt_us]. lia. }
  exists d. unfold mk_datetime. fold d. rewrite Hv. split; [reflexivity|]. split; [|split; [exact Hy|reflexivity]].
  apply dt_valid_spec in Hv; [assumption|]. unfold d. cbn. lia.
Qed.

Lemma takeZ_app2 {A} (a b : list A) n : n = lenZ a -> takeZ n (a ++ b) = a.
Proof. intros ->. apply takeZ_app_exact. Qed.
Lemma dropZ_app2 {A} (a b : list A) n : n = lenZ a -> dropZ n (a ++ b) = b.
Proof. intros ->. apply dropZ_app_exact. Qed.

(** a field between [pre] and [post] *)
Lemma extract_field pre w n post start stop lo hi :
  (0 < w)%nat -> 0 <= n < p10 w -> start = lenZ pre -> stop = start + Z.of_nat w -> lo <= n <= hi ->
  extract (pre ++ fixed w n ++ post) start stop lo hi = n.
Proof.
  intros Hw Hn -> -> Hr. unfold extract. rewrite !lenZ_app, fixed_len.
  pose proof (lenZ_nonneg post). replace (_ <=? _) with true by lia.
  rewrite dropZ_app_exact. rewrite takeZ_app2 by (rewrite fixed_len; lia).
  unfold clamp. rewrite py_int_fixed by lia. lia.
Qed.
Lemma extract_missing s start stop lo hi : lenZ s < stop -> extract s start stop lo hi = hi.
Proof. intros H. unfold extract. now replace (stop <=? lenZ s) with false by lia. Qed.

Lemma ts14_len d : lenZ (ts14 d) = 14.
Proof. unfold ts14. rewrite !lenZ_app, !fixed_len. lia. Qed.

Definition ts_ok (d : dt) : Prop := valid_dt d /\ 1900 <= dt_y d <= 2999 /\ dt_us d = 0.

Lemma ts_ok_bounds d : ts_ok d -> 1900 <= dt_y d <= 2999 /\ 1 <= dt_m d <= 12 /\ 1 <= dt_d d <= month_days (dt_y d) (dt_m d)
  /\ 0 <= dt_H d <= 23 /\ 0 <= dt_M d <= 59 /\ 0 <= dt_S d <= 59 /\ dt_us d = 0.
Proof.
  intros ((Hm & (n & Hn & Hd) & HH & HM & HS & Hu) & Hy & Hu0). apply month_days_spec in Hn; [|assumption]. subst n. repeat split; lia.
Qed.

Lemma to_datetime_ts14 d : ts_ok d -> timestamp_to_datetime (ts14 d) = Ok d.
Proof.
  intros H. apply ts_ok_bounds in H as (Hy & Hm & Hd & HH & HM & HS & Hu). destruct value_p10 as (P2 & P4 & _).
  pose proof (month_days_range (dt_y d) (dt_m d)).
  unfold timestamp_to_datetime. cbv zeta.
  assert (Ep : pad_timestamp (ts14 d) PAD_6_UP = ts14 d).
  { unfold pad_timestamp. rewrite ts14_len. reflexivity. }
  rewrite Ep. unfold ts14.
  assert (Ey : forall r, extract (fixed 4 (dt_y d) ++ r) 0 4 1900 2999 = dt_y d) by (intros r; apply (extract_field [] 4); [lia|lia|reflexivity|reflexivity|lia]).
  rewrite Ey. clear Ey.
  assert (E : forall pre n post start stop lo hi, 0 <= n < 100 -> start = lenZ pre -> stop = start + 2 -> lo <= n <= hi ->
     extract (pre ++ fixed 2 n ++ post) start stop lo hi = n).
  { intros. apply extract_field; auto; lia. }
  rewrite (E (fixed 4 (dt_y d)) (dt_m d)) by (rewrite ?fixed_len; lia).
  rewrite !(app_assoc (fixed 4 (dt_y d))). rewrite (E _ (dt_d d)) by (rewrite ?lenZ_app, ?fixed_len; lia).
  rewrite !(app_assoc (_ ++ fixed 2 (dt_m d))). rewrite (E _ (dt_H d)) by (rewrite ?lenZ_app, ?fixed_len; lia).
  rewrite !(app_assoc (_ ++ fixed 2 (dt_d d))). rewrite (E _ (dt_M d)) by (rewrite ?lenZ_app, ?fixed_len; lia).
  rewrite !(app_assoc (_ ++ fixed 2 (dt_H d))). rewrite <- (app_nil_r (fixed 2 (dt_S d))).
  rewrite (E _ (dt_S d)) by (rewrite ?lenZ_app, ?fixed_len; lia).
  unfold mk_datetime. destruct d as [y m dd hh mi ss u]. cbn [dt_y dt_m dt_d dt_H dt_M dt_S dt_us] in *. subst u.
  assert (Hv : dt_valid (mk_dt y m dd hh mi ss 0) = true) by (unfold dt_valid; cbn [dt_y dt_m dt_d dt_H dt_M dt_S dt_us]; lia).
  now rewrite Hv.
Qed.

Lemma to_timestamp_ts14 d : valid_dt d -> 1000 <= dt_y d <= 9999 -> datetime_to_timestamp d = ts14 d.
Proof.
  intros H Hy. destruct H as (Hm & (n & Hn & Hd) & HH & HM & HS & Hu). apply month_days_spec in Hn; [|assumption]. subst n.
  pose proof (month_days_range (dt_y d) (dt_m d)). destruct value_p10 as (P2 & P4 & _ & P3).
  unfold datetime_to_timestamp, ts14. rewrite (str_of_Z_fixed (dt_y d) 4) by (change (4 - 1)%nat with 3%nat; lia).
  change 2 with (Z.of_nat 2). rewrite !(pad_fixed 2) by lia. reflexivity.
Qed.

(** ** ISO dates *)
Lemma split_on_sep p a c b : forallb (fun x => negb (p x)) a = true -> p c = true -> split_on p (a ++ c :: b) = a :: split_on p b.
Proof.
  intros Ha Hc. induction a as [|x a IH]; cbn [app split_on].
  - now rewrite Hc.
  - cbn in Ha. apply andb_true_iff in Ha as [Hx Ha]. apply negb_true_iff in Hx. rewrite Hx, IH by assumption. reflexivity.
Qed.
Lemma split_on_last p a : forallb (fun x => negb (p x)) a = true -> split_on p a = [a].
Proof.
  induction a as [|x a IH]; cbn [split_on forallb]; [reflexivity|]. intros Ha. apply andb_true_iff in Ha as [Hx Ha].
  apply negb_true_iff in Hx. now rewrite Hx, IH.
Qed.
Lemma digit_nd c : is_digit c = true -> is_nd c = true.
Proof. unfold is_digit, is_nd, nd_val, nd_zeros. intros H. cbn [find]. now replace ((48 <=? c)%N && (c <=? 48 + 9)%N) with true by lia. Qed.
Lemma digits_nd a : forallb is_digit a = true -> forallb (fun x => negb (negb (is_nd x))) a = true.
Proof. apply forallb_impl. intros c H. now rewrite (digit_nd c H). Qed.

Section Iso.
  Variable d : dt.
  Hypothesis Hv : valid_dt d.
  Hypothesis Hy : 1 <= dt_y d <= 9999.

  Let nd := fun c => negb (is_nd c).

  Lemma iso_split tail : split_on nd (iso19 d ++ 90%N :: tail)
    = [fixed 4 (dt_y d); fixed 2 (dt_m d); fixed 2 (dt_d d); fixed 2 (dt_H d); fixed 2 (dt_M d); fixed 2 (dt_S d)] ++ split_on nd tail.
  Proof.
    unfold iso19, nd. rewrite <- !app_assoc. cbn [app].
    rewrite !split_on_sep by (try (apply digits_nd, fixed_digits); reflexivity). reflexivity.
  Qed.
  Lemma iso_split_frac f tail : forallb is_digit f = true -> split_on nd (iso19 d ++ 46%N :: f ++ 90%N :: tail)
    = [fixed 4 (dt_y d); fixed 2 (dt_m d); fixed 2 (dt_d d); fixed 2 (dt_H d); fixed 2 (dt_M d); fixed 2 (dt_S d); f] ++ split_on nd tail.
  Proof.
    intros Hf. unfold iso19, nd. rewrite <- !app_assoc. cbn [app].
    rewrite !split_on_sep by (try (apply digits_nd; (apply fixed_digits || exact Hf)); reflexivity). reflexivity.
  Qed.

  Lemma iso_bounds : 1 <= dt_m d <= 12 /\ 1 <= dt_d d <= 31 /\ 0 <= dt_H d <= 23 /\ 0 <= dt_M d <= 59 /\ 0 <= dt_S d <= 59 /\ 0 <= dt_us d <= 999999.
  Proof.
    destruct Hv as (Hm & (n & Hn & Hd) & HH & HM & HS & Hu). apply month_days_spec in Hn; [|assumption].
    pose proof (month_days_range (dt_y d) (dt_m d)). repeat split; lia.
  Qed.

  Lemma iso_ints l : ints_of ([fixed 4 (dt_y d); fixed 2 (dt_m d); fixed 2 (dt_d d); fixed 2 (dt_H d); fixed 2 (dt_M d); fixed 2 (dt_S d)] ++ l)
    = match ints_of l with Some r => Some ([dt_y d; dt_m d; dt_d d; dt_H d; dt_M d; dt_S d] ++ r) | None => None end.
  Proof.
    destruct iso_bounds as (? & ? & ? & ? & ? & ?). destruct value_p10 as (P2 & P4 & _).
    cbn [app ints_of]. rewrite !py_int_fixed by lia. now destruct (ints_of l).
  Qed.

  Lemma iso_plain : iso_date_to_datetime (iso19 d ++ lit "Z") = Ok (mk_dt (dt_y d) (dt_m d) (dt_d d) (dt_H d) (dt_M d) (dt_S d) 0).
  Proof.
    unfold iso_date_to_datetime, iso_nums. change (lit "Z") with [90%N]. fold nd. rewrite (iso_split []). cbn [split_on app rev].
    rewrite <- (app_nil_r [fixed 4 (dt_y d); _; _; _; _; _]). rewrite iso_ints. cbn [ints_of app]. unfold mk_datetime.
    assert (E : dt_valid (mk_dt (dt_y d) (dt_m d) (dt_d d) (dt_H d) (dt_M d) (dt_S d) 0) = true).
    { apply dt_valid_spec; [exact Hy|]. destruct Hv as (Hm & Hn & HH & HM & HS & Hu). unfold valid_dt. cbn [dt_y dt_m dt_d dt_H dt_M dt_S dt_us]. repeat split; try tauto; lia. }
    now rewrite E.
  Qed.

  Lemma iso_frac f : f <> [] -> forallb is_digit f = true ->
    iso_date_to_datetime (iso19 d ++ lit "." ++ f ++ lit "Z")
    = Ok (mk_dt (dt_y d) (dt_m d) (dt_d d) (dt_H d) (dt_M d) (dt_S d) (value 0 (takeZ 6 (f ++ lit "000000")))).
  Proof.
    intros Hne Hf. unfold iso_date_to_datetime, iso_nums. change (lit "Z") with [90%N]. change (lit ".") with [46%N]. cbn [app]. fold nd.
    rewrite (iso_split_frac f [] Hf). cbn [split_on app rev].
    set (g := takeZ 6 f ++ dropZ (lenZ (takeZ 6 f)) PAD_MICRO).
    assert (Eg : takeZ 6 (f ++ lit "000000") = g).
    { unfold g. change PAD_MICRO with (lit "000000"). pose proof (lenZ_nonneg f).
      destruct (Z.leb_spec 6 (lenZ f)) as [Hl|Hl].
      - rewrite takeZ_app_le by assumption. rewrite dropZ_all; [now rewrite app_nil_r|]. rewrite lenZ_takeZ by lia. change (lenZ (lit "000000")) with 6. lia.
      - rewrite takeZ_app_ge by lia. rewrite (takeZ_all 6 f) by lia. f_equal.
        assert (Hf6 : lenZ f = 1 \/ lenZ f = 2 \/ lenZ f = 3 \/ lenZ f = 4 \/ lenZ f = 5).
        { assert (0 < lenZ f) by (destruct f; [contradiction|rewrite lenZ_cons; pose proof (lenZ_nonneg f); lia]). lia. }
        destruct Hf6 as [->|[->|[->|[->| ->]]]]; reflexivity. }
    assert (Hg : forallb is_digit g = true).
    { rewrite <- Eg. rewrite forallb_forall. intros c Hc. assert (Hc' : In c (f ++ lit "000000")).
      { rewrite <- (takeZ_dropZ 6 (f ++ lit "000000")). apply in_or_app. now left. }
      apply in_app_or in Hc' as [Hc'|Hc']; [rewrite forallb_forall in Hf; auto|]. cbn in Hc'. intuition subst; reflexivity. }
    assert (Hgl : lenZ g = 6).
    { rewrite <- Eg, lenZ_takeZ by lia. rewrite lenZ_app. change (lenZ (lit "000000")) with 6. pose proof (lenZ_nonneg f). lia. }
    assert (Hgne : g <> []) by (intros E; rewrite E in Hgl; cbn in Hgl; lia).
    rewrite Eg. change [fixed 4 (dt_y d); fixed 2 (dt_m d); fixed 2 (dt_d d); fixed 2 (dt_H d); fixed 2 (dt_M d); fixed 2 (dt_S d); g]
      with ([fixed 4 (dt_y d); fixed 2 (dt_m d); fixed 2 (dt_d d); fixed 2 (dt_H d); fixed 2 (dt_M d); fixed 2 (dt_S d)] ++ [g]).
    rewrite iso_ints. cbn [ints_of]. rewrite (py_int_digits g Hgne Hg). cbn [app]. unfold mk_datetime.
    assert (Hr : 0 <= value 0 g <= 999999).
    { split; [now apply value_nonneg|]. clear - Hg Hgl.
      do 6 (destruct g as [|? g]; [exfalso; rewrite ?lenZ_cons, lenZ_nil in Hgl; lia|]). destruct g as [|? g]; [|exfalso; rewrite !lenZ_cons in Hgl; pose proof (lenZ_nonneg g); lia].
      cbn [forallb] in Hg. unfold is_digit in Hg. cbn [value]. unfold dval. lia. }
    assert (E : dt_valid (mk_dt (dt_y d) (dt_m d) (dt_d d) (dt_H d) (dt_M d) (dt_S d) (value 0 g)) = true).
    { apply dt_valid_spec; [exact Hy|]. destruct Hv as (Hm & Hn & HH & HM & HS & Hu). unfold valid_dt. cbn [dt_y dt_m dt_d dt_H dt_M dt_S dt_us]. repeat split; try tauto; lia. }
    now rewrite E.
  Qed.
End Iso.

(** ** Days *)
Lemma year_split y : exists a b c e, y = 400 * a + 100 * b + 4 * c + e + 1 /\ 0 <= b < 4 /\ 0 <= c < 25 /\ 0 <= e < 4.
Proof.
  exists ((y - 1) / 400), ((y - 1) mod 400 / 100), ((y - 1) mod 100 / 4), ((y - 1) mod 4).
  Z.div_mod_to_equations. lia.
Qed.
Lemma dby_split a b c e : 0 <= b < 4 -> 0 <= c < 25 -> 0 <= e < 4 ->
  days_before_year (400 * a + 100 * b + 4 * c + e + 1) = 146097 * a + 36524 * b + 1461 * c + 365 * e.
Proof. intros Hb Hc He. unfold days_before_year. cbv zeta. Z.div_mod_to_equations. lia. Qed.
Lemma isleap_split a b c e : 0 <= b < 4 -> 0 <= c < 25 -> 0 <= e < 4 ->
  isleap (400 * a + 100 * b + 4 * c + e + 1) = ((e =? 3) && (negb (c =? 24) || (b =? 3))).
Proof.
  intros Hb Hc He. unfold isleap. set (y := 400 * a + 100 * b + 4 * c + e + 1).
  assert (E4 : (y mod 4 =? 0) = (e =? 3)).
  { replace y with (e + 1 + (100 * a + 25 * b + c) * 4) by (unfold y; lia). rewrite Z.mod_add by lia.
    destruct (Z.eq_dec e 3) as [->|]; [reflexivity|]. rewrite Z.mod_small by lia. lia. }
  assert (E100 : (y mod 100 =? 0) = (e =? 3) && (c =? 24)).
  { replace y with (4 * c + e + 1 + (4 * a + b) * 100) by (unfold y; lia). rewrite Z.mod_add by lia.
    destruct (Z.eq_dec (4 * c + e) 99) as [E|]; [replace (4 * c + e + 1) with 100 by lia; change (100 mod 100) with 0; lia|]. rewrite Z.mod_small by lia. lia. }
  assert (E400 : (y mod 400 =? 0) = (e =? 3) && (c =? 24) && (b =? 3)).
  { replace y with (100 * b + 4 * c + e + 1 + a * 400) by (unfold y; lia). rewrite Z.mod_add by lia.
    destruct (Z.eq_dec (100 * b + 4 * c + e) 399) as [E|]; [replace (100 * b + 4 * c + e + 1) with 400 by lia; change (400 mod 400) with 0; lia|]. rewrite Z.mod_small by lia. lia. }
  rewrite E4, E100, E400. destruct (e =? 3), (c =? 24), (b =? 3); reflexivity.
Qed.

Ltac bo := cbv beta iota zeta delta [Z.eqb Pos.eqb Z.ltb Z.compare Pos.compare Pos.compare_cont orb andb negb].
Tactic Notation "bo_in" hyp(H) := cbv beta iota zeta delta [Z.eqb Pos.eqb Z.ltb Z.compare Pos.compare Pos.compare_cont orb andb negb] in H.

Lemma ord2ymd_ymd2ord y m d : 1 <= m <= 12 -> 1 <= d <= month_days y m -> ord2ymd (ymd2ord y m d) = (y, m, d).
Proof.
  intros Hm Hd. destruct (year_split y) as (a & b & c & e & -> & Hb & Hc & He).
  unfold ymd2ord. rewrite (dby_split a b c e Hb Hc He). unfold month_days in Hd.
  unfold days_before_month. rewrite (isleap_split a b c e Hb Hc He) in *.
  set (lp := (e =? 3) && (negb (c =? 24) || (b =? 3))) in *.
  set (Y := 400 * a + 100 * b + 4 * c + e + 1) in *.
  assert (HD : exists doy, match m with 1 => 0 | 2 => 31 | 3 => 59 | 4 => 90 | 5 => 120 | 6 => 151 | 7 => 181 | 8 => 212 | 9 => 243 | 10 => 273 | 11 => 304 | _ => 334 end
               + (if (2 <? m) && lp then 1 else 0) + d = doy + 1 /\ 0 <= doy <= (if lp then 365 else 364)
               /\ (doy = 365 -> m = 12 /\ d = 31)).
  { assert (m = 1 \/ m = 2 \/ m = 3 \/ m = 4 \/ m = 5 \/ m = 6 \/ m = 7 \/ m = 8 \/ m = 9 \/ m = 10 \/ m = 11 \/ m = 12) as Hm' by lia.
    destruct Hm' as [->|[->|[->|[->|[->|[->|[->|[->|[->|[->|[->| ->]]]]]]]]]]]; clearbody lp; bo_in Hd; bo;
    destruct lp; eexists; (split; [symmetry; apply Z.sub_add|]); lia. }
  destruct HD as (doy & HD & Hdoy & Hlast).
  unfold ord2ymd. cbv zeta. replace (_ + _ + d - 1) with (146097 * a + 36524 * b + 1461 * c + 365 * e + doy) by lia.
  assert (Hleap : lp = true -> e = 3 /\ (c <> 24 \/ b = 3)) by (unfold lp; lia).
  assert (HR : 0 <= 36524 * b + 1461 * c + 365 * e + doy < 146097) by (destruct lp; lia).
  assert (E1 : (146097 * a + 36524 * b + 1461 * c + 365 * e + doy) / 146097 = a) by (Z.div_mod_to_equations; lia).
  assert (E2 : (146097 * a + 36524 * b + 1461 * c + 365 * e + doy) mod 146097 = 36524 * b + 1461 * c + 365 * e + doy) by (Z.div_mod_to_equations; lia).
  rewrite E1, E2. clear E1 E2.
  destruct (Z.eq_dec doy 365) as [E365|N365].
  - (* last day of a leap year *)
    destruct (Hlast E365) as [-> ->]. subst doy. destruct lp eqn:El; [|lia]. destruct (Hleap eq_refl) as [-> Hcb].
    destruct (Z.eq_dec c 24) as [->|Hc24].
    + assert (b = 3) as -> by lia. change ((36524 * 3 + 1461 * 24 + 365 * 3 + 365) / 36524) with 4. change ((36524 * 3 + 1461 * 24 + 365 * 3 + 365) mod 36524) with 0.
      cbn [Z.eqb orb]. change (0 / 1461) with 0. change (0 mod 1461) with 0. change (0 / 365) with 0. cbn. f_equal. f_equal. unfold Y. lia.
    + assert (E1 : (36524 * b + 1461 * c + 365 * 3 + 365) / 36524 = b) by (Z.div_mod_to_equations; lia).
      assert (E2 : (36524 * b + 1461 * c + 365 * 3 + 365) mod 36524 = 1461 * c + 1460) by (Z.div_mod_to_equations; lia).
      rewrite E1, E2. assert (E3 : (1461 * c + 1460) / 1461 = c) by (Z.div_mod_to_equations; lia).
      assert (E4 : (1461 * c + 1460) mod 1461 = 1460) by (Z.div_mod_to_equations; lia). rewrite E3, E4.
      change (1460 / 365) with 4. cbn. f_equal. f_equal. unfold Y. lia.
  - assert (Hd2 : doy <= 364) by (destruct lp; lia).
    assert (E1 : (36524 * b + 1461 * c + 365 * e + doy) / 36524 = b) by (Z.div_mod_to_equations; lia).
    assert (E2 : (36524 * b + 1461 * c + 365 * e + doy) mod 36524 = 1461 * c + 365 * e + doy) by (Z.div_mod_to_equations; lia).
    rewrite E1, E2. assert (E3 : (1461 * c + 365 * e + doy) / 1461 = c) by (Z.div_mod_to_equations; lia).
    assert (E4 : (1461 * c + 365 * e + doy) mod 1461 = 365 * e + doy) by (Z.div_mod_to_equations; lia). rewrite E3, E4.
    assert (E5 : (365 * e + doy) / 365 = e) by (Z.div_mod_to_equations; lia).
    assert (E6 : (365 * e + doy) mod 365 = doy) by (Z.div_mod_to_equations; lia). rewrite E5, E6. clear E1 E2 E3 E4 E5 E6.
    replace ((e =? 4) || (b =? 4)) with false by lia.
    fold lp. clearbody lp. replace (a * 400 + 1 + b * 100 + c * 4 + e) with Y by (unfold Y; lia). clearbody Y.
    assert (m = 1 \/ m = 2 \/ m = 3 \/ m = 4 \/ m = 5 \/ m = 6 \/ m = 7 \/ m = 8 \/ m = 9 \/ m = 10 \/ m = 11 \/ m = 12) as Hm' by lia.
    assert (Hmon : (doy + 50) / 32 = m \/ (doy + 50) / 32 = m + 1 /\ doy + 50 >= 32 * (m + 1)).
    { destruct Hm' as [->|[->|[->|[->|[->|[->|[->|[->|[->|[->|[->| ->]]]]]]]]]]]; bo_in HD; bo_in Hd; destruct lp; Z.div_mod_to_equations; lia. }
    destruct Hmon as [Hmon|[Hmon Hge]]; rewrite Hmon; clear Hmon;
    (match goal with |- (if doy <? ?x then _ else _) = _ => destruct (Z.ltb_spec doy x) as [Hlt|Hlt] end);
    destruct Hm' as [->|[->|[->|[->|[->|[->|[->|[->|[->|[->|[->| ->]]]]]]]]]]];
    repeat match goal with |- context [?p - 1] => match isZcst p with true => let v := eval vm_compute in (p - 1) in change (p - 1) with v end
                     | |- context [?p + 1] => match isZcst p with true => let v := eval vm_compute in (p + 1) in change (p + 1) with v end
                     | H : context [?p + 1] |- _ => match isZcst p with true => let v := eval vm_compute in (p + 1) in change (p + 1) with v in H end end;
    bo_in HD; bo_in Hd; bo_in Hlt; bo; destruct lp;
      try (exfalso; lia); do 2 f_equal; lia.
Qed.

Lemma timegm_days d : timegm d = 86400 * (ymd2ord (dt_y d) (dt_m d) (dt_d d) - EPOCH_ORD) + 3600 * dt_H d + 60 * dt_M d + dt_S d.
Proof. unfold timegm, ymd2ord. cbv zeta. lia. Qed.

Lemma fromtimestamp_timegm d : valid_dt d -> 1 <= dt_y d <= 9999 ->
  fromtimestamp (timegm d) = Ok (mk_dt (dt_y d) (dt_m d) (dt_d d) (dt_H d) (dt_M d) (dt_S d) 0).
Proof.
  intros Hv Hy. destruct Hv as (Hm & (n & Hn & Hd) & HH & HM & HS & Hu). apply month_days_spec in Hn as En; [|assumption]. subst n.
  unfold fromtimestamp. cbv zeta. rewrite timegm_days. set (D := ymd2ord (dt_y d) (dt_m d) (dt_d d) - EPOCH_ORD).
  set (r := 3600 * dt_H d + 60 * dt_M d + dt_S d).
  assert (Hr : 0 <= r < 86400) by (unfold r; lia).
  replace (86400 * D + 3600 * dt_H d + 60 * dt_M d + dt_S d) with (r + D * 86400) by (unfold r; lia).
  rewrite Z.div_add, Z.mod_add, Z.div_small, Z.mod_small by lia.
  replace (0 + D + EPOCH_ORD) with (ymd2ord (dt_y d) (dt_m d) (dt_d d)) by (unfold D; lia).
  rewrite ord2ymd_ymd2ord by assumption.
  assert (E1 : r / 3600 = dt_H d) by (unfold r; Z.div_mod_to_equations; lia).
  assert (E2 : r mod 3600 / 60 = dt_M d) by (unfold r; Z.div_mod_to_equations; lia).
  assert (E3 : r mod 60 = dt_S d) by (unfold r; Z.div_mod_to_equations; lia).
  rewrite E1, E2, E3. unfold mk_datetime.
  assert (E : dt_valid (mk_dt (dt_y d) (dt_m d) (dt_d d) (dt_H d) (dt_M d) (dt_S d) 0) = true).
  { apply dt_valid_spec; [exact Hy|]. unfold valid_dt. cbn [dt_y dt_m dt_d dt_H dt_M dt_S dt_us]. repeat split; try lia. eauto. }
  now rewrite E.
Qed.

Lemma ymd_mono y m d y' m' d' : 1 <= m <= 12 -> 1 <= d <= month_days y m -> 1 <= m' <= 12 -> 1 <= d' <= month_days y' m' ->
  (y < y' \/ (y = y' /\ (m < m' \/ (m = m' /\ d < d')))) -> ymd2ord y m d < ymd2ord y' m' d'.
Proof.
  intros Hm Hd Hm' Hd' H. unfold ymd2ord.
  assert (Hdoy : forall y0 m0 d0, 1 <= m0 <= 12 -> 1 <= d0 <= month_days y0 m0 -> 1 <= days_before_month y0 m0 + d0 <= 365 + (if isleap y0 then 1 else 0)).
  { intros y0 m0 d0 H1 H2. unfold days_before_month, month_days in *.
    assert (m0 = 1 \/ m0 = 2 \/ m0 = 3 \/ m0 = 4 \/ m0 = 5 \/ m0 = 6 \/ m0 = 7 \/ m0 = 8 \/ m0 = 9 \/ m0 = 10 \/ m0 = 11 \/ m0 = 12) as Hc by lia.
    destruct Hc as [->|[->|[->|[->|[->|[->|[->|[->|[->|[->|[->| ->]]]]]]]]]]]; destruct (isleap y0); bo_in H2; bo; lia. }
  destruct H as [H|[-> H]].
  - pose proof (Hdoy y m d Hm Hd) as H1. pose proof (Hdoy y' m' d' Hm' Hd') as H2.
    assert (days_before_year y + 365 + (if isleap y then 1 else 0) <= days_before_year y'); [|lia].
    assert (days_before_year (y + 1) = days_before_year y + 365 + (if isleap y then 1 else 0)).
    { unfold days_before_year, isleap. cbv zeta. destruct ((y mod 4 =? 0) && (negb (y mod 100 =? 0) || (y mod 400 =? 0))) eqn:E; Z.div_mod_to_equations; lia. }
    assert (days_before_year (y + 1) <= days_before_year y'); [|lia].
    assert (Hmono : forall k, 0 <= k -> days_before_year (y + 1) <= days_before_year (y + 1 + k)).
    { intros k Hk. unfold days_before_year. cbv zeta. Z.div_mod_to_equations. lia. }
    replace y' with (y + 1 + (y' - y - 1)) by lia. apply Hmono. lia.
  - destruct H as [H|[-> H]]; [|lia].
    assert (days_before_month y' m + d < days_before_month y' m' + d'); [|lia]. unfold days_before_month, month_days in *.
    assert (m = 1 \/ m = 2 \/ m = 3 \/ m = 4 \/ m = 5 \/ m = 6 \/ m = 7 \/ m = 8 \/ m = 9 \/ m = 10 \/ m = 11 \/ m = 12) as Hc by lia.
    assert (m' = 1 \/ m' = 2 \/ m' = 3 \/ m' = 4 \/ m' = 5 \/ m' = 6 \/ m' = 7 \/ m' = 8 \/ m' = 9 \/ m' = 10 \/ m' = 11 \/ m' = 12) as Hc' by lia.
    destruct (isleap y'); destruct Hc as [->|[->|[->|[->|[->|[->|[->|[->|[->|[->|[->| ->]]]]]]]]]]]; bo_in Hd; bo;
    destruct Hc' as [->|[->|[->|[->|[->|[->|[->|[->|[->|[->|[->| ->]]]]]]]]]]]; bo_in Hd'; bo; lia.
Qed.

Lemma timegm_mono a b : valid_dt a -> valid_dt b -> dt_us a = dt_us b -> (dt_lt a b -> timegm a < timegm b).
Proof.
  intros (Hm & (n & Hn & Hd) & HH & HM & HS & _) (Hm' & (n' & Hn' & Hd') & HH' & HM' & HS' & _) Hu H.
  apply month_days_spec in Hn; [|assumption]. apply month_days_spec in Hn'; [|assumption]. subst n n'.
  rewrite !timegm_days. unfold dt_lt in H. cbv zeta in H.
  assert (Hc : (dt_y a < dt_y b \/ (dt_y a = dt_y b /\ (dt_m a < dt_m b \/ (dt_m a = dt_m b /\ dt_d a < dt_d b))))
    \/ (dt_y a = dt_y b /\ dt_m a = dt_m b /\ dt_d a = dt_d b /\ (3600 * dt_H a + 60 * dt_M a + dt_S a < 3600 * dt_H b + 60 * dt_M b + dt_S b))) by lia.
  destruct Hc as [Hc|(-> & -> & -> & Hc)]; [|lia].
  pose proof (ymd_mono _ _ _ _ _ _ Hm Hd Hm' Hd' Hc). lia.
Qed.

Lemma dt_lt_total a b : dt_lt a b \/ a = b \/ dt_lt b a.
Proof.
  destruct a as [y m d H M S u], b as [y' m' d' H' M' S' u']. unfold dt_lt. cbn [dt_y dt_m dt_d dt_H dt_M dt_S dt_us]. cbv zeta.
  destruct (Z.lt_trichotomy y y') as [?|[->|?]]; [tauto| |tauto].
  destruct (Z.lt_trichotomy m m') as [?|[->|?]]; [tauto| |tauto].
  destruct (Z.lt_trichotomy d d') as [?|[->|?]]; [tauto| |tauto].
  destruct (Z.lt_trichotomy H H') as [?|[->|?]]; [tauto| |tauto].
  destruct (Z.lt_trichotomy M M') as [?|[->|?]]; [tauto| |tauto].
  destruct (Z.lt_trichotomy S S') as [?|[->|?]]; [tauto| |tauto].
  destruct (Z.lt_trichotomy u u') as [?|[->|?]]; [tauto| |]; tauto.
Qed.

(** fixed-width digits are ordered like numbers *)
Lemma str_lt_app a : forall b x y, List.length a = List.length b -> (str_lt (a ++ x) (b ++ y) <-> str_lt a b \/ (a = b /\ str_lt x y)).
Proof.
  induction a as [|c a IH]; intros [|c' b] x y Hl; cbn [app str_lt List.length] in *; try discriminate.
  - tauto.
  - injection Hl as Hl. specialize (IH b x y Hl). rewrite IH. split.
    + intros [H|[-> [H|[-> H]]]]; auto.
    + intros [[H|[-> H]]|[E H]]; auto. injection E as -> ->. auto.
Qed.
Lemma fixed_inj w : forall a b, 0 <= a < p10 w -> 0 <= b < p10 w -> fixed w a = fixed w b -> a = b.
Proof.
  intros a b Ha Hb E. destruct w as [|w]; [unfold p10 in *; cbn in *; lia|].
  pose proof (py_int_fixed (S w) a ltac:(lia) Ha) as E1. rewrite E, (py_int_fixed (S w) b ltac:(lia) Hb) in E1. congruence.
Qed.
Lemma fixed_lt w : forall a b, 0 <= a < p10 w -> 0 <= b < p10 w -> (str_lt (fixed w a) (fixed w b) <-> a < b).
Proof.
  induction w as [|w IH]; intros a b Ha Hb.
  - unfold p10 in *. cbn in *. lia.
  - rewrite p10_S in *. cbn [fixed]. rewrite str_lt_app by now rewrite !fixed_length.
    rewrite IH by (Z.div_mod_to_equations; lia).
    assert (Hinj : fixed w (a / 10) = fixed w (b / 10) <-> a / 10 = b / 10).
    { split; [|congruence]. apply fixed_inj; Z.div_mod_to_equations; lia. }
    rewrite Hinj. cbn [str_lt]. Z.div_mod_to_equations. lia.
Qed.

Lemma ts14_lt a b : ts_ok a -> ts_ok b -> (str_lt (ts14 a) (ts14 b) <-> dt_lt a b).
Proof.
  intros Ha Hb. apply ts_ok_bounds in Ha as (? & ? & ? & ? & ? & ? & Hua). apply ts_ok_bounds in Hb as (? & ? & ? & ? & ? & ? & Hub).
  pose proof (month_days_range (dt_y a) (dt_m a)). pose proof (month_days_range (dt_y b) (dt_m b)).
  destruct value_p10 as (P2 & P4 & _). unfold ts14, dt_lt. cbv zeta.
  rewrite !str_lt_app by now rewrite !fixed_length. rewrite !fixed_lt by lia.
  assert (I4 : fixed 4 (dt_y a) = fixed 4 (dt_y b) <-> dt_y a = dt_y b) by (split; [apply fixed_inj; lia|congruence]).
  assert (I2 : forall p q, 0 <= p < 100 -> 0 <= q < 100 -> (fixed 2 p = fixed 2 q <-> p = q)) by (intros; split; [apply fixed_inj; lia|congruence]).
  rewrite I4, !I2 by lia. rewrite Hua, Hub. lia.
Qed.
