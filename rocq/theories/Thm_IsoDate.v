(** * Thm_IsoDate: proofs of the theorems restated in Props_IsoDate.v *)
From Coq Require Import String List ZArith NArith Bool Lia.
From Coq Require Import ZifyBool ZifyNat ZifyN.
From Verif Require Import PyBase TimeUtils TimeSpec.
Import ListNotations.
Open Scope Z_scope.

From Verif Require Import Facts TimeProofs Thm_Time.

(** an ASCII digit; an ASCII character that is not a digit; a number *)
Definition digit (c : N) : Prop := (48 <= c <= 57)%N.
Definition separator (c : N) : Prop := (c < 128)%N /\ ~ digit c.
Definition digits (g : str) : Prop := g <> [] /\ Forall digit g.
Definition number (g : str) : Z := fold_left (fun a c => 10 * a + (Z.of_N c - 48)) g 0.
(** [s] consists of the numbers [gs] with one separator between each two of them, and possibly
    one at the end *)
Fixpoint numbers (gs : list str) (s : str) : Prop :=
  match gs with
  | [] => False
  | [g] => digits g /\ (s = g \/ exists c, separator c /\ s = g ++ [c])
  | g :: gs' => exists c s', digits g /\ separator c /\ s = g ++ c :: s' /\ numbers gs' s'
  end.
(** the date-time if it exists, ValueError otherwise *)
Definition date_or_error (r : res dt) (d : dt) : Prop :=
  (valid_dt d /\ 1 <= dt_y d <= 9999 /\ r = Ok d)
  \/ (~ (valid_dt d /\ 1 <= dt_y d <= 9999) /\ r = Err ValueErr).

Lemma digit_is g : Forall digit g -> forallb is_digit g = true.
Proof. intros H. rewrite forallb_forall. rewrite Forall_forall in H. intros c Hc. specialize (H c Hc). unfold digit in H. unfold is_digit. lia. Qed.
Lemma sep_nd c : separator c -> negb (is_nd c) = true.
Proof.
  intros [H1 H2]. unfold is_nd, nd_val. enough (E : find (fun z => (z <=? c) && (c <=? z + 9))%N nd_zeros = None) by now rewrite E.
  assert (G : forall l, forallb (fun z => (z =? 48)%N || (128 <=? z)%N) l = true -> find (fun z => (z <=? c) && (c <=? z + 9))%N l = None).
  { induction l as [|z l IH]; [reflexivity|]. cbn [forallb find]. intros E. apply andb_true_iff in E as [E1 E2]. rewrite (IH E2).
    unfold digit in H2. now replace ((z <=? c)%N && (c <=? z + 9)%N) with false by lia. }
  apply G. reflexivity.
Qed.
Lemma number_value g : number g = value 0 g.
Proof.
  unfold number. generalize 0. induction g as [|c g IH]; intros a; [reflexivity|]. cbn [fold_left value]. rewrite IH. f_equal. unfold dval. lia.
Qed.
Lemma digits_int g : digits g -> py_int g = Some (number g).
Proof. intros [H1 H2]. rewrite number_value. apply py_int_digits; [exact H1|now apply digit_is]. Qed.
Lemma numbers_split : forall gs s, numbers gs s -> (split_on (fun c => negb (is_nd c)) s = gs \/ split_on (fun c => negb (is_nd c)) s = gs ++ [[]]) /\ Forall digits gs.
Proof.
  induction gs as [|g gs IH]; intros s H; [contradiction|]. destruct gs as [|g2 gs].
  - destruct H as [Hg [->|(c & Hc & ->)]]; (split; [|auto]).
    + left. apply split_on_last. apply digits_nd, digit_is, Hg.
    + right. rewrite split_on_sep; [reflexivity|apply digits_nd, digit_is, Hg|now apply sep_nd].
  - destruct H as (c & s' & Hg & Hc & -> & Hs). destruct (IH s' Hs) as [HS HF]. split; [|auto].
    rewrite split_on_sep; [|apply digits_nd, digit_is, Hg|now apply sep_nd]. cbn [app]. destruct HS as [->| ->]; auto.
Qed.
Definition seven (gs : list str) : list str :=
  match gs with [a; b; c; d; e; f; g] => let g := takeZ 6 g in [a; b; c; d; e; f; g ++ dropZ (lenZ g) PAD_MICRO] | _ => gs end.
Lemma drop_last (l : list (list N)) : ~ In [] l -> match rev l with [] :: r => rev r | _ => l end = l.
Proof.
  intros H. destruct (rev l) as [|[|x y] r] eqn:E; [reflexivity| |reflexivity]. exfalso. apply H. apply (proj2 (in_rev l [])). rewrite E. apply in_eq.
Qed.
Lemma numbers_nums gs s : numbers gs s -> iso_nums s = seven gs /\ Forall digits gs.
Proof.
  intros H. destruct (numbers_split gs s H) as [HS HF]. split; [|exact HF]. unfold iso_nums. fold (seven).
  assert (E : match rev (split_on (fun c => negb (is_nd c)) s) with [] :: r => rev r | _ => split_on (fun c => negb (is_nd c)) s end = gs).
  { destruct HS as [->| ->].
    - apply drop_last. intros H0. rewrite Forall_forall in HF. destruct (HF [] H0) as [X _]. contradiction.
    - rewrite rev_app_distr. cbn [rev app]. now rewrite rev_involutive. }
  cbv zeta. rewrite E. reflexivity.
Qed.
Lemma ints_map gs : Forall digits gs -> ints_of gs = Some (map number gs).
Proof. induction 1 as [|g gs Hg _ IH]; [reflexivity|]. cbn [ints_of map]. now rewrite (digits_int g Hg), IH. Qed.
Lemma mk_or_error d : date_or_error (mk_datetime d) d.
Proof.
  unfold mk_datetime, date_or_error. destruct (dt_valid d) eqn:E.
  - left. assert (1 <= dt_y d <= 9999) by (unfold dt_valid in E; lia). split; [now apply dt_valid_spec|auto].
  - right. split; [|reflexivity]. intros [H1 H2]. apply dt_valid_spec in H1; [|exact H2]. congruence.
Qed.

Lemma C101_read_pf :
  forall gs s, numbers gs s -> (3 <= List.length gs <= 6)%nat ->
  let f := fun i => nth i (map number gs) 0 in
  date_or_error (iso_date_to_datetime s) (mk_dt (f 0%nat) (f 1%nat) (f 2%nat) (f 3%nat) (f 4%nat) (f 5%nat) 0).
Proof.
intros gs s H HL f. destruct (numbers_nums gs s H) as [E HF]. unfold iso_date_to_datetime. rewrite E.
assert (E7 : seven gs = gs) by (do 8 (destruct gs as [|? gs]; try reflexivity); cbn in HL; lia). rewrite E7, (ints_map gs HF). unfold f.
do 3 (destruct gs as [|? gs]; [cbn in HL; lia|]). do 4 (destruct gs as [|? gs]; [cbn [map nth]; apply mk_or_error|]). cbn in HL. lia.
Qed.

Lemma C101_fraction_pf :
  forall a b c d e g fr s, numbers [a; b; c; d; e; g; fr] s ->
  date_or_error (iso_date_to_datetime s)
    (mk_dt (number a) (number b) (number c) (number d) (number e) (number g) (number (takeZ 6 (fr ++ lit "000000")))).
Proof.
intros a b c d e g fr s H. destruct (numbers_nums _ s H) as [E HF]. unfold iso_date_to_datetime. rewrite E. unfold seven. cbv zeta.
assert (Hf : digits fr) by (rewrite Forall_forall in HF; apply HF; cbn; auto 10).
assert (Eg : takeZ 6 fr ++ dropZ (lenZ (takeZ 6 fr)) PAD_MICRO = takeZ 6 (fr ++ lit "000000")).
{ destruct Hf as [Hne _]. change PAD_MICRO with (lit "000000"). pose proof (lenZ_nonneg fr).
  destruct (Z.leb_spec 6 (lenZ fr)) as [Hl|Hl].
  - rewrite takeZ_app_le by assumption. rewrite dropZ_all; [now rewrite app_nil_r|]. rewrite lenZ_takeZ by lia. change (lenZ (lit "000000")) with 6. lia.
  - rewrite takeZ_app_ge by lia. rewrite (takeZ_all 6 fr) by lia. f_equal.
    assert (Hf6 : lenZ fr = 1 \/ lenZ fr = 2 \/ lenZ fr = 3 \/ lenZ fr = 4 \/ lenZ fr = 5).
    { assert (0 < lenZ fr) by (destruct fr; [contradiction|rewrite lenZ_cons; pose proof (lenZ_nonneg fr); lia]). lia. }
    destruct Hf6 as [->|[->|[->|[->| ->]]]]; reflexivity. }
rewrite Eg. set (g7 := takeZ 6 (fr ++ lit "000000")).
assert (Hg : digits g7).
{ destruct Hf as [Hne Hd]. split.
  - intros E0. assert (L : lenZ g7 = 6) by (unfold g7; rewrite lenZ_takeZ by lia; rewrite lenZ_app; change (lenZ (lit "000000")) with 6; pose proof (lenZ_nonneg fr); lia).
    rewrite E0 in L. cbn in L. lia.
  - unfold g7. rewrite Forall_forall in *. intros x Hx. assert (Hx' : In x (fr ++ lit "000000")) by (rewrite <- (takeZ_dropZ 6 (fr ++ lit "000000")); apply in_or_app; now left).
    apply in_app_or in Hx' as [Hx'|Hx']; [auto|]. cbn in Hx'. unfold digit. intuition subst; lia. }
assert (HF' : Forall digits [a; b; c; d; e; g; g7]) by (rewrite Forall_forall in *; cbn [In] in *; intros x Hx; repeat destruct Hx as [Hx|Hx]; subst; auto 10; contradiction).
rewrite (ints_map _ HF'). cbn [map]. apply mk_or_error.
Qed.

Lemma C101_count_pf :
  forall gs s, numbers gs s -> (List.length gs < 3 \/ 7 < List.length gs)%nat -> iso_date_to_datetime s = Err TypeErr.
Proof.
intros gs s H HL. destruct (numbers_nums gs s H) as [E HF]. unfold iso_date_to_datetime. rewrite E.
assert (E7 : seven gs = gs) by (do 8 (destruct gs as [|? gs]; try reflexivity); cbn in HL; lia). rewrite E7, (ints_map gs HF).
do 8 (destruct gs as [|? gs]; [cbn [map]; first [reflexivity|cbn in HL; lia]|]). reflexivity.
Qed.

Lemma fixed_digits_spec w n : (0 < w)%nat -> digits (fixed w n).
Proof.
  intros Hw. split; [intros E; pose proof (fixed_length w n) as L; rewrite E in L; cbn in L; lia|].
  pose proof (fixed_digits w n) as D. rewrite Forall_forall. rewrite forallb_forall in D. intros c Hc. specialize (D c Hc). unfold is_digit in D. unfold digit. lia.
Qed.
Lemma sep_of c : (c < 48)%N \/ (57 < c < 128)%N -> separator c.
Proof. unfold separator, digit. lia. Qed.
Lemma number_fixed w n : (0 < w)%nat -> 0 <= n < p10 w -> number (fixed w n) = n.
Proof. intros Hw Hn. pose proof (digits_int (fixed w n) (fixed_digits_spec w n Hw)) as E. rewrite py_int_fixed in E by assumption. congruence. Qed.
Lemma number_micros om : 0 <= om <= 59 -> number (takeZ 6 (fixed 2 om ++ lit "000000")) = 10000 * om.
Proof.
  intros H. assert (E : takeZ 6 (fixed 2 om ++ lit "000000") = fixed 2 om ++ lit "0000").
  { pose proof (fixed_length 2 om) as L. destruct (fixed 2 om) as [|a [|b [|c r]]]; try discriminate. reflexivity. }
  rewrite E. unfold number. rewrite fold_left_app. fold (number (fixed 2 om)). rewrite number_fixed by (try lia; destruct value_p10 as (P2 & _); rewrite P2; lia).
  change (lit "0000") with [48; 48; 48; 48]%N. cbn [fold_left]. lia.
Qed.

Lemma C101_year_month_refuted_pf :
  forall y m, iso_date_to_datetime (fixed 4 y) = Err TypeErr /\ iso_date_to_datetime (fixed 4 y ++ lit "-" ++ fixed 2 m) = Err TypeErr.
Proof.
intros y m. split.
- apply (C101_count_pf [fixed 4 y]); [|cbn; lia]. split; [apply fixed_digits_spec; lia|now left].
- apply (C101_count_pf [fixed 4 y; fixed 2 m]); [|cbn; lia]. exists 45%N, (fixed 2 m). split; [apply fixed_digits_spec; lia|]. split; [apply sep_of; lia|]. split; [reflexivity|].
  split; [apply fixed_digits_spec; lia|now left].
Qed.

Lemma C101_offset_refuted_pf :
  forall d oh om, valid_dt d -> 1 <= dt_y d <= 9999 -> 0 <= oh <= 23 -> 0 <= om <= 59 ->
  iso_date_to_datetime (fixed 4 (dt_y d) ++ lit "-" ++ fixed 2 (dt_m d) ++ lit "-" ++ fixed 2 (dt_d d) ++ lit "T"
                        ++ fixed 2 (dt_H d) ++ lit ":" ++ fixed 2 (dt_M d) ++ lit "+" ++ fixed 2 oh ++ lit ":" ++ fixed 2 om)
  = Ok (mk_dt (dt_y d) (dt_m d) (dt_d d) (dt_H d) (dt_M d) oh (10000 * om)).
Proof.
intros d oh om Hv Hy Ho Hom. match goal with |- iso_date_to_datetime ?x = _ => set (s := x) end.
assert (N : numbers [fixed 4 (dt_y d); fixed 2 (dt_m d); fixed 2 (dt_d d); fixed 2 (dt_H d); fixed 2 (dt_M d); fixed 2 oh; fixed 2 om] s).
{ exists 45%N. eexists. split; [apply fixed_digits_spec; lia|]. split; [apply sep_of; lia|]. split; [reflexivity|].
  exists 45%N. eexists. split; [apply fixed_digits_spec; lia|]. split; [apply sep_of; lia|]. split; [reflexivity|].
  exists 84%N. eexists. split; [apply fixed_digits_spec; lia|]. split; [apply sep_of; lia|]. split; [reflexivity|].
  exists 58%N. eexists. split; [apply fixed_digits_spec; lia|]. split; [apply sep_of; lia|]. split; [reflexivity|].
  exists 43%N. eexists. split; [apply fixed_digits_spec; lia|]. split; [apply sep_of; lia|]. split; [reflexivity|].
  exists 58%N. eexists. split; [apply fixed_digits_spec; lia|]. split; [apply sep_of; lia|]. split; [reflexivity|].
  split; [apply fixed_digits_spec; lia|now left]. }
destruct (C101_fraction_pf _ _ _ _ _ _ _ s N) as [HF|HF].
- destruct HF as (_ & _ & ->). f_equal. pose proof Hv as (Hm & (n & Hn & Hd) & HH & HM & HS & Hu). apply month_days_spec in Hn; [|assumption].
  pose proof (month_days_range (dt_y d) (dt_m d)). destruct value_p10 as (P2 & P4 & _).
  rewrite !number_fixed by (try lia; rewrite ?P2, ?P4; lia). f_equal.
  now apply number_micros.
- exfalso. destruct HF as [HF _]. apply HF. clear HF. pose proof Hv as (Hm & (n & Hn & Hd) & HH & HM & HS & Hu). pose proof Hn as Hn'. apply month_days_spec in Hn'; [|assumption].
  pose proof (month_days_range (dt_y d) (dt_m d)). destruct value_p10 as (P2 & P4 & _).
  rewrite !number_fixed by (try lia; rewrite ?P2, ?P4; lia). split; [|cbn; lia]. unfold valid_dt. cbn [dt_y dt_m dt_d dt_H dt_M dt_S dt_us].
  split; [exact Hm|]. split; [eauto|]. do 3 (split; [lia|]).
  rewrite number_micros by exact Hom. lia.
Qed.
