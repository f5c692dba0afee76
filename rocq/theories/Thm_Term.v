(** * Thm_Term: proofs of the theorems restated in Props_Term.v *)
From Coq Require Import String List ZArith NArith Bool.
From Verif Require Import PyBase Headers Streams Loader Iterator TermSpec Toy.
Import ListNotations.
Open Scope Z_scope.

From Verif Require Import TermProofs TermLoad TermIter.

Lemma opt_may o e : opt_exn o e -> may_read o e.
Proof.
  intros [H1 [[-> H2]| ->]]; [left; now split|right]. split; [|reflexivity]. intros H. rewrite H in H1. discriminate.
Qed.
Lemma iter_may o e : iter_exn o e -> may_leave o e.
Proof.
  intros [->|[[H1 [[-> _]| ->]]|[H1 [->|[H2 H3]]]]].
  - now left.
  - now left.
  - right. right. right. split; [|reflexivity]. intros H. rewrite H in H1. discriminate.
  - right. left. now split.
  - right. right. left. now split.
Qed.
Lemma may_not_fuel o e : may_leave o e -> e <> OutOfFuel.
Proof. intros [->|[[_ ->]|[[_ [_ [l ->]]]|[_ ->]]]]; discriminate. Qed.
Lemma may_read_not_fuel o e : may_read o e -> e <> OutOfFuel.
Proof. intros [[_ ->]|[_ ->]]; discriminate. Qed.
Lemma run_all {zl : zenv} he o prog (it : @iter zl) data sched block known :
  it = iter_new (raw_open data sched) block known ->
  exists os en, run_ends he o prog it os en /\
    (forall rc xs e, In (rc, xs) os -> In (Err e) xs -> may_read o e) /\
    match en with EndStop => True | EndExn e => may_leave o e end.
Proof.
  intros ->. destruct (consumer_conv he o prog 0 _ (@new_ok zl o data sched block known)) as (os & en & C & H1 & H2).
  exists os, en. split; [exact C|]. split.
  - intros rc xs e Hin He. rewrite Forall_forall in H1. specialize (H1 _ Hin). cbn [snd] in H1.
    rewrite Forall_forall in H1. exact (opt_may _ _ (H1 _ He)).
  - destruct en as [|e]; [exact I|]. now apply iter_may.
Qed.

Lemma C39_terminates_pf :
  forall (zl : zenv) (he : henv) (o : lopts) (data : bytes) (sched : list Z) (block : Z) (known : option fmt)
       (prog : nat -> list uop),
  exists os en, run_ends he o prog (@iter_new zl (raw_open data sched) block known) os en
    /\ en <> EndExn OutOfFuel
    /\ (forall rc xs, In (rc, xs) os -> ~ In (Err OutOfFuel) xs).
Proof.
intros zl he o data sched block known prog.
destruct (@run_all zl he o prog _ data sched block known eq_refl) as (os & en & H1 & H2 & H3).
exists os, en. split; [exact H1|]. split.
- intros ->. exact (may_not_fuel _ _ H3 eq_refl).
- intros rc xs Hin He. exact (may_read_not_fuel _ _ (H2 _ _ _ Hin He) eq_refl).
Qed.

Lemma C41_exceptions_partial_pf :
  forall (zl : zenv) (he : henv) (o : lopts) (data : bytes) (sched : list Z) (block : Z) (known : option fmt)
       (prog : nat -> list uop) os en,
  run_ends he o prog (@iter_new zl (raw_open data sched) block known) os en ->
  (forall e, en = EndExn e -> may_leave o e) /\
  (forall rc xs e, In (rc, xs) os -> In (Err e) xs -> may_read o e).
Proof.
intros zl he o data sched block known prog os en [N HN].
destruct (@run_all zl he o prog _ data sched block known eq_refl) as (os' & en' & [M HM] & H2 & H3).
specialize (HN (Nat.max N M) (Nat.max N M) (PeanoNat.Nat.le_max_l _ _) (PeanoNat.Nat.le_max_l _ _)).
specialize (HM (Nat.max N M) (Nat.max N M) (PeanoNat.Nat.le_max_r _ _) (PeanoNat.Nat.le_max_r _ _)).
rewrite HN in HM. injection HM as <- <-. split; [|exact H2]. intros e ->. exact H3.
Qed.

Lemma C41_raw_records_pf :
  forall (zl : zenv) (he : henv) (o : lopts) (data : bytes) (sched : list Z) (block : Z) (known : option fmt)
       (prog : nat -> list uop),
  lo_norec o = true -> lo_check o = KFalse ->
  exists os en, run_ends he o prog (@iter_new zl (raw_open data sched) block known) os en
    /\ (en = EndStop \/ en = EndExn ArchiveLoadFailed).
Proof.
intros zl he o data sched block known prog Hn Hc.
destruct (@run_all zl he o prog _ data sched block known eq_refl) as (os & en & H1 & _ & H3).
exists os, en. split; [exact H1|]. destruct en as [|e]; [now left|]. right.
destruct H3 as [->|[[H _]|[[H _]|[H _]]]]; congruence.
Qed.
