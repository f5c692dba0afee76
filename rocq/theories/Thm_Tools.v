(** * Thm_Tools: proofs of the theorems restated in Props_Tools.v *)
From Coq Require Import String List ZArith NArith Bool.
From Verif Require Import PyBase Headers Streams Loader Iterator Writer Cli TermSpec ReadSpec ToolsSpec Toy.
Import ListNotations.
Open Scope Z_scope.

From Verif Require Import TermProofs TermLoad TermIter TermContent TermRead TermTools.

Lemma opt_may o e : opt_exn o e -> may_read o e.
Proof.
  intros [H1 [[-> H2]| ->]]; [left; now split|right]. split; [|reflexivity]. intros H. rewrite H in H1. discriminate.
Qed.
Lemma iter_may o e : iter_exn o e -> may_leave o e.
Proof.
  intros [->|[[H1 [[-> _]| ->]]|[H1 [->|[H2 H3]]]]].
  - now left.
  - now left.
  - right. right. right. split; [|reflexivity]. intros H. rewrite H in H1. discriminate.
  - right. left. now split.
  - right. right. left. now split.
Qed.
Lemma starts_app (p s : str) : startswith p s = true -> exists t, s = p ++ t.
Proof.
  revert s. induction p as [|a p IH]; intros [|c s] H; try discriminate; cbn [app]; [now exists []|now exists (c :: s)|].
  cbn [startswith] in H. apply andb_prop in H. destruct H as [H1 H2]. apply N.eqb_eq in H1. subst c.
  destruct (IH _ H2) as [t ->]. now exists t.
Qed.
Lemma parse_wants fields : record_parse fields = true -> wants_http fields.
Proof.
  unfold record_parse. rewrite existsb_exists. intros (g & H1 & H2). destruct (starts_app _ _ H2) as [t ->]. now exists (lit "http:" ++ t), t.
Qed.
Lemma check_loop_bit {zl : zenv} f he o verbose name n : forall printed ev (it : @iter zl) x v ms,
  check_loop f he n o verbose name printed ev it = (x, v, ms) -> ev = 0 \/ ev = 1 -> v = 0 \/ v = 1.
Proof.
  induction n as [|n IH]; intros printed ev it x v ms H Hev; cbn [check_loop] in H; [now injection H as _ <- _|].
  destruct (iter_next f he o it) as [[[rc|]|e] it1]; [|now injection H as _ <- _|now injection H as _ <- _].
  cbn zeta in H. destruct (read_entire f f _) as [[u|e] c]; [|now injection H as _ <- _].
  cbn zeta in H. destruct (get_offset_length f _) as [[info|e] it2]; [|now injection H as _ <- _].
  cbn zeta in H.
  match type of H with context [check_loop f he n o verbose name ?a ?b it2] => destruct (check_loop f he n o verbose name a b it2) as [[x' v'] ms'] eqn:E end.
  injection H as _ <- _. eapply IH; [exact E|].
  destruct (dc_passed _) as [[|]|]; [exact Hev|now right|exact Hev].
Qed.
Lemma check_all_bit {zl : zenv} f he n verbose uuid files : forall ev v ms,
  @check_all zl f he n verbose uuid ev files = (Ok v, ms) -> ev = 0 \/ ev = 1 -> v = 0 \/ v = 1.
Proof.
  induction files as [|[name r] files IH]; intros ev v ms H Hev; cbn [check_all] in H; [now injection H as <- _|].
  destruct (check_loop f he n (check_opts uuid) verbose name false ev (iter_new r BUFF_SIZE None)) as [[x v'] ms'] eqn:E.
  destruct x as [u|e].
  - destruct (check_all f he n verbose uuid v' files) as [x2 ms2] eqn:E2. injection H as -> _.
    eapply IH; [exact E2|]. eapply check_loop_bit; eassumption.
  - destruct e; try discriminate. destruct (check_all f he n verbose uuid 1 files) as [x2 ms2] eqn:E2. injection H as -> _.
    eapply IH; [exact E2|now right].
Qed.

Lemma C79_content_ends_pf :
  forall (zl : zenv) (he : henv) (o : lopts) (data : bytes) (sched : list Z) (block : Z) (known : option fmt)
       (prog : nat -> list act),
  exists os en, reading_ends he o prog (@iter_new zl (raw_open data sched) block known) os en
    /\ (forall e, en = EndExn e -> may_leave o e)
    /\ (forall rc xs e, In (rc, xs) os -> In (Err e) xs -> may_read o e).
Proof.
intros zl he o data sched block known prog.
destruct (reading_conv he o prog 0 _ (@new_ok zl o data sched block known)) as (os & en & C & H1 & H2).
exists os, en. split; [exact C|]. split.
- intros e ->. now apply iter_may.
- intros rc xs e Hin He. rewrite Forall_forall in H1. specialize (H1 _ Hin). cbn [snd] in H1.
  rewrite Forall_forall in H1. exact (opt_may _ _ (H1 _ He)).
Qed.

Lemma C80_index_ends_pf :
  forall (zl : zenv) (he : henv) (verify : bool) (uuid : str) (fields : list str) (files : list (str * raw)),
  exists ds en, ends (fun n f => @index_all zl f he n verify uuid fields files) (ds, en)
    /\ (forall e, en = EndExn e -> index_may verify fields e).
Proof.
intros zl he verify uuid fields files. destruct (@index_all_c zl he verify uuid fields files) as (ds & en & C & H).
exists ds, en. split; [exact C|]. intros e ->. destruct H as [->|[[H _]|[H1 H2]]].
- now left.
- discriminate.
- right. cbn [index_opts lo_norec lo_verify] in *. split; [|exact H2]. apply parse_wants. now destruct (record_parse fields).
Qed.

Lemma C80_check_ends_pf :
  forall (zl : zenv) (he : henv) (verbose : bool) (uuid : str) (files : list (str * raw)),
  exists x ms, ends (fun n f => @check_all zl f he n verbose uuid 0 files) (x, ms)
    /\ match x with Ok status => status = 0 \/ status = 1 | Err e => check_may e end.
Proof.
intros zl he verbose uuid files. destruct (@check_all_c zl he verbose uuid files 0) as (x & ms & C & H).
exists x, ms. split; [exact C|]. destruct x as [status|e].
- destruct C as [N HN]. specialize (HN N N (PeanoNat.Nat.le_refl _) (PeanoNat.Nat.le_refl _)).
  exact (check_all_bit _ _ _ _ _ _ _ _ _ HN (or_introl eq_refl)).
- destruct H as [H1 H2]. destruct H1 as [->|[[_ [[-> _]| ->]]|[_ [->|[H _]]]]]; try contradiction; try discriminate; [now right|now left].
Qed.

Lemma C80_extract_ends_pf :
  forall (zl : zenv) (he : henv) (uuid : str) (payload headers : bool) (data : bytes) (sched : list Z) (off : Z),
  exists x ws, ends (fun _ f => @extract zl f he uuid payload headers (seek_file data sched off)) (x, ws)
    /\ (forall e, x = XExn e -> copy_may e).
Proof.
intros zl he uuid p h data sched off. destruct (@extract_c zl he uuid p h (seek_file data sched off)) as (x & ws & [N HN] & H).
exists x, ws. split; [exists N; intros n f _ Hf; now apply HN|]. intros e ->.
destruct H as [[->|[[H _]|[_ [->|[H _]]]]]| ->]; try discriminate; unfold copy_may; auto.
Qed.

Lemma C80_recompress_ends_pf :
  forall (zl : zenv) (he : henv) (sha1 : bytes -> bytes) (k : kenv) (uuid : str) (size : Z) (data : bytes),
  exists x, ends (fun n f => @recompress zl f he n sha1 k uuid size data) x
    /\ (forall e, x = RcFailed e -> copy_may e).
Proof.
intros zl he sha1 k uuid size data. destruct (@recompress_c zl he sha1 k uuid size data) as (x & C & H).
exists x. split; [exact C|]. intros e ->.
destruct H as [[->|[[H _]|[_ [->|[H _]]]]]| ->]; try discriminate; unfold copy_may; auto.
Qed.
