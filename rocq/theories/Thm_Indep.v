(** * Thm_Indep: proofs of the theorems restated in Props_Indep.v *)
From Coq Require Import String List ZArith NArith Bool.
From Verif Require Import PyBase Headers Streams Loader Iterator TermSpec IndepSpec Toy.
Import ListNotations.
Open Scope Z_scope.

From Verif Require Import TermProofs TermLoad TermIter AdvProofs KeepProofs IndepProofs IndepIter Thm_Term.

Lemma plain_sensible u : plain_op u -> sensible_op u.
Proof. destruct u as [[n|]|[n|]|]; exact (fun H => H). Qed.
Lemma prog_sensible prog : plain_prog prog -> forall j, Forall sensible_op (prog j).
Proof. intros H j. eapply Forall_impl; [|exact (H j)]. exact plain_sensible. Qed.
Lemma all_plain : plain_prog read_all.
Proof. intros k. constructor; [exact I|constructor]. Qed.
Lemma same_agree {zl : zenv} prog k (os : list (@obs zl)) Xs oa oc :
  same_run read_all k os Xs oa -> same_run prog k os Xs oc -> Forall2 agree oa oc.
Proof.
  intros H. revert oc. induction H as [k|k a X c oa Xs oc Hr H IH]; intros od Hd; inversion Hd as [|k' a' X' c' oa' Xs' oc' Hr' Hd']; subst; [constructor|].
  constructor; [|now apply IH].
  destruct Hr as (A1 & A2 & A3 & xs & w & _ & _ & A4). specialize (A4 eq_refl).
  destruct Hr' as (B1 & B2 & B3 & ys & v & B4 & B5 & _).
  split; [congruence|congruence|congruence|]. exists X, ys, v. now split.
Qed.
Lemma new_J {zl : zenv} o data sched block known : J (zl:=zl) o (iter_new (raw_open data sched) block known).
Proof. split; [apply new_ok|]. split; [reflexivity|exact I]. Qed.
Lemma indep {zl : zenv} he o data sched block known os0 en :
  loop_ends he o read_none (@iter_new zl (raw_open data sched) block known) os0 en ->
  (forall ob, In ob os0 -> exists i, ob_info ob = Ok i) ->
  exists os, loop_ends he o read_all (@iter_new zl (raw_open data sched) block known) os en /\
    forall prog, plain_prog prog ->
      exists oc, loop_ends he o prog (@iter_new zl (raw_open data sched) block known) oc en /\ Forall2 agree os oc /\
        run_ends he o prog (@iter_new zl (raw_open data sched) block known) (map (fun ob => (ob_record ob, ob_reads ob)) oc) en.
Proof.
  intros H0 Hq. set (it := iter_new _ _ _) in *.
  destruct (runs he o 0 it (new_J o data sched block known) (or_introl eq_refl)) as (os1 & en1 & C1 & _ & H).
  pose proof (conv2_uniq _ _ _ C1 H0) as Q. injection Q as -> ->.
  destruct H as [Xs HXs]; [apply Forall_forall; exact Hq|].
  destruct (HXs read_all (prog_sensible _ all_plain)) as (os & L1 & S1 & _). exists os. split; [exact L1|].
  intros prog Hp. destruct (HXs prog (prog_sensible _ Hp)) as (oc & L2 & S2 & R2). exists oc.
  split; [exact L2|]. split; [exact (same_agree _ _ _ _ _ _ S1 S2)|]. apply R2. now exists O.
Qed.

Lemma C39_offsets_pf :
  forall (zl : zenv) (he : henv) (o : lopts) (data : bytes) (sched : list Z) (block : Z) (known : option fmt)
       (prog : nat -> list uop),
  exists os en, loop_ends he o prog (@iter_new zl (raw_open data sched) block known) os en
    /\ (forall e, en = EndExn e -> may_leave o e)
    /\ (forall ob e, In ob os -> ob_info ob = Err e \/ In (Err e) (ob_reads ob) -> may_read o e).
Proof.
intros zl he o data sched block known prog.
destruct (run_conv he o prog 0 _ (@new_ok zl o data sched block known)) as (os & en & C & H1 & H2).
exists os, en. split; [exact C|]. split.
- intros e ->. now apply Thm_Term.iter_may.
- intros ob e Hin He. rewrite Forall_forall in H1. destruct (H1 _ Hin) as [H3 H4]. apply Thm_Term.opt_may.
  destruct He as [He|He]; [now apply H3|]. rewrite Forall_forall in H4. exact (H4 _ He).
Qed.

Lemma C35_independent_pf :
  forall (zl : zenv) (he : henv) (o : lopts) (data : bytes) (sched : list Z) (block : Z) (known : option fmt),
  lo_check o = KFalse ->
  exists os en, loop_ends he o read_all (@iter_new zl (raw_open data sched) block known) os en /\
    forall prog, plain_prog prog ->
      exists oc, loop_ends he o prog (@iter_new zl (raw_open data sched) block known) oc en /\ Forall2 agree os oc /\
        run_ends he o prog (@iter_new zl (raw_open data sched) block known) (map (fun ob => (ob_record ob, ob_reads ob)) oc) en.
Proof.
intros zl he o data sched block known Hc.
destruct (runs he o 0 (@iter_new zl (raw_open data sched) block known) (new_J o data sched block known) (or_introl eq_refl))
  as (os1 & en1 & C1 & Hq & _).
destruct (indep he o data sched block known os1 en1 C1) as (os & H1 & H2).
- specialize (Hq Hc). rewrite Forall_forall in Hq. exact Hq.
- now exists os, en1.
Qed.

Lemma C35_checked_pf :
  forall (zl : zenv) (he : henv) (o : lopts) (data : bytes) (sched : list Z) (block : Z) (known : option fmt) os0 en,
  loop_ends he o read_none (@iter_new zl (raw_open data sched) block known) os0 en ->
  (forall ob, In ob os0 -> exists i, ob_info ob = Ok i) ->
  exists os, loop_ends he o read_all (@iter_new zl (raw_open data sched) block known) os en /\
    forall prog, plain_prog prog ->
      exists oc, loop_ends he o prog (@iter_new zl (raw_open data sched) block known) oc en /\ Forall2 agree os oc /\
        run_ends he o prog (@iter_new zl (raw_open data sched) block known) (map (fun ob => (ob_record ob, ob_reads ob)) oc) en.
Proof.
intros zl he o data sched block known os0 en H0 Hq. exact (indep he o data sched block known os0 en H0 Hq).
Qed.

Lemma C35_negative_refuted_pf :
  exists data k, forall fuel, (200 <= fuel)%nat ->
  length (fst (consumer (zl:=toy_z) fuel toy_henv (mk_lopts false false false false KFalse (lit "u")) fuel read_none 0
            (iter_new (raw_open data []) 64 None))) = 2%nat /\
  length (fst (consumer (zl:=toy_z) fuel toy_henv (mk_lopts false false false false KFalse (lit "u")) fuel
            (fun _ => repeat (UReadline (Some (-1))) k) 0 (iter_new (raw_open data []) 64 None))) = 1%nat.
Proof.
exists (lit "WARC/1.0" ++ crlf ++ lit "WARC-Type: resource" ++ crlf ++ lit "Content-Length: 2" ++ crlf ++ crlf ++ lit "ab" ++ crlf ++ crlf ++
        lit "WARC/1.0" ++ crlf ++ lit "WARC-Type: resource" ++ crlf ++ lit "Content-Length: 2" ++ crlf ++ crlf ++ lit "cd" ++ crlf ++ crlf), 8%nat.
intros fuel Hf. replace fuel with (200 + (fuel - 200))%nat by (rewrite PeanoNat.Nat.add_comm; apply PeanoNat.Nat.sub_add; exact Hf).
split; vm_compute; reflexivity.
Qed.

Lemma C35_raise_refuted_pf :
  exists data, forall fuel, (200 <= fuel)%nat ->
  consumer (zl:=toy_z) fuel toy_henv (mk_lopts false false false false KRaise (lit "u")) fuel read_none 0
    (iter_new (raw_open data []) 64 None) =
    (firstn 1 (map (fun x => (fst x, [])) (fst (consumer (zl:=toy_z) fuel toy_henv (mk_lopts false false false false KRaise (lit "u")) fuel read_all 0
       (iter_new (raw_open data []) 64 None)))), EndExn ArchiveLoadFailed) /\
  let r := consumer (zl:=toy_z) fuel toy_henv (mk_lopts false false false false KRaise (lit "u")) fuel read_all 0
    (iter_new (raw_open data []) 64 None) in
  map snd (fst r) = [[Err ArchiveLoadFailed]; [Ok (lit "cd")]] /\ snd r = EndStop.
Proof.
exists (lit "WARC/1.0" ++ crlf ++ lit "WARC-Type: resource" ++ crlf ++ lit "Content-Length: 2" ++ crlf ++ lit "WARC-Block-Digest: sha1:AAAA" ++ crlf ++ crlf ++ lit "ab" ++ crlf ++ crlf ++
        lit "WARC/1.0" ++ crlf ++ lit "WARC-Type: resource" ++ crlf ++ lit "Content-Length: 2" ++ crlf ++ crlf ++ lit "cd" ++ crlf ++ crlf).
intros fuel Hf. replace fuel with (200 + (fuel - 200))%nat by (rewrite PeanoNat.Nat.add_comm; apply PeanoNat.Nat.sub_add; exact Hf).
split; [|split]; vm_compute; reflexivity.
Qed.
