(** * Props_Indep: iteration does not depend on what the consumer reads (C35) *)
From Coq Require Import String List ZArith NArith Bool.
From Verif Require Import PyBase Headers Streams Loader Iterator TermSpec IndepSpec Toy.
Import ListNotations.
Open Scope Z_scope.
From Verif Require Import Thm_Indep.

(** C39 for the loop that also asks for the offset and length of every record *)
Theorem C39_offsets :
  forall (zl : zenv) (he : henv) (o : lopts) (data : bytes) (sched : list Z) (block : Z) (known : option fmt)
       (prog : nat -> list uop),
  exists os en, loop_ends he o prog (@iter_new zl (raw_open data sched) block known) os en
    /\ (forall e, en = EndExn e -> may_leave o e)
    /\ (forall ob e, In ob os -> ob_info ob = Err e \/ In (Err e) (ob_reads ob) -> may_read o e).
Proof. exact C39_offsets_pf. Qed.
Print Assumptions C39_offsets.

Example C39_offsets_ex : forall data, exists os en,
  loop_ends (zl:=toy_z) toy_henv (mk_lopts false false false false KFalse (lit "u")) (fun k => [URead (Some 2)]) (iter_new (raw_open data [1; 1]) 16 None) os en.
Proof.
  intros data. destruct (C39_offsets toy_z toy_henv (mk_lopts false false false false KFalse (lit "u")) data [1; 1] 16 None (fun k => [URead (Some 2)])) as (os & en & H & _).
  eauto.
Qed.

(** C35, for every file content (gzip or not, under every codec), schedule of short reads,
    block size and option except digest checking: reading every record with one read() gives
    some sequence of records with offsets and lengths; every other sequence of read(),
    read(n), readline(), readline(n) and get_record_offset() calls, n at least 0, gives the
    same records, offsets, lengths and the same ending, and its reads return a prefix of what
    read() returned.  The last part: also for a loop that never asks for the offsets. *)
Theorem C35_independent :
  forall (zl : zenv) (he : henv) (o : lopts) (data : bytes) (sched : list Z) (block : Z) (known : option fmt),
  lo_check o = KFalse ->
  exists os en, loop_ends he o read_all (@iter_new zl (raw_open data sched) block known) os en /\
    forall prog, plain_prog prog ->
      exists oc, loop_ends he o prog (@iter_new zl (raw_open data sched) block known) oc en /\ Forall2 agree os oc /\
        run_ends he o prog (@iter_new zl (raw_open data sched) block known) (map (fun ob => (ob_record ob, ob_reads ob)) oc) en.
Proof. exact C35_independent_pf. Qed.
Print Assumptions C35_independent.

Definition x_opts (k : ckind) : lopts := mk_lopts false false false false k (lit "u").
Definition x_head (hs : list (string * string)) : bytes :=
  lit "WARC/1.0" ++ crlf ++ concat (map (fun h => lit (fst h) ++ lit ": " ++ lit (snd h) ++ crlf) hs) ++ crlf.
Definition x_two (hs : list (string * string)) : bytes :=
  x_head ([("WARC-Type", "resource"); ("Content-Length", "5")]%string ++ hs) ++ lit "ab" ++ [10%N] ++ lit "cd" ++ crlf ++ crlf ++
  x_head [("WARC-Type", "resource"); ("Content-Length", "3")]%string ++ lit "xyz" ++ crlf ++ crlf.
Definition x_it (data : bytes) : @iter toy_z := iter_new (raw_open data [3; 1]) 16 None.
Definition x_prog : nat -> list uop := fun k => match k with O => [UReadline None; URead (Some 1)] | _ => [UInfo; URead None] end.
Definition x_look (r : list (@obs toy_z) * ending) := (map (fun ob => (ob_reads ob, ob_info ob, ob_passed ob)) (fst r), snd r).
(** two records, read in full and in part; the offsets agree *)
Example C35_ex : forall os, (exists en, loop_ends (zl:=toy_z) toy_henv (x_opts KFalse) read_all (x_it (x_two [])) os en) ->
  map (fun ob => (ob_reads ob, ob_info ob)) os =
    [([Ok (lit "ab" ++ [10%N] ++ lit "cd")], Ok (Some (0, 57))); ([Ok (lit "xyz")], Ok (Some (61, 55)))] /\
  exists oc, loop_ends (zl:=toy_z) toy_henv (x_opts KFalse) x_prog (x_it (x_two [])) oc EndStop /\
    map (fun ob => (ob_reads ob, ob_info ob)) oc =
      [([Ok (lit "ab" ++ [10%N]); Ok (lit "c")], Ok (Some (0, 57))); ([Ok []; Ok []], Ok (Some (61, 55)))].
Proof.
  intros os [en [N HN]].
  assert (A : x_look (run_iter (zl:=toy_z) (200 + N) toy_henv (x_opts KFalse) (200 + N) read_all 0 (x_it (x_two []))) =
    ([([Ok (lit "ab" ++ [10%N] ++ lit "cd")], Ok (Some (0, 57)), None); ([Ok (lit "xyz")], Ok (Some (61, 55)), None)], EndStop)).
  { vm_compute. reflexivity. }
  rewrite (HN (200 + N)%nat (200 + N)%nat) in A by apply PeanoNat.Nat.le_add_l.
  unfold x_look in A. cbn [fst snd] in A. injection A as A ->.
  split.
  { apply (f_equal (map fst)) in A. rewrite map_map in A. exact A. }
  destruct (C35_independent toy_z toy_henv (x_opts KFalse) (x_two []) [3; 1] 16 None eq_refl) as (os' & en' & [M HM] & H).
  assert (E : (os, EndStop) = (os', en')).
  { rewrite <- (HN (Nat.max N M) (Nat.max N M)), <- (HM (Nat.max N M) (Nat.max N M)) by apply PeanoNat.Nat.le_max_r || apply PeanoNat.Nat.le_max_l. reflexivity. }
  injection E as <- <-.
  destruct (H x_prog) as (oc & [P HP] & _ & _).
  { intros [|k]; repeat constructor; vm_compute; discriminate. }
  exists oc. split; [now exists P|].
  assert (B : x_look (run_iter (zl:=toy_z) (200 + P) toy_henv (x_opts KFalse) (200 + P) x_prog 0 (x_it (x_two []))) =
    ([([Ok (lit "ab" ++ [10%N]); Ok (lit "c")], Ok (Some (0, 57)), None); ([Ok []; Ok []], Ok (Some (61, 55)), None)], EndStop)).
  { vm_compute. reflexivity. }
  unfold x_it in B. rewrite (HP (200 + P)%nat (200 + P)%nat) in B by apply PeanoNat.Nat.le_add_l.
  unfold x_look in B. cbn [fst snd] in B. injection B as B.
  apply (f_equal (map fst)) in B. rewrite map_map in B. exact B.
Qed.

(** C35 with digest checking of any kind: the same, if the loop that reads nothing gets every
    offset without an exception (no digest is malformed, and with 'raise' no digest fails).
    The verdicts (digest_checker.passed) agree too. *)
Theorem C35_checked :
  forall (zl : zenv) (he : henv) (o : lopts) (data : bytes) (sched : list Z) (block : Z) (known : option fmt) os0 en,
  loop_ends he o read_none (@iter_new zl (raw_open data sched) block known) os0 en ->
  (forall ob, In ob os0 -> exists i, ob_info ob = Ok i) ->
  exists os, loop_ends he o read_all (@iter_new zl (raw_open data sched) block known) os en /\
    forall prog, plain_prog prog ->
      exists oc, loop_ends he o prog (@iter_new zl (raw_open data sched) block known) oc en /\ Forall2 agree os oc /\
        run_ends he o prog (@iter_new zl (raw_open data sched) block known) (map (fun ob => (ob_record ob, ob_reads ob)) oc) en.
Proof. exact C35_checked_pf. Qed.
Print Assumptions C35_checked.

(** a digest that does not match, checked but not raised: every consumer gets the verdict False *)
Example C35_checked_ex : forall prog os en, plain_prog prog ->
  loop_ends (zl:=toy_z) toy_henv (x_opts KTrue) prog (x_it (x_two [("WARC-Block-Digest", "sha1:AAAA")]%string)) os en ->
  map ob_passed os = [Some false; None] /\ en = EndStop.
Proof.
  intros prog os en Hp [N HN].
  assert (H0 : exists os0, loop_ends (zl:=toy_z) toy_henv (x_opts KTrue) read_none (x_it (x_two [("WARC-Block-Digest", "sha1:AAAA")]%string)) os0 EndStop /\
     map ob_info os0 = [Ok (Some (0, 87)); Ok (Some (91, 55))] /\ map ob_passed os0 = [Some false; None]).
  { destruct (C39_offsets toy_z toy_henv (x_opts KTrue) (x_two [("WARC-Block-Digest", "sha1:AAAA")]%string) [3; 1] 16 None read_none) as (os0 & en0 & [M HM] & _).
    assert (A : x_look (run_iter (zl:=toy_z) (200 + M) toy_henv (x_opts KTrue) (200 + M) read_none 0 (x_it (x_two [("WARC-Block-Digest", "sha1:AAAA")]%string))) =
      ([([], Ok (Some (0, 87)), Some false); ([], Ok (Some (91, 55)), None)], EndStop)) by (vm_compute; reflexivity).
    unfold x_it in A. rewrite (HM (200 + M)%nat (200 + M)%nat) in A by apply PeanoNat.Nat.le_add_l.
    unfold x_look in A. cbn [fst snd] in A. injection A as A ->. exists os0. split; [now exists M|].
    split.
    - apply (f_equal (map (fun x => snd (fst x)))) in A. rewrite map_map in A. exact A.
    - apply (f_equal (map snd)) in A. rewrite map_map in A. exact A. }
  destruct H0 as (os0 & L0 & I0 & P0).
  destruct (C35_checked toy_z toy_henv (x_opts KTrue) (x_two [("WARC-Block-Digest", "sha1:AAAA")]%string) [3; 1] 16 None os0 EndStop L0) as (osr & _ & H).
  { intros ob Hin. apply (in_map ob_info) in Hin. rewrite I0 in Hin. destruct Hin as [<-|[<-|[]]]; eauto. }
  assert (G : forall p oc e, loop_ends (zl:=toy_z) toy_henv (x_opts KTrue) p (x_it (x_two [("WARC-Block-Digest", "sha1:AAAA")]%string)) oc e -> plain_prog p ->
     map ob_passed oc = map ob_passed osr /\ e = EndStop).
  { intros p oc e [P HP] Hpp. destruct (H p Hpp) as (oc' & [Q HQ] & F & _).
    assert (E : (oc, e) = (oc', EndStop)).
    { rewrite <- (HP (Nat.max P Q) (Nat.max P Q)), <- (HQ (Nat.max P Q) (Nat.max P Q)) by apply PeanoNat.Nat.le_max_r || apply PeanoNat.Nat.le_max_l. reflexivity. }
    injection E as -> ->. split; [|reflexivity]. clear -F. induction F as [|a c la lc Hac F IH]; [reflexivity|].
    cbn [map]. f_equal; [apply Hac|exact IH]. }
  destruct (G read_none os0 EndStop L0) as [G1 _]; [intros k; constructor|].
  destruct (G prog os en (ex_intro _ N HN) Hp) as [G2 G3]. split; [congruence|exact G3].
Qed.

(** C35 is false for a negative size: readline(-1) on a record's stream reads on past the
    record (LimitReader takes min(-1, limit)), so a consumer that uses it loses the following
    records *)
Theorem C35_negative_refuted :
  exists data k, forall fuel, (200 <= fuel)%nat ->
  length (fst (consumer (zl:=toy_z) fuel toy_henv (mk_lopts false false false false KFalse (lit "u")) fuel read_none 0
            (iter_new (raw_open data []) 64 None))) = 2%nat /\
  length (fst (consumer (zl:=toy_z) fuel toy_henv (mk_lopts false false false false KFalse (lit "u")) fuel
            (fun _ => repeat (UReadline (Some (-1))) k) 0 (iter_new (raw_open data []) 64 None))) = 1%nat.
Proof. exact C35_negative_refuted_pf. Qed.
Print Assumptions C35_negative_refuted.

(** C35 is false with check_digests='raise' and a digest that does not match: a consumer that
    reads the record gets the exception from its own read, and, if it catches it, goes on to
    the following records; for one that does not read, next() raises and the loop is over *)
Theorem C35_raise_refuted :
  exists data, forall fuel, (200 <= fuel)%nat ->
  consumer (zl:=toy_z) fuel toy_henv (mk_lopts false false false false KRaise (lit "u")) fuel read_none 0
    (iter_new (raw_open data []) 64 None) =
    (firstn 1 (map (fun x => (fst x, [])) (fst (consumer (zl:=toy_z) fuel toy_henv (mk_lopts false false false false KRaise (lit "u")) fuel read_all 0
       (iter_new (raw_open data []) 64 None)))), EndExn ArchiveLoadFailed) /\
  let r := consumer (zl:=toy_z) fuel toy_henv (mk_lopts false false false false KRaise (lit "u")) fuel read_all 0
    (iter_new (raw_open data []) 64 None) in
  map snd (fst r) = [[Err ArchiveLoadFailed]; [Ok (lit "cd")]] /\ snd r = EndStop.
Proof. exact C35_raise_refuted_pf. Qed.
Print Assumptions C35_raise_refuted.
