(** * Props_Term: iteration over arbitrary data: it ends (C39), and what it can raise (C41) *)
From Coq Require Import String List ZArith NArith Bool.
From Verif Require Import PyBase Headers Streams Loader Iterator TermSpec Toy.
Import ListNotations.
Open Scope Z_scope.
From Verif Require Import Thm_Term.

(** C39, for every file content (gzip or not, under every codec), schedule of short reads,
    block size, option, and consumer: iteration ends after finitely many records, by
    StopIteration or an exception; no call the consumer makes runs forever either. *)
Theorem C39_terminates :
  forall (zl : zenv) (he : henv) (o : lopts) (data : bytes) (sched : list Z) (block : Z) (known : option fmt)
       (prog : nat -> list uop),
  exists os en, run_ends he o prog (@iter_new zl (raw_open data sched) block known) os en
    /\ en <> EndExn OutOfFuel
    /\ (forall rc xs, In (rc, xs) os -> ~ In (Err OutOfFuel) xs).
Proof. exact C39_terminates_pf. Qed.
Print Assumptions C39_terminates.

(** two records read under gzip, and garbage *)
Example C39_ex : forall data, exists os en,
  run_ends (zl:=toy_z) toy_henv (mk_lopts false true true true KRaise (lit "u")) (fun _ => [URead None; UInfo])
           (iter_new (raw_open data [3; 1]) 16 None) os en.
Proof. intros data. destruct (C39_terminates toy_z toy_henv (mk_lopts false true true true KRaise (lit "u")) data [3; 1] 16 None (fun _ => [URead None; UInfo])) as (os & en & H & _). eauto. Qed.
Example C39_ex_run : exists N, forall n f, (N <= n)%nat -> (N <= f)%nat ->
  snd (consumer (zl:=toy_z) f toy_henv (mk_lopts false false false false KFalse (lit "u")) n (fun _ => []) 0
        (iter_new (raw_open (lit "WARC/1.0" ++ [10; 10]%N) []) 16 None)) = EndStop.
Proof.
  destruct (C39_terminates toy_z toy_henv (mk_lopts false false false false KFalse (lit "u"))
    (lit "WARC/1.0" ++ [10; 10]%N) [] 16 None (fun _ => [])) as (os & en & [N HN] & _).
  assert (H : consumer (zl:=toy_z) (100 + N) toy_henv (mk_lopts false false false false KFalse (lit "u")) (100 + N) (fun _ => []) 0
        (iter_new (raw_open (lit "WARC/1.0" ++ [10; 10]%N) []) 16 None) = (os, en)) by (apply HN; apply PeanoNat.Nat.le_add_l).
  exists N. intros n f Hn Hf. rewrite (HN n f Hn Hf). rewrite <- H. vm_compute. reflexivity.
Qed.

(** C41, the true part (the property as stated is refuted in Props_Iter): the exceptions that
    leave next() are ArchiveLoadFailed; AttributeError and, with verify_http, the parser's own
    exception, both only when HTTP headers are parsed; and binascii.Error only when digests are
    checked.  EOFError, ValueError, TypeError, IndexError, UnicodeError never do.  Missing: the
    property asks for ArchiveLoadFailed alone.  Reading a record (or asking for its offset)
    raises at most the two digest errors. *)
Theorem C41_exceptions_partial :
  forall (zl : zenv) (he : henv) (o : lopts) (data : bytes) (sched : list Z) (block : Z) (known : option fmt)
       (prog : nat -> list uop) os en,
  run_ends he o prog (@iter_new zl (raw_open data sched) block known) os en ->
  (forall e, en = EndExn e -> may_leave o e) /\
  (forall rc xs e, In (rc, xs) os -> In (Err e) xs -> may_read o e).
Proof. exact C41_exceptions_partial_pf. Qed.
Print Assumptions C41_exceptions_partial.

(** each of the four occurs *)
Definition x_opts (v : bool) (k : ckind) : lopts := mk_lopts false v false false k (lit "u").
Definition x_head (hs : list (string * string)) : bytes :=
  lit "WARC/1.0" ++ crlf ++ concat (map (fun h => lit (fst h) ++ lit ": " ++ lit (snd h) ++ crlf) hs) ++ crlf.
Definition x_data1 : bytes := lit "neither ARC nor WARC" ++ crlf.
Definition x_data2 : bytes := x_head [("WARC-Type", "response"); ("Content-Length", "4")]%string ++ lit "abcd".
Definition x_data3 : bytes :=
  x_head [("WARC-Type", "response"); ("WARC-Target-URI", "http://a/"); ("Content-Length", "4")]%string ++ lit "abcd".
Definition x_data4 : bytes :=
  x_head [("WARC-Type", "resource"); ("Content-Length", "4"); ("WARC-Block-Digest", "sha1:a")]%string ++ lit "abcd".
Lemma x_ends o data e :
  (forall N, snd (consumer (zl:=toy_z) (200 + N) toy_henv o (200 + N) (fun _ => []) 0 (iter_new (raw_open data []) 64 None)) = EndExn e) ->
  exists os, run_ends (zl:=toy_z) toy_henv o (fun _ => []) (iter_new (raw_open data []) 64 None) os (EndExn e).
Proof.
  intros H. destruct (C39_terminates toy_z toy_henv o data [] 64 None (fun _ => [])) as (os & en & [N HN] & _).
  specialize (H N). rewrite (HN (200 + N)%nat (200 + N)%nat) in H by apply PeanoNat.Nat.le_add_l.
  cbn [snd] in H. subst en. exists os, N. exact HN.
Qed.
Example C41_ex1 : exists os, run_ends (zl:=toy_z) toy_henv (x_opts false KFalse) (fun _ => []) (iter_new (raw_open x_data1 []) 64 None) os (EndExn ArchiveLoadFailed).
Proof. apply x_ends. intros N. vm_compute. reflexivity. Qed.
Example C41_ex2 : exists os, run_ends (zl:=toy_z) toy_henv (x_opts false KFalse) (fun _ => []) (iter_new (raw_open x_data2 []) 64 None) os (EndExn AttributeErr).
Proof. apply x_ends. intros N. vm_compute. reflexivity. Qed.
Example C41_ex3 : exists os, run_ends (zl:=toy_z) toy_henv (x_opts true KFalse) (fun _ => []) (iter_new (raw_open x_data3 []) 64 None) os (EndExn (ParserExn (lit "abcd"))).
Proof. apply x_ends. intros N. vm_compute. reflexivity. Qed.
Example C41_ex4 : exists os, run_ends (zl:=toy_z) toy_henv (x_opts true KTrue) (fun _ => []) (iter_new (raw_open x_data4 []) 64 None) os (EndExn BinasciiErr).
Proof. apply x_ends. intros N. vm_compute. reflexivity. Qed.

(** C41 holds as stated when HTTP headers are not parsed and digests are not checked *)
Theorem C41_raw_records :
  forall (zl : zenv) (he : henv) (o : lopts) (data : bytes) (sched : list Z) (block : Z) (known : option fmt)
       (prog : nat -> list uop),
  lo_norec o = true -> lo_check o = KFalse ->
  exists os en, run_ends he o prog (@iter_new zl (raw_open data sched) block known) os en
    /\ (en = EndStop \/ en = EndExn ArchiveLoadFailed).
Proof. exact C41_raw_records_pf. Qed.
Print Assumptions C41_raw_records.

Example C41_raw_ex : forall data, exists os en,
  run_ends (zl:=toy_z) toy_henv (mk_lopts true true true true KFalse (lit "u")) (fun _ => []) (iter_new (raw_open data []) 64 None) os en
  /\ (en = EndStop \/ en = EndExn ArchiveLoadFailed).
Proof. intros data. apply C41_raw_records; reflexivity. Qed.
