(** * Props_Tools: reading record contents ends (C79), and so do the command line tools (C80), on every input *)
From Coq Require Import String List ZArith NArith Bool.
From Verif Require Import PyBase Headers Streams Loader Iterator Writer Cli TermSpec ReadSpec ToolsSpec Toy.
Import ListNotations.
Open Scope Z_scope.
From Verif Require Import Thm_Tools.

(** C79: for every file content, codec, schedule of short reads, block size and options, and
    for a consumer that opens the content stream of records (chunked, gzip, deflate, damaged or
    not) and makes any calls on it, or on the raw stream, in any order, also to the end:
    iteration and every call end, and raise only what iteration over raw records may raise. *)
Theorem C79_content_ends :
  forall (zl : zenv) (he : henv) (o : lopts) (data : bytes) (sched : list Z) (block : Z) (known : option fmt)
       (prog : nat -> list act),
  exists os en, reading_ends he o prog (@iter_new zl (raw_open data sched) block known) os en
    /\ (forall e, en = EndExn e -> may_leave o e)
    /\ (forall rc xs e, In (rc, xs) os -> In (Err e) xs -> may_read o e).
Proof. exact C79_content_ends_pf. Qed.
Print Assumptions C79_content_ends.

(** a chunked body that breaks off in the second size line: the content is what could be
    decoded, then the rest as it is; iteration goes on *)
Definition c_data : bytes :=
  lit "WARC/1.0" ++ crlf ++ lit "WARC-Type: response" ++ crlf ++ lit "WARC-Target-URI: http://a/" ++ crlf
  ++ lit "Content-Length: 57" ++ crlf ++ crlf
  ++ lit "HTTP/1.1 200 OK" ++ crlf ++ lit "Transfer-Encoding: chunked" ++ crlf ++ crlf
  ++ lit "3" ++ crlf ++ lit "abc" ++ crlf ++ lit "zz" ++ crlf ++ crlf.
Definition c_opts : lopts := mk_lopts false false false false KFalse (lit "u").
Example C79_ex : exists os, reading_ends (zl:=toy_z) toy_henv c_opts (fun _ => [AContent [CLine None; CDrain 2]; ARaw UInfo]) (iter_new (raw_open c_data []) 1000 None) os EndStop
  /\ map snd os = [[Ok (lit "abczz"); Ok []; Ok []]].
Proof.
  destruct (C79_content_ends toy_z toy_henv c_opts c_data [] 1000 None (fun _ => [AContent [CLine None; CDrain 2]; ARaw UInfo])) as (os & en & [N HN] & _).
  pose proof (HN (300 + N)%nat (300 + N)%nat (PeanoNat.Nat.le_add_l _ _) (PeanoNat.Nat.le_add_l _ _)) as H.
  assert (G : (map snd (fst (reading (zl:=toy_z) (300 + N) toy_henv c_opts (300 + N) (fun _ => [AContent [CLine None; CDrain 2]; ARaw UInfo]) 0 (iter_new (raw_open c_data []) 1000 None))),
               snd (reading (zl:=toy_z) (300 + N) toy_henv c_opts (300 + N) (fun _ => [AContent [CLine None; CDrain 2]; ARaw UInfo]) 0 (iter_new (raw_open c_data []) 1000 None)))
          = ([[Ok (lit "abczz"); Ok []; Ok []]], EndStop)) by (vm_compute; reflexivity).
  rewrite H in G. cbn [fst snd] in G. injection G as G1 G2. exists os. split; [exists N; rewrite <- G2; exact HN|exact G1].
Qed.

(** C80 for index: any number of files with any content, opened anywhere *)
Theorem C80_index_ends :
  forall (zl : zenv) (he : henv) (verify : bool) (uuid : str) (fields : list str) (files : list (str * raw)),
  exists ds en, ends (fun n f => @index_all zl f he n verify uuid fields files) (ds, en)
    /\ (forall e, en = EndExn e -> index_may verify fields e).
Proof. exact C80_index_ends_pf. Qed.
Print Assumptions C80_index_ends.

Example C80_index_ex : exists ds, ends (fun n f => @index_all toy_z f toy_henv n true (lit "u") [lit "offset"; lit "http:status"] [(lit "a", raw_open c_data []); (lit "b", raw_open (lit "garbage") [])]) (ds, EndExn ArchiveLoadFailed)
  /\ ds = [[(lit "offset", lit "0"); (lit "http:status", lit "200")]].
Proof.
  destruct (C80_index_ends toy_z toy_henv true (lit "u") [lit "offset"; lit "http:status"] [(lit "a", raw_open c_data []); (lit "b", raw_open (lit "garbage") [])]) as (ds & en & [N HN] & _).
  pose proof (HN (300 + N)%nat (300 + N)%nat (PeanoNat.Nat.le_add_l _ _) (PeanoNat.Nat.le_add_l _ _)) as H.
  vm_compute in H. injection H as H1 H2. exists ds. split; [exists N; rewrite H2; exact HN|symmetry; exact H1].
Qed.

(** C80 for check: it ends with exit status 0 or 1, or one of two exceptions escapes (see C63) *)
Theorem C80_check_ends :
  forall (zl : zenv) (he : henv) (verbose : bool) (uuid : str) (files : list (str * raw)),
  exists x ms, ends (fun n f => @check_all zl f he n verbose uuid 0 files) (x, ms)
    /\ match x with Ok status => status = 0 \/ status = 1 | Err e => check_may e end.
Proof. exact C80_check_ends_pf. Qed.
Print Assumptions C80_check_ends.

Example C80_check_ex : exists ms, ends (fun n f => @check_all toy_z f toy_henv n true (lit "u") 0 [(lit "b", raw_open (lit "garbage") []); (lit "a", raw_open c_data [])]) (Ok 1, ms).
Proof.
  destruct (C80_check_ends toy_z toy_henv true (lit "u") [(lit "b", raw_open (lit "garbage") []); (lit "a", raw_open c_data [])]) as (x & ms & [N HN] & _).
  pose proof (HN (300 + N)%nat (300 + N)%nat (PeanoNat.Nat.le_add_l _ _) (PeanoNat.Nat.le_add_l _ _)) as H.
  vm_compute in H. injection H as H1 H2. exists ms. exists N. rewrite H1. exact HN.
Qed.

(** C80 for extract: at any offset of any file *)
Theorem C80_extract_ends :
  forall (zl : zenv) (he : henv) (uuid : str) (payload headers : bool) (data : bytes) (sched : list Z) (off : Z),
  exists x ws, ends (fun _ f => @extract zl f he uuid payload headers (seek_file data sched off)) (x, ws)
    /\ (forall e, x = XExn e -> copy_may e).
Proof. exact C80_extract_ends_pf. Qed.
Print Assumptions C80_extract_ends.

Example C80_extract_ex : exists ws, ends (fun _ f => @extract toy_z f toy_henv (lit "u") true false (seek_file c_data [] 0)) (XOk, ws)
  /\ concat ws = lit "abczz".
Proof.
  destruct (C80_extract_ends toy_z toy_henv (lit "u") true false c_data [] 0) as (x & ws & [N HN] & _).
  pose proof (HN (300 + N)%nat (300 + N)%nat (PeanoNat.Nat.le_add_l _ _) (PeanoNat.Nat.le_add_l _ _)) as H.
  vm_compute in H. injection H as H1 H2. exists ws. split; [exists N; rewrite H1; exact HN|rewrite <- H2; reflexivity].
Qed.

(** C80 for recompress: under every compressor and hash function *)
Theorem C80_recompress_ends :
  forall (zl : zenv) (he : henv) (sha1 : bytes -> bytes) (k : kenv) (uuid : str) (size : Z) (data : bytes),
  exists x, ends (fun n f => @recompress zl f he n sha1 k uuid size data) x
    /\ (forall e, x = RcFailed e -> copy_may e).
Proof. exact C80_recompress_ends_pf. Qed.
Print Assumptions C80_recompress_ends.

Example C80_recompress_ex : ends (fun n f => @recompress toy_z f toy_henv n toy_hash toy_k (lit "u") 64 (lit "garbage")) (RcFailed ArchiveLoadFailed).
Proof.
  destruct (C80_recompress_ends toy_z toy_henv toy_hash toy_k (lit "u") 64 (lit "garbage")) as (x & [N HN] & _).
  pose proof (HN (300 + N)%nat (300 + N)%nat (PeanoNat.Nat.le_add_l _ _) (PeanoNat.Nat.le_add_l _ _)) as H.
  vm_compute in H. exists N. rewrite H. exact HN.
Qed.
