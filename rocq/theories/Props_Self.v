(** * Props_Self: archives written by warcio pass warcio check (C86) *)
From Coq Require Import String List ZArith NArith Bool Lia.
From Verif Require Import PyBase Codecs Headers Streams Loader Iterator Writer StreamSpec WriterSpec DigestSpec IterSpec RoundSpec CliSpec Cli ReportSpec SelfSpec Toy.
Import ListNotations.
Open Scope Z_scope.
From Verif Require Import Thm_Self.

(** C86.  Files written by warcio itself (WARCWriter with or without gzip, records made by
create_warc_record without digest headers) pass "warcio check": exit status 0, nothing is
printed without --verbose, and no problem with it.  (Restrictions: the records can be read back
as in C27/C28, with lines of at most [M] bytes that fit in the read buffer; the content is not
encoded, see C86_encoded; sha1 is available.) *)
Theorem C86_check_own_partial :
  forall (zl : zenv) fuel sha1 k he M n verbose uuid (files : list (str * raw)),
  henv_ok he -> he (lit "sha1") = Some sha1 -> 64 <= M ->
  Forall (fun f => exists data rs, snd f = raw_open data [] /\ own_file zl fuel sha1 k M BUFF_SIZE data rs /\ (List.length rs < n)%nat
                    /\ Forall (fun r => plain_content (wr_http r)) rs) files ->
  exists ms, check_all (zl:=zl) fuel he n verbose uuid 0 files = (Ok 0, ms)
    /\ (verbose = false -> ms = []) /\ (forall p, ~ In (MProblem p) ms) /\ ~ In MFailed ms.
Proof. exact C86_check_own_partial_pf. Qed.
Print Assumptions C86_check_own_partial.

Example C86_hash : henv_ok ck_henv /\ ck_henv (lit "sha1") = Some ck_hash.
Proof. split; [exact ck_hash_ok|reflexivity]. Qed.
Example C86_file : own_file toy_z 2000 ck_hash toy_k 200 BUFF_SIZE (List.concat (own_ws false own_rs)) own_rs
  /\ Forall (fun r => plain_content (wr_http r)) own_rs.
Proof.
  split; [exact (proj1 own_file_plain_pf)|]. constructor; [|constructor; [|constructor]]; intros h E; vm_compute in E; inversion E; subst; split; vm_compute; congruence.
Qed.
Example C86_file_gzip : own_file toy_z 2000 ck_hash toy_k 200 BUFF_SIZE (List.concat (own_ws true own_rs)) own_rs.
Proof. exact (proj1 own_file_gzip_pf). Qed.
Example C86_ex :
  check_all (zl:=toy_z) 2000 ck_henv 3 false (lit "u") 0 [(lit "f", raw_open (List.concat (own_ws false own_rs)) [])] = (Ok 0, [])
  /\ match check_all (zl:=toy_z) 2000 ck_henv 3 true (lit "u") 0 [(lit "f", raw_open (List.concat (own_ws false own_rs)) [])] with
     | (Ok v, ms) => v = 0 /\ In (MText (lit "digest pass")) ms | _ => False end.
Proof. vm_compute. intuition. Qed.

(** C86 for records with any content: chunked, compressed or both, and also with an HTTP header
    that announces an encoding which the content does not have: check ends (with enough fuel),
    and then with exit status 0 and no problem printed. *)
Theorem C86_encoded :
  forall (zl : zenv) he verbose uuid (files : list (str * raw)),
  (exists N, forall n fuel, (N <= n)%nat -> (N <= fuel)%nat -> fst (check_all (zl:=zl) fuel he n verbose uuid 0 files) <> Err OutOfFuel)
  /\ forall fuel sha1 k M n x ms,
     henv_ok he -> he (lit "sha1") = Some sha1 -> 64 <= M ->
     Forall (fun f => exists data rs, snd f = raw_open data [] /\ own_file zl fuel sha1 k M BUFF_SIZE data rs /\ (List.length rs < n)%nat) files ->
     check_all (zl:=zl) fuel he n verbose uuid 0 files = (x, ms) -> x <> Err OutOfFuel ->
     x = Ok 0 /\ (verbose = false -> ms = []) /\ (forall p, ~ In (MProblem p) ms) /\ ~ In MFailed ms.
Proof. exact C86_encoded_pf. Qed.
Print Assumptions C86_encoded.

Example C86_encoded_file : own_file toy_z 2000 ck_hash toy_k 200 BUFF_SIZE (List.concat (own_ws false own_rs3)) own_rs3
  /\ own_file toy_z 2000 ck_hash toy_k 200 BUFF_SIZE (List.concat (own_ws true own_rs3)) own_rs3.
Proof. exact (conj (proj2 own_file_plain_pf) (proj2 own_file_gzip_pf)). Qed.
Example C86_encoded_ex :
  check_all (zl:=toy_z) 2000 ck_henv 4 false (lit "u") 0 [(lit "f", raw_open (List.concat (own_ws false own_rs3)) [])] = (Ok 0, [])
  /\ check_all (zl:=toy_z) 2000 ck_henv 4 false (lit "u") 0 [(lit "f", raw_open (List.concat (own_ws true own_rs3)) [])] = (Ok 0, []).
Proof. split; vm_compute; reflexivity. Qed.
