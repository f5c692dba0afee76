(** * Props_Enc: records whose content is encoded (C15, C61, C63) *)
From Coq Require Import String List ZArith NArith Bool Lia.
From Verif Require Import PyBase Utf8 Codecs Headers Streams Loader Iterator Writer StreamSpec WriterSpec ChunkSpec DigestSpec IterSpec Cli CliSpec ReportSpec EncSpec AllSpec Toy.
Import ListNotations.
Open Scope Z_scope.
From Verif Require Import Thm_Enc.

(** C63 and C82 for archives of well-formed records whose content may be chunked, compressed or
    both, well-formed or not: check ends (with enough fuel), and then it exits with 1 if some
    record has a wrong block or payload digest, with 0 if none has, and prints exactly the
    records with a wrong digest.  The digests are those of the raw payload, so the encodings do
    not matter.  (No record has a wrong digest of an empty block, see C63_empty_block_refuted;
    restrictions of C34 on lines and short reads.) *)
Theorem C63_encoded :
  forall (zl : zenv) (he : henv) (verbose : bool) (uuid : str) (files : list (str * raw)),
  (exists N, forall n fuel, (N <= n)%nat -> (N <= fuel)%nat -> fst (check_all (zl:=zl) fuel he n verbose uuid 0 files) <> Err OutOfFuel)
  /\ forall fuel M n ess x ms,
     archives unchunked zl fuel he (check_opts uuid) M files ess -> 64 <= M -> Forall (fun es => (List.length es < n)%nat) ess ->
     (forall es e pl, In es ess -> In (e, pl) es -> not_vacuous he e) ->
     check_all (zl:=zl) fuel he n verbose uuid 0 files = (x, ms) -> x <> Err OutOfFuel ->
     exists v, x = Ok v
       /\ ((exists es e pl, In es ess /\ In (e, pl) es /\ fails he e) -> v = 1)
       /\ ((forall es e pl, In es ess -> In (e, pl) es -> ~ fails he e) -> v = 0)
       /\ archives_report verbose he (map fst files) ess ms.
Proof. exact C63_encoded_pf. Qed.
Print Assumptions C63_encoded.

Example C63_encoded_ex : forall good,
  archives unchunked toy_z 500 ck_henv (check_opts (lit "u")) 200 [(lit "f", raw_open (texts (ec_es good)) [])] [placed 0 (ec_es good)]
  /\ (forall e pl, In (e, pl) (placed 0 (ec_es good)) -> not_vacuous ck_henv e /\ ~ plain_content (e_http e))
  /\ check_all (zl:=toy_z) 500 ck_henv 3 false (lit "u") 0 [(lit "f", raw_open (texts (ec_es good)) [])]
     = if good then (Ok 0, []) else (Ok 1, [MFile (lit "f"); MRecord 0 None (Some (lit "response")); MProblem PBlockFailed]).
Proof. exact ec_check_pf. Qed.

(** C61: extract --payload at the offset of any record of an archive of well-formed records
    prints its content, with chunked and Content-Encoding decoded.  (Restrictions of C34 on
    short reads and long lines; gzip members of chunked records fit in the buffer; what the
    content is, is specified by [decodes].) *)
Theorem C61_payload_encoded :
  forall (zl : zenv) fuel he uuid M sched data es k e off len content,
  good_archive unchunked zl fuel he (extract_opts uuid) M 0 sched data es -> 64 <= M -> nth_error es k = Some (e, (off, len)) ->
  decodes zl (e_http e) (e_payload e) content -> enough fuel content ->
  exists ws, extract (zl:=zl) fuel he uuid true false (seek_file data sched off) = (XOk, ws) /\ concat ws = content.
Proof. exact C61_payload_encoded_pf. Qed.
Print Assumptions C61_payload_encoded.

Example C61_payload_ex :
  good_archive unchunked toy_z 500 ck_henv (extract_opts (lit "u")) 200 0 [] (texts (ec_es true)) (placed 0 (ec_es true))
  /\ decodes toy_z (Some ec_http) ec_payload (lit "hi")
  /\ extract (zl:=toy_z) 500 ck_henv (lit "u") true false (seek_file (texts (ec_es true)) [] 0) = (XOk, [lit "hi"]).
Proof.
  split; [apply ec_archive_pf; [reflexivity..|discriminate]|]. split; [|vm_compute; reflexivity].
  apply (Dec_chunked _ _ _ _ ec_http); [reflexivity..|]. exact ec_chunked.
Qed.

(** C15 for the records of an archive: whatever consumer reads content_stream() of a record,
    with any sizes and with readline(), sees the decoded content.  (Same restrictions; for content
    without encoding readline is not part of this theorem, see C34.) *)
Theorem C15_archive :
  forall (zl : zenv) fuel he o M sched data es k e off len content calls,
  good_archive unchunked zl fuel he o M 0 sched data es -> 64 <= M -> lo_ensure o = false -> nth_error es k = Some (e, (off, len)) ->
  decodes zl (e_http e) (e_payload e) content -> enough fuel content -> ~ plain_content (e_http e) ->
  nonneg_calls calls -> full_lines calls ->
  exists rc it, iter_next (zl:=zl) fuel he o (iter_new (seek_file data sched off) BUFF_SIZE None) = (Ok (Some rc), it)
    /\ rc_http rc = e_http e
    /\ fst (run_calls (cs_ops (rops (zl:=zl) fuel) fuel) calls (content_stream (zl:=zl) (rc_http rc) (rc_stream rc)))
       = map Ok (fst (mem_calls calls content)).
Proof. exact C15_archive_pf. Qed.
Print Assumptions C15_archive.

Example C15_archive_ex :
  ~ plain_content (Some ec_http)
  /\ match iter_next (zl:=toy_z) 500 ck_henv (extract_opts (lit "u")) (iter_new (seek_file (texts (ec_es true)) [] 0) BUFF_SIZE None) with
     | (Ok (Some rc), _) => fst (run_calls (cs_ops (zl:=toy_z) (rops (zl:=toy_z) 500) 500) [CRead (Some 1); CLine None; CRead None] (content_stream (rc_http rc) (rc_stream rc)))
                            = [Ok (lit "h"); Ok (lit "i"); Ok []]
     | _ => False end.
Proof.
  split; [|vm_compute; reflexivity]. intros H. destruct (H _ eq_refl) as [X _]. apply X. reflexivity.
Qed.

(** C15 is false for a body that consists of several gzip members, which the gzip content coding
    allows: only the content of the first member is returned, without any error (finding). *)
Theorem C15_members_refuted :
  exists h payload content fuel,
  declares_ci h "content-encoding" "gzip" /\ value_of (lit "transfer-encoding") (sh_headers h) = None
  /\ members toy_z true payload content /\ enough fuel payload
  /\ exists part, content <> part
     /\ fst (run_calls (cs_ops raw_ops fuel) [CRead None; CRead None; CRead None]
          (content_stream (zl:=toy_z) (Some h) (RSlim (lim_new (raw_open payload []) (lenZ payload))))) = [Ok part; Ok []; Ok []].
Proof. exact C15_members_refuted_pf. Qed.
Print Assumptions C15_members_refuted.
