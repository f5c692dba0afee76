(** * Props_Cli: the command line tools (C60, C61, C63) *)
From Coq Require Import String List ZArith NArith Bool Lia Permutation.
From Coq Require Import ZifyBool ZifyNat ZifyN.
From Verif Require Import PyBase Utf8 Codecs Headers HeaderSpec Streams StreamSpec DigestSpec Loader Iterator Writer WriterSpec IterSpec Cli CliSpec ReportSpec Toy.
Import ListNotations.
Open Scope Z_scope.
From Verif Require Import Thm_Cli.

(** the lines of the index of an archive *)
Definition lines_of (filename : str) (fields : list str) (es : list (entry * (Z * Z))) (ds : list (list (str * str))) : Prop :=
  Forall2 (fun x d => line_is filename fields (w_headers (e_rec (fst x))) (w_value "WARC-Type" (e_rec (fst x))) (e_http (fst x))
                              (fst (snd x)) (snd (snd x)) d) es ds.
(** [run] is what a consumer observes in file [f] who reads with a size, at least 0, and lines of
    at most 64 bytes *)
Definition consumed {zl : zenv} (fuel n : nat) (he : henv) (o : lopts) (f : raw) (run : list (@obs zl) * ending) : Prop :=
  exists prog, (forall i, nonneg_ops (prog i) /\ limited_lines 64 (prog i))
               /\ run_iter fuel he o n prog 0 (iter_new f BUFF_SIZE None) = run.
(** examples: a response whose block digest is right or wrong, and a resource *)
Definition ex_block : bytes := lit "HTTP/1.1 200 OK" ++ crlf ++ lit "A: b" ++ crlf ++ crlf ++ lit "body".
Definition ex_w1 (good : bool) : wrc := mk_wrc (lit "WARC/1.0")
  [(lit "WARC-Type", lit "response"); (lit "WARC-Target-URI", lit "http://a/"); (lit "WARC-Block-Digest", ck_digest (if good then ex_block else lit "other")); (lit "Content-Length", lit "29")] ex_block.
Definition ex_w2 : wrc := mk_wrc (lit "WARC/1.1") [(lit "WARC-Type", lit "resource"); (lit "Content-Length", lit "5")] (lit "hello").
Definition ex_text (w : wrc) : bytes :=
  match utf8_encode (record_text (w_version w) (w_headers w)) with Some h => h ++ w_block w ++ crlf ++ crlf | None => [] end.
Definition ex_http : sah := mk_sah (lit "200 OK") [(lit "A", lit "b")] (lit "HTTP/1.1") 25 None.
Definition ex_es (good : bool) : list entry :=
  [mk_entry (ex_w1 good) (ex_text (ex_w1 good)) (Some ex_http) (lit "body"); mk_entry ex_w2 (ex_text ex_w2) None (lit "hello")].

(** C60.  The index of archives of well-formed records (uncompressed, or with one gzip
    member per record): one line for each record, in the order of the files and records;
    each line has the requested fields in the order requested, with the offset and length of
    the record, the name of its file, its HTTP status and headers and its WARC headers;
    fields without a value are omitted.  (Restrictions of C34 on short reads and long
    HTTP header lines.) *)
Theorem C60_index_partial :
  forall (zl : zenv) fuel he M verify uuid fields files ess n,
  archives every zl fuel he (index_opts fields verify uuid) M files ess -> Forall (fun es => (List.length es < n)%nat) ess ->
  exists dss, index_all (zl:=zl) fuel he n verify uuid fields files = (concat dss, EndStop)
    /\ List.length dss = List.length files
    /\ forall i f es ds, nth_error files i = Some f -> nth_error ess i = Some es -> nth_error dss i = Some ds -> lines_of (fst f) fields es ds.
Proof. exact C60_index_partial_pf. Qed.
Print Assumptions C60_index_partial.

Example C60_ex :
  archives every toy_z 500 ck_henv (index_opts [lit "offset"; lit "length"; lit "filename"; lit "http:status"; lit "http:a"; lit "warc-type"] false (lit "u")) 200
           [(lit "d/f.warc", raw_open (texts (ex_es true)) [])] [placed 0 (ex_es true)]
  /\ index_all (zl:=toy_z) 500 ck_henv 3 false (lit "u") [lit "offset"; lit "length"; lit "filename"; lit "http:status"; lit "http:a"; lit "warc-type"]
        [(lit "d/f.warc", raw_open (texts (ex_es true)) [])]
     = ([[(lit "offset", lit "0"); (lit "length", lit "168"); (lit "filename", lit "f.warc"); (lit "http:status", lit "200"); (lit "http:a", lit "b"); (lit "warc-type", lit "response")];
         [(lit "offset", lit "172"); (lit "length", lit "57"); (lit "filename", lit "f.warc"); (lit "warc-type", lit "resource")]], EndStop).
Proof. exact ex_index_pf. Qed.

(** C60 for any input: whatever the file contains, the indexer prints one line for each record
    that iteration yields and that can be read to its end, with its headers, offset and length,
    and ends as the iteration ends. *)
Theorem C60_any_input :
  forall (zl : zenv) fuel he verify uuid filename fields f n obs en,
  run_iter (zl:=zl) fuel he (index_opts fields verify uuid) n (fun _ => []) 0 (iter_new f BUFF_SIZE None) = (obs, en) ->
  Forall (fun ob => exists off len, ob_info ob = Ok (Some (off, len))) obs ->
  exists ds, index_file (zl:=zl) fuel he n verify uuid filename fields f = (ds, en)
    /\ Forall2 (fun (ob : @Iterator.obs zl) d => exists off len, ob_info ob = Ok (Some (off, len))
         /\ line_is filename fields (sh_headers (rc_headers (ob_record ob))) (rc_type (ob_record ob)) (rc_http (ob_record ob)) off len d) obs ds.
Proof. exact C60_any_input_pf. Qed.
Print Assumptions C60_any_input.

(** a file with a record and then something that is no WARC record *)
Example C60_any_ex :
  index_file (zl:=toy_z) 500 ck_henv 3 false (lit "u") (lit "f") [lit "offset"; lit "length"] (raw_open (ex_text ex_w2 ++ lit "garbage") [])
  = ([[(lit "offset", lit "0"); (lit "length", lit "57")]], EndExn ArchiveLoadFailed).
Proof. vm_compute. reflexivity. Qed.

(** C61.  extract at the offset of a record of an archive of well-formed records prints its
    WARC headers, its HTTP headers (if there are any) and its content; with --headers only
    the headers; with --payload only the content, here for content that is not encoded.
    (Restrictions of C34 on short reads and long HTTP header lines.) *)
Theorem C61_extract_partial :
  forall (zl : zenv) fuel he uuid M sched data es k e off len wb hb,
  good_archive every zl fuel he (extract_opts uuid) M 0 sched data es -> nth_error es k = Some (e, (off, len)) ->
  warc_text (e_rec e) wb -> http_text (e_http e) hb ->
  let f := seek_file data sched off in
  (exists ws, extract (zl:=zl) fuel he uuid false false f = (XOk, ws) /\ concat ws = wb ++ hb ++ e_payload e)
  /\ (exists ws, extract (zl:=zl) fuel he uuid false true f = (XOk, ws) /\ concat ws = wb ++ hb)
  /\ (plain_content (e_http e) -> exists ws, extract (zl:=zl) fuel he uuid true false f = (XOk, ws) /\ concat ws = e_payload e).
Proof. exact C61_extract_partial_pf. Qed.
Print Assumptions C61_extract_partial.

Example C61_ex :
  good_archive every toy_z 500 ck_henv (extract_opts (lit "u")) 200 0 [] (texts (ex_es true)) (placed 0 (ex_es true))
  /\ (let (x, ws) := extract (zl:=toy_z) 500 ck_henv (lit "u") false false (seek_file (texts (ex_es true)) [] 172) in
      x = XOk /\ concat ws ++ crlf ++ crlf = ex_text ex_w2)
  /\ (let (x, ws) := extract (zl:=toy_z) 500 ck_henv (lit "u") true false (seek_file (texts (ex_es true)) [] 0) in
      x = XOk /\ concat ws = lit "body").
Proof. exact ex_extract_pf. Qed.

(** C61: if the block of the record is its HTTP headers as printed and its content (the
    case for records without HTTP headers, and for all written by warcio), extract prints
    the record as it is in the archive, without the two empty lines at its end *)
Theorem C61_verbatim :
  forall (zl : zenv) fuel he uuid M sched data es k e off len hb,
  good_archive every zl fuel he (extract_opts uuid) M 0 sched data es -> nth_error es k = Some (e, (off, len)) ->
  http_text (e_http e) hb -> w_block (e_rec e) = hb ++ e_payload e ->
  exists ws, extract (zl:=zl) fuel he uuid false false (seek_file data sched off) = (XOk, ws) /\ concat ws ++ crlf ++ crlf = e_text e.
Proof. exact C61_verbatim_pf. Qed.
Print Assumptions C61_verbatim.



(** C63, for any input: if check ends without an uncaught exception, its exit status is 1
    exactly if, for a consumer of the archive iterator, some file raises
    ArchiveLoadFailed or some record fails its digest check; otherwise it is 0. *)
Theorem C63_exit_status :
  forall (zl : zenv) fuel he n verbose uuid files v ms,
  check_all (zl:=zl) fuel he n verbose uuid 0 files = (Ok v, ms) ->
  exists runs, Forall2 (fun f run => consumed (zl:=zl) fuel n he (check_opts uuid) (snd f) run) files runs
    /\ (v = 1 \/ v = 0)
    /\ (v = 1 <-> exists obs en, In (obs, en) runs /\ (raises ArchiveLoadFailed obs en \/ some_bad obs)).
Proof. exact C63_exit_status_pf. Qed.
Print Assumptions C63_exit_status.

Example C63_exit_ex :
  let files := [(lit "good", raw_open (texts (ex_es true)) []); (lit "bad", raw_open (texts (ex_es false)) []); (lit "junk", raw_open (lit "garbage") [])] in
  fst (check_all (zl:=toy_z) 500 ck_henv 5 true (lit "u") 0 (firstn 1 files)) = Ok 0
  /\ fst (check_all (zl:=toy_z) 500 ck_henv 5 true (lit "u") 0 (firstn 2 files)) = Ok 1
  /\ fst (check_all (zl:=toy_z) 500 ck_henv 5 true (lit "u") 0 (skipn 2 files)) = Ok 1
  /\ fst (check_all (zl:=toy_z) 500 ck_henv 5 true (lit "u") 0 files) = Ok 1.
Proof. vm_compute. repeat split. Qed.

(** C63, for any input: the exit status does not depend on the verbosity, on the names of
    the files and on their order *)
Theorem C63_order :
  forall (zl : zenv) fuel he n verbose verbose' uuid files files' v ms,
  check_all (zl:=zl) fuel he n verbose uuid 0 files = (Ok v, ms) -> Permutation (map snd files) (map snd files') ->
  exists ms', check_all (zl:=zl) fuel he n verbose' uuid 0 files' = (Ok v, ms').
Proof. exact C63_order_pf. Qed.
Print Assumptions C63_order.



(** C63 for archives of well-formed records (uncompressed, or with one gzip member per
    record): check exits with 1 if some record has a wrong block or payload digest, and with 0
    if no record has.  (No record has a wrong digest of an empty block, see
    C63_empty_block_refuted; the content is not encoded; restrictions of C34.) *)
Theorem C63_archives_partial :
  forall (zl : zenv) fuel he M n verbose uuid files ess,
  archives unchunked zl fuel he (check_opts uuid) M files ess -> 64 <= M -> Forall (fun es => (List.length es < n)%nat) ess ->
  (forall es e pl, In es ess -> In (e, pl) es -> not_vacuous he e /\ plain_content (e_http e)) ->
  exists v ms, check_all (zl:=zl) fuel he n verbose uuid 0 files = (Ok v, ms)
    /\ ((exists es e pl, In es ess /\ In (e, pl) es /\ fails he e) -> v = 1)
    /\ ((forall es e pl, In es ess -> In (e, pl) es -> ~ fails he e) -> v = 0).
Proof. exact C63_archives_partial_pf. Qed.
Print Assumptions C63_archives_partial.

Example C63_archives_ex : forall good,
  archives unchunked toy_z 500 ck_henv (check_opts (lit "u")) 200 [(lit "f", raw_open (texts (ex_es good)) [])] [placed 0 (ex_es good)]
  /\ (forall e pl, In (e, pl) (placed 0 (ex_es good)) -> not_vacuous ck_henv e /\ plain_content (e_http e))
  /\ check_all (zl:=toy_z) 500 ck_henv 3 false (lit "u") 0 [(lit "f", raw_open (texts (ex_es good)) [])]
     = if good then (Ok 0, []) else (Ok 1, [MFile (lit "f"); MRecord 0 None (Some (lit "response")); MProblem PBlockFailed]).
Proof. exact ex_check_pf. Qed.

(** C82, for any input: if check ends without an uncaught exception, it prints for each file, in
    order, exactly the records that fail their digest check, each with at least one problem
    (in verbose mode a text about each other record), and for a file that cannot be read to the
    end that it failed.  The file name is printed first, and once. *)
Theorem C82_report :
  forall (zl : zenv) fuel he n verbose uuid files v ms,
  check_all (zl:=zl) fuel he n verbose uuid 0 files = (Ok v, ms) ->
  exists mss, ms = List.concat mss
    /\ Forall2 (fun f m => exists run, consumed (zl:=zl) fuel n he (check_opts uuid) (snd f) run
                             /\ file_report verbose (fst f) (fst run) (snd run) m) files mss.
Proof. exact C82_report_pf. Qed.
Print Assumptions C82_report.

Example C82_report_ex :
  check_all (zl:=toy_z) 500 ck_henv 5 true (lit "u") 0
    [(lit "bad", raw_open (texts (ex_es false)) []); (lit "junk", raw_open (texts (ex_es true) ++ lit "garbage") [])]
  = (Ok 1, [MFile (lit "bad"); MRecord 0 None (Some (lit "response")); MProblem PBlockFailed;
            MRecord 172 None (Some (lit "resource")); MText (lit "no digest to check");
            MFile (lit "junk"); MRecord 0 None (Some (lit "response")); MText (lit "digest pass");
            MRecord 172 None (Some (lit "resource")); MText (lit "no digest to check");
            MFile (lit "junk"); MFailed]).
Proof. vm_compute. reflexivity. Qed.

(** C82 for archives of well-formed records (uncompressed, or with one gzip member per record):
    the records that have a wrong block or payload digest are printed with their offset,
    WARC-Record-ID and WARC-Type, and no others (in verbose mode, the others with a text).
    (Restrictions as in C63_archives_partial.) *)
Theorem C82_archives_partial :
  forall (zl : zenv) fuel he M n verbose uuid files ess,
  archives unchunked zl fuel he (check_opts uuid) M files ess -> 64 <= M -> Forall (fun es => (List.length es < n)%nat) ess ->
  (forall es e pl, In es ess -> In (e, pl) es -> not_vacuous he e /\ plain_content (e_http e)) ->
  exists v ms, check_all (zl:=zl) fuel he n verbose uuid 0 files = (Ok v, ms) /\ archives_report verbose he (map fst files) ess ms.
Proof. exact C82_archives_partial_pf. Qed.
Print Assumptions C82_archives_partial.



(** C63 is false for records with an empty block: its digest is not compared, so a wrong
    one goes unnoticed (finding) *)
Theorem C63_empty_block_refuted :
  exists w, wf_record w /\ w_block w = [] /\ judged ck_henv [] (block_digest w) VBad
  /\ fst (check_all (zl:=toy_z) 500 ck_henv 3 false (lit "u") 0 [(lit "f", raw_open (ex_text w) [])]) = Ok 0.
Proof. exact C63_empty_block_refuted_pf. Qed.
Print Assumptions C63_empty_block_refuted.



(** C63 is false for records whose digest is malformed: the exception of the base32 decoder
    is not caught, and the other files are not checked (finding) *)
Theorem C63_uncaught_refuted :
  exists w e, wf_record w /\ e <> ArchiveLoadFailed /\ e <> OutOfFuel
  /\ forall files, fst (check_all (zl:=toy_z) 500 ck_henv 3 false (lit "u") 0 ((lit "f", raw_open (ex_text w) []) :: files)) = Err e.
Proof. exact C63_uncaught_refuted_pf. Qed.
Print Assumptions C63_uncaught_refuted.


