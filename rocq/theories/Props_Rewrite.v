(** * Props_Rewrite: rewriting records that were read: recompress (C62), framing (C64), digests (C65) *)
From Coq Require Import String List ZArith NArith Bool Lia.
From Coq Require Import ZifyBool ZifyNat ZifyN.
From Verif Require Import PyBase Utf8 Codecs Headers HeaderSpec Streams StreamSpec DigestSpec Loader Iterator Writer WriterSpec IterSpec RoundSpec AllSpec Cli CliSpec RewriteSpec Toy.
Import ListNotations.
Open Scope Z_scope.
From Verif Require Import Thm_Rewrite.

(** examples: the archive of the examples for the command line tools, with a right digest *)
Definition ex_list : list entry := Thm_Cli.ex_es true.
Definition ex_data : bytes := texts ex_list.

(** C62: an archive of complete records, compressed or not, whose HTTP headers are spelled
    the way the writer spells them, or are ASCII and recognised when read again, is
    recompressed completely: the output has one gzip member for each record, and reading it
    gives the same versions, types, headers, HTTP headers and contents; only
    Content-Length is adjusted and missing digests are added.
    Missing: archives with other records (see C62_non_ascii_refuted), archives that are not
    record-compressed (C62_fix_partial), ARC files (see C93); and for reading back, members whose
    first block does not hold all headers. *)
Theorem C62_recompress_partial :
  forall (zl : zenv) fuel he k sha1 uuid M data es n size,
  gzip_codec zl k -> hash_bytes sha1 -> 0 <= M ->
  good_archive every zl fuel he (recompress_opts uuid) M 0 [] data es ->
  Forall (fun x => rewritable fuel M false (fst x)) es -> (List.length es < n)%nat ->
  exists es' ms, recompress (zl:=zl) fuel he n sha1 k uuid size data = RcOk (List.length es) false (concat ms)
    /\ Forall2 (fun x e' => rewritten sha1 (fst x) e') es es'
    /\ compressed zl es' ms
    /\ (es <> [] -> back_fits zl fuel es' ms -> forall o n',
          lo_norec o = false -> lo_verify o = false -> digests_off o -> (List.length es < n')%nat ->
          exists obs, run_iter (zl:=zl) fuel he o n' (fun _ => [URead None]) 0 (iter_new (raw_open (concat ms) []) BUFF_SIZE None) = (obs, EndStop)
            /\ Forall2 (fun x ob => comes_back sha1 (fst x) ob) es obs).
Proof. exact C62_recompress_partial_pf. Qed.
Print Assumptions C62_recompress_partial.

(** the hypotheses are met by an archive of two records; its recompressed form fits *)
Example C62_ex : gzip_codec toy_z toy_k /\ hash_bytes ck_hash /\ henv_ok ck_henv
  /\ good_archive every toy_z 500 ck_henv (recompress_opts (lit "u")) 200 0 [] ex_data (placed 0 ex_list)
  /\ good_archive every toy_z 500 ck_henv (check_opts (lit "u")) 200 0 [] ex_data (placed 0 ex_list)
  /\ Forall (fun x => rewritable 500 200 false (fst x)) (placed 0 ex_list)
  /\ Forall (fun x => digest_stable (fst x) /\ judge_ok ck_henv (fst x)) (placed 0 ex_list).
Proof. exact ex_rewrite_pf. Qed.
Example C62_ex_out : match recompress (zl:=toy_z) 1200 ck_henv 5 ck_hash toy_k (lit "u") 100 ex_data with
  | RcOk 2 false out => (lenZ out <? BUFF_SIZE) && (lenZ out + 3 <=? 1200) | _ => false end = true.
Proof. vm_compute. reflexivity. Qed.

(** C62: a gzip file whose last member holds two or more records, the others one each (an
    archive compressed as a whole, in particular), and which fits into one block, is
    "fixed": all records come out, each in its own member, as in C62_recompress_partial.
    Missing: larger files, and members with several records followed by others; see
    C62_records_lost_refuted. *)
Theorem C62_fix_partial :
  forall (zl : zenv) fuel he k sha1 uuid M size (ms : list (entry * bytes)) m l n,
  gzip_codec zl k -> gz_magic zl -> hash_bytes sha1 -> 0 <= M <= BUFF_SIZE -> 0 < size ->
  (2 <= List.length l)%nat -> is_member zl m (texts l) ->
  Forall (fun x => is_member zl (snd x) (e_text (fst x))) ms -> lenZ (gz_data ms ++ m) <= BUFF_SIZE ->
  enough fuel (gz_data ms ++ m) -> enough fuel (texts (map fst ms ++ l)) ->
  Forall (fun e => good_entry fuel he (recompress_opts uuid) M [] e /\ rewritable fuel M false e) (map fst ms ++ l) ->
  (List.length ms + List.length l < n)%nat ->
  exists es' outs, recompress (zl:=zl) fuel he n sha1 k uuid size (gz_data ms ++ m) = RcOk (List.length ms + List.length l) true (concat outs)
    /\ Forall2 (rewritten sha1) (map fst ms ++ l) es' /\ compressed zl es' outs.
Proof. exact C62_fix_partial_pf. Qed.
Print Assumptions C62_fix_partial.

Example C62_fix_ex : is_member toy_z (toy_gz ex_data) (texts ex_list) /\ lenZ (toy_gz ex_data) <= BUFF_SIZE
  /\ Forall (fun e => good_entry 500 ck_henv (recompress_opts (lit "u")) 200 [] e /\ rewritable 500 200 false e) ex_list
  /\ match recompress (zl:=toy_z) 1200 ck_henv 5 ck_hash toy_k (lit "u") 100 (toy_gz ex_data) with RcOk 2 true _ => True | _ => False end.
Proof. exact ex_fix_pf. Qed.

(** C62 is false for gzip files with an empty member: here an empty member is followed by one
    with two records.  Decompressed, the file is an archive of these two records; recompress
    writes only the first and reports no error. *)
Theorem C62_records_lost_refuted :
  let r1 := ex_resp "resource" "urn:a" 5 (lit "hello") ++ four in
let r2 := ex_resp "resource" "urn:b" 5 (lit "world") ++ four in
exists data out, members toy_z false data (r1 ++ r2)
  /\ List.length (fst (ex_run (recompress_opts (lit "u")) (r1 ++ r2))) = 2%nat /\ snd (ex_run (recompress_opts (lit "u")) (r1 ++ r2)) = EndStop
  /\ recompress (zl:=toy_z) 1000 ck_henv 5 ck_hash toy_k (lit "u") 100 data = RcOk 1 false out.
Proof. exact C62_records_lost_refuted_pf. Qed.
Print Assumptions C62_records_lost_refuted.



(** C62 is false for HTTP headers with bytes outside ASCII: the value C3 A9 (UTF-8 for e
    acute) comes back as the six characters %C3%A9; the other header is unchanged. *)
Theorem C62_non_ascii_refuted :
  exists data out ob ob', recompress (zl:=toy_z) 600 ck_henv 5 ck_hash toy_k (lit "u") 100 data = RcOk 1 false out
  /\ run_iter (zl:=toy_z) 600 ck_henv (recompress_opts (lit "u")) 5 (fun _ => [URead None]) 0 (iter_new (raw_open data []) BUFF_SIZE None) = ([ob], EndStop)
  /\ run_iter (zl:=toy_z) 600 ck_henv (recompress_opts (lit "u")) 5 (fun _ => [URead None]) 0 (iter_new (raw_open out []) BUFF_SIZE None) = ([ob'], EndStop)
  /\ option_map sh_headers (rc_http (ob_record ob)) = Some [(lit "A", [233%N]); (lit "B", lit "c")]
  /\ option_map sh_headers (rc_http (ob_record ob')) = Some [(lit "A", lit "%C3%A9"); (lit "B", lit "c")].
Proof. exact C62_non_ascii_refuted_pf. Qed.
Print Assumptions C62_non_ascii_refuted.



(** C64: a record read from an archive of complete records (any content; HTTP headers that
    can be serialised, to [hb]) and written again is well framed.  Needed: one Content-Length
    header; a revisit record has no payload; and if the headers parsed count as empty then
    none were taken from the block. *)
Theorem C64_framed_partial :
  forall (zl : zenv) fuel he o M sched data es known n prog obs sha1 i e off len ob hb,
  good_archive every zl fuel he o M 0 sched data es -> lo_norec o = false -> lo_ensure o = false -> known <> Some FArc ->
  (List.length es < n)%nat -> (forall j, nonneg_ops (prog j) /\ no_lines (prog j)) ->
  run_iter (zl:=zl) fuel he o n prog 0 (iter_new (raw_open data sched) BUFF_SIZE known) = (obs, EndStop) ->
  nth_error es i = Some (e, (off, len)) -> nth_error obs i = Some ob -> hash_bytes sha1 ->
  (occurs (lit "Content-Length") (w_headers (e_rec e)) <= 1)%nat ->
  (w_value "WARC-Type" (e_rec e) = Some (lit "revisit") -> e_payload e = []) ->
  (osah_bool (e_http e) = false -> w_block (e_rec e) = e_payload e) -> http_block None (e_http e) hb ->
  exists ws r' hs', write_plain fuel sha1 None (read_wrec (ob_record ob) (e_payload e)) = (Ok tt, ws, r')
    /\ is_record (w_version (e_rec e)) hs' (hb ++ e_payload e) (concat ws)
    /\ value_of (lit "Content-Length") hs' = Some (str_of_Z (lenZ (hb ++ e_payload e))).
Proof. exact C64_framed_partial_pf. Qed.
Print Assumptions C64_framed_partial.

(** the hypotheses are met by the first record of the example archive *)
Example C64_ex : good_archive every toy_z 500 ck_henv (recompress_opts (lit "u")) 200 0 [] ex_data (placed 0 ex_list)
  /\ match nth_error (placed 0 ex_list) 0 with
     | Some (e, _) => (occurs (lit "Content-Length") (w_headers (e_rec e)) <= 1)%nat /\ osah_bool (e_http e) = true
         /\ http_block None (e_http e) (lit "HTTP/1.1 200 OK" ++ crlf ++ lit "A: b" ++ crlf ++ crlf)
     | None => False end.
Proof. split; [exact (proj1 (proj2 (proj2 (proj2 ex_rewrite_pf))))|]. vm_compute. repeat split. apply le_n. Qed.

(** C64 is false: HTTP headers without status text and fields count as "no headers", so the
    12 bytes that were parsed as headers are not written, but the Content-Length stays 17 *)
Theorem C64_no_status_refuted :
  misframed (ex_resp "response" "http://a/" 17 (lit "HTTP/1.0" ++ crlf ++ crlf ++ lit "hello") ++ four)
          (lit "hello") (lit "17") (lit "hello").
Proof. exact C64_no_status_refuted_pf. Qed.
Print Assumptions C64_no_status_refuted.



(** C64 is false: the block of a revisit record without HTTP headers is not written, but the
    Content-Length stays 5 *)
Theorem C64_revisit_refuted :
  misframed (ex_resp "revisit" "urn:a" 5 (lit "hello") ++ four) (lit "hello") (lit "5") [].
Proof. exact C64_revisit_refuted_pf. Qed.
Print Assumptions C64_revisit_refuted.



(** C64 is false: a truncated last record is read without an exception and written with the
    Content-Length of the complete one *)
Theorem C64_truncated_refuted :
  misframed (ex_resp "resource" "urn:a" 9 (lit "hello")) (lit "hello") (lit "9") (lit "hello").
Proof. exact C64_truncated_refuted_pf. Qed.
Print Assumptions C64_truncated_refuted.



(** C65: for the archives of C62, if a record's block is written as it was read (or the
    record has no block digest), the record written has a wrong digest if and only if the one
    read had: checking both files gives the same verdicts.  [sha1] is hashlib's sha1, the
    environment's algorithms yield byte strings of one length, at least 16.
    Missing: see C62_recompress_partial; digests that are neither well formed nor of an
    unknown algorithm; a wrong block digest of an empty block. *)
Theorem C65_digests_partial :
  forall (zl : zenv) fuel he k sha1 uuid M data es n size,
  gzip_codec zl k -> henv_ok he -> he (lit "sha1") = Some sha1 -> 0 <= M ->
  good_archive every zl fuel he (check_opts uuid) M 0 [] data es ->
  Forall (fun x => rewritable fuel M false (fst x)) es ->
  Forall (fun x => digest_stable (fst x) /\ judge_ok he (fst x)) es -> es <> [] -> (List.length es < n)%nat ->
  exists es' ms, recompress (zl:=zl) fuel he n sha1 k uuid size data = RcOk (List.length es) false (concat ms)
    /\ Forall2 (fun x e' => rewritten sha1 (fst x) e') es es' /\ compressed zl es' ms
    /\ Forall2 (fun x e' => fails he (fst x) <-> fails he e') es es'
    /\ (back_fits zl fuel es' ms ->
        let check := fun data => run_iter (zl:=zl) fuel he (check_opts uuid) n (fun _ => [URead None]) 0 (iter_new (raw_open data []) BUFF_SIZE None) in
        exists obs obs', check data = (obs, EndStop) /\ check (concat ms) = (obs', EndStop)
          /\ Forall2 (fun ob ob' => ob_passed ob = Some false <-> ob_passed ob' = Some false) obs obs').
Proof. exact C65_digests_partial_pf. Qed.
Print Assumptions C65_digests_partial.



(** C65 is false: HTTP headers spelled "A:b" are written as "A: b", the WARC-Block-Digest is
    kept, and the record that passed the check fails it after recompressing *)
Theorem C65_respelled_refuted :
  exists data out ob ob', recompress (zl:=toy_z) 600 ck_henv 5 ck_hash toy_k (lit "u") 100 data = RcOk 1 false out
  /\ ex_run (check_opts (lit "u")) data = ([ob], EndStop) /\ ob_passed ob = Some true
  /\ ex_run (check_opts (lit "u")) out = ([ob'], EndStop) /\ ob_passed ob' = Some false
  /\ ob_reads ob' = ob_reads ob.
Proof. exact C65_respelled_refuted_pf. Qed.
Print Assumptions C65_respelled_refuted.


