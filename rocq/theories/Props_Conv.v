(** * Props_Conv: ARC files converted to WARC by recompress (C93) *)
From Coq Require Import String List ZArith NArith Bool Lia.
From Coq Require Import ZifyBool ZifyNat ZifyN.
From Verif Require Import PyBase Utf8 Codecs Headers HeaderSpec Streams StreamSpec DigestSpec TimeUtils TimeSpec Loader Iterator Writer WriterSpec IterSpec RoundSpec ArcSpec Cli CliSpec RewriteSpec ConvSpec Toy.
Import ListNotations.
Open Scope Z_scope.
From Verif Require Import Thm_Conv.

(** C93.  Recompressing an ARC file (as in C75) whose records can be written converts it to a
    WARC file: one gzip member for each record, in order, with the headers of C44 and C75, the
    HTTP headers and the content of the ARC record; the Content-Length is that of the block
    written, also for the description of the file, and digests are added.  Reading the output
    gives these records. *)
Theorem C93_convert :
  forall (zl : zenv) fuel he k sha1 uuid M data es n size,
  gzip_codec zl k -> hash_bytes sha1 -> 0 <= M -> wf_value uuid ->
  arc_archive zl fuel (recompress_opts uuid) M data es -> Forall (arc_writable fuel M) es -> (List.length es < n)%nat ->
  exists es0 es' ms, recompress (zl:=zl) fuel he n sha1 k uuid size data = RcOk (List.length es) false (concat ms)
    /\ Forall2 (arc_as_warc uuid) es es0 /\ Forall2 (rewritten sha1) es0 es' /\ compressed zl es' ms
    /\ (es <> [] -> back_fits zl fuel es' ms -> forall o n',
          lo_norec o = false -> lo_verify o = false -> digests_off o -> (List.length es < n')%nat ->
          exists obs, run_iter (zl:=zl) fuel he o n' (fun _ => [URead None]) 0 (iter_new (raw_open (concat ms) []) BUFF_SIZE None) = (obs, EndStop)
            /\ Forall2 (comes_back sha1) es0 obs).
Proof. exact C93_convert_pf. Qed.
Print Assumptions C93_convert.

(** the file of C75_ex meets the conditions; the description of the file gets the Content-Length of
    what is left of it (its line says 34), the response its URL with the space encoded *)
Example C93_good : arc_archive toy_z 600 (recompress_opts (lit "u")) 200 (ae_texts Thm_Arc.ex_es) Thm_Arc.ex_es
  /\ Forall (arc_writable 600 200) Thm_Arc.ex_es.
Proof. exact conv_ex. Qed.
Example C93_ex :
  match recompress (zl:=toy_z) 1600 ck_henv 5 ck_hash toy_k (lit "u") 100 (ae_texts Thm_Arc.ex_es) with
  | RcOk 2 false out =>
      let (os, en) := run_iter (zl:=toy_z) 1600 ck_henv (recompress_opts (lit "u")) 5 (fun _ => [URead None]) 0 (iter_new (raw_open out []) BUFF_SIZE None) in
      map (fun ob => (rc_type (ob_record ob), get_header (lit "Content-Length") (rc_headers (ob_record ob)),
                      get_header (lit "WARC-Target-URI") (rc_headers (ob_record ob)), ob_reads ob)) os
      = [(Some (lit "warcinfo"), Some (lit "2"), None, [Ok (lit "!!")]);
         (Some (lit "response"), Some (lit "25"), Some (lit "http://a/x%20y"), [Ok []])] /\ en = EndStop
  | _ => False
  end.
Proof. vm_compute. repeat split. Qed.

(** C93.  The converted file passes check: all digests were computed from what was written. *)
Theorem C93_check :
  forall (zl : zenv) fuel he k sha1 uuid M data es n size,
  gzip_codec zl k -> henv_ok he -> he (lit "sha1") = Some sha1 -> 64 <= M -> wf_value uuid ->
  arc_archive zl fuel (recompress_opts uuid) M data es -> Forall (arc_writable fuel M) es -> es <> [] -> (List.length es < n)%nat ->
  exists es' ms, recompress (zl:=zl) fuel he n sha1 k uuid size data = RcOk (List.length es) false (concat ms)
    /\ compressed zl es' ms /\ Forall (fun e => exists d, w_value "WARC-Block-Digest" (e_rec e) = Some d) es'
    /\ (back_fits zl fuel es' ms -> Forall2 (fun e m => unchunked e \/ lenZ m <= BUFF_SIZE) es' ms ->
        forall name verbose x ms1,
        check_all (zl:=zl) fuel he n verbose uuid 0 [(name, raw_open (concat ms) [])] = (x, ms1) -> x <> Err OutOfFuel -> x = Ok 0).
Proof. exact C93_check_pf. Qed.
Print Assumptions C93_check.

Example C93_check_ex :
  match recompress (zl:=toy_z) 1600 ck_henv 5 ck_hash toy_k (lit "u") 100 (ae_texts Thm_Arc.ex_es) with
  | RcOk 2 false out => fst (check_all (zl:=toy_z) 1600 ck_henv 5 false (lit "u") 0 [(lit "a", raw_open out [])]) = Ok 0
  | _ => False
  end.
Proof. vm_compute. reflexivity. Qed.
