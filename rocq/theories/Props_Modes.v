(** * Props_Modes: iterations with different values of check_digests and ensure_http_headers (C69, C83, C84, C87) *)
From Coq Require Import String List ZArith NArith Bool.
From Verif Require Import PyBase Headers Streams StreamSpec DigestSpec Loader Iterator IterSpec Cli CliSpec ReportSpec ModeSpec Toy.
Import ListNotations.
Open Scope Z_scope.
From Verif Require Import Thm_Modes.

(** C83 (first half).  For every file and every consumer: iterating with check_digests='log'
    shows the same records, data, offsets, lengths, results of checking and end as with True. *)
Theorem C83_log :
  forall (zl : zenv) fuel he o n prog file block known,
  let run k := run_iter fuel he (with_check k o) n prog 0 (iter_new (zl:=zl) file block known) in
  Forall2 (same_obs eq) (fst (run KTrue)) (fst (run KLog)) /\ snd (run KTrue) = snd (run KLog).
Proof. exact C83_log_pf. Qed.
Print Assumptions C83_log.

(** C83 (second half).  For every file and every consumer, compare the iteration with
    check_digests=True (or 'log') and the one with 'raise'.  For some [j] they show the same at
    the first [j] records, and none of these records failed.  Then both end there in the same
    way, or the second one raises ArchiveLoadFailed at record [j].  In this case the first one,
    if it does not parse HTTP headers (no_record_parse), has passed False at record [j] or has
    itself raised at [j] or before. *)
Theorem C83_raise :
  forall (zl : zenv) fuel he o k n prog file block known, k = KTrue \/ k = KLog ->
  let run k := run_iter fuel he (with_check k o) n prog 0 (iter_new (zl:=zl) file block known) in
  let (os, en) := run k in let (os', en') := run KRaise in
  exists j, Forall2 (same_obs (fun a b => a = b /\ a <> Some false)) (firstn j os) (firstn j os')
    /\ (j = List.length os /\ j = List.length os' /\ en = en'
        \/ raises_at ArchiveLoadFailed os' en' j
           /\ (lo_norec o = true -> (exists ob, nth_error os j = Some ob /\ ob_passed ob = Some false)
                                    \/ exists e i, (i <= j)%nat /\ raises_at e os en i)).
Proof. exact C83_raise_pf. Qed.
Print Assumptions C83_raise.

Definition mode_block := lit "HTTP/1.1 200 OK" ++ crlf ++ crlf ++ lit "body".
Definition mode_text (bd : str) := lit "WARC/1.0" ++ crlf ++ lit "WARC-Type: response" ++ crlf ++ lit "WARC-Target-URI: http://a/" ++ crlf
   ++ lit "WARC-Block-Digest: " ++ bd ++ crlf ++ lit "Content-Length: 23" ++ crlf ++ crlf.
Definition mode_run (data : bytes) (k : ckind) :=
  let (os, en) := run_iter (zl:=toy_z) 500 ck_henv (with_check k (mk_lopts false false false false KFalse (lit "u"))) 4 (fun _ => [URead None]) 0
                    (iter_new (raw_open data []) 200 None) in
  (map (fun ob => (ob_reads ob, ob_passed ob)) os, en).

(** three records, the second one with a wrong digest *)
Example C83_ex :
  let data := mode_text (ck_digest mode_block) ++ mode_block ++ crlf ++ crlf ++ mode_text (ck_digest (lit "x")) ++ mode_block ++ crlf ++ crlf
              ++ mode_text (ck_digest mode_block) ++ mode_block ++ crlf ++ crlf in
  mode_run data KTrue = ([([Ok (lit "body")], Some true); ([Ok (lit "body")], Some false); ([Ok (lit "body")], Some true)], EndStop)
  /\ mode_run data KLog = mode_run data KTrue
  /\ exists os en, mode_run data KRaise = (([Ok (lit "body")], Some true) :: ([Err ArchiveLoadFailed], None) :: os, en).
Proof. vm_compute. repeat split. eexists. eexists. reflexivity. Qed.
(** why the last part needs no_record_parse: a file cut off before the block of a record with a
    digest of an unknown kind *)
Example C83_lost :
  let data := mode_text (lit "what:ABC") in
  mode_run data KTrue = ([], EndStop) /\ mode_run data KRaise = ([], EndExn ArchiveLoadFailed).
Proof. vm_compute. repeat split. Qed.

(** C84.  For every file and every consumer, compare an iteration that does not check digests
    with one that does (in any mode).  They show the same records, data, offsets and lengths and
    end in the same way, unless the second one raises what checking a digest may raise (a
    binascii error; ArchiveLoadFailed in mode 'raise'); up to that record they show the same. *)
Theorem C84_undisturbed :
  forall (zl : zenv) fuel he o k n prog file block known,
  let run k := run_iter fuel he (with_check k o) n prog 0 (iter_new (zl:=zl) file block known) in
  let (os, en) := run KFalse in let (os', en') := run k in
  exists j, Forall2 (same_obs (fun _ _ => True)) (firstn j os) (firstn j os')
    /\ (j = List.length os /\ j = List.length os' /\ en = en'
        \/ raises_at BinasciiErr os' en' j \/ (k = KRaise /\ raises_at ArchiveLoadFailed os' en' j)).
Proof. exact C84_undisturbed_pf. Qed.
Print Assumptions C84_undisturbed.

(** wrong digests disturb nothing; a malformed one of which the length is not that of base32 raises *)
Example C84_ex :
  let data := mode_text (ck_digest mode_block) ++ mode_block ++ crlf ++ crlf ++ mode_text (ck_digest (lit "x")) ++ mode_block ++ crlf ++ crlf in
  mode_run data KFalse = ([([Ok (lit "body")], None); ([Ok (lit "body")], None)], EndStop)
  /\ mode_run data KTrue = ([([Ok (lit "body")], Some true); ([Ok (lit "body")], Some false)], EndStop).
Proof. vm_compute. repeat split. Qed.
Example C84_bad :
  let data := mode_text (lit "sha1:a") ++ mode_block ++ crlf ++ crlf in
  fst (mode_run data KFalse) = [([Ok (lit "body")], None)]
  /\ exists p, fst (mode_run data KTrue) = [([Err BinasciiErr], p)].
Proof. vm_compute. split; [reflexivity|eexists; reflexivity]. Qed.

(** C69, mode 'raise'.  Iterating with check_digests='raise' over an archive of well-formed
    records: if no record has a wrong digest, everything is seen as with True; otherwise all
    records before the first one with a wrong digest are seen as with True, and
    ArchiveLoadFailed is raised at this one.  (Restrictions of C34; no record with an empty block has
    a wrong block digest.) *)
Theorem C69_raise_partial :
  forall (zl : zenv) fuel he norec verify a2w uuid M prog es sched block known n,
  let opts k := mk_lopts norec verify a2w false k uuid in
  let run k := run_iter fuel he (opts k) n prog 0 (iter_new (zl:=zl) (raw_open (texts es) sched) block known) in
  gz_magic zl -> first_two block sched -> reads_fit M block sched -> 0 <= M -> enough fuel (texts es) ->
  (forall i e, nth_error es i = Some e -> good_entry fuel he (opts KTrue) M (prog i) e) ->
  Forall (not_vacuous he) es -> known <> Some FArc -> (List.length es < n)%nat ->
  (Forall (fun e => ~ fails he e) es ->
     snd (run KRaise) = EndStop /\ snd (run KTrue) = EndStop /\ Forall2 (same_obs eq) (fst (run KTrue)) (fst (run KRaise)))
  /\ forall i e, nth_error es i = Some e -> fails he e -> Forall (fun e => ~ fails he e) (firstn i es) ->
       List.length (firstn i (fst (run KRaise))) = i
       /\ Forall2 (same_obs eq) (firstn i (fst (run KTrue))) (firstn i (fst (run KRaise)))
       /\ raises_at ArchiveLoadFailed (fst (run KRaise)) (snd (run KRaise)) i.
Proof. exact C69_raise_partial_pf. Qed.
Print Assumptions C69_raise_partial.

(** two records, the second one with a wrong digest or a right one *)
Example C69_raise_ex : forall good, let es := rev (Thm_Cli.ex_es good) in
  gz_magic toy_z /\ first_two 200 [] /\ reads_fit 200 200 [] /\ enough 500 (texts es)
  /\ (forall i e, nth_error es i = Some e -> good_entry 500 ck_henv (mk_lopts false false false false KTrue (lit "u")) 200 [] e)
  /\ Forall (not_vacuous ck_henv) es.
Proof. exact raise_pre. Qed.
Example C69_raise_ex2 :
  let run good := run_iter (zl:=toy_z) 500 ck_henv (mk_lopts false false false false KRaise (lit "u")) 4 (fun _ => []) 0
                    (iter_new (raw_open (texts (rev (Thm_Cli.ex_es good))) []) 200 None) in
  map ob_passed (fst (run true)) = [None; Some true] /\ snd (run true) = EndStop
  /\ map (fun ob => (ob_passed ob, ob_info ob)) (fst (run false)) = [(None, Ok (Some (0, 57))); (None, Err ArchiveLoadFailed)].
Proof. vm_compute. repeat split. Qed.

(** C87.  For every file, every consumer and all options: iterating with ensure_http_headers=True
    shows the same records, data, offsets, lengths, results of checking and end as without it,
    and the same HTTP headers where there are any; every other record has the status line
    HTTP/1.0 200 OK, its Content-Type (if it has a non-empty one) and its length (if known) as
    HTTP headers. *)
Theorem C87_ensure :
  forall (zl : zenv) fuel he o n prog file block known,
  let run b := run_iter fuel he (with_ensure b o) n prog 0 (iter_new (zl:=zl) file block known) in
  Forall2 (obs_rel ensured eq) (fst (run false)) (fst (run true)) /\ snd (run false) = snd (run true).
Proof. exact C87_ensure_pf. Qed.
Print Assumptions C87_ensure.

(** a resource record of 5 bytes without a Content-Type, a warcinfo record with an empty block
    and a Content-Type, and a response *)
Example C87_ex :
  let data := Thm_Cli.ex_text Thm_Cli.ex_w2 ++ lit "WARC/1.0" ++ crlf ++ lit "WARC-Type: warcinfo" ++ crlf ++ lit "Content-Type: a/b" ++ crlf ++ lit "Content-Length: 0" ++ crlf ++ crlf ++ crlf ++ crlf
              ++ Thm_Cli.ex_text (Thm_Cli.ex_w1 true) in
  let run b := run_iter (zl:=toy_z) 500 ck_henv (with_ensure b (mk_lopts false false false false KTrue (lit "u"))) 4 (fun _ => [URead None]) 0
                 (iter_new (raw_open data []) 400 None) in
  map (fun ob => (option_map (fun h => (sh_proto h, sh_status h, sh_headers h)) (rc_http (ob_record ob)), ob_reads ob)) (fst (run true))
  = [(Some (lit "HTTP/1.0", lit "200 OK", [(lit "Content-Length", lit "5")]), [Ok (lit "hello")]);
     (Some (lit "HTTP/1.0", lit "200 OK", [(lit "Content-Type", lit "a/b"); (lit "Content-Length", lit "0")]), [Ok []]);
     (Some (lit "HTTP/1.1", lit "200 OK", [(lit "A", lit "b")]), [Ok (lit "body")])].
Proof. vm_compute. reflexivity. Qed.
