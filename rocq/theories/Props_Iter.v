(** * Props_Iter: archive iterator on uncompressed archives (C34, C36-C38, C40, C41) *)
From Coq Require Import String List ZArith NArith Bool Lia.
From Coq Require Import ZifyBool ZifyNat ZifyN.
From Verif Require Import PyBase Utf8 Codecs Headers HeaderSpec Streams StreamSpec DigestSpec Loader Iterator WriterSpec IterSpec Toy.
Import ListNotations.
Open Scope Z_scope.
From Verif Require Import Thm_Iter.

(** examples: a response with HTTP headers and a resource record whose block looks like a
    WARC record *)
Definition ex_o : lopts := mk_lopts false false false false KFalse (lit "u").
Definition ex_text (w : wrc) : bytes :=
  match utf8_encode (record_text (w_version w) (w_headers w)) with
  | Some h => h ++ w_block w ++ [13; 10; 13; 10]%N
  | None => []
  end.
Definition ex_block : bytes := lit "HTTP/1.0 200 OK" ++ crlf ++ lit "A: b" ++ crlf ++ crlf.
Definition ex_w1 : wrc :=
  mk_wrc (lit "WARC/1.0") [(lit "WARC-Type", lit "response"); (lit "WARC-Target-URI", lit "http://a/"); (lit "Content-Length", lit "25")]
         ex_block.
Definition ex_w2 : wrc :=
  mk_wrc (lit "WARC/1.1") [(lit "WARC-Type", lit "resource"); (lit "Content-Length", lit "12")]
         (lit "WARC/1.0" ++ crlf ++ crlf).
Definition ex_http : sah :=
  match fst (load_http_headers raw_ops 300 false (Some (lit "response")) (Some (lit "http://a/")) (Some 25) (raw_open ex_block [])) with
  | Ok (Some h) => h
  | _ => sah_new [] [] []
  end.
Definition ex_es : list entry :=
  [mk_entry ex_w1 (ex_text ex_w1) (Some ex_http) []; mk_entry ex_w2 (ex_text ex_w2) None (w_block ex_w2)].
Definition ex_prog (k : nat) : list uop := match k with O => [] | _ => [URead (Some 3); URead None; UInfo; URead None] end.

(** C34.  Iterating over the texts of well-formed records yields each record once, in
    order, then stops.  Each observation has the record's headers, type and length, its
    HTTP headers and payload as they are in its block, whatever the consumer reads; the
    offset is the position of the record and the length that of headers and block.
    Lines read from inside a record (HTTP headers, readline by the consumer) are at most
    [M] long, where M <= block size and the file does not return short reads; nothing is
    asked of records without HTTP headers that are not read by lines.  If digests are
    checked (not with 'raise'), passed is the verdict about block and payload, see
    [checked].  Missing: longer lines, where the claim is false (below); check_digests='raise'. *)
Theorem C34_iterate_partial :
  forall (zl : zenv) fuel he o M prog es sched block known n,
  gz_magic zl -> first_two block sched -> reads_fit M block sched -> 0 <= M -> enough fuel (texts es) ->
  (forall k e, nth_error es k = Some e -> good_entry fuel he o M (prog k) e) ->
  lo_ensure o = false -> known <> Some FArc -> (List.length es < n)%nat ->
  exists obs, run_iter (zl:=zl) fuel he o n prog 0 (iter_new (raw_open (texts es) sched) block known) = (obs, EndStop)
    /\ List.length obs = List.length es
    /\ forall k e ob, nth_error es k = Some e -> nth_error obs k = Some ob ->
         observed he o (e_rec e) (e_http e) (e_payload e) (position k es) (lenZ (e_text e) - 4) (prog k) ob.
Proof. exact C34_iterate_partial_pf. Qed.
Print Assumptions C34_iterate_partial.

Example C34_good : forall i e, nth_error ex_es i = Some e -> good_entry 300 toy_henv ex_o 200 (ex_prog i) e.
Proof. exact ex_good_pf. Qed.
Example C34_ex :
  let (obs, en) := run_iter (zl:=toy_z) 300 toy_henv ex_o 3 ex_prog 0 (iter_new (raw_open (texts ex_es) []) 200 None) in
  map (fun ob => (rc_type (ob_record ob), ob_reads ob, ob_info ob)) obs
  = [(Some (lit "response"), [], Ok (Some (0, 106)));
     (Some (lit "resource"), [Ok (lit "WAR"); Ok (lit "C/1.0" ++ crlf ++ crlf); Ok []; Ok []], Ok (Some (110, 65)))]
  /\ map (fun ob => option_map sh_headers (rc_http (ob_record ob))) obs = [Some [(lit "A", lit "b")]; None] /\ en = EndStop.
Proof. vm_compute. repeat split. Qed.

(** C34 is false for every block size and every short-read behaviour: BufferedReader's
    readline(n) (C06) cuts HTTP header lines that cross two block boundaries.  With blocks
    of 6 bytes, or a file returning 5 bytes at a time, a response is observed with HTTP
    headers that are not those in its block (finding). *)
Theorem C34_short_reads_refuted :
  (exists obs, run_iter (zl:=toy_z) 300 toy_henv ex_o 3 (fun _ => []) 0 (iter_new (raw_open (ex_text ex_w1) []) 6 None) = (obs, EndStop)
   /\ map (fun ob => option_map (fun h => (sh_status h, sh_headers h)) (rc_http (ob_record ob))) obs = [Some (lit "200 OK", [])])
/\ (exists obs, run_iter (zl:=toy_z) 300 toy_henv ex_o 3 (fun _ => []) 0 (iter_new (raw_open (ex_text ex_w1) (repeat 5 60)) BUFF_SIZE None) = (obs, EndStop)
   /\ map (fun ob => option_map (fun h => (sh_status h, sh_headers h)) (rc_http (ob_record ob))) obs = [Some (lit "200 O", [(lit "A", lit "b")])])
/\ http_view 300 false false ex_w1 (Some ex_http) [] /\ (sh_status ex_http, sh_headers ex_http) = (lit "200 OK", [(lit "A", lit "b")]).
Proof. exact C34_short_reads_refuted_pf. Qed.
Print Assumptions C34_short_reads_refuted.



(** C36.  Opening the archive at the position of record number [k] and iterating yields
    that record and the following ones, with the offsets they have in the whole file; and
    the slice given by offset and length of a record is its text without the two empty
    lines.  (Same restriction as C34.) *)
Theorem C36_random_access_partial :
  forall (zl : zenv) fuel he o M prog es sched block known n k,
  gz_magic zl -> first_two block sched -> reads_fit M block sched -> 0 <= M -> enough fuel (texts es) ->
  (forall i e, nth_error es (k + i) = Some e -> good_entry fuel he o M (prog i) e) ->
  lo_ensure o = false -> known <> Some FArc -> (List.length es < n)%nat ->
  let off := position k es in
  (exists obs, run_iter (zl:=zl) fuel he o n prog 0 (iter_new (mk_raw (dropZ off (texts es)) off sched) block known) = (obs, EndStop)
    /\ List.length obs = (List.length es - k)%nat
    /\ forall i e ob, nth_error es (k + i) = Some e -> nth_error obs i = Some ob ->
         observed he o (e_rec e) (e_http e) (e_payload e) (position (k + i) es) (lenZ (e_text e) - 4) (prog i) ob)
  /\ forall e, nth_error es k = Some e -> takeZ (lenZ (e_text e) - 4) (dropZ off (texts es)) ++ [13; 10; 13; 10]%N = e_text e.
Proof. exact C36_random_access_partial_pf. Qed.
Print Assumptions C36_random_access_partial.

Example C36_ex :
  let (obs, en) := run_iter (zl:=toy_z) 300 toy_henv ex_o 3 (fun _ => [URead None]) 0
                     (iter_new (mk_raw (dropZ 110 (texts ex_es)) 110 []) 200 None) in
  map (fun ob => (rc_type (ob_record ob), ob_reads ob, ob_info ob)) obs
  = [(Some (lit "resource"), [Ok (w_block ex_w2)], Ok (Some (110, 65)))] /\ en = EndStop.
Proof. vm_compute. repeat split. Qed.

(** C69.  Checking digests while iterating (check_digests True or 'log', not 'raise') over
    an archive of well-formed records: whatever the consumer reads, passed of each record
    that has been left is the verdict about its block and payload, and records, HTTP
    headers, read data, offsets and lengths are those of an iteration without checking.
    (Restrictions of C34; the block digest of an empty block is not compared.) *)
Theorem C69_check_partial :
  forall (zl : zenv) fuel he norec verify a2w uuid chk M prog es sched block known n,
  let on := mk_lopts norec verify a2w false chk uuid in
  let off := mk_lopts norec verify a2w false KFalse uuid in
  let file := iter_new (zl:=zl) (raw_open (texts es) sched) block known in
  gz_magic zl -> first_two block sched -> reads_fit M block sched -> 0 <= M -> enough fuel (texts es) ->
  (forall k e, nth_error es k = Some e -> good_entry fuel he on M (prog k) e) ->
  chk <> KFalse -> known <> Some FArc -> (List.length es < n)%nat ->
  exists obs obs', run_iter fuel he on n prog 0 file = (obs, EndStop) /\ run_iter fuel he off n prog 0 file = (obs', EndStop)
    /\ List.length obs = List.length es
    /\ map (fun ob => (rc_type (ob_record ob), sh_headers (rc_headers (ob_record ob)), rc_http (ob_record ob), ob_reads ob, ob_info ob)) obs
       = map (fun ob => (rc_type (ob_record ob), sh_headers (rc_headers (ob_record ob)), rc_http (ob_record ob), ob_reads ob, ob_info ob)) obs'
    /\ forall k e ob vb vp, nth_error es k = Some e -> nth_error obs k = Some ob -> w_block (e_rec e) <> [] ->
         judged he (w_block (e_rec e)) (block_digest (e_rec e)) vb -> judged he (e_payload e) (payload_digest (e_rec e)) vp ->
         ob_passed ob = combine vb vp.
Proof. exact C69_check_partial_pf. Qed.
Print Assumptions C69_check_partial.

Example C69_ex :
  let block := lit "HTTP/1.1 200 OK" ++ crlf ++ crlf ++ lit "body" in
  let text bd := lit "WARC/1.0" ++ crlf ++ lit "WARC-Type: response" ++ crlf ++ lit "WARC-Target-URI: http://a/" ++ crlf
     ++ lit "WARC-Block-Digest: " ++ bd ++ crlf ++ lit "Content-Length: 23" ++ crlf ++ crlf ++ block ++ crlf ++ crlf in
  let (obs, en) := run_iter (zl:=toy_z) 500 ck_henv (mk_lopts false false false false KTrue (lit "u")) 3 (fun i => match i with O => [URead (Some 3)] | _ => [] end) 0
                     (iter_new (raw_open (text (ck_digest block) ++ text (ck_digest (lit "other"))) []) 200 None) in
  map (fun ob => (ob_reads ob, ob_passed ob)) obs = [([Ok (lit "bod")], Some true); ([], Some false)] /\ en = EndStop.
Proof. vm_compute. repeat split. Qed.
Example C69_ready : henv_ok ck_henv /\ judgeable ck_henv (Some (ck_digest (lit "other"))).
Proof. exact ck_ready_pf. Qed.

(** C37.  For every prefix of an archive of well-formed records, and every record whose
    headers and block are wholly contained in the prefix: iteration first yields all
    records up to this one, as in the complete archive; what comes afterwards ([os], [en])
    depends on the cut.  (Same restriction as C34.) *)
Theorem C37_truncated_partial :
  forall (zl : zenv) fuel he o M prog es sched block known n k e pre suf,
  gz_magic zl -> first_two block sched -> reads_fit M block sched -> 0 <= M -> enough fuel (texts es) ->
  (forall i e, nth_error es i = Some e -> good_entry fuel he o M (prog i) e) ->
  lo_ensure o = false -> known <> Some FArc -> (k < n)%nat ->
  texts es = pre ++ suf -> nth_error es k = Some e -> position k es + (lenZ (e_text e) - 4) <= lenZ pre ->
  exists obs os en,
    run_iter (zl:=zl) fuel he o n prog 0 (iter_new (raw_open pre sched) block known) = (obs ++ os, en)
    /\ List.length obs = Datatypes.S k
    /\ forall i e ob, nth_error es i = Some e -> nth_error obs i = Some ob ->
         observed he o (e_rec e) (e_http e) (e_payload e) (position i es) (lenZ (e_text e) - 4) (prog i) ob.
Proof. exact C37_truncated_partial_pf. Qed.
Print Assumptions C37_truncated_partial.

Example C37_ex :
  let cut := takeZ 130 (texts ex_es) in
  let (obs, en) := run_iter (zl:=toy_z) 300 toy_henv ex_o 5 ex_prog 0 (iter_new (raw_open cut []) 200 None) in
  match obs with
  | ob :: _ => ob_info ob = Ok (Some (0, 106)) /\ rc_http (ob_record ob) = Some ex_http
  | [] => False
  end.
Proof. vm_compute. repeat split. Qed.

(** C38 is false: an archive cut after the WARC headers of a response (the parser then
    sees no HTTP header line and raises EOFError, which the iterator takes for the end of
    the archive) is iterated to a normal end, without the record and without an error. *)
Theorem C38_silent_cut_refuted :
  exists pre suf, ex_text ex_w1 = pre ++ suf /\ lenZ pre = 81 /\ lenZ suf = 29
  /\ run_iter (zl:=toy_z) 300 toy_henv ex_o 3 (fun _ => [URead None]) 0 (iter_new (raw_open pre []) BUFF_SIZE None) = ([], EndStop).
Proof. exact C38_silent_cut_refuted_pf. Qed.
Print Assumptions C38_silent_cut_refuted.



(** C38 is also false for cuts inside WARC headers: a resource record cut before its
    Content-Length line is yielded as a record without a length and without content, and
    iteration ends normally. *)
Theorem C38_headers_cut_refuted :
  exists pre suf, ex_text ex_w2 = pre ++ suf /\ lenZ pre = 31 /\ lenZ suf = 38
  /\ let (os, en) := run_iter (zl:=toy_z) 300 toy_henv ex_o 3 (fun _ => [URead None]) 0 (iter_new (raw_open pre []) BUFF_SIZE None) in
     map (fun ob => (rc_type (ob_record ob), rc_length (ob_record ob), ob_reads ob)) os = [(Some (lit "resource"), None, [Ok []])] /\ en = EndStop.
Proof. exact C38_headers_cut_refuted_pf. Qed.
Print Assumptions C38_headers_cut_refuted.



(** C81: well-formed records separated by any number of blank lines (any white space that
    ends with a line end), followed by any white space, as an uncompressed file: every
    record is yielded once, in order, with its own offset and length.  Missing: compressed
    files, and long lines as in C34. *)
Theorem C81_blank_lines_partial :
  forall (zl : zenv) fuel he o M prog xs sched block known n,
  gz_magic zl -> first_two block sched -> reads_fit M block sched -> 0 <= M -> enough fuel (spaced xs) ->
  (forall k e t, nth_error xs k = Some (e, t) -> good_entry fuel he o M (prog k) e) -> blanks_ok xs ->
  lo_ensure o = false -> known <> Some FArc -> (List.length xs < n)%nat ->
  exists obs, run_iter (zl:=zl) fuel he o n prog 0 (iter_new (raw_open (spaced xs) sched) block known) = (obs, EndStop)
    /\ List.length obs = List.length xs
    /\ forall k e t ob, nth_error xs k = Some (e, t) -> nth_error obs k = Some ob ->
         observed he o (e_rec e) (e_http e) (e_payload e) (spaced_position k xs) (lenZ (bare_text e)) (prog k) ob.
Proof. exact C81_blank_lines_partial_pf. Qed.
Print Assumptions C81_blank_lines_partial.

Example C81_ex :
  let xs := List.combine ex_es [lit "  " ++ [LF; LF; LF]; [LF; 9; 32]%N] in
  blanks_ok xs /\ (forall k e t, nth_error xs k = Some (e, t) -> good_entry 300 toy_henv ex_o 200 (ex_prog k) e)
  /\ let (obs, en) := run_iter (zl:=toy_z) 300 toy_henv ex_o 3 ex_prog 0 (iter_new (raw_open (spaced xs) []) 200 None) in
     map (fun ob => (rc_type (ob_record ob), ob_info ob)) obs
     = [(Some (lit "response"), Ok (Some (0, 106))); (Some (lit "resource"), Ok (Some (111, 65)))] /\ en = EndStop.
Proof.
  cbv zeta. split; [|split; [|vm_compute; repeat split]].
  - intros [|[|i]] e t H; cbn in H; [| |destruct i; discriminate H]; injection H as <- <-; (split; [reflexivity|]).
    + intros _. now exists (lit "  " ++ [LF; LF]).
    + intros X. now destruct X.
  - intros [|[|i]] e t H; cbn in H; [| |destruct i; discriminate H]; injection H as <- <-; apply ex_good_pf; reflexivity.
Qed.

(** C40 is false: one empty line before the first record, and the whole file becomes the
    content of a single record without type and headers; no record of the archive is seen. *)
Theorem C40_leading_blank_refuted :
  exists obs,
  run_iter (zl:=toy_z) 300 toy_henv ex_o 5 (fun _ => [URead None]) 0 (iter_new (raw_open (crlf ++ texts ex_es) []) BUFF_SIZE None) = (obs, EndStop)
  /\ map (fun ob => (rc_type (ob_record ob), sh_headers (rc_headers (ob_record ob)), ob_reads ob)) obs = [(None, [], [Ok (texts ex_es)])].
Proof. exact C40_leading_blank_refuted_pf. Qed.
Print Assumptions C40_leading_blank_refuted.



(** what the code does instead, for every file: after a first line of white space only, the rest of
    the file, whatever it is, is the content of one record that has no type and no headers, spans
    the whole file, and is the only one *)
Theorem C40_swallowed :
  forall (zl : zenv) (he : henv) (o : lopts) (blank_line rest : bytes) (sched : list Z) (block : Z) (known : option fmt) (fuel n : nat),
  gz_magic zl -> first_two block sched -> enough fuel (blank_line ++ rest) -> is_line blank_line -> forallb is_bspace blank_line = true ->
  2 <= lenZ (blank_line ++ rest) -> known <> Some FArc -> lo_ensure o = false ->
  exists ob, run_iter (zl:=zl) fuel he o (Datatypes.S (Datatypes.S n)) (fun _ => [URead None]) 0
               (iter_new (raw_open (blank_line ++ rest) sched) block known) = ([ob], EndStop)
    /\ rc_type (ob_record ob) = None /\ sh_headers (rc_headers (ob_record ob)) = [] /\ rc_http (ob_record ob) = None
    /\ ob_reads ob = [Ok rest] /\ ob_info ob = Ok (Some (0, lenZ (blank_line ++ rest))).
Proof. exact C40_swallowed_pf. Qed.
Print Assumptions C40_swallowed.

From Verif Require Thm_Buffered.
Example C40_swallowed_ex :
  gz_magic toy_z /\ first_two BUFF_SIZE [] /\ enough 300 (crlf ++ texts ex_es) /\ is_line crlf /\ forallb is_bspace crlf = true
  /\ 2 <= lenZ (crlf ++ texts ex_es) /\ lo_ensure ex_o = false.
Proof.
  split; [exact Thm_Buffered.toy_gz_magic_pf|]. split; [split; [discriminate|exact I]|]. split; [unfold enough; vm_compute; repeat constructor|].
  split; [exists [13%N]; split; [intros [H|[]]; discriminate H|reflexivity]|]. split; [reflexivity|]. split; [vm_compute; discriminate|reflexivity].
Qed.

(** C41 is false: a response record without WARC-Target-URI makes iteration raise
    AttributeError ('NoneType' object has no attribute 'startswith'). *)
Theorem C41_exceptions_refuted :
  exists data,
  run_iter (zl:=toy_z) 300 toy_henv ex_o 5 (fun _ => []) 0 (iter_new (raw_open data []) BUFF_SIZE None) = ([], EndExn AttributeErr).
Proof. exact C41_exceptions_refuted_pf. Qed.
Print Assumptions C41_exceptions_refuted.


