(** * Props_Round: writer and iterator together (C27, C28, C33), compressed archives (C34, C36, C42) *)
From Coq Require Import String List ZArith NArith Bool Lia.
From Coq Require Import ZifyBool ZifyNat ZifyN.
From Verif Require Import PyBase Utf8 Headers HeaderSpec Streams StreamSpec Loader Iterator Writer WriterSpec IterSpec RoundSpec Toy.
Import ListNotations.
Open Scope Z_scope.
From Verif Require Import Thm_Round.

Definition plain_opts : wopts := mk_wopts (lit "WARC/1.0") None false.
Definition gzip_opts : wopts := mk_wopts (lit "WARC/1.0") None true.
(** examples: a response with HTTP headers whose content looks like a WARC record, and a
    resource record without a URI, created with unknown length *)
Definition ex_h : sah := sah_new (lit "200 OK") [(lit "Content-Type", lit "text/plain; a: b")] (lit "HTTP/1.1").
Definition ex_c1 : creation :=
  mk_creation (lit "WARC/1.0") (lit "1234") (lit "2000-01-01T00:00:00Z") (Some (lit "http://a/")) (lit "response")
              (Some (bytesio (lit "WARC/1.0" ++ crlf ++ crlf ++ [0; 255; 10]%N))) (Some 15) [] [(lit "X-One", lit "1")] None (Some ex_h).
Definition ex_c2 : creation :=
  mk_creation (lit "WARC/1.1") (lit "5678") (lit "2000-01-01T00:00:01Z") None (lit "resource")
              (Some (bytesio (lit "hello"))) None (lit "text/plain") [] None None.
Definition ex_cs : list creation := [ex_c1; ex_c2].
Definition ex_r (c : creation) : wrec :=
  match create 600 toy_hash None c with Ok r => r | Err _ => mk_wrec None (sah_new [] [] []) (bytesio []) None None None None None end.
Definition ex_rs : list wrec := map ex_r ex_cs.

(** C27.  Whatever list of records (made by create_warc_record, well-formed: [round_ok]) is
    written uncompressed with write_record, iterating over the result returns as many
    records, in order, and then stops; each with the WARC headers that were written, in
    particular the record's own ones other than the lengths and digests the writer fills in,
    its type, its HTTP headers, and the content bytes it was created with.  Missing: HTTP
    header lines longer than a block or a file with short reads, where it is false (C34). *)
Theorem C27_write_read_partial :
  forall (zl : zenv) fuel sha1 k he o M cs rs ws sched block known n,
  gz_magic zl -> hash_bytes sha1 -> lo_norec o = false -> digests_off o ->
  Forall2 (readable fuel sha1 M (lo_verify o)) cs rs ->
  write_all fuel sha1 k plain_opts rs = (Ok tt, ws) ->
  enough fuel (concat ws) -> first_two block sched -> reads_fit M block sched -> 0 <= M ->
  known <> Some FArc -> (List.length rs < n)%nat ->
  exists obs, run_iter (zl:=zl) fuel he o n (fun _ => [URead None]) 0 (iter_new (raw_open (concat ws) sched) block known) = (obs, EndStop)
    /\ all_returned fuel sha1 cs rs obs.
Proof. exact C27_write_read_partial_pf. Qed.
Print Assumptions C27_write_read_partial.

Example C27_readable : Forall2 (readable 600 toy_hash 200 false) ex_cs ex_rs.
Proof. exact ex_created_pf. Qed.
Example C27_hash : hash_bytes toy_hash.
Proof. exact ex_hash_pf. Qed.
Example C27_ex :
  let (x, ws) := write_all 600 toy_hash toy_k plain_opts ex_rs in
  let (obs, en) := run_iter (zl:=toy_z) 800 toy_henv (mk_lopts false false false false KFalse (lit "u")) 3 (fun _ => [URead None]) 0
                     (iter_new (raw_open (concat ws) []) 200 None) in
  x = Ok tt /\ (lenZ (concat ws) <? 797) = true
  /\ map (fun ob => (rc_type (ob_record ob), ob_reads ob)) obs
     = [(Some (lit "response"), [Ok (lit "WARC/1.0" ++ crlf ++ crlf ++ [0; 255; 10]%N)]); (Some (lit "resource"), [Ok (lit "hello")])]
  /\ map (fun ob => option_map sh_headers (rc_http (ob_record ob))) obs = [Some (sh_headers ex_h); None] /\ en = EndStop.
Proof. vm_compute. repeat split. Qed.

(** C28.  The same with gzip=True, for every compressor and decompressor that fit together:
    the file consists of one gzip member for each record, each member holds what is written
    without compression, iteration returns the same records, and the offset and length
    reported for a record are position and length of its member.  Missing: as in C27, and
    members whose first block does not hold all headers ([written_fit]). *)
Theorem C28_write_read_gzip_partial :
  forall (zl : zenv) fuel sha1 k he o M cs rs ms ws sched block known n,
  gzip_codec zl k -> hash_bytes sha1 -> lo_norec o = false -> digests_off o ->
  Forall2 (readable fuel sha1 M (lo_verify o)) cs rs -> rs <> [] ->
  write_all fuel sha1 k gzip_opts rs = (Ok tt, ws) -> Forall2 (written_member fuel sha1 k) rs ms ->
  enough fuel (concat ws) ->
  (forall r ws' r', In r rs -> write_plain fuel sha1 None r = (Ok tt, ws', r') -> enough fuel (concat ws')) ->
  M <= 1 \/ (sched = [] /\ forall i c r m, nth_error cs i = Some c -> nth_error rs i = Some r -> nth_error ms i = Some m ->
                written_fit zl fuel sha1 block c r m) -> 0 < block -> 0 <= M ->
  known <> Some FArc -> (List.length rs < n)%nat ->
  concat ws = concat ms
  /\ Forall2 (fun r m => exists ws' r', write_plain fuel sha1 None r = (Ok tt, ws', r') /\ is_member zl m (concat ws')) rs ms
  /\ exists obs, run_iter (zl:=zl) fuel he o n (fun _ => [URead None]) 0 (iter_new (raw_open (concat ws) sched) block known) = (obs, EndStop)
     /\ all_returned fuel sha1 cs rs obs
     /\ forall i m ob, nth_error ms i = Some m -> nth_error obs i = Some ob ->
          ob_info ob = Ok (Some (lenZ (concat (firstn i ms)), lenZ m)).
Proof. exact C28_write_read_gzip_partial_pf. Qed.
Print Assumptions C28_write_read_gzip_partial.

Example C28_codec : gzip_codec toy_z toy_k.
Proof. exact toy_codec_pf. Qed.
Example C28_ex :
  let (x, ws) := write_all 600 toy_hash toy_k gzip_opts ex_rs in
  let (obs, en) := run_iter (zl:=toy_z) 1600 toy_henv (mk_lopts false false false false KFalse (lit "u")) 3 (fun _ => [URead None]) 0
                     (iter_new (raw_open (concat ws) []) 1500 None) in
  x = Ok tt /\ lenZ (concat ws) = 1146
  /\ map (fun ob => (rc_type (ob_record ob), ob_reads ob, ob_info ob)) obs
     = [(Some (lit "response"), [Ok (lit "WARC/1.0" ++ crlf ++ crlf ++ [0; 255; 10]%N)], Ok (Some (0, 697)));
        (Some (lit "resource"), [Ok (lit "hello")], Ok (Some (697, 449)))]
  /\ en = EndStop.
Proof. vm_compute. repeat split. Qed.

(** C33, first half.  The bytes written for a list of records are those written for any
    first part of it followed by those written for the rest, each to a fresh file; down to
    the single records. *)
Theorem C33_concatenation :
  forall fuel sha1 k o rs ws,
  write_all fuel sha1 k o rs = (Ok tt, ws) ->
  (forall a b, rs = a ++ b -> exists w1 w2, write_all fuel sha1 k o a = (Ok tt, w1) /\ write_all fuel sha1 k o b = (Ok tt, w2)
                                /\ concat ws = concat w1 ++ concat w2)
  /\ exists outs, concat ws = concat outs /\ Forall2 (fun r out => exists w r', write_record fuel sha1 k o r = (Ok tt, w, r') /\ out = concat w) rs outs.
Proof. exact C33_concatenation_pf. Qed.
Print Assumptions C33_concatenation.

Example C33_write_ex : fst (write_all 600 toy_hash toy_k gzip_opts ex_rs) = Ok tt.
Proof. vm_compute. reflexivity. Qed.

(** C33, second half.  Appending written records to an existing archive of well-formed
    records: iteration yields the old records, exactly as before, followed by the new ones.
    (Uncompressed; restrictions of C34 and C27.) *)
Theorem C33_append_partial :
  forall (zl : zenv) fuel sha1 k he o M es cs rs ws sched block known n,
  gz_magic zl -> hash_bytes sha1 -> lo_norec o = false -> digests_off o ->
  (forall i e, nth_error es i = Some e -> good_entry fuel he o M [URead None] e) ->
  Forall2 (readable fuel sha1 M (lo_verify o)) cs rs ->
  write_all fuel sha1 k plain_opts rs = (Ok tt, ws) ->
  enough fuel (texts es ++ concat ws) -> first_two block sched -> reads_fit M block sched -> 0 <= M ->
  known <> Some FArc -> (List.length es + List.length rs < n)%nat ->
  exists old new, run_iter (zl:=zl) fuel he o n (fun _ => [URead None]) 0 (iter_new (raw_open (texts es ++ concat ws) sched) block known) = (old ++ new, EndStop)
    /\ List.length old = List.length es
    /\ (forall i e ob, nth_error es i = Some e -> nth_error old i = Some ob ->
         observed he o (e_rec e) (e_http e) (e_payload e) (position i es) (lenZ (e_text e) - 4) [URead None] ob)
    /\ all_returned fuel sha1 cs rs new.
Proof. exact C33_append_partial_pf. Qed.
Print Assumptions C33_append_partial.

(** the hypotheses are those of C34 and C27; the two archives of their examples *)
Example C33_ex :
  let old := concat (snd (write_all 600 toy_hash toy_k plain_opts [ex_r ex_c2])) in
  let (x, ws) := write_all 600 toy_hash toy_k plain_opts ex_rs in
  let (obs, en) := run_iter (zl:=toy_z) 1200 toy_henv (mk_lopts false false false false KFalse (lit "u")) 4 (fun _ => [URead None]) 0
                     (iter_new (raw_open (old ++ concat ws) []) 200 None) in
  x = Ok tt /\ map (fun ob => rc_type (ob_record ob)) obs = [Some (lit "resource"); Some (lit "response"); Some (lit "resource")] /\ en = EndStop.
Proof. vm_compute. repeat split. Qed.

(** C34, compressed: the file is the concatenation of gzip members, one for each
    well-formed record ([ms]: record and member).  Iteration yields each record once, in
    order, as in C34; the offset is the position of its member and the length the member's
    length.  Lines of HTTP headers and lines read by the consumer have at most [M] bytes, and
    either M <= 1 or [gz_fit]: each member fits in one block, or its first block holds all
    headers and the consumer does not use readline. *)
Theorem C34_iterate_gzip_partial :
  forall (zl : zenv) fuel he o M prog ms sched block known n,
  ms <> [] -> gz_fit zl M block sched prog ms -> 0 < block -> 0 <= M ->
  enough fuel (gz_data ms) -> (forall e m, In (e, m) ms -> enough fuel (e_text e)) ->
  (forall i e m, nth_error ms i = Some (e, m) -> good_entry fuel he o M (prog i) e /\ is_member zl m (e_text e)) ->
  lo_ensure o = false -> known <> Some FArc -> (List.length ms < n)%nat ->
  exists obs, run_iter (zl:=zl) fuel he o n prog 0 (iter_new (raw_open (gz_data ms) sched) block known) = (obs, EndStop)
    /\ List.length obs = List.length ms
    /\ forall i e m ob, nth_error ms i = Some (e, m) -> nth_error obs i = Some ob ->
         observed he o (e_rec e) (e_http e) (e_payload e) (gz_position i ms) (lenZ m) (prog i) ob.
Proof. exact C34_iterate_gzip_partial_pf. Qed.
Print Assumptions C34_iterate_gzip_partial.

Example C34_gzip_member : is_member toy_z (toy_gz (lit "abc")) (lit "abc").
Proof. vm_compute. reflexivity. Qed.
Example C34_gzip_ex :
  let data := toy_gz (concat (snd (write_all 600 toy_hash toy_k plain_opts [ex_r ex_c1]))) ++ toy_gz (concat (snd (write_all 600 toy_hash toy_k plain_opts [ex_r ex_c2]))) in
  let (obs, en) := run_iter (zl:=toy_z) 1600 toy_henv (mk_lopts false false false false KFalse (lit "u")) 3 (fun _ => [URead (Some 3); UInfo]) 0
                     (iter_new (raw_open data []) 1500 None) in
  map (fun ob => (ob_reads ob, ob_info ob)) obs
    = [([Ok (lit "WAR"); Ok []], Ok (Some (0, 697))); ([Ok (lit "hel"); Ok []], Ok (Some (697, 449)))] /\ en = EndStop.
Proof. vm_compute. repeat split. Qed.
(** the first member (223 bytes) is larger than the block (218 bytes) *)
Example C34_gzip_big : let ms := map (fun e => (e, toy_gz (e_text e))) Thm_Iter.ex_es in
  gz_fit toy_z 200 218 [] Thm_Iter.ex_prog ms /\ map (fun em => lenZ (snd em)) ms = [223; 141]
  /\ (forall i e m, nth_error ms i = Some (e, m) -> good_entry 300 toy_henv Thm_Iter.ex_o 200 (Thm_Iter.ex_prog i) e /\ is_member toy_z m (e_text e))
  /\ let (obs, en) := run_iter (zl:=toy_z) 600 toy_henv Thm_Iter.ex_o 3 Thm_Iter.ex_prog 0 (iter_new (raw_open (gz_data ms) []) 218 None) in
     map (fun ob => (ob_reads ob, ob_info ob)) obs
     = [([], Ok (Some (0, 223))); ([Ok (lit "WAR"); Ok (lit "C/1.0" ++ crlf ++ crlf); Ok []; Ok []], Ok (Some (223, 141)))] /\ en = EndStop.
Proof.
  cbv zeta. split.
  { right. split; [reflexivity|]. intros [|[|i]] e m H; cbn [map nth_error Thm_Iter.ex_es] in H.
    - injection H as <- <-. right. split; [constructor|]. eexists _, _. split; [vm_compute; reflexivity|vm_compute; discriminate].
    - injection H as <- <-. left. vm_compute. discriminate.
    - destruct i; discriminate. }
  split; [vm_compute; reflexivity|]. split; [|vm_compute; repeat split].
  intros i e m H. rewrite nth_error_map in H. destruct (nth_error Thm_Iter.ex_es i) as [e'|] eqn:E; [|discriminate].
  injection H as <- <-. split; [exact (Thm_Iter.ex_good_pf i e' E)|]. destruct i as [|[|i]]; cbn [nth_error Thm_Iter.ex_es] in E.
  - injection E as <-. vm_compute. reflexivity.
  - injection E as <-. vm_compute. reflexivity.
  - destruct i; discriminate.
Qed.

(** C36, compressed: opening the file at the position of member number [k] and iterating
    yields that record and the following ones with their offsets in the whole file; the
    slice given by offset and length is the member. *)
Theorem C36_random_access_gzip_partial :
  forall (zl : zenv) fuel he o M prog ms sched block known n k,
  (k < List.length ms)%nat -> gz_fit zl M block sched prog (skipn k ms) -> 0 < block -> 0 <= M ->
  enough fuel (gz_data ms) -> (forall e m, In (e, m) ms -> enough fuel (e_text e)) ->
  (forall i e m, nth_error ms (k + i) = Some (e, m) -> good_entry fuel he o M (prog i) e /\ is_member zl m (e_text e)) ->
  lo_ensure o = false -> known <> Some FArc -> (List.length ms < n)%nat ->
  let off := gz_position k ms in
  (exists obs, run_iter (zl:=zl) fuel he o n prog 0 (iter_new (mk_raw (dropZ off (gz_data ms)) off sched) block known) = (obs, EndStop)
    /\ List.length obs = (List.length ms - k)%nat
    /\ forall i e m ob, nth_error ms (k + i) = Some (e, m) -> nth_error obs i = Some ob ->
         observed he o (e_rec e) (e_http e) (e_payload e) (gz_position (k + i) ms) (lenZ m) (prog i) ob)
  /\ forall e m, nth_error ms k = Some (e, m) -> takeZ (lenZ m) (dropZ off (gz_data ms)) = m.
Proof. exact C36_random_access_gzip_partial_pf. Qed.
Print Assumptions C36_random_access_gzip_partial.

Example C36_gzip_ex :
  let data := toy_gz (concat (snd (write_all 600 toy_hash toy_k plain_opts [ex_r ex_c1]))) ++ toy_gz (concat (snd (write_all 600 toy_hash toy_k plain_opts [ex_r ex_c2]))) in
  let (obs, en) := run_iter (zl:=toy_z) 1600 toy_henv (mk_lopts false false false false KFalse (lit "u")) 3 (fun _ => [URead (Some 3)]) 0
                     (iter_new (mk_raw (dropZ 697 data) 697 []) 1500 None) in
  map (fun ob => (ob_reads ob, ob_info ob)) obs = [([Ok (lit "hel")], Ok (Some (697, 449)))] /\ en = EndStop.
Proof. vm_compute. repeat split. Qed.

(** C42.  If the last gzip member (possibly the only one: [ms] = []) holds two or more
    records, iteration yields the records of the other members as in C34, then the first
    record of this member, and then raises ArchiveLoadFailed.  Missing: a member with
    several records that is followed by another member, where it is false (below). *)
Theorem C42_multi_record_partial :
  forall (zl : zenv) fuel he o M prog (ms : list (entry * bytes)) m es sched block known n,
  (2 <= List.length es)%nat -> is_member zl m (texts es) -> enough fuel (texts es) ->
  (M <= 1 \/ (sched = [] /\ lenZ m <= block)) -> gz_fit zl M block sched prog ms -> 0 < block -> 0 <= M ->
  enough fuel (gz_data ms ++ m) -> (forall e m, In (e, m) ms -> enough fuel (e_text e)) ->
  (forall i e m, nth_error ms i = Some (e, m) -> good_entry fuel he o M (prog i) e /\ is_member zl m (e_text e)) ->
  (forall e, In e es -> good_entry fuel he o M (prog (List.length ms)) e) ->
  lo_ensure o = false -> known <> Some FArc -> (List.length ms + 1 < n)%nat ->
  exists obs ob len, run_iter (zl:=zl) fuel he o n prog 0 (iter_new (raw_open (gz_data ms ++ m) sched) block known) = (obs ++ [ob], EndExn ArchiveLoadFailed)
    /\ List.length obs = List.length ms
    /\ (forall i e m ob, nth_error ms i = Some (e, m) -> nth_error obs i = Some ob ->
         observed he o (e_rec e) (e_http e) (e_payload e) (gz_position i ms) (lenZ m) (prog i) ob)
    /\ forall e, nth_error es 0 = Some e -> observed he o (e_rec e) (e_http e) (e_payload e) (lenZ (gz_data ms)) len (prog (List.length ms)) ob.
Proof. exact C42_multi_record_partial_pf. Qed.
Print Assumptions C42_multi_record_partial.

Example C42_ex :
  let data := toy_gz (concat (snd (write_all 600 toy_hash toy_k plain_opts ex_rs))) in
  let (obs, en) := run_iter (zl:=toy_z) 1600 toy_henv (mk_lopts false false false false KFalse (lit "u")) 3 (fun _ => []) 0
                     (iter_new (raw_open data []) 1500 None) in
  map (fun ob => rc_type (ob_record ob)) obs = [Some (lit "response")] /\ en = EndExn ArchiveLoadFailed.
Proof. vm_compute. repeat split. Qed.

(** C42 is false for a member with several records that is not the last one: with two
    records in the first member and one in the second, iteration does not raise after the
    first record but yields the second one with an offset (920) at which no member starts:
    the second member begins at 1143; only then comes the error (finding). *)
Theorem C42_followed_refuted :
  exists m1 m2 obs, m1 = toy_gz (concat (snd (write_all 600 toy_hash toy_k plain_opts ex_rs)))
  /\ m2 = toy_gz (concat (snd (write_all 600 toy_hash toy_k plain_opts [ex_r ex_c2]))) /\ lenZ m1 = 1143
  /\ run_iter (zl:=toy_z) 3000 toy_henv (mk_lopts false false false false KFalse (lit "u")) 9 (fun _ => []) 0 (iter_new (raw_open (m1 ++ m2) []) 3000 None)
     = (obs, EndExn ArchiveLoadFailed)
  /\ map (fun ob => (rc_type (ob_record ob), ob_info ob)) obs
     = [(Some (lit "response"), Ok (Some (0, 920))); (Some (lit "resource"), Ok (Some (920, 449)))].
Proof. exact C42_followed_refuted_pf. Qed.
Print Assumptions C42_followed_refuted.


