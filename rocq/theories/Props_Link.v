(** * Props_Link: compositions of the tools (C88 to C91) *)
From Coq Require Import String List ZArith NArith Bool.
From Verif Require Import PyBase Headers Streams StreamSpec DigestSpec Loader Iterator Writer WriterSpec IterSpec RoundSpec Cli CliSpec RewriteSpec SelfSpec Toy.
Import ListNotations.
Open Scope Z_scope.
From Verif Require Import Thm_Link.

(** C88.  The index of an archive of well-formed records (plain, or with one gzip member per
    record), with the field offset and any other fields, has one line for each record; the
    offset in it, read as an integer, makes extract print this record: its WARC headers, HTTP
    headers and content.  (Restrictions of C34 on short reads and long HTTP header lines.) *)
Theorem C88_index_extract_partial :
  forall (zl : zenv) fuel he M uuid name fields sched data es n,
  In (lit "offset") fields -> good_archive every zl fuel he (extract_opts uuid) M 0 sched data es -> (List.length es < n)%nat ->
  exists ds, index_file (zl:=zl) fuel he n false uuid name fields (raw_open data sched) = (ds, EndStop)
    /\ List.length ds = List.length es
    /\ forall k d, nth_error ds k = Some d ->
       exists e off len v, nth_error es k = Some (e, (off, len))
         /\ In (lit "offset", v) d /\ (forall v', In (lit "offset", v') d -> v' = v) /\ py_int v = Some off
         /\ forall wb hb, warc_text (e_rec e) wb -> http_text (e_http e) hb ->
            exists ws, extract (zl:=zl) fuel he uuid false false (seek_file data sched off) = (XOk, ws) /\ concat ws = wb ++ hb ++ e_payload e.
Proof. exact C88_index_extract_partial_pf. Qed.
Print Assumptions C88_index_extract_partial.

Example C88_ex :
  good_archive every toy_z 500 ck_henv (extract_opts (lit "u")) 200 0 [] (texts (Thm_Cli.ex_es true)) (placed 0 (Thm_Cli.ex_es true))
  /\ index_file (zl:=toy_z) 500 ck_henv 3 false (lit "u") (lit "f") [lit "offset"; lit "warc-type"] (raw_open (texts (Thm_Cli.ex_es true)) [])
     = ([[(lit "offset", lit "0"); (lit "warc-type", lit "response")]; [(lit "offset", lit "172"); (lit "warc-type", lit "resource")]], EndStop)
  /\ (let (x, ws) := extract (zl:=toy_z) 500 ck_henv (lit "u") false false (seek_file (texts (Thm_Cli.ex_es true)) [] 172) in
      x = XOk /\ concat ws ++ crlf ++ crlf = Thm_Cli.ex_text Thm_Cli.ex_w2).
Proof. split; [exact (proj1 Thm_Cli.ex_extract_pf)|]. vm_compute. repeat split. Qed.

(** C89.  Recompressing an archive (as in C65) does not change what check says: the exit status
    for the old and the new file is the same, 1 if some record has a wrong digest and 0 if none
    has.  The content may be chunked or compressed.
    Missing: see C65_digests_partial; C65_respelled_refuted shows that it is needed that blocks
    with a block digest are written as they were read. *)
Theorem C89_recompress_check_partial :
  forall (zl : zenv) fuel he k sha1 uuid M data es n size,
  gzip_codec zl k -> henv_ok he -> he (lit "sha1") = Some sha1 -> 64 <= M ->
  good_archive unchunked zl fuel he (check_opts uuid) M 0 [] data es ->
  Forall (fun x => rewritable fuel M false (fst x)) es ->
  Forall (fun x => digest_stable (fst x) /\ judge_ok he (fst x)) es -> es <> [] -> (List.length es < n)%nat ->
  exists es' ms, recompress (zl:=zl) fuel he n sha1 k uuid size data = RcOk (List.length es) false (concat ms)
    /\ compressed zl es' ms
    /\ (back_fits zl fuel es' ms -> Forall2 (fun e m => unchunked e \/ lenZ m <= BUFF_SIZE) es' ms ->
        forall name name' verbose verbose' x ms1 x' ms2,
        check_all (zl:=zl) fuel he n verbose uuid 0 [(name, raw_open data [])] = (x, ms1) -> x <> Err OutOfFuel ->
        check_all (zl:=zl) fuel he n verbose' uuid 0 [(name', raw_open (concat ms) [])] = (x', ms2) -> x' <> Err OutOfFuel ->
        exists v, x = Ok v /\ x' = Ok v /\ ((exists e, In e es /\ fails he (fst e)) -> v = 1) /\ ((forall e, In e es -> ~ fails he (fst e)) -> v = 0)).
Proof. exact C89_recompress_check_partial_pf. Qed.
Print Assumptions C89_recompress_check_partial.

(** the hypotheses: see C62_ex *)
Example C89_ex :
  match recompress (zl:=toy_z) 900 ck_henv 3 ck_hash toy_k (lit "u") 100 Thm_Rewrite.ex_data with
  | RcOk 2 false out =>
      fst (check_all (zl:=toy_z) 900 ck_henv 3 true (lit "u") 0 [(lit "f", raw_open Thm_Rewrite.ex_data [])]) = Ok 0
      /\ fst (check_all (zl:=toy_z) 900 ck_henv 3 true (lit "u") 0 [(lit "g", raw_open out [])]) = Ok 0
  | _ => False
  end.
Proof. vm_compute. split; reflexivity. Qed.

(** C90.  Recompressing records in which the writer has nothing to change (they are spelled the
    way the writer spells them, with their digests) changes only the compression: the members
    of the new file decompress to the texts of the records, byte for byte. *)
Theorem C90_unchanged :
  forall (zl : zenv) fuel he k sha1 uuid M data es n size,
  gzip_codec zl k -> hash_bytes sha1 -> good_archive every zl fuel he (recompress_opts uuid) M 0 [] data es ->
  Forall (fun x => settled (fst x) /\ rewritable fuel M false (fst x)) es -> (List.length es < n)%nat ->
  exists ms, recompress (zl:=zl) fuel he n sha1 k uuid size data = RcOk (List.length es) false (concat ms) /\ compressed zl (map fst es) ms.
Proof. exact C90_unchanged_pf. Qed.
Print Assumptions C90_unchanged.

(** a record with digests, in which there is nothing to change *)
Example C90_settled_ex :
  let w := mk_wrc (lit "WARC/1.0") [(lit "WARC-Type", lit "resource"); (lit "Content-type", lit "a/b"); (lit "WARC-Block-Digest", lit "md5:x");
                    (lit "content-length", lit "5"); (lit "WARC-Payload-Digest", lit "sha1:y")] (lit "hello") in
  settled (mk_entry w [] None (lit "hello")) /\ rewritable 500 200 false (mk_entry w [] None (lit "hello")).
Proof.
  intros w. assert (V : verbatim (mk_entry w [] None (lit "hello"))) by (exists []; split; reflexivity). split.
  - constructor; [exact V|vm_compute; reflexivity..| |]; [|right; right]; eexists; (split; [vm_compute; reflexivity|discriminate]).
  - constructor; [vm_compute; apply le_n|discriminate|now left].
Qed.

(** C90.  Recompressing is idempotent: recompressing the result of recompressing an archive (as
    in C62, without empty digest headers) gives the same number of members, which decompress to
    the same bytes.
    Missing: see C62_recompress_partial; archives with empty digest headers, see
    C90_empty_digest_refuted. *)
Theorem C90_again_partial :
  forall (zl : zenv) fuel he k sha1 uuid M data es n size size',
  gzip_codec zl k -> hash_bytes sha1 -> 0 <= M ->
  good_archive every zl fuel he (recompress_opts uuid) M 0 [] data es ->
  Forall (fun x => rewritable fuel M false (fst x) /\ digests_given (fst x)) es -> es <> [] -> (List.length es < n)%nat ->
  exists es' ms, recompress (zl:=zl) fuel he n sha1 k uuid size data = RcOk (List.length es) false (concat ms) /\ compressed zl es' ms
    /\ (back_fits zl fuel es' ms ->
        exists ms', recompress (zl:=zl) fuel he n sha1 k uuid size' (concat ms) = RcOk (List.length es) false (concat ms') /\ compressed zl es' ms').
Proof. exact C90_again_partial_pf. Qed.
Print Assumptions C90_again_partial.

(** the other hypotheses: see C62_ex; here the second pass gives the same file *)
Example C90_given_ex : Forall digests_given Thm_Rewrite.ex_list.
Proof. repeat constructor; vm_compute; discriminate. Qed.
Example C90_ex :
  match recompress (zl:=toy_z) 900 ck_henv 3 ck_hash toy_k (lit "u") 100 Thm_Rewrite.ex_data with
  | RcOk 2 false out => recompress (zl:=toy_z) 900 ck_henv 3 ck_hash toy_k (lit "u") 100 out = RcOk 2 false out
  | _ => False
  end.
Proof. vm_compute. reflexivity. Qed.

(** C90 is false for a record with an empty digest header: every pass adds one more digest header *)
Theorem C90_empty_digest_refuted :
  let data := lit "WARC/1.0" ++ crlf ++ lit "WARC-Type: warcinfo" ++ crlf ++ lit "WARC-Block-Digest: " ++ crlf ++ lit "Content-Length: 1" ++ crlf ++ crlf ++ lit "x" ++ four in
let digests d := map (fun ob : @obs toy_z => List.length (filter (fun h => leqb (fst h) (lit "WARC-Block-Digest")) (sh_headers (rc_headers (ob_record ob)))))
                     (fst (ex_run (recompress_opts (lit "u")) d)) in
exists out out', recompress (zl:=toy_z) 600 ck_henv 5 ck_hash toy_k (lit "u") 100 data = RcOk 1 false out
  /\ recompress (zl:=toy_z) 600 ck_henv 5 ck_hash toy_k (lit "u") 100 out = RcOk 1 false out'
  /\ digests data = [1%nat] /\ digests out = [2%nat] /\ digests out' = [3%nat].
Proof. exact C90_empty_digest_refuted_pf. Qed.
Print Assumptions C90_empty_digest_refuted.



(** [p]: the bytes that write_record writes for record [r] *)
Definition written_part (fuel : nat) (sha1 : bytes -> bytes) (k : kenv) (gzip : bool) (r : wrec) (p : bytes) : Prop :=
  exists ws r', write_record fuel sha1 k (mk_wopts (lit "WARC/1.0") None gzip) r = (Ok tt, ws, r') /\ p = concat ws.
(** where the parts begin and how long they are (without the two empty lines after a record in
    an uncompressed file), as index lines *)
Fixpoint part_lines (gzip : bool) (p : Z) (parts : list bytes) : list (list (str * str)) :=
  match parts with
  | [] => []
  | x :: t => [(lit "offset", str_of_Z p); (lit "length", str_of_Z (if gzip then lenZ x else lenZ x - 4))] :: part_lines gzip (p + lenZ x) t
  end.

(** C91.  The index of a file that WARCWriter wrote (records made by create_warc_record that can
    be read back, plain or gzip), with the fields offset and length, is exactly the list of the
    positions at which write_record started to write and of the numbers of bytes it wrote (in
    uncompressed files without the two empty lines after the record).
    Missing: records that cannot be read back (C27), long header lines in gzip files. *)
Theorem C91_index_own_partial :
  forall (zl : zenv) fuel sha1 k he uuid M data rs name n,
  henv_ok he -> he (lit "sha1") = Some sha1 -> 64 <= M -> own_file zl fuel sha1 k M BUFF_SIZE data rs -> (List.length rs < n)%nat ->
  exists gzip parts, Forall2 (written_part fuel sha1 k gzip) rs parts /\ data = concat parts
    /\ index_file (zl:=zl) fuel he n false uuid name [lit "offset"; lit "length"] (raw_open data []) = (part_lines gzip 0 parts, EndStop).
Proof. exact C91_index_own_partial_pf. Qed.
Print Assumptions C91_index_own_partial.

(** the hypotheses: see C86_ex *)
Example C91_ex :
  let part g r := snd (fst (write_record 2000 ck_hash toy_k (mk_wopts (lit "WARC/1.0") None g) r)) in
  let ok g := leqb (concat (concat (map (part g) own_rs))) (concat (own_ws g own_rs)) in
  let lines g := index_file (zl:=toy_z) 2000 ck_henv 3 false (lit "u") (lit "f") [lit "offset"; lit "length"] (raw_open (concat (own_ws g own_rs)) []) in
  ok true = true /\ ok false = true
  /\ lines true = (part_lines true 0 (map (fun r => concat (part true r)) own_rs), EndStop)
  /\ lines false = (part_lines false 0 (map (fun r => concat (part false r)) own_rs), EndStop).
Proof. vm_compute. repeat split. Qed.
