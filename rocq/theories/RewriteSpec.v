(** * RewriteSpec: vocabulary for the statements about writing records that were read
    (recompress): which records come back unchanged, and what "unchanged" means. *)
From Coq Require Import String List ZArith NArith Bool.
From Verif Require Import PyBase Utf8 Headers HeaderSpec Streams StreamSpec DigestSpec Loader Iterator Writer WriterSpec IterSpec RoundSpec Cli CliSpec Toy.
Import ListNotations.
Open Scope Z_scope.

(** the headers the writer may set *)
Definition set_by_writer (k : str) : Prop :=
  ci_eq k (lit "Content-Length") \/ ci_eq k (lit "Content-Type")
  \/ ci_eq k (lit "WARC-Block-Digest") \/ ci_eq k (lit "WARC-Payload-Digest").

(** a digest header that was there is kept, a missing one is [fresh] *)
Definition digest_kept (old new fresh : option str) : Prop :=
  match old with Some _ => new = old | None => new = fresh end.

(** the WARC headers [hs'] of the record written for one read with headers [hs]: the same
    headers in the same order, except that Content-Length is the length of the block
    written and missing digests are added *)
Record headers_kept (sha1 : bytes -> bytes) (ty : option str) (block payload : bytes) (hs hs' : list header) : Prop := {
  hk_others : forall P : str -> bool, (forall k, set_by_writer k -> P k = false) ->
      filter (fun h => P (fst h)) hs' = filter (fun h => P (fst h)) hs;
  hk_values : forall n, ~ set_by_writer n -> value_of n hs' = value_of n hs;
  hk_ctype : value_of (lit "Content-Type") hs' = value_of (lit "Content-Type") hs;
  hk_length : value_of (lit "Content-Length") hs' = Some (str_of_Z (lenZ block));
  hk_block : digest_kept (value_of (lit "WARC-Block-Digest") hs) (value_of (lit "WARC-Block-Digest") hs')
                         (Some (sha1_text sha1 block));
  hk_payload : digest_kept (value_of (lit "WARC-Payload-Digest") hs) (value_of (lit "WARC-Payload-Digest") hs')
                 (if match ty with Some t => leqb t (lit "warcinfo") || leqb t (lit "revisit") | None => false end
                  then None else Some (sha1_text sha1 payload))
}.

(** the block is spelled the way the writer spells it: serialising the HTTP headers gives
    the same bytes *)
Definition verbatim (e : entry) : Prop :=
  exists hb, http_block None (e_http e) hb /\ w_block (e_rec e) = hb ++ e_payload e.

Definition values_of (n : string) (e : entry) : list str :=
  map snd (filter (fun h => name_eq (fst h) (lit n)) (w_headers (e_rec e))).
(** the writer has nothing to change: the block is spelled as the writer spells it, there is
    one Content-Length, written as the writer does, a repeated Content-Type ends as it begins,
    and the digests are there *)
Record settled (e : entry) : Prop := {
  st_block : verbatim e;
  st_length : values_of "Content-Length" e = [str_of_Z (lenZ (w_block (e_rec e)))];
  st_ctype : hd_error (rev (values_of "Content-Type" e)) = hd_error (values_of "Content-Type" e);
  st_bdigest : exists v, w_value "WARC-Block-Digest" (e_rec e) = Some v /\ v <> [];
  st_pdigest : w_value "WARC-Type" (e_rec e) = Some (lit "warcinfo") \/ w_value "WARC-Type" (e_rec e) = Some (lit "revisit")
               \/ exists v, w_value "WARC-Payload-Digest" (e_rec e) = Some v /\ v <> []
}.
(** no digest header without a value *)
Definition digests_given (e : entry) : Prop :=
  w_value "WARC-Block-Digest" (e_rec e) <> Some [] /\ w_value "WARC-Payload-Digest" (e_rec e) <> Some [].

(** [e'] is [e] written again *)
Record rewritten (sha1 : bytes -> bytes) (e e' : entry) : Prop := {
  re_version : w_version (e_rec e') = w_version (e_rec e);
  re_headers : headers_kept sha1 (w_value "WARC-Type" (e_rec e)) (w_block (e_rec e')) (e_payload e')
                            (w_headers (e_rec e)) (w_headers (e_rec e'));
  re_http : same_http (e_http e) (e_http e');
  re_payload : e_payload e' = e_payload e;
  re_block : exists hb, http_block None (e_http e) hb /\ w_block (e_rec e') = hb ++ e_payload e;
  re_same : settled e -> e_text e' = e_text e;
  re_settled : digests_given e -> settled e'
}.

(** [e] can be written and read again: one Content-Length, a revisit record has no payload,
    and the block is verbatim or its HTTP headers are ASCII text that can be recognised
    when read again *)
Record rewritable (fuel : nat) (M : Z) (verify : bool) (e : entry) : Prop := {
  rw_length : (occurs (lit "Content-Length") (w_headers (e_rec e)) <= 1)%nat;
  rw_revisit : w_value "WARC-Type" (e_rec e) = Some (lit "revisit") -> e_payload e = [];
  rw_http : verbatim e
    \/ exists h hb, e_http e = Some h /\ sah_bool h = true /\ http_block None (Some h) hb /\ enough fuel (hb ++ e_payload e)
         /\ wf_block (reading_parser (w_value "WARC-Type" (e_rec e)) verify) h /\ ascii_block h /\ RoundSpec.lines_fit M h
}.

(** [ob] is what a consumer reading everything sees of a record that was [e] *)
Record comes_back {zl : zenv} (sha1 : bytes -> bytes) (e : entry) (ob : @obs zl) : Prop := {
  cb_version : sh_proto (rc_headers (ob_record ob)) = w_version (e_rec e);
  cb_type : rc_type (ob_record ob) = w_value "WARC-Type" (e_rec e);
  cb_http : same_http (e_http e) (rc_http (ob_record ob));
  cb_content : ob_reads ob = [Ok (e_payload e)];
  cb_headers : exists hb, http_block None (e_http e) hb
      /\ headers_kept sha1 (w_value "WARC-Type" (e_rec e)) (hb ++ e_payload e) (e_payload e)
                      (w_headers (e_rec e)) (sh_headers (rc_headers (ob_record ob)))
}.

(** the members of a record-compressed file, whose texts are those of the records [es] *)
Definition compressed (zl : zenv) (es : list entry) (ms : list bytes) : Prop :=
  Forall2 (fun e m => is_member zl m (e_text e)) es ms.
(** the file is small enough for the bounds under which reading it back is described *)
Definition back_fits (zl : zenv) (fuel : nat) (es : list entry) (ms : list bytes) : Prop :=
  enough fuel (concat ms) /\ Forall (fun e => enough fuel (e_text e)) es /\ Forall2 (member_fit zl BUFF_SIZE True) es ms.
(** the block digest the record has stays right: the block is written as it was read, or
    there is no such digest *)
Definition digest_stable (e : entry) : Prop := verbatim e \/ w_value "WARC-Block-Digest" (e_rec e) = None.
Definition judge_ok (he : henv) (e : entry) : Prop :=
  judgeable he (block_digest (e_rec e)) /\ judgeable he (payload_digest (e_rec e)) /\ not_vacuous he e.

(** ** for the examples and counterexamples *)
(** a response record with block [b] *)
Definition ex_resp (ty uri : string) (n : Z) (b : bytes) : bytes :=
  lit "WARC/1.0" ++ crlf ++ lit "WARC-Type: " ++ lit ty ++ crlf ++ lit "WARC-Target-URI: " ++ lit uri ++ crlf
  ++ lit "Content-Length: " ++ str_of_Z n ++ crlf ++ crlf ++ b.
Definition four : bytes := [13; 10; 13; 10]%N.
Definition copy_plain (data : bytes) : nat * writes * option exn :=
  copy_records (zl:=toy_z) 500 ck_henv 5 ck_hash toy_k (mk_wopts (lit "WARC/1.0") None false) (recompress_opts (lit "u"))
               (iter_new (raw_open data []) BUFF_SIZE None).
Definition ex_run (o : lopts) (data : bytes) : list (@obs toy_z) * ending :=
  run_iter (zl:=toy_z) 600 ck_henv o 5 (fun _ => [URead None]) 0 (iter_new (raw_open data []) BUFF_SIZE None).
(** [data] is read without an exception as one record, with content [c]; copying it writes a
    record with block [block] and Content-Length [n], which is not the length of the block;
    and two copies cannot be read *)
Definition misframed (data c : bytes) (n : str) (block : bytes) : Prop :=
  exists ob hs ws, ex_run (recompress_opts (lit "u")) data = ([ob], EndStop) /\ ob_reads ob = [Ok c]
    /\ copy_plain data = (1%nat, ws, None) /\ is_record (lit "WARC/1.0") hs block (concat ws)
    /\ value_of (lit "Content-Length") hs = Some n /\ n <> str_of_Z (lenZ block)
    /\ snd (ex_run (recompress_opts (lit "u")) (concat ws ++ concat ws)) = EndExn ArchiveLoadFailed.
