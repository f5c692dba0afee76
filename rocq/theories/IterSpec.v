(** * IterSpec: vocabulary for the statements about archiveiterator.py: records as
    headers and a block, an archive as the concatenation of their texts, and what a
    consumer of the iterator observes.  A record's HTTP headers are specified by reading
    its block on its own from a file in memory. *)
From Coq Require Import String List ZArith NArith Bool.
From Verif Require Import PyBase Utf8 Headers HeaderSpec Streams StreamSpec DigestSpec Loader Iterator WriterSpec.
Import ListNotations.
Open Scope Z_scope.

(** a WARC record: version line, headers, block *)
Record wrc := mk_wrc { w_version : str; w_headers : list header; w_block : bytes }.
Definition w_value (name : string) (w : wrc) : option str := value_of (lit name) (w_headers w).

(** the URI is neither bracketed nor does it contain spaces *)
Definition plain_uri (u : option str) : Prop :=
  match u with
  | Some u => ~ In 32%N u /\ forall m, u <> 60%N :: m ++ [62%N]
  | None => True
  end.

(** URIs are read without the angle brackets around them, and with their spaces written as %20 *)
Inductive spaces_encoded : str -> str -> Prop :=
| se_nil : spaces_encoded [] []
| se_space u v : spaces_encoded u v -> spaces_encoded (32%N :: u) (lit "%20" ++ v)
| se_other c u v : c <> 32%N -> spaces_encoded u v -> spaces_encoded (c :: u) (c :: v).
Definition normal_uri (u v : str) : Prop :=
  (exists m, u = 60%N :: m ++ [62%N] /\ spaces_encoded m v)
  \/ ((forall m, u <> 60%N :: m ++ [62%N]) /\ spaces_encoded u v).

(** the record [w0] is read as [w]: it has a plain target URI or none, or a single one *)
Definition normalised (w0 w : wrc) : Prop :=
  w_version w = w_version w0 /\ w_block w = w_block w0
  /\ ((plain_uri (w_value "WARC-Target-URI" w0) /\ w_headers w = w_headers w0)
      \/ exists a n u b v, w_headers w0 = a ++ (n, u) :: b /\ named (lit "WARC-Target-URI") (n, u)
           /\ Forall (fun h => ~ named (lit "WARC-Target-URI") h) (a ++ b)
           /\ normal_uri u v /\ w_headers w = a ++ (n, v) :: b).
(** the text of [w0] is readable *)
Definition wf_lines (w0 : wrc) : Prop := In (w_version w0) WARC_TYPES /\ Forall wf_header (w_headers w0).
Definition declares_length (w : wrc) : Prop :=
  exists l, w_value "Content-Length" w = Some l /\ py_int l = Some (lenZ (w_block w)).

(** readable: known version, one line per header, the Content-Length is the block's length *)
Definition wf_record (w : wrc) : Prop :=
  In (w_version w) WARC_TYPES /\ Forall wf_header (w_headers w)
  /\ plain_uri (w_value "WARC-Target-URI" w)
  /\ exists l, w_value "Content-Length" w = Some l /\ py_int l = Some (lenZ (w_block w)).

(** [out] is the text of [w] *)
Definition text_of (w : wrc) (out : bytes) : Prop :=
  is_record (w_version w) (w_headers w) (w_block w) out.

(** HTTP headers and payload of a record: the block read on its own *)
Definition http_view (fuel : nat) (norec verify : bool) (w : wrc) (http : option sah) (payload : bytes) : Prop :=
  if norec then http = None /\ payload = w_block w
  else exists m, load_http_headers raw_ops fuel verify (w_value "WARC-Type" w) (w_value "WARC-Target-URI" w)
                   (Some (lenZ (w_block w))) (raw_open (w_block w) []) = (Ok http, m)
                 /\ payload = rw_rest m.

(** the lines of the header block at the beginning of [block] have at most [M] bytes *)
Definition short_lines (M : Z) (block : bytes) : Prop :=
  exists hb rest, block = hb ++ rest /\ header_block hb rest
                  /\ forall p q, hb = p ++ q -> lenZ (take_line q) <= M.

(** what a consumer's calls return on a file in memory; asking for offset or length
    skips the rest of the record *)
Fixpoint mem_user (us : list uop) (c : bytes) : list bytes :=
  match us with
  | [] => []
  | URead n :: t => read_of n c :: mem_user t (dropZ (lenZ (read_of n c)) c)
  | UReadline n :: t => line_of n c :: mem_user t (dropZ (lenZ (line_of n c)) c)
  | UInfo :: t => [] :: mem_user t []
  end.
Definition nonneg_ops (us : list uop) : Prop :=
  Forall (fun u => match u with URead n | UReadline n => nonneg n | UInfo => True end) us.
(** no readline without a limit of at most [M] *)
Definition limited_lines (M : Z) (us : list uop) : Prop :=
  Forall (fun u => match u with UReadline n => exists k, n = Some k /\ k <= M | _ => True end) us.

(** the record's digest headers that are compared *)
Definition block_digest (w : wrc) : option str := eff_block (w_value "WARC-Type" w) (w_value "WARC-Block-Digest" w).
Definition payload_digest (w : wrc) : option str :=
  eff_payload (w_value "WARC-Type" w) (w_value "WARC-Segment-Number" w) (w_value "WARC-Payload-Digest" w).

(** reading [w] raises no exception because of its digests: they are not checked; or checked
    but not with check_digests='raise', and each is well formed or of an unknown kind; or
    checked in any way, and each is absent or right *)
Definition digests_ready (he : henv) (o : lopts) (w : wrc) (payload : bytes) : Prop :=
  lo_check o = KFalse
  \/ henv_ok he
     /\ (lo_check o <> KRaise /\ judgeable he (block_digest w) /\ judgeable he (payload_digest w)
         \/ exists vb vp, judged he (w_block w) (block_digest w) vb /\ judged he payload (payload_digest w) vp
                          /\ vb <> VBad /\ vp <> VBad).

(** digest_checker.passed after [w] has been read: None if digests are not checked;
    otherwise the verdict about block and payload.  The block digest of an empty block is
    not compared (C45_empty_block_refuted) *)
Definition checked (he : henv) (o : lopts) (w : wrc) (payload : bytes) (passed : option bool) : Prop :=
  (lo_check o = KFalse -> passed = None)
  /\ (lo_check o <> KFalse -> forall vb vp,
        judged he (w_block w) (block_digest w) vb -> judged he payload (payload_digest w) vp ->
        (w_block w <> [] -> passed = combine vb vp)
        /\ (w_block w = [] -> vb <> VBad -> (passed = Some false <-> vp = VBad))).

(** the observation [ob] of record [w], whose text begins at [off] and has the length
    [len], by a consumer doing [us] *)
Record observed {zl : zenv} (he : henv) (o : lopts) (w : wrc) (http : option sah) (payload : bytes) (off len : Z) (us : list uop)
                (ob : @obs zl) : Prop := {
  ob_format : rc_format (ob_record ob) = FWarc;
  ob_type : rc_type (ob_record ob) = w_value "WARC-Type" w;
  ob_version : sh_proto (rc_headers (ob_record ob)) = w_version w;
  ob_headers : sh_headers (rc_headers (ob_record ob)) = w_headers w;
  ob_status : sh_status (rc_headers (ob_record ob)) = [];
  ob_length : rc_length (ob_record ob) = Some (lenZ (w_block w));
  ob_ctype : rc_ctype (ob_record ob) = w_value "Content-Type" w;
  ob_http : rc_http (ob_record ob) = http;
  ob_plen : rc_plen (ob_record ob) = if osah_bool http then lenZ payload else -1;
  ob_data : ob_reads ob = map Ok (mem_user us payload);
  ob_place : ob_info ob = Ok (Some (off, len));
  ob_verdict : checked he o w payload (ob_passed ob)
}.

(** what the consumer reads by lines consists of lines of at most [M] bytes, or is limited
    to so many *)
Definition lines_fit (M : Z) (c : bytes) : Prop := forall p q, c = p ++ q -> lenZ (take_line q) <= M.
Definition user_lines (M : Z) (us : list uop) (c : bytes) : Prop :=
  Forall (fun u => match u with
                   | UReadline n => lines_fit M c \/ exists k, n = Some k /\ k <= M
                   | _ => True
                   end) us.

(** the consumer does not use readline *)
Definition no_lines (us : list uop) : Prop :=
  Forall (fun u => match u with UReadline _ => False | _ => True end) us.

(** a record of an archive: its text, HTTP headers and payload *)
Record entry := mk_entry { e_rec : wrc; e_text : bytes; e_http : option sah; e_payload : bytes }.

(** [e] is well formed, and nothing that is read by lines from its block (HTTP headers, if
    they are parsed; the consumer's calls [us]) has lines longer than [M] *)
Definition good_entry (fuel : nat) (he : henv) (o : lopts) (M : Z) (us : list uop) (e : entry) : Prop :=
  wf_record (e_rec e) /\ text_of (e_rec e) (e_text e)
  /\ http_view fuel (lo_norec o) (lo_verify o) (e_rec e) (e_http e) (e_payload e)
  /\ (lo_norec o = false -> e_http e <> None -> short_lines M (w_block (e_rec e)))
  /\ digests_ready he o (e_rec e) (e_payload e)
  /\ nonneg_ops us /\ user_lines M us (e_payload e).

Definition texts (es : list entry) : bytes := concat (map e_text es).
(** where record number [k] begins *)
Definition position (k : nat) (es : list entry) : Z := lenZ (texts (firstn k es)).

(** lines up to [M] bytes are read in one piece: trivially, or because the file returns
    as many bytes as asked for and a block holds them *)
Definition reads_fit (M block : Z) (sched : list Z) : Prop := M <= 1 \/ (sched = [] /\ M <= block).
(** the first read of the file returns at least two bytes *)
Definition first_two (block : Z) (sched : list Z) : Prop :=
  2 <= block /\ match sched with [] => True | k :: _ => 2 <= k end.

(** default options: HTTP headers parsed, digests not checked *)
Definition digests_off (o : lopts) : Prop := lo_check o = KFalse /\ lo_ensure o = false.

(** ** archives with one gzip member per record: pairs of a record and its member *)
Definition gz_data (ms : list (entry * bytes)) : bytes := concat (map snd ms).
Definition gz_position (k : nat) (ms : list (entry * bytes)) : Z := lenZ (gz_data (firstn k ms)).
(** the lines before the payload of a record are read in one piece: the compressed record
    fits in one block, or its first block already decompresses to everything before the
    payload and the consumer does not use readline after that ([quiet]) *)
Definition member_fit (zl : zenv) (block : Z) (quiet : Prop) (e : entry) (m : bytes) : Prop :=
  lenZ m <= block
  \/ (quiet /\ exists o d, zfeed zl (zinit zl Gzip) (takeZ block m) = Some (o, d)
        /\ lenZ (e_text e) - lenZ (e_payload e) - 4 <= lenZ o).
(** lines up to [M] bytes are read in one piece: trivially, or because the file returns as
    many bytes as asked for and every member fits *)
Definition gz_fit (zl : zenv) (M block : Z) (sched : list Z) (prog : nat -> list uop) (ms : list (entry * bytes)) : Prop :=
  M <= 1 \/ (sched = [] /\ forall i e m, nth_error ms i = Some (e, m) -> member_fit zl block (no_lines (prog i)) e m).

(** ** archives whose records are followed by any blank lines *)
(** the record without the two empty lines that [text_of] puts after it, and then [t] *)
Definition bare_text (e : entry) : bytes := takeZ (lenZ (e_text e) - 4) (e_text e).
Definition spaced (xs : list (entry * bytes)) : bytes := concat (map (fun x => bare_text (fst x) ++ snd x) xs).
Definition spaced_position (k : nat) (xs : list (entry * bytes)) : Z := lenZ (spaced (firstn k xs)).
(** white space; between two records it ends with a line end *)
Definition blanks_ok (xs : list (entry * bytes)) : Prop :=
  forall i e t, nth_error xs i = Some (e, t) ->
    forallb is_bspace t = true /\ (nth_error xs (S i) <> None -> exists a, t = a ++ [LF]).
