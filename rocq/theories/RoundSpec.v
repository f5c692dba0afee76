(** * RoundSpec: vocabulary for the statements that relate the writer and the iterator:
    which records survive a round trip, and what comes back. *)
From Coq Require Import String List ZArith NArith Bool.
From Verif Require Import PyBase Utf8 Headers HeaderSpec Streams StreamSpec Loader Iterator Writer WriterSpec IterSpec.
Import ListNotations.
Open Scope Z_scope.

Definition http_type (t : option str) : Prop :=
  t = Some (lit "response") \/ t = Some (lit "request") \/ t = Some (lit "revisit").
(** the headers say that the block begins with HTTP headers *)
Definition http_like (t uri : option str) : Prop :=
  http_type t /\ exists rest, uri = Some (lit "http:" ++ rest) \/ uri = Some (lit "https:" ++ rest).

(** the HTTP header block can be written in ASCII and recognised when it is read *)
Definition ascii_block (h : sah) : Prop :=
  ascii_text (sh_proto h) /\ ascii_text (sh_status h)
  /\ Forall (fun x => ascii_text (fst x) /\ ascii_text (snd x)) (sh_headers h).
Definition reading_parser (t : option str) (verify : bool) : parser :=
  mk_parser (match t with Some t => if leqb t (lit "request") then HTTP_VERBS else HTTP_TYPES | None => HTTP_TYPES end) verify.
(** no line of it is longer than [M] *)
Definition lines_fit (M : Z) (h : sah) : Prop :=
  2 <= M /\ lenZ (status_text (sh_proto h) (sh_status h)) + 2 <= M
  /\ Forall (fun x => lenZ (field_line x) <= M) (sh_headers h).

(** a header value that fits on a line *)
Definition wf_value (v : str) : Prop := line_text v /\ no_lead is_uspace v /\ no_trail is_uspace v.

(** the record [r] made by create_warc_record with arguments [c] can be read back *)
Record round_ok (M : Z) (verify : bool) (c : creation) (r : wrec) : Prop := {
  ro_length : length_right c;
  ro_version : In (sh_proto (wr_headers r)) WARC_TYPES /\ version_ok c;
  ro_headers : Forall wf_header (given_headers c) /\ (occurs (lit "Content-Length") (given_headers c) <= 1)%nat;
  ro_values : wf_value (cr_type c) /\ wf_value (cr_ctype c) /\ wf_value (cr_now c) /\ line_text (cr_uuid c)
              /\ match cr_uri c with Some u => wf_value u | None => True end;
  ro_uri : plain_uri (value_of (lit "WARC-Target-URI") (sh_headers (wr_headers r)));
  ro_target : http_type (value_of (lit "WARC-Type") (sh_headers (wr_headers r))) -> cr_bytes c <> [] ->
              value_of (lit "WARC-Target-URI") (sh_headers (wr_headers r)) <> None;
  ro_revisit : cr_type c = lit "revisit" -> cr_bytes c = [] \/ osah_bool (wr_http r) = true;
  ro_http :
    let t := value_of (lit "WARC-Type") (sh_headers (wr_headers r)) in
    let uri := value_of (lit "WARC-Target-URI") (sh_headers (wr_headers r)) in
    match wr_http r with
    | Some h => sah_bool h = true /\ http_like t uri /\ wf_block (reading_parser t verify) h /\ ascii_block h /\ lines_fit M h
    | None => ~ http_like t uri \/ cr_bytes c = []
    end
}.

Definition same_http (a b : option sah) : Prop :=
  match a, b with
  | Some h, Some h' => sh_proto h' = sh_proto h /\ sh_status h' = sh_status h /\ sh_headers h' = sh_headers h
  | None, None => True
  | _, _ => False
  end.

(** [ob] is what a consumer reading everything sees of the record [r], whose headers were
    [hs] when it was written *)
Record returned {zl : zenv} (c : creation) (r : wrec) (hs : list header) (ob : @obs zl) : Prop := {
  rt_version : sh_proto (rc_headers (ob_record ob)) = sh_proto (wr_headers r);
  rt_headers : sh_headers (rc_headers (ob_record ob)) = hs;
  rt_kept : forall n, ~ ci_eq (lit "Content-Length") n -> ~ ci_eq (lit "Content-Type") n ->
      ~ ci_eq (lit "WARC-Block-Digest") n -> ~ ci_eq (lit "WARC-Payload-Digest") n ->
      value_of n hs = value_of n (sh_headers (wr_headers r));
  rt_type : rc_type (ob_record ob) = value_of (lit "WARC-Type") (sh_headers (wr_headers r));
  rt_http : same_http (wr_http r) (rc_http (ob_record ob));
  rt_content : exists content, ob_reads ob = [Ok content]
      /\ (cr_type c = lit "revisit" -> content = [])
      /\ (cr_type c <> lit "revisit" -> payload_of c (wr_http r) content)
}.

(** a gzip compressor and a decompressor that fit together *)
Definition gzip_codec (zl : zenv) (k : kenv) : Prop :=
  forall ws, is_member zl (deflated k (kinit k) ws) (concat ws).

(** the bytes of a hash value *)
Definition hash_bytes (sha1 : bytes -> bytes) : Prop := forall b, Forall (fun x => (x < 256)%N) (sha1 b).

(** [r] comes from create_warc_record with arguments [c], and can be read back *)
Definition readable (fuel : nat) (sha1 : bytes -> bytes) (M : Z) (verify : bool) (c : creation) (r : wrec) : Prop :=
  (exists f, create fuel sha1 f c = Ok r) /\ round_ok M verify c r /\ enough fuel (cr_bytes c).

(** every record is observed, in order and completely *)
Definition all_returned {zl : zenv} (fuel : nat) (sha1 : bytes -> bytes) (cs : list creation) (rs : list wrec)
    (obs : list (@obs zl)) : Prop :=
  List.length obs = List.length rs
  /\ forall i c r ob, nth_error cs i = Some c -> nth_error rs i = Some r -> nth_error obs i = Some ob ->
     exists ws r', write_plain fuel sha1 None r = (Ok tt, ws, r') /\ returned c r (sh_headers (wr_headers r')) ob.

(** [m] is what writing [r] alone, compressed, puts into the file *)
Definition written_member (fuel : nat) (sha1 : bytes -> bytes) (k : kenv) (r : wrec) (m : bytes) : Prop :=
  exists ws r', write_record fuel sha1 k (mk_wopts (lit "WARC/1.0") None true) r = (Ok tt, ws, r') /\ m = concat ws.

(** reading [m] back: it fits in one block, or its first block holds everything before the payload *)
Definition written_fit (zl : zenv) (fuel : nat) (sha1 : bytes -> bytes) (block : Z) (c : creation) (r : wrec) (m : bytes) : Prop :=
  lenZ m <= block
  \/ exists ws r' payload o d, write_plain fuel sha1 None r = (Ok tt, ws, r')
       /\ (cr_type c = lit "revisit" -> payload = []) /\ (cr_type c <> lit "revisit" -> payload = ps_rest (wr_stream r))
       /\ zfeed zl (zinit zl Gzip) (takeZ block m) = Some (o, d) /\ lenZ (concat ws) - lenZ payload - 4 <= lenZ o.
