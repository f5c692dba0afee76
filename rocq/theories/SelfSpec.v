(** * SelfSpec: archives that warcio itself wrote (C86) *)
From Coq Require Import String List ZArith NArith Bool.
From Verif Require Import PyBase Headers Streams Loader Iterator Writer StreamSpec WriterSpec IterSpec RoundSpec CliSpec Toy.
Import ListNotations.
Open Scope Z_scope.

(** arguments of create_warc_record without digest headers; a revisit record has no content *)
Definition unsigned (c : creation) : Prop :=
  occurs (lit "WARC-Block-Digest") (given_headers c) = 0%nat
  /\ occurs (lit "WARC-Payload-Digest") (given_headers c) = 0%nat
  /\ (cr_type c = lit "revisit" -> cr_bytes c = []).

(** record [r] was made by create_warc_record with arguments [c], which gives no digests; it
    can be read back (C27) *)
Definition own (fuel : nat) (sha1 : bytes -> bytes) (M : Z) (c : creation) (r : wrec) : Prop :=
  readable fuel sha1 M false c r /\ unsigned c.

(** [data] is a file of the records [rs] written by WARCWriter(gzip=False) or WARCWriter(gzip=True);
    the gzip member of a chunked record fits in one block, for the others see [written_fit] *)
Definition is_chunked (http : option sah) : Prop :=
  exists h, http = Some h /\ value_of (lit "transfer-encoding") (sh_headers h) = Some (lit "chunked").
Inductive own_file (zl : zenv) (fuel : nat) (sha1 : bytes -> bytes) (k : kenv) (M block : Z) : bytes -> list wrec -> Prop :=
| Own_plain cs rs ws :
    gz_magic zl -> Forall2 (own fuel sha1 M) cs rs ->
    write_all fuel sha1 k (mk_wopts (lit "WARC/1.0") None false) rs = (Ok tt, ws) ->
    enough fuel (concat ws) -> M <= block ->
    own_file zl fuel sha1 k M block (concat ws) rs
| Own_gzip cs rs ms ws :
    gzip_codec zl k -> Forall2 (own fuel sha1 M) cs rs -> rs <> [] ->
    write_all fuel sha1 k (mk_wopts (lit "WARC/1.0") None true) rs = (Ok tt, ws) ->
    Forall2 (written_member fuel sha1 k) rs ms -> enough fuel (concat ws) ->
    (forall r ws' r', In r rs -> write_plain fuel sha1 None r = (Ok tt, ws', r') -> enough fuel (concat ws')) ->
    (forall i c r m, nth_error cs i = Some c -> nth_error rs i = Some r -> nth_error ms i = Some m ->
       written_fit zl fuel sha1 block c r m /\ (is_chunked (wr_http r) -> lenZ m <= block)) ->
    own_file zl fuel sha1 k M block (concat ws) rs.

(** examples: a response whose content looks like a WARC record, and a resource of unknown length *)
Definition own_h : sah := sah_new (lit "200 OK") [(lit "Content-Type", lit "text/plain; a: b")] (lit "HTTP/1.1").
Definition own_c1 : creation :=
  mk_creation (lit "WARC/1.0") (lit "1234") (lit "2000-01-01T00:00:00Z") (Some (lit "http://a/")) (lit "response")
              (Some (bytesio (lit "WARC/1.0" ++ crlf ++ crlf ++ [0; 255; 10]%N))) (Some 15) [] [(lit "X-One", lit "1")] None (Some own_h).
Definition own_c2 : creation :=
  mk_creation (lit "WARC/1.1") (lit "5678") (lit "2000-01-01T00:00:01Z") None (lit "resource")
              (Some (bytesio (lit "hello"))) None (lit "text/plain") [] None None.
(** a chunked response; the encoding is given by its HTTP headers *)
Definition own_c3 : creation :=
  mk_creation (lit "WARC/1.0") (lit "9012") (lit "2000-01-01T00:00:02Z") (Some (lit "http://a/")) (lit "response")
              (Some (bytesio (lit "2" ++ crlf ++ lit "hi" ++ crlf ++ lit "0" ++ crlf ++ crlf))) None [] [] None
              (Some (sah_new (lit "200 OK") [(lit "Transfer-Encoding", lit "chunked")] (lit "HTTP/1.1"))).
Definition own_cs : list creation := [own_c1; own_c2].
Definition own_cs3 : list creation := [own_c3; own_c2].
Definition own_r (c : creation) : wrec :=
  match create 2000 ck_hash None c with Ok r => r | Err _ => mk_wrec None (sah_new [] [] []) (bytesio []) None None None None None end.
Definition own_rs : list wrec := map own_r own_cs.
Definition own_rs3 : list wrec := map own_r own_cs3.
Definition own_ws (gzip : bool) (rs : list wrec) : list bytes := snd (write_all 2000 ck_hash toy_k (mk_wopts (lit "WARC/1.0") None gzip) rs).
