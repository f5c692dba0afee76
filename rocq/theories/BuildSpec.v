(** * BuildSpec: vocabulary for what the record builder puts into a new record.  The
    media types, the form of a record identifier, the filtered headers; nothing of the
    model of the builder but its data types. *)
From Coq Require Import String List ZArith NArith Bool.
From Verif Require Import PyBase Utf8 Codecs Headers HeaderSpec Writer WriterSpec.
Import ListNotations.
Open Scope Z_scope.

(** media type of the block for each record type that has one of its own *)
Definition media_types : list (str * str) :=
  [ (lit "warcinfo", lit "application/warc-fields");
    (lit "metadata", lit "application/warc-fields");
    (lit "request", lit "application/http; msgtype=request");
    (lit "response", lit "application/http; msgtype=response");
    (lit "revisit", lit "application/http; msgtype=response") ].
Definition media_type (t ct : str) : Prop :=
  In (t, ct) media_types
  \/ ((forall ct', ~ In (t, ct') media_types) /\ ct = lit "application/warc-record").

(** an identifier made from the text of a UUID *)
Definition urn_id (uuid : str) : str := lit "<urn:uuid:" ++ uuid ++ lit ">".

(** the record types without payload digest *)
Definition without_payload (t : str) : Prop := t = lit "warcinfo" \/ t = lit "revisit".

(** the names that the builder and the writer fill in *)
Definition own_names : list str :=
  [ lit "WARC-Type"; lit "WARC-Record-ID"; lit "WARC-Target-URI"; lit "WARC-Date";
    lit "WARC-Payload-Digest"; lit "WARC-Block-Digest"; lit "Content-Type"; lit "Content-Length" ].

(** a value, or a default *)
Definition given_or (name default : str) (hs : list header) : str :=
  match value_of name hs with Some v => v | None => default end.

(** an optional header *)
Definition unless_empty (name value : str) : list header :=
  match value with [] => [] | _ => [(name, value)] end.
Definition uri_text (o : option str) : str := match o with Some u => u | None => [] end.

(** the pairs of a warcinfo record that have a value *)
Definition with_value (info : list header) : list header :=
  filter (fun h => match snd h with [] => false | _ => true end) info.

(** what a filter (None: drop the header) leaves of a list of headers *)
Definition kept (g : hfilter) (hs : list header) : list header :=
  flat_map (fun h => match g h with Some h' => [h'] | None => [] end) hs.
(** a header block: first line, one line per header, an empty line *)
Definition head_text (proto status : str) (hs : list header) : str :=
  proto ++ [32%N] ++ status ++ [13; 10]%N ++ concat (map field_line hs) ++ [13; 10]%N.

(** the HTTP headers of the record are not an empty StatusAndHeaders object (which is
    false in a condition), or no payload was given *)
Definition http_real (c : creation) (r : wrec) : Prop :=
  osah_bool (wr_http r) = true \/ wr_http r = None \/ cr_payload c = None.
(** a revisit record has no payload unless it has HTTP headers *)
Definition revisit_plain (c : creation) (r : wrec) : Prop :=
  cr_type c = lit "revisit" -> cr_bytes c = [] \/ osah_bool (wr_http r) = true.
