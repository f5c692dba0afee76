(** * WriterSpec: vocabulary for the statements about recordbuilder.py and warcwriter.py.
    Text of a record, number of headers of a name, the arguments of create_warc_record;
    from the model of the writer only the data types and the function under test. *)
From Coq Require Import String List ZArith NArith Bool.
From Verif Require Import PyBase Utf8 Codecs Headers HeaderSpec Writer.
Import ListNotations.
Open Scope Z_scope.

(** "Name: value CRLF" *)
Definition field_line (h : header) : str := fst h ++ [58; 32]%N ++ snd h ++ [13; 10]%N.

(** the bytes of a WARC record: version line, one line per header, an empty line, the
    block, two empty lines.  The head is UTF-8. *)
Definition record_text (version : str) (hs : list header) : str :=
  version ++ [13; 10]%N ++ concat (map field_line hs) ++ [13; 10]%N.
Definition is_record (version : str) (hs : list header) (block out : bytes) : Prop :=
  exists head, utf8_encode (record_text version hs) = Some head
               /\ out = head ++ block ++ [13; 10; 13; 10]%N.

(** number of headers called [name] (ignoring case) *)
Definition occurs (name : str) (hs : list header) : nat :=
  List.length (filter (fun h => name_eq (fst h) name) hs).

(** first value of a header *)
Definition value_of (name : str) (hs : list header) : option str :=
  match filter (fun h => name_eq (fst h) name) hs with h :: _ => Some (snd h) | [] => None end.

(** "sha1:" and the base32 text of the digest *)
Definition sha1_text (sha1 : bytes -> bytes) (b : bytes) : str := lit "sha1:" ++ b32encode (sha1 b).

(** the HTTP header block of a record with HTTP headers [o] (none, or an empty object:
    no block); what [to_ascii_bytes] returns is described by C22 *)
Definition http_block (f : option hfilter) (o : option sah) (b : bytes) : Prop :=
  match o with
  | Some h => if sah_bool h then fst (to_ascii_bytes f h) = Ok b else b = []
  | None => b = []
  end.

(** the arguments of create_warc_record *)
Record creation := mk_creation {
  cr_version : str; cr_uuid : str; cr_now : str;
  cr_uri : option str; cr_type : str;
  cr_payload : option pstream; cr_length : option Z;
  cr_ctype : str; cr_hdict : list header; cr_whdrs : option sah; cr_http : option sah
}.
Definition create (fuel : nat) (sha1 : bytes -> bytes) (f : option hfilter) (c : creation) : res wrec :=
  create_warc_record fuel sha1 (cr_version c) (cr_uuid c) (cr_now c) f (cr_uri c) (cr_type c)
                     (cr_payload c) (cr_length c) (cr_ctype c) (cr_hdict c) (cr_whdrs c) (cr_http c).
Definition cr_bytes (c : creation) : bytes :=
  match cr_payload c with Some p => py_all p | None => [] end.
(** the WARC headers given by the caller *)
Definition given_headers (c : creation) : list header :=
  match cr_whdrs c with Some h => if sah_bool h then sh_headers h else cr_hdict c | None => cr_hdict c end.

(** the payload stream is at its beginning and the length, if given, is right *)
Definition length_right (c : creation) : Prop :=
  match cr_payload c with
  | Some p => py_pos p = 0 /\ (cr_length c = None \/ cr_length c = Some (lenZ (py_all p)))
  | None => True
  end.
(** the version line is not empty and has no second part *)
Definition version_ok (c : creation) : Prop :=
  match cr_whdrs c with
  | Some h => if sah_bool h then sh_status h = [] /\ sh_proto h <> [] else cr_version c <> []
  | None => cr_version c <> []
  end.

(** what of the given bytes is the payload: all of them if HTTP headers were given
    separately (or there are none), otherwise what follows the header block *)
Definition payload_of (c : creation) (http : option sah) (payload : bytes) : Prop :=
  (osah_bool (cr_http c) = true \/ http = None \/ cr_payload c = None -> payload = cr_bytes c)
  /\ (osah_bool (cr_http c) = false -> http <> None -> cr_payload c <> None ->
      exists blk, cr_bytes c = blk ++ payload /\ header_block blk payload).

(** a gzip member: the pieces [ws] are compressed one after the other, then the
    compressor is flushed *)
Fixpoint deflated (k : kenv) (s : kS k) (ws : list bytes) : bytes :=
  match ws with
  | [] => kflush k s
  | w :: t => snd (kcompress k s w) ++ deflated k (fst (kcompress k s w)) t
  end.
