(** * Props_Version: recognised first lines (C19, C96), text of the index (C60) *)
From Coq Require Import String List ZArith NArith Bool.
From Verif Require Import PyBase Utf8 Headers HeaderSpec Streams StreamSpec Loader Iterator IterSpec ArcSpec Writer WriterSpec Cli Toy.
Import ListNotations.
Open Scope Z_scope.
From Verif Require Import Thm_Version.

(** the parsers of the loader and the first words they accept *)
Definition accepted : list (parser * list str) :=
  [ (mk_parser WARC_TYPES true, [lit "WARC/1.0"; lit "WARC/1.1"; lit "WARC/0.17"; lit "WARC/0.18"]);
    (mk_parser HTTP_TYPES true, [lit "HTTP/1.0"; lit "HTTP/1.1"]);
    (mk_parser HTTP_VERBS true, [lit "GET"; lit "HEAD"; lit "POST"; lit "PUT"; lit "DELETE"; lit "CONNECT"; lit "OPTIONS"; lit "TRACE"; lit "PATCH"]) ].
(** what the builder makes of its warc_version argument *)
Definition versions : list (option str * str) :=
  [ (None, lit "WARC/1.0"); (Some [], lit "WARC/1.0"); (Some (lit "1.0"), lit "WARC/1.0"); (Some (lit "1.1"), lit "WARC/1.1");
    (Some (lit "0.17"), lit "WARC/0.17"); (Some (lit "0.18"), lit "WARC/0.18"); (Some (lit "WARC/1.0"), lit "WARC/1.0");
    (Some (lit "WARC/1.1"), lit "WARC/1.1"); (Some (lit "WARC/0.17"), lit "WARC/0.17"); (Some (lit "WARC/0.18"), lit "WARC/0.18") ].

(** C19, which first lines are read.  A header block whose first word is one of the four
    WARC versions, of the two HTTP versions, or of the nine HTTP methods, is written and
    read back by the parser for WARC records, HTTP responses and HTTP requests. *)
Theorem C19_accepted :
  forall fuel p protos h body sched,
  In (p, protos) accepted -> In (sh_proto h) protos ->
  line_text (sh_status h) -> no_lead is_uspace (sh_status h) -> no_trail is_uspace (sh_status h) ->
  Forall wf_header (sh_headers h) ->
  exists data, to_bytes None h = Ok data
    /\ (enough fuel (data ++ body) ->
       exists h' s', parse (o_readline raw_ops None) fuel p None (raw_open (data ++ body) sched) = (Ok h', s')
         /\ rw_rest s' = body /\ rw_pos s' = lenZ data
         /\ sh_proto h' = sh_proto h /\ sh_status h' = sh_status h /\ sh_headers h' = sh_headers h).
Proof. exact C19_accepted_pf. Qed.
Print Assumptions C19_accepted.

Example C19_accepted_ex :
  match parse (o_readline raw_ops None) 200 (mk_parser HTTP_VERBS true) None (raw_open (lit "PATCH /a HTTP/1.1" ++ crlf ++ lit "A: b" ++ crlf ++ crlf ++ lit "x") []) with
  | (Ok h, s) => sh_proto h = lit "PATCH" /\ sh_status h = lit "/a HTTP/1.1" /\ sh_headers h = [(lit "A", lit "b")] /\ rw_rest s = lit "x"
  | _ => False
  end.
Proof. vm_compute. repeat split. Qed.

(** C96.  A builder made with one of the versions that warcio reads, with or without the
    prefix, or with none, writes the version line of that version, and the record's
    headers are read back from any file that begins with it. *)
Theorem C96_known_partial :
  forall v version hs block out rest sched fuel,
  In (v, version) versions -> is_record (parse_warc_version v) hs block out -> Forall wf_header hs ->
  enough fuel (out ++ rest) ->
  exists h s', parse (o_readline raw_ops None) fuel (mk_parser WARC_TYPES true) None (raw_open (out ++ rest) sched) = (Ok h, s')
    /\ sh_proto h = version /\ sh_status h = [] /\ sh_headers h = hs
    /\ rw_rest s' = block ++ [13; 10; 13; 10]%N ++ rest.
Proof. exact C96_known_partial_pf. Qed.
Print Assumptions C96_known_partial.

Example C96_known_partial_ex : exists out, is_record (parse_warc_version (Some (lit "0.18"))) [(lit "WARC-Type", lit "resource")] (lit "abc") out
  /\ match parse (o_readline raw_ops None) 200 (mk_parser WARC_TYPES true) None (raw_open out []) with
     | (Ok h, _) => sh_proto h = lit "WARC/0.18" | _ => False end.
Proof. eexists. split; [eexists; split; vm_compute; reflexivity|vm_compute; reflexivity]. Qed.

(** C96, other versions.  A builder made with any other version writes records that
    warcio itself refuses: iterating over the file raises ArchiveLoadFailed before the
    first record, for every block size, read schedule and following data. *)
Theorem C96_unknown_refuted :
  forall (zl : zenv) (he : henv) (o : lopts) v hs block out rest sched bsize known fuel n prog,
  gz_magic zl -> first_two bsize sched -> enough fuel (out ++ rest) -> known <> Some FArc ->
  v <> [] -> (forall c, In c v -> is_scalar c = true /\ is_uspace c = false) ->
  (forall r, v <> lit "WARC/" ++ r) ->
  (forall q r, In q [lit "1.0"; lit "1.1"; lit "0.17"; lit "0.18"] -> v <> q ++ r) ->
  is_record (parse_warc_version (Some v)) hs block out ->
  run_iter (zl:=zl) fuel he o (S n) prog 0 (iter_new (raw_open (out ++ rest) sched) bsize known) = ([], EndExn ArchiveLoadFailed).
Proof. exact C96_unknown_refuted_pf. Qed.
Print Assumptions C96_unknown_refuted.

From Verif Require Thm_Buffered.
(** '2.0' is such a version; the record is written without any complaint *)
Example C96_unknown_refuted_ex : exists out,
  is_record (parse_warc_version (Some (lit "2.0"))) [(lit "WARC-Type", lit "resource"); (lit "Content-Length", lit "3")] (lit "abc") out
  /\ (forall r, lit "2.0" <> lit "WARC/" ++ r)
  /\ (forall q r, In q [lit "1.0"; lit "1.1"; lit "0.17"; lit "0.18"] -> lit "2.0" <> q ++ r)
  /\ gz_magic toy_z /\ first_two 64 [] /\ enough 200 (out ++ []).
Proof.
  eexists. split; [eexists; split; vm_compute; reflexivity|]. split; [intros r X; discriminate X|].
  split. { intros q r H X. cbn [In] in H. decompose [or] H; try contradiction; subst q; discriminate X. }
  split; [exact Thm_Buffered.toy_gz_magic_pf|]. split; [split; [discriminate|exact I]|]. unfold enough. vm_compute. repeat constructor.
Qed.

(** names separated by commas *)
Fixpoint comma_joined (fs : list str) : str :=
  match fs with [] => [] | [f] => f | f :: t => f ++ [44%N] ++ comma_joined t end.
(** a text of complete lines *)
Definition lines_text (ls : list str) : str := concat (map (fun l => l ++ [10%N]) ls).

(** C60, field names.  A list of names given as one text with commas is the list. *)
Theorem C60_fields :
  forall fs, fs <> [] -> Forall (fun f => ~ In 44%N f) fs -> split_fields (comma_joined fs) = fs.
Proof. exact C60_fields_pf. Qed.
Print Assumptions C60_fields.

Example C60_fields_ex : split_fields (lit "offset,warc-type,http:status") = [lit "offset"; lit "warc-type"; lit "http:status"].
Proof. vm_compute. reflexivity. Qed.

(** C60, output.  If json.dumps writes no line feed, then the output of the indexer has
    one line per record, in order, and nothing else: the only way to cut it into lines
    gives the JSON texts of the records. *)
Theorem C60_text :
  forall (dumps : list (str * str) -> str) ds,
  (forall d, ~ In 10%N (dumps d)) ->
  forall ls, Forall (fun l => ~ In 10%N l) ls -> (lines_text ls = index_text dumps ds <-> ls = map dumps ds).
Proof. exact C60_text_pf. Qed.
Print Assumptions C60_text.

Example C60_text_ex : index_text (fun d => lit "{" ++ flat_map snd d ++ lit "}") [[(lit "offset", lit "0")]; [(lit "offset", lit "57")]]
  = lines_text [lit "{0}"; lit "{57}"].
Proof. vm_compute. reflexivity. Qed.
