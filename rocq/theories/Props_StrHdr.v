(** * Props_StrHdr: headers given as bytes or text (C100) *)
From Coq Require Import String List ZArith NArith Bool.
From Verif Require Import PyBase Utf8 Headers HeaderSpec StrHeaders Streams StreamSpec Loader Iterator IterSpec ArcSpec Toy.
Import ListNotations.
Open Scope Z_scope.
From Verif Require Import Thm_StrHdr.

(** the parsers of the loader and the first words they accept *)
Definition accepted : list (parser * list str) :=
  [ (mk_parser WARC_TYPES true, [lit "WARC/1.0"; lit "WARC/1.1"; lit "WARC/0.17"; lit "WARC/0.18"]);
    (mk_parser HTTP_TYPES true, [lit "HTTP/1.0"; lit "HTTP/1.1"]);
    (mk_parser HTTP_VERBS true, [lit "GET"; lit "HEAD"; lit "POST"; lit "PUT"; lit "DELETE"; lit "CONNECT"; lit "OPTIONS"; lit "TRACE"; lit "PATCH"]) ].
(** the argument holds exactly these (name, value) pairs, in this order *)
Definition pairs_of (a : harg) (ps : list (pv * pv)) : Prop :=
  match a with
  | HMap items => items = ps
  | HSeq tups => Forall2 (fun t p => t = [fst p; snd p]) tups ps
  end.
(** the text [s] is [v], or has one character for each byte of [v], of that number *)
Definition shows (v : pv) (s : str) : Prop :=
  match v with
  | PStr t => s = t
  | PBytes b => length s = length b /\ forall i, nth_error s i = nth_error b i
  end.
Definition shows_all (ps : list (pv * pv)) (hs : list header) : Prop :=
  Forall2 (fun p h => shows (fst p) (fst h) /\ shows (snd p) (snd h)) ps hs.
(** the bytes of an ASCII name or value, whichever way it was given *)
Definition raw_of (v : pv) : bytes := match v with PStr s => s | PBytes b => b end.
Definition ascii_pv (v : pv) : Prop := forall c, In c (raw_of v) -> (c < 128)%N.
Definition raw_lines (ps : list (pv * pv)) : bytes :=
  flat_map (fun p => raw_of (fst p) ++ [58; 32]%N ++ raw_of (snd p) ++ [13; 10]%N) ps.

(** C100.  Header names and values may be given as text or as bytes, in a mapping or in a
    sequence of pairs.  The header list has one header for each pair, in the order given:
    text is kept, bytes become one character for each byte.  The result is that list and
    nothing else, and giving it again changes nothing. *)
Theorem C100_text :
  forall a ps, pairs_of a ps ->
  exists hs, str_headers a = Ok hs /\ shows_all ps hs
    /\ (forall hs', shows_all ps hs' -> hs' = hs)
    /\ str_headers (HSeq (List.map (fun h => [PStr (fst h); PStr (snd h)]) hs)) = Ok hs.
Proof. exact C100_text_pf. Qed.
Print Assumptions C100_text.

Example C100_text_ex : str_headers (HSeq [[PBytes [88; 233]%N; PStr (lit "a")]; [PStr (lit "B"); PBytes (lit "c")]]) = Ok [([88; 233]%N, lit "a"); (lit "B", lit "c")]
  /\ str_headers (HMap [(PStr (lit "A"), PStr (lit "1")); (PBytes (lit "A"), PStr (lit "2"))]) = Ok [(lit "A", lit "1"); (lit "A", lit "2")].
Proof. split; reflexivity. Qed.

(** C100, the only error.  The conversion raises exactly when an element of the sequence is
    not a pair, and then it raises ValueError.  Building an object from a request line
    raises ValueError too if that line has no space, and otherwise nothing else is raised. *)
Theorem C100_error :
  forall a,
  ((forall ps, ~ pairs_of a ps) <-> str_headers a = Err ValueErr)
  /\ (forall e, str_headers a = Err e -> e = ValueErr)
  /\ (forall line proto isreq e, sah_init line a proto isreq = Err e ->
        e = ValueErr /\ ((isreq = true /\ ~ In 32%N line) \/ forall ps, ~ pairs_of a ps)).
Proof. exact C100_error_pf. Qed.
Print Assumptions C100_error.

Example C100_error_ex : str_headers (HSeq [[PStr (lit "A"); PStr (lit "b")]; [PStr (lit "c")]]) = Err ValueErr
  /\ sah_init (lit "GET") (HMap []) [] true = Err ValueErr
  /\ exists h, sah_init (lit "GET / HTTP/1.1") (HMap [(PBytes (lit "Host"), PBytes (lit "x"))]) [] true = Ok h
       /\ sh_proto h = lit "GET" /\ sh_status h = lit "/ HTTP/1.1" /\ sh_headers h = [(lit "Host", lit "x")].
Proof. split; [reflexivity|]. split; [reflexivity|]. eexists. split; [reflexivity|]. repeat split. Qed.

(** C100, request lines: the text before the first space is the protocol field (the
    method), the rest is the status line; without the flag both are taken as given. *)
Theorem C100_request :
  forall verb rest a ps proto, pairs_of a ps -> ~ In 32%N verb ->
  (exists h, sah_init (verb ++ 32%N :: rest) a proto true = Ok h
     /\ sh_proto h = verb /\ sh_status h = rest /\ shows_all ps (sh_headers h))
  /\ (forall line, exists h, sah_init line a proto false = Ok h
     /\ sh_proto h = proto /\ sh_status h = line /\ shows_all ps (sh_headers h)).
Proof. exact C100_request_pf. Qed.
Print Assumptions C100_request.

Example C100_request_ex : exists h, sah_init (lit "POST /a b HTTP/1.0") (HMap []) [] true = Ok h /\ sh_proto h = lit "POST" /\ sh_status h = lit "/a b HTTP/1.0".
Proof. eexists. split; [reflexivity|]. split; reflexivity. Qed.

(** C100, written and read.  The object built from headers that can stand on a line is
    written, and any file that begins with those bytes is read back as headers that show
    the names and values given: for those given as bytes, character by character the same
    numbers. *)
Theorem C100_roundtrip :
  forall fuel p protos line a ps proto body sched,
  In (p, protos) accepted -> In proto protos ->
  line_text line -> no_lead is_uspace line -> no_trail is_uspace line ->
  pairs_of a ps -> (forall hs, shows_all ps hs -> Forall wf_header hs) ->
  exists h data, sah_init line a proto false = Ok h /\ to_bytes None h = Ok data
    /\ (enough fuel (data ++ body) ->
       exists h' s', parse (o_readline raw_ops None) fuel p None (raw_open (data ++ body) sched) = (Ok h', s')
         /\ rw_rest s' = body /\ sh_proto h' = proto /\ sh_status h' = line /\ shows_all ps (sh_headers h')).
Proof. exact C100_roundtrip_pf. Qed.
Print Assumptions C100_roundtrip.

Example C100_roundtrip_ex :
  match sah_init (lit "200 OK") (HMap [(PBytes (lit "X"), PBytes [233; 122]%N)]) (lit "HTTP/1.1") false with
  | Ok h => match to_bytes None h with
            | Ok data => match parse (o_readline raw_ops None) 100 (mk_parser HTTP_TYPES true) None (raw_open (data ++ lit "body") []) with
                         | (Ok h', s') => sh_headers h' = [(lit "X", [233; 122]%N)] /\ rw_rest s' = lit "body"
                         | _ => False end
            | Err _ => False end
  | Err _ => False
  end.
Proof. vm_compute. split; reflexivity. Qed.

(** C100, the bytes written, ASCII names and values only: the header lines are made of
    exactly the bytes given.  Missing: other bytes, for which it is false, see
    C100_verbatim_refuted. *)
Theorem C100_verbatim_partial :
  forall line a ps proto h,
  pairs_of a ps -> Forall (fun p => ascii_pv (fst p) /\ ascii_pv (snd p)) ps ->
  sah_init line a proto false = Ok h -> is_ascii (first_line proto line) = true ->
  to_bytes None h = Ok (first_line proto line ++ raw_lines ps ++ [13; 10]%N)
  /\ fst (to_ascii_bytes None h) = Ok (first_line proto line ++ raw_lines ps ++ [13; 10]%N).
Proof. exact C100_verbatim_partial_pf. Qed.
Print Assumptions C100_verbatim_partial.

Example C100_verbatim_ex : match sah_init (lit "200 OK") (HMap [(PBytes (lit "X"), PBytes (lit "y"))]) (lit "HTTP/1.1") false with
  | Ok h => to_bytes None h = Ok (lit "HTTP/1.1 200 OK" ++ [13; 10]%N ++ lit "X: y" ++ [13; 10; 13; 10]%N)
  | Err _ => False end.
Proof. vm_compute. reflexivity. Qed.

(** C100: a value given as bytes outside ASCII is not written as given.  UTF-8 bytes are
    encoded a second time by to_bytes; by to_ascii_bytes they are percent-encoded as the
    second encoding too. *)
Theorem C100_verbatim_refuted :
  exists ps h, sah_init (lit "200 OK") (HMap ps) (lit "HTTP/1.1") false = Ok h
  /\ ps = [(PBytes (lit "X"), PBytes [195; 169]%N)]
  /\ to_bytes None h = Ok (first_line (lit "HTTP/1.1") (lit "200 OK") ++ lit "X: " ++ [195; 131; 194; 169]%N ++ [13; 10; 13; 10]%N)
  /\ fst (to_ascii_bytes None h) = Ok (first_line (lit "HTTP/1.1") (lit "200 OK") ++ lit "X: %C3%83%C2%A9" ++ [13; 10; 13; 10]%N).
Proof. exact C100_verbatim_refuted_pf. Qed.
Print Assumptions C100_verbatim_refuted.
