(** * Props_Headers: header lists, serialisation and parsing (C16-C23) *)
From Coq Require Import String List ZArith NArith Bool Lia.
From Coq Require Import ZifyBool ZifyNat ZifyN.
From Verif Require Import PyBase Utf8 Headers HeaderSpec Streams StreamSpec.
Import ListNotations.
Open Scope Z_scope.
From Verif Require Import Thm_Headers.

From Verif Require Import HeaderProofs.

(** C16: the first header with that name, ignoring case *)
Theorem C16_get_header_first :
  forall name dflt s pre k v post,
  sh_headers s = pre ++ (k, v) :: post -> ci_eq k name -> Forall (fun h => ~ named name h) pre ->
  get_header_default name dflt s = Some v.
Proof. exact C16_get_header_first_pf. Qed.
Print Assumptions C16_get_header_first.



(** C16: the default if there is none *)
Theorem C16_get_header_none :
  forall name dflt s, Forall (fun h => ~ named name h) (sh_headers s) -> get_header_default name dflt s = dflt.
Proof. exact C16_get_header_none_pf. Qed.
Print Assumptions C16_get_header_none.



(** C16: add_header appends; an existing header of that name still hides the new one *)
Theorem C16_add_header :
  forall name value s,
  sh_headers (add_header name value s) = sh_headers s ++ [(name, value)]
  /\ sh_status (add_header name value s) = sh_status s /\ sh_proto (add_header name value s) = sh_proto s
  /\ get_header name (add_header name value s)
     = match get_header name s with Some v => Some v | None => Some value end.
Proof. exact C16_add_header_pf. Qed.
Print Assumptions C16_add_header.

Example C16_ex :
  get_header_default (lit "CONTENT-type") None
    (sah_new (lit "200 OK") [(lit "Via", lit "x"); (lit "Content-Type", lit "a"); (lit "content-type", lit "b")] (lit "HTTP/1.0"))
  = Some (lit "a").
Proof. vm_compute. reflexivity. Qed.

(** C17, what replace_header does: the last header of that name gets the value, and its
    old value is returned; with none, the header is appended and None returned *)
Theorem C17_replace_last :
  forall name value s,
  (forall pre k v post, sh_headers s = pre ++ (k, v) :: post -> ci_eq k name -> Forall (fun h => ~ named name h) post ->
     replace_header name value s = (Some v, set_headers s (pre ++ (k, value) :: post)))
  /\ (Forall (fun h => ~ named name h) (sh_headers s) ->
      replace_header name value s = (None, set_headers s (sh_headers s ++ [(name, value)]))).
Proof. exact C17_replace_last_pf. Qed.
Print Assumptions C17_replace_last.



(** C17 if the name occurs at most once: get_header then returns the new value, and the
    value of every other name is as before *)
Theorem C17_replace_get_partial :
  forall name value s,
  (exists pre h post, sh_headers s = pre ++ h :: post /\ named name h
     /\ Forall (fun x => ~ named name x) pre /\ Forall (fun x => ~ named name x) post)
  \/ Forall (fun x => ~ named name x) (sh_headers s) ->
  let s' := replace_header_ name value s in
  get_header name s' = Some value
  /\ fst (replace_header name value s) = get_header name s
  /\ forall other, ~ ci_eq other name -> get_header other s' = get_header other s.
Proof. exact C17_replace_get_partial_pf. Qed.
Print Assumptions C17_replace_get_partial.

Example C17_ex :
  let s := sah_new (lit "200 OK") [(lit "Via", lit "x"); (lit "Content-Type", lit "a")] (lit "HTTP/1.0") in
  replace_header (lit "content-type") (lit "b") s
  = (Some (lit "a"), sah_new (lit "200 OK") [(lit "Via", lit "x"); (lit "Content-Type", lit "b")] (lit "HTTP/1.0")).
Proof. vm_compute. reflexivity. Qed.

(** C17 is false with repeated names: replace_header changes the last occurrence,
    get_header returns the first (finding) *)
Theorem C17_replace_get_refuted :
  exists name value s, get_header name (replace_header_ name value s) <> Some value.
Proof. exact C17_replace_get_refuted_pf. Qed.
Print Assumptions C17_replace_get_refuted.



(** C18 *)
Theorem C18_remove_last :
  forall name s,
  (forall pre k v post, sh_headers s = pre ++ (k, v) :: post -> ci_eq k name -> Forall (fun h => ~ named name h) post ->
     remove_header name s = (true, set_headers s (pre ++ post)))
  /\ (Forall (fun h => ~ named name h) (sh_headers s) -> remove_header name s = (false, s)).
Proof. exact C18_remove_last_pf. Qed.
Print Assumptions C18_remove_last.

Example C18_ex :
  remove_header (lit "via") (sah_new [] [(lit "Via", lit "a"); (lit "X", lit "y"); (lit "VIA", lit "b")] [])
  = (true, sah_new [] [(lit "Via", lit "a"); (lit "X", lit "y")] []).
Proof. vm_compute. reflexivity. Qed.

(** C19: any stream [rl] delivering the lines of [data ++ body] ([R]); [wf_block] as in
    HeaderSpec.v *)
Theorem C19_roundtrip :
  forall (S : Type) (rl : S -> res bytes * S) (R : S -> bytes -> Prop) fuel p h,
  reads_lines rl R -> wf_block p h ->
  exists data, to_bytes None h = Ok data
    /\ forall s body, R s (data ++ body) -> enough fuel data ->
       exists h' s', parse rl fuel p None s = (Ok h', s') /\ R s' body
         /\ sh_proto h' = sh_proto h /\ sh_status h' = sh_status h /\ sh_headers h' = sh_headers h
         /\ (sah_bool h = true -> sah_eq h h' = true).
Proof. exact C19_roundtrip_pf. Qed.
Print Assumptions C19_roundtrip.



(** C19 for a file: afterwards the file position is at the first byte of the body *)
Theorem C19_file :
  forall fuel p h body sched, wf_block p h ->
  exists data, to_bytes None h = Ok data
    /\ (enough fuel (data ++ body) ->
       exists h' s', parse (o_readline raw_ops None) fuel p None (raw_open (data ++ body) sched) = (Ok h', s')
         /\ rw_rest s' = body /\ rw_pos s' = lenZ data
         /\ sh_proto h' = sh_proto h /\ sh_status h' = sh_status h /\ sh_headers h' = sh_headers h).
Proof. exact C19_file_pf. Qed.
Print Assumptions C19_file.

Definition C19_h : sah := sah_new (lit "200 OK") [(lit "Content-Type", lit "text/html"); (lit "X", [233; 960]%N); (lit "Empty", [])] (lit "HTTP/1.1").
Definition C19_p : parser := mk_parser [lit "HTTP/1.0"; lit "HTTP/1.1"] true.
Example C19_ex : wf_block C19_p C19_h.
Proof. apply wf_blockb_ok. vm_compute. reflexivity. Qed.
Example C19_ex2 : match to_bytes None C19_h with
  | Ok data => match fst (parse (o_readline raw_ops None) 80 C19_p None (raw_open (data ++ lit "x: y" ++ crlf) [])) with
               | Ok h => sh_headers h = sh_headers C19_h | Err _ => False end
  | Err _ => False end.
Proof. vm_compute. reflexivity. Qed.

(** C20: what is consumed is the header block: the lines up to and including the first
    blank line, or everything if there is none.  Where the first line is rejected only
    that line is consumed. *)
Theorem C20_stops_after_blank :
  forall (S : Type) (rl : S -> res bytes * S) (R : S -> bytes -> Prop) fuel p s c,
  reads_lines rl R -> R s c -> enough fuel c ->
  exists block rest s', snd (parse rl fuel p None s) = s' /\ R s' rest /\ c = block ++ rest
    /\ (header_block block rest
        \/ (block = take_line c /\ exists m, fst (parse rl fuel p None s) = Err (ParserExn m))).
Proof. exact C20_stops_after_blank_pf. Qed.
Print Assumptions C20_stops_after_blank.

Example C20_ex : let data := lit "HTTP/1.0 200 OK" ++ crlf ++ lit "A: b" ++ crlf ++ lit " c" ++ [LF; 32%N; LF] ++ lit "body" ++ crlf ++ crlf in
  rw_rest (snd (parse (o_readline raw_ops None) 60 (mk_parser [lit "HTTP/1.0"] true) None (raw_open data []))) = lit "body" ++ crlf ++ crlf.
Proof. vm_compute. reflexivity. Qed.

(** C21: EOFError iff there is nothing; the parser exception iff verification is on and the
    first line is neither blank nor starts (ignoring case) with an expected prefix; success
    otherwise *)
Theorem C21_failures :
  forall (S : Type) (rl : S -> res bytes * S) (R : S -> bytes -> Prop) fuel p s c,
  reads_lines rl R -> R s c -> enough fuel c ->
  let r := fst (parse rl fuel p None s) in
  let line1 := take_line c in
  let expected := exists q t, In q (p_list p) /\ upper (urstrip (decode_header line1)) = q ++ t in
  (r = Err EOFError <-> c = [])
  /\ (r = Err (ParserExn (decode_header line1)) <-> p_verify p = true /\ c <> [] /\ ~ blank line1 /\ ~ expected)
  /\ ((exists h, r = Ok h) <-> c <> [] /\ (p_verify p = false \/ blank line1 \/ expected))
  /\ ((exists h, r = Ok h) \/ r = Err EOFError \/ r = Err (ParserExn (decode_header line1))).
Proof. exact C21_failures_pf. Qed.
Print Assumptions C21_failures.

Example C21_ex : let run d := fst (parse (o_readline raw_ops None) 60 (mk_parser [lit "WARC/1.0"] true) None (raw_open d [])) in
  run [] = Err EOFError /\ run (lit "HTTP/1.0 200 OK" ++ crlf) = Err (ParserExn (lit "HTTP/1.0 200 OK" ++ crlf))
  /\ match run (lit "warc/1.0") with Ok _ => True | Err _ => False end.
Proof. vm_compute. repeat split. Qed.

(** C22 when every value is ASCII or contains no ';' *)
Theorem C22_ascii_partial :
  forall s, ascii_text (sh_proto s) -> ascii_text (sh_status s) ->
  Forall (fun h => ascii_text (fst h) /\ scalar_text (snd h) /\ (ascii_text (snd h) \/ ~ In 59%N (snd h))) (sh_headers s) ->
  exists s' b, to_ascii_bytes None s = (Ok b, s') /\ b = to_str None s' ++ crlf /\ ascii_text b
    /\ sh_proto s' = sh_proto s /\ sh_status s' = sh_status s
    /\ Forall2 (fun h h' => fst h' = fst h /\ ascii_form (snd h) (snd h')) (sh_headers s) (sh_headers s').
Proof. exact C22_ascii_partial_pf. Qed.
Print Assumptions C22_ascii_partial.

Example C22_ex : to_ascii_bytes None (sah_new (lit "200 OK") [(lit "A", [233%N]); (lit "B", lit "x;y")] (lit "HTTP/1.0"))
  = (Ok (lit "HTTP/1.0 200 OK" ++ crlf ++ lit "A: %C3%A9" ++ crlf ++ lit "B: x;y" ++ crlf ++ crlf),
     sah_new (lit "200 OK") [(lit "A", lit "%C3%A9"); (lit "B", lit "x;y")] (lit "HTTP/1.0")).
Proof. vm_compute. reflexivity. Qed.

(** C22 for a value like  attachment; filename="..."  : the quoted parameter becomes an
    RFC 5987 extended parameter *)
Theorem C22_parameter_partial :
  forall a g, ascii_text a -> ~ In 61%N a -> In 59%N a -> scalar_text g -> ~ ascii_text g ->
  (forall c, In c g -> c <> 59%N /\ c <> 34%N) ->
  encode_value (a ++ lit "=""" ++ g ++ lit """") = a ++ lit "*=UTF-8''" ++ quote g
  /\ ascii_text (a ++ lit "*=UTF-8''" ++ quote g).
Proof. exact C22_parameter_partial_pf. Qed.
Print Assumptions C22_parameter_partial.

Example C22_param_ex : encode_value (lit "attachment; filename=""" ++ [233%N] ++ lit ".txt""") = lit "attachment; filename*=UTF-8''%C3%A9.txt".
Proof. vm_compute. reflexivity. Qed.

(** C22 is false: with a parameter elsewhere in the value, a non-ASCII character outside
    it is left alone and to_ascii_bytes raises UnicodeEncodeError (finding) *)
Theorem C22_ascii_refuted :
  exists s, ascii_text (sh_proto s) /\ ascii_text (sh_status s) /\ Forall (fun h => ascii_text (fst h) /\ scalar_text (snd h)) (sh_headers s)
  /\ fst (to_ascii_bytes None s) = Err UnicodeErr.
Proof. exact C22_ascii_refuted_pf. Qed.
Print Assumptions C22_ascii_refuted.



(** C23 is false: a value containing CR LF writes a further header (finding) *)
Theorem C23_injection_refuted :
  exists h, List.length (sh_headers h) = 1%nat
  /\ exists data h' s', to_bytes None h = Ok data
     /\ parse (o_readline raw_ops None) 60 (mk_parser [lit "HTTP/1.0"] true) None (raw_open data []) = (Ok h', s')
     /\ List.length (sh_headers h') = 2%nat.
Proof. exact C23_injection_refuted_pf. Qed.
Print Assumptions C23_injection_refuted.



(** C23 for one-line values: the same number of headers, whatever else they contain *)
Theorem C23_no_injection_partial :
  forall (S : Type) (rl : S -> res bytes * S) (R : S -> bytes -> Prop) fuel p h,
  reads_lines rl R -> wf_block p h ->
  exists data, to_bytes None h = Ok data
    /\ forall s body, R s (data ++ body) -> enough fuel data ->
       exists h' s', parse rl fuel p None s = (Ok h', s') /\ List.length (sh_headers h') = List.length (sh_headers h).
Proof. exact C23_no_injection_partial_pf. Qed.
Print Assumptions C23_no_injection_partial.



(** the values of the headers called [name], in order *)
Definition values (name : str) (hs : list header) : list str :=
  map snd (filter (fun h => leqb (map lower1 (fst h)) (map lower1 name)) hs).

(** C70: status line 206; Content-Range "bytes first-last/total" with last the last byte of
    the part, Content-Length the length of the part and Accept-Ranges bytes, each in place
    of the last header of that name or added; all other headers and the protocol as before *)
Theorem C70_add_range :
  forall start len total s,
  let s' := add_range start len total s in
  sh_status s' = lit "206 Partial Content" /\ sh_proto s' = sh_proto s
  /\ values (lit "content-range") (sh_headers s')
     = removelast (values (lit "content-range") (sh_headers s))
       ++ [lit "bytes " ++ str_of_Z start ++ lit "-" ++ str_of_Z (start + (len - 1)) ++ lit "/" ++ str_of_Z total]
  /\ values (lit "content-length") (sh_headers s')
     = removelast (values (lit "content-length") (sh_headers s)) ++ [str_of_Z len]
  /\ values (lit "accept-ranges") (sh_headers s')
     = removelast (values (lit "accept-ranges") (sh_headers s)) ++ [lit "bytes"]
  /\ (forall P : str -> bool,
        (forall k, ci_eq k (lit "content-range") \/ ci_eq k (lit "content-length") \/ ci_eq k (lit "accept-ranges") -> P k = false) ->
        filter (fun h => P (fst h)) (sh_headers s') = filter (fun h => P (fst h)) (sh_headers s)).
Proof. exact C70_add_range_pf. Qed.
Print Assumptions C70_add_range.

Example C70_ex :
  let s := sah_new (lit "200 OK") [(lit "Via", lit "x"); (lit "content-length", lit "1000")] (lit "HTTP/1.0") in
  add_range 10 5 1000 s
  = sah_new (lit "206 Partial Content") [(lit "Via", lit "x"); (lit "content-length", lit "5");
      (lit "Content-Range", lit "bytes 10-14/1000"); (lit "Accept-Ranges", lit "bytes")] (lit "HTTP/1.0").
Proof. vm_compute. reflexivity. Qed.

(** C71, what  name in headers  says: the first header of that name exists and has a
    non-empty value.  Missing from C71: a header with an empty value (see the refutation) *)
Theorem C71_membership_partial :
  forall name s, sah_contains name s = true <-> exists v t, values name (sh_headers s) = v :: t /\ v <> [].
Proof. exact C71_membership_partial_pf. Qed.
Print Assumptions C71_membership_partial.

Example C71_ex : 
  let s := sah_new (lit "200 OK") [(lit "Via", lit "x"); (lit "X-Empty", [])] (lit "HTTP/1.0") in
  sah_contains (lit "VIA") s = true /\ sah_contains (lit "Host") s = false /\ sah_contains (lit "X-Empty") s = false.
Proof. vm_compute. auto. Qed.

(** C71 is false: a header that is there, with an empty value, is not "in" the headers
    although looking it up finds it (finding) *)
Theorem C71_membership_refuted :
  exists name s, get_header name s = Some [] /\ sah_contains name s = false.
Proof. exact C71_membership_refuted_pf. Qed.
Print Assumptions C71_membership_refuted.



(** C72 for a right-hand side that is not empty: equality is agreement of status line,
    headers (names, values and order) and protocol, and nothing else.
    Missing: an object without status line and headers (see the refutation) *)
Theorem C72_equality_partial :
  forall a b, sh_status b <> [] \/ sh_headers b <> [] ->
  (sah_eq a b = true <-> sh_status a = sh_status b /\ sh_headers a = sh_headers b /\ sh_proto a = sh_proto b).
Proof. exact C72_equality_partial_pf. Qed.
Print Assumptions C72_equality_partial.

Example C72_ex : exists a b, (sh_status b <> [] \/ sh_headers b <> []) /\ sah_eq a b = true /\ sh_total a <> sh_total b.
Proof.
  exists (mk_sah (lit "200 OK") [(lit "A", lit "b")] (lit "HTTP/1.0") 0 None), (mk_sah (lit "200 OK") [(lit "A", lit "b")] (lit "HTTP/1.0") 9 None).
  split; [left; discriminate|]. split; [reflexivity|discriminate].
Qed.

(** C72 is false: an empty object is not equal to itself (finding) *)
Theorem C72_equality_refuted :
  exists a, sah_eq a a = false.
Proof. exact C72_equality_refuted_pf. Qed.
Print Assumptions C72_equality_refuted.



(** C73: the status code is the status line up to its first space *)
Theorem C73_statuscode :
  forall s, (forall a b, ~ In 32%N a -> sh_status s = a ++ 32%N :: b -> get_statuscode s = a)
  /\ (~ In 32%N (sh_status s) -> get_statuscode s = sh_status s).
Proof. exact C73_statuscode_pf. Qed.
Print Assumptions C73_statuscode.



(** C73: validate_statusline keeps a status line whose code is a positive number and
    otherwise puts the given one, and changes nothing else; afterwards the line is valid
    if the given one is *)
Theorem C73_validate :
  forall valid s,
  let '(ok, s') := validate_statusline valid s in
  (ok = true <-> exists n, py_int (get_statuscode s) = Some n /\ 0 < n)
  /\ (ok = true -> s' = s)
  /\ (ok = false -> sh_status s' = valid /\ sh_headers s' = sh_headers s /\ sh_proto s' = sh_proto s)
  /\ (fst (validate_statusline valid (set_status s valid)) = true -> fst (validate_statusline valid s') = true).
Proof. exact C73_validate_pf. Qed.
Print Assumptions C73_validate.

Example C73_ex :
  validate_statusline (lit "204 No Content") (sah_new (lit "OK 200") [] (lit "HTTP/1.0")) = (false, sah_new (lit "204 No Content") [] (lit "HTTP/1.0"))
  /\ validate_statusline (lit "204 No Content") (sah_new (lit "200 OK") [] (lit "HTTP/1.0")) = (true, sah_new (lit "200 OK") [] (lit "HTTP/1.0")).
Proof. vm_compute. auto. Qed.
