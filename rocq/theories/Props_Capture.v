(** * Props_Capture: capture_http: recorded traffic (C55, C56), nested captures (C57), URLs (C58), filters (C59), transparency (C76) *)
From Coq Require Import String List ZArith NArith Bool Lia.
From Coq Require Import ZifyBool ZifyNat ZifyN.
From Verif Require Import PyBase Utf8 Codecs Headers HeaderSpec Streams StreamSpec Loader Writer WriterSpec RoundSpec Capture CaptureSpec Toy CaptureToy.
Import ListNotations.
Open Scope Z_scope.
From Verif Require Import Thm_Capture.

From Verif Require Import HeaderProofs.

(** C55.  From any world: connection [c] is recorded by recorder [j], and is open or has no
    tunnel.  The client begins a request (putrequest), then there is any traffic on the
    connection, mixed with operations of other connections, captures and threads as long as
    they do not use recorder [j]; the first thing sent is a request line (not CONNECT).  Then
    no operation of the connection raises, what was sent reached the wire, and the recorder
    holds exactly what was sent and exactly what the client got by read, readline and (full)
    readinto.  Missing: C55_interleaved_refuted, C55_lazy_tunnel_refuted, C56_short_refuted. *)
Theorem C55_exchange_partial :
  forall fuel sha1 k c j x cf r w mid b t verb path,
  recorded_by w c j x cf r -> (cn_open x = true \/ cn_tunnel x = None) ->
  undisturbed fuel sha1 k c j mid (snd (step fuel sha1 k (Put c) w)) ->
  parts c mid = b :: t -> request_line b verb path -> verb <> lit "CONNECT" ->
  let (results, w1) := run fuel sha1 k (Put c :: mid) w in
  (forall i o, nth_error (Put c :: mid) i = Some o -> conn_of o = Some c -> nth_error results i = Some (Ok tt))
  /\ exists x' r', recorded_by w1 c j x' cf r' /\ cn_wire x' = cn_wire x ++ sent c mid
       /\ rd_req r' = sent c mid /\ rd_resp r' = got c mid.
Proof. exact C55_exchange_partial_pf. Qed.
Print Assumptions C55_exchange_partial.

Example C55_ex_undisturbed gz : let w := snd (run 300 toy_hash toy_k (ex_begin gz) (fresh [[]])) in
  exists x r, recorded_by w 0 0 x (ex_cf gz) r /\ cn_tunnel x = None
  /\ undisturbed 300 toy_hash toy_k 0 0 ex_mid (snd (step 300 toy_hash toy_k (Put 0) w))
  /\ (exists t, parts 0 ex_mid = hd [] ex_req :: t) /\ request_line (hd [] ex_req) (lit "POST") (lit "/p")
  /\ sent 0 ex_mid = concat ex_req /\ got 0 ex_mid = ex_resp.
Proof.
  eexists _, _. split; [split; [reflexivity|split; reflexivity]|]. split; [reflexivity|]. split.
  { cbn -[step]. repeat (split; [intros E; first [exact I|reflexivity|discriminate E]|]; split; [intros i x E N X; first [discriminate E|injection E as <-; first [now destruct N|cbn in X; injection X as <-; discriminate]]|]). exact I. }
  split; [eexists; reflexivity|]. split; [|split; reflexivity].
  repeat split; try (cbn; intuition discriminate). eexists. reflexivity.
Qed.

(** C55 and C59 (accepting filter), up to the archive.  In any execution ([pre] is everything
    before), if moreover the two messages have headers in the form in which warcio writes
    headers, closing the response raises nothing and appends to the capture's file exactly two
    records and nothing to any other file: first a response whose block is what the client got,
    then a request whose block is what was sent; both with the recorded URL, the same date, the
    request pointing to the response, and both with the recorder's IP address and proxy
    headers.  Missing: headers in another form (C55_rewritten_refuted). *)
Theorem C55_written_partial :
  forall fuel sha1 k outs pre c j x cf r mid st b t verb path,
  let w := snd (run fuel sha1 k pre (fresh outs)) in
  hash_bytes sha1 -> Forall op_texts (pre ++ Put c :: mid) -> op_texts (Done c st) ->
  recorded_by w c j x cf r -> (cn_open x = true \/ cn_tunnel x = None) ->
  undisturbed fuel sha1 k c j mid (snd (step fuel sha1 k (Put c) w)) ->
  parts c mid = b :: t -> request_line b verb path -> verb <> lit "CONNECT" ->
  accepts cf -> wo_filter (cf_opts cf) = None ->
  message (mk_parser HTTP_VERBS true) (sent c mid) -> message (mk_parser HTTP_TYPES true) (got c mid) ->
  enough fuel (sent c mid) -> enough fuel (got c mid) ->
  let w1 := snd (run fuel sha1 k (Put c :: mid) w) in
  exists x' r' url hs1 hs2 out,
    recorded_by w1 c j x' cf r' /\ rd_url r' = Some url
    /\ fst (step fuel sha1 k (Done c st) w1) = Ok tt
    /\ grows (wd_outs w1) (wd_outs (snd (step fuel sha1 k (Done c st) w1))) (cf_writer cf) out
    /\ two_records k (cf_opts cf) hs1 hs2 (got c mid) (sent c mid) out
    /\ value_of (lit "WARC-Type") hs1 = Some (lit "response") /\ value_of (lit "WARC-Type") hs2 = Some (lit "request")
    /\ value_of (lit "WARC-Target-URI") hs1 = Some url /\ value_of (lit "WARC-Target-URI") hs2 = Some url
    /\ value_of (lit "WARC-Date") hs1 = Some (st_now2 st) /\ value_of (lit "WARC-Date") hs2 = Some (st_now2 st)
    /\ (exists i, value_of (lit "WARC-Record-ID") hs1 = Some i /\ value_of (lit "WARC-Concurrent-To") hs2 = Some i)
    /\ (forall n, n = lit "WARC-IP-Address" \/ n = lit "WARC-Proxy-Host" ->
          value_of n hs1 = value_of n (rd_headers r') /\ value_of n hs2 = value_of n (rd_headers r')).
Proof. exact C55_written_partial_pf. Qed.
Print Assumptions C55_written_partial.

Example C55_ex_written gz : hash_bytes toy_hash
  /\ Forall op_texts (ex_begin gz ++ Put 0 :: ex_mid) /\ op_texts (Done 0 ex_st) /\ accepts (ex_cf gz)
  /\ message (mk_parser HTTP_VERBS true) (sent 0 ex_mid) /\ message (mk_parser HTTP_TYPES true) (got 0 ex_mid)
  /\ enough 300 (sent 0 ex_mid) /\ enough 300 (got 0 ex_mid).
Proof.
  assert (T : forall x, forallb is_scalar x = true -> scalar_text x) by (intros x H; rewrite forallb_forall in H; exact H).
  split. { intros b. repeat constructor; try (apply N.mod_lt; discriminate). }
  split. { repeat constructor; cbn [op_texts option_map]; try (apply T; reflexivity); try discriminate; apply Forall_forall; intros x Hx; vm_compute in Hx; intuition (subst; reflexivity). }
  split. { repeat split; apply T; reflexivity. }
  split; [exact I|]. split.
  { exists (sah_new (lit "/p HTTP/1.1") [(lit "Host", lit "a")] (lit "POST")), (lit "body"). split; [apply wf_blockb_ok; vm_compute; reflexivity|].
    split; [right; discriminate|]. split; [|reflexivity]. repeat split; repeat constructor; intros c Hc; vm_compute in Hc; intuition (subst; reflexivity). }
  split.
  { exists (sah_new (lit "200 OK") [(lit "A", lit "b")] (lit "HTTP/1.1")), (lit "some text"). split; [apply wf_blockb_ok; vm_compute; reflexivity|].
    split; [right; discriminate|]. split; [|reflexivity]. repeat split; repeat constructor; intros c Hc; vm_compute in Hc; intuition (subst; reflexivity). }
  split; apply Nat.leb_le; vm_compute; reflexivity.
Qed.
Example C55_ex_out : let w := snd (run 300 toy_hash toy_k (ex_begin false ++ Put 0 :: ex_mid ++ [Done 0 ex_st]) (fresh [lit "before"])) in
  exists t, wd_outs w = [lit "beforeWARC/1.0" ++ crlf ++ lit "WARC-IP-Address: 127.0.0.1" ++ crlf ++ lit "WARC-Type: response" ++ crlf ++ t] /\ (lenZ t >? 500) = true.
Proof. eexists. split; vm_compute; reflexivity. Qed.

(** C55 is false of the written records when a message has its headers in another form: a
    response with the header line "A:b" is written as "A: b". *)
Theorem C55_rewritten_refuted :
  exists ops sent_bytes got_bytes out,
  sent 0 ops = sent_bytes /\ got 0 ops = got_bytes
  /\ run 300 toy_hash toy_k (ex_begin false ++ ops) (fresh [[]]) = (map (fun _ => Ok tt) (ex_begin false ++ ops), snd (run 300 toy_hash toy_k (ex_begin false ++ ops) (fresh [[]])))
  /\ wd_outs (snd (run 300 toy_hash toy_k (ex_begin false ++ ops) (fresh [[]]))) = [out]
  /\ got_bytes = lit "HTTP/1.1 200 OK" ++ crlf ++ lit "A:b" ++ crlf ++ crlf
  /\ ~ (exists a z, out = a ++ got_bytes ++ z)
  /\ (exists a z, out = a ++ (lit "HTTP/1.1 200 OK" ++ crlf ++ lit "A: b" ++ crlf ++ crlf) ++ z).
Proof. exact C55_rewritten_refuted_pf. Qed.
Print Assumptions C55_rewritten_refuted.

(** C55 is false when two connections of one capture are used at the same time: the requests
    of both are recorded as one. *)
Theorem C55_interleaved_refuted :
  exists ops r, sent 0 ops = concat ex_req /\ sent 1 ops = concat ex_req
  /\ map snd (wd_recs (snd (run 300 toy_hash toy_k (ex_begin false ++ Make 0 (lit "b") 80 80 None :: ops) (fresh [[]])))) = [r]
  /\ rd_req r = concat ex_req ++ concat ex_req.
Proof. exact C55_interleaved_refuted_pf. Qed.
Print Assumptions C55_interleaved_refuted.

(** C55 is false for a tunnel that is opened by the request itself, as http.client does when
    connect() was not called before: nothing is recorded and closing writes nothing, without an
    exception. *)
Theorem C55_lazy_tunnel_refuted :
  exists ops r, sent 0 ops = concat ex_req /\ got 0 ops = ex_resp
  /\ fst (run 300 toy_hash toy_k (ex_tunnel ++ ops) (fresh [[]])) = map (fun _ => Ok tt) (ex_tunnel ++ ops)
  /\ map snd (wd_recs (snd (run 300 toy_hash toy_k (ex_tunnel ++ ops) (fresh [[]])))) = [r]
  /\ rd_req r = [] /\ rd_resp r = [] /\ wd_outs (snd (run 300 toy_hash toy_k (ex_tunnel ++ ops) (fresh [[]]))) = [[]].
Proof. exact C55_lazy_tunnel_refuted_pf. Qed.
Print Assumptions C55_lazy_tunnel_refuted.

(** C56, characterised: during an exchange a readinto() that puts [got] into a buffer [buf]
    is recorded exactly iff it fills the buffer. *)
Theorem C56_exact :
  forall fuel sha1 k c j x cf r w buf got,
  recorded_by w c j x cf r -> rd_started r = true -> rd_live r = true -> lenZ got <= lenZ buf ->
  exists r', recorded_by (snd (step fuel sha1 k (Into c buf got) w)) c j x cf r'
  /\ (rd_resp r' = rd_resp r ++ got <-> lenZ got = lenZ buf).
Proof. exact C56_exact_pf. Qed.
Print Assumptions C56_exact.

Example C56_ex : let w := snd (run 300 toy_hash toy_k (ex_begin false ++ [Put 0]) (fresh [[]])) in
  exists x r, recorded_by w 0 0 x (ex_cf false) r /\ rd_started r = true /\ rd_live r = true.
Proof. eexists _, _. split; [split; [reflexivity|split; reflexivity]|]. split; reflexivity. Qed.

(** C56 is false: a readinto() that puts two bytes into a buffer of five records all five. *)
Theorem C56_short_refuted :
  exists ops r, got 0 ops = lit "ab"
  /\ map snd (wd_recs (snd (run 300 toy_hash toy_k (ex_begin false ++ ops) (fresh [[]])))) = [r]
  /\ rd_resp r = lit "ab345".
Proof. exact C56_short_refuted_pf. Qed.
Print Assumptions C56_short_refuted.

(** C57 for captures that are not nested, with any number of threads: in any execution in which
    no thread begins a capture inside another one, a connection made by thread [t] gets the
    recorder of the capture [t] is in, with the filter and writer given to it, and none if it
    is in no capture.  Missing: nested captures (C57_nested_refuted). *)
Theorem C57_unnested_partial :
  forall fuel sha1 k outs ops t host port default tunnel,
  unnested (fun _ => 0%nat) ops ->
  let w := snd (run fuel sha1 k ops (fresh outs)) in
  exists x, nth_error (wd_conns (snd (step fuel sha1 k (Make t host port default tunnel) w))) (List.length (wd_conns w)) = Some x
  /\ cn_rec x = hd_error (active t 0 ops [])
  /\ forall n cf, cn_rec x = Some n -> nth_error (begun ops) n = Some cf -> exists r, nth_error (wd_recs w) n = Some (cf, r).
Proof. exact C57_unnested_partial_pf. Qed.
Print Assumptions C57_unnested_partial.

Example C57_ex : let ops := [Enter 1 (ex_cf false); Enter 2 (ex_cf true); Exit 1; Enter 1 (ex_cf true); Put 0] in
  unnested (fun _ => 0%nat) ops /\ active 1 0 ops [] = [2%nat] /\ active 2 0 ops [] = [1%nat] /\ active 3 0 ops [] = [].
Proof. cbn. auto. Qed.

(** C57 is false: after an inner capture ends inside an outer one of the same thread, new
    connections have no recorder. *)
Theorem C57_nested_refuted :
  exists ops x, active 0 0 ops [] = [0%nat]
  /\ wd_conns (snd (run 300 toy_hash toy_k (ops ++ [Make 0 (lit "a") 80 80 None]) (fresh [[]; []]))) = [x] /\ cn_rec x = None.
Proof. exact C57_nested_refuted_pf. Qed.
Print Assumptions C57_nested_refuted.

(** C58 without tunnels: in any execution in which no tunnel was asked for and no CONNECT sent
    ([pre], any threads and captures), the URL recorded for a request is the path of the request
    line if that is an absolute http or https URL, and otherwise the scheme (https for
    connections whose default port is 443), the host and, unless it is the default, the port of
    the connection, followed by the path. *)
Theorem C58_direct_partial :
  forall fuel sha1 k outs pre c j x cf r mid b t verb path,
  let w := snd (run fuel sha1 k pre (fresh outs)) in
  Forall no_tunnel pre -> recorded_by w c j x cf r ->
  undisturbed fuel sha1 k c j mid (snd (step fuel sha1 k (Put c) w)) ->
  parts c mid = b :: t -> request_line b verb path -> verb <> lit "CONNECT" ->
  cn_default x = 80 \/ cn_default x = 443 ->
  exists x' r' url, recorded_by (snd (run fuel sha1 k (Put c :: mid) w)) c j x' cf r' /\ rd_url r' = Some url
  /\ (absolute path -> url = path)
  /\ (~ absolute path -> url_of (cn_default x =? 443) (cn_host x) (cn_port x) path url).
Proof. exact C58_direct_partial_pf. Qed.
Print Assumptions C58_direct_partial.

Example C58_ex : Forall no_tunnel (ex_begin false) /\ url_of false (lit "a") 8080 (lit "/p") (lit "http://a:8080/p")
  /\ url_of true (lit "a") 443 (lit "/") (lit "https://a/") /\ ~ absolute (lit "/p") /\ absolute (lit "http://other/").
Proof.
  split; [repeat constructor|]. split; [reflexivity|]. split; [reflexivity|]. split; [intros [t [H|H]]; discriminate|].
  exists (lit "//other/"). now left.
Qed.

(** C58 for a connection with a tunnel to [th]:[tp] that is opened before the request (as
    urllib3 does), from any world: opening it raises nothing and sends the CONNECT request,
    which is not recorded, and the URL of the request that follows has the tunnelled host and
    port.  [th] has no colon.  Missing: C58_ipv6_refuted, C58_stale_refuted and the tunnel of
    C55_lazy_tunnel_refuted. *)
Theorem C58_tunnel_partial :
  forall fuel sha1 k c ip j x cf r w th tp mid b t verb path,
  recorded_by w c j x cf r -> cn_tunnel x = Some (th, tp) -> th <> [] -> ~ In 32%N th -> ~ In LF th -> ~ In 58%N th -> 0 < tp ->
  let w0 := snd (step fuel sha1 k (Open c ip) w) in
  undisturbed fuel sha1 k c j mid (snd (step fuel sha1 k (Put c) w0)) ->
  parts c mid = b :: t -> request_line b verb path -> verb <> lit "CONNECT" -> ~ absolute path ->
  cn_default x = 80 \/ cn_default x = 443 ->
  fst (step fuel sha1 k (Open c ip) w) = Ok tt
  /\ exists x' r' url, recorded_by (snd (run fuel sha1 k (Put c :: mid) w0)) c j x' cf r' /\ rd_url r' = Some url
  /\ url_of (cn_default x =? 443) th tp path url
  /\ cn_wire x' = cn_wire x ++ (lit "CONNECT " ++ th ++ lit ":" ++ str_of_Z tp ++ lit " HTTP/1.0" ++ crlf ++ crlf) ++ sent c mid
  /\ rd_req r' = sent c mid /\ rd_resp r' = got c mid.
Proof. exact C58_tunnel_partial_pf. Qed.
Print Assumptions C58_tunnel_partial.

Example C58_tunnel_ex : let w := snd (run 300 toy_hash toy_k ex_tunnel (fresh [[]])) in
  exists x r, recorded_by w 0 0 x (ex_cf false) r /\ cn_tunnel x = Some (lit "example.com", 443) /\ cn_default x = 443
  /\ ~ In 58%N (lit "example.com") /\ url_of true (lit "example.com") 443 (lit "/p") (lit "https://example.com/p").
Proof. eexists _, _. split; [split; [reflexivity|split; reflexivity]|]. repeat split. cbn. intuition discriminate. Qed.

(** C58 is false after a tunnel in the same capture: a later direct request on another
    connection, to http://b/p, is recorded with the host and port of the tunnel. *)
Theorem C58_stale_refuted :
  exists ops r, map snd (wd_recs (snd (run 300 toy_hash toy_k (ex_tunnel ++ ops) (fresh [[]])))) = [r]
  /\ fst (run 300 toy_hash toy_k (ex_tunnel ++ ops) (fresh [[]])) = map (fun _ => Ok tt) (ex_tunnel ++ ops)
  /\ (exists pre, ops = pre ++ [Make 0 (lit "b") 80 80 None; Put 1; Send 1 None [lit "GET /q HTTP/1.1" ++ crlf ++ crlf]])
  /\ rd_url r = Some (lit "http://example.com:443/q").
Proof. exact C58_stale_refuted_pf. Qed.
Print Assumptions C58_stale_refuted.

(** C58 is false for a tunnel to an IPv6 address: the text "CONNECT ::1:443" is split at its
    first colon, and the connection fails with a ValueError. *)
Theorem C58_ipv6_refuted :
  exists w, fst (step 300 toy_hash toy_k (Open 0 None) w) = Err ValueErr
  /\ w = snd (run 300 toy_hash toy_k [Enter 0 (ex_cf false); Make 0 (lit "proxy") 3128 443 (Some (lit "::1", 443))] (fresh [[]])).
Proof. exact C58_ipv6_refuted_pf. Qed.
Print Assumptions C58_ipv6_refuted.

(** C59, rejecting: if the filter function returns no request or no response for the records
    made of the exchange, closing the response changes no file; it raises nothing if the two
    records could be made.  From any world. *)
Theorem C59_reject :
  forall fuel sha1 k c j x cf r w st f,
  recorded_by w c j x cf r -> cf_filter cf = Some f ->
  (forall rq rs, create_record fuel sha1 cf r (st_id1 st) (st_now1 st) (rd_req r) (lit "request") = Ok rq ->
     create_record fuel sha1 cf r (st_id2 st) (st_now2 st) (rd_resp r) (lit "response") = Ok rs ->
     fst (f rq rs) = None \/ snd (f rq rs) = None) ->
  wd_outs (snd (step fuel sha1 k (Done c st) w)) = wd_outs w
  /\ (forall rq rs, create_record fuel sha1 cf r (st_id1 st) (st_now1 st) (rd_req r) (lit "request") = Ok rq ->
      create_record fuel sha1 cf r (st_id2 st) (st_now2 st) (rd_resp r) (lit "response") = Ok rs -> rd_live r = true ->
      fst (step fuel sha1 k (Done c st) w) = Ok tt).
Proof. exact C59_reject_pf. Qed.
Print Assumptions C59_reject.

Example C59_ex : let cf := mk_cf (Some (fun rq rs => (None, Some rs))) true 0 (ex_opts false) in
  let w := snd (run 300 toy_hash toy_k ([Enter 0 cf; Make 0 (lit "a") 8080 80 None; Put 0] ++ ex_mid) (fresh [[]])) in
  match wd_recs w with
  | [(_, r)] => match create_record 300 toy_hash cf r (lit "i") (lit "d") (rd_req r) (lit "request"), create_record 300 toy_hash cf r (lit "i") (lit "d") (rd_resp r) (lit "response") with
                | Ok _, Ok _ => rd_live r = true | _, _ => False end
  | _ => False end.
Proof. vm_compute. reflexivity. Qed.

(** C59, a filter that returns other records: if closing raises nothing, exactly two records
    are appended to the file, the filter's response first and its request second.  For
    returned records with the same restrictions as in C30_pair_partial. *)
Theorem C59_replaced_partial :
  forall fuel sha1 k c j x cf r w st f rq rs req resp,
  recorded_by w c j x cf r -> rd_started r = true -> cf_filter cf = Some f ->
  create_record fuel sha1 cf r (st_id1 st) (st_now1 st) (rd_req r) (lit "request") = Ok rq ->
  create_record fuel sha1 cf r (st_id2 st) (st_now2 st) (rd_resp r) (lit "response") = Ok rs ->
  f rq rs = (Some req, Some resp) ->
  0 <= py_pos (wr_stream resp) -> (List.length (ps_rest (wr_stream resp)) + 3 <= fuel)%nat ->
  0 <= py_pos (wr_stream req) -> (List.length (ps_rest (wr_stream req)) + 3 <= fuel)%nat ->
  sh_status (wr_headers resp) = [] -> sh_proto (wr_headers resp) <> [] ->
  sh_status (wr_headers req) = [] -> sh_proto (wr_headers req) <> [] ->
  (occurs (lit "WARC-Target-URI") (sh_headers (wr_headers req)) <= 1)%nat ->
  (occurs (lit "WARC-Date") (sh_headers (wr_headers req)) <= 1)%nat ->
  occurs (lit "WARC-Concurrent-To") (sh_headers (wr_headers req)) = 0%nat ->
  fst (step fuel sha1 k (Done c st) w) = Ok tt ->
  exists ws1 ws2 hs1 hs2 b1 b2 url,
    is_record (sh_proto (wr_headers resp)) hs1 b1 (concat ws1) /\ is_record (sh_proto (wr_headers req)) hs2 b2 (concat ws2)
    /\ value_of (lit "WARC-Target-URI") hs1 = Some url /\ value_of (lit "WARC-Target-URI") hs2 = Some url
    /\ grows (wd_outs w) (wd_outs (snd (step fuel sha1 k (Done c st) w))) (cf_writer cf)
         (if wo_gzip (cf_opts cf) then deflated k (kinit k) ws1 ++ deflated k (kinit k) ws2 else concat ws1 ++ concat ws2).
Proof. exact C59_replaced_partial_pf. Qed.
Print Assumptions C59_replaced_partial.

(** a filter that changes the response's payload *)
Example C59_replaced_ex :
  let g rs := mk_wrec (wr_type rs) (wr_headers rs) (bytesio (lit "X")) None (wr_http rs) (wr_ctype rs) (Some 1) (Some 1) in
  let cf := mk_cf (Some (fun rq rs => (Some rq, Some (g rs)))) true 0 (ex_opts false) in
  fst (run 300 toy_hash toy_k ([Enter 0 cf; Make 0 (lit "a") 8080 80 None; Put 0] ++ ex_mid ++ [Done 0 ex_st]) (fresh [[]]))
  = repeat (Ok tt) 11.
Proof. vm_compute. reflexivity. Qed.

(** C76.  Capturing does not change the traffic: for every program (list of operations), if no
    operation raises, every connection has sent the same bytes and is in the same state as when
    the program runs without its captures. *)
Theorem C76_transparent :
  forall fuel sha1 k outs ops,
  Forall (fun x => x = Ok tt) (fst (run fuel sha1 k ops (fresh outs))) ->
  map unrecorded (wd_conns (snd (run fuel sha1 k ops (fresh outs))))
  = wd_conns (snd (run fuel sha1 k (filter not_capture ops) (fresh outs))).
Proof. exact C76_transparent_pf. Qed.
Print Assumptions C76_transparent.

Example C76_ex : Forall (fun x => x = Ok tt) (fst (run 300 toy_hash toy_k (ex_begin true ++ Put 0 :: ex_mid ++ [Done 0 ex_st; Exit 0]) (fresh [[]]))).
Proof. vm_compute. repeat constructor. Qed.
