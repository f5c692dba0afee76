(** * Props_CapHdr: capture_http: the headers that describe the connection (C105) *)
From Coq Require Import String List ZArith NArith Bool.
From Verif Require Import PyBase Utf8 Codecs Headers HeaderSpec Streams StreamSpec Loader Writer WriterSpec RoundSpec Capture CaptureSpec Toy CaptureToy.
Import ListNotations.
Open Scope Z_scope.
From Verif Require Import Thm_CapHdr.

(** the two headers capture_http adds *)
Definition IP : str := lit "WARC-IP-Address".
Definition PROXY : str := lit "WARC-Proxy-Host".
(** operations of a program that asks for no addresses; of one that uses no proxy: no tunnel,
    and nothing sent begins like a request for an absolute URI *)
Definition without_ip (o : op) : Prop := match o with Enter _ cf => cf_ip cf = false | _ => True end.
Definition without_proxy (o : op) : Prop :=
  match o with
  | Make _ _ _ _ tn => tn = None
  | Send _ _ parts => forall b verb rest, In b parts -> b = verb ++ 32%N :: rest -> ~ In 32%N verb ->
      verb <> lit "CONNECT" /\ (forall t, rest <> lit "http:" ++ t /\ rest <> lit "https:" ++ t)
  | _ => True
  end.

(** C105: whatever the program does, the headers a recorder adds to its records are at most one
    WARC-IP-Address and at most one WARC-Proxy-Host *)
Theorem C105_once :
  forall fuel sha1 k ops outs cf r,
  In (cf, r) (wd_recs (snd (run fuel sha1 k ops (fresh outs)))) ->
  NoDup (map fst (rd_headers r)) /\ forall h, In h (rd_headers r) -> fst h = IP \/ fst h = PROXY.
Proof. exact C105_once_pf. Qed.
Print Assumptions C105_once.

(** C105: with record_ip, once the response begins the address of its peer is the WARC-IP-Address;
    the other header is not touched *)
Theorem C105_ip :
  forall fuel sha1 k ops outs c j x cf r ip,
  let w := snd (run fuel sha1 k ops (fresh outs)) in
  recorded_by w c j x cf r -> cf_ip cf = true -> ip <> [] ->
  exists r', recorded_by (snd (step fuel sha1 k (Respond c (Some ip)) w)) c j x cf r'
    /\ value_of IP (rd_headers r') = Some ip /\ value_of PROXY (rd_headers r') = value_of PROXY (rd_headers r).
Proof. exact C105_ip_pf. Qed.
Print Assumptions C105_ip.

(** C105: without record_ip there is never a WARC-IP-Address *)
Theorem C105_no_ip :
  forall fuel sha1 k ops outs cf r, Forall without_ip ops ->
  In (cf, r) (wd_recs (snd (run fuel sha1 k ops (fresh outs)))) -> value_of IP (rd_headers r) = None.
Proof. exact C105_no_ip_pf. Qed.
Print Assumptions C105_no_ip.

(** C105: if no request goes through a proxy there is never a WARC-Proxy-Host *)
Theorem C105_no_proxy :
  forall fuel sha1 k ops outs cf r, Forall without_proxy ops ->
  In (cf, r) (wd_recs (snd (run fuel sha1 k ops (fresh outs)))) -> value_of PROXY (rd_headers r) = None.
Proof. exact C105_no_proxy_pf. Qed.
Print Assumptions C105_no_proxy.

(** C105 is false of a request that follows another one: the headers are never cleared, so the
    records of a direct request after one through a proxy name the proxy, and keep the address of
    the earlier peer when that of the later one is not known.  The records are written. *)
Theorem C105_stale_refuted :
  exists ops1 ops2 r out,
  ops2 = [Make 0 (lit "b") 80 80 None; Put 1; Send 1 None [lit "GET /q HTTP/1.1" ++ crlf ++ crlf]; Respond 1 None; Got 1 (lit "HTTP/1.1 200 OK" ++ crlf ++ crlf); Done 1 ex_st]
  /\ Forall without_proxy ops2
  /\ fst (run 300 toy_hash toy_k (ops1 ++ ops2) (fresh [[]])) = map (fun _ => Ok tt) (ops1 ++ ops2)
  /\ map snd (wd_recs (snd (run 300 toy_hash toy_k (ops1 ++ ops2) (fresh [[]])))) = [r]
  /\ wd_outs (snd (run 300 toy_hash toy_k (ops1 ++ ops2) (fresh [[]]))) = [nth 0 (wd_outs (snd (run 300 toy_hash toy_k ops1 (fresh [[]])))) [] ++ out]
  /\ startswith (lit "WARC/1.0" ++ crlf ++ lit "WARC-Proxy-Host: http://proxy:8080" ++ crlf ++ lit "WARC-IP-Address: 10.0.0.1" ++ crlf) out = true
  /\ rd_url r = Some (lit "http://b/q").
Proof. exact C105_stale_refuted_pf. Qed.
Print Assumptions C105_stale_refuted.

Example C105_ex : exists r, map snd (wd_recs (snd (run 300 toy_hash toy_k (ex_begin false ++ Put 0 :: ex_mid) (fresh [[]])))) = [r]
  /\ rd_headers r = [(IP, lit "127.0.0.1")].
Proof. eexists. split; vm_compute; reflexivity. Qed.
