(** * Props_CapRaise: exceptions that capturing causes (C108) *)
From Coq Require Import String List ZArith NArith Bool.
From Verif Require Import PyBase Utf8 Codecs Headers HeaderSpec Streams StreamSpec Loader Writer WriterSpec RoundSpec Capture CaptureSpec Toy CaptureToy HeaderProofs.
Import ListNotations.
Open Scope Z_scope.
From Verif Require Import Thm_CapRaise.

(** the verbs of HTTP in RFC 9110 and RFC 5789 *)
Definition known_verbs : list str :=
  [lit "GET"; lit "HEAD"; lit "POST"; lit "PUT"; lit "DELETE"; lit "TRACE"; lit "OPTIONS"; lit "CONNECT"; lit "PATCH"].
(** another one, in capital letters, that does not begin with one of those *)
Definition other_verb (v : str) : Prop :=
  v <> [] /\ Forall (fun c => (65 <= c <= 90)%N) v /\ forall u z, In u known_verbs -> v <> u ++ z.

(** C108 is false of requests with any other verb (PROPFIND, MKCOL, PURGE...): the exchange goes
    over the wire and is recorded, but closing the response raises, nothing is written, and the
    exception goes to the client *)
Theorem C108_verb_refuted :
  forall fuel sha1 k c j x cf r w mid st b t verb path,
  recorded_by w c j x cf r -> (cn_open x = true \/ cn_tunnel x = None) ->
  undisturbed fuel sha1 k c j mid (snd (step fuel sha1 k (Put c) w)) ->
  parts c mid = b :: t -> request_line b verb path -> other_verb verb -> ascii_text (take_line (sent c mid)) ->
  let w1 := snd (run fuel sha1 k (Put c :: mid) w) in
  (exists x' r', recorded_by w1 c j x' cf r' /\ cn_wire x' = cn_wire x ++ sent c mid /\ rd_req r' = sent c mid /\ rd_resp r' = got c mid)
  /\ fst (step fuel sha1 k (Done c st) w1) = Err (ParserExn (take_line (sent c mid)))
  /\ wd_outs (snd (step fuel sha1 k (Done c st) w1)) = wd_outs w1.
Proof. exact C108_verb_refuted_pf. Qed.
Print Assumptions C108_verb_refuted.

Definition ex_req2 : bytes := lit "PROPFIND /p HTTP/1.1" ++ crlf ++ lit "Host: a" ++ crlf ++ crlf.
Example C108_ex_verb : other_verb (lit "PROPFIND") /\ request_line ex_req2 (lit "PROPFIND") (lit "/p")
  /\ fst (run 300 toy_hash toy_k (ex_begin false ++ [Put 0; Send 0 None [ex_req2]; Got 0 ex_resp; Done 0 ex_st]) (fresh [[]]))
     = [Ok tt; Ok tt; Ok tt; Ok tt; Ok tt; Err (ParserExn (lit "PROPFIND /p HTTP/1.1" ++ crlf))].
Proof.
  split. { split; [discriminate|]. split; [repeat (apply Forall_cons; [vm_compute; split; discriminate|]); apply Forall_nil|]. intros u z Hu. repeat (destruct Hu as [<-|Hu]; [vm_compute; discriminate|]). contradiction. }
  split; [|vm_compute; reflexivity]. repeat split; try (vm_compute; intuition discriminate). exists (lit "HTTP/1.1" ++ crlf ++ lit "Host: a" ++ crlf ++ crlf). vm_compute. reflexivity.
Qed.

(** C108, for exchanges with a known verb: no operation of the connection raises, from putrequest
    to the closing of the response.  Missing: messages whose headers cannot be read, and
    CONNECT requests with a port that is not a number *)
Theorem C108_exchange_partial :
  forall fuel sha1 k outs pre c j x cf r mid st b t verb path,
  let w := snd (run fuel sha1 k pre (fresh outs)) in
  hash_bytes sha1 -> Forall op_texts (pre ++ Put c :: mid) -> op_texts (Done c st) ->
  recorded_by w c j x cf r -> (cn_open x = true \/ cn_tunnel x = None) ->
  undisturbed fuel sha1 k c j mid (snd (step fuel sha1 k (Put c) w)) ->
  parts c mid = b :: t -> request_line b verb path -> verb <> lit "CONNECT" ->
  accepts cf -> wo_filter (cf_opts cf) = None ->
  message (mk_parser HTTP_VERBS true) (sent c mid) -> message (mk_parser HTTP_TYPES true) (got c mid) ->
  enough fuel (sent c mid) -> enough fuel (got c mid) ->
  forall i o, nth_error (Put c :: mid ++ [Done c st]) i = Some o -> conn_of o = Some c ->
    nth_error (fst (run fuel sha1 k (Put c :: mid ++ [Done c st]) w)) i = Some (Ok tt).
Proof. exact C108_exchange_partial_pf. Qed.
Print Assumptions C108_exchange_partial.

(** C108 is false of a stream that is closed twice in one exchange, and of anything recorded after
    it was closed: every such call raises, whatever the exchange was *)
Theorem C108_again_refuted :
  forall fuel sha1 k c j x cf r w st st' b,
  recorded_by w c j x cf r -> rd_started r = true ->
  let w1 := snd (step fuel sha1 k (Done c st) w) in
  fst (step fuel sha1 k (Done c st') w1) = Err ValueErr /\ fst (step fuel sha1 k (Got c b) w1) = Err ValueErr.
Proof. exact C108_again_refuted_pf. Qed.
Print Assumptions C108_again_refuted.

Example C108_ex : fst (run 300 toy_hash toy_k (ex_begin false ++ Put 0 :: ex_mid ++ [Done 0 ex_st; Done 0 ex_st]) (fresh [[]]))
  = List.repeat (Ok tt) 11 ++ [Err ValueErr].
Proof. vm_compute. reflexivity. Qed.
