(** * CaptureToy: traffic used in the Examples of Props_Capture.  Not a model of anything in
    /repo. *)
From Coq Require Import String List ZArith NArith.
From Verif Require Import PyBase Writer Capture Toy.
Import ListNotations.
Open Scope Z_scope.

(** examples: one capture into a file, a request in two parts *)
Definition ex_opts (gz : bool) : wopts := mk_wopts (lit "WARC/1.0") None gz.
Definition ex_cf (gz : bool) : config := mk_cf None true 0 (ex_opts gz).
Definition ex_st : stamps := mk_stamps (lit "u1") (lit "2020-01-01T00:00:00Z") (lit "u2") (lit "2020-01-01T00:00:01Z").
Definition ex_req : list bytes := [lit "POST /p HTTP/1.1" ++ crlf ++ lit "Host: a" ++ crlf ++ crlf; lit "body"].
Definition ex_resp : bytes := lit "HTTP/1.1 200 OK" ++ crlf ++ lit "A: b" ++ crlf ++ crlf ++ lit "some text".
Definition ex_begin (gz : bool) : list op := [Enter 0 (ex_cf gz); Make 0 (lit "a") 8080 80 None].
Definition ex_mid : list op :=
  [Send 0 (Some (lit "127.0.0.1")) ex_req; Make 7 (lit "b") 80 80 None; Send 1 None [lit "not recorded"]; Respond 0 (Some (lit "127.0.0.1"));
   Got 0 (takeZ 17 ex_resp); Into 0 (lit "12345678") (takeZ 8 (dropZ 17 ex_resp)); Got 0 (dropZ 25 ex_resp)].
(** a tunnel *)
Definition ex_tunnel : list op :=
  [Enter 0 (ex_cf false); Make 0 (lit "proxy") 3128 443 (Some (lit "example.com", 443))].
