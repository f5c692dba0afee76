(** * Props_HdrTotal: the length a parser reports, request lines as text (C20, C100) *)
From Coq Require Import String List ZArith NArith Bool.
From Verif Require Import PyBase Utf8 Headers HeaderSpec StrHeaders Streams StreamSpec.
Import ListNotations.
Open Scope Z_scope.
From Verif Require Import Thm_HdrTotal.

(** the number of characters of lines decoded one by one *)
Fixpoint chars (lines : list bytes) : Z :=
  match lines with
  | [] => 0
  | l :: t => lenZ (decode_header l) + chars t
  end.

(** C20: the length a parse reports (total_len) is the number of characters of the lines it read,
    each decoded by itself; for ASCII this is the number of bytes read *)
Theorem C20_total :
  forall (S : Type) (rl : S -> res bytes * S) (R : S -> bytes -> Prop) fuel p s c h s',
  reads_lines rl R -> R s c -> parse rl fuel p None s = (Ok h, s') ->
  exists lines rest, R s' rest /\ c = concat lines ++ rest /\ sh_total h = chars lines
    /\ (forall a l b, lines = a ++ l :: b -> l = take_line (concat (l :: b) ++ rest))
    /\ (ascii_text c -> sh_total h = lenZ c - lenZ rest).
Proof. exact C20_total_pf. Qed.
Print Assumptions C20_total.

Example C20_total_ex : match parse (o_readline raw_ops None) 60 (mk_parser [lit "HTTP/1.0"] true) None (raw_open (lit "HTTP/1.0 200 OK" ++ crlf ++ lit "A: b" ++ crlf ++ lit " c" ++ crlf ++ crlf ++ lit "body") []) with
  | (Ok h, s') => sh_total h = 29 /\ rw_pos s' = 29 | _ => False end.
Proof. vm_compute. split; reflexivity. Qed.

(** ... it is not the number of bytes in general: one UTF-8 letter outside ASCII *)
Theorem C20_total_refuted :
  exists c h s', parse (o_readline raw_ops None) 60 (mk_parser [lit "HTTP/1.0"] true) None (raw_open c []) = (Ok h, s')
  /\ rw_pos s' = lenZ c /\ sh_total h < lenZ c.
Proof. exact C20_total_refuted_pf. Qed.
Print Assumptions C20_total_refuted.

(** C100: a request object built from a line and a list of text headers.  The line is split at its
    first space; a line without one is a ValueError; the general constructor does the same *)
Theorem C100_request_text :
  forall line hs,
  (forall verb rest, line = verb ++ 32%N :: rest -> ~ In 32%N verb ->
     exists h, sah_request line hs = Ok h /\ sh_proto h = verb /\ sh_status h = rest /\ sh_headers h = hs /\ sh_total h = 0)
  /\ (~ In 32%N line -> sah_request line hs = Err ValueErr)
  /\ (forall a proto, str_headers a = Ok hs -> sah_init line a proto true = sah_request line hs).
Proof. exact C100_request_text_pf. Qed.
Print Assumptions C100_request_text.

Example C100_request_text_ex : sah_request (lit "GET / HTTP/1.0") [(lit "A", lit "b")] = Ok (mk_sah (lit "/ HTTP/1.0") [(lit "A", lit "b")] (lit "GET") 0 None).
Proof. reflexivity. Qed.
