(** * Props_Ascii: which header blocks can be written as ASCII (C22) *)
From Coq Require Import String List ZArith NArith Bool.
From Verif Require Import PyBase Utf8 Headers HeaderSpec AsciiSpec.
Import ListNotations.
Open Scope Z_scope.
From Verif Require Import Thm_Ascii.

(** C22, exactly which blocks.  For all headers with encodable values, to_ascii_bytes
    succeeds exactly when the first line and the names are ASCII and every value is
    ASCII, or has no ';', or has no parameter, or has all its non-ASCII characters inside
    parameters ([ascii_value]).  Otherwise it raises UnicodeEncodeError.  When it succeeds
    each value is written as [written_as] says, which determines it, and the object then
    holds the values written. *)
Theorem C22_exact :
  forall s, Forall (fun h => scalar_text (snd h)) (sh_headers s) ->
  ((exists b s', to_ascii_bytes None s = (Ok b, s'))
     <-> (ascii_text (sh_proto s) /\ ascii_text (sh_status s) /\ Forall (fun h => ascii_text (fst h) /\ ascii_value (snd h)) (sh_headers s)))
  /\ (forall e s', to_ascii_bytes None s = (Err e, s') -> e = UnicodeErr)
  /\ (forall b s', to_ascii_bytes None s = (Ok b, s') ->
        ascii_text b /\ b = first_line (sh_proto s) (sh_status s) ++ flat_map (fun h => fst h ++ lit ": " ++ snd h ++ crlf) (sh_headers s') ++ crlf
        /\ sh_proto s' = sh_proto s /\ sh_status s' = sh_status s
        /\ Forall2 (fun h h' => fst h' = fst h /\ written_as (snd h) (snd h')) (sh_headers s) (sh_headers s')).
Proof. exact C22_exact_pf. Qed.
Print Assumptions C22_exact.

Example C22_exact_ex : ascii_value (lit "a; b=""" ++ [233%N] ++ lit """; c=d")
  /\ to_ascii_bytes None (sah_new (lit "200 OK") [(lit "X", lit "a; b=""" ++ [233%N] ++ lit """; c=d")] (lit "HTTP/1.1"))
     = (Ok (lit "HTTP/1.1 200 OK" ++ crlf ++ lit "X: a; b*=UTF-8''%C3%A9; c*=UTF-8''d" ++ crlf ++ crlf),
        sah_new (lit "200 OK") [(lit "X", lit "a; b*=UTF-8''%C3%A9; c*=UTF-8''d")] (lit "HTTP/1.1")).
Proof.
  split; [|vm_compute; reflexivity]. right. right. eexists. split.
  - change (lit "a; b=""" ++ [233%N] ++ lit """; c=d") with [97; 59; 32; 98; 61; 34; 233; 34; 59; 32; 99; 61; 100]%N.
    do 4 (apply pt_plain; [left; discriminate|]). apply (pt_param _ [233%N] [59; 32; 99; 61; 100]%N).
    + exists [34%N], [34; 59; 32; 99; 61; 100]%N. split; [reflexivity|]. split; [auto|]. split; [discriminate|]. split; [intros c [<-|[]]; split; discriminate|].
      split; [right; do 2 eexists; split; [reflexivity|now right]|]. split; [discriminate|now right].
    + do 3 (apply pt_plain; [left; discriminate|]). apply (pt_param _ [100%N] []); [|constructor].
      exists [], []. split; [reflexivity|]. split; [auto|]. split; [discriminate|]. split; [intros c [<-|[]]; split; discriminate|].
      split; [now left|]. split; [intros _ c d t' X; discriminate|left; split; [reflexivity|discriminate]].
  - right. cbn [In]. intros c X. repeat (destruct X as [X|X]; [first [discriminate|injection X as <-; reflexivity]|]). destruct X.
Qed.

(** C22: the parts of a value are determined, so [ascii_value] and [written_as] are not
    ambiguous, and two ways of writing a value are the same text *)
Theorem C22_parts :
  forall v, (exists ps, parts v ps /\ forall ps', parts v ps' -> ps' = ps)
  /\ (forall a b, written_as v a -> written_as v b -> a = b).
Proof. exact C22_parts_pf. Qed.
Print Assumptions C22_parts.
