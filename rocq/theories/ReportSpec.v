(** * ReportSpec: what "warcio check" is expected to print (C82) *)
From Coq Require Import String List ZArith NArith Bool.
From Verif Require Import PyBase Utf8 Headers Streams StreamSpec HeaderSpec DigestSpec Loader Iterator WriterSpec IterSpec Cli CliSpec.
Import ListNotations.
Open Scope Z_scope.

(** the line that identifies a record: offset, WARC-Record-ID and WARC-Type *)
Definition record_line {zl : zenv} (ob : @obs zl) : message :=
  let hs := sh_headers (rc_headers (ob_record ob)) in
  MRecord (match ob_info ob with Ok (Some (off, _)) => off | _ => 0 end)
          (value_of (lit "WARC-Record-ID") hs) (value_of (lit "WARC-Type") hs).
(** a record has a digest: a header with a non-empty value *)
Definition has_digest (hs : list header) : Prop :=
  exists n v, (n = lit "WARC-Payload-Digest" \/ n = lit "WARC-Block-Digest") /\ value_of n hs = Some v /\ v <> [].
(** why a record was not checked *)
Inductive unchecked_text (hs : list header) : str -> Prop :=
| U_revisit : has_digest hs -> value_of (lit "WARC-Type") hs = Some (lit "revisit") -> unchecked_text hs (lit "digest present but not checked (revisit)")
| U_other : has_digest hs -> value_of (lit "WARC-Type") hs <> Some (lit "revisit") -> unchecked_text hs (lit "digest present but not checked")
| U_none : ~ has_digest hs -> unchecked_text hs (lit "no digest to check").
(** what is printed about a record: its problems; if it has none, a text in verbose mode only *)
Inductive record_report {zl : zenv} (verbose : bool) (ob : @obs zl) : list message -> Prop :=
| R_bad ps : ob_passed ob = Some false -> ps <> [] -> record_report verbose ob (record_line ob :: map MProblem ps)
| R_silent : ob_passed ob <> Some false -> verbose = false -> record_report verbose ob []
| R_pass : ob_passed ob = Some true -> verbose = true -> record_report verbose ob [record_line ob; MText (lit "digest pass")]
| R_none t : ob_passed ob = None -> verbose = true -> unchecked_text (sh_headers (rc_headers (ob_record ob))) t ->
    record_report verbose ob [record_line ob; MText t].
(** the reports of the records in order; before the first of them, once, the file name *)
Definition records_report {zl : zenv} (verbose : bool) (name : str) (os : list (@obs zl)) (ms : list message) : Prop :=
  exists mss, Forall2 (record_report verbose) os mss
    /\ (List.concat mss = [] /\ ms = [] \/ List.concat mss <> [] /\ ms = MFile name :: List.concat mss).
(** [e] is raised while record [j] is read, or by the iterator after [j] records *)
Definition raises_at {zl : zenv} (e : exn) (os : list (@obs zl)) (en : ending) (j : nat) : Prop :=
  j = List.length os /\ en = EndExn e
  \/ exists ob, nth_error os j = Some ob /\ (In (Err e) (ob_reads ob) \/ ob_info ob = Err e).
(** the report of a file: if it cannot be read to the end, that is said after the records before *)
Definition file_report {zl : zenv} (verbose : bool) (name : str) (os : list (@obs zl)) (en : ending) (ms : list message) : Prop :=
  en = EndStop /\ records_report verbose name os ms
  \/ exists j ms0, raises_at ArchiveLoadFailed os en j /\ records_report verbose name (firstn j os) ms0
       /\ ms = ms0 ++ [MFile name; MFailed].


(** *** for archives of well-formed records *)
(** the report of entry [e] at [place]: the line with its offset and at least one problem if a
    digest of it is wrong, otherwise nothing, or one line of text in verbose mode *)
Definition entry_line (e : entry) (place : Z * Z) : message :=
  MRecord (fst place) (w_value "WARC-Record-ID" (e_rec e)) (w_value "WARC-Type" (e_rec e)).
Inductive entry_report (verbose : bool) (he : henv) (e : entry) (place : Z * Z) : list message -> Prop :=
| ER_bad ps : fails he e -> ps <> [] -> entry_report verbose he e place (entry_line e place :: map MProblem ps)
| ER_silent : ~ fails he e -> verbose = false -> entry_report verbose he e place []
| ER_text t : ~ fails he e -> verbose = true -> entry_report verbose he e place [entry_line e place; MText t].
(** the report of files that hold the entries [ess] *)
Inductive archives_report (verbose : bool) (he : henv) : list str -> list (list (entry * (Z * Z))) -> list message -> Prop :=
| AR_nil : archives_report verbose he [] [] []
| AR_cons name es names ess mss ms :
    Forall2 (fun ep m => entry_report verbose he (fst ep) (snd ep) m) es mss -> archives_report verbose he names ess ms ->
    archives_report verbose he (name :: names) (es :: ess)
      ((if is_nil (List.concat mss) then [] else MFile name :: List.concat mss) ++ ms).
