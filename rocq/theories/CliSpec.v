(** * CliSpec: vocabulary for the statements about the command line tools: archives in
    both forms, and the lines of an index. *)
From Coq Require Import String List ZArith NArith Bool.
From Verif Require Import PyBase Utf8 Headers Streams StreamSpec HeaderSpec DigestSpec Loader Iterator WriterSpec IterSpec.
Import ListNotations.
Open Scope Z_scope.

(** ** archives of well-formed records, uncompressed or with one gzip member per record.
    Each record with its offset and length in the file; the first one begins at [p]. *)
Fixpoint placed (p : Z) (l : list entry) : list (entry * (Z * Z)) :=
  match l with
  | [] => []
  | e :: t => (e, (p, lenZ (e_text e) - 4)) :: placed (p + lenZ (e_text e)) t
  end.
Fixpoint placed_gz (p : Z) (l : list (entry * bytes)) : list (entry * (Z * Z)) :=
  match l with
  | [] => []
  | (e, m) :: t => (e, (p, lenZ m)) :: placed_gz (p + lenZ m) t
  end.

(** [quiet]: the records on whose streams the tool does not use readline *)
Inductive good_archive (quiet : entry -> Prop) (zl : zenv) (fuel : nat) (he : henv) (o : lopts) (M p : Z) (sched : list Z)
  : bytes -> list (entry * (Z * Z)) -> Prop :=
| GA_plain l :
    gz_magic zl -> first_two BUFF_SIZE sched -> reads_fit M BUFF_SIZE sched -> 0 <= M ->
    enough fuel (texts l) -> Forall (good_entry fuel he o M []) l ->
    good_archive quiet zl fuel he o M p sched (texts l) (placed p l)
| GA_gzip ms :
    ms <> [] -> 0 <= M ->
    M <= 1 \/ (sched = [] /\ Forall (fun em => member_fit zl BUFF_SIZE (quiet (fst em)) (fst em) (snd em)) ms) ->
    enough fuel (gz_data ms) ->
    Forall (fun em => good_entry fuel he o M [] (fst em) /\ is_member zl (snd em) (e_text (fst em))
                      /\ enough fuel (e_text (fst em))) ms ->
    good_archive quiet zl fuel he o M p sched (gz_data ms) (placed_gz p ms).
(** every record; those whose content is not chunked *)
Definition every (e : entry) : Prop := True.
Definition unchunked (e : entry) : Prop :=
  forall h, e_http e = Some h -> value_of (lit "transfer-encoding") (sh_headers h) <> Some (lit "chunked").

(** the files of [files] are archives of the records [ess] *)
Definition archives (quiet : entry -> Prop) (zl : zenv) (fuel : nat) (he : henv) (o : lopts) (M : Z) (files : list (str * raw))
           (ess : list (list (entry * (Z * Z)))) : Prop :=
  Forall2 (fun f es => exists data sched, snd f = raw_open data sched /\ good_archive quiet zl fuel he o M 0 sched data es) files ess.

(** ** indexing *)

(** the part of [s] after its last slash *)
Definition is_basename (s v : str) : Prop := ~ In 47%N v /\ (s = v \/ exists dir, s = dir ++ 47%N :: v).
(** the part of [s] before its first space *)
Definition first_word (s v : str) : Prop := ~ In 32%N v /\ (s = v \/ exists rest, s = v ++ 32%N :: rest).

Definition http_field (name : str) : Prop := exists h, name = lit "http:" ++ h.
Definition special (name : str) : Prop := In name [lit "offset"; lit "length"; lit "filename"; lit "http:status"].

(** the value of a field of a record with WARC headers [ws], type [ty], HTTP headers [http] *)
Inductive field_is (filename : str) (ws : list header) (ty : option str) (http : option sah) (off len : Z)
  : str -> option str -> Prop :=
| F_offset : field_is filename ws ty http off len (lit "offset") (Some (str_of_Z off))
| F_length : field_is filename ws ty http off len (lit "length") (Some (str_of_Z len))
| F_filename v : is_basename filename v -> field_is filename ws ty http off len (lit "filename") (Some v)
| F_status h v : http = Some h -> sah_bool h = true -> ty = Some (lit "response") \/ ty = Some (lit "revisit") ->
    first_word (sh_status h) v -> field_is filename ws ty http off len (lit "http:status") (Some v)
| F_no_status : (forall h, http = Some h -> sah_bool h = true -> ty <> Some (lit "response") /\ ty <> Some (lit "revisit")) ->
    field_is filename ws ty http off len (lit "http:status") None
| F_http n h : http = Some h -> sah_bool h = true -> lit "http:" ++ n <> lit "http:status" ->
    field_is filename ws ty http off len (lit "http:" ++ n) (value_of n (sh_headers h))
| F_no_http n : (forall h, http = Some h -> sah_bool h = false) -> lit "http:" ++ n <> lit "http:status" ->
    field_is filename ws ty http off len (lit "http:" ++ n) None
| F_warc n : ~ special n -> ~ http_field n ->
    field_is filename ws ty http off len n (value_of n ws).

(** the list without repetitions, first occurrences *)
Fixpoint firsts (l : list str) : list str :=
  match l with
  | [] => []
  | x :: t => x :: filter (fun y => negb (leqb y x)) (firsts t)
  end.

(** a line of the index: the fields asked for, in their order, those without a value omitted *)
Inductive fields_are (F : str -> option str -> Prop) : list str -> list (str * str) -> Prop :=
| FA_nil : fields_are F [] []
| FA_none n ns d : F n None -> fields_are F ns d -> fields_are F (n :: ns) d
| FA_some n v ns d : F n (Some v) -> fields_are F ns d -> fields_are F (n :: ns) ((n, v) :: d).

Definition line_is (filename : str) (fields : list str) (ws : list header) (ty : option str) (http : option sah)
           (off len : Z) (d : list (str * str)) : Prop :=
  fields_are (field_is filename ws ty http off len) (firsts fields) d.

(** ** checking *)

(** some digest of the record is wrong; the block digest of an empty block is not compared *)
Definition fails (he : henv) (e : entry) : Prop :=
  w_block (e_rec e) <> [] /\ judged he (w_block (e_rec e)) (block_digest (e_rec e)) VBad
  \/ judged he (e_payload e) (payload_digest (e_rec e)) VBad.
Definition not_vacuous (he : henv) (e : entry) : Prop :=
  w_block (e_rec e) = [] -> ~ judged he [] (block_digest (e_rec e)) VBad.

(** exception [e] is raised by the iterator or by a call on one of the records *)
Definition raises {zl : zenv} (e : exn) (os : list (@obs zl)) (en : ending) : Prop :=
  en = EndExn e \/ exists ob, In ob os /\ (In (Err e) (ob_reads ob) \/ ob_info ob = Err e).
(** some record was left with a failed digest check *)
Definition some_bad {zl : zenv} (os : list (@obs zl)) : Prop := exists ob, In ob os /\ ob_passed ob = Some false.

(** the record's content is not encoded *)
Definition plain_content (http : option sah) : Prop :=
  forall h, http = Some h -> value_of (lit "transfer-encoding") (sh_headers h) <> Some (lit "chunked")
                             /\ value_of (lit "content-encoding") (sh_headers h) = None.

(** ** extracting *)

(** headers as text: first line (if any), one line per header, an empty line *)
Definition printed (proto status : str) (hs : list header) : str :=
  match proto, status with
  | [], [] => []
  | [], _ => status ++ [13; 10]%N
  | _, [] => proto ++ [13; 10]%N
  | _, _ => proto ++ 32%N :: status ++ [13; 10]%N
  end ++ concat (map field_line hs) ++ [13; 10]%N.
(** the HTTP headers of a record, in UTF-8; nothing if there are none *)
Definition http_text (http : option sah) (b : bytes) : Prop :=
  match http with
  | Some h => if sah_bool h then utf8_encode (printed (sh_proto h) (sh_status h) (sh_headers h)) = Some b else b = []
  | None => b = []
  end.
(** the WARC headers *)
Definition warc_text (w : wrc) (b : bytes) : Prop := utf8_encode (record_text (w_version w) (w_headers w)) = Some b.
