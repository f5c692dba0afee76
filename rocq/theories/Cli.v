(** * Cli: model of the command line tools /repo/warcio/indexer.py, checker.py,
    extractor.py and recompressor.py.
    Not modelled: argument parsing (cli.py), opening the files (utils.py fsspec_open),
    the texts printed by recompress. A file is a [raw] stream opened at its beginning. *)
From Coq Require Import List ZArith NArith Bool String.
From Verif Require Import PyBase Utf8 Headers Streams TimeUtils Loader Iterator Writer.
Import ListNotations.
Open Scope Z_scope.

Section Cli.
  Context {zl : zenv} (fuel : nat) (he : henv).
  Notation rdr := (breader zl raw).
  Notation iter := (@iter zl).
  Notation rops := (rops (zl:=zl) fuel).

  (** the current record's stream after some use *)
  Definition it_stream (it : iter) : option (rstream rdr) := option_map rc_stream (it_record it).

  (** ** indexer.py *)

  (** indexer.py:16-17 fields.split(',') *)
  Fixpoint split_commas (cur s : str) : list str :=
    match s with
    | [] => [rev cur]
    | c :: t => if (c =? 44)%N then rev cur :: split_commas [] t else split_commas (c :: cur) t
    end.
  Definition split_fields (s : str) : list str := split_commas [] s.

  (** indexer.py:19 *)
  Definition is_http_field (f : str) : bool := startswith (lit "http:") f.
  Definition record_parse (fields : list str) : bool := existsb is_http_field fields.

  (** os.path.basename: the part after the last '/' *)
  Fixpoint basename_from (cur s : str) : str :=
    match s with
    | [] => rev cur
    | c :: t => if (c =? 47)%N then basename_from [] t else basename_from (c :: cur) t
    end.
  Definition basename (s : str) : str := basename_from [] s.

  (** indexer.py:62-81 get_field; offset and length finish the record.
      [it.get_record_offset()] on a record that was yielded never sees member_info None. *)
  Definition get_field (filename name : str) (it : iter) : res (option str) * iter :=
    match it_record it with
    | None => (Err AttributeErr, it)
    | Some rc =>
        if leqb name (lit "offset") then
          match get_offset_length fuel it with
          | (Ok (Some (off, _)), it) => (Ok (Some (str_of_Z off)), it)
          | (Ok None, it) => (Err TypeErr, it)
          | (Err e, it) => (Err e, it)
          end
        else if leqb name (lit "length") then
          match get_offset_length fuel it with
          | (Ok (Some (_, len)), it) => (Ok (Some (str_of_Z len)), it)
          | (Ok None, it) => (Err TypeErr, it)
          | (Err e, it) => (Err e, it)
          end
        else if leqb name (lit "filename") then (Ok (Some (basename filename)), it)
        else if leqb name (lit "http:status") then
          (Ok (match rc_http rc with
               | Some h => if (otype_is (rc_type rc) "response" || otype_is (rc_type rc) "revisit")
                              && sah_bool h
                           then Some (get_statuscode h) else None
               | None => None
               end), it)
        else if is_http_field name then
          (Ok (match rc_http rc with
               | Some h => if sah_bool h then get_header (dropZ 5 name) h else None
               | None => None
               end), it)
        else (Ok (get_header name (rc_headers rc)), it)
    end.

  (** OrderedDict.__setitem__: an existing key keeps its place *)
  Fixpoint od_set (k v : str) (d : list (str * str)) : list (str * str) :=
    match d with
    | [] => [(k, v)]
    | (k', v') :: t => if leqb k' k then (k', v) :: t else (k', v') :: od_set k v t
    end.

  (** indexer.py:42-52 process_index_entry (field_names is empty, _new_dict is empty) *)
  Fixpoint index_fields (filename : str) (fields : list str) (d : list (str * str)) (it : iter)
    : res (list (str * str)) * iter :=
    match fields with
    | [] => (Ok d, it)
    | f :: t =>
        match get_field filename f it with
        | (Err e, it) => (Err e, it)
        | (Ok (Some v), it) => index_fields filename t (od_set f v d) it
        | (Ok None, it) => index_fields filename t d it
        end
    end.

  (** indexer.py:54-58 _create_record_iter options (check_digests is left at False) *)
  Definition index_opts (fields : list str) (verify : bool) (uuid : str) : lopts :=
    mk_lopts (negb (record_parse fields)) verify true false KFalse uuid.

  (** indexer.py:34-40, 83-88 process_one: one dictionary per record, and how it ends.
      The written line is json.dumps of the dictionary and a newline. *)
  Fixpoint index_loop (n : nat) (o : lopts) (filename : str) (fields : list str) (it : iter)
    : list (list (str * str)) * ending :=
    match n with
    | O => ([], EndExn OutOfFuel)
    | Datatypes.S n' =>
        match iter_next fuel he o it with
        | (Err e, _) => ([], EndExn e)
        | (Ok None, _) => ([], EndStop)
        | (Ok (Some _), it) =>
            match index_fields filename fields [] it with
            | (Err e, _) => ([], EndExn e)
            | (Ok d, it) => let (ds, en) := index_loop n' o filename fields it in (d :: ds, en)
            end
        end
    end.
  Definition index_file (n : nat) (verify : bool) (uuid filename : str) (fields : list str)
             (f : raw) : list (list (str * str)) * ending :=
    index_loop n (index_opts fields verify uuid) filename fields (iter_new f BUFF_SIZE None).

  (** indexer.py:85-88 _write_line; json.dumps is an argument *)
  Definition index_text (dumps : list (str * str) -> str) (ds : list (list (str * str))) : str :=
    flat_map (fun d => dumps d ++ [LF]) ds.

  (** indexer.py:24-32 process_all: several files; an exception ends the run *)
  Fixpoint index_all (n : nat) (verify : bool) (uuid : str) (fields : list str)
           (files : list (str * raw)) : list (list (str * str)) * ending :=
    match files with
    | [] => ([], EndStop)
    | (name, f) :: t =>
        match index_file n verify uuid name fields f with
        | (ds, EndExn e) => (ds, EndExn e)
        | (ds, EndStop) => let (ds', en) := index_all n verify uuid fields t in (ds ++ ds', en)
        end
    end.

  (** ** checker.py *)

  (** checker.py:8-12 _read_entire_stream *)
  Fixpoint read_entire (n : nat) (c : cstream zl rdr) : res unit * cstream zl rdr :=
    match n with
    | O => (Err OutOfFuel, c)
    | Datatypes.S n' =>
        match cs_read rops fuel (Some 1048576) c with
        | (Err e, c') => (Err e, c')
        | (Ok [], c') => (Ok tt, c')
        | (Ok _, c') => read_entire n' c'
        end
    end.

  (** what is printed *)
  Inductive message :=
  | MFile (name : str)
  | MRecord (offset : Z) (id type : option str)
  | MText (s : str)
  | MProblem (p : dproblem)
  | MFailed.                       (* checker.py:25-27, with the exception's text *)

  (** checker.py:52-59 *)
  Definition check_text (verbose : bool) (passed : option bool) (present : bool)
             (rec_type : option str) : option str :=
    match passed with
    | Some false => None
    | Some true => if verbose then Some (lit "digest pass") else None
    | None =>
        if verbose then
          Some (if present && otype_is rec_type "revisit"
                then lit "digest present but not checked (revisit)"
                else if present then lit "digest present but not checked"
                else lit "no digest to check")
        else None
    end.

  (** checker.py:31-71 process_one; [printed]: has the file name been printed;
      [ev]: self.exit_value.  [it.get_record_offset()] is never None here. *)
  Fixpoint check_loop (n : nat) (o : lopts) (verbose : bool) (name : str) (printed : bool) (ev : Z)
           (it : iter) : res unit * Z * list message :=
    match n with
    | O => (Err OutOfFuel, ev, [])
    | Datatypes.S n' =>
        match iter_next fuel he o it with
        | (Err e, _) => (Err e, ev, [])
        | (Ok None, _) => (Ok tt, ev, [])
        | (Ok (Some rc), it) =>
            let h := rc_headers rc in
            let present := truthy (get_header (lit "WARC-Payload-Digest") h)
                           || truthy (get_header (lit "WARC-Block-Digest") h) in
            match read_entire fuel (content_stream (rc_http rc) (rc_stream rc)) with
            | (Err e, _) => (Err e, ev, [])
            | (Ok _, c) =>
                let it := it_set_rstream (cs_raw c) it in
                let id := get_header (lit "WARC-Record-ID") h in
                let ty := get_header (lit "WARC-Type") h in
                match get_offset_length fuel it with
                | (Err e, _) => (Err e, ev, [])
                | (Ok info, it) =>
                    let chk := match it_record it with Some rc => rc_checker rc | None => rc_chk rc end in
                    let failed := match dc_passed chk with Some false => true | _ => false end in
                    let ev := if failed then 1 else ev in
                    let out := if failed then dc_problems chk else [] in
                    let text := check_text verbose (dc_passed chk) present ty in
                    let ms :=
                      match text, out with
                      | None, [] => []
                      | _, _ =>
                          (if printed then [] else [MFile name])
                          ++ [MRecord (match info with Some (off, _) => off | None => 0 end) id ty]
                          ++ (match text with Some t => [MText t] | None => [] end)
                          ++ map MProblem out
                      end in
                    let printed := printed || negb (is_nil ms) in
                    match check_loop n' o verbose name printed ev it with
                    | (x, ev, ms') => (x, ev, ms ++ ms')
                    end
                end
            end
        end
    end.

  (** ArchiveIterator(stream, check_digests=True) *)
  Definition check_opts (uuid : str) : lopts := mk_lopts false false false false KTrue uuid.

  (** checker.py:20-29 process_all: Ok: the exit status; other exceptions than
      ArchiveLoadFailed are not caught *)
  Fixpoint check_all (n : nat) (verbose : bool) (uuid : str) (ev : Z) (files : list (str * raw))
    : res Z * list message :=
    match files with
    | [] => (Ok ev, [])
    | (name, f) :: t =>
        match check_loop n (check_opts uuid) verbose name false ev (iter_new f BUFF_SIZE None) with
        | (Ok _, ev, ms) => let (x, ms') := check_all n verbose uuid ev t in (x, ms ++ ms')
        | (Err ArchiveLoadFailed, _, ms) =>
            let (x, ms') := check_all n verbose uuid 1 t in (x, ms ++ [MFile name; MFailed] ++ ms')
        | (Err e, _, ms) => (Err e, ms)
        end
    end.

  (** ** extractor.py *)

  (** extractor.py:9 *)
  Definition READ_SIZE : Z := BUFF_SIZE * 4.

  (** extractor.py:28-32, 39-42: copy a stream to the output *)
  Fixpoint copy_raw (n : nat) (st : rstream rdr) : res unit * writes :=
    match n with
    | O => (Err OutOfFuel, [])
    | Datatypes.S n' =>
        match rs_read rops (Some READ_SIZE) st with
        | (Err e, _) => (Err e, [])
        | (Ok [], _) => (Ok tt, [])
        | (Ok b, st') => let (x, ws) := copy_raw n' st' in (x, b :: ws)
        end
    end.
  Fixpoint copy_content (n : nat) (c : cstream zl rdr) : res unit * writes :=
    match n with
    | O => (Err OutOfFuel, [])
    | Datatypes.S n' =>
        match cs_read rops fuel (Some READ_SIZE) c with
        | (Err e, _) => (Err e, [])
        | (Ok [], _) => (Ok tt, [])
        | (Ok b, c') => let (x, ws) := copy_content n' c' in (x, b :: ws)
        end
    end.

  (** ArchiveIterator(fh) *)
  Definition extract_opts (uuid : str) : lopts := mk_lopts false false false false KFalse uuid.

  (** how extract ends: XStop is the StopIteration of line 19 *)
  Inductive xending := XOk | XStop | XExn (e : exn).
  Definition xend (x : res unit) : xending := match x with Ok _ => XOk | Err e => XExn e end.

  (** extractor.py:15-42 extract; [f]: the file after seek(offset) *)
  Definition extract (uuid : str) (payload_only headers_only : bool) (f : raw) : xending * writes :=
    match iter_next fuel he (extract_opts uuid) (iter_new f BUFF_SIZE None) with
    | (Err e, _) => (XExn e, [])
    | (Ok None, _) => (XStop, [])
    | (Ok (Some rc), _) =>
        if payload_only then
          let (x, ws) := copy_content fuel (content_stream (rc_http rc) (rc_stream rc)) in (xend x, ws)
        else
          match to_bytes None (rc_headers rc) with
          | Err e => (XExn e, [])
          | Ok hb =>
              match (match rc_http rc with
                     | Some h => if sah_bool h then
                                   match to_bytes None h with Ok b => Ok [b] | Err e => Err e end
                                 else Ok []
                     | None => Ok []
                     end) with
              | Err e => (XExn e, [hb])
              | Ok w1 =>
                  if headers_only then (XOk, hb :: w1)
                  else let (x, ws) := copy_raw fuel (rc_stream rc) in (xend x, hb :: w1 ++ ws)
              end
          end
    end.

  (** fh.seek(offset) for 0 <= offset *)
  Definition seek_file (data : bytes) (sched : list Z) (off : Z) : raw :=
    mk_raw (dropZ off data) off sched.

  (** ** recompressor.py *)

  (** recordbuilder.py:215-222 _iter_stream on the stream of a record that was read *)
  Fixpoint collect (n : nat) (st : rstream rdr) : res bytes * rstream rdr :=
    match n with
    | O => (Err OutOfFuel, st)
    | Datatypes.S n' =>
        match rs_read rops (Some BUFF_SIZE) st with
        | (Err e, st') => (Err e, st')
        | (Ok [], st') => (Ok [], st')
        | (Ok b, st') => match collect n' st' with
                         | (Ok l, st'') => (Ok (b ++ l), st'')
                         | (Err e, st'') => (Err e, st'')
                         end
        end
    end.

  (** A record that was read, as the writer sees it: its stream has no seek(), so
      ensure_digest buffers it, and whichever of ensure_digest and _write_warc_record
      reads the stream first reads it to its end in blocks of BUFF_SIZE
      (recordbuilder.py:190, warcwriter.py:96).  Simplification: the content is read
      before the writer starts.  (A revisit record with both digests is not read by the
      writer at all; the iterator then skips the same bytes.) *)
  Definition read_wrec (rc : record rdr) (content : bytes) : wrec :=
    mk_wrec (rc_type rc) (rc_headers rc) (mk_ps content 0 [] false) None (rc_http rc) (rc_ctype rc)
            (rc_length rc) (Some (rc_plen rc)).

  (** recompressor.py:61-74 load_and_write: number of records, the writes on the output
      and how it ends (None: normally) *)
  Definition recompress_opts (uuid : str) : lopts := mk_lopts false false true false KFalse uuid.

  Fixpoint copy_records (n : nat) (sha1 : bytes -> bytes) (k : kenv) (wo : wopts) (o : lopts) (it : iter)
    : nat * writes * option exn :=
    match n with
    | O => (O, [], Some OutOfFuel)
    | Datatypes.S n' =>
        match iter_next fuel he o it with
        | (Err e, _) => (O, [], Some e)
        | (Ok None, _) => (O, [], None)
        | (Ok (Some rc), it) =>
            match collect fuel (rc_stream rc) with
            | (Err e, _) => (O, [], Some e)
            | (Ok content, st) =>
                match write_record fuel sha1 k wo (read_wrec rc content) with
                | (Err e, ws, _) => (O, ws, Some e)
                | (Ok _, ws, _) =>
                    match copy_records n' sha1 k wo o (it_set_rstream st it) with
                    | (c, ws', e) => (Datatypes.S c, ws ++ ws', e)
                    end
                end
            end
        end
    end.
  Definition load_and_write (n : nat) (sha1 : bytes -> bytes) (k : kenv) (uuid : str) (f : raw)
    : nat * writes * option exn :=
    copy_records n sha1 k (mk_wopts (lit "WARC/1.0") None true) (recompress_opts uuid)
                 (iter_new f BUFF_SIZE None).

  (** shutil.copyfileobj(decomp, tout), recompressor.py:82; [size]: COPY_BUFSIZE *)
  Fixpoint copyfileobj (n : nat) (size : Z) (b : rdr) : res bytes :=
    match n with
    | O => Err OutOfFuel
    | Datatypes.S n' =>
        match br_read raw_ops fuel (Some size) b with
        | (Err e, _) => Err e
        | (Ok [], _) => Ok []
        | (Ok x, b') => match copyfileobj n' size b' with Ok y => Ok (x ++ y) | Err e => Err e end
        end
    end.

  (** recompressor.py:76-87 decompress_and_recompress: the file is decompressed into a
      temporary file, which is then copied record by record (the output is reopened) *)
  Definition decompress_and_recompress (n : nat) (sha1 : bytes -> bytes) (k : kenv) (uuid : str)
             (size : Z) (f : raw) : nat * writes * option exn :=
    match copyfileobj fuel size (dbr_new f BUFF_SIZE None true) with
    | Err e => (O, [], Some e)
    | Ok data => load_and_write n sha1 k uuid (raw_open data [])
    end.

  (** recompressor.py:22-59 recompress: number of records and the output file, or exit 1.
      Out-of-fuel is not an exception of the program and is passed on. *)
  Inductive rc_result := RcOk (count : nat) (fixed : bool) (out : bytes) | RcFailed (e : exn).
  Definition recompress (n : nat) (sha1 : bytes -> bytes) (k : kenv) (uuid : str) (size : Z)
             (data : bytes) : rc_result :=
    match load_and_write n sha1 k uuid (raw_open data []) with
    | (c, ws, None) => RcOk c false (List.concat ws)
    | (_, _, Some OutOfFuel) => RcFailed OutOfFuel
    | (_, _, Some _) =>
        match decompress_and_recompress n sha1 k uuid size (raw_open data []) with
        | (c, ws, None) => RcOk c true (List.concat ws)
        | (_, _, Some e) => RcFailed e
        end
    end.
End Cli.
