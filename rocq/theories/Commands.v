(** * Commands: model of /repo/warcio/cli.py (the four commands after argument parsing) and of
    fsspec_open (/repo/warcio/utils.py:36-59, without fsspec installed), on a file system.
    Simplifications: a file is named by one path (no links, no two spellings); opening for
    reading fails only if the file does not exist; whether a path can be opened for writing
    does not change; the output of index is ASCII (json.dumps escapes everything else), so its
    characters are its bytes; standard input is at its end once a file was indexed from it; an
    input of index that is also its output file is empty when it is read (nothing of the
    buffered index has been written yet); file names do not start with '-' except '-' itself
    (recompress -v would take them for an option); offsets fit in 64 bits. *)
From Coq Require Import List ZArith NArith Bool String.
From Verif Require Import PyBase Utf8 Headers Streams TimeUtils Loader Iterator Writer Cli.
Import ListNotations.
Open Scope Z_scope.

(** cli.py:21-60: the commands and their arguments *)
Inductive command :=
| CIndex (inputs : list str) (fields : str) (output : option str)
| CRecompress (filename output : str) (verbose : bool)
| CExtract (filename offset : str) (payload headers : bool)
| CCheck (inputs : list str) (verbose : bool).

(** cli.py:30: the default of --fields *)
Definition DEFAULT_FIELDS : str := lit "offset,warc-type,warc-target-uri".

(** the contents of the files, by path *)
Definition files := str -> option bytes.
Definition set_file (name : str) (b : bytes) (fs : files) : files :=
  fun x => if leqb x name then Some b else fs x.

(** utils.py:41-59 fsspec_open(filename, 'rb'): the default for '-' and '' *)
Inductive rhandle := RDefault | RFile (data : bytes) | RMissing.
Definition is_default (name : str) : bool := leqb name (lit "-") || is_nil name.
Definition open_read (fs : files) (name : str) : rhandle :=
  if is_default name then RDefault
  else match fs name with Some b => RFile b | None => RMissing end.
(** ... with 'wb' or 'wt': the file is emptied or created; None: the default *)
Inductive whandle := WDefault | WFile (name : str) | WFail.
Definition open_write (can_write : str -> bool) (name : option str) : whandle :=
  match name with
  | None => WDefault
  | Some x => if is_default x then WDefault else if can_write x then WFile x else WFail
  end.

(** how a command ends, and the exit status of the process *)
Inductive outcome := Returned | Exited (status : Z) | Raised (e : exn) | OsError | StopIter.
Definition status (o : outcome) : Z :=
  match o with Returned => 0 | Exited n => n | _ => 1 end.

(** what is printed on standard output *)
Inductive printed :=
| PText (s : str)                    (* lines of the index *)
| PBytes (b : bytes)                 (* what extract writes *)
| PMsg (m : message)                 (* check *)
| PCount (n : nat) (name : str)      (* recompressor.py:47 *)
| PFixed (fixed : bool)              (* recompressor.py:48, 'No Errors Found!' or '... Fixed!' *)
| PFailed (name : str).              (* recompressor.py:56 *)

Section Commands.
  Context {zl : zenv} (fuel : nat) (he : henv).
  (** hash, compressor, id of new records, json.dumps, shutil.COPY_BUFSIZE *)
  Context (sha1 : bytes -> bytes) (k : kenv) (uuid : str) (dumps : list (str * str) -> str) (size : Z).
  (** which paths can be opened for writing; bound on the number of records *)
  Context (can_write : str -> bool) (n : nat).

  (** indexer.py:24-32 process_all, with standard input as the default *)
  Fixpoint index_inputs (fields : list str) (fs : files) (stdin : bytes) (inputs : list str) : str * outcome :=
    match inputs with
    | [] => ([], Returned)
    | name :: t =>
        match open_read fs name with
        | RMissing => ([], OsError)
        | h =>
            let data := match h with RFile b => b | _ => stdin end in
            let stdin' := match h with RFile _ => stdin | _ => [] end in
            match index_file (zl:=zl) fuel he n false uuid name fields (raw_open data []) with
            | (ds, EndExn e) => (index_text dumps ds, Raised e)
            | (ds, EndStop) => let (x, o) := index_inputs fields fs stdin' t in (index_text dumps ds ++ x, o)
            end
        end
    end.

  (** cli.py:75-78 indexer *)
  Definition run_index (inputs : list str) (fields : str) (output : option str) (fs : files) (stdin : bytes)
    : files * list printed * outcome :=
    let inputs := if is_nil inputs then [lit "-"] else inputs in
    match open_write can_write output with
    | WFail => (fs, [], OsError)
    | WDefault => let (text, o) := index_inputs (split_fields fields) fs stdin inputs in (fs, [PText text], o)
    | WFile out =>
        let (text, o) := index_inputs (split_fields fields) (set_file out [] fs) stdin inputs in
        (set_file out text fs, [], o)
    end.

  (** cli.py:82-84 checker, checker.py:20-29; the default file is None, whose read() is an
      AttributeError *)
  Fixpoint check_inputs (verbose : bool) (ev : Z) (fs : files) (inputs : list str) : list printed * outcome :=
    match inputs with
    | [] => ([], Exited ev)
    | name :: t =>
        match open_read fs name with
        | RMissing => ([], OsError)
        | RDefault => ([], Raised AttributeErr)
        | RFile data =>
            match check_all (zl:=zl) fuel he n verbose uuid ev [(name, raw_open data [])] with
            | (Err e, ms) => (map PMsg ms, Raised e)
            | (Ok ev', ms) => let (ps, o) := check_inputs verbose ev' fs t in (map PMsg ms ++ ps, o)
            end
        end
    end.

  (** cli.py:88-90 extractor, extractor.py:15-18: int(offset), then seek *)
  Definition run_extract (filename offset : str) (payload headers : bool) (fs : files) : list printed * outcome :=
    match open_read fs filename with
    | RMissing => ([], OsError)
    | RDefault => ([], Raised AttributeErr)
    | RFile data =>
        match py_int offset with
        | None => ([], Raised ValueErr)
        | Some off =>
            if off <? 0 then ([], OsError)
            else
              match extract (zl:=zl) fuel he uuid payload headers (seek_file data [] off) with
              | (x, ws) => ([PBytes (List.concat ws)],
                            match x with XOk => Returned | XStop => StopIter | XExn e => Raised e end)
              end
        end
    end.

  (** load_and_write on an output file, or on None (no record can be written then) *)
  Definition attempt (out_ok : bool) (r : nat * writes * option exn) : res nat * bytes :=
    match r with
    | (c, ws, None) => if out_ok || Nat.eqb c 0 then (Ok c, List.concat ws) else (Err AttributeErr, [])
    | (_, ws, Some e) => (Err e, List.concat ws)
    end.

  (** recompressor.py:28-42: number of records, whether the file was fixed, contents of the output *)
  Definition recompress_out (out_ok : bool) (data : bytes) : res (nat * bool) * bytes :=
    match attempt out_ok (load_and_write (zl:=zl) fuel he n sha1 k uuid (raw_open data [])) with
    | (Ok c, b) => (Ok (c, false), b)
    | (Err OutOfFuel, b) => (Err OutOfFuel, b)
    | (Err _, b) =>
        match copyfileobj (zl:=zl) fuel fuel size (dbr_new (raw_open data []) BUFF_SIZE None true) with
        | Err e => (Err e, b)
        | Ok d =>
            match attempt out_ok (load_and_write (zl:=zl) fuel he n sha1 k uuid (raw_open d [])) with
            | (Ok c, b') => (Ok (c, true), b')
            | (Err e, b') => (Err e, b')
            end
        end
    end.

  (** cli.py:94-96 recompressor, recompressor.py:22-59.  The output is opened, and emptied,
      before the first byte of the input is read. *)
  Definition run_recompress (filename output : str) (verbose : bool) (fs : files) (stdin : bytes)
    : files * list printed * outcome :=
    match open_read fs filename with
    | RMissing => (fs, [PFailed filename], Exited 1)
    | _ =>
        match open_write can_write (Some output) with
        | WFail => (fs, [PFailed filename], Exited 1)
        | w =>
            let out_ok := match w with WFile _ => true | _ => false end in
            let fs1 := match w with WFile name => set_file name [] fs | _ => fs end in
            let '(x, b) := match open_read fs1 filename with
                           | RFile data => recompress_out out_ok data
                           | _ => (Err AttributeErr, [])
                           end in
            let fs2 := match w with WFile name => set_file name b fs | _ => fs end in
            match x with
            | Err OutOfFuel => (fs2, [], Raised OutOfFuel)
            | Err _ => (fs2, [PFailed filename], Exited 1)
            | Ok (c, fixed) =>
                if verbose then
                  match run_index [output] DEFAULT_FIELDS None fs2 stdin with
                  | (_, ps, Returned) => (fs2, ps ++ [PCount c output; PFixed fixed], Returned)
                  | (_, ps, Raised OutOfFuel) => (fs2, ps, Raised OutOfFuel)
                  | (_, ps, _) => (fs2, ps ++ [PFailed filename], Exited 1)
                  end
                else (fs2, [PCount c output; PFixed fixed], Returned)
            end
        end
    end.

  (** cli.py:19-64 main *)
  Definition run_command (c : command) (fs : files) (stdin : bytes) : files * list printed * outcome :=
    match c with
    | CIndex inputs fields output => run_index inputs fields output fs stdin
    | CRecompress filename output verbose => run_recompress filename output verbose fs stdin
    | CExtract filename offset payload headers =>
        let (ps, o) := run_extract filename offset payload headers fs in (fs, ps, o)
    | CCheck inputs verbose => let (ps, o) := check_inputs verbose 0 fs inputs in (fs, ps, o)
    end.
End Commands.
