(** * Props_Commands: the commands on a file system (C102 to C104) *)
From Coq Require Import String List ZArith NArith Bool.
From Verif Require Import PyBase Headers Streams StreamSpec DigestSpec Loader Iterator Writer WriterSpec IterSpec RoundSpec Cli CliSpec RewriteSpec SelfSpec Toy Commands.
Import ListNotations.
Open Scope Z_scope.
From Verif Require Import Thm_Commands.

(** the files a command is given to read, and the file it is told to write *)
Definition inputs_of (c : command) : list str :=
  match c with
  | CIndex inputs _ _ => inputs
  | CRecompress filename _ _ => [filename]
  | CExtract filename _ _ _ => [filename]
  | CCheck inputs _ => inputs
  end.
Definition output_of (c : command) : option str :=
  match c with
  | CIndex _ _ output => output
  | CRecompress _ output _ => Some output
  | _ => None
  end.
(** a name that denotes a file: not empty, not '-' *)
Definition file_name (name : str) : Prop := name <> [] /\ name <> lit "-".
(** the file [name] exists and contains [data] *)
Definition has_file (fs : files) (name : str) (data : bytes) : Prop := file_name name /\ fs name = Some data.

(** C102: every command leaves every file as it is, except the file it is told to write *)
Theorem C102_frame :
  forall (zl : zenv) fuel he sha1 k uuid dumps size can_write n c fs stdin fs' ps o,
  run_command (zl:=zl) fuel he sha1 k uuid dumps size can_write n c fs stdin = (fs', ps, o) ->
  forall name, output_of c <> Some name -> fs' name = fs name.
Proof. exact C102_frame_pf. Qed.
Print Assumptions C102_frame.

Example C102_frame_ex :
  let fs := set_file (lit "a") (texts (Thm_Cli.ex_es true)) (fun _ => None) in
  match run_command (zl:=toy_z) 900 ck_henv ck_hash toy_k (lit "u") (fun _ => lit "{}") 100 (fun _ => true) 5 (CRecompress (lit "a") (lit "b") false) fs [] with
  | (fs', ps, o) => fs' (lit "a") = fs (lit "a") /\ fs (lit "b") = None /\ fs' (lit "b") <> None /\ ps = [PCount 2 (lit "b"); PFixed false] /\ status o = 0
  end.
Proof. vm_compute. repeat split. discriminate. Qed.

(** C102: what a command prints, how it ends and what it writes depends on the contents of the
    files it is given to read only (and standard input): two file systems that agree on these
    give the same result *)
Theorem C102_reads :
  forall (zl : zenv) fuel he sha1 k uuid dumps size can_write n c fs1 fs2 stdin,
  (forall name, In name (inputs_of c) -> fs1 name = fs2 name) ->
  let run fs := run_command (zl:=zl) fuel he sha1 k uuid dumps size can_write n c fs stdin in
  snd (fst (run fs1)) = snd (fst (run fs2)) /\ snd (run fs1) = snd (run fs2)
  /\ forall name, output_of c = Some name ->
     fst (fst (run fs1)) name = fst (fst (run fs2)) name \/ (fst (fst (run fs1)) = fs1 /\ fst (fst (run fs2)) = fs2).
Proof. exact C102_reads_pf. Qed.
Print Assumptions C102_reads.

(** C102 does not protect the input when it is also the output: recompressing a file onto itself
    empties it, whatever it contains, and the command reports success; so does an index that is
    written over its input *)
Theorem C102_in_place_refuted :
  forall (zl : zenv) fuel he sha1 k uuid dumps size can_write n fs stdin name data,
  has_file fs name data -> can_write name = true ->
  (exists fs', run_command (zl:=zl) (2 + fuel) he sha1 k uuid dumps size can_write (1 + n) (CRecompress name name false) fs stdin
     = (fs', [PCount 0 name; PFixed false], Returned) /\ fs' name = Some [])
  /\ (forall fields, exists fs', run_command (zl:=zl) (2 + fuel) he sha1 k uuid dumps size can_write (1 + n) (CIndex [name] fields (Some name)) fs stdin
     = (fs', [], Returned) /\ fs' name = Some []).
Proof. exact C102_in_place_refuted_pf. Qed.
Print Assumptions C102_in_place_refuted.

(** ... and an output file that exists is lost when the command fails: index with an input that
    does not exist empties its output file *)
Theorem C102_failed_refuted :
  forall (zl : zenv) fuel he sha1 k uuid dumps size can_write n fs stdin out missing fields,
  file_name out -> can_write out = true -> file_name missing -> missing <> out -> fs missing = None ->
  exists fs', run_command (zl:=zl) fuel he sha1 k uuid dumps size can_write n (CIndex [missing] fields (Some out)) fs stdin = (fs', [], OsError)
    /\ fs' out = Some [].
Proof. exact C102_failed_refuted_pf. Qed.
Print Assumptions C102_failed_refuted.

(** C102: recompress with an input that does not exist changes nothing and exits with 1 *)
Theorem C102_missing :
  forall (zl : zenv) fuel he sha1 k uuid dumps size can_write n fs stdin out missing verbose,
  file_name missing -> fs missing = None ->
  run_command (zl:=zl) fuel he sha1 k uuid dumps size can_write n (CRecompress missing out verbose) fs stdin = (fs, [PFailed missing], Exited 1).
Proof. exact C102_missing_pf. Qed.
Print Assumptions C102_missing.

Example C102_missing_ex : file_name (lit "a") /\ has_file (set_file (lit "b") (lit "x") (fun _ => None)) (lit "b") (lit "x").
Proof. repeat split; discriminate. Qed.

(** C102: if the output cannot be opened for writing, nothing is changed, no index is printed and
    the exit status is 1 *)
Theorem C102_unwritable :
  forall (zl : zenv) fuel he sha1 k uuid dumps size can_write n fs stdin c out,
  output_of c = Some out -> file_name out -> can_write out = false ->
  exists ps o, run_command (zl:=zl) fuel he sha1 k uuid dumps size can_write n c fs stdin = (fs, ps, o) /\ status o = 1
    /\ (forall t, ~ In (PText t) ps).
Proof. exact C102_unwritable_pf. Qed.
Print Assumptions C102_unwritable.

Example C102_unwritable_ex :
  let fs := set_file (lit "a") (texts (Thm_Cli.ex_es true)) (fun _ => None) in
  output_of (CIndex [lit "a"] (lit "offset") (Some (lit "b"))) = Some (lit "b") /\ file_name (lit "b")
  /\ snd (run_command (zl:=toy_z) 500 ck_henv ck_hash toy_k (lit "u") (fun _ => lit "{}") 100 (fun _ => false) 5 (CIndex [lit "a"] (lit "offset") (Some (lit "b"))) fs []) = OsError.
Proof. vm_compute. repeat split; discriminate. Qed.

(** C103: check on files that exist is check_all on their contents; it prints what that prints,
    and the exit status is the number it returns, or 1 if an exception escapes *)
Theorem C103_check :
  forall (zl : zenv) fuel he sha1 k uuid dumps size can_write n fs stdin verbose l x ms,
  Forall (fun f => has_file fs (fst f) (snd f)) l ->
  check_all (zl:=zl) fuel he n verbose uuid 0 (map (fun f => (fst f, raw_open (snd f) [])) l) = (x, ms) ->
  exists o, run_command (zl:=zl) fuel he sha1 k uuid dumps size can_write n (CCheck (map fst l) verbose) fs stdin = (fs, map PMsg ms, o)
    /\ status o = match x with Ok v => v | Err _ => 1 end.
Proof. exact C103_check_pf. Qed.
Print Assumptions C103_check.

Example C103_check_ex :
  let fs := set_file (lit "a") (texts (Thm_Cli.ex_es true)) (set_file (lit "b") (texts (Thm_Cli.ex_es false)) (fun _ => None)) in
  let st names := status (snd (run_command (zl:=toy_z) 500 ck_henv ck_hash toy_k (lit "u") (fun _ => lit "{}") 100 (fun _ => true) 5 (CCheck names false) fs [])) in
  st [lit "a"] = 0 /\ st [lit "b"] = 1 /\ st [lit "a"; lit "b"] = 1 /\ st [lit "a"; lit "c"] = 1 /\ st [] = 0.
Proof. vm_compute. repeat split. Qed.

(** C103: check stops at the first file that does not exist; what the files before it made it
    print is printed, the files after it are not looked at, and the exit status is 1 *)
Theorem C103_check_missing :
  forall (zl : zenv) fuel he sha1 k uuid dumps size can_write n fs stdin verbose l missing rest v ms,
  Forall (fun f => has_file fs (fst f) (snd f)) l -> file_name missing -> fs missing = None ->
  check_all (zl:=zl) fuel he n verbose uuid 0 (map (fun f => (fst f, raw_open (snd f) [])) l) = (Ok v, ms) ->
  exists o, run_command (zl:=zl) fuel he sha1 k uuid dumps size can_write n (CCheck (map fst l ++ missing :: rest) verbose) fs stdin = (fs, map PMsg ms, o)
    /\ status o = 1.
Proof. exact C103_check_missing_pf. Qed.
Print Assumptions C103_check_missing.

(** C103: the exit status of check on files that hold well-formed archives is 1 if some record has
    a wrong digest and 0 if none has.  (Hypotheses of C63_archives_partial.) *)
Theorem C103_check_archives :
  forall (zl : zenv) fuel he sha1 k uuid dumps size can_write n fs stdin verbose M l ess,
  Forall (fun f => has_file fs (fst f) (snd f)) l ->
  archives unchunked zl fuel he (check_opts uuid) M (map (fun f => (fst f, raw_open (snd f) [])) l) ess -> 64 <= M ->
  Forall (fun es => (List.length es < n)%nat) ess ->
  (forall es e pl, In es ess -> In (e, pl) es -> not_vacuous he e /\ plain_content (e_http e)) ->
  exists ps o, run_command (zl:=zl) fuel he sha1 k uuid dumps size can_write n (CCheck (map fst l) verbose) fs stdin = (fs, ps, o)
    /\ ((exists es e pl, In es ess /\ In (e, pl) es /\ fails he e) -> status o = 1)
    /\ ((forall es e pl, In es ess -> In (e, pl) es -> ~ fails he e) -> status o = 0).
Proof. exact C103_check_archives_pf. Qed.
Print Assumptions C103_check_archives.

(** C103: index on files that exist writes the lines of index_all on their contents, one after the
    other, to standard output or to the output file; an exception ends it with status 1 after the
    lines before it were written *)
Theorem C103_index :
  forall (zl : zenv) fuel he sha1 k uuid dumps size can_write n fs stdin l fields ds en,
  l <> [] -> Forall (fun f => has_file fs (fst f) (snd f)) l ->
  index_all (zl:=zl) fuel he n false uuid (split_fields fields) (map (fun f => (fst f, raw_open (snd f) [])) l) = (ds, en) ->
  (exists o, run_command (zl:=zl) fuel he sha1 k uuid dumps size can_write n (CIndex (map fst l) fields None) fs stdin = (fs, [PText (index_text dumps ds)], o)
     /\ status o = match en with EndStop => 0 | EndExn _ => 1 end)
  /\ (forall out, file_name out -> can_write out = true -> ~ In out (map fst l) ->
      exists fs' o, run_command (zl:=zl) fuel he sha1 k uuid dumps size can_write n (CIndex (map fst l) fields (Some out)) fs stdin = (fs', [], o)
        /\ fs' out = Some (index_text dumps ds) /\ status o = match en with EndStop => 0 | EndExn _ => 1 end).
Proof. exact C103_index_pf. Qed.
Print Assumptions C103_index.

Example C103_index_ex :
  let fs := set_file (lit "a") (texts (Thm_Cli.ex_es true)) (fun _ => None) in
  run_command (zl:=toy_z) 500 ck_henv ck_hash toy_k (lit "u") (fun d => concat (map snd d)) 100 (fun _ => true) 5 (CIndex [lit "a"] (lit "offset,warc-type") None) fs []
  = (fs, [PText (lit "0response" ++ [10%N] ++ lit "172resource" ++ [10%N])], Returned).
Proof. vm_compute. reflexivity. Qed.

(** C103: the commands index and extract together.  For a file that holds a well-formed archive,
    index with the field offset among others prints one line per record, made from a dictionary
    whose value of offset, given to extract as it is, makes it print the record.
    (Hypotheses of C88_index_extract_partial.) *)
Theorem C103_index_extract :
  forall (zl : zenv) fuel he sha1 k uuid dumps size can_write n fs stdin M name data fields es,
  has_file fs name data -> In (lit "offset") (split_fields fields) ->
  good_archive every zl fuel he (extract_opts uuid) M 0 [] data es -> (List.length es < n)%nat ->
  exists ds, run_command (zl:=zl) fuel he sha1 k uuid dumps size can_write n (CIndex [name] fields None) fs stdin
             = (fs, [PText (concat (map (fun d => dumps d ++ [10%N]) ds))], Returned)
    /\ List.length ds = List.length es
    /\ forall i d e pl, nth_error ds i = Some d -> nth_error es i = Some (e, pl) ->
       exists v, In (lit "offset", v) d /\ (forall v', In (lit "offset", v') d -> v' = v)
         /\ forall wb hb, warc_text (e_rec e) wb -> http_text (e_http e) hb ->
            run_command (zl:=zl) fuel he sha1 k uuid dumps size can_write n (CExtract name v false false) fs stdin
            = (fs, [PBytes (wb ++ hb ++ e_payload e)], Returned).
Proof. exact C103_index_extract_pf. Qed.
Print Assumptions C103_index_extract.

(** C103: recompress writes what the function returns to the output file and exits with 0 *)
Theorem C103_recompress :
  forall (zl : zenv) fuel he sha1 k uuid dumps size can_write n fs stdin name data out c fixed b,
  has_file fs name data -> file_name out -> can_write out = true -> out <> name ->
  recompress (zl:=zl) fuel he n sha1 k uuid size data = RcOk c fixed b ->
  exists fs', run_command (zl:=zl) fuel he sha1 k uuid dumps size can_write n (CRecompress name out false) fs stdin
              = (fs', [PCount c out; PFixed fixed], Returned) /\ fs' out = Some b /\ fs' name = Some data.
Proof. exact C103_recompress_pf. Qed.
Print Assumptions C103_recompress.

(** C103: with --verbose recompress prints, before its summary, what index prints for the file it
    has written *)
Theorem C103_recompress_verbose :
  forall (zl : zenv) fuel he sha1 k uuid dumps size can_write n fs stdin name data out c fixed b fs' t,
  has_file fs name data -> file_name out -> can_write out = true -> out <> name ->
  recompress (zl:=zl) fuel he n sha1 k uuid size data = RcOk c fixed b -> has_file fs' out b ->
  run_command (zl:=zl) fuel he sha1 k uuid dumps size can_write n (CIndex [out] (lit "offset,warc-type,warc-target-uri") None) fs' stdin = (fs', [PText t], Returned) ->
  exists fs'', run_command (zl:=zl) fuel he sha1 k uuid dumps size can_write n (CRecompress name out true) fs stdin
              = (fs'', [PText t; PCount c out; PFixed fixed], Returned) /\ fs'' out = Some b.
Proof. exact C103_recompress_verbose_pf. Qed.
Print Assumptions C103_recompress_verbose.

Example C103_recompress_verbose_ex :
  let run c fs := run_command (zl:=toy_z) 900 ck_henv ck_hash toy_k (lit "u") (fun d => concat (map snd d)) 100 (fun _ => true) 5 c fs [] in
  snd (fst (run (CRecompress (lit "a") (lit "b") true) (set_file (lit "a") (texts (Thm_Cli.ex_es true)) (fun _ => None))))
  = [PText (lit "0responsehttp://a/" ++ [10%N] ++ lit "467resource" ++ [10%N]); PCount 2 (lit "b"); PFixed false].
Proof. vm_compute. reflexivity. Qed.

(** C103: recompress of a file that can be read neither directly nor after decompressing it
    prints a message and exits with 1; the input file is as before *)
Theorem C103_recompress_failed :
  forall (zl : zenv) fuel he sha1 k uuid dumps size can_write n fs stdin name data out verbose e,
  has_file fs name data -> file_name out -> can_write out = true -> out <> name ->
  recompress (zl:=zl) fuel he n sha1 k uuid size data = RcFailed e -> e <> OutOfFuel ->
  exists fs', run_command (zl:=zl) fuel he sha1 k uuid dumps size can_write n (CRecompress name out verbose) fs stdin
              = (fs', [PFailed name], Exited 1) /\ fs' name = Some data.
Proof. exact C103_recompress_failed_pf. Qed.
Print Assumptions C103_recompress_failed.

Example C103_recompress_failed_ex :
  let fs := set_file (lit "a") (lit "garbage") (fun _ => None) in
  snd (run_command (zl:=toy_z) 900 ck_henv ck_hash toy_k (lit "u") (fun _ => lit "{}") 100 (fun _ => true) 5 (CRecompress (lit "a") (lit "b") false) fs []) = Exited 1.
Proof. vm_compute. reflexivity. Qed.

(** C103: the commands recompress and check together.  After recompressing a well-formed archive
    into another file, check exits with the same status for both files, 1 if some record has a
    wrong digest and 0 if none has.  (Hypotheses of C89_recompress_check_partial.) *)
Theorem C103_recompress_check :
  forall (zl : zenv) fuel he k sha1 uuid dumps size can_write n fs stdin M name data out es,
  has_file fs name data -> file_name out -> can_write out = true -> out <> name ->
  gzip_codec zl k -> henv_ok he -> he (lit "sha1") = Some sha1 -> 64 <= M ->
  good_archive unchunked zl fuel he (check_opts uuid) M 0 [] data es ->
  Forall (fun x => rewritable fuel M false (fst x)) es ->
  Forall (fun x => digest_stable (fst x) /\ judge_ok he (fst x)) es -> es <> [] -> (List.length es < n)%nat ->
  exists fs' es' ms, run_command (zl:=zl) fuel he sha1 k uuid dumps size can_write n (CRecompress name out false) fs stdin
      = (fs', [PCount (List.length es) out; PFixed false], Returned)
    /\ fs' out = Some (concat ms) /\ fs' name = Some data /\ compressed zl es' ms
    /\ (back_fits zl fuel es' ms -> Forall2 (fun e m => unchunked e \/ lenZ m <= BUFF_SIZE) es' ms ->
        let run f := run_command (zl:=zl) fuel he sha1 k uuid dumps size can_write n (CCheck [f] false) fs' stdin in
        snd (run name) <> Raised OutOfFuel -> snd (run out) <> Raised OutOfFuel ->
        status (snd (run name)) = status (snd (run out))
        /\ ((exists e, In e es /\ fails he (fst e)) -> status (snd (run name)) = 1)
        /\ ((forall e, In e es -> ~ fails he (fst e)) -> status (snd (run name)) = 0)).
Proof. exact C103_recompress_check_pf. Qed.
Print Assumptions C103_recompress_check.

Example C103_recompress_check_ex :
  let run c fs := run_command (zl:=toy_z) 900 ck_henv ck_hash toy_k (lit "u") (fun _ => lit "{}") 100 (fun _ => true) 5 c fs [] in
  let st good := let fs := fst (fst (run (CRecompress (lit "a") (lit "b") false) (set_file (lit "a") (texts (Thm_Cli.ex_es good)) (fun _ => None)))) in
                 (status (snd (run (CCheck [lit "a"] false) fs)), status (snd (run (CCheck [lit "b"] false) fs))) in
  st true = (0, 0) /\ st false = (1, 1).
Proof. vm_compute. split; reflexivity. Qed.

(** C104 is false: '-' is standard input for index only; check and extract raise AttributeError
    and recompress fails, whatever standard input holds *)
Theorem C104_dash_refuted :
  forall (zl : zenv) fuel he sha1 k uuid dumps size can_write n fs stdin verbose offset payload headers out,
  run_command (zl:=zl) fuel he sha1 k uuid dumps size can_write n (CCheck [lit "-"] verbose) fs stdin = (fs, [], Raised AttributeErr)
  /\ run_command (zl:=zl) fuel he sha1 k uuid dumps size can_write n (CExtract (lit "-") offset payload headers) fs stdin = (fs, [], Raised AttributeErr)
  /\ exists fs', run_command (zl:=zl) fuel he sha1 k uuid dumps size can_write n (CRecompress (lit "-") out verbose) fs stdin = (fs', [PFailed (lit "-")], Exited 1).
Proof. exact C104_dash_refuted_pf. Qed.
Print Assumptions C104_dash_refuted.

(** C104 for index: without inputs, or with '-', it prints what it prints for a file with the
    contents of standard input, if the name of the file is not asked for *)
Theorem C104_index_partial :
  forall (zl : zenv) fuel he sha1 k uuid dumps size can_write n fs stdin name fields,
  has_file fs name stdin -> ~ In (lit "filename") (split_fields fields) ->
  let run inputs := run_command (zl:=zl) fuel he sha1 k uuid dumps size can_write n (CIndex inputs fields None) fs stdin in
  run [] = run [name] /\ run [lit "-"] = run [name].
Proof. exact C104_index_partial_pf. Qed.
Print Assumptions C104_index_partial.

Example C104_ex :
  let fs := set_file (lit "a") (texts (Thm_Cli.ex_es true)) (fun _ => None) in
  let run inputs := snd (fst (run_command (zl:=toy_z) 500 ck_henv ck_hash toy_k (lit "u") (fun d => concat (map snd d)) 100 (fun _ => true) 5 (CIndex inputs (lit "offset") None) fs (texts (Thm_Cli.ex_es true)))) in
  run [] = run [lit "a"] /\ run [] = [PText (lit "0" ++ [10%N] ++ lit "172" ++ [10%N])] /\ has_file fs (lit "a") (texts (Thm_Cli.ex_es true)).
Proof. vm_compute. repeat split; discriminate. Qed.
