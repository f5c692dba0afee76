(** * Props_Frame: iterating with and without parsing of HTTP headers (C85), and where records are for every block size (C34, C36) *)
From Coq Require Import String List ZArith NArith Bool Lia.
From Verif Require Import PyBase Headers Streams Loader Iterator Writer StreamSpec WriterSpec IterSpec RoundSpec TermSpec IndepSpec FrameSpec Toy.
Import ListNotations.
Open Scope Z_scope.
From Verif Require Import Thm_Frame.

(** C85.  For every file, iterated with and without no_record_parse: the two loops end, and
    show the same records, except that a record whose HTTP headers cannot be parsed, or a record
    after the last gzip member, ends the comparison. *)
Theorem C85_framing :
  forall (zl : zenv) (he : henv) (o : lopts) (data : bytes) (sched : list Z) (block : Z) (known : option fmt),
  lo_check o = KFalse ->
  let it := @iter_new zl (raw_open data sched) block known in
  exists osa ena osb enb,
    loop_ends he (with_norec true o) read_all it osa ena /\ loop_ends he (with_norec false o) read_all it osb enb
    /\ exists ca cb ra rb, osa = ca ++ ra /\ osb = cb ++ rb /\ Forall2 (framed o) ca cb /\ parted o ra ena rb enb.
Proof. exact C85_framing_pf. Qed.
Print Assumptions C85_framing.

(** C85, when nothing stands in the way: HTTP headers are not verified, every record with HTTP
    headers has a target URI and some content, and the loop with no_record_parse=True does not
    end with ArchiveLoadFailed.  Then both loops show the same records and end alike. *)
Theorem C85_complete :
  forall (zl : zenv) (he : henv) (o : lopts) (data : bytes) (sched : list Z) (block : Z) (known : option fmt) osa ena,
  lo_check o = KFalse -> lo_verify o = false ->
  let it := @iter_new zl (raw_open data sched) block known in
  loop_ends he (with_norec true o) read_all it osa ena ->
  (forall a, In a osa -> holds_http a -> target_of a <> None /\ ob_reads a <> [Ok []]) -> ena <> EndExn ArchiveLoadFailed ->
  exists osb, loop_ends he (with_norec false o) read_all it osb ena /\ Forall2 (framed o) osa osb.
Proof. exact C85_complete_pf. Qed.
Print Assumptions C85_complete.

Definition fr_o := mk_lopts false false false false KFalse (lit "u").
Definition fr_text (ty block : bytes) (len : string) := lit "WARC/1.0" ++ crlf ++ lit "WARC-Type: " ++ ty ++ crlf ++ lit "WARC-Target-URI: http://a/" ++ crlf
   ++ lit "Content-Length: " ++ lit len ++ crlf ++ crlf ++ block.
Definition fr_block := lit "HTTP/1.1 200 OK" ++ crlf ++ crlf ++ lit "body".
Definition fr_run (data : bytes) (sched : list Z) (block : Z) (norec : bool) :=
  let (os, en) := run_iter (zl:=toy_z) 800 toy_henv (with_norec norec fr_o) 6 read_all 0 (iter_new (raw_open data sched) block None) in
  (map (fun ob => (rc_type (ob_record ob), ob_reads ob, ob_info ob)) os, en).

(** a response, and a resource, with blocks of seven bytes and short reads *)
Example C85_ex :
  let data := fr_text (lit "response") fr_block "23" ++ crlf ++ crlf ++ fr_text (lit "resource") (lit "text") "4" ++ crlf ++ crlf in
  fr_run data [5; 1; 3] 7 true = ([(Some (lit "response"), [Ok fr_block], Ok (Some (0, 104))); (Some (lit "resource"), [Ok (lit "text")], Ok (Some (108, 84)))], EndStop)
  /\ fr_run data [5; 1; 3] 7 false = ([(Some (lit "response"), [Ok (lit "body")], Ok (Some (0, 104))); (Some (lit "resource"), [Ok (lit "text")], Ok (Some (108, 84)))], EndStop).
Proof. vm_compute. repeat split. Qed.
(** the EOFError of a response without the content it announces is taken for the end of its
    gzip member: with parsing of HTTP headers, the record is left out without an exception *)
Example C85_dropped :
  let m1 := toy_gz (fr_text (lit "response") [] "23") in
  let data := m1 ++ toy_gz (fr_text (lit "resource") (lit "text") "4" ++ crlf ++ crlf) in
  map (fun x => fst (fst x)) (fst (fr_run data [] 400 true)) = [Some (lit "response"); Some (lit "resource")]
  /\ map (fun x => fst (fst x)) (fst (fr_run data [] 400 false)) = [Some (lit "resource")]
  /\ snd (fr_run data [] 400 true) = EndStop /\ snd (fr_run data [] 400 false) = EndStop.
Proof. vm_compute. repeat split. Qed.

(** C36 (and C34, with [k] = 0) for every block size and every file that returns at least two
    bytes at first, without any condition on lines: opening the archive at record number [k]
    and iterating finds that record and the following ones, with the type, headers, length and
    position of each; what can be read of a record is its block without a prefix; and any
    other way of reading the records finds the same.  The slice given by the offset and length
    of record number [k] is its text without the two empty lines. *)
Theorem C36_framing :
  forall (zl : zenv) he o ws sched block known k,
  gz_magic zl -> first_two block sched -> known <> Some FArc ->
  lo_check o = KFalse -> lo_verify o = false -> lo_ensure o = false ->
  (forall w t, In (w, t) ws -> wf_record w /\ text_of w t /\ http_ready w) ->
  let data := List.concat (map snd ws) in
  let off i := lenZ (List.concat (map snd (firstn i ws))) in
  let it := @iter_new zl (mk_raw (dropZ (off k) data) (off k) sched) block known in
  exists os, loop_ends he o read_all it os EndStop /\ List.length os = (List.length ws - k)%nat
    /\ (forall i w t ob, nth_error ws (k + i) = Some (w, t) -> nth_error os i = Some ob -> found w (off (k + i)%nat) (lenZ t - 4) ob)
    /\ (forall prog, plain_prog prog -> exists oc, loop_ends he o prog it oc EndStop /\ Forall2 agree os oc)
    /\ forall w t, nth_error ws k = Some (w, t) -> takeZ (lenZ t - 4) (dropZ (off k) data) ++ [13; 10; 13; 10]%N = t.
Proof. exact C36_framing_pf. Qed.
Print Assumptions C36_framing.

Definition fr_ws := map (fun e => (e_rec e, e_text e)) Thm_Iter.ex_es.

(** the two records of C34_ex meet the conditions; with blocks of seven bytes and short reads
    the HTTP headers of the first one are not parsed correctly, but nothing else changes *)
Example C36_framing_good : forall w t, In (w, t) fr_ws -> wf_record w /\ text_of w t /\ http_ready w.
Proof.
  intros w t H. apply in_map_iff in H as (e & Q & H). injection Q as <- <-. destruct (In_nth_error _ _ H) as [i Ei].
  destruct (Thm_Iter.ex_good_pf i e Ei) as (H1 & H2 & _). split; [exact H1|]. split; [exact H2|].
  intros (v & Ev & Hv) _. destruct i as [|[|[|i]]]; [| |discriminate|discriminate]; injection Ei as <-.
  - discriminate.
  - vm_compute in Ev. injection Ev as <-. destruct Hv as [Q|[Q|[Q|[]]]]; discriminate.
Qed.
Example C36_framing_ex :
  let data := List.concat (map snd fr_ws) in
  fr_run data [3; 1; 2] 7 false = ([(Some (lit "response"), [Ok (lit "A: b" ++ crlf ++ crlf)], Ok (Some (0, 106))); (Some (lit "resource"), [Ok (lit "WARC/1.0" ++ crlf ++ crlf)], Ok (Some (110, 65)))], EndStop).
Proof. vm_compute. reflexivity. Qed.

(** C34: every archive of well-formed records, every block size of at least two and every file
    whose first read returns at least two bytes.  Each record is found once, in order, at its
    position, with its length, headers and block. *)
Theorem C34_framing :
  forall (zl : zenv) he o ws sched block known,
  gz_magic zl -> first_two block sched -> known <> Some FArc ->
  lo_check o = KFalse -> lo_verify o = false -> lo_ensure o = false ->
  (forall w t, In (w, t) ws -> wf_record w /\ text_of w t /\ http_ready w) ->
  let it := @iter_new zl (raw_open (List.concat (map snd ws)) sched) block known in
  exists os, loop_ends he o read_all it os EndStop /\ List.length os = List.length ws
    /\ (forall i w t ob, nth_error ws i = Some (w, t) -> nth_error os i = Some ob ->
         found w (lenZ (List.concat (map snd (firstn i ws)))) (lenZ t - 4) ob)
    /\ forall prog, plain_prog prog -> exists oc, loop_ends he o prog it oc EndStop /\ Forall2 agree os oc.
Proof. exact C34_framing_pf. Qed.
Print Assumptions C34_framing.

(** The same for archives with one gzip member per record. *)
Theorem C36_framing_gzip :
  forall (zl : zenv) he o ms sched block known k,
  (k < List.length ms)%nat -> 0 < block -> known <> Some FArc ->
  lo_check o = KFalse -> lo_verify o = false -> lo_ensure o = false ->
  (forall w t m, In (w, t, m) ms -> wf_record w /\ text_of w t /\ http_ready w /\ is_member zl m t) ->
  let data := List.concat (map snd ms) in
  let off i := lenZ (List.concat (map snd (firstn i ms))) in
  let it := @iter_new zl (mk_raw (dropZ (off k) data) (off k) sched) block known in
  exists os, loop_ends he o read_all it os EndStop /\ List.length os = (List.length ms - k)%nat
    /\ (forall i w t m ob, nth_error ms (k + i) = Some (w, t, m) -> nth_error os i = Some ob -> found w (off (k + i)%nat) (lenZ m) ob)
    /\ (forall prog, plain_prog prog -> exists oc, loop_ends he o prog it oc EndStop /\ Forall2 agree os oc)
    /\ forall w t m, nth_error ms k = Some (w, t, m) -> takeZ (lenZ m) (dropZ (off k) data) = m.
Proof. exact C36_framing_gzip_pf. Qed.
Print Assumptions C36_framing_gzip.

(** C34 for archives with one gzip member per record, every block size and every schedule. *)
Theorem C34_framing_gzip :
  forall (zl : zenv) he o ms sched block known,
  ms <> [] -> 0 < block -> known <> Some FArc ->
  lo_check o = KFalse -> lo_verify o = false -> lo_ensure o = false ->
  (forall w t m, In (w, t, m) ms -> wf_record w /\ text_of w t /\ http_ready w /\ is_member zl m t) ->
  let it := @iter_new zl (raw_open (List.concat (map snd ms)) sched) block known in
  exists os, loop_ends he o read_all it os EndStop /\ List.length os = List.length ms
    /\ (forall i w t m ob, nth_error ms i = Some (w, t, m) -> nth_error os i = Some ob ->
         found w (lenZ (List.concat (map snd (firstn i ms)))) (lenZ m) ob)
    /\ forall prog, plain_prog prog -> exists oc, loop_ends he o prog it oc EndStop /\ Forall2 agree os oc.
Proof. exact C34_framing_gzip_pf. Qed.
Print Assumptions C34_framing_gzip.

(** one record per member, with blocks of seven bytes *)
Example C34_framing_gzip_good : forall w t m, In (w, t, m) (map (fun p => (p, toy_gz (snd p))) fr_ws) ->
  wf_record w /\ text_of w t /\ http_ready w /\ is_member toy_z m t.
Proof.
  intros w t m H. apply in_map_iff in H as ([w' t'] & Q & H). injection Q as <- <- <-.
  destruct (C36_framing_good _ _ H) as (H1 & H2 & H3). split; [exact H1|]. split; [exact H2|]. split; [exact H3|].
  cbn [snd]. destruct H as [Q|[Q|[]]]; injection Q as <- <-; vm_compute; reflexivity.
Qed.
Example C34_framing_gzip_ex :
  let data := List.concat (map (fun p => toy_gz (snd p)) fr_ws) in
  fr_run data [3; 1; 2] 7 false = ([(Some (lit "response"), [Ok []], Ok (Some (0, 223))); (Some (lit "resource"), [Ok (lit "WARC/1.0" ++ crlf ++ crlf)], Ok (Some (223, 141)))], EndStop).
Proof. vm_compute. reflexivity. Qed.

(** C33, for the old records: whatever is appended to an archive of well-formed records (any
    bytes that do not begin with white space), the old records are found as before; any block size
    and short reads as in C34. *)
Theorem C33_append_framing :
  forall (zl : zenv) he o ws more sched block known,
  gz_magic zl -> first_two block sched -> known <> Some FArc ->
  lo_check o = KFalse -> lo_verify o = false -> lo_ensure o = false ->
  (forall w t, In (w, t) ws -> wf_record w /\ text_of w t /\ http_ready w) -> ws <> [] ->
  (forall c rest, more = c :: rest -> is_bspace c = false) ->
  let it := @iter_new zl (raw_open (List.concat (map snd ws) ++ more) sched) block known in
  exists os en, loop_ends he o read_all it os en /\ (List.length ws <= List.length os)%nat
    /\ (forall i w t ob, nth_error ws i = Some (w, t) -> nth_error os i = Some ob ->
         found w (lenZ (List.concat (map snd (firstn i ws)))) (lenZ t - 4) ob)
    /\ forall prog, plain_prog prog -> exists oc, loop_ends he o prog it oc en /\ Forall2 agree os oc.
Proof. exact C33_append_framing_pf. Qed.
Print Assumptions C33_append_framing.

(** the two records of C34_ex and then garbage *)
Example C33_append_ex :
  let data := List.concat (map snd fr_ws) ++ lit "garbage" in
  map (fun x => snd x) (fst (fr_run data [3; 1; 2] 7 false)) = [Ok (Some (0, 106)); Ok (Some (110, 65))]
  /\ snd (fr_run data [3; 1; 2] 7 false) = EndExn ArchiveLoadFailed.
Proof. vm_compute. repeat split. Qed.

(** C37: if the archive is cut after the block of record number [k], that record and the ones before it
    are found as in the whole archive; any block size and short reads as in C34. *)
Theorem C37_framing :
  forall (zl : zenv) he o ws sched block known k w t pre suf,
  gz_magic zl -> first_two block sched -> known <> Some FArc ->
  lo_check o = KFalse -> lo_verify o = false -> lo_ensure o = false ->
  (forall w t, In (w, t) ws -> wf_record w /\ text_of w t /\ http_ready w) ->
  let off i := lenZ (List.concat (map snd (firstn i ws))) in
  List.concat (map snd ws) = pre ++ suf -> nth_error ws k = Some (w, t) -> off k + (lenZ t - 4) <= lenZ pre ->
  let it := @iter_new zl (raw_open pre sched) block known in
  exists os en, loop_ends he o read_all it os en /\ (k < List.length os)%nat
    /\ (forall i w t ob, (i <= k)%nat -> nth_error ws i = Some (w, t) -> nth_error os i = Some ob -> found w (off i) (lenZ t - 4) ob)
    /\ forall prog, plain_prog prog -> exists oc, loop_ends he o prog it oc en /\ Forall2 agree os oc.
Proof. exact C37_framing_pf. Qed.
Print Assumptions C37_framing.

(** the two records of C34_ex, cut inside the second one *)
Example C37_framing_ex :
  let data := takeZ 150 (List.concat (map snd fr_ws)) in
  firstn 1 (fst (fr_run data [3; 1; 2] 7 false)) = [(Some (lit "response"), [Ok (lit "A: b" ++ crlf ++ crlf)], Ok (Some (0, 106)))].
Proof. vm_compute. repeat split. Qed.

(** C38, for an archive that ends inside the block of its last record [w] (after the bytes [b]):
    the records before are found as usual; then [w] is found, with the length it declares, and
    read() returns fewer bytes.  Any block size, short reads as in C34.  Excluded is a response,
    request or revisit of whose block nothing is left: see C38_silent_cut_refuted. *)
Theorem C38_cut_block_partial :
  forall (zl : zenv) he o ws sched block known w t b c,
gz_magic zl -> first_two block sched -> known <> Some FArc ->
lo_check o = KFalse -> lo_verify o = false -> lo_ensure o = false ->
(forall w t, In (w, t) ws -> wf_record w /\ text_of w t /\ http_ready w) ->
wf_record w -> text_of w t -> http_ready w -> w_block w = b ++ c -> c <> [] ->
((exists ty, w_value "WARC-Type" w = Some ty /\ In ty [lit "response"; lit "request"; lit "revisit"]) -> b <> []) ->
let kept := lenZ t - 4 - lenZ c in
let off i := lenZ (List.concat (map snd (firstn i ws))) in
let it := @iter_new zl (raw_open (List.concat (map snd ws) ++ takeZ kept t) sched) block known in
exists os ob, loop_ends he o read_all it (os ++ [ob]) EndStop /\ List.length os = List.length ws
  /\ (forall i w t ob, nth_error ws i = Some (w, t) -> nth_error os i = Some ob -> found w (off i) (lenZ t - 4) ob)
  /\ cut_short w b (lenZ (List.concat (map snd ws))) kept ob
  /\ (exists x n, ob_reads ob = [Ok x] /\ rc_length (ob_record ob) = Some n /\ lenZ x < n)
  /\ forall prog, plain_prog prog -> exists oc, loop_ends he o prog it oc EndStop /\ Forall2 agree (os ++ [ob]) oc.
Proof. exact C38_cut_block_partial_pf. Qed.
Print Assumptions C38_cut_block_partial.

(** the two records of C34_ex, cut inside the block of the second one *)
Example C38_cut_ex :
  let data := takeZ 170 (List.concat (map snd fr_ws)) in
  fr_run data [] 400 false = ([(Some (lit "response"), [Ok []], Ok (Some (0, 106))); (Some (lit "resource"), [Ok (lit "WARC/1.")], Ok (Some (110, 60)))], EndStop).
Proof. vm_compute. repeat split. Qed.

(** C81 for any block size and short reads as in C34: records followed by any white space that
    ends with a line end ([blanks_ok]) are all found. *)
Theorem C81_framing :
  forall (zl : zenv) he o (xs : list (wrc * bytes * bytes)) sched block known,
  gz_magic zl -> first_two block sched -> known <> Some FArc ->
  lo_check o = KFalse -> lo_verify o = false -> lo_ensure o = false ->
  (forall w t s, In (w, t, s) xs -> wf_record w /\ text_of w t /\ http_ready w /\ forallb is_bspace s = true) ->
  (forall i x w t s, nth_error xs i = Some x -> nth_error xs (S i) = Some (w, t, s) -> exists a, snd x = a ++ [LF]) ->
  let bare (t : bytes) := takeZ (lenZ t - 4) t in
  let text (x : wrc * bytes * bytes) := bare (snd (fst x)) ++ snd x in
  let it := @iter_new zl (raw_open (List.concat (map text xs)) sched) block known in
  exists os, loop_ends he o read_all it os EndStop /\ List.length os = List.length xs
    /\ (forall i w t s ob, nth_error xs i = Some (w, t, s) -> nth_error os i = Some ob ->
         found w (lenZ (List.concat (map text (firstn i xs)))) (lenZ (bare t)) ob)
    /\ forall prog, plain_prog prog -> exists oc, loop_ends he o prog it oc EndStop /\ Forall2 agree os oc.
Proof. exact C81_framing_pf. Qed.
Print Assumptions C81_framing.

(** one empty line only after the first record, spaces and a tab after the second *)
Example C81_framing_ex :
  let bare (t : bytes) := takeZ (lenZ t - 4) t in
  let data := List.concat (map (fun x => bare (snd (fst x)) ++ snd x) (List.combine fr_ws [[LF]; [32; 9; LF; 32]%N])) in
  map (fun x => snd x) (fst (fr_run data [3; 1; 2] 7 false)) = [Ok (Some (0, 106)); Ok (Some (107, 65))]
  /\ snd (fr_run data [3; 1; 2] 7 false) = EndStop.
Proof. vm_compute. repeat split. Qed.

(** C33: an archive of well-formed records, to which records are appended with
    the writer.  Iteration finds the old records and then the new ones ([new]: the headers and
    the text as written), each at its position; any block size and short reads as in C34. *)
Theorem C33_append :
  forall (zl : zenv) fuel sha1 k he o old cs rs ws,
  gz_magic zl -> hash_bytes sha1 -> lo_check o = KFalse -> lo_verify o = false -> lo_ensure o = false ->
  (forall w t, In (w, t) old -> wf_record w /\ text_of w t /\ http_ready w) ->
  Forall2 (fun c r => exists M, readable fuel sha1 M false c r) cs rs ->
  write_all fuel sha1 k (mk_wopts (lit "WARC/1.0") None false) rs = (Ok tt, ws) -> enough fuel (List.concat ws) ->
  exists new : list (wrc * bytes), Forall2 (fun r p => written fuel sha1 r (fst p) (snd p)) rs new /\
  forall sched block known, first_two block sched -> known <> Some FArc ->
  let it := @iter_new zl (raw_open (List.concat (map snd old) ++ List.concat ws) sched) block known in
  exists os, loop_ends he o read_all it os EndStop /\ List.length os = (List.length old + List.length rs)%nat
    /\ (forall i w t ob, nth_error (old ++ new) i = Some (w, t) -> nth_error os i = Some ob ->
         found w (lenZ (List.concat (map snd (firstn i (old ++ new))))) (lenZ t - 4) ob)
    /\ forall prog, plain_prog prog -> exists oc, loop_ends he o prog it oc EndStop /\ Forall2 agree os oc.
Proof. exact C33_append_pf. Qed.
Print Assumptions C33_append.

(** The same for an archive with one gzip member per record, appended to with gzip=True. *)
Theorem C33_append_gzip :
  forall (zl : zenv) fuel sha1 k he o old cs rs ws,
  gzip_codec zl k -> hash_bytes sha1 -> lo_check o = KFalse -> lo_verify o = false -> lo_ensure o = false ->
  (forall w t m, In (w, t, m) old -> wf_record w /\ text_of w t /\ http_ready w /\ is_member zl m t) ->
  Forall2 (fun c r => exists M, readable fuel sha1 M false c r) cs rs ->
  write_all fuel sha1 k (mk_wopts (lit "WARC/1.0") None true) rs = (Ok tt, ws) ->
  (forall r ws r', In r rs -> write_plain fuel sha1 None r = (Ok tt, ws, r') -> enough fuel (List.concat ws)) ->
  exists new : list (wrc * bytes * bytes), Forall2 (fun r x => written fuel sha1 r (fst (fst x)) (snd (fst x)) /\ written_member fuel sha1 k r (snd x)) rs new /\
  forall sched block known, 0 < block -> known <> Some FArc -> old ++ new <> [] ->
  let it := @iter_new zl (raw_open (List.concat (map snd old) ++ List.concat ws) sched) block known in
  exists os, loop_ends he o read_all it os EndStop /\ List.length os = (List.length old + List.length rs)%nat
    /\ (forall i w t m ob, nth_error (old ++ new) i = Some (w, t, m) -> nth_error os i = Some ob ->
         found w (lenZ (List.concat (map snd (firstn i (old ++ new))))) (lenZ m) ob)
    /\ forall prog, plain_prog prog -> exists oc, loop_ends he o prog it oc EndStop /\ Forall2 agree os oc.
Proof. exact C33_append_gzip_pf. Qed.
Print Assumptions C33_append_gzip.

(** the created records of C27_readable appended to the two of C34_ex *)
Example C33_append_good : Forall2 (fun c r => exists M, readable 600 toy_hash M false c r) Thm_Round.ex_cs Thm_Round.ex_rs
  /\ fst (write_all 600 toy_hash toy_k (mk_wopts (lit "WARC/1.0") None false) Thm_Round.ex_rs) = Ok tt
  /\ enough 1200 (List.concat (snd (write_all 600 toy_hash toy_k (mk_wopts (lit "WARC/1.0") None false) Thm_Round.ex_rs))).
Proof.
  split; [|split; [vm_compute; reflexivity|apply Nat.leb_le; vm_compute; reflexivity]].
  pose proof Thm_Round.ex_created_pf as H. induction H; constructor; [now exists 200|assumption].
Qed.
Example C33_append_new :
  let data := List.concat (map snd fr_ws) ++ List.concat (snd (write_all 600 toy_hash toy_k (mk_wopts (lit "WARC/1.0") None false) Thm_Round.ex_rs)) in
  let (os, en) := run_iter (zl:=toy_z) 1200 toy_henv fr_o 6 read_all 0 (iter_new (raw_open data [3; 1; 2]) 7 None) in
  map (fun ob => rc_type (ob_record ob)) os = [Some (lit "response"); Some (lit "resource"); Some (lit "response"); Some (lit "resource")] /\ en = EndStop.
Proof. vm_compute. repeat split. Qed.
