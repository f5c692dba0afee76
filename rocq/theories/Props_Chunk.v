(** * Props_Chunk: ChunkedDataReader and content_stream (C11-C15, C66-C68) *)
From Coq Require Import String List ZArith NArith Bool Lia.
From Coq Require Import ZifyBool ZifyNat ZifyN.
From Verif Require Import PyBase Headers Streams Loader StreamSpec WriterSpec ChunkSpec Toy.
Import ListNotations.
Open Scope Z_scope.
From Verif Require Import Thm_Chunk.

(** C11: [R s c] says that the stream [s] still delivers [c] (reads may be
    short, but read(2) returns two bytes if they are left; exact short lines: a file, or a
    LimitReader).  [w] is a chunked body carrying [payload].  All calls return
    what they return on the payload; the bytes [after] the last chunk stay in the stream,
    whatever is read.  Holds with and without raise_exceptions. *)
Theorem C11_chunked :
  forall (zl : zenv) (S : Type) (ops : sops S) (R : S -> bytes -> Prop) fuel,
  paired ops R -> short_line ops R -> (forall s c, R s c -> enough fuel c) ->
  forall s w payload after block rexc calls,
  R s (w ++ after) -> chunked_body w payload -> enough fuel payload -> 0 < block ->
  nonneg_calls calls -> full_lines calls ->
  exists b, run_calls (br_ops ops fuel) calls (ckr_new (zl:=zl) s block None rexc)
            = (map Ok (fst (mem_calls calls payload)), b)
    /\ (exists y, R (br_stream b) (y ++ after))
    /\ exists b2, br_read ops fuel None b = (Ok (snd (mem_calls calls payload)), b2) /\ R (br_stream b2) after.
Proof. exact C11_chunked_pf. Qed.
Print Assumptions C11_chunked.



(** C11 for a file: after reading to the end the file is positioned at [after] *)
Theorem C11_chunked_file :
  forall (zl : zenv) fuel sched w payload after block rexc calls,
  no_single sched -> chunked_body w payload -> enough fuel (w ++ after) -> enough fuel payload -> 0 < block ->
  nonneg_calls calls -> full_lines calls ->
  exists b, run_calls (br_ops raw_ops fuel) calls (ckr_new (zl:=zl) (raw_open (w ++ after) sched) block None rexc)
            = (map Ok (fst (mem_calls calls payload)), b)
    /\ exists b2, br_read raw_ops fuel None b = (Ok (snd (mem_calls calls payload)), b2)
                  /\ fst (o_read raw_ops None (br_stream b2)) = Ok after.
Proof. exact C11_chunked_file_pf. Qed.
Print Assumptions C11_chunked_file.

Example C11_ex :
  let w := lit "3;ext=1" ++ [13;10]%N ++ lit "abc" ++ [13;10]%N ++ lit "A" ++ [13;10]%N ++ lit "0123456789" ++ [13;10]%N
           ++ lit "0" ++ [13;10]%N ++ [13;10]%N in
  chunked_body w (lit "abc0123456789")
  /\ fst (run_calls (br_ops raw_ops 60) [CRead (Some 5); CRead (Some 0); CLine None; CRead None]
            (ckr_new (zl:=toy_z) (raw_open (w ++ lit "tail") []) 4 None true))
     = [Ok (lit "abc01"); Ok []; Ok (lit "23456789"); Ok []].
Proof.
  split; [|vm_compute; reflexivity].
  exists (lit "3;ext=1" ++ [13;10]%N ++ lit "abc" ++ [13;10]%N ++ lit "A" ++ [13;10]%N ++ lit "0123456789" ++ [13;10]%N),
         (lit "0" ++ [13;10]%N).
  split; [reflexivity|]. split.
  - apply (chunks_cons (lit "3;ext=1" ++ [13;10]%N) (lit "abc") (lit "A" ++ [13;10]%N ++ lit "0123456789" ++ [13;10]%N) (lit "0123456789")).
    + exists (lit "3"), (lit ";ext=1"). repeat split; try reflexivity; try (cbn; lia).
      * apply (hn_one 51%N 3). reflexivity.
      * right. eexists. reflexivity.
    + discriminate.
    + cbn. lia.
    + apply (chunks_cons (lit "A" ++ [13;10]%N) (lit "0123456789") [] []).
      * exists (lit "A"), []. repeat split; try reflexivity; try (cbn; lia).
        -- apply (hn_one 65%N 10). reflexivity.
        -- now left.
      * discriminate.
      * cbn. lia.
      * constructor.
  - exists (lit "0"), []. repeat split; try reflexivity; try (cbn; lia).
    + apply (hn_one 48%N 0). reflexivity.
    + now left.
Qed.

(** C12, raise_exceptions=False: chunks carrying [p], then a chunk announced with [n] bytes
    of which only [d] are there: all calls return what they return on p ++ d *)
Theorem C12_cut_returns_prefix :
  forall (zl : zenv) fuel sched w p l n d block calls,
  no_single sched -> chunks w p -> size_line l n -> lenZ d < n -> n <= 2147483648 ->
  enough fuel (w ++ l ++ d) -> enough fuel (p ++ d) -> 0 < block ->
  nonneg_calls calls -> full_lines calls ->
  fst (run_calls (br_ops raw_ops fuel) calls (ckr_new (zl:=zl) (raw_open (w ++ l ++ d) sched) block None false))
  = map Ok (fst (mem_calls calls (p ++ d))).
Proof. exact C12_cut_returns_prefix_pf. Qed.
Print Assumptions C12_cut_returns_prefix.



(** C12, raise_exceptions=True: reads within [p] succeed, the first one beyond raises *)
Theorem C12_cut_raises :
  forall (zl : zenv) fuel sched w p l n d block ks len,
  no_single sched -> chunks w p -> size_line l n -> lenZ d < n -> n <= 2147483648 ->
  enough fuel (w ++ l ++ d) -> enough fuel p -> 0 < block ->
  Forall (fun k => 0 <= k) ks -> total ks <= lenZ p ->
  match len with Some k => lenZ p - total ks < k | None => True end ->
  exists b, run_calls (br_ops raw_ops fuel) (map (fun k => CRead (Some k)) ks)
              (ckr_new (zl:=zl) (raw_open (w ++ l ++ d) sched) block None true)
            = (map Ok (fst (mem_calls (map (fun k => CRead (Some k)) ks) p)), b)
    /\ exists x, fst (br_read raw_ops fuel len b) = Err (ChunkedExn x).
Proof. exact C12_cut_raises_pf. Qed.
Print Assumptions C12_cut_raises.

Example C12_ex :
  let w := lit "3" ++ [13;10]%N ++ lit "abc" ++ [13;10]%N in
  let cut := lit "5" ++ [13;10]%N ++ lit "de" in
  fst (run_calls (br_ops raw_ops 40) [CRead (Some 4); CRead None; CRead None]
         (ckr_new (zl:=toy_z) (raw_open (w ++ cut) []) 4 None false)) = [Ok (lit "abcd"); Ok (lit "e"); Ok []]
  /\ exists x, fst (run_calls (br_ops raw_ops 40) [CRead (Some 2); CRead (Some 4)]
         (ckr_new (zl:=toy_z) (raw_open (w ++ cut) []) 4 None true)) = [Ok (lit "ab"); Err (ChunkedExn x)].
Proof. split; [vm_compute; reflexivity|]. eexists. vm_compute. reflexivity. Qed.

(** C13: if the first line (of which 64 bytes are looked at) is not a chunk-size line, all
    calls return what they return on the data itself.  [valid_size_line]: ends in CRLF and
    Python's int(.., 16) accepts the text before ';', with a value of at most 2^31. *)
Theorem C13_not_chunked :
  forall (zl : zenv) fuel sched data block calls,
  no_single sched -> no_size_line data -> enough fuel data -> 0 < block -> nonneg_calls calls -> full_lines calls ->
  fst (run_calls (br_ops raw_ops fuel) calls (ckr_new (zl:=zl) (raw_open data sched) block None false))
  = map Ok (fst (mem_calls calls data)).
Proof. exact C13_not_chunked_pf. Qed.
Print Assumptions C13_not_chunked.

Example C13_ex :
  no_size_line (lit "abc" ++ [10]%N ++ lit "12" ++ [13;10]%N)
  /\ fst (run_calls (br_ops raw_ops 40) [CRead (Some 4); CLine None; CRead None]
         (ckr_new (zl:=toy_z) (raw_open (lit "abc" ++ [10]%N ++ lit "12" ++ [13;10]%N) []) 4 None false))
     = [Ok (lit "abc" ++ [10]%N); Ok (lit "12" ++ [13;10]%N); Ok []].
Proof.
  split; [|vm_compute; reflexivity]. intros n (body & s & E & _).
  change (head_line (lit "abc" ++ [10]%N ++ lit "12" ++ [13;10]%N)) with ((lit "ab" ++ [99]%N) ++ [10]%N) in E.
  change (body ++ [13;10]%N) with (body ++ [13]%N ++ [10]%N) in E. rewrite app_assoc in E.
  apply app_inj_tail in E as [E _]. apply app_inj_tail in E as [_ E]. discriminate.
Qed.

(** C13: with raise_exceptions=True the same data make every read raise *)
Theorem C13_nothing_before :
  forall (zl : zenv) fuel sched data block len,
  no_single sched -> no_size_line data -> enough fuel data -> (3 <= fuel)%nat -> 0 < block ->
  match len with Some k => 0 < k | None => True end ->
  exists x, fst (br_read raw_ops fuel len (ckr_new (zl:=zl) (raw_open data sched) block None true)) = Err (ChunkedExn x).
Proof. exact C13_nothing_before_pf. Qed.
Print Assumptions C13_nothing_before.



(** C14 is false: when the CRLF after the data of a chunk is missing, its size line is put
    out as if it were data and the two bytes read in place of the CRLF are lost (finding) *)
Theorem C14_fallback_refuted :
  exists w p l d t fuel, chunks w p /\ size_line l (lenZ d) /\ takeZ 2 t <> [13; 10]%N
  /\ enough fuel (w ++ l ++ d ++ t)
  /\ fst (br_read raw_ops fuel None (ckr_new (zl:=toy_z) (raw_open (w ++ l ++ d ++ t) []) 16384 None false))
     <> Ok (p ++ l ++ d ++ t).
Proof. exact C14_fallback_refuted_pf. Qed.
Print Assumptions C14_fallback_refuted.



(** C14, what holds: if the framing breaks at a size line, nothing is lost.  Missing: a
    break after the data of a chunk (next theorem). *)
Theorem C14_fallback_partial :
  forall (zl : zenv) fuel sched w p t block calls,
  no_single sched -> chunks w p -> no_size_line t -> enough fuel (w ++ t) -> enough fuel (p ++ t) -> 0 < block ->
  nonneg_calls calls -> full_lines calls ->
  fst (run_calls (br_ops raw_ops fuel) calls (ckr_new (zl:=zl) (raw_open (w ++ t) sched) block None false))
  = map Ok (fst (mem_calls calls (p ++ t))).
Proof. exact C14_fallback_partial_pf. Qed.
Print Assumptions C14_fallback_partial.



(** C14: exactly what is returned when the CRLF after chunk data is missing: the decoded
    chunks, the size line, the data, and the rest without its first two bytes *)
Theorem C14_broken_terminator_partial :
  forall (zl : zenv) fuel sched w p l d t block calls,
  no_single sched -> chunks w p -> size_line l (lenZ d) -> lenZ d <= 2147483648 -> takeZ 2 t <> [13; 10]%N ->
  enough fuel (w ++ l ++ d ++ t) -> enough fuel (p ++ l ++ d ++ dropZ 2 t) -> 0 < block ->
  nonneg_calls calls -> full_lines calls ->
  fst (run_calls (br_ops raw_ops fuel) calls (ckr_new (zl:=zl) (raw_open (w ++ l ++ d ++ t) sched) block None false))
  = map Ok (fst (mem_calls calls (p ++ l ++ d ++ dropZ 2 t))).
Proof. exact C14_broken_terminator_partial_pf. Qed.
Print Assumptions C14_broken_terminator_partial.

Example C14_ex :
  fst (br_read raw_ops 60 None (ckr_new (zl:=toy_z)
    (raw_open (lit "2" ++ [13;10]%N ++ lit "ab" ++ [13;10]%N ++ lit "garbage" ++ [10]%N) []) 16384 None false))
  = Ok (lit "abgarbage" ++ [10]%N).
Proof. vm_compute. reflexivity. Qed.

(** C15: a record's stream is a LimitReader over the [lenZ w] bytes of the body [w], which
    carries the gzip data [z] in chunks; reading content_stream() gives the payload, for
    every program of calls.  "chunked" is compared with its case, "gzip" without. *)
Theorem C15_content_stream :
  forall (zl : zenv) (S : Type) (ops : sops S) (R : S -> bytes -> Prop) fuel,
  paired ops R -> short_line ops R -> (forall s c, R s c -> enough fuel c) ->
  forall s w after z payload h calls,
  R s (w ++ after) -> chunked_body w z -> is_member zl z payload ->
  declares h "transfer-encoding" "chunked" -> declares_ci h "content-encoding" "gzip" ->
  enough fuel payload -> nonneg_calls calls -> full_lines calls ->
  fst (run_calls (cs_ops ops fuel) calls (content_stream (zl:=zl) (Some h) (RSlim (lim_new s (lenZ w)))))
  = map Ok (fst (mem_calls calls payload)).
Proof. exact C15_content_stream_pf. Qed.
Print Assumptions C15_content_stream.



(** the same without compression (no Content-Encoding) *)
Theorem C15_chunked_only :
  forall (zl : zenv) (S : Type) (ops : sops S) (R : S -> bytes -> Prop) fuel,
  paired ops R -> short_line ops R -> (forall s c, R s c -> enough fuel c) ->
  forall s w after payload h calls,
  R s (w ++ after) -> chunked_body w payload ->
  declares h "transfer-encoding" "chunked" -> value_of (lit "content-encoding") (sh_headers h) = None ->
  enough fuel payload -> nonneg_calls calls -> full_lines calls ->
  fst (run_calls (cs_ops ops fuel) calls (content_stream (zl:=zl) (Some h) (RSlim (lim_new s (lenZ w)))))
  = map Ok (fst (mem_calls calls payload)).
Proof. exact C15_chunked_only_pf. Qed.
Print Assumptions C15_chunked_only.



(** the same without chunking: Content-Encoding gzip or deflate (with the zlib header) *)
Theorem C15_encoded_only :
  forall (zl : zenv) (S : Type) (ops : sops S) (R : S -> bytes -> Prop) fuel,
  delivers ops R -> (forall s c, R s c -> enough fuel c) ->
  forall s z after t payload h calls,
  R s (z ++ after) -> (exists u, zfeed zl (zinit zl t) z = Some (payload, DDone u)) ->
  (t = Gzip /\ declares_ci h "content-encoding" "gzip" \/ t = Deflate /\ declares_ci h "content-encoding" "deflate") ->
  value_of (lit "transfer-encoding") (sh_headers h) = None ->
  enough fuel payload -> nonneg_calls calls -> full_lines calls ->
  fst (run_calls (cs_ops ops fuel) calls (content_stream (zl:=zl) (Some h) (RSlim (lim_new s (lenZ z)))))
  = map Ok (fst (mem_calls calls payload)).
Proof. exact C15_encoded_only_pf. Qed.
Print Assumptions C15_encoded_only.



(** C15 for a record in a file read through a BufferedReader (as in archive iteration), with
    full reads and a block size of at least 64 *)
Theorem C15_file :
  forall (zl : zenv) fuel w after z payload h block calls,
  chunked_body w z -> is_member zl z payload ->
  declares h "transfer-encoding" "chunked" -> declares_ci h "content-encoding" "gzip" ->
  enough fuel (w ++ after) -> enough fuel payload -> 64 <= block -> nonneg_calls calls -> full_lines calls ->
  fst (run_calls (cs_ops (br_ops raw_ops fuel) fuel) calls
         (content_stream (zl:=zl) (Some h)
            (RSlim (lim_new (br_new (zl:=zl) (raw_open (w ++ after) []) block None None false) (lenZ w)))))
  = map Ok (fst (mem_calls calls payload)).
Proof. exact C15_file_pf. Qed.
Print Assumptions C15_file.

Example C15_ex :
  let h := mk_sah (lit "200 OK") [(lit "Transfer-Encoding", lit "chunked"); (lit "Content-Encoding", lit "GZip")] (lit "HTTP/1.1") 0 None in
  let z := toy_gz (lit "hi") in
  let w := lit "4" ++ [13;10]%N ++ takeZ 4 z ++ [13;10]%N ++ lit "3" ++ [13;10]%N ++ dropZ 4 z ++ [13;10]%N
           ++ lit "0" ++ [13;10;13;10]%N in
  declares h "transfer-encoding" "chunked" /\ declares_ci h "content-encoding" "gzip"
  /\ is_member toy_z z (lit "hi")
  /\ fst (run_calls (cs_ops (br_ops raw_ops 80) 80) [CRead (Some 1); CRead None; CRead None]
         (content_stream (zl:=toy_z) (Some h)
            (RSlim (lim_new (br_new (zl:=toy_z) (raw_open (w ++ lit "tail") []) 100 None None false) (lenZ w)))))
     = [Ok (lit "h"); Ok (lit "i"); Ok []].
Proof.
  split; [reflexivity|]. split; [eexists; split; reflexivity|]. split; vm_compute; reflexivity.
Qed.

(** C66 is false: cut inside the CRLF that ends a chunk, the size line leaks into the output (finding) *)
Theorem C66_cut_anywhere_refuted :
  exists w payload cut rest fuel, chunked_body w payload /\ w = cut ++ rest /\ enough fuel cut
  /\ exists out, fst (br_read raw_ops fuel None (ckr_new (zl:=toy_z) (raw_open cut []) 16384 None false)) = Ok out
     /\ ~ exists more, payload = out ++ more.
Proof. exact C66_cut_anywhere_refuted_pf. Qed.
Print Assumptions C66_cut_anywhere_refuted.



(** C66, for every chunked body and every cut: exactly what is put out ([cut_shows]).  Missing
    from C66: where it is not a prefix of the payload. *)
Theorem C66_cut_partial :
  forall (zl : zenv) fuel sched w payload cut rest block,
  no_single sched -> chunked_body w payload -> w = cut ++ rest -> enough fuel cut -> 0 < block ->
  exists good out more, payload = good ++ more /\ cut_shows cut good out
    /\ forall calls, nonneg_calls calls -> full_lines calls ->
       fst (run_calls (br_ops raw_ops fuel) calls (ckr_new (zl:=zl) (raw_open cut sched) block None false))
       = map Ok (fst (mem_calls calls out)).
Proof. exact C66_cut_partial_pf. Qed.
Print Assumptions C66_cut_partial.

(** the four places: in the size line, in the data, in the CRLF, nowhere *)
Example C66_cut_ex :
  let out k := fst (br_read raw_ops 60 None (ckr_new (zl:=toy_z)
    (raw_open (takeZ k (lit "3" ++ [13;10]%N ++ lit "abc" ++ [13;10]%N ++ lit "0" ++ [13;10]%N ++ [13;10]%N)) []) 16384 None false)) in
  map out [1; 2; 3; 5; 6; 7; 8; 9; 10; 11; 12; 13]
  = map Ok [lit "3"; lit "3" ++ [13]%N; []; lit "ab"; lit "3" ++ [13;10]%N ++ lit "abc"; lit "3" ++ [13;10]%N ++ lit "abc";
            lit "abc"; lit "abc0"; lit "abc0" ++ [13]%N; lit "abc0" ++ [13;10]%N; lit "abc0" ++ [13;10]%N; lit "abc"].
Proof. vm_compute. reflexivity. Qed.

(** C67 is false: after "0 CRLF" anything but an empty line makes the reader put out "0 CRLF"
    and the trailer without its first two bytes (finding) *)
Theorem C67_trailers_refuted :
  exists w payload l trailer fuel, chunks w payload /\ size_line l 0 /\ is_nil trailer = false
  /\ enough fuel (w ++ l ++ trailer ++ [13; 10; 13; 10]%N)
  /\ fst (br_read raw_ops fuel None (ckr_new (zl:=toy_z) (raw_open (w ++ l ++ trailer ++ [13; 10; 13; 10]%N) []) 16384 None false))
     <> Ok payload.
Proof. exact C67_trailers_refuted_pf. Qed.
Print Assumptions C67_trailers_refuted.



(** C67, exactly what is returned instead, for every trailer *)
Theorem C67_trailers_partial :
  forall (zl : zenv) fuel sched w payload l trailer block calls,
  no_single sched -> chunks w payload -> size_line l 0 -> takeZ 2 trailer <> [13; 10]%N ->
  enough fuel (w ++ l ++ trailer) -> enough fuel (payload ++ l ++ dropZ 2 trailer) -> 0 < block ->
  nonneg_calls calls -> full_lines calls ->
  fst (run_calls (br_ops raw_ops fuel) calls (ckr_new (zl:=zl) (raw_open (w ++ l ++ trailer) sched) block None false))
  = map Ok (fst (mem_calls calls (payload ++ l ++ dropZ 2 trailer))).
Proof. exact C67_trailers_partial_pf. Qed.
Print Assumptions C67_trailers_partial.



(** C68, what holds: reads may be as short as they like, as long as read(2) is not answered
    with one byte when two are left.  Here for a LimitReader over a file (a record of [w]
    in a larger file): every call returns what it returns on the payload. *)
Theorem C68_short_reads_partial :
  forall (zl : zenv) fuel sched w payload after block rexc calls,
  no_single sched -> chunked_body w payload -> enough fuel (w ++ after) -> enough fuel payload -> 0 < block ->
  nonneg_calls calls -> full_lines calls ->
  fst (run_calls (br_ops (lim_ops raw_ops) fuel) calls (ckr_new (zl:=zl) (lim_new (raw_open (w ++ after) sched) (lenZ w)) block None rexc))
  = map Ok (fst (mem_calls calls payload)).
Proof. exact C68_short_reads_partial_pf. Qed.
Print Assumptions C68_short_reads_partial.

Example C68_ex : no_single [2; 3; 2; 2; 5]
  /\ fst (run_calls (br_ops (lim_ops raw_ops) 60) [CRead (Some 2); CRead None]
       (ckr_new (zl:=toy_z) (lim_new (raw_open (lit "5" ++ [13;10]%N ++ lit "abcde" ++ [13;10]%N ++ lit "0" ++ [13;10;13;10]%N ++ lit "rest") [2; 3; 2; 2; 5]) 15) 16 None true))
     = [Ok (lit "ab"); Ok (lit "cde")].
Proof. split; [repeat (constructor; try lia)|vm_compute; reflexivity]. Qed.

(** C68 is false: over a stream that returns short reads, the two bytes after a chunk may
    come one at a time, and a correct chunked body is taken for plain data (finding) *)
Theorem C68_short_reads_refuted :
  exists w payload sched fuel, chunked_body w payload /\ enough fuel w
  /\ fst (br_read raw_ops fuel None (ckr_new (zl:=toy_z) (raw_open w sched) 16384 None false)) <> Ok payload.
Proof. exact C68_short_reads_refuted_pf. Qed.
Print Assumptions C68_short_reads_refuted.


