(** * Props_Buffered: BufferedReader and DecompressingBufferedReader (C05-C09) *)
From Coq Require Import String List ZArith NArith Bool Lia.
From Coq Require Import ZifyBool ZifyNat ZifyN.
From Verif Require Import PyBase Streams StreamSpec Toy.
Import ListNotations.
Open Scope Z_scope.
From Verif Require Import Thm_Buffered.

(** C05, any wrapped stream (see C01 for [R], [delivers]) *)
Theorem C05_buffered_transparent :
  forall (zl : zenv) (S : Type) (ops : sops S) (R : S -> bytes -> Prop) fuel,
  delivers ops R -> (forall s c, R s c -> enough fuel c) ->
  forall s data block calls, R s data -> 0 < block -> nonneg_calls calls -> full_lines calls ->
  fst (run_calls (br_ops ops fuel) calls (br_new (zl:=zl) s block None None false))
  = map Ok (fst (mem_calls calls data)).
Proof. exact C05_buffered_transparent_pf. Qed.
Print Assumptions C05_buffered_transparent.



(** C05 for a file with content [data] and short reads [sched] *)
Theorem C05_buffered_file :
  forall (zl : zenv) fuel data sched block calls,
  enough fuel data -> 0 < block -> nonneg_calls calls -> full_lines calls ->
  fst (run_calls (br_ops raw_ops fuel) calls (br_new (zl:=zl) (raw_open data sched) block None None false))
  = map Ok (fst (mem_calls calls data)).
Proof. exact C05_buffered_file_pf. Qed.
Print Assumptions C05_buffered_file.

Example C05_ex :
  fst (run_calls (br_ops raw_ops 20) [CRead (Some 3); CLine None; CRead (Some 0); CRead None]
         (br_new (zl:=toy_z) (raw_open (lit "abcd" ++ [LF] ++ lit "efghij") [2; 1; 3; 1]) 4 None None false))
  = [Ok (lit "abc"); Ok (lit "d" ++ [LF]); Ok []; Ok (lit "efghij")].
Proof. vm_compute. reflexivity. Qed.

(** C06 is false: bufferedreaders.py:195 subtracts the length of the whole line read so
    far in every round, so a line spanning three buffers is cut short (finding).
    Here readline(12) on "abcdefghijkl" with 4-byte blocks gives 8 bytes. *)
Theorem C06_readline_limit_refuted :
  exists data block n fuel, 0 < block /\ 0 <= n /\ enough fuel data
  /\ fst (br_readline raw_ops fuel (Some n) (br_new (zl:=toy_z) (raw_open data []) block None None false))
     <> Ok (line_of (Some n) data).
Proof. exact C06_readline_limit_refuted_pf. Qed.
Print Assumptions C06_readline_limit_refuted.



(** C06, what always holds: a beginning of the current line, at most n bytes, not empty
    unless the content is exhausted; nothing is lost *)
Theorem C06_readline_limit_prefix_partial :
  forall (zl : zenv) fuel data sched block calls n b,
  enough fuel data -> 0 < block -> nonneg_calls calls -> full_lines calls -> 0 < n ->
  snd (run_calls (br_ops raw_ops fuel) calls (br_new (zl:=zl) (raw_open data sched) block None None false)) = b ->
  let rest := snd (mem_calls calls data) in
  exists out more b', br_readline raw_ops fuel (Some n) b = (Ok out, b')
    /\ line_of (Some n) rest = out ++ more
    /\ (out = [] -> rest = [])
    /\ br_read raw_ops fuel None b' = (Ok (dropZ (lenZ out) rest), snd (br_read raw_ops fuel None b')).
Proof. exact C06_readline_limit_prefix_partial_pf. Qed.
Print Assumptions C06_readline_limit_prefix_partial.



(** C06 holds when reads are full and no line is longer than the block size *)
Theorem C06_readline_limit_partial :
  forall (zl : zenv) fuel data block calls,
  enough fuel data -> 0 < block -> nonneg_calls calls ->
  (forall p q, data = p ++ q -> lenZ (take_line q) <= block) ->
  fst (run_calls (br_ops raw_ops fuel) calls (br_new (zl:=zl) (raw_open data []) block None None false))
  = map Ok (fst (mem_calls calls data)).
Proof. exact C06_readline_limit_partial_pf. Qed.
Print Assumptions C06_readline_limit_partial.

Example C06_ex :
  fst (run_calls (br_ops raw_ops 20) [CLine (Some 3); CLine (Some 7); CLine (Some 2); CRead None]
         (br_new (zl:=toy_z) (raw_open (lit "abcd" ++ [LF] ++ lit "efgh") []) 5 None None false))
  = [Ok (lit "abc"); Ok (lit "d" ++ [LF]); Ok (lit "ef"); Ok (lit "gh")].
Proof. vm_compute. reflexivity. Qed.

(** C07: any calls on a member return the calls' results on its content; the bytes
    following the member are never mixed in; once a read has returned b'',
    read_next_member() is True iff bytes follow. *)
Theorem C07_gzip_member :
  forall (zl : zenv) fuel m out after sched block calls,
  is_member zl m out -> enough fuel (m ++ after) -> enough fuel out -> 0 < block ->
  nonneg_calls calls -> full_lines calls ->
  exists b, run_calls (br_ops raw_ops fuel) calls (dbr_new (zl:=zl) (raw_open (m ++ after) sched) block None false)
            = (map Ok (fst (mem_calls calls out)), b)
    /\ (snd (mem_calls calls out) = [] -> exists b1, br_read raw_ops fuel (Some 1) b = (Ok [], b1)
          /\ fst (read_next_member b1) = negb (is_nil after)).
Proof. exact C07_gzip_member_pf. Qed.
Print Assumptions C07_gzip_member.

Example C07_ex : is_member toy_z (toy_gz (lit "hello")) (lit "hello")
  /\ fst (run_calls (br_ops raw_ops 40) [CRead (Some 3); CRead None; CRead None]
            (dbr_new (zl:=toy_z) (raw_open (toy_gz (lit "hello") ++ toy_gz (lit "x")) [1; 1; 2]) 4 None false))
     = [Ok (lit "hel"); Ok (lit "lo"); Ok []].
Proof. split; vm_compute; reflexivity. Qed.

(** C07: walking over all members with read() and read_next_member() yields each member's
    content, in order, and stops after the last *)
Theorem C07_all_members :
  forall (zl : zenv) fuel ms sched block n,
  ms <> [] -> Forall (fun m => is_member zl (fst m) (snd m) /\ enough fuel (snd m)) ms ->
  enough fuel (concat (map fst ms)) -> 0 < block -> (List.length ms <= n)%nat ->
  member_contents raw_ops fuel n (dbr_new (zl:=zl) (raw_open (concat (map fst ms)) sched) block None false)
  = map (fun m => Ok (snd m)) ms.
Proof. exact C07_all_members_pf. Qed.
Print Assumptions C07_all_members.

Example C07_all_ex :
  member_contents raw_ops 60 5 (dbr_new (zl:=toy_z) (raw_open (toy_gz (lit "hello") ++ toy_gz [] ++ toy_gz (lit "x")) [1; 1; 2]) 4 None false)
  = [Ok (lit "hello"); Ok []; Ok (lit "x")].
Proof. vm_compute. reflexivity. Qed.

(** C08 holds if the first read of the wrapped stream returns at least two bytes *)
Theorem C08_passthrough_partial :
  forall (zl : zenv) fuel a b t sched block calls,
  gz_magic zl -> (a, b) <> (31%N, 139%N) ->
  let data := a :: b :: t in
  enough fuel data -> 2 <= block -> (match sched with [] => True | k :: _ => 2 <= k end) ->
  nonneg_calls calls -> full_lines calls ->
  fst (run_calls (br_ops raw_ops fuel) calls (dbr_new (zl:=zl) (raw_open data sched) block None false))
  = map Ok (fst (mem_calls calls data)).
Proof. exact C08_passthrough_partial_pf. Qed.
Print Assumptions C08_passthrough_partial.



Example toy_gz_magic : gz_magic toy_z. Proof. exact toy_gz_magic_pf. Qed.
Example C08_ex : fst (run_calls (br_ops raw_ops 40) [CRead (Some 1); CLine None; CRead None]
     (dbr_new (zl:=toy_z) (raw_open (lit "WARC/1.0" ++ [LF] ++ lit "x") [2; 1; 1]) 3 None false))
  = [Ok (lit "W"); Ok (lit "ARC/1.0" ++ [LF]); Ok (lit "x")].
Proof. vm_compute. reflexivity. Qed.

(** C08 is false in general, for every codec that behaves like zlib: if the first read
    returns one byte (block size 1, a short read, or a one-byte file) that byte is lost
    (finding): decompress() succeeds with no output and the byte is kept inside the
    decompressor, which is dropped at the second byte. *)
Theorem C08_passthrough_refuted :
  forall (zl : zenv), gz_magic zl ->
  exists data sched block fuel, 0 < block /\ enough fuel data /\
   (exists a b t, data = a :: b :: t /\ (a, b) <> (31%N, 139%N)) /\
   fst (br_read raw_ops fuel None (dbr_new (zl:=zl) (raw_open data sched) block None false)) <> Ok data.
Proof. exact C08_passthrough_refuted_pf. Qed.
Print Assumptions C08_passthrough_refuted.



(** C09: decomp_type 'deflate'.  zlib-wrapped data; raw deflate data (which inflate with a
    zlib header rejects within its first bytes [p]); data that is neither. *)
Theorem C09_deflate :
  forall (zl : zenv) fuel data sched block calls,
  enough fuel data -> 0 < block -> nonneg_calls calls -> full_lines calls ->
  let run := fst (run_calls (br_ops raw_ops fuel) calls
                    (br_new (zl:=zl) (raw_open data sched) block (Some Deflate) None false)) in
  let first_read := fst (o_read raw_ops (Some block) (raw_open data sched)) in
  (forall out fin, zfeed zl (zinit zl Deflate) data = Some (out, fin) -> enough fuel out ->
     run = map Ok (fst (mem_calls calls out)))
  /\ (forall p q out fin, data = p ++ q -> zfeed zl (zinit zl Deflate) p = None ->
        (forall d, first_read = Ok d -> lenZ p <= lenZ d) ->
        zfeed zl (zinit zl DeflateAlt) data = Some (out, fin) -> enough fuel out ->
        run = map Ok (fst (mem_calls calls out)))
  /\ (forall p q, data = p ++ q -> zfeed zl (zinit zl Deflate) p = None -> zfeed zl (zinit zl DeflateAlt) p = None ->
        (forall d, first_read = Ok d -> lenZ p <= lenZ d) ->
        run = map Ok (fst (mem_calls calls data))).
Proof. exact C09_deflate_pf. Qed.
Print Assumptions C09_deflate.

Example C09_ex :
  let run d := fst (br_read raw_ops 40 None (br_new (zl:=toy_z) (raw_open d [2; 1]) 16 (Some Deflate) None false)) in
  run (120 :: toy_body (lit "abc") ++ [0])%N = Ok (lit "abc")
  /\ run (toy_body (lit "abc") ++ [0])%N = Ok (lit "abc")
  /\ run (lit "abc") = Ok (lit "abc")
  /\ zfeed toy_z (zinit toy_z Deflate) [1%N; 97%N] = None.
Proof. vm_compute. repeat split. Qed.
