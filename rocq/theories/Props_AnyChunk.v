(** * Props_AnyChunk: ChunkedDataReader on any input (C99) *)
From Coq Require Import String List ZArith NArith Bool Lia.
From Coq Require Import ZifyBool ZifyNat ZifyN.
From Verif Require Import PyBase Headers Streams Loader StreamSpec WriterSpec ChunkSpec Toy.
Import ListNotations.
Open Scope Z_scope.
From Verif Require Import Thm_AnyChunk.

(** C99: [data] is any byte string.  There is exactly one [out] with [decodes data out], and all
    calls on the reader return what they return on [out]. *)
Theorem C99_any_input :
  forall (zl : zenv) fuel sched data block,
  no_single sched -> enough fuel data -> 0 < block ->
  exists out, decodes data out /\ (forall out', decodes data out' -> out' = out)
    /\ forall calls, nonneg_calls calls -> full_lines calls ->
       fst (run_calls (br_ops raw_ops fuel) calls (ckr_new (zl:=zl) (raw_open data sched) block None false))
       = map Ok (fst (mem_calls calls out)).
Proof. exact C99_any_input_pf. Qed.
Print Assumptions C99_any_input.

(** a size with a sign, one with 0x, a negative one, a break: two bytes and the framing are lost *)
Example C99_ex : fst (br_read raw_ops 80 None (ckr_new (zl:=toy_z)
    (raw_open (lit "+3" ++ crlf ++ lit "abc" ++ crlf ++ lit "0x2;x" ++ crlf ++ lit "de" ++ crlf
               ++ lit "-7" ++ crlf ++ crlf ++ lit "1" ++ crlf ++ lit "fghij") []) 16384 None false))
  = Ok (lit "abcde" ++ lit "1" ++ crlf ++ lit "f" ++ lit "ij").
Proof. vm_compute. reflexivity. Qed.

(** C99, raise_exceptions=True: read() of any byte string returns the payload of a properly
    ended chunked body, or raises ChunkedDataException if there is none *)
Theorem C99_raise :
  forall (zl : zenv) fuel sched data block,
  no_single sched -> enough fuel data -> (3 <= fuel)%nat -> 0 < block ->
  (exists out after, proper data out after
     /\ fst (br_read raw_ops fuel None (ckr_new (zl:=zl) (raw_open data sched) block None true)) = Ok out)
  \/ ((forall out after, ~ proper data out after)
      /\ exists x, fst (br_read raw_ops fuel None (ckr_new (zl:=zl) (raw_open data sched) block None true)) = Err (ChunkedExn x)).
Proof. exact C99_raise_pf. Qed.
Print Assumptions C99_raise.

(** a body with a chunk is returned, one without its end raises *)
Example C99_raise_ex :
  let rd x := fst (br_read raw_ops 60 None (ckr_new (zl:=toy_z) (raw_open x []) 16384 None true)) in
  rd (lit "3" ++ crlf ++ lit "abc" ++ crlf ++ lit "0" ++ crlf ++ crlf ++ lit "more") = Ok (lit "abc")
  /\ exists x, rd (lit "3" ++ crlf ++ lit "abc" ++ crlf) = Err (ChunkedExn x).
Proof. split; [vm_compute; reflexivity|]. eexists. vm_compute. reflexivity. Qed.

(** C99, false part: sizes that RFC 7230 does not allow are taken for chunk sizes: in data that is
    not chunked, "-1 CRLF CRLF" vanishes (finding) *)
Theorem C99_rfc_sizes_refuted :
  exists data out fuel, (forall w p rest, chunked_body w p -> data <> w ++ rest) /\ enough fuel data
  /\ fst (br_read raw_ops fuel None (ckr_new (zl:=toy_z) (raw_open data []) 16384 None false)) = Ok out /\ out <> data.
Proof. exact C99_rfc_sizes_refuted_pf. Qed.
Print Assumptions C99_rfc_sizes_refuted.


