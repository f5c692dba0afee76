(** * Props_All: read_all_members=True (C10) *)
From Coq Require Import String List ZArith NArith Bool Lia.
From Coq Require Import ZifyBool ZifyNat ZifyN.
From Verif Require Import PyBase Streams StreamSpec AllSpec Toy.
Import ListNotations.
Open Scope Z_scope.
From Verif Require Import Thm_All.

(** C10 is false even when no member is empty: if a member ends exactly where a block of
    input ends, and a read has just returned its last byte, the next read returns b''
    although members follow (finding).  Here two 9-byte members and a block size of 9. *)
Theorem C10_read_all_refuted :
  exists ms content block fuel, members toy_z true ms content /\ 0 < block /\ enough fuel ms
  /\ fst (run_calls (br_ops raw_ops fuel) [CRead (Some 3); CRead (Some 3)] (dbr_new (zl:=toy_z) (raw_open ms []) block None true))
     = [Ok (lit "abc"); Ok []] /\ content = lit "abcxyz".
Proof. exact C10_read_all_refuted_pf. Qed.
Print Assumptions C10_read_all_refuted.



(** C10 is false when a member is empty, whatever the block size: read() stops there.  With
    an empty first member the first read returns b'' (finding) *)
Theorem C10_read_all_empty_refuted :
  exists ms content fuel, members toy_z false ms content /\ enough fuel ms
  /\ fst (br_read raw_ops fuel None (dbr_new (zl:=toy_z) (raw_open ms []) 16384 None true)) = Ok []
  /\ content = lit "xyz".
Proof. exact C10_read_all_empty_refuted_pf. Qed.
Print Assumptions C10_read_all_empty_refuted.



(** C10 holds if no member is empty and all data fit into the first block *)
Theorem C10_read_all_partial :
  forall (zl : zenv) fuel ms content block ks,
  members zl true ms content -> enough fuel ms -> enough fuel content -> 0 < block -> lenZ ms <= block ->
  Forall nonneg ks ->
  fst (run_calls (br_ops raw_ops fuel) (map CRead ks) (dbr_new (zl:=zl) (raw_open ms []) block None true))
  = map Ok (fst (mem_calls (map CRead ks) content)).
Proof. exact C10_read_all_partial_pf. Qed.
Print Assumptions C10_read_all_partial.



(** C10, what always holds (any members, any short reads): every read succeeds and the
    results are a beginning of the concatenation *)
Theorem C10_read_all_prefix_partial :
  forall (zl : zenv) fuel ms content block sched ks,
  members zl false ms content -> enough fuel ms -> enough fuel content -> 0 < block -> Forall nonneg ks ->
  exists outs rest,
    fst (run_calls (br_ops raw_ops fuel) (map CRead ks) (dbr_new (zl:=zl) (raw_open ms sched) block None true)) = map Ok outs
    /\ content = concat outs ++ rest.
Proof. exact C10_read_all_prefix_partial_pf. Qed.
Print Assumptions C10_read_all_prefix_partial.



(** C10: nothing is lost for a caller who goes on reading after b'' *)
Theorem C10_nothing_lost_partial :
  forall (zl : zenv) fuel ms content block sched k,
  members zl false ms content -> enough fuel ms -> enough fuel content -> 0 < block ->
  (2 * List.length ms + 2 <= k)%nat ->
  reads_n raw_ops fuel k (dbr_new (zl:=zl) (raw_open ms sched) block None true) = Ok content.
Proof. exact C10_nothing_lost_partial_pf. Qed.
Print Assumptions C10_nothing_lost_partial.

Example C10_ex :
  members toy_z true (toy_gz (lit "abc") ++ toy_gz (lit "xyz") ++ []) (lit "abc" ++ lit "xyz" ++ [])
  /\ fst (run_calls (br_ops raw_ops 60) (map CRead [Some 2; Some 2; None]) (dbr_new (zl:=toy_z)
       (raw_open (toy_gz (lit "abc") ++ toy_gz (lit "xyz")) []) 16384 None true))
     = [Ok (lit "ab"); Ok (lit "cx"); Ok (lit "yz")]
  /\ reads_n raw_ops 60 6 (dbr_new (zl:=toy_z) (raw_open (toy_gz (lit "abc") ++ toy_gz [] ++ toy_gz (lit "xyz")) [2;7;1]) 9 None true)
     = Ok (lit "abcxyz").
Proof. split; [repeat constructor; discriminate|]. split; vm_compute; reflexivity. Qed.
