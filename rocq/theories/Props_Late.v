(** * Props_Late: deflate data that is found wrong only after the first block (C09) *)
From Coq Require Import String List ZArith NArith Bool Lia.
From Coq Require Import ZifyBool ZifyNat ZifyN.
From Verif Require Import PyBase Utf8 Codecs Streams StreamSpec Toy.
Import ListNotations.
Open Scope Z_scope.
From Verif Require Import Thm_Late.

(** C09 needs its first block to decide the format.  If the first block [p] is refused as zlib
    data but accepted as raw deflate data without yielding anything, and the next block [q] is
    then refused, the reader returns [q] and what follows as they are, and [p] is lost: what
    is read is never the data, whatever [q] would be by itself. *)
Theorem C09_late_refuted :
  forall (zl : zenv) fuel p q rest block sched s,
  zfeed zl (zinit zl Deflate) p = None -> zfeed zl (zinit zl DeflateAlt) p = Some ([], DActive s) -> zfeed zl s q = None ->
  0 < lenZ p <= block -> 0 < lenZ q <= block -> (2 * List.length (p ++ q ++ rest) + 3 < fuel)%nat ->
  let data := p ++ q ++ rest in
  fst (br_read raw_ops fuel None (br_new (zl:=zl) (raw_open data (lenZ p :: lenZ q :: sched)) block (Some Deflate) None false)) = Ok (q ++ rest)
  /\ q ++ rest <> data.
Proof. exact C09_late_refuted_pf. Qed.
Print Assumptions C09_late_refuted.

(** the codec of the Examples: 1, then 0 in place of data would be accepted; 1 | 97 2 is not *)
Example C09_late_case :
  zfeed toy_z (zinit toy_z Deflate) [1%N] = None
  /\ zfeed toy_z (zinit toy_z DeflateAlt) [1%N] = Some ([], DActive TD)
  /\ zfeed toy_z TD [97; 2]%N = None
  /\ fst (br_read raw_ops 30 None (br_new (zl:=toy_z) (raw_open [1; 97; 2; 5]%N [1; 2]) 4 (Some Deflate) None false)) = Ok [97; 2; 5]%N.
Proof. vm_compute. repeat split. Qed.
