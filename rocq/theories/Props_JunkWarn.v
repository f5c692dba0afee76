(** * Props_JunkWarn: what is skipped between two records, and the warning (C109) *)
From Coq Require Import String List ZArith NArith Bool Lia.
From Verif Require Import PyBase Headers Streams Loader Iterator StreamSpec WriterSpec IterSpec Toy.
Import ListNotations.
Open Scope Z_scope.
From Verif Require Import Thm_JunkWarn.

Definition all_white (t : bytes) : bool := forallb is_bspace t.
(** [skipped] holds whole lines; every line after the first is blank *)
Definition first_any (skipped : bytes) : Prop :=
  skipped = [] \/ exists line b, skipped = line ++ b /\ ~ In LF (removelast line) /\ line <> [] /\ all_white b = true.

(** C109: what the code between two records skips, for all contents of the rest of an
    uncompressed file, every block size and every schedule of short reads.  It is one line of
    any text and then white space, up to the first line that is not blank (which is
    kept) or the end of the file; [empty_size] is its length, and one warning is
    counted exactly if its first line is not blank. *)
Theorem C109_skipped :
  forall (zl : zenv) fuel data sched block known,
  gz_magic zl -> first_two block sched -> enough fuel data ->
  (data = [] \/ exists a b t, data = a :: b :: t /\ (a, b) <> (31%N, 139%N)) ->
  exists skipped next rest r',
    consume_loop (zl:=zl) fuel fuel true 0 0 (it_reader (iter_new (raw_open data sched) block known))
      = (Ok (next, lenZ skipped, if all_white (take_line data) then 0 else 1), r')
    /\ data = skipped ++ (match next with Some l => l | None => [] end) ++ rest
    /\ first_any skipped
    /\ match next with
       | None => rest = []
       | Some l => all_white l = false /\ ~ In LF (removelast l) /\ (rest = [] \/ exists a, l = a ++ [LF])
       end.
Proof. exact C109_skipped_pf. Qed.
Print Assumptions C109_skipped.

Example C109_skipped_ex :
  let run data := fst (consume_loop (zl:=toy_z) 100 100 true 0 0 (it_reader (iter_new (raw_open data [2; 1]) 5 None))) in
  run (lit "junk" ++ [13; 10; 32; 10]%N ++ lit "WARC/1.0" ++ [10]%N ++ lit "x") = Ok (Some (lit "WARC/1.0" ++ [10%N]), 8, 1)
  /\ run ([13; 10; 13; 10]%N ++ lit "WARC/1.0") = Ok (Some (lit "WARC/1.0"), 4, 0) /\ run (lit "end") = Ok (None, 3, 1).
Proof. vm_compute. repeat split. Qed.
