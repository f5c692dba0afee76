(** * Props_LineLimit: what BufferedReader.readline(limit) returns for a long line (C06) *)
From Coq Require Import String List ZArith NArith Bool.
From Verif Require Import PyBase Streams StreamSpec Toy.
Import ListNotations.
Open Scope Z_scope.
From Verif Require Import Thm_LineLimit.

(** C06 is false of every line longer than two blocks: readline(n) returns exactly this many bytes of
    a long line when B*(m-1)*m/2 < n <= B*m*(m+1)/2, for the block size B and a number m of rounds.
    For n > 2*B that is less than n, and for large n far less: about the square root of 2*n*B *)
Theorem C06_exact_refuted :
  forall (zl : zenv) fuel data B n m, enough fuel data -> 0 < B -> 0 < n <= lenZ data -> ~ In LF data ->
  1 <= m -> B * (m - 1) * m < 2 * n <= B * m * (m + 1) ->
  let got := Z.min (m * B) ((m - 1) * B + n - B * (m - 1) * m / 2) in
  fst (br_readline raw_ops fuel (Some n) (br_new (zl:=zl) (raw_open data []) B None None false)) = Ok (takeZ got data)
  /\ (2 * B < n -> got < n).
Proof. exact C06_exact_refuted_pf. Qed.
Print Assumptions C06_exact_refuted.

(** block size 4, limit 12 on a line of 20 bytes: 8 bytes; limit 20: 12 bytes *)
Example C06_ex_exact : let data := List.repeat 97%N 20 in
  ~ In LF data /\ 4 * (2 - 1) * 2 < 2 * 12 <= 4 * 2 * (2 + 1) /\ 4 * (3 - 1) * 3 < 2 * 20 <= 4 * 3 * (3 + 1)
  /\ fst (br_readline raw_ops 30 (Some 12) (br_new (zl:=toy_z) (raw_open data []) 4 None None false)) = Ok (List.repeat 97%N 8)
  /\ fst (br_readline raw_ops 30 (Some 20) (br_new (zl:=toy_z) (raw_open data []) 4 None None false)) = Ok (List.repeat 97%N 12).
Proof. split; [intros H; vm_compute in H; intuition discriminate|]. repeat split; vm_compute; try reflexivity; discriminate. Qed.
