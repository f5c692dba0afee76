(** * Props_JunkFrame: stray lines between records, any block size (C109) *)
From Coq Require Import String List ZArith NArith Bool Lia.
From Verif Require Import PyBase Headers Streams Loader Iterator Writer StreamSpec WriterSpec IterSpec RoundSpec TermSpec IndepSpec FrameSpec Toy.
From Verif Require Thm_Iter.
Import ListNotations.
Open Scope Z_scope.
From Verif Require Import Thm_JunkFrame.

(** one line of any text, then only white space *)
Definition stray (t : bytes) : Prop :=
  ~ In LF t \/ exists line b, ~ In LF line /\ t = line ++ LF :: b /\ forallb is_bspace b = true.
Definition fr_o := mk_lopts false false false false KFalse (lit "u").
Definition fr_ws := map (fun e => (e_rec e, e_text e)) Thm_Iter.ex_es.
Definition fr_run (data : bytes) (sched : list Z) (block : Z) (norec : bool) :=
  let (os, en) := run_iter (zl:=toy_z) 800 toy_henv (with_norec norec fr_o) 6 read_all 0 (iter_new (raw_open data sched) block None) in
  (map (fun ob => (rc_type (ob_record ob), ob_reads ob, ob_info ob)) os, en).

(** C109 for any block size and short reads as in C34: records followed by one line of any
    text and then any white space, up to a line end, are all found. *)
Theorem C109_framing :
  forall (zl : zenv) he o (xs : list (wrc * bytes * bytes)) sched block known,
  gz_magic zl -> first_two block sched -> known <> Some FArc ->
  lo_check o = KFalse -> lo_verify o = false -> lo_ensure o = false ->
  (forall w t s, In (w, t, s) xs -> wf_record w /\ text_of w t /\ http_ready w /\ stray s) ->
  (forall i x w t s, nth_error xs i = Some x -> nth_error xs (S i) = Some (w, t, s) -> exists a, snd x = a ++ [LF]) ->
  let bare (t : bytes) := takeZ (lenZ t - 4) t in
  let text (x : wrc * bytes * bytes) := bare (snd (fst x)) ++ snd x in
  let it := @iter_new zl (raw_open (List.concat (map text xs)) sched) block known in
  exists os, loop_ends he o read_all it os EndStop /\ List.length os = List.length xs
    /\ (forall i w t s ob, nth_error xs i = Some (w, t, s) -> nth_error os i = Some ob ->
         found w (lenZ (List.concat (map text (firstn i xs)))) (lenZ (bare t)) ob)
    /\ forall prog, plain_prog prog -> exists oc, loop_ends he o prog it oc EndStop /\ Forall2 agree os oc.
Proof. exact C109_framing_pf. Qed.
Print Assumptions C109_framing.

(** a line of text after the first record, some text without a line end after the second *)
Example C109_framing_ex :
  let bare (t : bytes) := takeZ (lenZ t - 4) t in
  let data := List.concat (map (fun x => bare (snd (fst x)) ++ snd x) (List.combine fr_ws [lit "WARC/1.0" ++ [LF; 32; LF]%N; lit "x"])) in
  map (fun x => snd x) (fst (fr_run data [3; 1; 2] 7 false)) = [Ok (Some (0, 106)); Ok (Some (117, 65))]
  /\ (forall s, In s [lit "WARC/1.0" ++ [LF; 32; LF]%N; lit "x"] -> stray s)
  /\ snd (fr_run data [3; 1; 2] 7 false) = EndStop.
Proof.
  split; [vm_compute; reflexivity|]. split; [|vm_compute; reflexivity]. intros s [<-|[<-|[]]].
  - right. exists (lit "WARC/1.0"), [32; LF]%N. split; [vm_compute; intuition discriminate|split; reflexivity].
  - left. vm_compute. intuition discriminate.
Qed.
