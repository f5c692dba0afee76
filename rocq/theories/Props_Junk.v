(** * Props_Junk: stray lines between records (C109, C74) *)
From Coq Require Import String List ZArith NArith Bool Lia.
From Coq Require Import ZifyBool ZifyNat ZifyN.
From Verif Require Import PyBase Utf8 Codecs Headers HeaderSpec Streams StreamSpec DigestSpec Loader Iterator WriterSpec IterSpec ArcSpec Toy.
From Verif Require Thm_Iter Thm_Arc.
Import ListNotations.
Open Scope Z_scope.
From Verif Require Import Thm_Junk.

(** one line of any text, then only white space *)
Definition stray (t : bytes) : Prop :=
  ~ In LF t \/ exists line b, ~ In LF line /\ t = line ++ LF :: b /\ forallb is_bspace b = true.
Definition strays_ok (xs : list (entry * bytes)) : Prop :=
  forall i e t, nth_error xs i = Some (e, t) -> stray t /\ (nth_error xs (S i) <> None -> exists a, t = a ++ [LF]).
Definition ex_xs : list (entry * bytes) :=
  List.combine Thm_Iter.ex_es [lit "left over, WARC/1.0" ++ [13; 10; 13; 10]%N; lit "the end"].
Definition ex_two : list (entry * bytes) :=
  List.combine Thm_Iter.ex_es [lit "left" ++ [10%N] ++ lit "over" ++ [13; 10; 13; 10]%N; []].

(** C109: records each followed by one line of any text (say the rest of data longer than the
    stated length) and any blank lines, as an uncompressed file: the stray lines are skipped, and every
    record is yielded once, in order, with its own offset and length, which count no byte
    of the stray lines.  Missing: compressed files, and long lines as in C34. *)
Theorem C109_stray_line_partial :
  forall (zl : zenv) fuel he o M prog xs sched block known n,
  gz_magic zl -> first_two block sched -> reads_fit M block sched -> 0 <= M -> enough fuel (spaced xs) ->
  (forall k e t, nth_error xs k = Some (e, t) -> good_entry fuel he o M (prog k) e) -> strays_ok xs ->
  lo_ensure o = false -> known <> Some FArc -> (List.length xs < n)%nat ->
  exists obs, run_iter (zl:=zl) fuel he o n prog 0 (iter_new (raw_open (spaced xs) sched) block known) = (obs, EndStop)
    /\ List.length obs = List.length xs
    /\ forall k e t ob, nth_error xs k = Some (e, t) -> nth_error obs k = Some ob ->
         observed he o (e_rec e) (e_http e) (e_payload e) (spaced_position k xs) (lenZ (bare_text e)) (prog k) ob.
Proof. exact C109_stray_line_partial_pf. Qed.
Print Assumptions C109_stray_line_partial.

Example C109_ex :
  strays_ok ex_xs /\ (forall k e t, nth_error ex_xs k = Some (e, t) -> good_entry 300 toy_henv Thm_Iter.ex_o 200 (Thm_Iter.ex_prog k) e)
  /\ let (obs, en) := run_iter (zl:=toy_z) 300 toy_henv Thm_Iter.ex_o 3 Thm_Iter.ex_prog 0 (iter_new (raw_open (spaced ex_xs) []) 200 None) in
     map (fun ob => (rc_type (ob_record ob), ob_info ob)) obs
     = [(Some (lit "response"), Ok (Some (0, 106))); (Some (lit "resource"), Ok (Some (129, 65)))] /\ en = EndStop.
Proof.
  split; [|split; [|vm_compute; repeat split]].
  - intros [|[|i]] e t H; cbn in H; [| |destruct i; discriminate H]; injection H as <- <-.
    + split; [|intros _; exists (lit "left over, WARC/1.0" ++ [13; 10; 13]%N); reflexivity].
      right. exists (lit "left over, WARC/1.0" ++ [13%N]), [13; 10]%N. split; [vm_compute; intuition discriminate|split; reflexivity].
    + split; [left; vm_compute; intuition discriminate|]. intros X. now destruct X.
  - intros [|[|i]] e t H; cbn in H; [| |destruct i; discriminate H]; injection H as <- <-; apply Thm_Iter.ex_good_pf; reflexivity.
Qed.

(** C109 is false for two stray lines: the second is taken for the first line of the next
    record, the iteration raises, and the records that follow are lost. *)
Theorem C109_two_lines_refuted :
  (forall k e t, nth_error ex_two k = Some (e, t) -> good_entry 300 toy_henv Thm_Iter.ex_o 200 (Thm_Iter.ex_prog k) e)
/\ exists ob, run_iter (zl:=toy_z) 300 toy_henv Thm_Iter.ex_o 3 Thm_Iter.ex_prog 0 (iter_new (raw_open (spaced ex_two) []) 200 None)
     = ([ob], EndExn ArchiveLoadFailed).
Proof. exact C109_two_lines_refuted_pf. Qed.
Print Assumptions C109_two_lines_refuted.

(** C74 is false for every such file: take any well-formed ARC file, and in it a record [a]
    with no blank line after it and after that a record [b] without data.  The iteration yields
    all the other records, each with its own offset and length, and ends without an
    exception; [b] is never seen. *)
Theorem C74_lost_refuted :
  forall (zl : zenv) fuel he o M prog p pre a b suf sched block known n,
  let file := pre ++ a :: b :: suf in
  let seen := pre ++ a :: suf in
  gz_magic zl -> first_two block sched -> reads_fit M block sched -> 0 <= M -> enough fuel (ae_texts file) ->
  wf_arec (ae_rec b) -> r_spec (ae_rec b) ++ r_data (ae_rec b) = [] -> ae_tail a = [] -> (ae_tail b = [] \/ white_lines (ae_tail b)) ->
  (forall i e, nth_error seen i = Some e -> good_aentry fuel o M (prog i) e) ->
  (forall e, In e pre \/ In e suf -> white_lines (ae_tail e)) ->
  lo_ensure o = false -> known <> Some FWarc -> (List.length seen < n)%nat ->
  exists obs, run_iter (zl:=zl) fuel he o n prog 0 (iter_new (mk_raw (ae_texts file) p sched) block known) = (obs, EndStop)
    /\ List.length obs = List.length seen
    /\ forall i e ob, nth_error seen i = Some e -> nth_error obs i = Some ob ->
         arc_observed o (ae_rec e) (ae_http e) (ae_payload e)
           (p + ae_position (if (i <=? List.length pre)%nat then i else S i) file) (lenZ (arc_bytes (ae_rec e))) (prog i) ob.
Proof. exact C74_lost_refuted_pf. Qed.
Print Assumptions C74_lost_refuted.

Example C74_lost_ex :
  let a := mk_aentry Thm_Arc.ex_r0 [] None (lit "!!") in
  let b := mk_aentry Thm_Arc.ex_r2 [] None [] in
  let c := mk_aentry Thm_Arc.ex_r1 [10%N] (Some Thm_Arc.ex_http) [] in
  wf_arec (ae_rec b) /\ r_spec (ae_rec b) ++ r_data (ae_rec b) = []
  /\ (forall i e, nth_error [a; c] i = Some e -> good_aentry 300 Thm_Arc.ex_o 200 (Thm_Arc.ex_prog i) e)
  /\ white_lines (ae_tail c)
  /\ let (obs, en) := run_iter (zl:=toy_z) 300 toy_henv Thm_Arc.ex_o 3 Thm_Arc.ex_prog 0 (iter_new (raw_open (ae_texts [a; b; c]) []) 200 None) in
     map (fun ob => (rc_type (ob_record ob), ob_info ob)) obs
     = [(Some (lit "arc_header"), Ok (Some (0, 88))); (Some (lit "response"), Ok (Some (130, 77)))] /\ en = EndStop.
Proof.
  cbv zeta. split; [|split; [reflexivity|split; [|split; [|vm_compute; repeat split]]]].
  - pose proof (Thm_Arc.ex_good2 []) as (H & _). exact H.
  - intros [|[|i]] e H; [| |destruct i; discriminate H]; injection H as <-.
    + pose proof (Thm_Arc.ex_good_pf 0%nat _ eq_refl) as (H & _). exact H.
    + pose proof (Thm_Arc.ex_good_pf 1%nat _ eq_refl) as (H & _). exact H.
  - split; [intros x [<-|[]]; reflexivity|now exists []].
Qed.
