(** * Props_ArcFrame: ARC files for every block size (C75) *)
From Coq Require Import String List ZArith NArith Bool Lia.
From Verif Require Import PyBase Headers Streams StreamSpec Loader Iterator WriterSpec IterSpec TermSpec IndepSpec FrameSpec ArcSpec Toy.
Import ListNotations.
Open Scope Z_scope.
From Verif Require Import Thm_ArcFrame.

(** C75 for every block size and every schedule whose first read returns two bytes, without a
    condition on lines: each record of an uncompressed ARC file is found once, in order, at its
    position, with its fields and data; any other way of reading finds the same. *)
Theorem C75_framing :
  forall (zl : zenv) he o (rs : list (arec * bytes)) sched block known,
gz_magic zl -> first_two block sched -> known <> Some FWarc ->
lo_check o = KFalse -> lo_verify o = false -> lo_ensure o = false ->
(forall i r tl, nth_error rs i = Some (r, tl) -> wf_arec r
   /\ white tl /\ (white_lines tl \/ S i = List.length rs)) ->
let data := List.concat (map (fun p => arc_bytes (fst p) ++ snd p) rs) in
let off i := lenZ (List.concat (map (fun p => arc_bytes (fst p) ++ snd p) (firstn i rs))) in
let it := @iter_new zl (raw_open data sched) block known in
exists os, loop_ends he o read_all it os EndStop /\ List.length os = List.length rs
  /\ (forall i r tl ob, nth_error rs i = Some (r, tl) -> nth_error os i = Some ob -> arc_found o r (off i) (lenZ (arc_bytes r)) ob)
  /\ forall prog, plain_prog prog -> exists oc, loop_ends he o prog it oc EndStop /\ Forall2 agree os oc.
Proof. exact C75_framing_pf. Qed.
Print Assumptions C75_framing.

Definition af_o := mk_lopts false false false false KFalse (lit "u").
Definition af_rs := map (fun e => (ae_rec e, ae_tail e)) Thm_Arc.ex_es.
Definition af_run (data : bytes) (sched : list Z) (block : Z) :=
  let (os, en) := run_iter (zl:=toy_z) 800 toy_henv af_o 6 read_all 0 (iter_new (raw_open data sched) block None) in
  (map (fun ob => (rc_type (ob_record ob), ob_reads ob, ob_info ob)) os, en).

(** the records of C75_ex meet the conditions *)
Example C75_framing_good : forall i r tl, nth_error af_rs i = Some (r, tl) -> wf_arec r
   /\ white tl /\ (white_lines tl \/ S i = List.length af_rs).
Proof.
  intros i r tl H. unfold af_rs in H. rewrite nth_error_map in H. destruct (nth_error Thm_Arc.ex_es i) as [e|] eqn:Ee; [|discriminate].
  injection H as <- <-. destruct (Thm_Arc.ex_good_pf i e Ee) as ((W & _) & W3 & W4).
  split; [exact W|]. split; [exact W3|exact W4].
Qed.
(** blocks of five bytes and short reads *)
Example C75_framing_ex :
  let data := List.concat (map (fun p => arc_bytes (fst p) ++ snd p) af_rs) in
  map (fun x => (fst (fst x), snd x)) (fst (af_run data [3; 1; 2] 5)) = [(Some (lit "arc_header"), Ok (Some (0, 88))); (Some (lit "response"), Ok (Some (89, 77)))]
  /\ snd (af_run data [3; 1; 2] 5) = EndStop.
Proof. vm_compute. repeat split. Qed.
(** with arc2warc, the URL of the second record (http://a/x y) has its space encoded *)
Example C75_framing_arc2warc :
  let data := List.concat (map (fun p => arc_bytes (fst p) ++ snd p) af_rs) in
  let (os, en) := run_iter (zl:=toy_z) 800 toy_henv (mk_lopts false false true false KFalse (lit "u")) 6 read_all 0
                    (iter_new (raw_open data [3; 1; 2]) 5 None) in
  map (fun ob => get_header (lit "WARC-Target-URI") (rc_headers (ob_record ob))) os = [None; Some (lit "http://a/x%20y")] /\ en = EndStop.
Proof. vm_compute. repeat split. Qed.

(** the same for ARC files with one gzip member per record, and every schedule; blank lines may
    be missing in every member *)
Theorem C75_framing_gzip :
  forall (zl : zenv) he o (rs : list (arec * bytes * bytes)) sched block known,
rs <> [] -> 0 < block -> known <> Some FWarc ->
lo_check o = KFalse -> lo_verify o = false -> lo_ensure o = false ->
(forall r tl m, In (r, tl, m) rs -> wf_arec r
   /\ white tl /\ is_member zl m (arc_bytes r ++ tl)) ->
let data := List.concat (map snd rs) in
let off i := lenZ (List.concat (map snd (firstn i rs))) in
let it := @iter_new zl (raw_open data sched) block known in
exists os, loop_ends he o read_all it os EndStop /\ List.length os = List.length rs
  /\ (forall i r tl m ob, nth_error rs i = Some (r, tl, m) -> nth_error os i = Some ob -> arc_found o r (off i) (lenZ m) ob)
  /\ forall prog, plain_prog prog -> exists oc, loop_ends he o prog it oc EndStop /\ Forall2 agree os oc.
Proof. exact C75_framing_gzip_pf. Qed.
Print Assumptions C75_framing_gzip.

Example C75_framing_gzip_ex :
  let rs := map (fun p => (p, toy_gz (arc_bytes (fst p) ++ snd p))) af_rs in
  (forall r tl m, In (r, tl, m) rs -> is_member toy_z m (arc_bytes r ++ tl))
  /\ map (fun x => (fst (fst x), snd x)) (fst (af_run (List.concat (map snd rs)) [3; 1; 2] 5))
     = [(Some (lit "arc_header"), Ok (Some (0, 181))); (Some (lit "response"), Ok (Some (181, 157)))].
Proof. split; [intros r tl m [[= <- <- <-]|[[= <- <- <-]|[]]]; vm_compute; reflexivity|]. vm_compute. repeat split. Qed.
