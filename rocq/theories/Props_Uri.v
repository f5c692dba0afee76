(** * Props_Uri: target URIs in angle brackets or with spaces (C92) *)
From Coq Require Import String List ZArith NArith Bool Lia.
From Verif Require Import PyBase Headers HeaderSpec Streams StreamSpec Loader Iterator WriterSpec IterSpec TermSpec IndepSpec FrameSpec Toy.
Import ListNotations.
Open Scope Z_scope.
From Verif Require Import Thm_Uri.

(** Uncompressed archives: [w0] is the record as written, [w] the record as it must be read: the
    same with the target URI without brackets and with encoded spaces.  Every record is found
    once, in order, at its position, with the headers and the block of [w]; for every block size
    and every schedule whose first read returns two bytes; any other consumer finds the same. *)
Theorem C92_framing :
  forall (zl : zenv) he o (ws : list (wrc * wrc * bytes)) sched block known,
gz_magic zl -> first_two block sched -> known <> Some FArc ->
lo_check o = KFalse -> lo_verify o = false -> lo_ensure o = false ->
(forall w0 w t, In (w0, w, t) ws -> (wf_lines w0 /\ declares_length w0 /\ normalised w0 w /\ text_of w0 t) /\ http_ready w) ->
let it := @iter_new zl (raw_open (List.concat (map snd ws)) sched) block known in
exists os, loop_ends he o read_all it os EndStop /\ List.length os = List.length ws
  /\ (forall i w0 w t ob, nth_error ws i = Some (w0, w, t) -> nth_error os i = Some ob ->
       found w (lenZ (List.concat (map snd (firstn i ws)))) (lenZ t - 4) ob)
  /\ forall prog, plain_prog prog -> exists oc, loop_ends he o prog it oc EndStop /\ Forall2 agree os oc.
Proof. exact C92_framing_pf. Qed.
Print Assumptions C92_framing.

Definition ur_o := mk_lopts false false false false KFalse (lit "u").
Definition ur_w (uri : string) (block : string) : wrc :=
  mk_wrc (lit "WARC/1.0") [(lit "WARC-Type", lit "resource"); (lit "warc-target-uri", lit uri); (lit "Content-Length", str_of_Z (lenZ (lit block)))] (lit block).
Definition ur_t (w : wrc) : bytes :=
  lit "WARC/1.0" ++ [13; 10]%N ++ flat_map (fun h => fst h ++ lit ": " ++ snd h ++ [13; 10]%N) (w_headers w) ++ [13; 10]%N ++ w_block w ++ [13; 10; 13; 10]%N.
Definition ur_ws : list (wrc * wrc * bytes) :=
  [(ur_w "<http://a.b/c d>" "one", ur_w "http://a.b/c%20d" "one", ur_t (ur_w "<http://a.b/c d>" "one"));
   (ur_w "http://a.b/" "two", ur_w "http://a.b/" "two", ur_t (ur_w "http://a.b/" "two"))].
Definition ur_run (data : bytes) :=
  let (os, en) := run_iter (zl:=toy_z) 800 toy_henv ur_o 6 read_all 0 (iter_new (raw_open data [3; 1; 2]) 5 None) in
  (map (fun ob => (sh_headers (rc_headers (ob_record ob)), ob_reads ob, ob_info ob)) os, en).

Example C92_good : forall w0 w t, In (w0, w, t) ur_ws -> (wf_lines w0 /\ declares_length w0 /\ normalised w0 w /\ text_of w0 t) /\ http_ready w.
Proof.
  intros w0 w t [[= <- <- <-]|[[= <- <- <-]|[]]]; (split; [split; [|split; [|split]]|]).
  - split; [now (right; left)|]. repeat constructor; apply HeaderProofs.wf_headerb_ok; reflexivity.
  - exists (lit "3"). split; vm_compute; reflexivity.
  - split; [reflexivity|]. split; [reflexivity|]. right.
    exists [(lit "WARC-Type", lit "resource")], (lit "warc-target-uri"), (lit "<http://a.b/c d>"), [(lit "Content-Length", lit "3")], (lit "http://a.b/c%20d").
    split; [reflexivity|]. split; [apply HeaderProofs.name_eq_spec; reflexivity|]. split.
    { repeat constructor; intros X; apply HeaderProofs.name_eq_spec in X; vm_compute in X; discriminate. }
    split; [|reflexivity]. left. exists (lit "http://a.b/c d"). split; [reflexivity|]. exact (IterProofs.replace_spaces_ok (lit "http://a.b/c d")).
  - eexists. split; vm_compute; reflexivity.
  - intros (ty & E & X). vm_compute in E. injection E as <-. vm_compute in X. intuition discriminate.
  - split; [now (right; left)|]. repeat constructor; apply HeaderProofs.wf_headerb_ok; reflexivity.
  - exists (lit "3"). split; vm_compute; reflexivity.
  - split; [reflexivity|]. split; [reflexivity|]. left. split; [|reflexivity]. split; [vm_compute; intuition discriminate|]. intros m X. vm_compute in X. discriminate.
  - eexists. split; vm_compute; reflexivity.
  - intros (ty & E & X). vm_compute in E. injection E as <-. vm_compute in X. intuition discriminate.
Qed.
Example C92_ex : ur_run (List.concat (map snd ur_ws)) =
  ([(w_headers (ur_w "http://a.b/c%20d" "one"), [Ok (lit "one")], Ok (Some (0, 90)));
    (w_headers (ur_w "http://a.b/" "two"), [Ok (lit "two")], Ok (Some (94, 85)))], EndStop).
Proof. vm_compute. reflexivity. Qed.

(** the same with one gzip member per record, for every schedule *)
Theorem C92_framing_gzip :
  forall (zl : zenv) he o (ms : list (wrc * wrc * bytes * bytes)) sched block known,
ms <> [] -> 0 < block -> known <> Some FArc ->
lo_check o = KFalse -> lo_verify o = false -> lo_ensure o = false ->
(forall w0 w t m, In (w0, w, t, m) ms ->
   (wf_lines w0 /\ declares_length w0 /\ normalised w0 w /\ text_of w0 t) /\ http_ready w /\ is_member zl m t) ->
let it := @iter_new zl (raw_open (List.concat (map snd ms)) sched) block known in
exists os, loop_ends he o read_all it os EndStop /\ List.length os = List.length ms
  /\ (forall i w0 w t m ob, nth_error ms i = Some (w0, w, t, m) -> nth_error os i = Some ob ->
       found w (lenZ (List.concat (map snd (firstn i ms)))) (lenZ m) ob)
  /\ forall prog, plain_prog prog -> exists oc, loop_ends he o prog it oc EndStop /\ Forall2 agree os oc.
Proof. exact C92_framing_gzip_pf. Qed.
Print Assumptions C92_framing_gzip.

Example C92_framing_gzip_ex :
  let ms := map (fun p => (p, toy_gz (snd p))) ur_ws in
  (forall w0 w t m, In (w0, w, t, m) ms -> is_member toy_z m t)
  /\ map (fun x => fst (fst x)) (fst (ur_run (List.concat (map snd ms)))) = [w_headers (ur_w "http://a.b/c%20d" "one"); w_headers (ur_w "http://a.b/" "two")].
Proof. split; [intros w0 w t m [[= <- <- <- <-]|[[= <- <- <- <-]|[]]]; vm_compute; reflexivity|]. vm_compute. reflexivity. Qed.

(** every URI is read in exactly one way; a URI that is read is read the same when it is written
    and read again, unless it is still in brackets *)
Theorem C92_once :
  forall u, exists v, normal_uri u v /\ (forall v', normal_uri u v' -> v' = v) /\ ~ In 32%N v
  /\ ((forall m, v <> 60%N :: m ++ [62%N]) -> normal_uri v v).
Proof. exact C92_once_pf. Qed.
Print Assumptions C92_once.

(** [normal_uri] on three URIs *)
Example C92_once_ex : normal_uri (lit "<a b>") (lit "a%20b") /\ normal_uri (lit "<a") (lit "<a") /\ normal_uri (lit "<<a>>") (lit "<a>").
Proof.
  split; [|split].
  - left. exists (lit "a b"). split; [reflexivity|]. exact (IterProofs.replace_spaces_ok (lit "a b")).
  - right. split; [intros m X; vm_compute in X; injection X as X; destruct m as [|? [|? ?]]; discriminate|]. exact (IterProofs.replace_spaces_ok (lit "<a")).
  - left. exists (lit "<a>"). split; [reflexivity|]. exact (IterProofs.replace_spaces_ok (lit "<a>")).
Qed.

(** reading is not stable: a URI in two pairs of brackets loses one pair each time an archive is
    read and rewritten *)
Theorem C92_nested_refuted :
  exists u v w, normal_uri u v /\ normal_uri v w /\ w <> v.
Proof. exact C92_nested_refuted_pf. Qed.
Print Assumptions C92_nested_refuted.

(** and a record with the header twice keeps the brackets of the first, which lookups return,
    and loses the second *)
Theorem C92_twice_refuted :
  exists data os, run_iter (zl:=toy_z) 400 toy_henv (mk_lopts true false false false KFalse []) 3 read_all 0 (iter_new (raw_open data []) BUFF_SIZE None) = (os, EndStop)
  /\ data = lit "WARC/1.0" ++ [13; 10]%N ++ lit "WARC-Type: resource" ++ [13; 10]%N ++ lit "WARC-Target-URI: <a>" ++ [13; 10]%N
            ++ lit "WARC-Target-URI: b" ++ [13; 10]%N ++ lit "Content-Length: 0" ++ [13; 10; 13; 10; 13; 10; 13; 10]%N
  /\ map (fun ob => sh_headers (rc_headers (ob_record ob))) os
     = [[(lit "WARC-Type", lit "resource"); (lit "WARC-Target-URI", lit "<a>"); (lit "WARC-Target-URI", lit "a"); (lit "Content-Length", lit "0")]].
Proof. exact C92_twice_refuted_pf. Qed.
Print Assumptions C92_twice_refuted.
