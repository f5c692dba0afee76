(** * Props_JunkGzip: stray lines after records in compressed archives (C109) *)
From Coq Require Import String List ZArith NArith Bool Lia.
From Verif Require Import PyBase Headers Streams Loader Iterator Writer StreamSpec WriterSpec IterSpec RoundSpec TermSpec IndepSpec FrameSpec Toy.
From Verif Require Thm_Iter.
Import ListNotations.
Open Scope Z_scope.
From Verif Require Import Thm_JunkGzip.

(** one line of any text, then only white space *)
Definition stray (t : bytes) : Prop :=
  ~ In LF t \/ exists line b, ~ In LF line /\ t = line ++ LF :: b /\ forallb is_bspace b = true.

(** a record, what follows it in its gzip member, and the member *)
Definition zx : Type := entry * bytes * bytes.
Definition zx_text (x : zx) : bytes := bare_text (fst (fst x)) ++ snd (fst x).
Definition zx_data (xs : list zx) : bytes := List.concat (map snd xs).
Definition ex_zs : list zx :=
  map (fun x => (x, toy_gz (bare_text (fst x) ++ snd x)))
    (List.combine Thm_Iter.ex_es [lit "left over, WARC/1.0" ++ [13; 10; 13; 10]%N; lit "the end"]).

(** C109, compressed: archives with one gzip member per record, each record followed in its
    member by one line of any text and any white space.  Every record is yielded once, in
    order, with the offset and length of its member.  (HTTP header lines of at most [M] bytes;
    either M <= 1, or every member fits in one block.) *)
Theorem C109_gzip_partial :
  forall (zl : zenv) fuel he o M prog (xs : list zx) sched block known n,
  xs <> [] -> (M <= 1 \/ (sched = [] /\ forall e t m, In (e, t, m) xs -> lenZ m <= block)) -> 0 < block -> 0 <= M ->
  enough fuel (zx_data xs) -> (forall x, In x xs -> enough fuel (zx_text x)) ->
  (forall k e t m, nth_error xs k = Some (e, t, m) -> good_entry fuel he o M (prog k) e /\ stray t /\ is_member zl m (bare_text e ++ t)) ->
  lo_ensure o = false -> known <> Some FArc -> (List.length xs < n)%nat ->
  exists obs, run_iter (zl:=zl) fuel he o n prog 0 (iter_new (raw_open (zx_data xs) sched) block known) = (obs, EndStop)
    /\ List.length obs = List.length xs
    /\ forall k e t m ob, nth_error xs k = Some (e, t, m) -> nth_error obs k = Some ob ->
         observed he o (e_rec e) (e_http e) (e_payload e) (lenZ (zx_data (firstn k xs))) (lenZ m) (prog k) ob.
Proof. exact C109_gzip_partial_pf. Qed.
Print Assumptions C109_gzip_partial.

Example C109_gzip_ex :
  (forall k e t m, nth_error ex_zs k = Some (e, t, m) -> good_entry 300 toy_henv Thm_Iter.ex_o 200 (Thm_Iter.ex_prog k) e)
  /\ (forall e t m, In (e, t, m) ex_zs -> stray t /\ is_member toy_z m (bare_text e ++ t) /\ lenZ m <= 300)
  /\ let (obs, en) := run_iter (zl:=toy_z) 600 toy_henv Thm_Iter.ex_o 3 Thm_Iter.ex_prog 0 (iter_new (raw_open (zx_data ex_zs) []) 300 None) in
     map (fun ob => (rc_type (ob_record ob), ob_info ob)) obs
     = [(Some (lit "response"), Ok (Some (0, 261))); (Some (lit "resource"), Ok (Some (261, 147)))] /\ en = EndStop.
Proof.
  split; [intros [|[|i]] e t m H; cbn [nth_error ex_zs List.combine map Thm_Iter.ex_es] in H;
    [injection H as <- _ _; exact (Thm_Iter.ex_good_pf 0 _ eq_refl)|injection H as <- _ _; exact (Thm_Iter.ex_good_pf 1 _ eq_refl)|destruct i; discriminate H]|].
  split; [|vm_compute; repeat split]. intros e t m [H|[H|[]]]; injection H as <- <- <-; (split; [|split; [vm_compute; reflexivity|vm_compute; discriminate]]).
  - right. exists (lit "left over, WARC/1.0" ++ [13%N]), [13; 10]%N. split; [vm_compute; intuition discriminate|split; reflexivity].
  - left. vm_compute. intuition discriminate.
Qed.

(** C109, compressed, for every block size and every schedule of short reads (options as in
    C34). *)
Theorem C109_framing_gzip :
  forall (zl : zenv) he o (xs : list (wrc * bytes * bytes * bytes)) sched block known,
  xs <> [] -> 0 < block -> known <> Some FArc ->
  lo_check o = KFalse -> lo_verify o = false -> lo_ensure o = false ->
  let bare (t : bytes) := takeZ (lenZ t - 4) t in
  (forall w t s m, In (w, t, s, m) xs -> wf_record w /\ text_of w t /\ http_ready w /\ stray s /\ is_member zl m (bare t ++ s)) ->
  let it := @iter_new zl (raw_open (List.concat (map snd xs)) sched) block known in
  exists os, loop_ends he o read_all it os EndStop /\ List.length os = List.length xs
    /\ (forall i w t s m ob, nth_error xs i = Some (w, t, s, m) -> nth_error os i = Some ob ->
         found w (lenZ (List.concat (map snd (firstn i xs)))) (lenZ m) ob)
    /\ forall prog, plain_prog prog -> exists oc, loop_ends he o prog it oc EndStop /\ Forall2 agree os oc.
Proof. exact C109_framing_gzip_pf. Qed.
Print Assumptions C109_framing_gzip.
