(** * Props_JunkTwo: two stray lines between records (C109) *)
From Coq Require Import String List ZArith NArith Bool Lia.
From Coq Require Import ZifyBool ZifyNat ZifyN.
From Verif Require Import PyBase Utf8 Codecs Headers HeaderSpec Streams StreamSpec DigestSpec Loader Iterator WriterSpec IterSpec ArcSpec Toy.
From Verif Require Thm_Iter Thm_Arc Thm_Junk.
Import ListNotations.
Open Scope Z_scope.
From Verif Require Import Thm_JunkTwo.

(** a line that begins neither a WARC record nor an ARC record *)
Definition foreign (line t : str) : Prop :=
  text_line line t /\ no_trail is_uspace t /\ t <> [] /\ (exists c, In c line /\ is_bspace c = false)
  /\ (forall q r, In q WARC_TYPES -> upper t <> q ++ r) /\ (count_occ N.eq_dec t 32%N < 4)%nat.
Definition ex_xs : list (entry * bytes) :=
  List.combine Thm_Iter.ex_es [[13; 10]%N; lit "left over" ++ [10%N]].

(** With a second stray line, C109 fails for every file: take any well-formed records, each
    followed by one line of any text (the usual empty line is one) and then white space, and
    after the last of them one further line that begins neither a WARC nor an ARC record.
    Whatever follows that line, well-formed records included, is lost: the iteration yields
    the records before the line, each as written, and then raises ArchiveLoadFailed. *)
Theorem C109_second_line_refuted :
  forall (zl : zenv) fuel he o M prog xs more t sched block known n,
  gz_magic zl -> first_two block sched -> reads_fit M block sched -> 0 <= M -> enough fuel (spaced xs ++ more) -> xs <> [] ->
  (forall k e t, nth_error xs k = Some (e, t) -> good_entry fuel he o M (prog k) e /\ Thm_Junk.stray t /\ exists a, t = a ++ [LF]) ->
  foreign (take_line more) t ->
  lo_ensure o = false -> known <> Some FArc -> (List.length xs < n)%nat ->
  exists obs, run_iter (zl:=zl) fuel he o n prog 0 (iter_new (raw_open (spaced xs ++ more) sched) block known) = (obs, EndExn ArchiveLoadFailed)
    /\ List.length obs = List.length xs
    /\ forall k e t ob, nth_error xs k = Some (e, t) -> nth_error obs k = Some ob ->
         observed he o (e_rec e) (e_http e) (e_payload e) (spaced_position k xs) (lenZ (bare_text e)) (prog k) ob.
Proof. exact C109_second_line_refuted_pf. Qed.
Print Assumptions C109_second_line_refuted.

(** two records, the second followed by two stray lines and a further record *)
Example C109_second_line_case :
  foreign (lit "again left over" ++ [13; 10]%N) (lit "again left over")
  /\ (forall k e t, nth_error ex_xs k = Some (e, t) -> good_entry 300 toy_henv Thm_Iter.ex_o 200 (Thm_Iter.ex_prog k) e /\ Thm_Junk.stray t /\ exists a, t = a ++ [LF]).
Proof.
  split.
  - split; [exists [13; 10]%N; split; [reflexivity|]; intros c [<-|[<-|[]]]; reflexivity|].
    split; [intros x l E; change (lit "again left over") with (lit "again left ove" ++ [114%N]) in E; apply app_inj_tail in E as [_ <-]; reflexivity|]. split; [discriminate|]. split; [exists 97%N; split; [now left|reflexivity]|]. split; [|vm_compute; lia].
    intros q r Hq E. cbn in Hq. repeat (destruct Hq as [<-|Hq]; [discriminate E|]). destruct Hq.
  - intros [|[|i]] e t H; cbn in H; [| |destruct i; discriminate H]; injection H as <- <-;
      (split; [apply Thm_Iter.ex_good_pf; reflexivity|]); (split; [right|]).
    + exists [13%N], []. split; [intros [X|[]]; discriminate X|split; reflexivity].
    + exists [13%N]. reflexivity.
    + exists (lit "left over"), []. split; [vm_compute; intuition discriminate|split; reflexivity].
    + exists (lit "left over"). reflexivity.
Qed.

(** one stray line after any record of an ARC file: all records are found, each with its own
    offset and length *)
Theorem C109_arc_partial :
  forall (zl : zenv) fuel he o M prog p es sched block known n,
  gz_magic zl -> first_two block sched -> reads_fit M block sched -> 0 <= M -> enough fuel (ae_texts es) ->
  (forall i e, nth_error es i = Some e -> good_aentry fuel o M (prog i) e
     /\ Thm_Junk.stray (ae_tail e) /\ ((exists a, ae_tail e = a ++ [LF]) \/ S i = List.length es)) ->
  lo_ensure o = false -> known <> Some FWarc -> (List.length es < n)%nat ->
  exists obs, run_iter (zl:=zl) fuel he o n prog 0 (iter_new (mk_raw (ae_texts es) p sched) block known) = (obs, EndStop)
    /\ List.length obs = List.length es
    /\ forall i e ob, nth_error es i = Some e -> nth_error obs i = Some ob ->
         arc_observed o (ae_rec e) (ae_http e) (ae_payload e) (p + ae_position i es) (lenZ (arc_bytes (ae_rec e))) (prog i) ob.
Proof. exact C109_arc_partial_pf. Qed.
Print Assumptions C109_arc_partial.

(** an ARC file with a stray line after each of its records *)
Definition ex_aes : list aentry :=
  [mk_aentry Thm_Arc.ex_r0 (lit "left over" ++ [10; 10]%N) None (lit "!!"); mk_aentry Thm_Arc.ex_r1 (lit "rest") (Some Thm_Arc.ex_http) []].
Example C109_arc_case : forall i e, nth_error ex_aes i = Some e -> good_aentry 300 Thm_Arc.ex_o 200 (Thm_Arc.ex_prog i) e
     /\ Thm_Junk.stray (ae_tail e) /\ ((exists a, ae_tail e = a ++ [LF]) \/ S i = List.length ex_aes).
Proof.
  intros [|[|i]] e H; cbn in H; [| |destruct i; discriminate H]; injection H as <-.
  - split; [exact (proj1 (Thm_Arc.ex_good_pf 0%nat _ eq_refl))|]. split; [right|left; exists (lit "left over" ++ [10%N]); reflexivity].
    exists (lit "left over"), [10%N]. split; [vm_compute; intuition discriminate|split; reflexivity].
  - split; [exact (proj1 (Thm_Arc.ex_good_pf 1%nat _ eq_refl))|]. split; [left; vm_compute; intuition discriminate|now right].
Qed.
