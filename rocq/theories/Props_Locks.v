(** * Props_Locks: capture_http: threads that write to one archive (C77) *)
From Coq Require Import String List ZArith NArith Bool Lia.
From Verif Require Import PyBase Writer Locks.
Import ListNotations.
Open Scope nat_scope.
From Verif Require Import Thm_Locks.

(** C77.  Any number of threads with any number of exchanges to record, under every schedule:
    if exchanges recorded to the same file use the same recorder (one capture), then at every
    moment the file is what it was, followed by the complete output of finished exchanges, one
    after the other, and at most by the beginning of the output of one that is being written;
    every thread's exchanges are written in its order.  When all threads have finished the file
    consists of whole outputs only. *)
Theorem C77_whole_pairs :
  forall (jobs : list (list job)) files sched,
  (forall a b ja jb, In a jobs -> In b jobs -> In ja a -> In jb b -> jb_file ja = jb_file jb -> jb_lock ja = jb_lock jb) ->
  let p := turns sched (started jobs files) in
  exists log,
    (forall x, In x log -> fst x < List.length jobs)
    /\ (forall t js, nth_error jobs t = Some js -> exists th, nth_error (pl_threads p) t = Some th /\ js = done_by t log ++ unfinished th)
    /\ (forall f, exists part, pl_files p f = files f ++ written_to f log ++ part /\ (part = [] \/ being_written f p part))
    /\ ((forall th, In th (pl_threads p) -> th = Idle []) ->
          (forall t js, nth_error jobs t = Some js -> js = done_by t log) /\ (forall f, pl_files p f = files f ++ written_to f log)).
Proof. exact C77_whole_pairs_pf. Qed.
Print Assumptions C77_whole_pairs.

(** two threads and one recorder: the second waits *)
Example C77_ex : let jobs := [[mk_job 0 0 [[1%N]; [2%N]]; mk_job 0 0 [[5%N]]]; [mk_job 0 0 [[3%N]; [4%N]]]] in
  let p := turns [0; 1; 0; 1; 0; 0; 1; 0; 1; 1; 1; 0; 0; 0; 0] (started jobs (fun _ => [])) in
  pl_threads p = [Idle []; Idle []] /\ pl_files p 0 = [1; 2; 3; 4; 5]%N
  /\ (forall a b ja jb, In a jobs -> In b jobs -> In ja a -> In jb b -> jb_file ja = jb_file jb -> jb_lock ja = jb_lock jb).
Proof.
  split; [reflexivity|]. split; [reflexivity|]. intros a b ja jb Ha Hb Hja Hjb _.
  cbn in Ha, Hb. destruct Ha as [<-|[<-|[]]], Hb as [<-|[<-|[]]]; cbn in Hja, Hjb;
    repeat match goal with H : _ \/ _ |- _ => destruct H end; subst; try contradiction; reflexivity.
Qed.

(** Without that hypothesis it is false: two captures given the same writer have two locks,
    and the outputs of two exchanges can be mixed. *)
Theorem C77_two_captures_refuted :
  exists jobs sched, let p := turns sched (started jobs (fun _ => [])) in
  (forall th, In th (pl_threads p) -> th = Idle [])
  /\ (forall t js j, nth_error jobs t = Some js -> In j js -> jb_lock j = t /\ jb_file j = 0)
  /\ ~ exists log, (forall x, In x log -> fst x < List.length jobs) /\ (forall t js, nth_error jobs t = Some js -> js = done_by t log) /\ pl_files p 0 = written_to 0 log.
Proof. exact C77_two_captures_refuted_pf. Qed.
Print Assumptions C77_two_captures_refuted.

(** C77, liveness: no deadlock.  Under every schedule in which every thread gets its turn again
    and again, all threads have finished from some moment on: the outputs of all exchanges are in
    the files.  No condition on the locks. *)
Theorem C77_progress :
  forall (jobs : list (list job)) files (sched : nat -> nat),
  (forall t n, t < List.length jobs -> exists m, n <= m /\ sched m = t) ->
  exists N, forall m, N <= m ->
    forall th, In th (pl_threads (turns (map sched (seq 0 m)) (started jobs files))) -> th = Idle [].
Proof. exact C77_progress_pf. Qed.
Print Assumptions C77_progress.

(** three threads taking turns *)
Example C77_fair : forall t n, t < 3 -> exists m, n <= m /\ Nat.modulo m 3 = t.
Proof.
  intros t n Ht. exists (t + n * 3). split; [lia|]. rewrite Nat.mod_add by discriminate. now apply Nat.mod_small.
Qed.
Example C77_progress_ex : let jobs := [[mk_job 0 0 [[1%N]; [2%N]]; mk_job 0 0 [[5%N]]]; [mk_job 0 0 [[3%N]; [4%N]]]; []] in
  pl_threads (turns (map (fun m => Nat.modulo m 3) (seq 0 50)) (started jobs (fun _ => []))) = [Idle []; Idle []; Idle []].
Proof. reflexivity. Qed.
