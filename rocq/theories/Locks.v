(** * Locks: the threads that close recorded responses at the same time
    (/repo/warcio/capture_http.py:142, 200-201: every recorder has a lock, and writes the pair
    of records while it holds it).  A thread is a list of jobs; a job takes the lock of its
    recorder, writes what write_request_response_pair writes to the file of its recorder's
    writer ([Writer.writes]: one element for every call of write()) and releases the lock.
    Between any two of these steps other threads may run.  Simplification: one write() call is
    not interrupted. *)
From Coq Require Import List ZArith NArith Bool String.
From Verif Require Import PyBase Writer.
Import ListNotations.

Record job := mk_job {
  jb_lock : nat;      (* the recorder *)
  jb_file : nat;      (* its writer's file *)
  jb_writes : writes
}.
Inductive thread :=
| Idle (todo : list job)
| Inside (j : job) (rst : writes) (todo : list job).   (* holds the lock of j *)
Record pool := mk_pool {
  pl_threads : list thread;
  pl_locked : nat -> bool;
  pl_files : nat -> bytes
}.
Definition upd {A} (n : nat) (x : A) (f : nat -> A) : nat -> A := fun m => if Nat.eqb m n then x else f m.
Fixpoint put_nth {A} (n : nat) (x : A) (l : list A) : list A :=
  match l, n with
  | [], _ => []
  | _ :: t, O => x :: t
  | a :: t, S n => a :: put_nth n x t
  end.

(** thread [t] does its next step (nothing, if it waits for a lock or has finished) *)
Definition turn (t : nat) (p : pool) : pool :=
  match nth_error (pl_threads p) t with
  | Some (Idle (j :: todo)) =>
      if pl_locked p (jb_lock j) then p
      else mk_pool (put_nth t (Inside j (jb_writes j) todo) (pl_threads p)) (upd (jb_lock j) true (pl_locked p)) (pl_files p)
  | Some (Inside j (b :: rst) todo) =>
      mk_pool (put_nth t (Inside j rst todo) (pl_threads p)) (pl_locked p)
              (upd (jb_file j) (pl_files p (jb_file j) ++ b) (pl_files p))
  | Some (Inside j [] todo) =>
      mk_pool (put_nth t (Idle todo) (pl_threads p)) (upd (jb_lock j) false (pl_locked p)) (pl_files p)
  | _ => p
  end.
Definition turns (sched : list nat) (p : pool) : pool := fold_left (fun p t => turn t p) sched p.
Definition started (jobs : list (list job)) (files : nat -> bytes) : pool :=
  mk_pool (map Idle jobs) (fun _ => false) files.

(** ** Vocabulary of the statements *)
(** a log: which thread finished which job, in order *)
Definition done_by (t : nat) (log : list (nat * job)) : list job :=
  map snd (filter (fun x => Nat.eqb (fst x) t) log).
Definition written_to (f : nat) (log : list (nat * job)) : bytes :=
  List.concat (map (fun x => List.concat (jb_writes (snd x))) (filter (fun x => Nat.eqb (jb_file (snd x)) f) log)).
(** what a thread still has to do, including the job it is in *)
Definition unfinished (th : thread) : list job :=
  match th with Idle todo => todo | Inside j _ todo => j :: todo end.
(** [part] is what the job that is being written to [f] has written so far *)
Definition being_written (f : nat) (p : pool) (part : bytes) : Prop :=
  exists t j rst todo first, nth_error (pl_threads p) t = Some (Inside j rst todo) /\ jb_file j = f
    /\ jb_writes j = first ++ rst /\ part = List.concat first.
