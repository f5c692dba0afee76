(** * Props_CapLocal: which capture a connection belongs to (C57), exactly *)
From Coq Require Import String List ZArith NArith Bool.
From Verif Require Import PyBase Headers Streams StreamSpec Loader Writer WriterSpec RoundSpec Capture CaptureSpec Toy CaptureToy.
Import ListNotations.
Open Scope Z_scope.
From Verif Require Import Thm_CapLocal.

(** the last beginning or end of a capture in thread [t]: the number of the capture that began, or
    none if a capture ended or there was none; [n]: the captures begun so far, [cur]: so far *)
Fixpoint last_mark (t n : nat) (ops : list op) (cur : option nat) : option nat :=
  match ops with
  | [] => cur
  | Enter t' _ :: ops => last_mark t (S n) ops (if Nat.eqb t' t then Some n else cur)
  | Exit t' :: ops => last_mark t n ops (if Nat.eqb t' t then None else cur)
  | _ :: ops => last_mark t n ops cur
  end.
(** nothing that begins or ends a capture in thread [t] *)
Definition no_mark (t : nat) (o : op) : Prop := match o with Enter t' _ | Exit t' => t' <> t | _ => True end.

(** C57, exactly, for all programs, nested captures included: a new connection is recorded by the
    capture that its thread began last, and by none if that thread has ended any capture since *)
Theorem C57_exact :
  forall fuel sha1 k outs ops t host port default tunnel,
  let w := snd (run fuel sha1 k ops (fresh outs)) in
  exists x, nth_error (wd_conns (snd (step fuel sha1 k (Make t host port default tunnel) w))) (List.length (wd_conns w)) = Some x
  /\ cn_rec x = last_mark t 0 ops None.
Proof. exact C57_exact_pf. Qed.
Print Assumptions C57_exact.

(** C57 is false of all nested captures: when an inner capture has ended, connections of the thread
    are not recorded, whatever captures around it are still active *)
Theorem C57_after_end_refuted :
  forall fuel sha1 k outs pre mid t host port default tunnel,
  Forall (no_mark t) mid ->
  let w := snd (run fuel sha1 k (pre ++ Exit t :: mid) (fresh outs)) in
  exists x, nth_error (wd_conns (snd (step fuel sha1 k (Make t host port default tunnel) w))) (List.length (wd_conns w)) = Some x /\ cn_rec x = None.
Proof. exact C57_after_end_refuted_pf. Qed.
Print Assumptions C57_after_end_refuted.

(** two captures around, the inner one has ended: the outer one is active *)
Example C57_ex_end : active 0 0 ([Enter 0 (ex_cf false); Enter 0 (ex_cf false)] ++ Exit 0 :: [Enter 1 (ex_cf false)]) [] = [0%nat]
  /\ Forall (no_mark 0) [Enter 1 (ex_cf false)]
  /\ last_mark 0 0 [Enter 0 (ex_cf false); Enter 1 (ex_cf false); Enter 0 (ex_cf false)] None = Some 2%nat.
Proof. split; [reflexivity|]. split; [|reflexivity]. apply Forall_cons; [discriminate|apply Forall_nil]. Qed.

(** C57: a connection keeps its recorder for ever, whatever captures begin or end, in whatever
    thread it is used: what is done with it after its capture has ended is still recorded *)
Theorem C57_kept :
  forall fuel sha1 k ops w c x, nth_error (wd_conns w) c = Some x ->
  exists x', nth_error (wd_conns (snd (run fuel sha1 k ops w))) c = Some x' /\ cn_rec x' = cn_rec x.
Proof. exact C57_kept_pf. Qed.
Print Assumptions C57_kept.

(** C57 is false of connections that outlive their capture: an exchange that begins after the
    capture has ended is written to its writer all the same *)
Theorem C57_late_refuted :
  exists ops late, active 0 0 ops [] = []
  /\ Forall (fun o => match o with Enter _ _ => False | _ => True end) late
  /\ wd_outs (snd (run 300 toy_hash toy_k ops (fresh [[]]))) = [[]]
  /\ (wd_conns (snd (run 300 toy_hash toy_k ops (fresh [[]]))) <> [] /\ Forall (fun x => cn_wire x = []) (wd_conns (snd (run 300 toy_hash toy_k ops (fresh [[]])))))
  /\ wd_outs (snd (run 300 toy_hash toy_k (ops ++ late) (fresh [[]]))) <> [[]].
Proof. exact C57_late_refuted_pf. Qed.
Print Assumptions C57_late_refuted.


