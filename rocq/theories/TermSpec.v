(** * TermSpec: what "iteration ends" means *)
From Coq Require Import List ZArith NArith Bool.
From Verif Require Import PyBase Headers Streams Loader Iterator.
Import ListNotations.

(** The consumer's loop, "for record in it: ...": [prog k] is what it does with the k-th
    record (reads, readlines, get_record_offset) before asking for the next one.  The result:
    per record, the record and what the consumer's calls gave, and how the loop was left. *)
Fixpoint consumer {zl : zenv} (f : nat) (he : henv) (o : lopts) (n : nat) (prog : nat -> list uop)
         (k : nat) (it : @iter zl) : list (record (breader zl raw) * list (res bytes)) * ending :=
  match n with
  | O => ([], EndExn OutOfFuel)
  | Datatypes.S n' =>
      match iter_next f he o it with
      | (Err e, _) => ([], EndExn e)
      | (Ok None, _) => ([], EndStop)
      | (Ok (Some rc), it1) =>
          let (xs, it2) := user_ops f (prog k) it1 in
          let (os, en) := consumer f he o n' prog (Datatypes.S k) it2 in
          ((rc, xs) :: os, en)
      end
  end.

(** The Python loops are unbounded; the model's loops run on fuel and give OutOfFuel when it
    is used up.  A run "ends with (os, en)" when every large enough amount of fuel gives
    this same result. *)
Definition run_ends {zl : zenv} (he : henv) (o : lopts) (prog : nat -> list uop) (it : @iter zl)
           (os : list (record (breader zl raw) * list (res bytes))) (en : ending) : Prop :=
  exists N, forall n f, (N <= n)%nat -> (N <= f)%nat -> consumer f he o n prog 0 it = (os, en).

(** the exceptions that can leave next(), by option *)
Definition may_leave (o : lopts) (e : exn) : Prop :=
  e = ArchiveLoadFailed
  \/ (lo_norec o = false /\ e = AttributeErr)
  \/ (lo_norec o = false /\ lo_verify o = true /\ exists l, e = ParserExn l)
  \/ (lo_check o <> KFalse /\ e = BinasciiErr).

(** the exceptions a read of a record, or get_record_offset, can raise *)
Definition may_read (o : lopts) (e : exn) : Prop :=
  (lo_check o = KRaise /\ e = ArchiveLoadFailed) \/ (lo_check o <> KFalse /\ e = BinasciiErr).
