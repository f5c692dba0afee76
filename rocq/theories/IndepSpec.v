(** * IndepSpec: what "iteration does not depend on what the consumer reads" means *)
From Coq Require Import List ZArith NArith Bool.
From Verif Require Import PyBase Headers Streams Loader Iterator.
Import ListNotations.
Open Scope Z_scope.

(** a call with a size that is absent (None) or at least 0 *)
Definition plain_op (u : uop) : Prop :=
  match u with URead (Some n) | UReadline (Some n) => 0 <= n | _ => True end.
Definition plain_prog (prog : nat -> list uop) : Prop := forall k, Forall plain_op (prog k).

(** one read() of every record; nothing at all *)
Definition read_all : nat -> list uop := fun _ => [URead None].
Definition read_none : nat -> list uop := fun _ => [].

(** "for record in it: ...; it.get_record_offset(), it.get_record_length()": the k-th record is
    treated by [prog k] first.  The loop ends with (os, en) when every large enough amount of
    fuel gives this same result. *)
Definition loop_ends {zl : zenv} (he : henv) (o : lopts) (prog : nat -> list uop) (it : @iter zl)
           (os : list (@obs zl)) (en : ending) : Prop :=
  exists N, forall n f, (N <= n)%nat -> (N <= f)%nat -> run_iter f he o n prog 0 it = (os, en).

(** [a]: a record in the loop that reads each with one read(); [c]: in another loop.  Same
    record (headers, stream as handed out), same offset and length, same digest verdict; no
    read of [c] raises, and what they return together is a prefix of what the read() returned. *)
Record agree {zl : zenv} (a c : @obs zl) : Prop := {
  ag_record : ob_record c = ob_record a;
  ag_info : ob_info c = ob_info a;
  ag_passed : ob_passed c = ob_passed a;
  ag_reads : exists whole parts rest,
    ob_reads a = [Ok whole] /\ ob_reads c = map Ok parts /\ whole = List.concat parts ++ rest
}.
