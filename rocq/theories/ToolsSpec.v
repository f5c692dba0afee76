(** * ToolsSpec: what "a command ends" means, and the exceptions each command may end with *)
From Coq Require Import List ZArith NArith Bool String.
From Verif Require Import PyBase.
Import ListNotations.

(** The Python programs have no loop bounds; the model runs on two amounts of fuel.  A command
    ends with [r] when all large enough amounts give [r]. *)
Definition ends {A} (run : nat -> nat -> A) (r : A) : Prop :=
  exists N, forall n f, (N <= n)%nat -> (N <= f)%nat -> run n f = r.

(** is some HTTP header among the requested index fields? *)
Definition wants_http (fields : list str) : Prop := exists g t, In g fields /\ g = lit "http:" ++ t.

Definition index_may (verify : bool) (fields : list str) (e : exn) : Prop :=
  e = ArchiveLoadFailed
  \/ (wants_http fields /\ (e = AttributeErr \/ (verify = true /\ exists l, e = ParserExn l))).
(** check catches ArchiveLoadFailed *)
Definition check_may (e : exn) : Prop := e = AttributeErr \/ e = BinasciiErr.
Definition copy_may (e : exn) : Prop := e = ArchiveLoadFailed \/ e = AttributeErr \/ e = UnicodeErr.
