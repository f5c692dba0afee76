(** * AllSpec: a sequence of gzip members *)
From Coq Require Import List ZArith NArith Bool.
From Verif Require Import PyBase Streams StreamSpec.
Import ListNotations.
Open Scope Z_scope.

(** [data] is a sequence of members (each with a non-empty content if [ne]) whose contents
    make up [content] *)
Inductive members (zl : zenv) (ne : bool) : bytes -> bytes -> Prop :=
| mem_nil : members zl ne [] []
| mem_cons m o d c : is_member zl m o -> (ne = true -> o <> []) -> members zl ne d c ->
    members zl ne (m ++ d) (o ++ c).

(** [n] calls of read(), one after the other: the concatenated results *)
Fixpoint reads_n {zl S} (ops : sops S) (fuel n : nat) (b : breader zl S) : res bytes :=
  match n with
  | O => Ok []
  | Datatypes.S n' =>
      match br_read ops fuel None b with
      | (Ok x, b') => match reads_n ops fuel n' b' with Ok y => Ok (x ++ y) | Err e => Err e end
      | (Err e, _) => Err e
      end
  end.
