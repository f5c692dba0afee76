(** * ReadSpec: consumers that read the content of records (content_stream), and what
    "such a consumer's loop ends" means *)
From Coq Require Import List ZArith NArith Bool.
From Verif Require Import PyBase Headers Streams Loader Iterator TermSpec.
Import ListNotations.

(** calls on a content stream: read(n), readline(n), or
    "while True: b = stream.read(n); if not b: break" *)
Inductive cop := CRead (n : option Z) | CLine (n : option Z) | CDrain (n : Z).

(** what a consumer does with a record: a call on the record's raw stream or
    get_record_offset ([ARaw]), or it opens content_stream() and makes calls on that *)
Inductive act := ARaw (u : uop) | AContent (cs : list cop).

Section Read.
  Context {zl : zenv} (f : nat).
  Notation rdr := (breader zl raw).

  Fixpoint drain_content (k : nat) (n : Z) (acc : bytes) (c : cstream zl rdr) : res bytes * cstream zl rdr :=
    match k with
    | O => (Err OutOfFuel, c)
    | Datatypes.S k' =>
        match cs_read (@rops zl f) f (Some n) c with
        | (Err e, c') => (Err e, c')
        | (Ok [], c') => (Ok acc, c')
        | (Ok b, c') => drain_content k' n (acc ++ b) c'
        end
    end.

  Definition content_op (x : cop) (c : cstream zl rdr) : res bytes * cstream zl rdr :=
    match x with
    | CRead n => cs_read (@rops zl f) f n c
    | CLine n => cs_readline (@rops zl f) f n c
    | CDrain n => drain_content f n [] c
    end.

  Fixpoint content_ops (xs : list cop) (c : cstream zl rdr) : list (res bytes) * cstream zl rdr :=
    match xs with
    | [] => ([], c)
    | x :: t => let (r, c1) := content_op x c in
                let (rs, c2) := content_ops t c1 in (r :: rs, c2)
    end.

  (** the content stream reads from the record's raw stream, which the iterator holds *)
  Definition do_act (a : act) (it : @iter zl) : list (res bytes) * @iter zl :=
    match a with
    | ARaw u => let (x, it') := user_op f u it in ([x], it')
    | AContent cs =>
        match it_record it with
        | None => ([], it)
        | Some rc => let (xs, c) := content_ops cs (content_stream (rc_http rc) (rc_stream rc)) in
                     (xs, it_set_rstream (cs_raw c) it)
        end
    end.

  Fixpoint do_acts (l : list act) (it : @iter zl) : list (res bytes) * @iter zl :=
    match l with
    | [] => ([], it)
    | a :: t => let (xs, it1) := do_act a it in
                let (ys, it2) := do_acts t it1 in (xs ++ ys, it2)
    end.

  (** for record in it: ... *)
  Fixpoint reading (he : henv) (o : lopts) (n : nat) (prog : nat -> list act) (k : nat) (it : @iter zl)
    : list (record rdr * list (res bytes)) * ending :=
    match n with
    | O => ([], EndExn OutOfFuel)
    | Datatypes.S n' =>
        match iter_next f he o it with
        | (Err e, _) => ([], EndExn e)
        | (Ok None, _) => ([], EndStop)
        | (Ok (Some rc), it1) =>
            let (xs, it2) := do_acts (prog k) it1 in
            let (os, en) := reading he o n' prog (Datatypes.S k) it2 in
            ((rc, xs) :: os, en)
        end
    end.
End Read.

(** from some amount of fuel on the result stays the same *)
Definition reading_ends {zl : zenv} (he : henv) (o : lopts) (prog : nat -> list act) (it : @iter zl)
           (os : list (record (breader zl raw) * list (res bytes))) (en : ending) : Prop :=
  exists N, forall n f, (N <= n)%nat -> (N <= f)%nat -> reading f he o n prog 0 it = (os, en).
