(** * StreamSpec: what it means for a stream to deliver a given content.
    Independent of the readers: only the abstract interface [sops] and lists. *)
From Coq Require Import List ZArith NArith Bool.
From Verif Require Import PyBase Streams.
Import ListNotations.
Open Scope Z_scope.

(** a length argument which is omitted or non-negative *)
Definition nonneg (n : option Z) : Prop := match n with Some k => 0 <= k | None => True end.

Section Spec.
  Context {S : Type} (ops : sops S) (R : S -> bytes -> Prop).

  (** [R s c]: stream state [s] still has exactly the bytes [c] to deliver.
      read(k) with k > 0 may return fewer than k bytes, but at least one unless the
      stream is at its end (a socket, a pipe, a file). *)
  Definition delivers : Prop :=
    forall s c k, R s c -> 0 < k ->
    exists out rest s', o_read ops (Some k) s = (Ok out, s') /\ R s' rest /\ c = out ++ rest
                        /\ lenZ out <= k /\ (out = [] -> c = []).

  (** read(k) returns k bytes if that many are left *)
  Definition exact_read : Prop :=
    forall s c k, R s c -> 0 < k ->
    exists s', o_read ops (Some k) s = (Ok (takeZ k c), s') /\ R s' (dropZ k c).

  (** readline(k) returns a non-empty beginning of the current line *)
  Definition line_prefix : Prop :=
    forall s c k, R s c -> 0 < k ->
    exists out rest s', o_readline ops (Some k) s = (Ok out, s') /\ R s' rest /\ c = out ++ rest
                        /\ lenZ out <= k /\ (out = [] -> c = [])
                        /\ exists more, take_line c = out ++ more.

  (** readline(k) returns the current line cut to k bytes *)
  Definition exact_line : Prop :=
    forall s c k, R s c -> 0 < k ->
    exists s', o_readline ops (Some k) s = (Ok (takeZ k (take_line c)), s')
               /\ R s' (dropZ (lenZ (takeZ k (take_line c))) c).

  (** the same for lines cut to at most 64 bytes *)
  Definition short_line : Prop :=
    forall s c k, R s c -> 0 < k <= 64 ->
    exists s', o_readline ops (Some k) s = (Ok (takeZ k (take_line c)), s')
               /\ R s' (dropZ (lenZ (takeZ k (take_line c))) c).

  (** readline() returns the current line *)
  Definition exact_full_line : Prop :=
    forall s c, R s c ->
    exists s', o_readline ops None s = (Ok (take_line c), s') /\ R s' (drop_line c).

  (** read() returns everything *)
  Definition exact_full_read : Prop :=
    forall s c, R s c ->
    exists s', o_read ops None s = (Ok c, s') /\ R s' [].
End Spec.

(** ** Programs of calls *)
Inductive call := CRead (n : option Z) | CLine (n : option Z).

Definition do_call {S} (ops : sops S) (c : call) (s : S) : res bytes * S :=
  match c with CRead n => o_read ops n s | CLine n => o_readline ops n s end.

(** perform calls until one raises; results in order, with the final state *)
Fixpoint run_calls {S} (ops : sops S) (cs : list call) (s : S) : list (res bytes) * S :=
  match cs with
  | [] => ([], s)
  | c :: t => match do_call ops c s with
              | (Ok b, s') => let (l, s'') := run_calls ops t s' in (Ok b :: l, s'')
              | (Err e, s') => ([Err e], s')
              end
  end.

(** the same calls on a file held in memory with the given remaining content *)
Fixpoint mem_calls (cs : list call) (content : bytes) : list bytes * bytes :=
  match cs with
  | [] => ([], content)
  | c :: t =>
      let out := match c with CRead n => read_of n content | CLine n => line_of n content end in
      let (l, rest) := mem_calls t (dropZ (lenZ out) content) in (out :: l, rest)
  end.

Definition call_arg (c : call) : option Z := match c with CRead n => n | CLine n => n end.
Definition nonneg_calls (cs : list call) : Prop := Forall (fun c => nonneg (call_arg c)) cs.
(** readline only without a limit *)
Definition full_lines (cs : list call) : Prop :=
  Forall (fun c => match c with CLine (Some _) => False | _ => True end) cs.

(** read(sizes k) repeatedly until b'' is returned (at most [n] times) *)
Fixpoint drain_reads {S} (ops : sops S) (n : nat) (sizes : nat -> Z) (k : nat) (s : S)
  : res bytes * S :=
  match n with
  | O => (Err OutOfFuel, s)
  | Datatypes.S n' =>
      match o_read ops (Some (sizes k)) s with
      | (Err e, s') => (Err e, s')
      | (Ok [], s') => (Ok [], s')
      | (Ok b, s') => match drain_reads ops n' sizes (Datatypes.S k) s' with
                      | (Ok r, s'') => (Ok (b ++ r), s'')
                      | (Err e, s'') => (Err e, s'')
                      end
      end
  end.

(** "fuel" only bounds the model's loops (Streams.v); this much always suffices *)
Definition enough (fuel : nat) (data : bytes) : Prop := (List.length data + 3 <= fuel)%nat.

(** [m] is one complete gzip member with content [out] (for the codec [zl]) *)
Definition is_member (zl : zenv) (m out : bytes) : Prop :=
  zfeed zl (zinit zl Gzip) m = Some (out, DDone []).
(** read() each member to its end, moving on with read_next_member() until it is False *)
Fixpoint member_contents {zl S} (ops : sops S) (fuel n : nat) (b : breader zl S) : list (res bytes) :=
  match n with
  | O => []
  | Datatypes.S n' =>
      let (r, b1) := br_read ops fuel None b in
      let (more, b2) := read_next_member b1 in
      r :: (if more then member_contents ops fuel n' b2 else [])
  end.

(** What is assumed of zlib in C08: inflate with a gzip wrapper (16 + MAX_WBITS) accepts
    the first byte silently and fails on the second unless both are the gzip magic. *)
Definition gz_magic (zl : zenv) : Prop :=
  (forall a, exists s, zfeed zl (zinit zl Gzip) [a] = Some ([], DActive s))
  /\ (forall a b, (a, b) <> (31%N, 139%N) -> zfeed zl (zinit zl Gzip) [a; b] = None).
