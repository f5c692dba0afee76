(** * Props_Stream: LimitReader (C01-C04) *)
From Coq Require Import String List ZArith NArith Bool Lia.
From Coq Require Import ZifyBool ZifyNat ZifyN.
From Verif Require Import PyBase Streams StreamSpec.
Import ListNotations.
Open Scope Z_scope.
From Verif Require Import Thm_Stream.

(** C01, any wrapped stream.  [R s c] says that wrapped stream [s] still has the
    bytes [c]; [delivers]/[line_prefix] (StreamSpec.v) are what a file-like object
    guarantees, short reads included.  [bs] are the results of the calls, [rest] is
    what the wrapped stream still has afterwards. *)
Theorem C01_limit_confined :
  forall (S : Type) (ops : sops S) (R : S -> bytes -> Prop),
  delivers ops R -> line_prefix ops R ->
  forall s c limit calls, R s c -> 0 <= limit -> nonneg_calls calls ->
  exists bs rest l,
    run_calls (lim_ops ops) calls (lim_new s limit) = (map Ok bs, l)
    /\ c = concat bs ++ rest /\ R (lm_stream l) rest
    /\ lenZ (concat bs) <= limit
    /\ lim_tell l = lenZ (concat bs).
Proof. exact C01_limit_confined_pf. Qed.
Print Assumptions C01_limit_confined.

(** a file is such a stream, whatever its short reads: C01 for files, concretely *)

(** C01 for a file (or pipe, socket) with content [data] and arbitrary short reads [sched] *)
Theorem C01_limit_file :
  forall data sched limit calls, 0 <= limit -> nonneg_calls calls ->
  exists bs l,
    run_calls (lim_ops raw_ops) calls (lim_new (raw_open data sched) limit) = (map Ok bs, l)
    /\ data = concat bs ++ rw_rest (lm_stream l)
    /\ lenZ (concat bs) <= limit
    /\ rw_pos (lm_stream l) = lenZ (concat bs)
    /\ lim_tell l = lenZ (concat bs).
Proof. exact C01_limit_file_pf. Qed.
Print Assumptions C01_limit_file.

Example C01_ex :
  run_calls (lim_ops raw_ops) [CRead (Some 3); CLine None; CRead None; CRead None]
            (lim_new (raw_open (lit "abcdefghij") [2; 1; 1]) 7)
  = ([Ok (lit "ab"); Ok (lit "cdefg"); Ok []; Ok []], mk_lim (mk_raw (lit "hij") 7 [1; 1]) 0 7).
Proof. vm_compute. reflexivity. Qed.

(** ... and on a file without short reads a LimitReader is the file cut at the limit *)
Theorem C01_limit_exact :
  forall data limit calls, 0 <= limit -> nonneg_calls calls ->
  fst (run_calls (lim_ops raw_ops) calls (lim_new (raw_open data []) limit))
  = map Ok (fst (mem_calls calls (takeZ limit data))).
Proof. exact C01_limit_exact_pf. Qed.
Print Assumptions C01_limit_exact.

Example C01_exact_ex : nonneg_calls [CRead (Some 3); CLine None; CRead None]
  /\ fst (mem_calls [CRead (Some 3); CLine None; CRead None] (takeZ 7 (lit "abcdefghij"))) = [lit "abc"; lit "defg"; []].
Proof. split; [repeat constructor; cbn; lia|vm_compute; reflexivity]. Qed.

(** C02: any wrapped stream, any positive read sizes *)
Theorem C02_limit_drain :
  forall (S : Type) (ops : sops S) (R : S -> bytes -> Prop), delivers ops R ->
  forall s c limit sizes n, R s c -> 0 <= limit -> (forall i, 0 < sizes i) -> (List.length c < n)%nat ->
  exists l, drain_reads (lim_ops ops) n sizes 0 (lim_new s limit) = (Ok (takeZ limit c), l)
            /\ R (lm_stream l) (dropZ limit c).
Proof. exact C02_limit_drain_pf. Qed.
Print Assumptions C02_limit_drain.



(** C02 for files *)
Theorem C02_limit_drain_file :
  forall data sched limit sizes, 0 <= limit -> (forall i, 0 < sizes i) ->
  exists l, drain_reads (lim_ops raw_ops) (Datatypes.S (List.length data)) sizes 0 (lim_new (raw_open data sched) limit)
            = (Ok (takeZ limit data), l)
            /\ rw_rest (lm_stream l) = dropZ limit data.
Proof. exact C02_limit_drain_file_pf. Qed.
Print Assumptions C02_limit_drain_file.

Example C02_ex : drain_reads (lim_ops raw_ops) 11 (fun i => Z.of_nat i + 1) 0 (lim_new (raw_open (lit "abcdefghij") [2; 1; 1]) 7)
  = (Ok (lit "abcdefg"), mk_lim (mk_raw (lit "hij") 7 []) 0 7).
Proof. vm_compute. reflexivity. Qed.

(** C03 is false: a negative length, which means "everything" in Python's file API,
    bypasses the limit (finding).  min(-1, limit) = -1 is passed on. *)
Theorem C03_negative_length_refuted :
  (exists data limit out l, 0 <= limit
     /\ lim_read raw_ops (Some (-1)) (lim_new (raw_open data []) limit) = (Ok out, l) /\ limit < lenZ out)
  /\ (exists data limit out l, 0 <= limit
     /\ lim_readline raw_ops (Some (-1)) (lim_new (raw_open data []) limit) = (Ok out, l) /\ limit < lenZ out).
Proof. exact C03_negative_length_refuted_pf. Qed.
Print Assumptions C03_negative_length_refuted.



(** C03, the part that holds: every single call with an omitted or non-negative length,
    in any state reached by such calls *)
Theorem C03_limit_length_partial :
  forall data sched limit calls k, 0 <= limit -> nonneg_calls calls -> nonneg (call_arg k) ->
  exists b l, do_call (lim_ops raw_ops) k
     (snd (run_calls (lim_ops raw_ops) calls (lim_new (raw_open data sched) limit))) = (Ok b, l) /\ lenZ b <= limit.
Proof. exact C03_limit_length_partial_pf. Qed.
Print Assumptions C03_limit_length_partial.



(** C04: wrap_stream(s, n) on a stream which is not a LimitReader.  [str_of_Z n] is the
    decimal text of n. *)
Theorem C04_wrap_fresh :
  forall (S : Type) (ops : sops S) (R : S -> bytes -> Prop), delivers ops R ->
  forall s c k sizes n, R s c -> 0 <= k -> (forall i, 0 < sizes i) -> (List.length c < n)%nat ->
  exists l l', lim_wrap (inl s) (Some (str_of_Z k)) = inr l
     /\ drain_reads (lim_ops ops) n sizes 0 l = (Ok (takeZ k c), l') /\ lim_tell l = 0.
Proof. exact C04_wrap_fresh_pf. Qed.
Print Assumptions C04_wrap_fresh.



(** C04: wrap_stream on a LimitReader in use (any state reached from a fresh one by
    non-negative calls): the remaining bytes are cut to the smaller limit. *)
Theorem C04_wrap_limited :
  forall data sched limit calls k sizes, 0 <= limit -> nonneg_calls calls -> 0 <= k -> (forall i, 0 < sizes i) ->
  exists bs l l1 l2,
    run_calls (lim_ops raw_ops) calls (lim_new (raw_open data sched) limit) = (map Ok bs, l)
    /\ lim_wrap (inr l) (Some (str_of_Z k)) = inr l1
    /\ drain_reads (lim_ops raw_ops) (Datatypes.S (List.length data)) sizes 0 l1
       = (Ok (takeZ (Z.min (limit - lenZ (concat bs)) k) (dropZ (lenZ (concat bs)) data)), l2).
Proof. exact C04_wrap_limited_pf. Qed.
Print Assumptions C04_wrap_limited.

Example C04_ex : exists l, lim_wrap (inr (lim_new (raw_open (lit "abcdefghij") [3]) 7)) (Some (lit "4")) = inr l
  /\ fst (drain_reads (lim_ops raw_ops) 11 (fun _ => 3) 0 l) = Ok (lit "abcd").
Proof. eexists. split; vm_compute; reflexivity. Qed.

(** C04: no content length, a text without any decimal digit, or a negative number:
    the stream itself is returned *)
Theorem C04_wrap_invalid :
  forall (S : Type) (s : S + limr S),
  lim_wrap s None = s
  /\ (forall cl, (forall c, In c cl -> ~ (48 <= to_ascii_digit c <= 57)%N) -> lim_wrap s (Some cl) = s)
  /\ (forall n, 0 < n -> lim_wrap s (Some (lit "-" ++ str_of_Z n)) = s).
Proof. exact C04_wrap_invalid_pf. Qed.
Print Assumptions C04_wrap_invalid.



(** C04's tell() clause is false when the stream already was a LimitReader: only .limit is
    lowered, so tell() on the fresh result is not 0 (finding) *)
Theorem C04_wrap_tell_refuted :
  exists data limit k l, 0 <= k <= limit
    /\ lim_wrap (inr (lim_new (raw_open data []) limit)) (Some (str_of_Z k)) = inr l /\ lim_tell l <> 0.
Proof. exact C04_wrap_tell_refuted_pf. Qed.
Print Assumptions C04_wrap_tell_refuted.


