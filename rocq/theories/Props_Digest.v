(** * Props_Digest: digest verification (C45-C49) *)
From Coq Require Import String List ZArith NArith Bool Lia.
From Coq Require Import ZifyBool ZifyNat ZifyN.
From Verif Require Import PyBase Codecs Streams StreamSpec DigestSpec Writer Toy.
Import ListNotations.
Open Scope Z_scope.
From Verif Require Import Thm_Digest.

(** for the examples: a 20-byte toy hash called sha1 and a 16-byte one called md5 *)
Definition ex_sha1 (b : bytes) : bytes := toy_hash b ++ toy_hash b ++ toy_hash b ++ toy_hash b.
Definition ex_md5 (b : bytes) : bytes := toy_hash b ++ toy_hash b ++ toy_hash b ++ [1%N].
Definition ex_henv : henv :=
  fun n => if leqb n (lit "sha1") then Some ex_sha1 else if leqb n (lit "md5") then Some ex_md5 else None.
Definition ex_data : bytes := lit "head" ++ [LF] ++ lit "payload".
Definition sha1_of (b : bytes) : str := lit "sha1:" ++ b32encode (ex_sha1 b).
Definition sha1_hex (b : bytes) : str := lit "sha1:" ++ b16encode true (ex_sha1 b).
Definition md5_hex (b : bytes) : str := lit "md5:" ++ b16encode false (ex_md5 b).

(** C45.  A block of [c] bytes with Content-Length [lenZ c] > 0 is read by calls [cs1],
    then begin_payload(), then calls [cs2], from any stream that delivers it ([tail] is
    what follows in the stream).  No call raises; the results are [h] and [p].  If the
    block was read to its end, the checker's [passed] is False if the block digest is bad
    for [c] or the payload digest is bad for [p], otherwise True if one of them is good,
    otherwise None. *)
Theorem C45_verdict :
  forall (S : Type) (ops : sops S) (R : S -> bytes -> Prop) (he : henv),
  delivers ops R -> line_prefix ops R -> henv_ok he ->
  forall k rt pd bd seg s c tail cs1 cs2,
  k <> KRaise -> judgeable he (eff_block rt bd) -> judgeable he (eff_payload rt seg pd) ->
  R s (c ++ tail) -> c <> [] -> nonneg_calls cs1 -> nonneg_calls cs2 ->
  exists h p rest chk,
    session ops he k rt pd bd seg s (lenZ c) cs1 cs2 = Finished h p chk
    /\ c = h ++ p ++ rest
    /\ (rest = [] -> forall vb vp,
          judged he c (eff_block rt bd) vb -> judged he p (eff_payload rt seg pd) vp ->
          dc_passed chk = combine vb vp).
Proof. exact C45_verdict_pf. Qed.
Print Assumptions C45_verdict.

(** block and payload digests of the same record, in different encodings, all good;
    then the same with one byte of the payload changed *)
Example C45_ex_good :
  match session raw_ops ex_henv KTrue (Some (lit "response")) (Some (sha1_hex (lit "payload"))) (Some (sha1_of ex_data)) None
          (raw_open (ex_data ++ lit "next") [3; 1]) 12 [CLine None] [CRead (Some 2); CRead None; CRead (Some 5); CRead None] with
  | Finished h p chk => (leqb h (lit "head" ++ [LF]) && leqb p (lit "payload"), dc_passed chk) = (true, Some true)
  | Raised _ => False
  end.
Proof. vm_compute. reflexivity. Qed.
Example C45_ex_bad :
  match session raw_ops ex_henv KTrue (Some (lit "response")) (Some (sha1_hex (lit "payload"))) None None
          (raw_open (lit "head" ++ [LF] ++ lit "pAyload") []) 12 [CLine None] [CRead None] with
  | Finished h p chk => dc_passed chk = Some false
  | Raised _ => False
  end.
Proof. vm_compute. reflexivity. Qed.
Example C45_ex_henv : henv_ok ex_henv.
Proof.
  assert (H : forall x n, Forall (fun b => (b < 256)%N) (toy_hash x) /\ List.length (toy_hash x) = 5%nat /\ n = n :> N).
  { intros x n. split; [|auto]. unfold toy_hash. repeat constructor; try (apply N.mod_lt; discriminate). }
  intros a f. unfold ex_henv. destruct (leqb a (lit "sha1")); [|destruct (leqb a (lit "md5")); [|discriminate]]; intros [= <-].
  - exists 20%nat. split; [lia|]. intros x. destruct (H x 0%N) as [H1 [H2 _]]. unfold ex_sha1. rewrite !app_length, H2. split; [reflexivity|].
    repeat (apply Forall_app; split; [assumption|]). assumption.
  - exists 16%nat. split; [lia|]. intros x. destruct (H x 0%N) as [H1 [H2 _]]. unfold ex_md5. rewrite !app_length, H2. split; [reflexivity|].
    repeat (apply Forall_app; split; [assumption|]). repeat constructor.
Qed.
Example C45_ex_judgeable : judgeable ex_henv (Some (sha1_of ex_data)).
Proof.
  intros data. destruct (leqb (ex_sha1 ex_data) (ex_sha1 data)) eqn:E.
  - exists VGood. apply (J_good _ _ _ (lit "sha1") (b32encode (ex_sha1 ex_data)) ex_sha1); [split; [reflexivity|]|reflexivity|left].
    + intros H. repeat (destruct H as [H|H]; [discriminate|]). destruct H.
    + f_equal. revert E. generalize (ex_sha1 ex_data), (ex_sha1 data). intros u. induction u as [|x l IH]; intros [|y m]; cbn; try discriminate; auto.
      intros H. apply andb_true_iff in H as [Ha Hb]. apply N.eqb_eq in Ha. f_equal; auto.
  - exists VBad. apply (J_bad _ _ _ (lit "sha1") (b32encode (ex_sha1 ex_data)) ex_sha1 (ex_sha1 ex_data)).
    + split; [reflexivity|]. intros H. repeat (destruct H as [H|H]; [discriminate|]). destruct H.
    + reflexivity.
    + now left.
    + unfold ex_sha1. rewrite !app_length. reflexivity.
    + vm_compute. repeat constructor.
    + intros H. rewrite H in E. clear H. revert E. induction (ex_sha1 data) as [|x l IH]; cbn; [discriminate|]. rewrite N.eqb_refl. exact IH.
Qed.

(** The verdict is wrong for an empty block: its block digest is never compared, so a wrong
    one leaves [passed] at None (although it is bad for the content). *)
Theorem C45_empty_block_refuted :
  exists bd,
  judged ex_henv [] (Some bd) VBad
  /\ match session raw_ops ex_henv KTrue None None (Some bd) None (raw_open [] []) 0 [CRead None] [CRead None] with
     | Finished h p chk => dc_passed chk = None
     | Raised _ => False
     end.
Proof. exact C45_empty_block_refuted_pf. Qed.
Print Assumptions C45_empty_block_refuted.



(** C46.  A value that encodes some hash [h] of the algorithm's length (base32, base16 in any
    case, base64 with either alphabet) is accepted iff [h] is the hash of the content.
    Missing: base16 for 16-byte hashes (excluded by [encodes]), see C46_md5_hex_refuted. *)
Theorem C46_compare_partial :
  forall f algo data d value h, hash_ok f -> is_digest d algo value -> encodes h value ->
  List.length h = List.length (f data) -> Forall (fun b => (b < 256)%N) h ->
  exists b, compare_digest (Some (mk_dgst algo f data)) (Some d) = Ok (Some b) /\ (b = true <-> h = f data).
Proof. exact C46_compare_partial_pf. Qed.
Print Assumptions C46_compare_partial.

Example C46_ex : encodes (ex_sha1 ex_data) (b16encode true (ex_sha1 ex_data)) /\ encodes (ex_sha1 ex_data) (b64encode true (ex_sha1 ex_data))
  /\ compare_digest (Some (mk_dgst (lit "sha1") ex_sha1 ex_data)) (Some (sha1_hex ex_data)) = Ok (Some true)
  /\ compare_digest (Some (mk_dgst (lit "sha1") ex_sha1 [])) (Some (sha1_hex ex_data)) = Ok (Some false).
Proof.
  split; [right; left; split; [unfold ex_sha1; rewrite !app_length; cbn; lia|vm_compute; reflexivity]|].
  split; [right; right; now exists true|]. vm_compute. auto.
Qed.

(** Every correct hexadecimal digest of a 16-byte hash (MD5) is rejected: its length equals
    that of the base32 text, so it is taken for base32. *)
Theorem C46_md5_hex_refuted :
  forall f algo data value d, List.length (f data) = 16%nat -> Forall (fun b => (b < 256)%N) (f data) ->
  is_digest d algo value -> lower value = b16encode false (f data) ->
  compare_digest (Some (mk_dgst algo f data)) (Some d) = Ok (Some false).
Proof. exact C46_md5_hex_refuted_pf. Qed.
Print Assumptions C46_md5_hex_refuted.

Example C46_ex_md5 : compare_digest (Some (mk_dgst (lit "md5") ex_md5 ex_data)) (Some (md5_hex ex_data)) = Ok (Some false).
Proof. vm_compute. reflexivity. Qed.

(** C47, what holds: content that ends before its Content-Length [L] is never reported as
    passed, whatever is read.  Missing: that it is reported as a failure, see C47_refuted. *)
Theorem C47_truncated_partial :
  forall (S : Type) (ops : sops S) (R : S -> bytes -> Prop) (he : henv),
  delivers ops R -> line_prefix ops R -> henv_ok he ->
  forall k rt pd bd seg s c L cs1 cs2,
  k <> KRaise -> judgeable he (eff_block rt bd) -> judgeable he (eff_payload rt seg pd) ->
  R s c -> lenZ c < L -> nonneg_calls cs1 -> nonneg_calls cs2 ->
  exists h p rest chk,
    session ops he k rt pd bd seg s L cs1 cs2 = Finished h p chk
    /\ c = h ++ p ++ rest /\ dc_passed chk <> Some true.
Proof. exact C47_truncated_partial_pf. Qed.
Print Assumptions C47_truncated_partial.

Example C47_ex : match session raw_ops ex_henv KTrue None (Some (sha1_of (lit "payload"))) None None (raw_open (lit "payload") []) 12 [] [CRead None; CRead None] with
  | Finished h p chk => leqb p (lit "payload") = true /\ dc_passed chk = None | Raised _ => False end.
Proof. vm_compute. auto. Qed.

(** A record cut off in the middle of its content, with a digest of the complete content: all
    reads succeed and the record is not flagged. *)
Theorem C47_refuted :
  exists content cut L, cut <> content /\ (exists lost, content = cut ++ lost) /\ L = lenZ content
  /\ match session raw_ops ex_henv KTrue None None (Some (sha1_of content)) None (raw_open cut []) L [CRead None] [CRead None] with
     | Finished h p chk => dc_passed chk = None /\ dc_problems chk = []
     | Raised _ => False
     end.
Proof. exact C47_refuted_pf. Qed.
Print Assumptions C47_refuted.



(** C48, what holds for all digest header strings: the only exception that reading can
    produce (outside raise mode) is binascii.Error.  Missing: that exception itself, see
    C48_refuted. *)
Theorem C48_exceptions_partial :
  forall (S : Type) (ops : sops S) (R : S -> bytes -> Prop) (he : henv),
  delivers ops R -> line_prefix ops R ->
  forall k rt pd bd seg s c tail L cs1 cs2,
  k <> KRaise -> R s (c ++ tail) -> lenZ c <= L -> (tail <> [] -> L = lenZ c) ->
  nonneg_calls cs1 -> nonneg_calls cs2 ->
  match session ops he k rt pd bd seg s L cs1 cs2 with
  | Finished h p _ => exists rest, c = h ++ p ++ rest
  | Raised e => e = BinasciiErr
  end.
Proof. exact C48_exceptions_partial_pf. Qed.
Print Assumptions C48_exceptions_partial.

Example C48_ex : match session raw_ops ex_henv KTrue None None (Some (lit "no colon here")) None (raw_open ex_data []) 12 [CRead None] [] with
  | Finished h _ chk => leqb h ex_data = true /\ dc_passed chk = Some false | Raised _ => False end.
Proof. vm_compute. auto. Qed.

(** A malformed digest value makes the read that reaches the end of the block raise. *)
Theorem C48_refuted :
  session raw_ops ex_henv KTrue None None (Some (lit "sha1:ABC")) None (raw_open ex_data []) 12 [CRead None] [] = Raised BinasciiErr.
Proof. exact C48_refuted_pf. Qed.
Print Assumptions C48_refuted.



(** C49.  For every stream (even one that raises), every record and every sequence of calls:
    reading in raise mode raises ArchiveLoadFailed if reading in plain mode ends with [passed]
    False, and otherwise returns the same bytes with the same verdict. *)
Theorem C49_raise :
  forall (S : Type) (ops : sops S) (he : henv) k rt pd bd seg (s : S) L cs1 cs2, k <> KRaise ->
  match session ops he k rt pd bd seg s L cs1 cs2 with
  | Finished h p c =>
      (dc_passed c = Some false -> session ops he KRaise rt pd bd seg s L cs1 cs2 = Raised ArchiveLoadFailed)
      /\ (dc_passed c <> Some false ->
          exists c', session ops he KRaise rt pd bd seg s L cs1 cs2 = Finished h p c' /\ dc_passed c' = dc_passed c)
  | Raised e =>
      session ops he KRaise rt pd bd seg s L cs1 cs2 = Raised e
      \/ session ops he KRaise rt pd bd seg s L cs1 cs2 = Raised ArchiveLoadFailed
  end.
Proof. exact C49_raise_pf. Qed.
Print Assumptions C49_raise.

Example C49_ex_bad : session raw_ops ex_henv KRaise None None (Some (sha1_of (lit "other"))) None (raw_open ex_data []) 12 [CRead (Some 4)] [CRead None]
  = Raised ArchiveLoadFailed.
Proof. vm_compute. reflexivity. Qed.
Example C49_ex_good : match session raw_ops ex_henv KRaise None None (Some (sha1_of ex_data)) None (raw_open ex_data []) 12 [CRead (Some 4)] [CRead None] with
  | Finished h p c => dc_passed c = Some true | Raised _ => False end.
Proof. vm_compute. reflexivity. Qed.
