(** * Thm_Digest: proofs of the theorems restated in Props_Digest.v *)
From Coq Require Import String List ZArith NArith Bool Lia.
From Coq Require Import ZifyBool ZifyNat ZifyN.
From Verif Require Import PyBase Codecs Streams StreamSpec DigestSpec Writer Toy.
Import ListNotations.
Open Scope Z_scope.

From Verif Require Import Facts StreamProofs CallProofs CodecProofs DigestProofs.

(** for the examples: a 20-byte toy hash called sha1 and a 16-byte one called md5 *)
Definition ex_sha1 (b : bytes) : bytes := toy_hash b ++ toy_hash b ++ toy_hash b ++ toy_hash b.
Definition ex_md5 (b : bytes) : bytes := toy_hash b ++ toy_hash b ++ toy_hash b ++ [1%N].
Definition ex_henv : henv :=
  fun n => if leqb n (lit "sha1") then Some ex_sha1 else if leqb n (lit "md5") then Some ex_md5 else None.
Definition ex_data : bytes := lit "head" ++ [LF] ++ lit "payload".
Definition sha1_of (b : bytes) : str := lit "sha1:" ++ b32encode (ex_sha1 b).
Definition sha1_hex (b : bytes) : str := lit "sha1:" ++ b16encode true (ex_sha1 b).
Definition md5_hex (b : bytes) : str := lit "md5:" ++ b16encode false (ex_md5 b).

Lemma in61_b16 up h : Forall (fun b => (b < 256)%N) h -> ~ In 61%N (b16encode up h).
Proof.
  intros Hh. induction Hh as [|b t Hb _ IH]; [intros []|]. cbn [b16encode]. intros [H|[H|H]]; [| |now apply IH].
  - destruct (b / 16 <? 10)%N eqn:E; [lia|]. destruct up; [|lia]. assert (b / 16 < 16)%N by (apply N.div_lt_upper_bound; lia). lia.
  - destruct (b mod 16 <? 10)%N eqn:E; [lia|]. assert (b mod 16 < 16)%N by (apply N.mod_lt; lia). destruct up; lia.
Qed.
Lemma in61_b32_16 h : List.length h = 16%nat -> In 61%N (b32encode h).
Proof.
  intros H. do 16 (destruct h as [|? h]; [discriminate|]). destruct h; [|discriminate]. cbn [b32encode app].
  do 26 right. left. reflexivity.
Qed.
Lemma in61_lower v : In 61%N v -> In 61%N (lower v).
Proof. intros H. change 61%N with (lower1 61). now apply in_map. Qed.

Lemma C45_verdict_pf :
  forall (S : Type) (ops : sops S) (R : S -> bytes -> Prop) (he : henv),
  delivers ops R -> line_prefix ops R -> henv_ok he ->
  forall k rt pd bd seg s c tail cs1 cs2,
  k <> KRaise -> judgeable he (eff_block rt bd) -> judgeable he (eff_payload rt seg pd) ->
  R s (c ++ tail) -> c <> [] -> nonneg_calls cs1 -> nonneg_calls cs2 ->
  exists h p rest chk,
    session ops he k rt pd bd seg s (lenZ c) cs1 cs2 = Finished h p chk
    /\ c = h ++ p ++ rest
    /\ (rest = [] -> forall vb vp,
          judged he c (eff_block rt bd) vb -> judged he p (eff_payload rt seg pd) vp ->
          dc_passed chk = combine vb vp).
Proof.
intros S ops R he HD HL Hhe k rt pd bd seg s c tail cs1 cs2 Hk Hb Hp HR Hc H1 H2.
assert (0 < lenZ c) as Hc' by now apply lenZ_pos.
destruct (session_main ops R HD HL he k rt pd bd seg s c tail (lenZ c) cs1 cs2 Hhe Hk Hb Hp HR Hc' (Z.le_refl _) ltac:(auto) H1 H2)
  as (h & p & rest & chk & E & Ec & HV).
exists h, p, rest, chk. split; [exact E|]. split; [exact Ec|]. intros -> vb vp Jb Jp.
apply (HV vb vp Jb Jp). rewrite app_nil_r in Ec. now rewrite <- Ec.
Qed.

Lemma C45_empty_block_refuted_pf :
  exists bd,
  judged ex_henv [] (Some bd) VBad
  /\ match session raw_ops ex_henv KTrue None None (Some bd) None (raw_open [] []) 0 [CRead None] [CRead None] with
     | Finished h p chk => dc_passed chk = None
     | Raised _ => False
     end.
Proof.
exists (lit "sha1:" ++ b32encode (ex_sha1 (lit "x"))). split; [|vm_compute; reflexivity].
apply (J_bad _ _ _ (lit "sha1") (b32encode (ex_sha1 (lit "x"))) ex_sha1 (ex_sha1 (lit "x"))).
- split; [reflexivity|]. intros H. repeat (destruct H as [H|H]; [discriminate|]). destruct H.
- reflexivity.
- now left.
- reflexivity.
- vm_compute. repeat constructor.
- vm_compute. discriminate.
Qed.

Lemma C46_compare_partial_pf :
  forall f algo data d value h, hash_ok f -> is_digest d algo value -> encodes h value ->
  List.length h = List.length (f data) -> Forall (fun b => (b < 256)%N) h ->
  exists b, compare_digest (Some (mk_dgst algo f data)) (Some d) = Ok (Some b) /\ (b = true <-> h = f data).
Proof.
intros f algo data d value h Hf Hd He Hl Hb. exists (leqb h (f data)). split; [now apply (compare_ok algo f data d algo value h)|].
split; [apply leqb_eq|]. intros ->. apply leqb_refl.
Qed.

Lemma C46_md5_hex_refuted_pf :
  forall f algo data value d, List.length (f data) = 16%nat -> Forall (fun b => (b < 256)%N) (f data) ->
  is_digest d algo value -> lower value = b16encode false (f data) ->
  compare_digest (Some (mk_dgst algo f data)) (Some d) = Ok (Some false).
Proof.
intros f algo data value d Hl Hb Hd Hv. unfold compare_digest. destruct d as [|x t]; [now apply is_digest_ne in Hd|].
unfold parse_digest. rewrite (split1_digest _ _ _ Hd). unfold dgst_b32. cbn [dg_fun dg_acc].
assert (lenZ value = lenZ (b32encode (f data))) as E.
{ rewrite <- lower_len, Hv. unfold lenZ. rewrite b16encode_len, b32encode_len, Hl. reflexivity. }
unfold to_b32. rewrite E, Z.eqb_refl. f_equal. f_equal. apply not_true_is_false. intros H. apply leqb_eq in H.
apply (in61_b16 false (f data) Hb). rewrite <- Hv. apply in61_lower. rewrite <- H. now apply in61_b32_16.
Qed.

Lemma C47_truncated_partial_pf :
  forall (S : Type) (ops : sops S) (R : S -> bytes -> Prop) (he : henv),
  delivers ops R -> line_prefix ops R -> henv_ok he ->
  forall k rt pd bd seg s c L cs1 cs2,
  k <> KRaise -> judgeable he (eff_block rt bd) -> judgeable he (eff_payload rt seg pd) ->
  R s c -> lenZ c < L -> nonneg_calls cs1 -> nonneg_calls cs2 ->
  exists h p rest chk,
    session ops he k rt pd bd seg s L cs1 cs2 = Finished h p chk
    /\ c = h ++ p ++ rest /\ dc_passed chk <> Some true.
Proof.
intros S ops R he HD HL Hhe k rt pd bd seg s c L cs1 cs2 Hk Hb Hp HR HLt H1 H2.
assert (0 <= lenZ c) as Hc' by apply lenZ_nonneg. rewrite <- (app_nil_r c) in HR.
destruct (session_main ops R HD HL he k rt pd bd seg s c [] L cs1 cs2 Hhe Hk Hb Hp HR ltac:(lia) ltac:(lia) ltac:(congruence) H1 H2)
  as (h & p & rest & chk & E & Ec & HV).
exists h, p, rest, chk. split; [exact E|]. split; [exact Ec|]. destruct (Hb c) as (vb & Jb). destruct (Hp p) as (vp & Jp).
apply (HV vb vp Jb Jp). intros EL. subst c. rewrite !lenZ_app in *. pose proof (lenZ_nonneg rest). lia.
Qed.

Lemma C47_refuted_pf :
  exists content cut L, cut <> content /\ (exists lost, content = cut ++ lost) /\ L = lenZ content
  /\ match session raw_ops ex_henv KTrue None None (Some (sha1_of content)) None (raw_open cut []) L [CRead None] [CRead None] with
     | Finished h p chk => dc_passed chk = None /\ dc_problems chk = []
     | Raised _ => False
     end.
Proof.
exists (lit "abcdef"), (lit "abc"), 6. split; [vm_compute; discriminate|]. split; [exists (lit "def"); reflexivity|]. split; [reflexivity|].
vm_compute. auto.
Qed.

Lemma C48_exceptions_partial_pf :
  forall (S : Type) (ops : sops S) (R : S -> bytes -> Prop) (he : henv),
  delivers ops R -> line_prefix ops R ->
  forall k rt pd bd seg s c tail L cs1 cs2,
  k <> KRaise -> R s (c ++ tail) -> lenZ c <= L -> (tail <> [] -> L = lenZ c) ->
  nonneg_calls cs1 -> nonneg_calls cs2 ->
  match session ops he k rt pd bd seg s L cs1 cs2 with
  | Finished h p _ => exists rest, c = h ++ p ++ rest
  | Raised e => e = BinasciiErr
  end.
Proof.
intros S ops R he HD HL k rt pd bd seg s c tail L cs1 cs2 Hk HR Hle Ht H1 H2.
exact (session_err ops R tail HD HL he k rt pd bd seg s c L cs1 cs2 Hk HR Hle Ht H1 H2).
Qed.

Lemma C48_refuted_pf :
  session raw_ops ex_henv KTrue None None (Some (lit "sha1:ABC")) None (raw_open ex_data []) 12 [CRead None] [] = Raised BinasciiErr.
Proof.
vm_compute. reflexivity.
Qed.

Lemma C49_raise_pf :
  forall (S : Type) (ops : sops S) (he : henv) k rt pd bd seg (s : S) L cs1 cs2, k <> KRaise ->
  match session ops he k rt pd bd seg s L cs1 cs2 with
  | Finished h p c =>
      (dc_passed c = Some false -> session ops he KRaise rt pd bd seg s L cs1 cs2 = Raised ArchiveLoadFailed)
      /\ (dc_passed c <> Some false ->
          exists c', session ops he KRaise rt pd bd seg s L cs1 cs2 = Finished h p c' /\ dc_passed c' = dc_passed c)
  | Raised e =>
      session ops he KRaise rt pd bd seg s L cs1 cs2 = Raised e
      \/ session ops he KRaise rt pd bd seg s L cs1 cs2 = Raised ArchiveLoadFailed
  end.
Proof.
intros S ops he k rt pd bd seg s L cs1 cs2 Hk. exact (session_raise ops he k rt pd bd seg s L cs1 cs2 Hk).
Qed.
