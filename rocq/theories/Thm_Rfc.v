(** * Thm_Rfc: proofs of the theorems restated in Props_Rfc.v *)
From Coq Require Import String List ZArith NArith Bool Lia.
From Coq Require Import ZifyBool ZifyNat ZifyN.
From Verif Require Import PyBase Codecs Streams StreamSpec RfcSpec.
Import ListNotations.

From Verif Require Import Facts.

Lemma byte_bits_of a : (a < 256)%N -> exists b7 b6 b5 b4 b3 b2 b1 b0,
  a = bits_value [b7; b6; b5; b4; b3; b2; b1; b0] /\ byte_bits a = [b7; b6; b5; b4; b3; b2; b1; b0].
Proof.
  intros H. exists (N.testbit a 7), (N.testbit a 6), (N.testbit a 5), (N.testbit a 4),
    (N.testbit a 3), (N.testbit a 2), (N.testbit a 1), (N.testbit a 0). split; [|reflexivity].
  assert (forallb (fun n => let a := N.of_nat n in N.eqb a (bits_value (byte_bits a))) (seq 0 256) = true) as F
    by (vm_compute; reflexivity).
  rewrite forallb_forall in F. specialize (F (N.to_nat a)).
  rewrite N2Nat.id in F. apply N.eqb_eq. apply F. apply in_seq. lia.
Qed.

Ltac bits := repeat match goal with b : bool |- _ => destruct b end; reflexivity.

Lemma div8 b7 b6 b5 b4 b3 b2 b1 b0 : (bits_value [b7; b6; b5; b4; b3; b2; b1; b0] / 8 = bits_value [b7; b6; b5; b4; b3])%N. Proof. bits. Qed.
Lemma mod8 b7 b6 b5 b4 b3 b2 b1 b0 : (bits_value [b7; b6; b5; b4; b3; b2; b1; b0] mod 8 = bits_value [b2; b1; b0])%N. Proof. bits. Qed.
Lemma div64 b7 b6 b5 b4 b3 b2 b1 b0 : (bits_value [b7; b6; b5; b4; b3; b2; b1; b0] / 64 = bits_value [b7; b6])%N. Proof. bits. Qed.
Lemma mod64 b7 b6 b5 b4 b3 b2 b1 b0 : (bits_value [b7; b6; b5; b4; b3; b2; b1; b0] mod 64 = bits_value [b5; b4; b3; b2; b1; b0])%N. Proof. bits. Qed.
Lemma div2mod b7 b6 b5 b4 b3 b2 b1 b0 : (bits_value [b7; b6; b5; b4; b3; b2; b1; b0] / 2 mod 32 = bits_value [b5; b4; b3; b2; b1])%N. Proof. bits. Qed.
Lemma mod2 b7 b6 b5 b4 b3 b2 b1 b0 : (bits_value [b7; b6; b5; b4; b3; b2; b1; b0] mod 2 = bits_value [b0])%N. Proof. bits. Qed.
Lemma div16 b7 b6 b5 b4 b3 b2 b1 b0 : (bits_value [b7; b6; b5; b4; b3; b2; b1; b0] / 16 = bits_value [b7; b6; b5; b4])%N. Proof. bits. Qed.
Lemma mod16 b7 b6 b5 b4 b3 b2 b1 b0 : (bits_value [b7; b6; b5; b4; b3; b2; b1; b0] mod 16 = bits_value [b3; b2; b1; b0])%N. Proof. bits. Qed.
Lemma div128 b7 b6 b5 b4 b3 b2 b1 b0 : (bits_value [b7; b6; b5; b4; b3; b2; b1; b0] / 128 = bits_value [b7])%N. Proof. bits. Qed.
Lemma div4mod b7 b6 b5 b4 b3 b2 b1 b0 : (bits_value [b7; b6; b5; b4; b3; b2; b1; b0] / 4 mod 32 = bits_value [b6; b5; b4; b3; b2])%N. Proof. bits. Qed.
Lemma div4 b7 b6 b5 b4 b3 b2 b1 b0 : (bits_value [b7; b6; b5; b4; b3; b2; b1; b0] / 4 = bits_value [b7; b6; b5; b4; b3; b2])%N. Proof. bits. Qed.
Lemma mod4 b7 b6 b5 b4 b3 b2 b1 b0 : (bits_value [b7; b6; b5; b4; b3; b2; b1; b0] mod 4 = bits_value [b1; b0])%N. Proof. bits. Qed.
Lemma div32 b7 b6 b5 b4 b3 b2 b1 b0 : (bits_value [b7; b6; b5; b4; b3; b2; b1; b0] / 32 = bits_value [b7; b6; b5])%N. Proof. bits. Qed.
Lemma mod32 b7 b6 b5 b4 b3 b2 b1 b0 : (bits_value [b7; b6; b5; b4; b3; b2; b1; b0] mod 32 = bits_value [b4; b3; b2; b1; b0])%N. Proof. bits. Qed.

(** one base32 character *)
Definition c5 (x y z u v : bool) : N := nth (N.to_nat (bits_value [x; y; z; u; v])) (lit "ABCDEFGHIJKLMNOPQRSTUVWXYZ234567") 0%N.
Lemma c5_char x y z u v : b32char (bits_value [x; y; z; u; v]) = c5 x y z u v. Proof. bits. Qed.
Lemma c5_32 x y z u v : b32char (bits_value [x; y; z] * 4 + bits_value [u; v]) = c5 x y z u v. Proof. bits. Qed.
Lemma c5_14 x y z u v : b32char (bits_value [x] * 16 + bits_value [y; z; u; v]) = c5 x y z u v. Proof. bits. Qed.
Lemma c5_41 x y z u v : b32char (bits_value [x; y; z; u] * 2 + bits_value [v]) = c5 x y z u v. Proof. bits. Qed.
Lemma c5_23 x y z u v : b32char (bits_value [x; y] * 8 + bits_value [z; u; v]) = c5 x y z u v. Proof. bits. Qed.
Lemma c5_3 x y z : b32char (bits_value [x; y; z] * 4) = c5 x y z false false. Proof. bits. Qed.
Lemma c5_1 x : b32char (bits_value [x] * 16) = c5 x false false false false. Proof. bits. Qed.
Lemma c5_4 x y z u : b32char (bits_value [x; y; z; u] * 2) = c5 x y z u false. Proof. bits. Qed.
Lemma c5_2 x y : b32char (bits_value [x; y] * 8) = c5 x y false false false. Proof. bits. Qed.

Lemma count32 m : group_count 5 (5 + m) = (8 + group_count 5 m)%nat.
Proof. unfold group_count. replace (8 * (5 + m) + (5 - 1))%nat with (8 * m + (5 - 1) + 8 * 5)%nat by lia. rewrite Nat.div_add by lia. lia. Qed.
Lemma count64 m : group_count 6 (3 + m) = (4 + group_count 6 m)%nat.
Proof. unfold group_count. replace (8 * (3 + m) + (6 - 1))%nat with (8 * m + (6 - 1) + 4 * 6)%nat by lia. rewrite Nat.div_add by lia. lia. Qed.
Lemma count16 m : group_count 4 (1 + m) = (2 + group_count 4 m)%nat.
Proof. unfold group_count. replace (8 * (1 + m) + (4 - 1))%nat with (8 * m + (4 - 1) + 2 * 4)%nat by lia. rewrite Nat.div_add by lia. lia. Qed.
Lemma filler_add u n : (0 < u)%nat -> filler u (u + n) = filler u n.
Proof. intros H. unfold filler. replace (u + n)%nat with (n + 1 * u)%nat by lia. now rewrite Nat.mod_add by lia. Qed.

Ltac arith := rewrite ?div8, ?mod8, ?div64, ?mod64, ?div2mod, ?mod2, ?div16, ?mod16, ?div128, ?div4mod, ?div4, ?mod4, ?div32, ?mod32.
Ltac chars5 := rewrite ?c5_char, ?c5_32, ?c5_14, ?c5_41, ?c5_23, ?c5_3, ?c5_1, ?c5_4, ?c5_2.
Ltac open_byte a :=
  let H := fresh "Hb" in
  assert (H : (a < 256)%N) by (match goal with F : wf_bytes _ |- _ => unfold wf_bytes in F; repeat match goal with F : Forall _ (_ :: _) |- _ => inversion_clear F end; assumption end);
  destruct (byte_bits_of a H) as (? & ? & ? & ? & ? & ? & ? & ? & ? & ?).

Lemma base32_ok_ind n : forall l, (length l <= n)%nat -> wf_bytes l -> b32encode l = base32_text l.
Proof.
  induction n as [|n IH]; intros l Hn Hw.
  { destruct l; [reflexivity|cbn [length] in Hn; lia]. }
  destruct l as [|a [|b [|c [|d [|e t]]]]].
  - reflexivity.
  - open_byte a. unfold base32_text, rfc_text. cbn [flat_map length].
    rewrite H0. rewrite H. cbn [b32encode]. arith. chars5. reflexivity.
  - open_byte a. open_byte b. unfold base32_text, rfc_text. cbn [flat_map length].
    rewrite H0, H2. rewrite H, H1. cbn [b32encode]. arith. chars5. reflexivity.
  - open_byte a. open_byte b. open_byte c. unfold base32_text, rfc_text. cbn [flat_map length].
    rewrite H0, H2, H4. rewrite H, H1, H3. cbn [b32encode]. arith. chars5. reflexivity.
  - open_byte a. open_byte b. open_byte c. open_byte d. unfold base32_text, rfc_text. cbn [flat_map length].
    rewrite H0, H2, H4, H6. rewrite H, H1, H3, H5. cbn [b32encode]. arith. chars5. reflexivity.
  - assert (Ht : b32encode t = base32_text t).
    { apply IH; [cbn [length] in Hn; lia|]. unfold wf_bytes in *. repeat match goal with F : Forall _ (_ :: _) |- _ => inversion_clear F end. assumption. }
    open_byte a. open_byte b. open_byte c. open_byte d. open_byte e.
    cbn [b32encode]. rewrite Ht. unfold base32_text, rfc_text. cbn [flat_map].
    change (length (a :: b :: c :: d :: e :: t)) with (5 + length t)%nat. rewrite count32, filler_add by lia.
    rewrite H0, H2, H4, H6, H8. rewrite H, H1, H3, H5, H7. arith. chars5.
    cbn [app bit_groups plus firstn skipn map]. reflexivity.
Qed.

(** one base64 character *)
Definition b64alpha (url : bool) : str :=
  if url then lit "ABCDEFGHIJKLMNOPQRSTUVWXYZabcdefghijklmnopqrstuvwxyz0123456789-_"
  else lit "ABCDEFGHIJKLMNOPQRSTUVWXYZabcdefghijklmnopqrstuvwxyz0123456789+/".
Definition c6 (url x y z u v w : bool) : N := nth (N.to_nat (bits_value [x; y; z; u; v; w])) (b64alpha url) 0%N.
Lemma c6_char q x y z u v w : b64char q (bits_value [x; y; z; u; v; w]) = c6 q x y z u v w. Proof. bits. Qed.
Lemma c6_24 q x y z u v w : b64char q (bits_value [x; y] * 16 + bits_value [z; u; v; w]) = c6 q x y z u v w. Proof. bits. Qed.
Lemma c6_42 q x y z u v w : b64char q (bits_value [x; y; z; u] * 4 + bits_value [v; w]) = c6 q x y z u v w. Proof. bits. Qed.
Lemma c6_2 q x y : b64char q (bits_value [x; y] * 16) = c6 q x y false false false false. Proof. bits. Qed.
Lemma c6_4 q x y z u : b64char q (bits_value [x; y; z; u] * 4) = c6 q x y z u false false. Proof. bits. Qed.
Ltac chars6 := rewrite ?c6_char, ?c6_24, ?c6_42, ?c6_2, ?c6_4.

Lemma base64_ok_ind url n : forall l, (length l <= n)%nat -> wf_bytes l -> b64encode url l = rfc_text 6 4 (b64alpha url) l.
Proof.
  induction n as [|n IH]; intros l Hn Hw.
  { destruct l; [reflexivity|cbn [length] in Hn; lia]. }
  destruct l as [|a [|b [|c t]]].
  - reflexivity.
  - open_byte a. unfold rfc_text. cbn [flat_map length].
    rewrite H0. rewrite H. cbn [b64encode]. arith. chars6. reflexivity.
  - open_byte a. open_byte b. unfold rfc_text. cbn [flat_map length].
    rewrite H0, H2. rewrite H, H1. cbn [b64encode]. arith. chars6. reflexivity.
  - assert (Ht : b64encode url t = rfc_text 6 4 (b64alpha url) t).
    { apply IH; [cbn [length] in Hn; lia|]. unfold wf_bytes in *. repeat match goal with F : Forall _ (_ :: _) |- _ => inversion_clear F end. assumption. }
    open_byte a. open_byte b. open_byte c.
    cbn [b64encode]. rewrite Ht. unfold rfc_text. cbn [flat_map].
    change (length (a :: b :: c :: t)) with (3 + length t)%nat. rewrite count64, filler_add by lia.
    rewrite H0, H2, H4. rewrite H, H1, H3. arith. chars6.
    cbn [app bit_groups plus firstn skipn map]. reflexivity.
Qed.

Lemma base16_ok_ind l : wf_bytes l -> b16encode true l = base16_text l.
Proof.
  induction l as [|a t IH]; intros Hw; [reflexivity|].
  assert (Ht : b16encode true t = base16_text t).
  { apply IH. unfold wf_bytes in *. now inversion_clear Hw. }
  open_byte a. cbn [b16encode]. rewrite Ht. unfold base16_text, rfc_text. cbn [flat_map].
  change (length (a :: t)) with (1 + length t)%nat. rewrite count16.
  replace (filler 1 (2 + group_count 4 (length t))) with (filler 1 (group_count 4 (length t)))
    by (symmetry; etransitivity; [apply (filler_add 1 (1 + _)); lia|apply filler_add; lia]).
  rewrite H0. rewrite H. arith. cbn [app bit_groups plus firstn skipn map].
  f_equal; [|f_equal]; clear; bits.
Qed.

Lemma C98_base32_pf :
  forall (d : dgst), wf_bytes (dg_fun d (dg_acc d)) ->
  dgst_str d = dg_name d ++ lit ":" ++ base32_text (dg_fun d (dg_acc d)).
Proof.
  intros d H. unfold dgst_str, dgst_b32. do 2 f_equal. exact (base32_ok_ind _ _ (le_n _) H).
Qed.

Lemma C98_encoders_pf :
  forall l, wf_bytes l ->
  b32encode l = base32_text l /\ b16encode true l = base16_text l
  /\ b64encode false l = base64_text l /\ b64encode true l = base64url_text l.
Proof.
  intros l H. split; [exact (base32_ok_ind _ _ (le_n _) H)|]. split; [exact (base16_ok_ind _ H)|].
  split; [exact (base64_ok_ind false _ _ (le_n _) H)|exact (base64_ok_ind true _ _ (le_n _) H)].
Qed.
