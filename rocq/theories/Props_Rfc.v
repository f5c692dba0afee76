(** * Props_Rfc: Text encodings of digests against RFC 4648 (C98) *)
From Coq Require Import String List ZArith NArith Bool Lia.
From Coq Require Import ZifyBool ZifyNat ZifyN.
From Verif Require Import PyBase Codecs Streams StreamSpec RfcSpec.
Import ListNotations.
From Verif Require Import Thm_Rfc.

(** C98: the text of a digest is the base32 text of its bytes, as RFC 4648 defines it *)
Theorem C98_base32 :
  forall (d : dgst), wf_bytes (dg_fun d (dg_acc d)) ->
  dgst_str d = dg_name d ++ lit ":" ++ base32_text (dg_fun d (dg_acc d)).
Proof. exact C98_base32_pf. Qed.
Print Assumptions C98_base32.

Example C98_ex : base32_text (lit "foobar") = lit "MZXW6YTBOI======" /\ base64_text (lit "fooba") = lit "Zm9vYmE="
  /\ base16_text (lit "foobar") = lit "666F6F626172" /\ wf_bytes (lit "foobar").
Proof. repeat split; try (vm_compute; reflexivity). unfold wf_bytes. repeat constructor. Qed.

(** C98: the encoders in which C46 accepts digests are those of RFC 4648 *)
Theorem C98_encoders :
  forall l, wf_bytes l ->
  b32encode l = base32_text l /\ b16encode true l = base16_text l
  /\ b64encode false l = base64_text l /\ b64encode true l = base64url_text l.
Proof. exact C98_encoders_pf. Qed.
Print Assumptions C98_encoders.


