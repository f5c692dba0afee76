(** * RfcSpec: base16, base32 and base64 as RFC 4648 describes them: the bits of the bytes, most
    significant first, are cut into groups; the last group is filled up with zero bits; each
    group selects a character of an alphabet; '=' fills up the last unit of output.
    Independent of the arithmetic in Codecs.v. *)
From Coq Require Import String List ZArith NArith Bool.
From Verif Require Import PyBase.
Import ListNotations.

Definition wf_bytes (l : bytes) : Prop := Forall (fun b => (b < 256)%N) l.

Definition byte_bits (b : N) : list bool := map (N.testbit b) [7; 6; 5; 4; 3; 2; 1; 0]%N.
Definition bits_value (l : list bool) : N := fold_left (fun v b => (2 * v + N.b2n b)%N) l 0%N.

(** the first [n] groups of [k] bits, the last one filled up with zeros *)
Fixpoint bit_groups (n k : nat) (l : list bool) : list (list bool) :=
  match n with
  | O => []
  | S n => firstn k (l ++ repeat false k) :: bit_groups n k (skipn k l)
  end.

(** number of groups of [k] bits that hold [m] bytes *)
Definition group_count (k m : nat) : nat := (8 * m + (k - 1)) / k.
Definition filler (unit n : nat) : nat := (unit - n mod unit) mod unit.

Definition rfc_text (k unit : nat) (alphabet : str) (l : bytes) : str :=
  let n := group_count k (length l) in
  map (fun g => nth (N.to_nat (bits_value g)) alphabet 0%N) (bit_groups n k (flat_map byte_bits l))
  ++ repeat 61%N (filler unit n).

Definition base16_text : bytes -> str := rfc_text 4 1 (lit "0123456789ABCDEF").
Definition base32_text : bytes -> str := rfc_text 5 8 (lit "ABCDEFGHIJKLMNOPQRSTUVWXYZ234567").
Definition base64_text : bytes -> str :=
  rfc_text 6 4 (lit "ABCDEFGHIJKLMNOPQRSTUVWXYZabcdefghijklmnopqrstuvwxyz0123456789+/").
Definition base64url_text : bytes -> str :=
  rfc_text 6 4 (lit "ABCDEFGHIJKLMNOPQRSTUVWXYZabcdefghijklmnopqrstuvwxyz0123456789-_").
