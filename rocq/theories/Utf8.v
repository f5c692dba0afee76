(** * Utf8: str.encode('utf-8'), bytes.decode('utf-8'), latin-1 and ascii.

    Used by statusandheaders.py:165-181 (to_bytes, to_ascii_bytes),
    statusandheaders.py:329-336 (decode_header), utils.py:23-32. *)
From Coq Require Import List ZArith NArith Bool.
From Verif Require Import PyBase.
Import ListNotations.
Open Scope N_scope.

Definition is_surrogate (c : N) : bool := (55296 <=? c) && (c <=? 57343).

(** Valid code points for strict UTF-8 *)
Definition is_scalar (c : N) : bool := (c <=? 1114111) && negb (is_surrogate c).

(** One character of str.encode('utf-8') *)
Definition utf8_enc1 (c : N) : bytes :=
  if c <? 128 then [c]
  else if c <? 2048 then [192 + c / 64; 128 + c mod 64]
  else if c <? 65536 then [224 + c / 4096; 128 + (c / 64) mod 64; 128 + c mod 64]
  else [240 + c / 262144; 128 + (c / 4096) mod 64; 128 + (c / 64) mod 64; 128 + c mod 64].

(** str.encode('utf-8'): None = UnicodeEncodeError (surrogates) *)
Definition utf8_encode (s : str) : option bytes :=
  if forallb is_scalar s then Some (flat_map utf8_enc1 s) else None.

Definition is_cont (b : N) : bool := (128 <=? b) && (b <=? 191).

(** bytes.decode('utf-8') (strict): None = UnicodeDecodeError *)
Fixpoint utf8_decode (l : bytes) : option str :=
  match l with
  | [] => Some []
  | b :: t =>
      if b <? 128 then option_map (cons b) (utf8_decode t)
      else if (194 <=? b) && (b <=? 223) then
        match t with
        | b1 :: t1 =>
            if is_cont b1
            then option_map (cons ((b - 192) * 64 + (b1 - 128))) (utf8_decode t1)
            else None
        | _ => None
        end
      else if (224 <=? b) && (b <=? 239) then
        match t with
        | b1 :: b2 :: t2 =>
            let c := (b - 224) * 4096 + (b1 - 128) * 64 + (b2 - 128) in
            if is_cont b1 && is_cont b2 && (2048 <=? c) && negb (is_surrogate c)
            then option_map (cons c) (utf8_decode t2)
            else None
        | _ => None
        end
      else if (240 <=? b) && (b <=? 244) then
        match t with
        | b1 :: b2 :: b3 :: t3 =>
            let c := (b - 240) * 262144 + (b1 - 128) * 4096 + (b2 - 128) * 64 + (b3 - 128) in
            if is_cont b1 && is_cont b2 && is_cont b3 && (65536 <=? c) && (c <=? 1114111)
            then option_map (cons c) (utf8_decode t3)
            else None
        | _ => None
        end
      else None
  end.

(** bytes.decode('iso-8859-1'): total *)
Definition latin1_decode (l : bytes) : str := l.

(** str.encode('ascii'): None = UnicodeEncodeError *)
Definition is_ascii (s : str) : bool := forallb (fun c => c <? 128) s.
Definition ascii_encode (s : str) : option bytes := if is_ascii s then Some s else None.

(** urllib.parse.quote(s) with the default safe='/': unreserved characters and
    '/' are kept, all other utf-8 bytes become %XX.  Simplification: quote raises
    for lone surrogates; here they are percent-encoded from their 3-byte form. *)
Definition unreserved (b : N) : bool :=
  ((48 <=? b) && (b <=? 57)) || ((65 <=? b) && (b <=? 90)) || ((97 <=? b) && (b <=? 122))
  || (b =? 95) || (b =? 46) || (b =? 45) || (b =? 126) || (b =? 47).
Definition hexdigU (d : N) : N := if d <? 10 then 48 + d else 55 + d.
Definition quote_byte (b : N) : str :=
  if unreserved b then [b] else [37; hexdigU (b / 16); hexdigU (b mod 16)].
Definition quote (s : str) : str := flat_map quote_byte (flat_map utf8_enc1 s).
