(** * Codecs: the functions of the Python base64 module used by
    utils.py:105-106 (Digester.__str__) and digestverifyingreader.py:135-158. *)
From Coq Require Import List ZArith NArith Bool.
From Verif Require Import PyBase.
Import ListNotations.
Open Scope N_scope.

(** RFC 3548 base32 alphabet A-Z 2-7 *)
Definition b32char (v : N) : N := if v <? 26 then 65 + v else 24 + v.

(** base64.b32encode: groups of five bytes become eight characters, the last
    group is padded with '='. *)
Fixpoint b32encode (l : bytes) : str :=
  match l with
  | [] => []
  | [a] =>
      [b32char (a / 8); b32char (a mod 8 * 4); 61; 61; 61; 61; 61; 61]
  | [a; b] =>
      [b32char (a / 8); b32char (a mod 8 * 4 + b / 64); b32char (b / 2 mod 32);
       b32char (b mod 2 * 16); 61; 61; 61; 61]
  | [a; b; c] =>
      [b32char (a / 8); b32char (a mod 8 * 4 + b / 64); b32char (b / 2 mod 32);
       b32char (b mod 2 * 16 + c / 16); b32char (c mod 16 * 2); 61; 61; 61]
  | [a; b; c; d] =>
      [b32char (a / 8); b32char (a mod 8 * 4 + b / 64); b32char (b / 2 mod 32);
       b32char (b mod 2 * 16 + c / 16); b32char (c mod 16 * 2 + d / 128);
       b32char (d / 4 mod 32); b32char (d mod 4 * 8); 61]
  | a :: b :: c :: d :: e :: t =>
      [b32char (a / 8); b32char (a mod 8 * 4 + b / 64); b32char (b / 2 mod 32);
       b32char (b mod 2 * 16 + c / 16); b32char (c mod 16 * 2 + d / 128);
       b32char (d / 4 mod 32); b32char (d mod 4 * 8 + e / 32); b32char (e mod 32)]
      ++ b32encode t
  end.

(** binascii.unhexlify after the base64.b16decode(casefold=True) checks.
    None: binascii.Error (or ValueError for non-ASCII text), both of which
    escape from the caller in the same way. *)
Fixpoint b16decode (l : str) : option bytes :=
  match l with
  | [] => Some []
  | [_] => None
  | h :: x :: t =>
      match hexval h, hexval x with
      | Some a, Some b => option_map (cons (a * 16 + b)) (b16decode t)
      | _, _ => None
      end
  end.

(** standard base64 alphabet *)
Definition b64val (c : N) : option N :=
  if (65 <=? c) && (c <=? 90) then Some (c - 65)
  else if (97 <=? c) && (c <=? 122) then Some (c - 71)
  else if (48 <=? c) && (c <=? 57) then Some (c + 4)
  else if c =? 43 then Some 62
  else if c =? 47 then Some 63
  else None.

(** binascii.a2b_base64(strict_mode=False), the C state machine:
    quad position, left bits, number of pads seen. *)
Fixpoint a2b_base64 (quad left pads : N) (l : str) : option bytes :=
  match l with
  | [] => if quad =? 0 then Some [] else None
  | c :: t =>
      if c =? 61 then
        if (2 <=? quad) then
          if (4 <=? quad + (pads + 1)) then Some [] else a2b_base64 quad left (pads + 1) t
        else a2b_base64 quad left pads t
      else
        match b64val c with
        | None => a2b_base64 quad left pads t
        | Some v =>
            if quad =? 0 then a2b_base64 1 v 0 t
            else if quad =? 1 then
              option_map (cons (left * 4 + v / 16)) (a2b_base64 2 (v mod 16) 0 t)
            else if quad =? 2 then
              option_map (cons (left * 16 + v / 4)) (a2b_base64 3 (v mod 4) 0 t)
            else
              option_map (cons (left * 64 + v)) (a2b_base64 0 0 0 t)
        end
  end.

(** _bytes_from_decode_data: non-ASCII text is a ValueError *)
Definition ascii_only (s : str) : bool := forallb (fun c => c <? 128) s.

(** digestverifyingreader.py:154-158 _b64_wrapper: with '-' or '_' in the value,
    b64decode(value, altchars=b'-_') translates them to '+/' first. *)
Definition b64_wrapper (value : str) : option bytes :=
  if negb (ascii_only value) then None
  else if has_char 45 value || has_char 95 value then
    a2b_base64 0 0 0 (List.map (fun c => if c =? 45 then 43 else if c =? 95 then 47 else c) value)
  else a2b_base64 0 0 0 value.

(** base64.b16decode(value, casefold=True) with the ASCII check *)
Definition b16_wrapper (value : str) : option bytes :=
  if negb (ascii_only value) then None else b16decode value.

(** Encoders, used by the specifications only (not called by warcio). *)
Fixpoint b16encode (up : bool) (l : bytes) : str :=
  match l with
  | [] => []
  | b :: t => let d := fun v => if v <? 10 then 48 + v else if up then 55 + v else 87 + v in
              d (b / 16) :: d (b mod 16) :: b16encode up t
  end.
Definition b64char (url : bool) (v : N) : N :=
  if v <? 26 then 65 + v else if v <? 52 then 71 + v else if v <? 62 then v - 4
  else if v =? 62 then (if url then 45 else 43) else (if url then 95 else 47).
Fixpoint b64encode (url : bool) (l : bytes) : str :=
  match l with
  | [] => []
  | [a] => [b64char url (a / 4); b64char url (a mod 4 * 16); 61; 61]
  | [a; b] => [b64char url (a / 4); b64char url (a mod 4 * 16 + b / 16);
               b64char url (b mod 16 * 4); 61]
  | a :: b :: c :: t =>
      [b64char url (a / 4); b64char url (a mod 4 * 16 + b / 16);
       b64char url (b mod 16 * 4 + c / 64); b64char url (c mod 64)] ++ b64encode url t
  end.
