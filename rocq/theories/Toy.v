(** * Toy: a trivial codec and hash used in the Examples, to show that the
    hypotheses made about zlib and hashlib are satisfiable.  Not a model of
    anything in /repo.

    Format: header, then for each content byte b the two bytes 1,b, then 0.
    Headers: gzip 1f 8b, zlib 78, raw deflate none. *)
From Coq Require Import List ZArith NArith Bool String.
From Verif Require Import PyBase Codecs Streams Writer.
Import ListNotations.
Open Scope N_scope.

Inductive toyst := TG0 | TG1 | TX | TZ0 | TB | TD.
Definition toy_init (t : dtype) : toyst :=
  match t with Gzip => TG0 | Deflate => TZ0 | DeflateAlt => TB end.
Definition toy_step (s : toyst) (b : N) : zres toyst :=
  match s with
  | TG0 => if b =? 31 then ZMore TG1 [] else ZMore TX []   (* error only at byte two, like zlib *)
  | TG1 => if b =? 139 then ZMore TB [] else ZErr
  | TX => ZErr
  | TZ0 => if b =? 120 then ZMore TB [] else ZErr
  | TB => if b =? 0 then ZEnd [] else if b =? 1 then ZMore TD [] else ZErr
  | TD => ZMore TB [b]
  end.
Definition toy_z : zenv := mk_zenv toyst toy_init toy_step.

(** compressor: state = has the header been written? *)
Definition toy_body (w : bytes) : bytes := flat_map (fun b => [1; b]) w.
Definition toy_k : kenv :=
  mk_kenv bool false
    (fun s w => (true, (if s then [] else [31; 139]) ++ toy_body w))
    (fun s => (if s then [] else [31; 139]) ++ [0]).
Definition toy_gz (content : bytes) : bytes := [31; 139] ++ toy_body content ++ [0].

(** hash: one byte of sum and three bytes of constant *)
Definition toy_hash (b : bytes) : bytes :=
  [N.modulo (fold_left N.add b 7) 256; N.modulo (N.of_nat (List.length b)) 256; 17; 200; 5].
Definition toy_henv : henv :=
  fun n => if leqb n (lit "sha1") then Some toy_hash
           else if leqb n (lit "md5") then Some (fun b => toy_hash b ++ toy_hash b) else None.

(** a hash of 20 bytes, available as sha1, and the digest header for it *)
Definition ck_hash (b : bytes) : bytes := toy_hash b ++ toy_hash b ++ toy_hash b ++ toy_hash b.
Definition ck_henv : henv := fun n => if leqb n (lit "sha1") then Some ck_hash else None.
Definition ck_digest (b : bytes) : str := lit "sha1:" ++ b32encode (ck_hash b).
