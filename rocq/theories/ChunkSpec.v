(** * ChunkSpec: the chunked transfer coding (RFC 7230, 4.1) and Python's int(b, 16),
    independent of the reader *)
From Coq Require Import String List ZArith NArith Bool.
From Verif Require Import PyBase Headers Streams Loader WriterSpec.
From Verif Require Import StreamSpec.
Import ListNotations.
Open Scope Z_scope.

(** value of a hexadecimal digit *)
Definition hex_digit (c : N) : option Z :=
  let z := Z.of_N c in
  if (48 <=? z) && (z <=? 57) then Some (z - 48)
  else if (65 <=? z) && (z <=? 70) then Some (z - 55)
  else if (97 <=? z) && (z <=? 102) then Some (z - 87)
  else None.

(** a plain hexadecimal numeral *)
Inductive hex_number : bytes -> Z -> Prop :=
| hn_one c v : hex_digit c = Some v -> hex_number [c] v
| hn_snoc l n c v : hex_number l n -> hex_digit c = Some v -> hex_number (l ++ [c]) (16 * n + v).

(** CRLF ends the line; an extension starts with ';' *)
Definition size_line (l : bytes) (n : Z) : Prop :=
  exists hex ext, l = hex ++ ext ++ [13; 10]%N /\ hex_number hex n
    /\ (ext = [] \/ exists t, ext = 59%N :: t) /\ ~ In 10%N ext /\ lenZ l <= 64.

(** complete chunks: bytes on the wire, and the payload they carry *)
Inductive chunks : bytes -> bytes -> Prop :=
| chunks_nil : chunks [] []
| chunks_cons l d w p : size_line l (lenZ d) -> d <> [] -> lenZ d <= 2147483648 ->
    chunks w p -> chunks (l ++ d ++ [13; 10]%N ++ w) (d ++ p).

(** a chunked body: chunks, then a last chunk of size 0 and an empty line *)
Definition chunked_body (w p : bytes) : Prop :=
  exists w1 l, w = w1 ++ l ++ [13; 10]%N /\ chunks w1 p /\ size_line l 0.

(** ** What int(b, 16) accepts: digits may be separated by single underscores, and be
    preceded by a sign and 0x; white space around *)
Inductive digits16 : bytes -> Z -> Prop :=
| d16_one c v : hex_digit c = Some v -> digits16 [c] v
| d16_snoc l n c v : digits16 l n -> hex_digit c = Some v -> digits16 (l ++ [c]) (16 * n + v)
| d16_under l n c v : digits16 l n -> hex_digit c = Some v -> digits16 (l ++ [95%N; c]) (16 * n + v).

Definition white (l : bytes) : Prop :=
  Forall (fun c => c = 32 \/ c = 9 \/ c = 10 \/ c = 11 \/ c = 12 \/ c = 13)%N l.

Definition int16_literal (s : bytes) (n : Z) : Prop :=
  exists w1 sign prefix ds w2 v,
    s = w1 ++ sign ++ prefix ++ ds ++ w2 /\ white w1 /\ white w2
    /\ In prefix [[]; [48; 120]; [48; 88]; [48; 120; 95]; [48; 88; 95]]%N
    /\ digits16 ds v
    /\ ((In sign [[]; [43%N]] /\ n = v) \/ (sign = [45%N] /\ n = - v)).

(** the text before the first ';' *)
Definition before_semicolon (s h : bytes) : Prop :=
  ~ In 59%N s /\ (h = s \/ exists t, h = s ++ 59%N :: t).

(** what ChunkedDataReader takes for a chunk-size line: CRLF at the end, and an int of
    at most 2^31 before the first ';' *)
Definition valid_size_line (h : bytes) (n : Z) : Prop :=
  exists body s, h = body ++ [13; 10]%N /\ before_semicolon s body /\ int16_literal s n
                 /\ n <= 2147483648.

(** the first line of [t], of which at most 64 bytes are looked at *)
Definition head_line (t : bytes) : bytes := takeZ 64 (take_line t).
Definition no_size_line (t : bytes) : Prop := forall n, ~ valid_size_line (head_line t) n.

(** ** What the reader makes of any text.  A size line: at most 64 bytes, one line, CRLF *)
Definition size_at (l : bytes) (n : Z) : Prop :=
  valid_size_line l n /\ exists a, l = a ++ [13; 10]%N /\ ~ In 10%N a /\ lenZ l <= 64.

(** [decodes data out]: [out] is what is put out for [data] when no exceptions are raised.  A
    negative size counts as no data, but does not end the body. *)
Inductive decodes : bytes -> bytes -> Prop :=
| de_plain t : no_size_line t -> decodes t t
| de_last l r : size_at l 0 -> decodes (l ++ [13; 10]%N ++ r) []
| de_chunk l n d r out : size_at l n -> n <> 0 -> lenZ d = Z.max 0 n -> decodes r out ->
    decodes (l ++ d ++ [13; 10]%N ++ r) (d ++ out)
| de_cut l n d : size_at l n -> lenZ d < n -> decodes (l ++ d) d
| de_broken l n d r : size_at l n -> lenZ d = Z.max 0 n -> takeZ 2 r <> [13; 10]%N ->
    decodes (l ++ d ++ r) (l ++ d ++ dropZ 2 r).

(** [proper data out after]: chunks, the last chunk and an empty line; then [after] *)
Inductive proper : bytes -> bytes -> bytes -> Prop :=
| pr_last l r : size_at l 0 -> proper (l ++ [13; 10]%N ++ r) [] r
| pr_chunk l n d r out after : size_at l n -> n <> 0 -> lenZ d = Z.max 0 n -> proper r out after ->
    proper (l ++ d ++ [13; 10]%N ++ r) (d ++ out) after.

(** What the reader puts out for a chunked body cut off somewhere.  [cut_shows cut good out]:
    the cut body [cut] carries the payload bytes [good], and [out] is put out. *)
Inductive cut_shows : bytes -> bytes -> bytes -> Prop :=
  (* between two chunks ([t] empty), or inside a size line: its beginning is put out *)
| cut_in_size_line w p l t r n : chunks w p -> size_line l n -> l = t ++ r -> r <> [] -> cut_shows (w ++ t) p (p ++ t)
  (* after a size line and before the end of the data it announces: only payload is put out *)
| cut_in_data w p l n d : chunks w p -> size_line l n -> lenZ d < n -> n <= 2147483648 ->
    cut_shows (w ++ l ++ d) (p ++ d) (p ++ d)
  (* after all the data, or after the CR behind it (no data in the last chunk): the size line is put out *)
| cut_in_crlf w p l d t : chunks w p -> size_line l (lenZ d) -> lenZ d <= 2147483648 -> t = [] \/ t = [13]%N ->
    cut_shows (w ++ l ++ d ++ t) (p ++ d) (p ++ l ++ d)
  (* not cut *)
| cut_nothing w p : chunked_body w p -> cut_shows w p p.

(** the object returned by content_stream() as a stream (its tell() is not used) *)
Definition cs_ops {zl : zenv} {S} (ops : sops S) (fuel : nat) : sops (cstream zl S) :=
  mk_sops (cs_read ops fuel) (cs_readline ops fuel) (fun _ => 0).

(** HTTP headers [h] say "name: value"; the value is compared exactly, or ignoring case *)
Definition declares (h : sah) (name value : string) : Prop :=
  value_of (lit name) (sh_headers h) = Some (lit value).
Definition declares_ci (h : sah) (name value : string) : Prop :=
  exists v, value_of (lit name) (sh_headers h) = Some v /\ lower v = lit value.

(** total of the sizes of reads *)
Fixpoint total (ks : list Z) : Z := match ks with [] => 0 | k :: t => k + total t end.

(** a source of reads that may be short, except that read(2) returns two bytes if there
    are two *)
Definition pair_read {S} (ops : sops S) (R : S -> bytes -> Prop) : Prop :=
  forall s c, R s c -> exists s', o_read ops (Some 2) s = (Ok (takeZ 2 c), s') /\ R s' (dropZ 2 c).
Definition paired {S} (ops : sops S) (R : S -> bytes -> Prop) : Prop := delivers ops R /\ pair_read ops R.
(** a file that never returns a single byte when two are asked for and left *)
Definition no_single (sched : list Z) : Prop := Forall (fun k => 2 <= k) sched.
