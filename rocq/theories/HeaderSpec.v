(** * HeaderSpec: vocabulary for the statements about statusandheaders.py.
    Only text, lines and lists; nothing from the model except [decode_header] (the text
    of a line) and the data types. *)
From Coq Require Import List ZArith NArith Bool.
From Verif Require Import PyBase Utf8 Headers.
Import ListNotations.
Open Scope Z_scope.

(** equal ignoring ASCII case *)
Definition ci1 (x y : N) : Prop :=
  x = y \/ (65 <= x <= 90 /\ y = x + 32)%N \/ (65 <= y <= 90 /\ x = y + 32)%N.
Definition ci_eq : str -> str -> Prop := Forall2 ci1.

(** header [h] is named [name] *)
Definition named (name : str) (h : header) : Prop := ci_eq (fst h) name.

(** readline() of [rl] returns the lines of the content, one by one ([R s c]: the stream
    in state [s] still has the bytes [c]) *)
Definition reads_lines {S} (rl : S -> res bytes * S) (R : S -> bytes -> Prop) : Prop :=
  forall s c, R s c -> exists s', rl s = (Ok (take_line c), s') /\ R s' (drop_line c).

(** a complete line; a line of nothing but white space *)
Definition is_line (l : bytes) : Prop := exists a, ~ In LF a /\ l = a ++ [LF].
Definition blank (l : bytes) : Prop := forall c, In c (decode_header l) -> is_uspace c = true.

(** [block] is the beginning of [block ++ rest] up to and including the first blank line,
    or all of it if there is none *)
Definition header_block (block rest : bytes) : Prop :=
  exists lines last, block = concat lines ++ last
    /\ Forall (fun l => is_line l /\ ~ blank l) lines
    /\ ((is_line last /\ blank last) \/ (rest = [] /\ ~ In LF last)).

(** text that fits on one line and can be encoded *)
Definition line_text (s : str) : Prop := (forall c, In c s -> is_scalar c = true) /\ ~ In LF s.
(** no white space at the beginning / at the end *)
Definition no_lead (p : N -> bool) (s : str) : Prop := forall c t, s = c :: t -> p c = false.
Definition no_trail (p : N -> bool) (s : str) : Prop := forall c t, s = t ++ [c] -> p c = false.

(** a header that can be written on one line and recognised again *)
Definition wf_header (h : header) : Prop :=
  line_text (fst h) /\ ~ In 58%N (fst h) /\ no_lead is_sp_tab (fst h) /\ no_trail is_sp_tab (fst h)
  /\ line_text (snd h) /\ no_lead is_uspace (snd h) /\ no_trail is_uspace (snd h).

(** the first line "protocol status" *)
Definition status_text (proto status : str) : str :=
  match status with [] => proto | _ => proto ++ 32%N :: status end.

(** [p] recognises [proto] at the beginning of the line "proto status": if it verifies,
    [proto] is in its list and is the first entry that matches; if not, it takes what
    precedes the first space *)
Definition recognises (p : parser) (proto status : str) : Prop :=
  if p_verify p then
    upper proto = proto
    /\ exists before after, p_list p = before ++ proto :: after
       /\ forall q r, In q before -> upper (status_text proto status) <> q ++ r
  else ~ In 32%N proto.

Definition wf_block (p : parser) (h : sah) : Prop :=
  sh_proto h <> [] /\ line_text (sh_proto h) /\ no_trail is_uspace (sh_proto h)
  /\ line_text (sh_status h) /\ no_lead is_uspace (sh_status h) /\ no_trail is_uspace (sh_status h)
  /\ recognises p (sh_proto h) (sh_status h)
  /\ Forall wf_header (sh_headers h).

(** inverse of percent-encoding: %XX stands for the byte XX *)
Fixpoint pct_decode (fuel : nat) (l : str) : option bytes :=
  match fuel with
  | O => None
  | S f => match l with
           | [] => Some []
           | c :: t =>
               if (c =? 37)%N then
                 match t with
                 | h :: x :: t' => match hexval h, hexval x with
                                   | Some a, Some b => option_map (cons (a * 16 + b)%N) (pct_decode f t')
                                   | _, _ => None
                                   end
                 | _ => None
                 end
               else option_map (cons c) (pct_decode f t)
           end
  end.
Definition ascii_text (s : str) : Prop := forall c, In c s -> (c < 128)%N.
Definition scalar_text (s : str) : Prop := forall c, In c s -> is_scalar c = true.

(** [v'] is how header value [v] may appear in an ASCII header block: unchanged if it is
    ASCII, otherwise percent-encoded UTF-8 *)
Definition ascii_form (v v' : str) : Prop :=
  ascii_text v' /\ (ascii_text v -> v' = v)
  /\ (~ ascii_text v -> pct_decode (S (List.length v')) v' = utf8_encode v).
