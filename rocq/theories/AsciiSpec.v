(** * AsciiSpec: how a header value may be written in ASCII (RFC 5987 extended parameters).
    Vocabulary for C22; nothing from the model but the data types and [utf8_encode]. *)
From Coq Require Import List ZArith NArith Bool String.
From Verif Require Import PyBase Utf8 Headers HeaderSpec.
Import ListNotations.
Open Scope Z_scope.

(** the end, or a semicolon (59) or double quote (34) *)
Definition stops (r : str) : Prop := r = [] \/ exists c r', r = c :: r' /\ (c = 59%N \/ c = 34%N).
(** what remains after an optional closing double quote *)
Definition after_quote (r rest : str) : Prop := (rest = r /\ (forall r', r <> 34%N :: r')) \/ r = 34%N :: rest.
(** after an equals sign (61), the text [t] begins with a parameter value [g], followed by [rest]: an
    optional quote (which is left out of [g] only if something follows it), then as many
    characters as possible other than semicolons and double quotes, at least one, then an
    optional double quote *)
Definition group_at (t g rest : str) : Prop :=
  exists q r, t = q ++ g ++ r /\ (q = [] \/ q = [34%N] \/ q = [39%N]) /\ g <> []
    /\ (forall c, In c g -> c <> 59%N /\ c <> 34%N) /\ stops r
    /\ (q = [] -> forall c d t', t = c :: d :: t' -> (c = 34%N \/ c = 39%N) -> d = 59%N \/ d = 34%N)
    /\ after_quote r rest.

(** a value is a sequence of characters and parameter values *)
Inductive part := Plain (c : N) | Param (g : str).
Inductive parts : str -> list part -> Prop :=
| pt_nil : parts [] []
| pt_param t g rest ps : group_at t g rest -> parts rest ps -> parts (61%N :: t) (Param g :: ps)
| pt_plain c t ps : (c <> 61%N \/ forall g rest, ~ group_at t g rest) -> parts t ps -> parts (c :: t) (Plain c :: ps).

(** bytes that percent-encoding keeps: letters, digits, _ . - ~ and the slash *)
Definition kept (b : N) : Prop :=
  (48 <= b <= 57 \/ 65 <= b <= 90 \/ 97 <= b <= 122 \/ b = 95 \/ b = 46 \/ b = 45 \/ b = 126 \/ b = 47)%N.
(** upper-case hexadecimal digit *)
Definition hex_digit (d c : N) : Prop := (d < 10 /\ c = 48 + d \/ 10 <= d < 16 /\ c = 55 + d)%N.
Inductive escapes : bytes -> str -> Prop :=
| es_nil : escapes [] []
| es_keep b bs e : kept b -> escapes bs e -> escapes (b :: bs) (b :: e)
| es_pct b bs e h l hc lc : ~ kept b -> (b = 16 * h + l)%N -> hex_digit h hc -> hex_digit l lc -> escapes bs e ->
    escapes (b :: bs) (37%N :: hc :: lc :: e).
(** [e] is the percent-encoding of the UTF-8 bytes of [g] *)
Definition escaped (g e : str) : Prop := exists bs, utf8_encode g = Some bs /\ escapes bs e.

(** the parts, each parameter written with its value as an RFC 5987 ext-value *)
Inductive rendering : list part -> str -> Prop :=
| rd_nil : rendering [] []
| rd_plain c ps o : rendering ps o -> rendering (Plain c :: ps) (c :: o)
| rd_param g e ps o : escaped g e -> rendering ps o -> rendering (Param g :: ps) (lit "*=UTF-8''" ++ e ++ o).

(** the values that can be written *)
Definition ascii_value (v : str) : Prop :=
  ascii_text v \/ ~ In 59%N v
  \/ exists ps, parts v ps /\ ((forall g, ~ In (Param g) ps) \/ forall c, In (Plain c) ps -> (c < 128)%N).

(** how they are written *)
Inductive written_as : str -> str -> Prop :=
| wa_ascii v : ascii_text v -> written_as v v
| wa_whole v e : ~ ascii_text v -> (~ In 59%N v \/ exists ps, parts v ps /\ forall g, ~ In (Param g) ps) ->
    escaped v e -> written_as v e
| wa_params v o ps : ~ ascii_text v -> In 59%N v -> parts v ps -> (exists g, In (Param g) ps) -> rendering ps o -> written_as v o.
