(** * ModeSpec: comparing iterations that differ in the option check_digests (C83, C84) *)
From Coq Require Import String List ZArith NArith Bool.
From Verif Require Import PyBase Headers Streams Loader Iterator.
Import ListNotations.
Open Scope Z_scope.

(** the options [o] with another value of check_digests *)
Definition with_check (k : ckind) (o : lopts) : lopts :=
  mk_lopts (lo_norec o) (lo_verify o) (lo_a2w o) (lo_ensure o) k (lo_uuid o).
(** records with the same contents: all fields but the stream *)
Definition same_record {S} (a b : record S) : Prop :=
  rc_format a = rc_format b /\ rc_type a = rc_type b /\ rc_headers a = rc_headers b /\ rc_http a = rc_http b
  /\ rc_ctype a = rc_ctype b /\ rc_length a = rc_length b /\ rc_plen a = rc_plen b.
(** two iterations saw the same at a record: its contents, what was read from it, its offset and
    length; and [V] holds for the results of checking.  [obs_rel]: the contents are related by [T] *)
Definition obs_rel {zl : zenv} (T : record (breader zl raw) -> record (breader zl raw) -> Prop) (V : option bool -> option bool -> Prop) (a b : @obs zl) : Prop :=
  T (ob_record a) (ob_record b) /\ ob_reads a = ob_reads b /\ ob_info a = ob_info b /\ V (ob_passed a) (ob_passed b).
Definition same_obs {zl : zenv} (V : option bool -> option bool -> Prop) : @obs zl -> @obs zl -> Prop := obs_rel same_record V.

(** ** ensure_http_headers (C87) *)
(** the options [o] with another value of ensure_http_headers *)
Definition with_ensure (b : bool) (o : lopts) : lopts :=
  mk_lopts (lo_norec o) (lo_verify o) (lo_a2w o) b (lo_check o) (lo_uuid o).
(** HTTP headers with a status line or at least one header; what a record without them gets *)
Definition has_http (http : option sah) : Prop := exists h, http = Some h /\ (sh_status h <> [] \/ sh_headers h <> []).
Definition default_http (ctype : option str) (length : option Z) (h : sah) : Prop :=
  sh_proto h = lit "HTTP/1.0" /\ sh_status h = lit "200 OK"
  /\ sh_headers h = match ctype with Some (x :: t) => [(lit "Content-Type", x :: t)] | _ => [] end
                    ++ match length with Some n => [(lit "Content-Length", str_of_Z n)] | None => [] end.
(** record [b] is record [a], with HTTP headers made up if it has none *)
Definition ensured {S} (a b : record S) : Prop :=
  rc_format a = rc_format b /\ rc_type a = rc_type b /\ rc_headers a = rc_headers b
  /\ rc_ctype a = rc_ctype b /\ rc_length a = rc_length b /\ rc_plen a = rc_plen b
  /\ (has_http (rc_http a) -> rc_http b = rc_http a)
  /\ (~ has_http (rc_http a) -> exists h, rc_http b = Some h /\ default_http (rc_ctype a) (rc_length a) h).
