(** * ConvSpec: vocabulary for the statements about ARC files converted to WARC by recompress *)
From Coq Require Import String List ZArith NArith Bool.
From Verif Require Import PyBase Utf8 Headers HeaderSpec Streams StreamSpec DigestSpec TimeUtils TimeSpec Loader Iterator Writer WriterSpec IterSpec RoundSpec ArcSpec RewriteSpec.
Import ListNotations.
Open Scope Z_scope.

(** an ARC file, uncompressed or with one gzip member per record (as in C75) *)
Inductive arc_archive (zl : zenv) (fuel : nat) (o : lopts) (M : Z) : bytes -> list aentry -> Prop :=
| AA_plain es :
    gz_magic zl -> M <= BUFF_SIZE -> enough fuel (ae_texts es) ->
    (forall i e, nth_error es i = Some e -> good_aentry fuel o M [] e
       /\ white (ae_tail e) /\ (white_lines (ae_tail e) \/ S i = List.length es)) ->
    arc_archive zl fuel o M (ae_texts es) es
| AA_gzip ms :
    ms <> [] -> agz_fit zl M BUFF_SIZE [] (fun _ => []) ms -> enough fuel (agz_data ms) ->
    (forall e m, In (e, m) ms -> good_aentry fuel o M [] e /\ white (ae_tail e) /\ is_member zl m (ae_text e) /\ enough fuel (ae_text e)) ->
    arc_archive zl fuel o M (agz_data ms) (map fst ms).

(** the WARC record [e] that ARC record [a] is read as *)
Record arc_as_warc (uuid : str) (a : aentry) (e : entry) : Prop := {
  aw_version : w_version (e_rec e) = lit "WARC/1.0";
  aw_headers : exists iso uri, converted (r_fields (ae_rec a)) iso uri
      /\ warc_headers (make_warc_id uuid) iso uri (r_fields (ae_rec a)) (w_headers (e_rec e));
  aw_block : w_block (e_rec e) = r_data (ae_rec a);
  aw_http : e_http e = ae_http a;
  aw_payload : e_payload e = ae_payload a
}.

(** [a] can be written as a WARC record and read again: its fields fit on a line, its URL is not
    in two pairs of brackets, and the HTTP headers are spelled as the writer spells them or
    are ASCII text that can be recognised when read again (as [rewritable]) *)
Record arc_writable (fuel : nat) (M : Z) (a : aentry) : Prop := {
  cw_ip : wf_value (f_ip (r_fields (ae_rec a)));
  cw_ctype : wf_value (f_ctype (r_fields (ae_rec a)));
  cw_length : wf_value (f_length (r_fields (ae_rec a)));
  cw_file : forall t, f_uri (r_fields (ae_rec a)) = lit "filedesc://" ++ t -> wf_value t;
  cw_uri : forall u, normal_uri (f_uri (r_fields (ae_rec a))) u -> wf_value u /\ forall m, u <> 60%N :: m ++ [62%N];
  cw_http : forall h, ae_http a = Some h -> exists hb, http_block None (Some h) hb
    /\ (r_data (ae_rec a) = hb ++ ae_payload a
        \/ sah_bool h = true /\ enough fuel (hb ++ ae_payload a) /\ wf_block (reading_parser (Some (lit "response")) false) h
           /\ ascii_block h /\ RoundSpec.lines_fit M h)
}.
