(** * CaptureSpec: vocabulary for the statements about capture_http.py: the traffic of a
    connection, requests, URLs, nested captures.  From the model only the data types, the
    operations, and [step]/[run] (to say in which world an operation happens). *)
From Coq Require Import String List ZArith NArith Bool.
From Verif Require Import PyBase Utf8 Headers HeaderSpec Writer WriterSpec Loader Capture.
Import ListNotations.
Open Scope Z_scope.

(** a world in which nothing has happened yet; [outs]: what the files contain *)
Definition fresh (outs : list bytes) : world := mk_world [] [] [] outs.

(** the bytes the client gave connection [c] to send, and those it got from it *)
Definition sent1 (c : nat) (o : op) : bytes :=
  match o with Send i _ parts => if Nat.eqb i c then concat parts else [] | _ => [] end.
Definition got1 (c : nat) (o : op) : bytes :=
  match o with
  | Got i b => if Nat.eqb i c then b else []
  | Into i _ b => if Nat.eqb i c then b else []
  | _ => []
  end.
(** the parts it was given *)
Definition parts1 (c : nat) (o : op) : list bytes :=
  match o with Send i _ parts => if Nat.eqb i c then parts else [] | _ => [] end.
Definition parts (c : nat) (ops : list op) : list bytes := concat (map (parts1 c) ops).
Definition sent (c : nat) (ops : list op) : bytes := concat (map (sent1 c) ops).
Definition got (c : nat) (ops : list op) : bytes := concat (map (got1 c) ops).

(** what a client does between the beginning of a request and the end of the response;
    buffers given to readinto() are filled completely *)
Definition traffic (o : op) : Prop :=
  match o with
  | Send _ _ _ | Respond _ _ | Got _ _ => True
  | Into _ buf b => lenZ b = lenZ buf
  | _ => False
  end.

(** [ops] are operations of connection [c] of this kind, mixed with any others that are
    not of a connection with the same recorder [j] *)
Fixpoint undisturbed (fuel : nat) (sha1 : bytes -> bytes) (k : kenv) (c j : nat) (ops : list op) (w : world) : Prop :=
  match ops with
  | [] => True
  | o :: t =>
      (conn_of o = Some c -> traffic o)
      /\ (forall i x, conn_of o = Some i -> i <> c -> nth_error (wd_conns w) i = Some x -> cn_rec x <> Some j)
      /\ undisturbed fuel sha1 k c j t (snd (step fuel sha1 k o w))
  end.

(** connection [c] is recorded by recorder [j] *)
Definition recorded_by (w : world) (c j : nat) (x : conn) (cf : config) (r : recorder) : Prop :=
  nth_error (wd_conns w) c = Some x /\ cn_rec x = Some j /\ nth_error (wd_recs w) j = Some (cf, r).

(** ** Requests *)
(** [data] begins with "verb path version" and the end of the line *)
Definition request_line (data : bytes) (verb path : str) : Prop :=
  ~ In 32%N verb /\ ~ In LF verb /\ ~ In 32%N path /\ ~ In LF path
  /\ exists rest, data = verb ++ [32%N] ++ path ++ [32%N] ++ rest.

(** the URL of a request for [path] to [host] *)
Definition url_of (https : bool) (host : str) (port : Z) (path url : str) : Prop :=
  let std := if https then 443 else 80 in
  url = (if https then lit "https://" else lit "http://") ++ host
        ++ (if port =? std then [] else lit ":" ++ str_of_Z port) ++ path.
Definition absolute (path : str) : Prop :=
  exists t, path = lit "http:" ++ t \/ path = lit "https:" ++ t.

(** no tunnel was opened by these operations: no CONNECT was sent and no connection with a
    tunnel was made *)
Definition no_tunnel (o : op) : Prop :=
  match o with
  | Make _ _ _ _ tn => tn = None
  | Send _ _ parts => forall b t, In b parts -> b <> lit "CONNECT " ++ t
  | _ => True
  end.

(** the texts given to the operations can be encoded, the bytes are bytes *)
Definition op_texts (o : op) : Prop :=
  let text x := match x with Some a => scalar_text a | None => True end in
  match o with
  | Enter _ cf => wo_version (cf_opts cf) <> [] /\ scalar_text (wo_version (cf_opts cf))
  | Make _ h _ _ tn => scalar_text h /\ text (option_map fst tn)
  | Open _ ip | Respond _ ip => text ip
  | Send _ ip parts => text ip /\ Forall (Forall (fun x => (x < 256)%N)) parts
  | Done _ st => scalar_text (st_id1 st) /\ scalar_text (st_now1 st) /\ scalar_text (st_id2 st) /\ scalar_text (st_now2 st)
  | _ => True
  end.

(** ** Captures *)
(** the captures (numbered in the order they begin) of thread [t] that are active after
    [ops], the innermost first; [n] captures began before *)
Fixpoint active (t n : nat) (ops : list op) (st : list nat) : list nat :=
  match ops with
  | [] => st
  | Enter t' _ :: ops => active t (S n) ops (if Nat.eqb t' t then n :: st else st)
  | Exit t' :: ops => active t n ops (if Nat.eqb t' t then tl st else st)
  | _ :: ops => active t n ops st
  end.
(** no thread begins a capture inside another one *)
Fixpoint unnested (depth : nat -> nat) (ops : list op) : Prop :=
  match ops with
  | [] => True
  | Enter t _ :: ops => depth t = 0%nat /\ unnested (fun t' => if Nat.eqb t t' then 1%nat else depth t') ops
  | Exit t :: ops => unnested (fun t' => if Nat.eqb t t' then 0%nat else depth t') ops
  | _ :: ops => unnested depth ops
  end.

(** the captures that began, in order *)
Fixpoint begun (ops : list op) : list config :=
  match ops with
  | [] => []
  | Enter _ cf :: ops => cf :: begun ops
  | _ :: ops => begun ops
  end.
(** the same program without the captures *)
Definition not_capture (o : op) : bool := match o with Enter _ _ | Exit _ => false | _ => true end.
(** a connection apart from its recorder *)
Definition unrecorded (x : conn) : conn :=
  mk_cn (cn_host x) (cn_port x) (cn_default x) None (cn_open x) (cn_tunnel x) (cn_wire x).

(** ** What is written *)
(** [out] is added to file [i], the others do not change *)
Definition grows (outs outs' : list bytes) (i : nat) (out : bytes) : Prop :=
  forall n, nth_error outs' n = if Nat.eqb n i then option_map (fun b => b ++ out) (nth_error outs n) else nth_error outs n.
(** the filter function, if there is one, returns the records it is given *)
Definition accepts (cf : config) : Prop :=
  match cf_filter cf with Some f => forall rq rs, f rq rs = (Some rq, Some rs) | None => True end.
(** [out]: two records, [b1] and [b2] their blocks *)
Definition two_records (k : kenv) (o : wopts) (hs1 hs2 : list header) (b1 b2 out : bytes) : Prop :=
  exists ws1 ws2,
    is_record (wo_version o) hs1 b1 (concat ws1) /\ is_record (wo_version o) hs2 b2 (concat ws2)
    /\ out = (if wo_gzip o then deflated k (kinit k) ws1 ++ deflated k (kinit k) ws2 else concat ws1 ++ concat ws2).

(** an HTTP message whose headers are written the way they are stored: "Name: value", CRLF,
    ASCII, and not only a protocol or verb *)
Definition message (p : parser) (b : bytes) : Prop :=
  exists h payload, wf_block p h /\ (sh_status h <> [] \/ sh_headers h <> [])
    /\ (ascii_text (sh_proto h) /\ ascii_text (sh_status h)
        /\ Forall (fun x => ascii_text (fst x) /\ ascii_text (snd x)) (sh_headers h))
    /\ b = record_text (status_text (sh_proto h) (sh_status h)) (sh_headers h) ++ payload.
