(** * DigestSpec: what a digest header says about a content (WARC 1.1, RFC 3548),
    and what it means to read a record's block with digest checking.
    Independent of the comparison code of digestverifyingreader.py. *)
From Coq Require Import String List ZArith NArith Bool.
From Verif Require Import PyBase Codecs Streams StreamSpec.
Import ListNotations.
Open Scope Z_scope.

Definition hash_ok (f : bytes -> bytes) : Prop :=
  exists n, (16 <= n)%nat /\ forall x, List.length (f x) = n /\ Forall (fun b => (b < 256)%N) (f x).
(** every available algorithm yields byte strings of one length, at least 16 (MD5) *)
Definition henv_ok (he : henv) : Prop := forall a f, he a = Some f -> hash_ok f.

(** [v] is an RFC 3548 encoding of the byte string [h]: base32 (upper case, padded),
    base16 in any mixture of cases, base64 padded with either alphabet.
    Base16 is excluded for 16-byte hashes, see C46_md5_hex_refuted. *)
Definition encodes (h : bytes) (v : str) : Prop :=
  v = b32encode h
  \/ (17 <= List.length h)%nat /\ lower v = b16encode false h
  \/ exists url, v = b64encode url h.

(** a digest header "algorithm:value", split at the first colon *)
Definition is_digest (d algo value : str) : Prop := d = algo ++ 58%N :: value /\ ~ In 58%N algo.

Inductive verdict := VNone | VBad | VGood.

(** what the header [d] says about [data] *)
Inductive judged (he : henv) (data : bytes) : option str -> verdict -> Prop :=
| J_absent : judged he data None VNone
| J_empty : judged he data (Some []) VNone
| J_nocolon d : d <> [] -> ~ In 58%N d -> judged he data (Some d) VBad
| J_unknown d algo value : is_digest d algo value -> he algo = None -> judged he data (Some d) VBad
| J_good d algo value f : is_digest d algo value -> he algo = Some f ->
    encodes (f data) value -> judged he data (Some d) VGood
| J_bad d algo value f h : is_digest d algo value -> he algo = Some f ->
    encodes h value -> List.length h = List.length (f data) -> Forall (fun b => (b < 256)%N) h ->
    h <> f data -> judged he data (Some d) VBad.

(** a digest header whose verdict is defined whatever the content is *)
Definition judgeable (he : henv) (d : option str) : Prop := forall data, exists v, judged he data d v.

(** the overall verdict: False if some digest is bad, True if none is bad and one is good *)
Definition combine (a b : verdict) : option bool :=
  match a, b with
  | VBad, _ | _, VBad => Some false
  | VGood, _ | _, VGood => Some true
  | VNone, VNone => None
  end.

(** the digests that are compared: none for a revisit record, no payload digest for a segment *)
Definition eff_block (rt bd : option str) : option str :=
  match rt with Some t => if leqb t (lit "revisit") then None else bd | None => bd end.
Definition eff_payload (rt seg pd : option str) : option str :=
  match seg with Some _ => None | None => eff_block rt pd end.

(** Reading a block of [limit] bytes from stream [s] with digest checking: calls [cs1],
    then begin_payload(), then calls [cs2]; the bytes returned before and after, and the
    final checker; or the first exception. *)
Inductive outcome := Finished (head payload : bytes) (c : checker) | Raised (e : exn).

Fixpoint all_ok (l : list (res bytes)) : res bytes :=
  match l with
  | [] => Ok []
  | Ok b :: t => match all_ok t with Ok r => Ok (b ++ r) | Err e => Err e end
  | Err e :: _ => Err e
  end.

Definition session {S} (ops : sops S) (he : henv) (k : ckind) (rt pd bd seg : option str)
           (s : S) (limit : Z) (cs1 cs2 : list call) : outcome :=
  match dig_new he (lim_new s limit) limit (chk_new k) rt pd bd seg with
  | Err e => Raised e
  | Ok d =>
      let (rs1, d1) := run_calls (dig_ops ops) cs1 d in
      match all_ok rs1 with
      | Err e => Raised e
      | Ok h =>
          match begin_payload d1 with
          | (Err e, _) => Raised e
          | (Ok _, d2) =>
              let (rs2, d3) := run_calls (dig_ops ops) cs2 d2 in
              match all_ok rs2 with
              | Err e => Raised e
              | Ok p => Finished h p (dr_chk d3)
              end
          end
      end
  end.
