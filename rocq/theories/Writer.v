(** * Writer: model of /repo/warcio/recordbuilder.py and /repo/warcio/warcwriter.py *)
From Coq Require Import List ZArith NArith Bool String.
From Verif Require Import PyBase Utf8 Codecs Headers Streams TimeUtils Loader.
Import ListNotations.
Open Scope Z_scope.

(** ** Payload streams given to the writer.
    [py_all]: the whole content, [py_pos]: position, [py_sched]: short reads,
    [py_seek]: does it support tell()/seek().  SpooledTemporaryFile and BytesIO are
    [py_seek = true], full reads. *)
Record pstream := mk_ps { py_all : bytes; py_pos : Z; py_sched : list Z; py_seek : bool }.

Definition bytesio (b : bytes) : pstream := mk_ps b 0 [] true.
Definition ps_rest (p : pstream) : bytes := dropZ (py_pos p) (py_all p).
Definition ps_adv (out : bytes) (sched : list Z) (p : pstream) : pstream :=
  mk_ps (py_all p) (py_pos p + lenZ out) sched (py_seek p).

Definition ps_read (n : option Z) (p : pstream) : res bytes * pstream :=
  match n with
  | Some k =>
      if 0 <? k then
        let '(m, sched) := match py_sched p with
                           | [] => (k, [])
                           | x :: t => (Z.min k (Z.max 1 x), t)
                           end in
        let out := takeZ m (ps_rest p) in (Ok out, ps_adv out sched p)
      else if k =? 0 then (Ok [], p)
      else (Ok (ps_rest p), ps_adv (ps_rest p) (py_sched p) p)
  | None => (Ok (ps_rest p), ps_adv (ps_rest p) (py_sched p) p)
  end.
Definition ps_readline (n : option Z) (p : pstream) : res bytes * pstream :=
  let out := line_of n (ps_rest p) in (Ok out, ps_adv out (py_sched p) p).
Definition ps_ops : sops pstream := mk_sops ps_read ps_readline py_pos.

(** ** recordloader.py:20-25 as used by the builder: record.raw_stream is a payload
    stream; _orig_stream is set when the payload was buffered (recordbuilder.py:204) *)
Record wrec := mk_wrec {
  wr_type : option str;
  wr_headers : sah;
  wr_stream : pstream;
  wr_orig : option pstream;
  wr_http : option sah;
  wr_ctype : option str;
  wr_length : option Z;
  wr_plen : option Z          (* payload_length; None when length was None *)
}.

Definition w_set_headers (h : sah) (r : wrec) : wrec :=
  mk_wrec (wr_type r) h (wr_stream r) (wr_orig r) (wr_http r) (wr_ctype r) (wr_length r) (wr_plen r).
Definition w_set_stream (s : pstream) (r : wrec) : wrec :=
  mk_wrec (wr_type r) (wr_headers r) s (wr_orig r) (wr_http r) (wr_ctype r) (wr_length r) (wr_plen r).
Definition w_set_orig (s : option pstream) (r : wrec) : wrec :=
  mk_wrec (wr_type r) (wr_headers r) (wr_stream r) s (wr_http r) (wr_ctype r) (wr_length r) (wr_plen r).
Definition w_set_http (h : option sah) (r : wrec) : wrec :=
  mk_wrec (wr_type r) (wr_headers r) (wr_stream r) (wr_orig r) h (wr_ctype r) (wr_length r) (wr_plen r).
Definition w_set_length (n : option Z) (r : wrec) : wrec :=
  mk_wrec (wr_type r) (wr_headers r) (wr_stream r) (wr_orig r) (wr_http r) (wr_ctype r) n (wr_plen r).
Definition w_set_plen (n : option Z) (r : wrec) : wrec :=
  mk_wrec (wr_type r) (wr_headers r) (wr_stream r) (wr_orig r) (wr_http r) (wr_ctype r) (wr_length r) n.

(** ** zlib.compressobj as an oracle *)
Record kenv := mk_kenv {
  kS : Type;
  kinit : kS;
  kcompress : kS -> bytes -> kS * bytes;
  kflush : kS -> bytes
}.

Section Builder.
  Context (fuel : nat) (sha1 : bytes -> bytes).

  (** recordbuilder.py:33-36 writer options *)
  Record wopts := mk_wopts {
    wo_version : str;           (* warc_version, parsed *)
    wo_filter : option hfilter; (* header_filter *)
    wo_gzip : bool
  }.

  (** recordbuilder.py:140-148 _parse_warc_version *)
  Definition parse_warc_version (v : option str) : str :=
    match v with
    | Some ((_ :: _) as s) => if startswith (lit "WARC/") s then s else lit "WARC/" ++ s
    | _ => lit "WARC/1.0"
    end.

  (** recordbuilder.py:215-222 _iter_stream *)
  Fixpoint iter_stream (n : nat) (p : pstream) : res (list bytes) * pstream :=
    match n with
    | O => (Err OutOfFuel, p)
    | Datatypes.S n' =>
        match ps_read (Some BUFF_SIZE) p with
        | (Err e, p') => (Err e, p')
        | (Ok [], p') => (Ok [], p')
        | (Ok b, p') => match iter_stream n' p' with
                        | (Ok l, p'') => (Ok (b :: l), p'')
                        | (Err e, p'') => (Err e, p'')
                        end
        end
    end.

  (** utils.py:97-106 str(Digester('sha1')) fed with the given bytes *)
  Definition sha1_str (b : bytes) : str := lit "sha1:" ++ b32encode (sha1 b).

  (** recordbuilder.py:30 NO_PAYLOAD_DIGEST_TYPES *)
  Definition no_payload_digest (t : option str) : bool :=
    match t with
    | Some t => leqb t (lit "warcinfo") || leqb t (lit "revisit")
    | None => false
    end.

  (** recordbuilder.py:186-189: the header part of the block digest *)
  Definition block_prefix (f : option hfilter) (block : bool) (r : wrec) : res bytes * wrec :=
    match wr_http r with
    | Some h =>
        if block && sah_bool h then
          match sh_buff h with
          | Some ((_ :: _) as b) => (Ok b, r)
          | _ => match compute_headers_buffer f h with
                 | (Err e, h') => (Err e, w_set_http (Some h') r)
                 | (Ok _, h') =>
                     (Ok (match sh_buff h' with Some b => b | None => [] end),
                      w_set_http (Some h') r)
                 end
          end
        else (Ok [], r)
    | None => (Ok [], r)
    end.

  (** recordbuilder.py:158-213 ensure_digest *)
  Definition ensure_digest (f : option hfilter) (block payload : bool) (r : wrec)
    : res unit * wrec :=
    let block := block && negb (truthy (get_header (lit "WARC-Block-Digest") (wr_headers r))) in
    let payload := payload
                   && negb (truthy (get_header (lit "WARC-Payload-Digest") (wr_headers r))
                            || no_payload_digest (wr_type r)) in
    let has_length := match wr_length r with Some _ => true | None => false end in
    if negb block && negb payload && has_length then (Ok tt, r)
    else
      let temp := negb (has_length && py_seek (wr_stream r)) in
      let pos := py_pos (wr_stream r) in
      match block_prefix f block r with
      | (Err e, r) => (Err e, r)
      | (Ok pre, r) =>
          match iter_stream fuel (wr_stream r) with
          | (Err e, p) => (Err e, w_set_stream p r)
          | (Ok bufs, p) =>
              let content := List.concat bufs in
              let r := if temp then
                         w_set_stream (bytesio content)
                           (w_set_orig (Some p) (w_set_plen (Some (lenZ content)) r))
                       else w_set_stream (mk_ps (py_all p) pos (py_sched p) (py_seek p)) r in
              let r := if payload then
                         w_set_headers (add_header (lit "WARC-Payload-Digest")
                                                   (sha1_str content) (wr_headers r)) r
                       else r in
              let r := if block then
                         w_set_headers (add_header (lit "WARC-Block-Digest")
                                                   (sha1_str (pre ++ content)) (wr_headers r)) r
                       else r in
              (Ok tt, r)
          end
      end.

  (** recordbuilder.py:23-28 WARC_RECORDS *)
  Definition default_ctype (t : str) : str :=
    if leqb t (lit "warcinfo") then lit "application/warc-fields"
    else if leqb t (lit "response") then lit "application/http; msgtype=response"
    else if leqb t (lit "revisit") then lit "application/http; msgtype=response"
    else if leqb t (lit "request") then lit "application/http; msgtype=request"
    else if leqb t (lit "metadata") then lit "application/warc-fields"
    else lit "application/warc-record".

  (** recordbuilder.py:122-134 _init_warc_headers; [uuid], [now]: text of uuid4() and
      of the current date *)
  Definition init_warc_headers (version uuid now : str) (uri : option str) (rec_type : str)
             (hdict : list header) : sah :=
    let h := sah_new [] hdict version in
    let h := replace_header_ (lit "WARC-Type") rec_type h in
    let h := if truthy (get_header (lit "WARC-Record-ID") h) then h
             else add_header (lit "WARC-Record-ID") (make_warc_id uuid) h in
    let h := match uri with
             | Some ((_ :: _) as u) => replace_header_ (lit "WARC-Target-URI") u h
             | _ => h
             end in
    if truthy (get_header (lit "WARC-Date") h) then h
    else add_header (lit "WARC-Date") now h.

  (** recordbuilder.py:82-120 create_warc_record.  warc_headers_dict is the list of
      its items.  An empty StatusAndHeaders is falsy (lines 92, 102). *)
  Definition create_warc_record (version uuid now : str) (f : option hfilter)
             (uri : option str) (rec_type : str) (payload : option pstream)
             (length : option Z) (ctype : str) (hdict : list header)
             (whdrs : option sah) (http : option sah) : res wrec :=
    (* lines 92-96 *)
    let step1 :=
      match payload with
      | Some p =>
          if osah_bool http then Ok (http, p, length)
          else
            match load_http_headers ps_ops fuel true (Some rec_type) uri length p with
            | (Err e, _) => Err e
            | (Ok h, p') =>
                Ok (h, p', if osah_bool h
                           then match length with Some n => Some (n - py_pos p') | None => None end
                           else length)
            end
      | None => Ok (http, bytesio [], Some 0)
      end in
    match step1 with
    | Err e => Err e
    | Ok (http, p, length) =>
        let wh := if osah_bool whdrs then
                    match whdrs with Some h => h | None => sah_new [] [] [] end
                  else init_warc_headers version uuid now uri rec_type hdict in
        let ct := if is_nil ctype then
                    match get_header (lit "Content-Type") wh with
                    | Some ((_ :: _) as c) => c
                    | _ => default_ctype rec_type
                    end
                  else ctype in
        let r := mk_wrec (Some rec_type) wh p None http (Some ct) length length in
        match ensure_digest f false true r with
        | (Ok _, r) => Ok r
        | (Err e, _) => Err e
        end
    end.

  (** recordbuilder.py:38-60 create_warcinfo_record; [info] as (name, str(value))
      pairs (an empty value is skipped) *)
  Definition warcinfo_line (nv : header) : option bytes :=
    match snd nv with
    | [] => Some []
    | v => utf8_encode (fst nv ++ lit ": " ++ v ++ crlf)
    end.
  (** lines 50-56; None: UnicodeEncodeError *)
  Fixpoint warcinfo_content (info : list header) : option bytes :=
    match info with
    | [] => Some []
    | nv :: t =>
        match warcinfo_line nv, warcinfo_content t with
        | Some l, Some r => Some (l ++ r)
        | _, _ => None
        end
    end.
  Definition create_warcinfo_record (version uuid now : str) (f : option hfilter)
             (filename : str) (info : list header) : res wrec :=
    let h := sah_new [] [] version in
    let h := add_header (lit "WARC-Type") (lit "warcinfo") h in
    let h := add_header (lit "WARC-Record-ID") (make_warc_id uuid) h in
    let h := if is_nil filename then h else add_header (lit "WARC-Filename") filename h in
    let h := add_header (lit "WARC-Date") now h in
    match warcinfo_content info with
    | None => Err UnicodeErr
    | Some content =>
        create_warc_record version uuid now f (Some []) (lit "warcinfo") (Some (bytesio content))
                           (Some (lenZ content)) [] [] (Some h) None
    end.

  Definition REVISIT_PROFILE : str :=
    lit "http://netpreserve.org/warc/1.0/revisit/identical-payload-digest".
  Definition REVISIT_PROFILE_1_1 : str :=
    lit "http://netpreserve.org/warc/1.1/revisit/identical-payload-digest".

  (** recordbuilder.py:62-80 create_revisit_record *)
  Definition create_revisit_record (version uuid now : str) (f : option hfilter)
             (uri digest ref_uri ref_date : str) (http : option sah) (hdict : list header)
    : res wrec :=
    if is_nil digest then Err AssertErr
    else
      match create_warc_record version uuid now f (Some uri) (lit "revisit") None None [] hdict
                               None http with
      | Err e => Err e
      | Ok r =>
          let profile := if leqb version (lit "WARC/1.1") then REVISIT_PROFILE_1_1
                         else REVISIT_PROFILE in
          let h := wr_headers r in
          let h := add_header (lit "WARC-Profile") profile h in
          let h := add_header (lit "WARC-Refers-To-Target-URI") ref_uri h in
          let h := add_header (lit "WARC-Refers-To-Date") ref_date h in
          let h := add_header (lit "WARC-Payload-Digest") digest h in
          Ok (w_set_headers h r)
      end.

  (** ** warcwriter.py *)

  (** the effect on the output: the list of out.write() arguments, in order *)
  Definition writes := list bytes.

  (** warcwriter.py:45-50: recompute-the-digests path *)
  Definition strip_for_unknown (r : wrec) : wrec :=
    let h := remove_header_ (lit "WARC-Block-Digest") (wr_headers r) in
    let h := if otype_is (wr_type r) "revisit" then h
             else remove_header_ (lit "WARC-Payload-Digest") h in
    w_set_headers (remove_header_ (lit "Content-Type") h) r.

  Definition opt_plen (o : option Z) : Z := match o with Some n => n | None => -1 end.

  (** str(record.length) *)
  Definition len_str (o : option Z) : str :=
    match o with Some n => str_of_Z n | None => lit "None" end.

  (** warcwriter.py:41-109 _write_warc_record, up to the gzip wrapper: the writes made
      to [out] (complete list, or those made before the exception) and the record
      afterwards.  Line 76 compares payload_length with 0: a TypeError when it is
      None, which needs length None and no buffering, impossible here. *)
  Definition write_plain (f : option hfilter) (r : wrec) : res unit * writes * wrec :=
    (* lines 45-46 *)
    let '(e1, r) :=
      match wr_http r with
      | Some h => if sah_bool h then
                    let (x, h') := compute_headers_buffer f h in (x, w_set_http (Some h') r)
                  else (Ok tt, r)
      | None => (Ok tt, r)
      end in
    match e1 with
    | Err e => (Err e, [], r)
    | Ok _ =>
        (* lines 52-64 *)
        let '(e2, r) :=
          match wr_length r with
          | None =>
              match ensure_digest f true true (strip_for_unknown r) with
              | (Ok _, r) => (Ok tt, w_set_length (wr_plen r) r)
              | (Err e, r) => (Err e, r)
              end
          | Some _ => ensure_digest f true true r
          end in
        match e2 with
        | Err e => (Err e, [], r)
        | Ok _ =>
            (* lines 66-68 *)
            let r := match wr_ctype r with
                     | Some c => w_set_headers (replace_header_ (lit "Content-Type") c (wr_headers r)) r
                     | None => r
                     end in
            let only := otype_is (wr_type r) "revisit" in
            (* lines 75-85 *)
            let hb := match wr_http r with
                      | Some h => if sah_bool h then
                                    Some (match sh_buff h with Some b => b | None => [] end)
                                  else None
                      | None => None
                      end in
            let r := match hb with
                     | Some b =>
                         if 0 <=? opt_plen (wr_plen r) then
                           w_set_length (Some (lenZ b + (if only then 0 else opt_plen (wr_plen r)))) r
                         else r
                     | None => r
                     end in
            (* line 87 *)
            let r := w_set_headers (replace_header_ (lit "Content-Length") (len_str (wr_length r))
                                                    (wr_headers r)) r in
            match to_bytes None (wr_headers r) with
            | Err e => (Err e, [], r)
            | Ok hbytes =>
                let w1 := hbytes :: match hb with Some b => [b] | None => [] end in
                if only then (Ok tt, w1 ++ [crlf ++ crlf], r)
                else
                  match iter_stream fuel (wr_stream r) with
                  | (Err e, p) => (Err e, w1, w_set_stream p r)
                  | (Ok bufs, p) =>
                      (* lines 101-104: the temp file is closed, the original stream restored;
                         _orig_stream stays set *)
                      let r := match wr_orig r with
                               | Some s => w_set_stream s r
                               | None => w_set_stream p r
                               end in
                      (Ok tt, w1 ++ bufs ++ [crlf ++ crlf], r)
                  end
            end
        end
    end.

  (** warcwriter.py:113-127 GzippingWrapper: each write is compressed, flush ends the
      member.  [gz_writes]: the writes on the underlying file for a list of writes
      followed by flush (None: no flush happened because of an exception). *)
  Fixpoint gz_writes (k : kenv) (s : kS k) (ws : writes) (flush : bool) : writes :=
    match ws with
    | [] => if flush then [kflush k s] else []
    | w :: t => let (s', o) := kcompress k s w in o :: gz_writes k s' t flush
    end.

  Definition write_record (k : kenv) (o : wopts) (r : wrec) : res unit * writes * wrec :=
    let '(x, ws, r') := write_plain (wo_filter o) r in
    let done := match x with Ok _ => true | Err _ => false end in
    (x, if wo_gzip o then gz_writes k (kinit k) ws done else ws, r').

  (** a sequence of write_record calls; stops at the first exception *)
  Fixpoint write_all (k : kenv) (o : wopts) (rs : list wrec) : res unit * writes :=
    match rs with
    | [] => (Ok tt, [])
    | r :: t =>
        match write_record k o r with
        | (Err e, ws, _) => (Err e, ws)
        | (Ok _, ws, _) => let (x, ws') := write_all k o t in (x, ws ++ ws')
        end
    end.

  (** warcwriter.py:22-33 write_request_response_pair: header changes on the request.
      A missing URI or date is None in Python and makes the later serialisation of
      the request fail (': '.join raises TypeError): modelled as an error of the
      request's write, after the response has been written. *)
  Definition link_request (req resp : wrec) : option wrec :=
    match get_header (lit "WARC-Target-URI") (wr_headers resp),
          get_header (lit "WARC-Date") (wr_headers resp) with
    | Some url, Some date =>
        let h := replace_header_ (lit "WARC-Target-URI") url (wr_headers req) in
        let h := replace_header_ (lit "WARC-Date") date h in
        let h := match get_header (lit "WARC-Record-ID") (wr_headers resp) with
                 | Some ((_ :: _) as i) => add_header (lit "WARC-Concurrent-To") i h
                 | _ => h
                 end in
        Some (w_set_headers h req)
    | _, _ => None
    end.

  Definition write_pair (k : kenv) (o : wopts) (req resp : wrec) : res unit * writes :=
    match write_record k o resp with
    | (Err e, ws, _) => (Err e, ws)
    | (Ok _, ws, _) =>
        match link_request req resp with
        | None => (Err TypeErr, ws)
        | Some req' => match write_record k o req' with
                       | (x, ws', _) => (x, ws ++ ws')
                       end
        end
    end.
End Builder.
