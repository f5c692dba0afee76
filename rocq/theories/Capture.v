(** * Capture: model of /repo/warcio/capture_http.py.
    The traffic of an HTTP client is a list of operations (below) performed on a world:
    the recorders made by capture_http, the connections, the thread-local recorder of every
    thread, and the output of every writer.  Not modelled: sockets (what is sent always
    arrives, what is read is an argument of the operation), the parts of http.client that
    do not call back into capture_http.py, and filters that change the recorder. *)
From Coq Require Import List ZArith NArith Bool String.
From Verif Require Import PyBase Utf8 Codecs Headers Streams Loader Writer.
Import ListNotations.
Open Scope Z_scope.

(** capture_http.py:132-146 RequestRecorder.  [rd_req], [rd_resp]: contents of request_out
    and response_out, which are only written to, at their end; [rd_live]: they are open
    (made by start(), not closed by done()); [rd_headers]: warc_headers, a dict. *)
Record recorder := mk_rd {
  rd_req : bytes;
  rd_resp : bytes;
  rd_live : bool;
  rd_url : option str;
  rd_chost : option str;      (* connect_host *)
  rd_cport : option Z;        (* connect_port *)
  rd_started : bool;
  rd_first : bool;            (* first_line_read *)
  rd_headers : list header
}.
Definition new_recorder : recorder := mk_rd [] [] false None None None false false [].

(** what capture_http and RequestRecorder were given: filter_func (None: reject),
    record_ip, the writer (an index into the outputs) and its options *)
Record config := mk_cf {
  cf_filter : option (wrec -> wrec -> option wrec * option wrec);
  cf_ip : bool;
  cf_writer : nat;
  cf_opts : wopts
}.

(** d[name] = value *)
Fixpoint dict_set (name value : str) (d : list header) : list header :=
  match d with
  | [] => [(name, value)]
  | (n, v) :: t => if leqb n name then (n, value) :: t else (n, v) :: dict_set name value t
  end.

Definition rd_set_headers (h : list header) (r : recorder) : recorder :=
  mk_rd (rd_req r) (rd_resp r) (rd_live r) (rd_url r) (rd_chost r) (rd_cport r) (rd_started r) (rd_first r) h.
Definition rd_set_url (u : option str) (r : recorder) : recorder :=
  mk_rd (rd_req r) (rd_resp r) (rd_live r) u (rd_chost r) (rd_cport r) (rd_started r) (rd_first r) (rd_headers r).
Definition rd_set_connect (h : option str) (p : option Z) (r : recorder) : recorder :=
  mk_rd (rd_req r) (rd_resp r) (rd_live r) (rd_url r) h p (rd_started r) (rd_first r) (rd_headers r).
Definition rd_set_first (b : bool) (r : recorder) : recorder :=
  mk_rd (rd_req r) (rd_resp r) (rd_live r) (rd_url r) (rd_chost r) (rd_cport r) (rd_started r) b (rd_headers r).
Definition rd_set_bufs (q s : bytes) (r : recorder) : recorder :=
  mk_rd q s (rd_live r) (rd_url r) (rd_chost r) (rd_cport r) (rd_started r) (rd_first r) (rd_headers r).
Definition rd_close (r : recorder) : recorder :=
  mk_rd (rd_req r) (rd_resp r) false (rd_url r) (rd_chost r) (rd_cport r) (rd_started r) (rd_first r) (rd_headers r).

(** capture_http.py:148-151 start_tunnel *)
Definition start_tunnel (r : recorder) : recorder :=
  mk_rd (rd_req r) (rd_resp r) (rd_live r) (rd_url r) None None false false (rd_headers r).

(** capture_http.py:153-158 start *)
Definition start (r : recorder) : recorder :=
  mk_rd [] [] true None (rd_chost r) (rd_cport r) true false (rd_headers r).

(** capture_http.py:163-165 set_remote_ip; the address is None or text *)
Definition set_remote_ip (cf : config) (ip : option str) (r : recorder) : recorder :=
  match ip with
  | Some ((_ :: _) as a) => if cf_ip cf then rd_set_headers (dict_set (lit "WARC-IP-Address") a (rd_headers r)) r else r
  | _ => r
  end.

(** capture_http.py:167-173 write_request, write_response; writing to a closed file is a
    ValueError *)
Definition write_request (b : bytes) (r : recorder) : res unit * recorder :=
  if rd_started r then
    if rd_live r then (Ok tt, rd_set_bufs (rd_req r ++ b) (rd_resp r) r) else (Err ValueErr, r)
  else (Ok tt, r).
Definition write_response (b : bytes) (r : recorder) : res unit * recorder :=
  if rd_started r then
    if rd_live r then (Ok tt, rd_set_bufs (rd_req r) (rd_resp r ++ b) r) else (Err ValueErr, r)
  else (Ok tt, r).

(** capture_http.py:206-239 extract_url.  The line is decoded as latin-1, which keeps the
    numbers; split(' ', 2) and split(':', 1) *)
Definition extract_url (data : bytes) (host : str) (port default_port : Z) (r : recorder) : res unit * recorder :=
  if rd_first r then (Ok tt, r)
  else
    let r := rd_set_first true r in
    match split1 32 (take_line data) with
    | None => (Err IndexErr, r)
    | Some (verb, rest) =>
        let path := match split1 32 rest with Some (p, _) => p | None => rest end in
        if leqb verb (lit "CONNECT") then
          match split1 58 path with
          | Some (h, p) =>
              match py_int p with
              | None => (Err ValueErr, rd_set_connect (Some h) (rd_cport r) r)
              | Some n =>
                  (Ok tt, rd_set_headers (dict_set (lit "WARC-Proxy-Host")
                            (lit "https://" ++ host ++ lit ":" ++ str_of_Z port) (rd_headers r))
                            (rd_set_connect (Some h) (Some n) r))
              end
          | None =>
              (Ok tt, rd_set_headers (dict_set (lit "WARC-Proxy-Host")
                        (lit "https://" ++ host ++ lit ":" ++ str_of_Z port) (rd_headers r))
                        (rd_set_connect (Some path) (Some default_port) r))
          end
        else
          let host := match rd_chost r with Some ((_ :: _) as h) => h | _ => host end in
          let port := match rd_cport r with Some n => if n =? 0 then port else n | None => port end in
          if startswith (lit "http:") path || startswith (lit "https:") path then
            (Ok tt, rd_set_url (Some path)
                      (rd_set_headers (dict_set (lit "WARC-Proxy-Host")
                         (lit "http://" ++ host ++ lit ":" ++ str_of_Z port) (rd_headers r)) r))
          else
            let scheme := if default_port =? 443 then lit "https" else lit "http" in
            (Ok tt, rd_set_url (Some (scheme ++ lit "://" ++ host
                      ++ (if port =? default_port then [] else lit ":" ++ str_of_Z port) ++ path)) r)
    end.

(** the texts uuid4() and the current date give when the two records are made *)
Record stamps := mk_stamps { st_id1 : str; st_now1 : str; st_id2 : str; st_now2 : str }.

Section Done.
  Context (fuel : nat) (sha1 : bytes -> bytes) (k : kenv).

  (** capture_http.py:175-184 _create_record *)
  Definition create_record (cf : config) (r : recorder) (id now : str) (out : bytes) (ty : str) : res wrec :=
    create_warc_record fuel sha1 (wo_version (cf_opts cf)) id now (wo_filter (cf_opts cf))
                       (rd_url r) ty (Some (bytesio out)) (Some (lenZ out)) [] (rd_headers r) None None.

  (** capture_http.py:186-204 done: result, what is written, the recorder afterwards.
      tell() of a closed file is a ValueError.  Records are always true in a condition. *)
  Definition done (cf : config) (st : stamps) (r : recorder) : res unit * writes * recorder :=
    if negb (rd_started r) then (Ok tt, [], r)
    else if negb (rd_live r) then (Err ValueErr, [], r)
    else
      match create_record cf r (st_id1 st) (st_now1 st) (rd_req r) (lit "request") with
      | Err e => (Err e, [], rd_close r)
      | Ok req =>
          match create_record cf r (st_id2 st) (st_now2 st) (rd_resp r) (lit "response") with
          | Err e => (Err e, [], rd_close r)
          | Ok resp =>
              match match cf_filter cf with Some f => f req resp | None => (Some req, Some resp) end with
              | (Some req, Some resp) =>
                  let (x, ws) := write_pair fuel sha1 k (cf_opts cf) req resp in (x, ws, rd_close r)
              | _ => (Ok tt, [], rd_close r)
              end
          end
      end.

  (** capture_http.py:79-129 RecordingHTTPConnection.  [cn_rec]: its recorder, if it was made
      inside capture_http; [cn_open]: connected; [cn_tunnel]: set_tunnel (host, port);
      [cn_wire]: what was sent *)
  Record conn := mk_cn {
    cn_host : str; cn_port : Z; cn_default : Z;
    cn_rec : option nat;
    cn_open : bool;
    cn_tunnel : option (str * Z);
    cn_wire : bytes
  }.
  Definition cn_put (b : bytes) (c : conn) : conn :=
    mk_cn (cn_host c) (cn_port c) (cn_default c) (cn_rec c) (cn_open c) (cn_tunnel c) (cn_wire c ++ b).
  Definition cn_opened (c : conn) : conn :=
    mk_cn (cn_host c) (cn_port c) (cn_default c) (cn_rec c) true (cn_tunnel c) (cn_wire c).

  (** http.client HTTPConnection._tunnel: the request that opens a tunnel *)
  Definition connect_text (t : str * Z) : bytes :=
    lit "CONNECT " ++ fst t ++ lit ":" ++ str_of_Z (snd t) ++ lit " HTTP/1.0" ++ crlf ++ crlf.

  (** capture_http.py:105-109 send_request on an open connection *)
  Definition send_open (b : bytes) (rc : recorder * conn) : res unit * (recorder * conn) :=
    let (r, c) := rc in
    match extract_url b (cn_host c) (cn_port c) (cn_default c) r with
    | (Err e, r) => (Err e, (r, c))
    | (Ok _, r) => let (x, r) := write_request b r in (x, (r, cn_put b c))
    end.

  (** http.client connect() on a recorded connection: it is opened, and with a tunnel
      _tunnel (capture_http.py:120-124) sends its request and reads the answer through a
      RecordingStream, which is nothing to record since start_tunnel() has been called *)
  Definition connect (ip : option str) (cf : config) (rc : recorder * conn) : res unit * (recorder * conn) :=
    let (r, c) := rc in
    let c := cn_opened c in
    match cn_tunnel c with
    | None => (Ok tt, (r, c))
    | Some t =>
        match send_open (connect_text t) (start_tunnel r, c) with
        | (Err e, rc) => (Err e, rc)
        | (Ok _, (r, c)) => (Ok tt, (set_remote_ip cf ip r, c))
        end
    end.

  (** capture_http.py:105-109 send_request: http.client's send() connects first if the
      connection is not open *)
  Definition send1 (ip : option str) (cf : config) (b : bytes) (rc : recorder * conn) : res unit * (recorder * conn) :=
    let (r, c) := rc in
    if cn_open c then send_open b (r, c)
    else
      match extract_url b (cn_host c) (cn_port c) (cn_default c) r with
      | (Err e, r) => (Err e, (r, c))
      | (Ok _, r) =>
          match connect ip cf (r, c) with
          | (Err e, rc) => (Err e, rc)
          | (Ok _, (r, c)) => let (x, r) := write_request b r in (x, (r, cn_put b c))
          end
      end.

  (** capture_http.py:99-118 send: the parts are [data], or what reading the body BUFF_SIZE
      bytes at a time gives *)
  Fixpoint send (ip : option str) (cf : config) (parts : list bytes) (rc : recorder * conn) : res unit * (recorder * conn) :=
    match parts with
    | [] => (Ok tt, rc)
    | b :: t => match send1 ip cf b rc with
                | (Err e, rc) => (Err e, rc)
                | (Ok _, rc) => send ip cf t rc
                end
    end.

  (** a connection without recorder *)
  Definition plain_connect (c : conn) : conn :=
    let c := cn_opened c in
    match cn_tunnel c with None => c | Some t => cn_put (connect_text t) c end.
  Definition plain_send (parts : list bytes) (c : conn) : conn :=
    match parts with
    | [] => c
    | _ => cn_put (List.concat parts) (if cn_open c then c else plain_connect c)
    end.

  (** ** The world *)
  Record world := mk_world {
    wd_recs : list (config * recorder);
    wd_conns : list conn;
    wd_local : list (nat * option nat);   (* thread -> local.recorder *)
    wd_outs : list bytes                  (* what each writer has written *)
  }.

  Fixpoint set_nth {A} (n : nat) (x : A) (l : list A) : list A :=
    match l, n with
    | [], _ => []
    | _ :: t, O => x :: t
    | a :: t, S n => a :: set_nth n x t
    end.
  Fixpoint local_of (t : nat) (l : list (nat * option nat)) : option nat :=
    match l with
    | [] => None
    | (t', v) :: l => if Nat.eqb t' t then v else local_of t l
    end.

  (** What the program and the HTTP client do.  Connections are numbered in the order they
      are made.
      [Enter]: capture_http with a writer (capture_http.py:249-268; line 267 is reached by
      [Exit]); [Make]: HTTPConnection(host, port) with a tunnel or not (lines 82-97);
      [Open]: connect() called by the client; [Put]: putrequest (126-129); [Send]: send;
      [Respond]: a response object is made, with the address of the peer (lines 25-27, 74-77);
      [Got]: read() or readline() of its stream returned these bytes (46-50, 58-61);
      [Into]: readinto() was given a buffer with content [buf] and put the bytes [b] into it
      (53-56); [Done]: close() of the stream (63-66). *)
  Inductive op :=
  | Enter (t : nat) (cf : config)
  | Exit (t : nat)
  | Make (t : nat) (host : str) (port default_port : Z) (tunnel : option (str * Z))
  | Open (c : nat) (ip : option str)
  | Put (c : nat)
  | Send (c : nat) (ip : option str) (parts : list bytes)
  | Respond (c : nat) (ip : option str)
  | Got (c : nat) (b : bytes)
  | Into (c : nat) (buf b : bytes)
  | Done (c : nat) (st : stamps).

  (** an operation of a recorded connection on its recorder *)
  Definition rstep (cf : config) (o : op) (r : recorder) (c : conn) : res unit * writes * (recorder * conn) :=
    match o with
    | Open _ ip => let (x, rc) := connect ip cf (r, c) in (x, [], rc)
    | Put _ => (Ok tt, [], (start r, c))
    | Send _ ip parts => let (x, rc) := send ip cf parts (r, c) in (x, [], rc)
    | Respond _ ip => (Ok tt, [], (set_remote_ip cf ip r, c))
    | Got _ b => let (x, r) := write_response b r in (x, [], (r, c))
    | Into _ buf b => let (x, r) := write_response (b ++ dropZ (lenZ b) buf) r in (x, [], (r, c))
    | Done _ st => let '(x, ws, r) := done cf st r in (x, ws, (r, c))
    | _ => (Ok tt, [], (r, c))
    end.
  (** the same on a connection without one *)
  Definition plain_step (o : op) (c : conn) : conn :=
    match o with
    | Open _ _ => plain_connect c
    | Send _ _ parts => plain_send parts c
    | _ => c
    end.

  Definition conn_of (o : op) : option nat :=
    match o with
    | Open c _ | Put c | Send c _ _ | Respond c _ | Got c _ | Into c _ _ | Done c _ => Some c
    | _ => None
    end.

  Definition step (o : op) (w : world) : res unit * world :=
    match o with
    | Enter t cf =>
        (Ok tt, mk_world (wd_recs w ++ [(cf, new_recorder)]) (wd_conns w)
                         ((t, Some (List.length (wd_recs w))) :: wd_local w) (wd_outs w))
    | Exit t => (Ok tt, mk_world (wd_recs w) (wd_conns w) ((t, None) :: wd_local w) (wd_outs w))
    | Make t h p d tn =>
        (Ok tt, mk_world (wd_recs w) (wd_conns w ++ [mk_cn h p d (local_of t (wd_local w)) false tn []])
                         (wd_local w) (wd_outs w))
    | _ =>
        match conn_of o with
        | None => (Ok tt, w)
        | Some i =>
            match nth_error (wd_conns w) i with
            | None => (Ok tt, w)
            | Some c =>
                match match cn_rec c with Some j => option_map (fun x => (j, x)) (nth_error (wd_recs w) j) | None => None end with
                | None => (Ok tt, mk_world (wd_recs w) (set_nth i (plain_step o c) (wd_conns w)) (wd_local w) (wd_outs w))
                | Some (j, (cf, r)) =>
                    let '(x, ws, (r, c)) := rstep cf o r c in
                    (x, mk_world (set_nth j (cf, r) (wd_recs w)) (set_nth i c (wd_conns w)) (wd_local w)
                          (set_nth (cf_writer cf) (nth (cf_writer cf) (wd_outs w) [] ++ List.concat ws) (wd_outs w)))
                end
            end
        end
    end.

  (** a run: the results of the operations, in order, and the world afterwards.  An
      exception goes to the thread that did the operation; the others go on. *)
  Fixpoint run (ops : list op) (w : world) : list (res unit) * world :=
    match ops with
    | [] => ([], w)
    | o :: t => let (x, w) := step o w in let (xs, w) := run t w in (x :: xs, w)
    end.
End Done.
