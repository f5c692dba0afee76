(** * Streams: model of limitreader.py, bufferedreaders.py, digestverifyingreader.py
    and of the file objects underneath. *)
From Coq Require Import List ZArith NArith Bool String.
From Verif Require Import PyBase Codecs.
Import ListNotations.
Open Scope Z_scope.

(** ** The file-like interface used by warcio: read, readline, tell.
    An operation returns its result (or exception) and the new state. *)
Record sops (S : Type) := mk_sops {
  o_read : option Z -> S -> res bytes * S;
  o_readline : option Z -> S -> res bytes * S;
  o_tell : S -> Z
}.
Arguments mk_sops {S}. Arguments o_read {S}. Arguments o_readline {S}. Arguments o_tell {S}.

(** ** The file at the bottom (open file, BytesIO, socket file, ...).
    [rw_sched]: sizes of short reads: the k-th read(n) with n > 0 that finds data
    returns at most the k-th entry (at least one byte; a read at the end of the
    file returns nothing and takes no entry); when the list is exhausted, reads are
    full, as for a regular file or BytesIO.  Also stands for
    UnseekableYetTellable (archiveiterator.py:12-23), whose tell() counts the
    bytes returned. *)
Record raw := mk_raw { rw_rest : bytes; rw_pos : Z; rw_sched : list Z }.

Definition raw_open (data : bytes) (sched : list Z) : raw := mk_raw data 0 sched.

Definition raw_read (n : option Z) (s : raw) : res bytes * raw :=
  match n with
  | Some k =>
      if 0 <? k then
        let '(m, sched) := match rw_rest s, rw_sched s with
                           | [], sc => (k, sc)
                           | _, [] => (k, [])
                           | _, x :: t => (Z.min k (Z.max 1 x), t)
                           end in
        let out := takeZ m (rw_rest s) in
        (Ok out, mk_raw (dropZ m (rw_rest s)) (rw_pos s + lenZ out) sched)
      else if k =? 0 then (Ok [], s)
      else (Ok (rw_rest s), mk_raw [] (rw_pos s + lenZ (rw_rest s)) (rw_sched s))
  | None => (Ok (rw_rest s), mk_raw [] (rw_pos s + lenZ (rw_rest s)) (rw_sched s))
  end.

Definition raw_readline (n : option Z) (s : raw) : res bytes * raw :=
  let out := line_of n (rw_rest s) in
  (Ok out, mk_raw (dropZ (lenZ out) (rw_rest s)) (rw_pos s + lenZ out) (rw_sched s)).

Definition raw_ops : sops raw := mk_sops raw_read raw_readline rw_pos.

(** ** limitreader.py:5-70 LimitReader *)
Record limr (S : Type) := mk_lim { lm_stream : S; lm_limit : Z; lm_orig : Z }.
Arguments mk_lim {S}. Arguments lm_stream {S}. Arguments lm_limit {S}. Arguments lm_orig {S}.

Section Limit.
  Context {S : Type} (ops : sops S).

  (** limitreader.py:10-13 *)
  Definition lim_new (s : S) (limit : Z) : limr S := mk_lim s limit limit.

  (** limitreader.py:21-24, 33-36: effective length *)
  Definition lim_len (n : option Z) (l : limr S) : Z :=
    match n with Some k => Z.min k (lm_limit l) | None => lm_limit l end.

  (** limitreader.py:15-18 _update *)
  Definition lim_update (buff : bytes) (s' : S) (l : limr S) : limr S :=
    mk_lim s' (lm_limit l - lenZ buff) (lm_orig l).

  (** limitreader.py:20-30 read *)
  Definition lim_read (n : option Z) (l : limr S) : res bytes * limr S :=
    let k := lim_len n l in
    if k =? 0 then (Ok [], l)
    else match o_read ops (Some k) (lm_stream l) with
         | (Ok b, s') => (Ok b, lim_update b s' l)
         | (Err e, s') => (Err e, mk_lim s' (lm_limit l) (lm_orig l))
         end.

  (** limitreader.py:32-42 readline *)
  Definition lim_readline (n : option Z) (l : limr S) : res bytes * limr S :=
    let k := lim_len n l in
    if k =? 0 then (Ok [], l)
    else match o_readline ops (Some k) (lm_stream l) with
         | (Ok b, s') => (Ok b, lim_update b s' l)
         | (Err e, s') => (Err e, mk_lim s' (lm_limit l) (lm_orig l))
         end.

  (** limitreader.py:47-49 tell *)
  Definition lim_tell (l : limr S) : Z := lm_orig l - lm_limit l.

  Definition lim_ops : sops (limr S) := mk_sops lim_read lim_readline lim_tell.

  (** limitreader.py:51-70 wrap_stream.  The argument is the stream together with
      the knowledge whether it already is a LimitReader; content_length as the
      text of a header (None: int(None) is a TypeError, the stream is unchanged). *)
  Definition lim_wrap (s : S + limr S) (content_length : option str) : S + limr S :=
    match content_length with
    | None => s
    | Some cl =>
        match py_int cl with
        | None => s
        | Some n =>
            if 0 <=? n then
              match s with
              | inr l => inr (mk_lim (lm_stream l) (Z.min (lm_limit l) n) (lm_orig l))
              | inl s' => inr (lim_new s' n)
              end
            else s
        end
    end.
End Limit.

(** ** zlib.decompressobj as an oracle *)

(** bufferedreaders.py:59-62.  Simplification: the decompression type is one of
    the three supported names, lower case ('br' needs an optional package). *)
Inductive dtype := Gzip | Deflate | DeflateAlt.
Definition dtype_of_name (s : str) : option dtype :=
  if leqb (lower s) (lit "gzip") then Some Gzip
  else if leqb (lower s) (lit "deflate") then Some Deflate
  else if leqb (lower s) (lit "deflate_alt") then Some DeflateAlt
  else None.

(** One input byte: more output, end of stream, or data error *)
Inductive zres (A : Type) := ZMore (s : A) (out : bytes) | ZEnd (out : bytes) | ZErr.
Arguments ZMore {A}. Arguments ZEnd {A}. Arguments ZErr {A}.

(** The inflate algorithm: a byte-driven automaton, one initial state per kind of
    wrapper (gzip, zlib, raw deflate). *)
Record zenv := mk_zenv {
  zS : Type;
  zinit : dtype -> zS;
  zstep : zS -> N -> zres zS
}.

(** A decompressobj: active, finished (with unused_data), or failed *)
Inductive dobj (A : Type) := DActive (s : A) | DDone (unused : bytes) | DBad.
Arguments DActive {A}. Arguments DDone {A}. Arguments DBad {A}.

Section Zlib.
  Context (zl : zenv).

  (** feed bytes: (output, final object) or None on error.  After the end of the
      stream the remaining bytes are unused_data. *)
  Fixpoint zfeed (s : zS zl) (data : bytes) : option (bytes * dobj (zS zl)) :=
    match data with
    | [] => Some ([], DActive s)
    | b :: t =>
        match zstep zl s b with
        | ZErr => None
        | ZEnd out => Some (out, DDone t)
        | ZMore s' out =>
            match zfeed s' t with
            | Some (o, d) => Some (out ++ o, d)
            | None => None
            end
        end
    end.

  (** decompressobj.decompress(data): None = zlib.error (the output of this call
      is lost; later calls fail again) *)
  Definition dobj_decompress (d : dobj (zS zl)) (data : bytes)
    : option bytes * dobj (zS zl) :=
    match d with
    | DActive s => match zfeed s data with
                   | Some (o, d') => (Some o, d')
                   | None => (None, DBad)
                   end
    | DDone u => (Some [], DDone (u ++ data))
    | DBad => (None, DBad)
    end.
End Zlib.

(** ** bufferedreaders.py:40-254 BufferedReader and 277-376 ChunkedDataReader *)

(** chunked-reader fields: all_chunks_read, not_chunked, raise_chunked_data_exceptions *)
Record ckst := mk_ck { ck_all : bool; ck_not : bool; ck_raise : bool }.

Record breader (zl : zenv) (S : Type) := mk_br {
  br_stream : S;
  br_block : Z;
  br_dtype : option dtype;
  br_dec : option (dobj (zS zl));
  br_buff : option bytes;      (* unread part of the BytesIO *)
  br_start : option bytes;     (* starting_data *)
  br_num_read : Z;
  br_nblk : Z;                 (* num_block_read *)
  br_all : bool;               (* read_all_members *)
  br_ck : option ckst          (* Some: this is a ChunkedDataReader *)
}.
Arguments mk_br {zl S}. Arguments br_stream {zl S}. Arguments br_block {zl S}.
Arguments br_dtype {zl S}. Arguments br_dec {zl S}. Arguments br_buff {zl S}.
Arguments br_start {zl S}. Arguments br_num_read {zl S}. Arguments br_nblk {zl S}.
Arguments br_all {zl S}. Arguments br_ck {zl S}.

Definition BUFF_SIZE : Z := 16384.   (* utils.py:19 *)

Section Buffered.
  Context {zl : zenv} {S : Type} (ops : sops S) (fuel : nat).
  Notation BR := (breader zl S).

  Definition set_stream (s : S) (b : BR) : BR :=
    mk_br s (br_block b) (br_dtype b) (br_dec b) (br_buff b) (br_start b)
          (br_num_read b) (br_nblk b) (br_all b) (br_ck b).
  Definition set_dec (d : option (dobj (zS zl))) (b : BR) : BR :=
    mk_br (br_stream b) (br_block b) (br_dtype b) d (br_buff b) (br_start b)
          (br_num_read b) (br_nblk b) (br_all b) (br_ck b).
  Definition set_bbuff (x : option bytes) (b : BR) : BR :=
    mk_br (br_stream b) (br_block b) (br_dtype b) (br_dec b) x (br_start b)
          (br_num_read b) (br_nblk b) (br_all b) (br_ck b).
  Definition set_start (x : option bytes) (b : BR) : BR :=
    mk_br (br_stream b) (br_block b) (br_dtype b) (br_dec b) (br_buff b) x
          (br_num_read b) (br_nblk b) (br_all b) (br_ck b).
  Definition set_ck (x : option ckst) (b : BR) : BR :=
    mk_br (br_stream b) (br_block b) (br_dtype b) (br_dec b) (br_buff b) (br_start b)
          (br_num_read b) (br_nblk b) (br_all b) x.
  Definition add_counts (n : Z) (b : BR) : BR :=
    mk_br (br_stream b) (br_block b) (br_dtype b) (br_dec b) (br_buff b) (br_start b)
          (br_num_read b + n) (br_nblk b + n) (br_all b) (br_ck b).

  (** bufferedreaders.py:84-95 _init_decomp (supported types) *)
  Definition init_decomp (t : option dtype) (b : BR) : BR :=
    mk_br (br_stream b) (br_block b) t
          (match t with Some x => Some (DActive (zinit zl x)) | None => None end)
          (br_buff b) (br_start b) (br_num_read b) 0 (br_all b) (br_ck b).

  (** bufferedreaders.py:64-79 __init__ *)
  Definition br_new (s : S) (block : Z) (t : option dtype) (start : option bytes) (all : bool) : BR :=
    mk_br s block t (match t with Some x => Some (DActive (zinit zl x)) | None => None end)
          None start 0 0 all None.

  (** bufferedreaders.py:258-266 DecompressingBufferedReader *)
  Definition dbr_new (s : S) (block : Z) (start : option bytes) (all : bool) : BR :=
    br_new s block (Some Gzip) start all.

  (** bufferedreaders.py:286-292 ChunkedDataReader.__init__ *)
  Definition ckr_new (s : S) (block : Z) (t : option dtype) (raise_exc : bool) : BR :=
    set_ck (Some (mk_ck false false raise_exc)) (br_new s block t None false).

  (** decompressor.unused_data (b'' when there is none) *)
  Definition unused (b : BR) : bytes :=
    match br_dec b with Some (DDone u) => u | _ => [] end.

  (** bufferedreaders.py:221-227 read_next_member *)
  Definition read_next_member (b : BR) : bool * BR :=
    match br_dec b with
    | Some (DDone ((_ :: _) as u)) => (true, init_decomp (br_dtype b) (set_start (Some u) b))
    | _ => (false, b)
    end.

  (** the test of bufferedreaders.py:212 *)
  Definition buff_empty (b : BR) : bool :=
    match br_buff b with None => true | Some [] => true | Some (_ :: _) => false end.

  (** bufferedreaders.py:211-219 empty *)
  Definition br_empty (b : BR) : bool * BR :=
    if buff_empty b then (true, if br_all b then snd (read_next_member b) else b)
    else (false, b).

  (** bufferedreaders.py:229-236 rem_length *)
  Definition rem_length (b : BR) : Z :=
    match br_buff b with Some x => lenZ x | None => 0 end + lenZ (unused b).

  (** bufferedreaders.py:134-150 _decompress; the recursive call at line 143 is
      unfolded: with 'deflate_alt' a second failure drops the decompressor. *)
  Definition decompress (data : bytes) (b : BR) : bytes * BR :=
    match br_dec b with
    | None => (data, b)
    | Some d =>
        if is_nil data then (data, b)
        else
          match dobj_decompress zl d data with
          | (Some out, d') => (out, set_dec (Some d') b)
          | (None, d') =>
              if br_nblk b =? 0 then
                match br_dtype b with
                | Some Deflate =>
                    let b' := init_decomp (Some DeflateAlt) b in
                    match dobj_decompress zl (DActive (zinit zl DeflateAlt)) data with
                    | (Some out, d'') => (out, set_dec (Some d'') b')
                    | (None, _) => (data, set_dec None b')
                    end
                | _ => (data, set_dec None b)
                end
              else ([], set_dec (Some d') b)
          end
    end.

  (** bufferedreaders.py:122-132 _process_read *)
  Definition process_read (data : bytes) (b : BR) : BR :=
    if is_nil data then set_bbuff None b
    else let (out, b') := decompress data b in
         set_bbuff (Some out) (add_counts (lenZ out) b').

  (** bufferedreaders.py:115-120: the loop condition.  empty()'s side effect
      (read_next_member) cannot fire here because unused_data is empty. *)
  Definition fill_cond (data : bytes) (b : BR) : bool :=
    negb (is_nil data) && match br_dec b with Some _ => true | None => false end
    && is_nil (unused b) && buff_empty b.

  Fixpoint fill_loop (n : nat) (data : bytes) (b : BR) : res unit * BR :=
    match n with
    | O => (Err OutOfFuel, b)
    | Datatypes.S n' =>
        if fill_cond data b then
          match o_read ops (Some (br_block b)) (br_stream b) with
          | (Ok d, s') => fill_loop n' d (process_read d (set_stream s' b))
          | (Err e, s') => (Err e, set_stream s' b)
          end
        else (Ok tt, b)
    end.

  (** bufferedreaders.py:97-120 BufferedReader._fillbuff (block_size=None) *)
  Definition fill_base (b : BR) : res unit * BR :=
    let (e, b1) := br_empty b in
    if negb e then (Ok tt, b1)
    else if 0 <? rem_length b1 then (Ok tt, b1)
    else
      match br_start b1 with
      | Some ((_ :: _) as d) => fill_loop fuel d (process_read d (set_start None b1))
      | _ =>
          match o_read ops (Some (br_block b1)) (br_stream b1) with
          | (Ok d, s') => fill_loop fuel d (process_read d (set_stream s' b1))
          | (Err e, s') => (Err e, set_stream s' b1)
          end
      end.

  (** bufferedreaders.py:349-365: read one chunk's data.
      Result: data, and whether the input ran out (all_chunks_read set). *)
  Fixpoint chunk_loop (n : nat) (rexc : bool) (size : Z) (acc : bytes) (s : S)
    : res (bytes * bool) * S :=
    match n with
    | O => (Err OutOfFuel, s)
    | Datatypes.S n' =>
        if lenZ acc <? size then
          match o_read ops (Some (size - lenZ acc)) s with
          | (Err e, s') => (Err e, s')
          | (Ok [], s') => if rexc then (Err (ChunkedExn acc), s') else (Ok (acc, true), s')
          | (Ok d, s') => chunk_loop n' rexc size (acc ++ d) s'
          end
        else (Ok (acc, false), s)
    end.

  (** bufferedreaders.py:324-330: chunk size of a length header, None = not valid *)
  Definition chunk_header (h : bytes) : option Z :=
    if leqb (dropZ (lenZ h - 2) h) crlf && (2 <=? lenZ h) then
      let body := takeZ (lenZ h - 2) h in
      let size := match split1 59%N body with Some (a, _) => a | None => body end in
      match py_int16 size with
      | Some z => if z <=? 2147483648 then Some z else None
      | None => None
      end
    else None.

  Definition set_all (v : bool) (b : BR) : BR :=
    set_ck (match br_ck b with
            | Some c => Some (mk_ck v (ck_not c) (ck_raise c)) | None => None end) b.
  Definition set_not (v : bool) (b : BR) : BR :=
    set_ck (match br_ck b with
            | Some c => Some (mk_ck (ck_all c) v (ck_raise c)) | None => None end) b.
  Definition ck_raises (b : BR) : bool := match br_ck b with Some c => ck_raise c | None => false end.
  Definition ck_alld (b : BR) : bool := match br_ck b with Some c => ck_all c | None => false end.
  Definition ck_notd (b : BR) : bool := match br_ck b with Some c => ck_not c | None => false end.

  (** bufferedreaders.py:322-376 _try_decode *)
  Definition try_decode (h : bytes) (b : BR) : res unit * BR :=
    match chunk_header h with
    | None => (Err (ChunkedExn []), b)
    | Some size =>
        if size =? 0 then
          match o_read ops (Some 2) (br_stream b) with
          | (Err e, s') => (Err e, set_stream s' b)
          | (Ok d, s') =>
              let b := set_stream s' b in
              if leqb d crlf then (Ok tt, process_read [] (set_all true b))
              else (Err (ChunkedExn []), b)
          end
        else
          match chunk_loop fuel (ck_raises b) size [] (br_stream b) with
          | (Err e, s') => (Err e, set_stream s' b)
          | (Ok (data, true), s') => (Ok tt, process_read data (set_all true (set_stream s' b)))
          | (Ok (data, false), s') =>
              match o_read ops (Some 2) s' with
              | (Err e, s'') => (Err e, set_stream s'' b)
              | (Ok c, s'') =>
                  let b := set_stream s'' b in
                  if leqb c crlf then (Ok tt, process_read data b)
                  else (Err (ChunkedExn data), b)
              end
          end
    end.

  (** bufferedreaders.py:298-320: loop over chunks *)
  Fixpoint chunk_fill (n : nat) (b : BR) : res unit * BR :=
    match n with
    | O => (Err OutOfFuel, b)
    | Datatypes.S n' =>
        let (e, b) := br_empty b in
        if e && negb (ck_alld b) && negb (ck_notd b) then
          match o_readline ops (Some 64) (br_stream b) with
          | (Err e, s') => (Err e, set_stream s' b)
          | (Ok h, s') =>
              match try_decode h (set_stream s' b) with
              | (Ok _, b') => chunk_fill n' b'
              | (Err (ChunkedExn d), b') =>
                  if ck_raises b' then (Err (ChunkedExn d), b')
                  else fill_base (set_not true (process_read (h ++ d) b'))
              | (Err e, b') => (Err e, b')
              end
          end
        else (Ok tt, b)
    end.

  (** _fillbuff: BufferedReader (97-120) or ChunkedDataReader (294-320) *)
  Definition fillbuff (b : BR) : res unit * BR :=
    match br_ck b with
    | None => fill_base b
    | Some c => if ck_not c then fill_base b else chunk_fill fuel b
    end.

  Definition buff_data (b : BR) : bytes := match br_buff b with Some x => x | None => [] end.

  (** bufferedreaders.py:152-171 read *)
  Fixpoint read_loop (n : nat) (len : option Z) (acc : bytes) (b : BR) : res bytes * BR :=
    match n with
    | O => (Err OutOfFuel, b)
    | Datatypes.S n' =>
        if match len with None => true | Some k => 0 <? k end then
          match fillbuff b with
          | (Err e, b1) => (Err e, b1)
          | (Ok _, b1) =>
              let (e, b2) := br_empty b1 in
              if e then (Ok acc, b2)
              else
                let out := read_of len (buff_data b2) in
                let b3 := set_bbuff (Some (dropZ (lenZ out) (buff_data b2))) b2 in
                read_loop n' (match len with Some k => Some (k - lenZ out) | None => None end)
                          (acc ++ out) b3
          end
        else (Ok acc, b)
    end.

  Definition br_read (len : option Z) (b : BR) : res bytes * BR := read_loop fuel len [] b.

  (** take a line from the buffer: self.buff.readline(length) *)
  Definition buff_line (len : option Z) (b : BR) : bytes * BR :=
    let out := line_of len (buff_data b) in
    (out, set_bbuff (Some (dropZ (lenZ out) (buff_data b))) b).

  Definition ends_lf (l : bytes) : bool := endswith [LF] l.

  (** bufferedreaders.py:192-206: the boundary loop.  NB: line 195 subtracts the
      length of the whole accumulated line each time round. *)
  Fixpoint line_loop (n : nat) (len : option Z) (line : bytes) (b : BR) : res bytes * BR :=
    match n with
    | O => (Err OutOfFuel, b)
    | Datatypes.S n' =>
        if ends_lf line then (Ok line, b)
        else
          let len' := match len with
                      | Some k => if k =? 0 then Some k else Some (k - lenZ line)
                      | None => None
                      end in
          let stop := match len with
                      | Some k => if k =? 0 then false else (k - lenZ line <=? 0)
                      | None => false
                      end in
          if stop then (Ok line, b)
          else
            match fillbuff b with
            | (Err e, b1) => (Err e, b1)
            | (Ok _, b1) =>
                let (e, b2) := br_empty b1 in
                if e then (Ok line, b2)
                else let (out, b3) := buff_line len' b2 in
                     line_loop n' len' (line ++ out) b3
            end
    end.

  (** bufferedreaders.py:175-206 readline *)
  Definition br_readline (len : option Z) (b : BR) : res bytes * BR :=
    if match len with Some k => k =? 0 | None => false end then (Ok [], b)
    else
      match fillbuff b with
      | (Err e, b1) => (Err e, b1)
      | (Ok _, b1) =>
          let (e, b2) := br_empty b1 in
          if e then (Ok [], b2)
          else let (out, b3) := buff_line len b2 in
               line_loop fuel len out b3
      end.

  (** bufferedreaders.py:208-209 tell *)
  Definition br_tell (b : BR) : Z := br_num_read b.

  Definition br_ops : sops BR := mk_sops br_read br_readline br_tell.

  (** bufferedreaders.py:247-250 close_decompressor *)
  Definition close_decompressor (b : BR) : BR := set_dec None b.
End Buffered.

(** ** digestverifyingreader.py *)

(** hashlib.new(name): None = ValueError; the function is the digest of all bytes
    fed so far.  Simplification: algorithms with variable digest size (shake) are
    not distinguished. *)
Definition henv := str -> option (bytes -> bytes).

(** check_digests / DigestChecker.kind: True, 'raise', 'log' (False: KFalse) *)
Inductive ckind := KFalse | KTrue | KRaise | KLog.
Definition ckind_bool (k : ckind) : bool := match k with KFalse => false | _ => true end.

(** digestverifyingreader.py:10-34 DigestChecker (messages are kept as tags) *)
Inductive dproblem := PUnknownBlock | PUnknownPayload | PBlockFailed | PPayloadFailed.
Record checker := mk_chk { dc_problems : list dproblem; dc_passed : option bool; dc_kind : ckind }.
Definition chk_new (k : ckind) : checker := mk_chk [] None k.

(** digestverifyingreader.py:28-34 problem *)
Definition chk_problem (p : dproblem) (c : checker) : res unit * checker :=
  let ps := dc_problems c ++ [p] in
  match dc_kind c with
  | KRaise => (Err ArchiveLoadFailed, mk_chk ps (dc_passed c) (dc_kind c))
  | _ => (Ok tt, mk_chk ps (Some false) (dc_kind c))
  end.

(** lines 85-86: "elif check is True and passed is not False: passed = True" *)
Definition chk_pass (c : checker) : checker :=
  match dc_passed c with
  | Some false => c
  | _ => mk_chk (dc_problems c) (Some true) (dc_kind c)
  end.

(** utils.py:97-106 Digester: algorithm name and the bytes fed so far *)
Record dgst := mk_dgst { dg_name : str; dg_fun : bytes -> bytes; dg_acc : bytes }.
Definition dgst_update (b : bytes) (d : dgst) : dgst := mk_dgst (dg_name d) (dg_fun d) (dg_acc d ++ b).
(** utils.py:105-106 __str__ : type_ + ':' + base32 *)
Definition dgst_b32 (d : dgst) : str := b32encode (dg_fun d (dg_acc d)).
Definition dgst_str (d : dgst) : str := dg_name d ++ lit ":" ++ dgst_b32 d.
(** utils.py:98-100 Digester(type_) *)
Definition dgst_new (h : henv) (name : str) : option dgst :=
  match h name with Some f => Some (mk_dgst name f []) | None => None end.

(** digestverifyingreader.py:161-166 _parse_digest: None = ValueError *)
Definition parse_digest (d : str) : option (str * str) := split1 58%N d.

(** digestverifyingreader.py:135-148 _to_b32 *)
Definition to_b32 (len : Z) (value : str) : res str :=
  if lenZ value =? len then Ok value
  else if len <? lenZ value then
    match b16_wrapper value with Some b => Ok (b32encode b) | None => Err BinasciiErr end
  else
    match b64_wrapper value with Some b => Ok (b32encode b) | None => Err BinasciiErr end.

(** digestverifyingreader.py:111-132 _compare_digest_rfc_3548.
    our_value is the base32 text after 'type:' (the type has no ':', it was
    obtained by partition). *)
Definition compare_digest (dg : option dgst) (digest : option str) : res (option bool) :=
  match dg, digest with
  | Some d, Some ((_ :: _) as dig) =>
      match parse_digest dig with
      | None => Err ValueErr
      | Some (_, value) =>
          match to_b32 (lenZ (dgst_b32 d)) value with
          | Err e => Err e
          | Ok v => Ok (Some (leqb (dgst_b32 d) v))
          end
      end
  | _, _ => Ok None
  end.

(** digestverifyingreader.py:38-61 DigestVerifyingReader over a LimitReader.
    payload_digester and payload_digester_obj are the same object once
    begin_payload() ran: [dr_pon] says whether payload_digester is set. *)
Record digr (S : Type) := mk_dig {
  dr_lim : limr (limr S);       (* own limit over the wrapped LimitReader *)
  dr_chk : checker;
  dr_pdig : option str;         (* payload_digest *)
  dr_bdig : option str;         (* block_digest *)
  dr_pobj : option dgst;        (* payload_digester_obj *)
  dr_pon : bool;                (* payload_digester is payload_digester_obj *)
  dr_bobj : option dgst         (* block_digester *)
}.
Arguments mk_dig {S}. Arguments dr_lim {S}. Arguments dr_chk {S}. Arguments dr_pdig {S}.
Arguments dr_bdig {S}. Arguments dr_pobj {S}. Arguments dr_pon {S}. Arguments dr_bobj {S}.

Section Digest.
  Context {S : Type} (ops : sops S) (he : henv).

  (** lines 63-76: create a digester for a digest header, or report a problem *)
  Definition mk_digester (p : dproblem) (digest : option str) (c : checker)
    : res (option dgst) * checker :=
    match digest with
    | Some ((_ :: _) as d) =>
        match parse_digest d with
        | Some (algo, _) =>
            match dgst_new he algo with
            | Some g => (Ok (Some g), c)
            | None => match chk_problem p c with
                      | (Ok _, c') => (Ok None, c')
                      | (Err e, c') => (Err e, c')
                      end
            end
        | None => match chk_problem p c with
                  | (Ok _, c') => (Ok None, c')
                  | (Err e, c') => (Err e, c')
                  end
        end
    | _ => (Ok None, c)
    end.

  (** digestverifyingreader.py:43-76 __init__ *)
  Definition dig_new (l : limr S) (limit : Z) (c : checker) (rec_type : option str)
             (payload_digest block_digest segment : option str) : res (digr S) :=
    let is_rev := match rec_type with Some t => leqb t (lit "revisit") | None => false end in
    let bd := if is_rev then None else block_digest in
    let pd := if is_rev then None else payload_digest in
    let pd := match segment with Some _ => None | None => pd end in
    match mk_digester PUnknownBlock bd c with
    | (Err e, _) => Err e
    | (Ok bobj, c1) =>
        match mk_digester PUnknownPayload pd c1 with
        | (Err e, _) => Err e
        | (Ok pobj, c2) => Ok (mk_dig (lim_new l limit) c2 pd bd pobj false bobj)
        end
    end.

  (** payload_digester *)
  Definition dr_pdigester (d : digr S) : option dgst := if dr_pon d then dr_pobj d else None.

  Definition dr_set_chk (c : checker) (d : digr S) : digr S :=
    mk_dig (dr_lim d) c (dr_pdig d) (dr_bdig d) (dr_pobj d) (dr_pon d) (dr_bobj d).
  Definition dr_set_pon (v : bool) (d : digr S) : digr S :=
    mk_dig (dr_lim d) (dr_chk d) (dr_pdig d) (dr_bdig d) (dr_pobj d) v (dr_bobj d).

  (** the pattern of lines 97-101 / 102-106: compare, report or mark passed *)
  Definition check_one (p : dproblem) (g : option dgst) (digest : option str) (c : checker)
    : res bool * checker :=   (* Ok true: mismatch was reported *)
    match compare_digest g digest with
    | Err e => (Err e, c)
    | Ok (Some false) => match chk_problem p c with
                         | (Ok _, c') => (Ok true, c')
                         | (Err e, c') => (Err e, c')
                         end
    | Ok (Some true) => (Ok false, chk_pass c)
    | Ok None => (Ok false, c)
    end.

  (** digestverifyingreader.py:78-86 begin_payload *)
  Definition begin_payload (d : digr S) : res unit * digr S :=
    let d := dr_set_pon true d in
    if lm_limit (dr_lim d) =? 0 then
      match check_one PPayloadFailed (dr_pobj d) (dr_pdig d) (dr_chk d) with
      | (Err e, c) => (Err e, dr_set_chk c d)
      | (Ok true, c) => (Ok tt, dr_set_pon false (dr_set_chk c d))
      | (Ok false, c) => (Ok tt, dr_set_chk c d)
      end
    else (Ok tt, d).

  (** digestverifyingreader.py:88-108 _update, given the new LimitReader part *)
  Definition dig_update (buff : bytes) (l' : limr (limr S)) (d : digr S) : res bytes * digr S :=
    let pobj := if dr_pon d then option_map (dgst_update buff) (dr_pobj d) else dr_pobj d in
    let bobj := option_map (dgst_update buff) (dr_bobj d) in
    let d := mk_dig l' (dr_chk d) (dr_pdig d) (dr_bdig d) pobj (dr_pon d) bobj in
    if lm_limit l' =? 0 then
      match check_one PBlockFailed (dr_bobj d) (dr_bdig d) (dr_chk d) with
      | (Err e, c) => (Err e, dr_set_chk c d)
      | (Ok _, c) =>
          match check_one PPayloadFailed (dr_pdigester d) (dr_pdig d) c with
          | (Err e, c') => (Err e, dr_set_chk c' d)
          | (Ok _, c') => (Ok buff, dr_set_chk c' d)
          end
      end
    else (Ok buff, d).

  (** read / readline inherited from LimitReader, calling the overridden _update *)
  Definition dig_rd (op : sops (limr S) -> option Z -> limr S -> res bytes * limr S)
             (n : option Z) (d : digr S) : res bytes * digr S :=
    let l := dr_lim d in
    let k := lim_len n l in
    if k =? 0 then (Ok [], d)
    else match op (lim_ops ops) (Some k) (lm_stream l) with
         | (Ok b, s') => dig_update b (lim_update b s' l) d
         | (Err e, s') =>
             (Err e, mk_dig (mk_lim s' (lm_limit l) (lm_orig l)) (dr_chk d) (dr_pdig d)
                            (dr_bdig d) (dr_pobj d) (dr_pon d) (dr_bobj d))
         end.
  Definition dig_read := dig_rd o_read.
  Definition dig_readline := dig_rd o_readline.
  Definition dig_tell (d : digr S) : Z := lim_tell (dr_lim d).

  Definition dig_ops : sops (digr S) := mk_sops dig_read dig_readline dig_tell.
End Digest.
