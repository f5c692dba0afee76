(** * Headers: model of /repo/warcio/statusandheaders.py *)
From Coq Require Import List ZArith NArith Bool String.
From Verif Require Import PyBase Utf8.
Import ListNotations.
Open Scope Z_scope.

Definition header := (str * str)%type.

(** statusandheaders.py:15-32 StatusAndHeaders.  Simplification: header names and
    values are str (headers_to_str_headers has been applied); is_http_request is
    modelled by [sah_request] below. *)
Record sah := mk_sah {
  sh_status : str;
  sh_headers : list header;
  sh_proto : str;
  sh_total : Z;              (* total_len *)
  sh_buff : option bytes     (* headers_buff *)
}.

Definition sah_new (status : str) (hs : list header) (proto : str) : sah :=
  mk_sah status hs proto 0 None.

(** statusandheaders.py:24-32 with is_http_request=True: statusline.split(' ', 1)
    must give two parts (ValueError otherwise) *)
Definition sah_request (status : str) (hs : list header) : res sah :=
  match split1 32%N status with
  | Some (p, s) => Ok (sah_new s hs p)
  | None => Err ValueErr
  end.

Definition set_headers (s : sah) (hs : list header) : sah :=
  mk_sah (sh_status s) hs (sh_proto s) (sh_total s) (sh_buff s).
Definition set_status (s : sah) (st : str) : sah :=
  mk_sah st (sh_headers s) (sh_proto s) (sh_total s) (sh_buff s).
Definition set_buff (s : sah) (b : option bytes) : sah :=
  mk_sah (sh_status s) (sh_headers s) (sh_proto s) (sh_total s) b.

Definition name_eq (a b : str) : bool := leqb (lower a) (lower b).

(** statusandheaders.py:34-44 get_header: first match *)
Fixpoint hget (name : str) (hs : list header) : option str :=
  match hs with
  | [] => None
  | (k, v) :: t => if name_eq k name then Some v else hget name t
  end.
Definition get_header (name : str) (s : sah) : option str := hget name (sh_headers s).
Definition get_header_default (name : str) (d : option str) (s : sah) : option str :=
  match get_header name s with Some v => Some v | None => d end.

(** statusandheaders.py:46-47 add_header *)
Definition add_header (name value : str) (s : sah) : sah :=
  set_headers s (sh_headers s ++ [(name, value)]).

(** Loop of replace_header on the reversed list: first match of the reversed
    list = last match (statusandheaders.py:55-59) *)
Fixpoint rep_rev (name value : str) (rhs : list header) : option (str * list header) :=
  match rhs with
  | [] => None
  | (k, v) :: t =>
      if name_eq k name then Some (v, (k, value) :: t)
      else match rep_rev name value t with
           | Some (old, t') => Some (old, (k, v) :: t')
           | None => None
           end
  end.

(** statusandheaders.py:49-62 replace_header: (old value, new object) *)
Definition replace_header (name value : str) (s : sah) : option str * sah :=
  match rep_rev name value (rev (sh_headers s)) with
  | Some (old, r) => (Some old, set_headers s (rev r))
  | None => (None, add_header name value s)
  end.
Definition replace_header_ (name value : str) (s : sah) : sah := snd (replace_header name value s).

Fixpoint rem_rev (name : str) (rhs : list header) : option (list header) :=
  match rhs with
  | [] => None
  | (k, v) :: t =>
      if name_eq k name then Some t
      else match rem_rev name t with
           | Some t' => Some ((k, v) :: t')
           | None => None
           end
  end.

(** statusandheaders.py:64-75 remove_header *)
Definition remove_header (name : str) (s : sah) : bool * sah :=
  match rem_rev name (rev (sh_headers s)) with
  | Some r => (true, set_headers s (rev r))
  | None => (false, s)
  end.
Definition remove_header_ (name : str) (s : sah) : sah := snd (remove_header name s).

(** statusandheaders.py:77-83 get_statuscode *)
Definition get_statuscode (s : sah) : str :=
  match split1 32%N (sh_status s) with
  | Some (a, _) => a
  | None => sh_status s
  end.

(** statusandheaders.py:85-97 validate_statusline *)
Definition validate_statusline (valid : str) (s : sah) : bool * sah :=
  match py_int (get_statuscode s) with
  | Some c => if 0 <? c then (true, s) else (false, set_status s valid)
  | None => (false, set_status s valid)
  end.

(** statusandheaders.py:99-111 add_range *)
Definition add_range (start part_len total_len : Z) (s : sah) : sah :=
  let cr := lit "bytes " ++ str_of_Z start ++ lit "-" ++ str_of_Z (start + part_len - 1)
                         ++ lit "/" ++ str_of_Z total_len in
  let s := set_status s (lit "206 Partial Content") in
  let s := replace_header_ (lit "Content-Range") cr s in
  let s := replace_header_ (lit "Content-Length") (str_of_Z part_len) s in
  replace_header_ (lit "Accept-Ranges") (lit "bytes") s.

(** statusandheaders.py:138-139 __bool__ *)
Definition sah_bool (s : sah) : bool := negb (is_nil (sh_status s)) || negb (is_nil (sh_headers s)).
Definition osah_bool (o : option sah) : bool := match o with Some s => sah_bool s | None => false end.

(** statusandheaders.py:217-218 __contains__ *)
Definition sah_contains (name : str) (s : sah) : bool := truthy (get_header name s).

(** statusandheaders.py:127-133 __eq__ (other is a StatusAndHeaders) *)
Definition header_eqb (a b : header) : bool := leqb (fst a) (fst b) && leqb (snd a) (snd b).
Fixpoint headers_eqb (a b : list header) : bool :=
  match a, b with
  | [], [] => true
  | x :: a', y :: b' => header_eqb x y && headers_eqb a' b'
  | _, _ => false
  end.
Definition sah_eq (a b : sah) : bool :=
  sah_bool b && leqb (sh_status a) (sh_status b) && headers_eqb (sh_headers a) (sh_headers b)
  && leqb (sh_proto a) (sh_proto b).

(** header_filter / filter_func: maps a header to a header or to None (dropped) *)
Definition hfilter := header -> option header.

(** statusandheaders.py:155-161: the header lines *)
Definition header_line (h : header) : str := fst h ++ lit ": " ++ snd h ++ crlf.
Definition header_lines (f : option hfilter) (hs : list header) : str :=
  flat_map (fun h => match f with
                     | None => header_line h
                     | Some g => match g h with Some h' => header_line h' | None => [] end
                     end) hs.

(** statusandheaders.py:144-153: the first line *)
Definition first_line (proto status : str) : str :=
  let s := proto in
  let s := if negb (is_nil s) && negb (is_nil status) then s ++ [32%N] else s in
  let s := if negb (is_nil status) then s ++ status else s in
  if negb (is_nil s) then s ++ crlf else s.

(** statusandheaders.py:143-163 to_str *)
Definition to_str (f : option hfilter) (s : sah) : str :=
  first_line (sh_proto s) (sh_status s) ++ header_lines f (sh_headers s).

(** statusandheaders.py:165-166 to_bytes(encoding='utf-8') *)
Definition to_bytes (f : option hfilter) (s : sah) : res bytes :=
  match utf8_encode (to_str f s) with
  | Some b => Ok (b ++ crlf)
  | None => Err UnicodeErr
  end.

(** ENCODE_HEADER_RX.sub(do_encode, value), statusandheaders.py:16,189-190,204.
    At an '=', the regex consumes an optional quote and then a maximal run of
    characters other than ';' and '"' (the group, at least one character); if the
    optional quote is '\'' and nothing follows, it backtracks and the quote
    belongs to the group; one quote character after the group is consumed too
    (it can only be '"': a '\'' would belong to the group). *)
Fixpoint span_group (l : str) : str * str :=
  match l with
  | [] => ([], [])
  | c :: t => if ((c =? 59) || (c =? 34))%N then ([], l)
              else let (a, b) := span_group t in (c :: a, b)
  end.
Definition is_quote (c : N) : bool := ((c =? 34) || (c =? 39))%N.
Definition drop_quote (l : str) : str :=
  match l with c :: t => if is_quote c then t else l | [] => [] end.

(** the match at a position just after '=': group and rest *)
Definition rx_match (l : str) : option (str * str) :=
  match l with
  | [] => None
  | q :: t =>
      if is_quote q then
        match span_group t with
        | ([], _) => (* backtrack: quote not consumed *)
            match span_group l with
            | ([], _) => None
            | (g, r) => Some (g, drop_quote r)
            end
        | (g, r) => Some (g, drop_quote r)
        end
      else match span_group l with
           | ([], _) => None
           | (g, r) => Some (g, drop_quote r)
           end
  end.

Definition do_encode (g : str) : str := lit "*=UTF-8''" ++ quote g.

(** re.sub: leftmost matches, scanning on after each *)
Fixpoint rx_sub (fuel : nat) (l : str) : str :=
  match fuel with
  | O => l
  | S f =>
      match l with
      | [] => []
      | c :: t => if N.eqb c 61%N then
                    match rx_match t with
                    | Some (g, r) => do_encode g ++ rx_sub f r
                    | None => c :: rx_sub f t
                    end
                  else c :: rx_sub f t
      end
  end.

(** statusandheaders.py:192-208, one header *)
Definition encode_value (v : str) : str :=
  if is_ascii v then v
  else if negb (has_char 59%N v) then quote v
  else let nv := rx_sub (List.length v) v in
       if leqb nv v then quote v else nv.

(** statusandheaders.py:183-208 percent_encode_non_ascii_headers *)
Definition percent_encode (s : sah) : sah :=
  set_headers s (List.map (fun h => (fst h, encode_value (snd h))) (sh_headers s)).

(** statusandheaders.py:168-181 to_ascii_bytes: the headers may be rewritten *)
Definition to_ascii_bytes (f : option hfilter) (s : sah) : res bytes * sah :=
  match ascii_encode (to_str f s) with
  | Some b => (Ok (b ++ crlf), s)
  | None =>
      let s' := percent_encode s in
      match ascii_encode (to_str f s') with
      | Some b => (Ok (b ++ crlf), s')
      | None => (Err UnicodeErr, s')
      end
  end.

(** statusandheaders.py:113-118 compute_headers_buffer *)
Definition compute_headers_buffer (f : option hfilter) (s : sah) : res unit * sah :=
  match to_ascii_bytes f s with
  | (Ok b, s') => (Ok tt, set_buff s' (Some b))
  | (Err e, s') => (Err e, s')
  end.

(** statusandheaders.py:329-336 decode_header on bytes *)
Definition decode_header (l : bytes) : str :=
  match utf8_decode l with
  | Some s => s
  | None => latin1_decode l
  end.

(** A first line handed to a parser: bytes, or text already decoded
    (recordloader.py:231 passes se.statusline). *)
Inductive hline := HBytes (b : bytes) | HStr (s : str).
Definition decode_hline (h : hline) : str :=
  match h with HBytes b => decode_header b | HStr s => s end.

(** statusandheaders.py:310-320 split_prefix *)
Fixpoint split_prefix (key : str) (prefixs : list str) : option (str * str) :=
  match prefixs with
  | [] => None
  | p :: t => if startswith p (upper key)
              then Some (takeZ (lenZ p) (upper key), dropZ (lenZ p) key)
              else split_prefix key t
  end.

(** statusandheaders.py:227-234 StatusAndHeadersParser *)
Record parser := mk_parser { p_list : list str; p_verify : bool }.

Definition is_sp_tab (c : N) : bool := ((c =? 32) || (c =? 9))%N.
Definition starts_sp_tab (l : str) : bool :=
  match l with c :: _ => is_sp_tab c | [] => false end.

Section Parse.
  (** the stream: only readline() with no argument is used *)
  Context {S : Type} (rl : S -> res bytes * S) (fuel : nat).

  (** _strip_count(decode_header(stream.readline()), total_read), lines 221-223 *)
  Definition next_line (total : Z) (s : S) : res (str * Z) * S :=
    match rl s with
    | (Ok b, s') => let d := decode_header b in (Ok (urstrip d, total + lenZ d), s')
    | (Err e, s') => (Err e, s')
    end.

  (** lines 287-292: continuation lines *)
  Fixpoint cont_loop (n : nat) (value : option str) (line : str) (total : Z) (s : S)
    : res (option str * str * Z) * S :=
    match n with
    | O => (Err OutOfFuel, s)
    | Datatypes.S n' =>
        if negb (is_nil line) && starts_sp_tab line then
          let value' := match value with Some v => Some (v ++ line) | None => None end in
          match next_line total s with
          | (Ok (line', total'), s') => cont_loop n' value' line' total' s'
          | (Err e, s') => (Err e, s')
          end
        else (Ok (value, line, total), s)
    end.

  (** lines 276-282: name and value of a header line *)
  Definition split_header (line : str) : str * option str :=
    match split1 58%N line with
    | Some (a, b) => (rstripp is_sp_tab a, Some (ulstrip b))
    | None => (line, None)
    end.

  (** lines 275-298: header loop *)
  Fixpoint header_loop (n : nat) (acc : list header) (line : str) (total : Z) (s : S)
    : res (list header * Z) * S :=
    match n with
    | O => (Err OutOfFuel, s)
    | Datatypes.S n' =>
        if is_nil line then (Ok (acc, total), s)
        else
          let (name, value) := split_header line in
          match next_line total s with
          | (Ok (nl, total'), s') =>
              match cont_loop fuel value nl total' s' with
              | (Ok (value', line', total''), s'') =>
                  let acc' := match value' with
                              | Some v => acc ++ [(name, v)]
                              | None => acc
                              end in
                  header_loop n' acc' line' total'' s''
              | (Err e, s'') => (Err e, s'')
              end
          | (Err e, s') => (Err e, s')
          end
    end.

  (** statusandheaders.py:236-308 parse *)
  Definition parse (p : parser) (full : option hline) (s : S) : res sah * S :=
    let '(r, s1) := match full with
                    | Some h => (Ok h, s)
                    | None => match rl s with
                              | (Ok b, s') => (Ok (HBytes b), s')
                              | (Err e, s') => (Err e, s')
                              end
                    end in
    match r with
    | Err e => (Err e, s1)
    | Ok h =>
        let full_s := decode_hline h in
        let statusline := urstrip full_s in
        let total := lenZ full_s in
        if total =? 0 then (Err EOFError, s1)
        else if is_nil statusline then (Ok (mk_sah statusline [] [] total None), s1)
        else
          (* protocol_status: protocol and the optional second part *)
          let ps := if p_verify p then
                      match split_prefix statusline (p_list p) with
                      | Some (a, b) => Some (a, Some b)
                      | None => None
                      end
                    else match split1 32%N statusline with
                         | Some (a, b) => Some (a, Some b)
                         | None => Some (statusline, None)
                         end in
          match ps with
          | None => (Err (ParserExn full_s), s1)
          | Some (proto, st) =>
              match next_line total s1 with
              | (Err e, s2) => (Err e, s2)
              | (Ok (line, total'), s2) =>
                  match header_loop fuel [] line total' s2 with
                  | (Err e, s3) => (Err e, s3)
                  | (Ok (hs, tot), s3) =>
                      let status := match st with Some x => ustrip x | None => [] end in
                      (Ok (mk_sah status hs proto tot None), s3)
                  end
              end
          end
    end.
End Parse.

(** statusandheaders.py:322-326 make_warc_id; [uuid] is the text of uuid4() *)
Definition make_warc_id (uuid : str) : str := lit "<urn:uuid:" ++ uuid ++ lit ">".
