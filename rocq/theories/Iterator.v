(** * Iterator: model of /repo/warcio/archiveiterator.py *)
From Coq Require Import List ZArith NArith Bool String.
From Verif Require Import PyBase Utf8 Headers Streams TimeUtils Loader.
Import ListNotations.
Open Scope Z_scope.

Section Iter.
  Context {zl : zenv} (fuel : nat) (he : henv) (o : lopts).

  (** the reader: a (Decompressing)BufferedReader over the file *)
  Notation rdr := (breader zl raw).
  Definition rops : sops rdr := br_ops raw_ops fuel.

  (** where the generator _iterate_records is suspended *)
  Inductive phase :=
  | PStart    (* about to call _next_record (line 110) *)
  | PYield    (* suspended at the yield (line 114) *)
  | PDone.    (* finished or raised *)

  (** archiveiterator.py:56-88 the iterator object; when [it_record] is present its
      stream contains the reader and [it_reader] is a copy kept in step. *)
  Record iter := mk_iter {
    it_reader : rdr;
    it_offset : Z;
    it_known : option fmt;
    it_member : option (Z * Z);       (* member_info *)
    it_next_line : option bytes;
    it_err_count : Z;
    it_record : option (record rdr);
    it_phase : phase;
    it_raise_gz : bool;               (* local raise_invalid_gzip *)
    it_empty : bool                   (* local empty_record *)
  }.

  (** archiveiterator.py:56-88 __init__ (and WARCIterator/ARCIterator, 274-284, through [known]) *)
  Definition iter_new (f : raw) (block : Z) (known : option fmt) : iter :=
    mk_iter (dbr_new f block None false) (rw_pos f) known None None 0 None PStart false false.

  Definition it_set_reader (r : rdr) (it : iter) : iter :=
    mk_iter r (it_offset it) (it_known it) (it_member it) (it_next_line it) (it_err_count it)
            (match it_record it with
             | Some rc => Some (rc_set_stream (rs_set_base r (rc_stream rc)) rc)
             | None => None end)
            (it_phase it) (it_raise_gz it) (it_empty it).

  (** replace the record's stream; the reader follows *)
  Definition it_set_rstream (st : rstream rdr) (it : iter) : iter :=
    mk_iter (rs_base st) (it_offset it) (it_known it) (it_member it) (it_next_line it)
            (it_err_count it)
            (match it_record it with Some rc => Some (rc_set_stream st rc) | None => None end)
            (it_phase it) (it_raise_gz it) (it_empty it).

  (** archiveiterator.py:155-193 _consume_blanklines.
      Result: next line (None at the end), empty_size, number of warnings. *)
  Fixpoint consume_loop (n : nat) (first : bool) (size errs : Z) (r : rdr)
    : res (option bytes * Z * Z) * rdr :=
    match n with
    | O => (Err OutOfFuel, r)
    | Datatypes.S n' =>
        match o_readline rops None r with
        | (Err e, r') => (Err e, r')
        | (Ok [], r') => (Ok (None, size, errs), r')
        | (Ok line, r') =>
            let blank := is_nil (rstripp is_bspace line) in
            if blank || first then
              consume_loop n' false (size + lenZ line) (if blank then errs else errs + 1) r'
            else (Ok (Some line, size, errs), r')
        end
    end.

  (** archiveiterator.py:211-214: drain the record *)
  Fixpoint drain (n : nat) (st : rstream rdr) : res unit * rstream rdr :=
    match n with
    | O => (Err OutOfFuel, st)
    | Datatypes.S n' =>
        match rs_read rops (Some BUFF_SIZE) st with
        | (Err e, st') => (Err e, st')
        | (Ok [], st') => (Ok tt, st')
        | (Ok _, st') => drain n' st'
        end
    end.

  Definition has_dec (r : rdr) : bool := match br_dec r with Some _ => true | None => false end.

  (** archiveiterator.py:195-237 read_to_end *)
  Definition read_to_end (it : iter) : res unit * iter :=
    match it_record it with
    | None => (Ok tt, it)
    | Some rc =>
        match it_member it with
        | Some _ => (Ok tt, it)
        | None =>
            match drain fuel (rc_stream rc) with
            | (Err e, st) => (Err e, it_set_rstream st it)
            | (Ok _, st) =>
                let it := it_set_rstream st it in
                match consume_loop fuel true 0 0 (it_reader it) with
                | (Err e, r) => (Err e, it_set_reader r it)
                | (Ok (nl, size, errs), r) =>
                    let it := it_set_reader r it in
                    let off := rw_pos (br_stream r) - rem_length r in
                    let off := match nl with Some l => off - lenZ l | None => off end in
                    let len := off - it_offset it in
                    let len := if has_dec r then len else len - size in
                    (Ok tt, mk_iter (it_reader it) off (it_known it)
                                    (Some (it_offset it, len)) nl (it_err_count it + errs)
                                    (it_record it) (it_phase it) (it_raise_gz it) (it_empty it))
                end
            end
        end
    end.

  (** archiveiterator.py:253-270 _next_record *)
  Definition next_record (it : iter) : res (record rdr) * iter :=
    match parse_record_stream rops fuel he o
            (match it_next_line it with Some l => Some (HBytes l) | None => None end)
            (it_known it) (it_reader it) with
    | (Err e, r) => (Err e, it_set_reader r it)
    | (Ok rc, r) =>
        (Ok rc, mk_iter r (it_offset it)
                        (if lo_a2w o then it_known it else Some (rc_format rc))
                        None (it_next_line it) (it_err_count it) (Some rc) (it_phase it)
                        (it_raise_gz it) (it_empty it))
    end.

  Definition set_phase (p : phase) (it : iter) : iter :=
    mk_iter (it_reader it) (it_offset it) (it_known it) (it_member it) (it_next_line it)
            (it_err_count it) (it_record it) p (it_raise_gz it) (it_empty it).
  Definition set_raise (v : bool) (it : iter) : iter :=
    mk_iter (it_reader it) (it_offset it) (it_known it) (it_member it) (it_next_line it)
            (it_err_count it) (it_record it) (it_phase it) v (it_empty it).
  Definition set_empty (v : bool) (it : iter) : iter :=
    mk_iter (it_reader it) (it_offset it) (it_known it) (it_member it) (it_next_line it)
            (it_err_count it) (it_record it) (it_phase it) (it_raise_gz it) v.

  (** archiveiterator.py:119-138: after a yield or an EOFError.
      Ok true: continue the while loop; Ok false: the loop is left. *)
  Definition after_record (it : iter) : res bool * iter :=
    match read_to_end it with
    | (Err e, it) => (Err e, it)
    | (Ok _, it) =>
        if has_dec (it_reader it) then
          let (more, r) := read_next_member (it_reader it) in
          let it := it_set_reader r it in
          if more then (Ok true, it)
          else if it_empty it then (Ok false, it)
          else (Ok true, set_raise true it)
        else if it_empty it then (Ok false, it)
        else (Ok true, it)
    end.

  (** one next(): Ok (Some record), Ok None = StopIteration, or an exception *)
  Definition close_iter (it : iter) : iter :=
    set_phase PDone
      (mk_iter (close_decompressor (it_reader it)) (it_offset it) (it_known it) (it_member it)
               (it_next_line it) (it_err_count it) None (it_phase it) (it_raise_gz it) (it_empty it)).

  (** archiveiterator.py:108-140, the loop from the top *)
  Fixpoint iter_loop (n : nat) (it : iter) : res (option (record rdr)) * iter :=
    match n with
    | O => (Err OutOfFuel, it)
    | Datatypes.S n' =>
        match next_record it with
        | (Ok rc, it) =>
            if it_raise_gz it then (Err ArchiveLoadFailed, set_phase PDone it)
            else (Ok (Some rc), set_phase PYield it)
        | (Err EOFError, it) =>
            match after_record (set_empty true it) with
            | (Err EOFError, it) => (Err EOFError, set_phase PDone it)
            | (Err e, it) => (Err e, set_phase PDone it)
            | (Ok true, it) => iter_loop n' it
            | (Ok false, it) => (Ok None, close_iter it)
            end
        | (Err e, it) => (Err e, set_phase PDone it)
        end
    end.

  (** __next__ (archiveiterator.py:93-94) *)
  Definition iter_next (it : iter) : res (option (record rdr)) * iter :=
    match it_phase it with
    | PDone => (Ok None, it)
    | PStart => iter_loop fuel it
    | PYield =>
        match after_record it with
        | (Err e, it) => (Err e, set_phase PDone it)
        | (Ok true, it) => iter_loop fuel it
        | (Ok false, it) => (Ok None, close_iter it)
        end
    end.

  (** archiveiterator.py:241-251 get_record_offset / get_record_length
      (None: member_info is still None, a TypeError in Python) *)
  Definition get_offset_length (it : iter) : res (option (Z * Z)) * iter :=
    match read_to_end it with
    | (Err e, it) => (Err e, it)
    | (Ok _, it) => (Ok (it_member it), it)
    end.

  (** ** What a consumer may do with the current record between two next() calls *)
  Inductive uop := URead (n : option Z) | UReadline (n : option Z) | UInfo.

  Definition user_op (u : uop) (it : iter) : res bytes * iter :=
    match u with
    | UInfo => match get_offset_length it with
               | (Ok _, it) => (Ok [], it)
               | (Err e, it) => (Err e, it)
               end
    | URead n =>
        match it_record it with
        | None => (Ok [], it)
        | Some rc => let (x, st) := rs_read rops n (rc_stream rc) in (x, it_set_rstream st it)
        end
    | UReadline n =>
        match it_record it with
        | None => (Ok [], it)
        | Some rc => let (x, st) := rs_readline rops n (rc_stream rc) in (x, it_set_rstream st it)
        end
    end.

  Fixpoint user_ops (us : list uop) (it : iter) : list (res bytes) * iter :=
    match us with
    | [] => ([], it)
    | u :: t => let (x, it1) := user_op u it in
                let (xs, it2) := user_ops t it1 in (x :: xs, it2)
    end.

  (** ** Complete iteration: [prog k] is what the consumer does with the k-th record.
      Observations: the record as yielded, the results of the consumer's reads,
      the offset/length after finishing the record, and digest_checker.passed then. *)
  Record obs := mk_obs {
    ob_record : record rdr;
    ob_reads : list (res bytes);
    ob_info : res (option (Z * Z));
    ob_passed : option bool
  }.
  Definition it_passed (it : iter) : option bool :=
    match it_record it with Some rc => dc_passed (rc_checker rc) | None => None end.

  Inductive ending := EndStop | EndExn (e : exn).

  Fixpoint run_iter (n : nat) (prog : nat -> list uop) (k : nat) (it : iter)
    : list obs * ending :=
    match n with
    | O => ([], EndExn OutOfFuel)
    | Datatypes.S n' =>
        match iter_next it with
        | (Err e, _) => ([], EndExn e)
        | (Ok None, _) => ([], EndStop)
        | (Ok (Some rc), it) =>
            let (xs, it) := user_ops (prog k) it in
            let (info, it) := get_offset_length it in
            let (os, en) := run_iter n' prog (Datatypes.S k) it in
            (mk_obs rc xs info (it_passed it) :: os, en)
        end
    end.
End Iter.
