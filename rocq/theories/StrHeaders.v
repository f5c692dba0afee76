(** * StrHeaders: model of headers_to_str_headers (/repo/warcio/utils.py:71-93) and of the
    constructor of StatusAndHeaders that calls it (/repo/warcio/statusandheaders.py:24-32) *)
From Coq Require Import List ZArith NArith Bool String.
From Verif Require Import PyBase Utf8 Headers.
Import ListNotations.
Open Scope Z_scope.

(** a header name or value as a caller may give it, utils.py:73-74 "of bytes or str".
    Simplification: values of other types (passed through by the code) are not modelled. *)
Inductive pv := PStr (s : str) | PBytes (b : bytes).

(** the headers argument: a mapping, of which the items are taken in order
    (utils.py:78-79), or an iterable of tuples (utils.py:80-81), which may have any length *)
Inductive harg := HMap (items : list (pv * pv)) | HSeq (tups : list (list pv)).

(** utils.py:88-91: k.decode('iso-8859-1') if it is bytes *)
Definition to_text (v : pv) : str :=
  match v with PStr s => s | PBytes b => latin1_decode b end.

(** utils.py:86-92: k, v = tup raises ValueError unless the tuple has two elements *)
Fixpoint str_tuples (l : list (list pv)) : res (list header) :=
  match l with
  | [] => Ok []
  | [k; v] :: t =>
      match str_tuples t with
      | Ok r => Ok ((to_text k, to_text v) :: r)
      | Err e => Err e
      end
  | _ :: _ => Err ValueErr
  end.

(** utils.py:71-93 headers_to_str_headers *)
Definition str_headers (a : harg) : res (list header) :=
  match a with
  | HMap items => str_tuples (List.map (fun p => [fst p; snd p]) items)
  | HSeq tups => str_tuples tups
  end.

(** statusandheaders.py:24-32 __init__: the request line is split before the headers are
    converted *)
Definition sah_init (statusline : str) (a : harg) (protocol : str) (is_http_request : bool) : res sah :=
  if is_http_request then
    match split1 32%N statusline with
    | Some (p, s) => match str_headers a with Ok hs => Ok (sah_new s hs p) | Err e => Err e end
    | None => Err ValueErr
    end
  else match str_headers a with Ok hs => Ok (sah_new statusline hs protocol) | Err e => Err e end.
