(** * Tests: vm_compute checks of the model against behaviour recorded in the
    repository's own tests and docstrings.  These are tests of the model, not proofs
    of properties. *)
From Coq Require Import List ZArith NArith Bool String Ascii.
From Verif Require Import PyBase Utf8 Codecs Headers Streams TimeUtils Loader Iterator Writer Toy.
Import ListNotations.
Open Scope Z_scope.

(* test/test_limitreader.py *)
Example t_lim1 : fst (lim_read raw_ops (Some 26) (lim_new (raw_open (lit "abcdefghjiklmnopqrstuvwxyz") []) 10))
  = Ok (lit "abcdefghji"). Proof. vm_compute. reflexivity. Qed.

Definition rd_all {S} (ops : sops S) (s : S) : res bytes := fst (o_read ops None s).
Definition F := 2000%nat.
Definition br0 (d : bytes) (block : Z) (t : option dtype) : breader toy_z raw :=
  br_new (raw_open d []) block t None false.

(* test/test_bufferedreaders.py *)
Example t_br1 : fst (br_read raw_ops F (Some 6) (br0 (lit "#LINE 1
#LINE 2") 16 None)) = Ok (lit "#LINE "). Proof. vm_compute. reflexivity. Qed.
Example t_gz1 : fst (br_read raw_ops F None (br0 (toy_gz (lit "ABC
1234")) 5 (Some Gzip))) = Ok (lit "ABC
1234"). Proof. vm_compute. reflexivity. Qed.
Example t_gz2 : fst (br_read raw_ops F None (br0 (lit "Hello") 5 (Some Gzip))) = Ok (lit "Hello").
Proof. vm_compute. reflexivity. Qed.
Definition ckr (d : bytes) (r : bool) : breader toy_z raw := ckr_new (raw_open d []) BUFF_SIZE None r.
Definition nl (s : list string) : bytes := flat_map (fun x => lit x ++ crlf) s.
(* bufferedreaders doctests: valid, truncated, non-chunked, mid-stream fallback *)
Example t_ck1 : fst (br_read raw_ops F None (ckr (nl ["4";"1234";"0";""]%string) false)) = Ok (lit "1234").
Proof. vm_compute. reflexivity. Qed.
Example t_ck3 : fst (br_read raw_ops F None (ckr (nl ["1";"x";"123!@#"]%string) false)) = Ok (lit "x123!@#" ++ crlf).
Proof. vm_compute. reflexivity. Qed.
Example t_ck4 : fst (br_read raw_ops F None (ckr (nl ["1";"xyz123!@#"]%string) false)) = Ok (lit "1" ++ crlf ++ lit "x123!@#" ++ crlf).
Proof. vm_compute. reflexivity. Qed.
Example t_ck5 : fst (br_read raw_ops F None (ckr (lit "4" ++ crlf ++ lit "12") true)) = Err (ChunkedExn (lit "12")).
Proof. vm_compute. reflexivity. Qed.
Example t_ck6 : fst (br_read raw_ops F None (ckr (lit "4" ++ crlf ++ lit "12") false)) = Ok (lit "12").
Proof. vm_compute. reflexivity. Qed.

(* timeutils doctests *)
Example t_ts1 : timestamp_to_datetime (lit "2014") = Ok (mk_dt 2014 12 31 23 59 59 0).
Proof. vm_compute. reflexivity. Qed.
Example t_ts2 : timestamp_to_datetime (lit "20131709005601") = Ok (mk_dt 2013 12 9 0 56 1 0).
Proof. vm_compute. reflexivity. Qed.
Example t_ts3 : timestamp_to_datetime (lit "40001965252477") = Ok (mk_dt 2999 12 31 23 24 59 0).
Proof. vm_compute. reflexivity. Qed.
Example t_ts4 : timestamp_to_datetime (lit "2010abc") = Ok (mk_dt 2010 12 31 23 59 59 0).
Proof. vm_compute. reflexivity. Qed.
Example t_iso1 : iso_date_to_datetime (lit "2013-12-26T10:11:12.456789Z") = Ok (mk_dt 2013 12 26 10 11 12 456789).
Proof. vm_compute. reflexivity. Qed.
Example t_iso2 : iso_date_to_datetime (lit "2013-12-26T10:11:12.3Z") = Ok (mk_dt 2013 12 26 10 11 12 300000).
Proof. vm_compute. reflexivity. Qed.
Example t_iso3 : iso_date_to_datetime (lit "2013-12-26T10:11:12.0000001Z") = Ok (mk_dt 2013 12 26 10 11 12 0).
Proof. vm_compute. reflexivity. Qed.
Example t_sec : timestamp_to_sec (lit "20131226095010") = Ok 1388051410.
Proof. vm_compute. reflexivity. Qed.
Example t_sec2 : sec_to_timestamp 1420070399 = Ok (lit "20141231235959").
Proof. vm_compute. reflexivity. Qed.
Example t_http : timestamp_to_http_date (lit "20140126200804") = Ok (lit "Sun, 26 Jan 2014 20:08:04 GMT").
Proof. vm_compute. reflexivity. Qed.

(* statusandheaders *)
Definition p0 (v : bool) (l : list str) (d : bytes) :=
  parse (o_readline raw_ops None) F (mk_parser l v) None (raw_open d []).
Example t_parse1 : fst (p0 true [lit "HTTP/1.0"] (nl ["HTTP/1.0 204 Empty";"Content-Type : Value";"Content-Length: 0";"";"body"]%string))
  = Ok (mk_sah (lit "204 Empty") [(lit "Content-Type", lit "Value"); (lit "Content-Length", lit "0")] (lit "HTTP/1.0") 63 None).
Proof. vm_compute. reflexivity. Qed.
Example t_parse2 : fst (p0 true [lit "WARC/1.0"] (nl ["HTTP/1.0 204 Empty"]%string)) = Err (ParserExn (lit "HTTP/1.0 204 Empty" ++ crlf)).
Proof. vm_compute. reflexivity. Qed.
Example t_b32 : b32encode (lit "hello w") = lit "NBSWY3DPEB3Q====". Proof. vm_compute. reflexivity. Qed.
Example t_b64 : b64_wrapper (lit "aGVsbG8=") = Some (lit "hello"). Proof. vm_compute. reflexivity. Qed.

(* write then iterate *)
Definition opts := mk_wopts (lit "WARC/1.0") None false.
Definition optsz := mk_wopts (lit "WARC/1.0") None true.
Definition mkr (uri ty payload : string) (http : option sah) :=
  create_warc_record F toy_hash (lit "WARC/1.0") (lit "12345678-feb0") (lit "2000-01-01T00:00:00Z") None
    (Some (lit uri)) (lit ty) (Some (bytesio (lit payload))) None [] [] None http.
Definition r1 := mkr "http://example.com/" "response" "some
text" (Some (sah_new (lit "200 OK") [(lit "Content-Type", lit "text/plain")] (lit "HTTP/1.0"))).
Definition r2 := mkr "custom://x" "resource" "some other" None.
Definition recs := match r1, r2 with Ok a, Ok b => [a; b; a] | _, _ => [] end.
Definition out := List.concat (snd (write_all F toy_hash toy_k opts recs)).
Definition outz := List.concat (snd (write_all F toy_hash toy_k optsz recs)).
Definition lo := mk_lopts false false false false KTrue [].
Definition summary (x : list (obs (zl:=toy_z)) * ending) :=
  (List.map (fun o => (rc_type (ob_record o), rc_length (ob_record o), rc_plen (ob_record o), ob_reads o, ob_info o)) (fst x), snd x).
Definition run (d : bytes) (block : Z) (sched : list Z) (prog : nat -> list uop) :=
  summary (run_iter F toy_henv lo F prog 0 (iter_new (raw_open d sched) block None)).
Definition infos (x : list (option str * option Z * Z * list (res bytes) * res (option (Z * Z))) * ending) :=
  (List.map snd (fst x), snd x).
Example t_iter1 : infos (run out 7 [] (fun _ => []))
  = ([Ok (Some (0, 340)); Ok (Some (344, 276)); Ok (Some (624, 340))], EndStop).
Proof. vm_compute. reflexivity. Qed.
Example t_iter2 : infos (run outz 7 [3;1;5] (fun _ => [URead (Some 3); UReadline None]))
  = ([Ok (Some (0, 691)); Ok (Some (691, 563)); Ok (Some (1254, 691))], EndStop).
Proof. vm_compute. reflexivity. Qed.
Example t_iter3 : snd (infos (run (toy_gz out) 7 [] (fun _ => [URead (Some 3); UReadline None])))
  = EndExn ArchiveLoadFailed.
Proof. vm_compute. reflexivity. Qed.
