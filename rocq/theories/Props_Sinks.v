(** * Props_Sinks: buffers and files that records are written to (C106, C107) *)
From Coq Require Import String List ZArith NArith Bool.
From Verif Require Import PyBase Utf8 Codecs Headers HeaderSpec Streams StreamSpec Loader Writer WriterSpec RoundSpec Capture CaptureSpec Commands Sinks Toy CaptureToy HeaderProofs.
Import ListNotations.
Open Scope Z_scope.
From Verif Require Import Thm_Sinks.

(** the bytes that writing the record gives *)
Definition record_out (fuel : nat) (sha1 : bytes -> bytes) (k : kenv) (o : wopts) (r : wrec) : bytes :=
  concat (snd (fst (write_record fuel sha1 k o r))).
(** the records written, in order; the buffer is used without get_stream *)
Fixpoint outs_of (fuel : nat) (sha1 : bytes -> bytes) (k : kenv) (o : wopts) (xs : list bop) : bytes :=
  match xs with
  | [] => []
  | BRecord r :: t => record_out fuel sha1 k o r ++ outs_of fuel sha1 k o t
  | _ :: t => outs_of fuel sha1 k o t
  end.
Definition no_stream (x : bop) : Prop := match x with BRecord _ | BContents => True | _ => False end.
(** reads of sizes that are absent or not negative *)
Definition reads (ns : list (option Z)) : list bop := map BRead ns.
Definition size_ok (n : option Z) : Prop := match n with Some m => 0 <= m | None => True end.

(** C106: a BufferWARCWriter on which records are written and get_contents is called, in any
    order.  Whenever get_contents is called it returns the bytes of all records written before,
    in order, and the records written later are not disturbed by it *)
Theorem C106_contents :
  forall fuel sha1 k o before after, Forall no_stream before -> Forall no_stream after ->
  exists bs1 bs2 f, bsteps fuel sha1 k o (before ++ BContents :: after) tmp_new = (bs1 ++ outs_of fuel sha1 k o before :: bs2, f)
    /\ List.length bs1 = List.length before
    /\ tmp_data f = outs_of fuel sha1 k o before ++ outs_of fuel sha1 k o after.
Proof. exact C106_contents_pf. Qed.
Print Assumptions C106_contents.

(** C106: get_stream after records were written: reading from it, with any sizes, gives the bytes
    of the records from the beginning; get_contents afterwards still gives all of them *)
Theorem C106_stream :
  forall fuel sha1 k o xs ns, Forall no_stream xs -> Forall size_ok ns ->
  exists bs0 bs f, bsteps fuel sha1 k o (xs ++ BStream :: reads ns) tmp_new = (bs0 ++ bs, f)
    /\ List.length bs0 = S (List.length xs)
    /\ (exists rest, outs_of fuel sha1 k o xs = concat bs ++ rest /\ (In None ns -> rest = []))
    /\ get_contents f = (outs_of fuel sha1 k o xs, f).
Proof. exact C106_stream_pf. Qed.
Print Assumptions C106_stream.

(** C106: after the stream was read to its end, records are appended again *)
Theorem C106_resume :
  forall fuel sha1 k o xs after, Forall no_stream xs -> Forall no_stream after ->
  tmp_data (snd (bsteps fuel sha1 k o (xs ++ BStream :: BRead None :: after) tmp_new)) = outs_of fuel sha1 k o xs ++ outs_of fuel sha1 k o after.
Proof. exact C106_resume_pf. Qed.
Print Assumptions C106_resume.

(** C106 is false of a stream that is not read to its end before the next record is written: the
    stream is the file of the writer, so every record that is not longer than what was written
    before is written over the beginning *)
Theorem C106_overwrite_refuted :
  forall fuel sha1 k o xs r, Forall no_stream xs ->
  let old := outs_of fuel sha1 k o xs in let new := record_out fuel sha1 k o r in
  0 < lenZ new <= lenZ old ->
  tmp_data (snd (bsteps fuel sha1 k o (xs ++ [BStream; BRecord r]) tmp_new)) = new ++ dropZ (lenZ new) old
  /\ new ++ dropZ (lenZ new) old <> old ++ new.
Proof. exact C106_overwrite_refuted_pf. Qed.
Print Assumptions C106_overwrite_refuted.

Definition ex_rec (n : N) : wrec :=
  mk_wrec (Some (lit "resource")) (mk_sah [] [(lit "WARC-Type", lit "resource")] (lit "WARC/1.0") 0 None) (bytesio (List.repeat 97%N (N.to_nat n))) None None None (Some (Z.of_N n)) None.
(** two records, then the stream and a third record: the third is written over the first *)
Example C106_ex :
  let o := mk_wopts (lit "WARC/1.0") None false in let out n := record_out 100 toy_hash toy_k o (ex_rec n) in
  fst (bsteps 100 toy_hash toy_k o [BRecord (ex_rec 5); BContents; BRecord (ex_rec 7); BStream; BRead (Some 9); BRead None; BContents] tmp_new)
    = [[]; out 5%N; []; []; takeZ 9 (out 5%N); dropZ 9 (out 5%N) ++ out 7%N; out 5%N ++ out 7%N]
  /\ lenZ (out 5%N) = 131
  /\ tmp_data (snd (bsteps 100 toy_hash toy_k o [BRecord (ex_rec 5); BStream; BRecord (ex_rec 5)] tmp_new)) = out 5%N.
Proof. repeat split; vm_compute; reflexivity. Qed.

(** C107: capture_http(name, append=True) on a file that exists: it keeps the contents and adds to
    them exactly what it would have written to a new file; everything else that happens is the
    same, and no other file changes.  For everything done in the capture *)
Theorem C107_append :
  forall fuel sha1 k can_write fs fs0 name gzip opts flt ip t ops old,
  can_write name = true -> fs name = Some old -> fs0 name = None ->
  exists xs new fs' fs0',
    capture_file fuel sha1 k can_write fs name true gzip opts flt ip t ops = Some (xs, fs')
    /\ capture_file fuel sha1 k can_write fs0 name true gzip opts flt ip t ops = Some (xs, fs0')
    /\ fs0' name = Some new /\ fs' name = Some (old ++ new)
    /\ forall x, x <> name -> fs' x = fs x /\ fs0' x = fs0 x.
Proof. exact C107_append_pf. Qed.
Print Assumptions C107_append.

(** C107: no use of capture_http with a file name destroys what a file contains: if the capture
    ends, each file that was there before still begins with its contents (it is the same, or it
    is the named file and append was given); without append a file that exists is refused before
    anything is done *)
Theorem C107_no_overwrite :
  forall fuel sha1 k can_write fs name append gzip opts flt ip t ops,
  (forall xs fs', capture_file fuel sha1 k can_write fs name append gzip opts flt ip t ops = Some (xs, fs') ->
     forall x old, fs x = Some old -> exists new, fs' x = Some (old ++ new) /\ (x <> name \/ append = false -> new = []))
  /\ (append = false -> fs name <> None -> capture_file fuel sha1 k can_write fs name append gzip opts flt ip t ops = None).
Proof. exact C107_no_overwrite_pf. Qed.
Print Assumptions C107_no_overwrite.

(** C107: what a capture of one exchange adds to the file: the response and the request, as two
    gzip members unless gzip=False is given, with the bytes that were received and sent *)
Theorem C107_written :
  forall fuel sha1 k can_write fs name append gzip opts flt ip t host port default mid st b rest verb path old,
  hash_bytes sha1 -> can_write name = true ->
  (fs name = Some old /\ append = true \/ fs name = None /\ old = []) ->
  wo_version opts <> [] -> scalar_text (wo_version opts) -> wo_filter opts = None ->
  (forall f, flt = Some f -> forall rq rs, f rq rs = (Some rq, Some rs)) ->
  scalar_text host -> Forall op_texts mid -> op_texts (Done 0 st) ->
  Forall (fun o => conn_of o = Some 0%nat /\ traffic o) mid ->
  parts 0 mid = b :: rest -> request_line b verb path -> verb <> lit "CONNECT" ->
  message (mk_parser HTTP_VERBS true) (sent 0 mid) -> message (mk_parser HTTP_TYPES true) (got 0 mid) ->
  enough fuel (sent 0 mid) -> enough fuel (got 0 mid) ->
  exists xs fs' hs1 hs2 out,
    capture_file fuel sha1 k can_write fs name append gzip opts flt ip t (Make t host port default None :: Put 0 :: mid ++ [Done 0 st]) = Some (xs, fs')
    /\ fs' name = Some (old ++ out)
    /\ two_records k (mk_wopts (wo_version opts) None (match gzip with Some false => false | _ => true end)) hs1 hs2 (got 0 mid) (sent 0 mid) out
    /\ value_of (lit "WARC-Type") hs1 = Some (lit "response") /\ value_of (lit "WARC-Type") hs2 = Some (lit "request").
Proof. exact C107_written_pf. Qed.
Print Assumptions C107_written.

Definition ex_mine : list op := filter (fun o => match conn_of o with Some O => true | _ => false end) ex_mid.
Example C107_ex_written : hash_bytes toy_hash /\ Forall op_texts ex_mine /\ op_texts (Done 0 ex_st)
  /\ Forall (fun o => conn_of o = Some 0%nat /\ traffic o) ex_mine
  /\ parts 0 ex_mine = ex_req /\ sent 0 ex_mine = concat ex_req /\ got 0 ex_mine = ex_resp
  /\ message (mk_parser HTTP_VERBS true) (sent 0 ex_mine) /\ message (mk_parser HTTP_TYPES true) (got 0 ex_mine)
  /\ enough 300 (sent 0 ex_mine) /\ enough 300 (got 0 ex_mine).
Proof.
  assert (T : forall x, forallb is_scalar x = true -> scalar_text x) by (intros x H; rewrite forallb_forall in H; exact H).
  split. { intros b. repeat constructor; try (apply N.mod_lt; discriminate). }
  split. { unfold ex_mine, ex_mid. cbn [filter conn_of]. repeat constructor; cbn [op_texts option_map]; try (apply T; reflexivity); try discriminate; apply Forall_forall; intros x Hx; vm_compute in Hx; intuition (subst; reflexivity). }
  split. { repeat split; apply T; reflexivity. }
  split. { unfold ex_mine, ex_mid. cbn [filter conn_of]. repeat (apply Forall_cons; [split; [reflexivity|first [exact Logic.I|reflexivity]]|]). apply Forall_nil. }
  split; [vm_compute; reflexivity|]. split; [vm_compute; reflexivity|]. split; [vm_compute; reflexivity|]. split.
  { exists (sah_new (lit "/p HTTP/1.1") [(lit "Host", lit "a")] (lit "POST")), (lit "body"). split; [apply wf_blockb_ok; vm_compute; reflexivity|].
    split; [right; discriminate|]. split; [|reflexivity]. repeat split; repeat constructor; intros c Hc; vm_compute in Hc; intuition (subst; reflexivity). }
  split.
  { exists (sah_new (lit "200 OK") [(lit "A", lit "b")] (lit "HTTP/1.1")), (lit "some text"). split; [apply wf_blockb_ok; vm_compute; reflexivity|].
    split; [right; discriminate|]. split; [|reflexivity]. repeat split; repeat constructor; intros c Hc; vm_compute in Hc; intuition (subst; reflexivity). }
  split; apply Nat.leb_le; vm_compute; reflexivity.
Qed.
Definition ex_ops : list op := Make 0 (lit "a") 8080 80 None :: Put 0 :: ex_mid ++ [Done 0 ex_st].
(** capturing twice into the same file: the second time without append is refused *)
Example C107_ex :
  let cap fs app := capture_file 300 toy_hash toy_k (fun _ => true) fs (lit "f") app None (ex_opts true) None true 0 ex_ops in
  match cap (fun _ => None) false with
  | Some (_, fs') =>
      match fs' (lit "f"), cap fs' false, cap fs' true with
      | Some b, None, Some (_, fs2) => (100 <? lenZ b) && match fs2 (lit "f") with Some c => leqb c (b ++ b) | None => false end
      | _, _, _ => false
      end
  | None => false
  end = true.
Proof. vm_compute. reflexivity. Qed.
