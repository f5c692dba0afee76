(** * Thm_Cli: proofs of the theorems restated in Props_Cli.v *)
From Coq Require Import String List ZArith NArith Bool Lia Permutation.
From Coq Require Import ZifyBool ZifyNat ZifyN.
From Verif Require Import PyBase Utf8 Codecs Headers HeaderSpec Streams StreamSpec DigestSpec Loader Iterator Writer WriterSpec IterSpec Cli CliSpec ReportSpec Toy.
Import ListNotations.
Open Scope Z_scope.

From Verif Require Import Facts HeaderProofs FillProofs WriterProofs IterProofs GzProofs CliProofs TraceProofs CheckProofs ExtractProofs Thm_Buffered Thm_Iter.

(** the lines of the index of an archive *)
Definition lines_of (filename : str) (fields : list str) (es : list (entry * (Z * Z))) (ds : list (list (str * str))) : Prop :=
  Forall2 (fun x d => line_is filename fields (w_headers (e_rec (fst x))) (w_value "WARC-Type" (e_rec (fst x))) (e_http (fst x))
                              (fst (snd x)) (snd (snd x)) d) es ds.
(** [run] is what a consumer observes in file [f] who reads with a size, at least 0, and lines of
    at most 64 bytes *)
Definition consumed {zl : zenv} (fuel n : nat) (he : henv) (o : lopts) (f : raw) (run : list (@obs zl) * ending) : Prop :=
  exists prog, (forall i, nonneg_ops (prog i) /\ limited_lines 64 (prog i))
               /\ run_iter fuel he o n prog 0 (iter_new f BUFF_SIZE None) = run.
(** examples: a response whose block digest is right or wrong, and a resource *)
Definition ex_block : bytes := lit "HTTP/1.1 200 OK" ++ crlf ++ lit "A: b" ++ crlf ++ crlf ++ lit "body".
Definition ex_w1 (good : bool) : wrc := mk_wrc (lit "WARC/1.0")
  [(lit "WARC-Type", lit "response"); (lit "WARC-Target-URI", lit "http://a/"); (lit "WARC-Block-Digest", ck_digest (if good then ex_block else lit "other")); (lit "Content-Length", lit "29")] ex_block.
Definition ex_w2 : wrc := mk_wrc (lit "WARC/1.1") [(lit "WARC-Type", lit "resource"); (lit "Content-Length", lit "5")] (lit "hello").
Definition ex_text (w : wrc) : bytes :=
  match utf8_encode (record_text (w_version w) (w_headers w)) with Some h => h ++ w_block w ++ crlf ++ crlf | None => [] end.
Definition ex_http : sah := mk_sah (lit "200 OK") [(lit "A", lit "b")] (lit "HTTP/1.1") 25 None.
Definition ex_es (good : bool) : list entry :=
  [mk_entry (ex_w1 good) (ex_text (ex_w1 good)) (Some ex_http) (lit "body"); mk_entry ex_w2 (ex_text ex_w2) None (lit "hello")].

Lemma index_archive {zl : zenv} fuel he M verify uuid filename fields sched data es n :
  good_archive every zl fuel he (index_opts fields verify uuid) M 0 sched data es -> (List.length es < n)%nat ->
  exists ds, index_file (zl:=zl) fuel he n verify uuid filename fields (raw_open data sched) = (ds, EndStop) /\ lines_of filename fields es ds.
Proof.
  intros HG Hn. destruct (archive_run every fuel he (index_opts fields verify uuid) M 0 sched data es (fun _ => []) None n HG eq_refl ltac:(discriminate) Hn) as (obs & E & Hl & Hob).
  { intros i. split; constructor. }
  { intros. constructor. }
  assert (F : Forall2 (fun ob x => observed he (index_opts fields verify uuid) (e_rec (fst x)) (e_http (fst x)) (e_payload (fst x)) (fst (snd x)) (snd (snd x)) [] ob) obs es).
  { apply Forall2_nth; [exact Hl|]. intros i ob [e [off len]] Ho He. now apply (Hob i). }
  destruct (index_loop_ok fuel he (index_opts fields verify uuid) filename fields n 0 _ _ obs EndStop (or_introl eq_refl) E) as (ds & Ed & HF).
  { clear - F. induction F as [|ob [e [off len]] obs es H F IH]; constructor; [|exact IH]. exists off, len. apply (ob_place _ _ _ _ _ _ _ _ _ H). }
  exists ds. split; [exact Ed|]. unfold lines_of. clear - F HF. revert ds HF. induction F as [|ob [e [off len]] obs es H F IH]; intros ds HF; inversion HF as [|? d ? ds' Hd HF']; subst; constructor; [|now apply IH].
  cbn [fst snd] in *. destruct Hd as (off' & len' & Hi & Hd). rewrite (ob_place _ _ _ _ _ _ _ _ _ H) in Hi. injection Hi as <- <-.
  now rewrite (ob_headers _ _ _ _ _ _ _ _ _ H), (ob_type _ _ _ _ _ _ _ _ _ H), (ob_http _ _ _ _ _ _ _ _ _ H) in Hd.
Qed.

Lemma check_loop_shape {zl : zenv} fuel he o n : forall it, exists x b, forall verbose name printed ev,
  exists ms, check_loop (zl:=zl) fuel he n o verbose name printed ev it = (x, (if b : bool then 1 else ev), ms).
Proof.
  induction n as [|n IH]; intros it; cbn [check_loop].
  - exists (Err OutOfFuel), false. intros. eexists. reflexivity.
  - destruct (iter_next fuel he o it) as [[[rc|]|e] it0].
    2:{ exists (Ok tt), false. intros. eexists. reflexivity. }
    2:{ exists (Err e), false. intros. eexists. reflexivity. }
    destruct (read_entire fuel fuel (content_stream (rc_http rc) (rc_stream rc))) as [[u|e] c].
    2:{ exists (Err e), false. intros. eexists. reflexivity. }
    destruct (get_offset_length fuel (it_set_rstream (cs_raw c) it0)) as [[info|e] it2].
    2:{ exists (Err e), false. intros. eexists. reflexivity. }
    cbv zeta. set (failed := match dc_passed _ with Some false => true | _ => false end).
    destruct (IH it2) as (x & b & H). exists x, (b || failed). intros verbose name printed ev.
    match goal with |- context [check_loop fuel he n o verbose name ?p ?v it2] => destruct (H verbose name p v) as (ms & ->) end.
    eexists. f_equal. f_equal. destruct b, failed; reflexivity.
Qed.

Section CheckAll.
  Context {zl : zenv} (fuel : nat) (he : henv) (n : nat) (uuid : str).
  Definition one (f : raw) (x : res unit) (b : bool) : Prop :=
    forall verbose name ev, exists ms, check_loop (zl:=zl) fuel he n (check_opts uuid) verbose name false ev (iter_new f BUFF_SIZE None) = (x, (if b then 1 else ev), ms).
  Lemma one_ex f : exists x b, one f x b.
  Proof. destruct (check_loop_shape (zl:=zl) fuel he (check_opts uuid) n (iter_new f BUFF_SIZE None)) as (x & b & H). exists x, b. intros v nm ev. apply H. Qed.
  Definition bad_file (x : res unit) (b : bool) : bool := match x with Ok _ => b | Err ArchiveLoadFailed => true | Err _ => false end.
  Definition handled (x : res unit) : Prop := x = Ok tt \/ x = Err ArchiveLoadFailed.
  Lemma check_all_status verbose files : forall ev v ms, check_all (zl:=zl) fuel he n verbose uuid ev files = (Ok v, ms) ->
    exists xs, Forall2 (fun f xb => one (snd f) (fst xb) (snd xb) /\ handled (fst xb)) files xs
      /\ v = (if existsb (fun xb => bad_file (fst xb) (snd xb)) xs then 1 else ev).
  Proof.
    induction files as [|[name f] files IH]; intros ev v ms H; cbn [check_all] in H.
    - injection H as <- <-. exists []. split; [constructor|reflexivity].
    - destruct (one_ex f) as (x & b & Hf). destruct (Hf verbose name ev) as (ms1 & E). rewrite E in H.
      assert (G : handled x -> forall ev1 ms', check_all (zl:=zl) fuel he n verbose uuid ev1 files = (Ok v, ms') -> (bad_file x b = true -> ev1 = 1) -> (bad_file x b = false -> ev1 = ev) ->
        exists xs, Forall2 (fun f xb => one (snd f) (fst xb) (snd xb) /\ handled (fst xb)) ((name, f) :: files) xs
        /\ v = (if existsb (fun xb => bad_file (fst xb) (snd xb)) xs then 1 else ev)).
      { intros Hh ev1 ms' H1 Hb1 Hb2. destruct (IH _ _ _ H1) as (xs & HF & ->). exists ((x, b) :: xs). split; [constructor; [split; assumption|exact HF]|].
        cbn [existsb fst snd]. destruct (bad_file x b); cbn [orb]; [rewrite (Hb1 eq_refl)|rewrite (Hb2 eq_refl)]; destruct (existsb _ xs); reflexivity. }
      destruct x as [[]|e].
      + destruct (check_all fuel he n verbose uuid (if b then 1 else ev) files) as [y ms'] eqn:E2. injection H as -> <-.
        apply (G ltac:(now left) _ ms' E2); cbn [bad_file]; intros ->; reflexivity.
      + destruct e; try discriminate. destruct (check_all fuel he n verbose uuid 1 files) as [y ms'] eqn:E2. injection H as -> <-.
        apply (G ltac:(now right) _ ms' E2); cbn [bad_file]; [reflexivity|discriminate].
  Qed.
  Lemma check_all_back verbose files : forall ev xs, Forall2 (fun f xb => one (snd f) (fst xb) (snd xb) /\ handled (fst xb)) files xs ->
    exists ms, check_all (zl:=zl) fuel he n verbose uuid ev files = (Ok (if existsb (fun xb => bad_file (fst xb) (snd xb)) xs then 1 else ev), ms).
  Proof.
    intros ev xs H. revert ev. induction H as [|[name f] [x b] files xs [Hf Hh] HF IH]; intros ev; cbn [check_all].
    - eexists. reflexivity.
    - cbn [fst snd] in *. destruct (Hf verbose name ev) as (ms1 & E). rewrite E. cbn [existsb fst snd]. destruct Hh as [-> | ->]; cbn [bad_file orb].
      + destruct (IH (if b then 1 else ev)) as (ms2 & ->). eexists. f_equal. f_equal. destruct b, (existsb _ xs); reflexivity.
      + destruct (IH 1) as (ms2 & ->). eexists. f_equal. f_equal. destruct (existsb _ xs); reflexivity.
  Qed.
End CheckAll.
Lemma existsb_perm {A} (g : A -> bool) l l' : Permutation l l' -> existsb g l = existsb g l'.
Proof. induction 1; cbn; try congruence. now destruct (g x), (g y). Qed.
Lemma Forall2_perm {A B} (P : A -> B -> Prop) l l' : Permutation l l' -> forall m, Forall2 P l m -> exists m', Permutation m m' /\ Forall2 P l' m'.
Proof.
  induction 1 as [|x l l' HP IH|x y l|l l' l'' HP1 IH1 HP2 IH2]; intros m H.
  - inversion H; subst. exists []. split; constructor.
  - inversion H; subst. destruct (IH _ H4) as (m' & Hm & HF). exists (y :: m'). split; [now constructor|now constructor].
  - inversion H as [|? a ? m1 H1 H2]; subst. inversion H2 as [|? b ? m2 H3 H4]; subst. exists (b :: a :: m2). split; [constructor|now repeat constructor].
  - destruct (IH1 _ H) as (m1 & P1 & F1). destruct (IH2 _ F1) as (m2 & P2 & F2). exists m2. split; [now transitivity m1|exact F2].
Qed.
Lemma some_bad_spec {zl : zenv} (obs : list (@Iterator.obs zl)) : existsb bad_ob obs = true <-> some_bad obs.
Proof.
  rewrite existsb_exists. split; intros (ob & H1 & H2); exists ob; (split; [exact H1|]); unfold bad_ob in *; destruct (ob_passed ob) as [[]|]; congruence.
Qed.
Lemma calm_raises {zl : zenv} (obs : list (@Iterator.obs zl)) : Forall calm obs -> ~ raises ArchiveLoadFailed obs EndStop.
Proof.
  intros H [X|(ob & Ho & X)]; [discriminate|]. rewrite Forall_forall in H. destruct (H ob Ho) as [Hs (i & Hi)].
  destruct X as [X|X]; [|congruence]. destruct (Hs _ X) as (d & Y). discriminate.
Qed.

(** the examples *)
Lemma ex_short : short_lines 200 ex_block.
Proof.
  exists (lit "HTTP/1.1 200 OK" ++ crlf ++ lit "A: b" ++ crlf ++ crlf), (lit "body"). split; [reflexivity|]. split.
  - exists [lit "HTTP/1.1 200 OK" ++ crlf; lit "A: b" ++ crlf], crlf. split; [reflexivity|]. split.
    + constructor; [|constructor; [|constructor]].
      * split; [exists (lit "HTTP/1.1 200 OK" ++ [13%N]); split; [cbn; intuition discriminate|reflexivity]|].
        intros H. specialize (H 72%N). discriminate H. left. reflexivity.
      * split; [exists (lit "A: b" ++ [13%N]); split; [cbn; intuition discriminate|reflexivity]|].
        intros H. specialize (H 65%N). discriminate H. left. reflexivity.
    + left. split; [exists [13%N]; split; [cbn; intuition discriminate|reflexivity]|].
      intros c Hc. vm_compute in Hc. intuition (subst; reflexivity).
  - intros p q E. apply Z.le_trans with (lenZ ex_block); [|vm_compute; discriminate].
    assert (ex_block = p ++ q ++ lit "body") as -> by (rewrite app_assoc, <- E; reflexivity).
    rewrite !lenZ_app. pose proof (take_drop_line q) as Ht. apply (f_equal lenZ) in Ht. rewrite lenZ_app in Ht.
    pose proof (lenZ_nonneg p). pose proof (lenZ_nonneg (drop_line q)). pose proof (lenZ_nonneg (lit "body")). lia.
Qed.
Lemma ck_judgeable x : judgeable ck_henv (Some (ck_digest x)).
Proof.
  assert (Hh : forall x, Forall (fun b => (b < 256)%N) (ck_hash x)).
  { intros y. unfold ck_hash, toy_hash. repeat (constructor; [apply N.mod_lt; discriminate || reflexivity|]). repeat constructor; try (apply N.mod_lt; discriminate). }
  intros data. assert (Hd : is_digest (ck_digest x) (lit "sha1") (b32encode (ck_hash x))).
  { split; [reflexivity|]. intros H. repeat (destruct H as [H|H]; [discriminate|]). destruct H. }
  destruct (list_eq_dec N.eq_dec (ck_hash x) (ck_hash data)) as [E|E].
  - exists VGood. apply (J_good _ _ _ _ _ ck_hash Hd eq_refl). left. now rewrite E.
  - exists VBad. apply (J_bad _ _ _ _ _ ck_hash (ck_hash x) Hd eq_refl); [now left|reflexivity|apply Hh|exact E].
Qed.
Lemma ex_good_pf o good : lo_norec o = false -> lo_verify o = false -> lo_check o <> KRaise -> Forall (good_entry 500 ck_henv o 200 []) (ex_es good).
Proof.
  intros Hn Hv Hc. assert (HD : forall w x, block_digest w = None \/ block_digest w = Some (ck_digest x) -> payload_digest w = None -> forall p, digests_ready ck_henv o w p).
  { intros w x H1 H2 p. right. split; [apply ck_ready_pf|]. left. split; [exact Hc|]. rewrite H2. split; [|intros d; exists VNone; constructor].
    destruct H1 as [-> | ->]; [intros d; exists VNone; constructor|apply ck_judgeable]. }
  constructor; [|constructor; [|constructor]]; unfold good_entry; cbn [e_rec e_text e_http e_payload]; rewrite Hn, Hv.
  - split.
    { split; [cbn; auto|]. split; [repeat constructor; apply Thm_Iter.ex_hdr; destruct good; vm_compute; reflexivity|]. split.
      - split; [cbn; intuition discriminate|]. intros m E. discriminate.
      - exists (lit "29"). split; vm_compute; reflexivity. }
    split; [destruct good; (eexists; split; vm_compute; reflexivity)|].
    split; [eexists; split; vm_compute; reflexivity|]. split; [intros _ _; exact ex_short|].
    split; [apply (HD _ (if good then ex_block else lit "other")); [right|]; destruct good; vm_compute; reflexivity|]. split; constructor.
  - split.
    { split; [cbn; auto|]. split; [repeat constructor; apply Thm_Iter.ex_hdr; reflexivity|]. split; [exact I|].
      exists (lit "5"). split; vm_compute; reflexivity. }
    split; [eexists; split; vm_compute; reflexivity|].
    split; [eexists; split; vm_compute; reflexivity|]. split; [intros _ X; now destruct X|].
    split; [apply (HD _ []); [left|]; vm_compute; reflexivity|]. split; constructor.
Qed.
Lemma ex_archive_pf quiet o good : lo_norec o = false -> lo_verify o = false -> lo_check o <> KRaise ->
  good_archive quiet toy_z 500 ck_henv o 200 0 [] (texts (ex_es good)) (placed 0 (ex_es good)).
Proof.
  intros Hn Hv Hc. constructor; [exact toy_gz_magic_pf|split; [vm_compute; discriminate|exact I]|right; split; [reflexivity|vm_compute; discriminate]|lia| |now apply ex_good_pf].
  unfold enough. destruct good; vm_compute; lia.
Qed.
Lemma ex_index_pf :
  archives every toy_z 500 ck_henv (index_opts [lit "offset"; lit "length"; lit "filename"; lit "http:status"; lit "http:a"; lit "warc-type"] false (lit "u")) 200
           [(lit "d/f.warc", raw_open (texts (ex_es true)) [])] [placed 0 (ex_es true)]
  /\ index_all (zl:=toy_z) 500 ck_henv 3 false (lit "u") [lit "offset"; lit "length"; lit "filename"; lit "http:status"; lit "http:a"; lit "warc-type"]
        [(lit "d/f.warc", raw_open (texts (ex_es true)) [])]
     = ([[(lit "offset", lit "0"); (lit "length", lit "168"); (lit "filename", lit "f.warc"); (lit "http:status", lit "200"); (lit "http:a", lit "b"); (lit "warc-type", lit "response")];
         [(lit "offset", lit "172"); (lit "length", lit "57"); (lit "filename", lit "f.warc"); (lit "warc-type", lit "resource")]], EndStop).
Proof.
  split; [|vm_compute; reflexivity]. constructor; [|constructor]. eexists _, []. split; [reflexivity|]. apply ex_archive_pf; [reflexivity..|discriminate].
Qed.
Lemma ex_extract_pf :
  good_archive every toy_z 500 ck_henv (extract_opts (lit "u")) 200 0 [] (texts (ex_es true)) (placed 0 (ex_es true))
  /\ (let (x, ws) := extract (zl:=toy_z) 500 ck_henv (lit "u") false false (seek_file (texts (ex_es true)) [] 172) in
      x = XOk /\ concat ws ++ crlf ++ crlf = ex_text ex_w2)
  /\ (let (x, ws) := extract (zl:=toy_z) 500 ck_henv (lit "u") true false (seek_file (texts (ex_es true)) [] 0) in
      x = XOk /\ concat ws = lit "body").
Proof.
  split; [apply ex_archive_pf; [reflexivity..|discriminate]|]. vm_compute. repeat split.
Qed.
Lemma ex_check_pf : forall good,
  archives unchunked toy_z 500 ck_henv (check_opts (lit "u")) 200 [(lit "f", raw_open (texts (ex_es good)) [])] [placed 0 (ex_es good)]
  /\ (forall e pl, In (e, pl) (placed 0 (ex_es good)) -> not_vacuous ck_henv e /\ plain_content (e_http e))
  /\ check_all (zl:=toy_z) 500 ck_henv 3 false (lit "u") 0 [(lit "f", raw_open (texts (ex_es good)) [])]
     = if good then (Ok 0, []) else (Ok 1, [MFile (lit "f"); MRecord 0 None (Some (lit "response")); MProblem PBlockFailed]).
Proof.
  intros good. split; [constructor; [|constructor]; eexists _, []; split; [reflexivity|]; apply ex_archive_pf; [reflexivity..|discriminate]|].
  split; [|destruct good; vm_compute; reflexivity]. intros e pl [[= <- _]|[[= <- _]|[]]]; (split; [intros X; discriminate X|]); intros h X; [|discriminate X].
  injection X as <-. split; [vm_compute; discriminate|reflexivity].
Qed.

Lemma C60_index_partial_pf :
  forall (zl : zenv) fuel he M verify uuid fields files ess n,
  archives every zl fuel he (index_opts fields verify uuid) M files ess -> Forall (fun es => (List.length es < n)%nat) ess ->
  exists dss, index_all (zl:=zl) fuel he n verify uuid fields files = (concat dss, EndStop)
    /\ List.length dss = List.length files
    /\ forall i f es ds, nth_error files i = Some f -> nth_error ess i = Some es -> nth_error dss i = Some ds -> lines_of (fst f) fields es ds.
Proof.
intros zl fuel he M verify uuid fields files ess n HA Hn. induction HA as [|[name f] es files ess (data & sched & E & HG) HA IH].
- exists []. split; [reflexivity|]. split; [reflexivity|]. intros [|i]; discriminate.
- cbn [snd] in E. subst f. destruct (IH (Forall_inv_tail Hn)) as (dss & E & Hl & Hi).
  destruct (index_archive fuel he M verify uuid name fields sched data es n HG (Forall_inv Hn)) as (ds & Ed & HL).
  exists (ds :: dss). cbn [index_all]. rewrite Ed, E. split; [reflexivity|]. split; [cbn; congruence|].
  intros [|i] f es' ds'; cbn [nth_error]; [|apply Hi]. intros [= <-] [= <-] [= <-]. exact HL.
Qed.

Lemma C60_any_input_pf :
  forall (zl : zenv) fuel he verify uuid filename fields f n obs en,
  run_iter (zl:=zl) fuel he (index_opts fields verify uuid) n (fun _ => []) 0 (iter_new f BUFF_SIZE None) = (obs, en) ->
  Forall (fun ob => exists off len, ob_info ob = Ok (Some (off, len))) obs ->
  exists ds, index_file (zl:=zl) fuel he n verify uuid filename fields f = (ds, en)
    /\ Forall2 (fun (ob : @Iterator.obs zl) d => exists off len, ob_info ob = Ok (Some (off, len))
         /\ line_is filename fields (sh_headers (rc_headers (ob_record ob))) (rc_type (ob_record ob)) (rc_http (ob_record ob)) off len d) obs ds.
Proof.
intros zl fuel he verify uuid filename fields f n obs en E HF.
exact (index_loop_ok fuel he (index_opts fields verify uuid) filename fields n 0 _ _ obs en (or_introl eq_refl) E HF).
Qed.

Lemma C61_extract_partial_pf :
  forall (zl : zenv) fuel he uuid M sched data es k e off len wb hb,
  good_archive every zl fuel he (extract_opts uuid) M 0 sched data es -> nth_error es k = Some (e, (off, len)) ->
  warc_text (e_rec e) wb -> http_text (e_http e) hb ->
  let f := seek_file data sched off in
  (exists ws, extract (zl:=zl) fuel he uuid false false f = (XOk, ws) /\ concat ws = wb ++ hb ++ e_payload e)
  /\ (exists ws, extract (zl:=zl) fuel he uuid false true f = (XOk, ws) /\ concat ws = wb ++ hb)
  /\ (plain_content (e_http e) -> exists ws, extract (zl:=zl) fuel he uuid true false f = (XOk, ws) /\ concat ws = e_payload e).
Proof.
exact @extract_archive.
Qed.

Lemma C61_verbatim_pf :
  forall (zl : zenv) fuel he uuid M sched data es k e off len hb,
  good_archive every zl fuel he (extract_opts uuid) M 0 sched data es -> nth_error es k = Some (e, (off, len)) ->
  http_text (e_http e) hb -> w_block (e_rec e) = hb ++ e_payload e ->
  exists ws, extract (zl:=zl) fuel he uuid false false (seek_file data sched off) = (XOk, ws) /\ concat ws ++ crlf ++ crlf = e_text e.
Proof.
intros zl fuel he uuid M sched data es k e off len hb HG Hk Hh Hb.
destruct (archive_entry _ _ _ _ _ _ _ _ _ _ _ _ HG (nth_error_In _ _ Hk)) as [(_ & (wb & Hw & Et) & _) _].
destruct (extract_archive fuel he uuid M sched data es k e off len wb hb HG Hk Hw Hh) as ((ws & E & Ec) & _).
exists ws. split; [exact E|]. rewrite Ec, Et, Hb. now rewrite <- !app_assoc.
Qed.

Lemma C63_exit_status_pf :
  forall (zl : zenv) fuel he n verbose uuid files v ms,
  check_all (zl:=zl) fuel he n verbose uuid 0 files = (Ok v, ms) ->
  exists runs, Forall2 (fun f run => consumed (zl:=zl) fuel n he (check_opts uuid) (snd f) run) files runs
    /\ (v = 1 \/ v = 0)
    /\ (v = 1 <-> exists obs en, In (obs, en) runs /\ (raises ArchiveLoadFailed obs en \/ some_bad obs)).
Proof.
intros zl fuel he n verbose uuid files v ms H. destruct (check_all_status fuel he n uuid verbose files 0 v ms H) as (xs & HF & ->).
assert (HR : exists runs, Forall2 (fun f run => consumed (zl:=zl) fuel n he (check_opts uuid) (snd f) run) files runs
   /\ Forall2 (fun xb (run : list (@obs zl) * ending) => bad_file (fst xb) (snd xb) = true <-> raises ArchiveLoadFailed (fst run) (snd run) \/ some_bad (fst run)) xs runs).
{ clear H. induction HF as [|[name f] [x b] files xs [Hf Hh] HF IH]; [exists []; split; constructor|]. destruct IH as (runs & I1 & I2). cbn [fst snd] in *.
  destruct (Hf verbose name 0) as (ms1 & E).
  destruct (check_loop_ok fuel he (check_opts uuid) n verbose name false 0 0 _ _ _ _ E) as (prog & Hp & _ & HC).
  destruct (run_iter fuel he (check_opts uuid) n prog 0 (iter_new f BUFF_SIZE None)) as [obs en] eqn:Er. specialize (HC obs en eq_refl).
  exists ((obs, en) :: runs). split; [constructor; [exists prog; now split|exact I1]|]. constructor; [|exact I2]. cbn [fst snd].
  destruct HC as [(-> & -> & Ev & Hc & _)|[(e & j & -> & He & _)|(-> & _)]].
  - cbn [bad_file]. rewrite <- some_bad_spec. pose proof (calm_raises obs Hc). destruct b, (existsb bad_ob obs); try discriminate; intuition congruence.
  - destruct Hh as [X|X]; [discriminate|]. injection X as ->. cbn [bad_file]. apply raises_at_raises in He. tauto.
  - destruct Hh as [X|X]; discriminate. }
destruct HR as (runs & R1 & R2). exists runs. split; [exact R1|]. split; [destruct (existsb _ xs); auto|].
destruct (existsb _ xs) eqn:Ex.
- split; [intros _|reflexivity]. apply existsb_exists in Ex as (xb & Hi & Hb).
  clear - R2 Hi Hb. induction R2 as [|y [obs en] ys runs H R2 IH]; [contradiction|]. destruct Hi as [-> |Hi].
  + exists obs, en. split; [now left|]. now apply H.
  + destruct (IH Hi) as (o & e & I1 & I2). exists o, e. split; [now right|exact I2].
- split; [discriminate|]. intros (obs & en & Hi & Hb). exfalso.
  clear - R2 Ex Hi Hb. induction R2 as [|y [obs' en'] ys runs H R2 IH]; [contradiction|]. cbn [existsb] in Ex. apply orb_false_iff in Ex as [E1 E2].
  destruct Hi as [[= -> ->]|Hi]; [|now apply IH]. apply H in Hb. cbn in E1. congruence.
Qed.

Lemma C63_order_pf :
  forall (zl : zenv) fuel he n verbose verbose' uuid files files' v ms,
  check_all (zl:=zl) fuel he n verbose uuid 0 files = (Ok v, ms) -> Permutation (map snd files) (map snd files') ->
  exists ms', check_all (zl:=zl) fuel he n verbose' uuid 0 files' = (Ok v, ms').
Proof.
intros zl fuel he n verbose verbose' uuid files files' v ms H HP. destruct (check_all_status fuel he n uuid verbose files 0 v ms H) as (xs & HF & ->).
assert (HF1 : Forall2 (fun f xb => one (zl:=zl) fuel he n uuid f (fst xb) (snd xb) /\ handled (fst xb)) (map snd files) xs).
{ clear - HF. induction HF; constructor; auto. }
destruct (Forall2_perm _ _ _ HP _ HF1) as (xs' & Pm & HF2).
assert (HF3 : Forall2 (fun f xb => one (zl:=zl) fuel he n uuid (snd f) (fst xb) (snd xb) /\ handled (fst xb)) files' xs').
{ clear - HF2. remember (map snd files') as l eqn:El. revert files' El. induction HF2 as [|f xb l xs H HF IH]; intros [|[nm g] files'] El; try discriminate; constructor; [|apply IH; now injection El].
  injection El as -> _. exact H. }
destruct (check_all_back fuel he n uuid verbose' files' 0 xs' HF3) as (ms' & E). exists ms'. rewrite E. now rewrite (existsb_perm _ _ _ Pm).
Qed.

Lemma C63_archives_partial_pf :
  forall (zl : zenv) fuel he M n verbose uuid files ess,
  archives unchunked zl fuel he (check_opts uuid) M files ess -> 64 <= M -> Forall (fun es => (List.length es < n)%nat) ess ->
  (forall es e pl, In es ess -> In (e, pl) es -> not_vacuous he e /\ plain_content (e_http e)) ->
  exists v ms, check_all (zl:=zl) fuel he n verbose uuid 0 files = (Ok v, ms)
    /\ ((exists es e pl, In es ess /\ In (e, pl) es /\ fails he e) -> v = 1)
    /\ ((forall es e pl, In es ess -> In (e, pl) es -> ~ fails he e) -> v = 0).
Proof.
intros zl fuel he M n verbose uuid files ess HA HM Hn Hv.
assert (G : forall ev, (ev = 0 \/ ev = 1) -> exists v ms, check_all (zl:=zl) fuel he n verbose uuid ev files = (Ok v, ms)
    /\ (v = 0 \/ v = 1) /\ (ev = 1 -> v = 1)
    /\ ((exists es e pl, In es ess /\ In (e, pl) es /\ fails he e) -> v = 1)
    /\ ((forall es e pl, In es ess -> In (e, pl) es -> ~ fails he e) -> v = ev)).
{ induction HA as [|[name f] es files ess (data & sched & E & HG) HA IH]; intros ev Hev; cbn [check_all].
  - exists ev, []. split; [reflexivity|]. split; [exact Hev|]. split; [auto|]. split; [|reflexivity]. intros (es & _ & _ & [] & _).
  - cbn [snd] in E. subst f. specialize (IH (Forall_inv_tail Hn) (fun es e pl A => Hv es e pl (or_intror A))).
    destruct (check_loop fuel he n (check_opts uuid) verbose name false ev (iter_new (raw_open data sched) BUFF_SIZE None)) as [[x ev1] ms1] eqn:Ec.
    destruct (check_archive fuel he uuid M sched data es n verbose name ev x ev1 ms1 HG HM (Forall_inv Hn)) as [(-> & H1 & H2 & H3 & _)|(_ & e & pl & He & Hx)]; auto.
    + intros e pl He. apply (Hv es e pl (or_introl eq_refl) He).
    + destruct (IH ev1) as (v & ms & E & V0 & V1 & V2 & V3); [destruct H3 as [-> | ->]; auto|]. rewrite E. exists v, (ms1 ++ ms).
      split; [reflexivity|]. split; [exact V0|]. split; [|split].
      * intros ->. apply V1. destruct H3; auto.
      * intros (es' & e & pl & [<- |Hi] & He & Hf); [apply V1, H1; eauto|apply V2; eauto 6].
      * intros Hall. rewrite V3; [apply H2; intros e pl; apply Hall; now left|]. intros es' e pl Hi. apply Hall. now right.
    + destruct Hx. apply (Hv es e pl (or_introl eq_refl) He). }
destruct (G 0 ltac:(now left)) as (v & ms & E & _ & _ & V2 & V3). exists v, ms. auto.
Qed.

Lemma C82_report_pf :
  forall (zl : zenv) fuel he n verbose uuid files v ms,
  check_all (zl:=zl) fuel he n verbose uuid 0 files = (Ok v, ms) ->
  exists mss, ms = List.concat mss
    /\ Forall2 (fun f m => exists run, consumed (zl:=zl) fuel n he (check_opts uuid) (snd f) run
                             /\ file_report verbose (fst f) (fst run) (snd run) m) files mss.
Proof.
intros zl fuel he n verbose uuid files. generalize 0 as ev. induction files as [|[name f] files IH]; intros ev v ms H; cbn [check_all] in H.
- injection H as <- <-. exists []. split; [reflexivity|constructor].
- destruct (check_loop fuel he n (check_opts uuid) verbose name false ev (iter_new f BUFF_SIZE None)) as [[x ev1] ms1] eqn:E.
  destruct (check_loop_ok fuel he (check_opts uuid) n verbose name false ev 0 _ _ _ _ E) as (prog & Hp & _ & HC).
  destruct (run_iter fuel he (check_opts uuid) n prog 0 (iter_new f BUFF_SIZE None)) as [obs en] eqn:Er. specialize (HC obs en eq_refl).
  assert (HR : forall os m, says (zl:=zl) verbose false name os m -> records_report verbose name os m).
  { intros os m (mss & HF & ->). exists mss. split; [exact HF|]. destruct (List.concat mss); [now left|right; split; [discriminate|reflexivity]]. }
  assert (HK : consumed (zl:=zl) fuel n he (check_opts uuid) f (obs, en)) by (exists prog; now split).
  destruct HC as [(-> & -> & _ & _ & Hs)|[(e & j & -> & He & Hs)|(-> & _)]]; [| |discriminate].
  + destruct (check_all fuel he n verbose uuid ev1 files) as [y ms'] eqn:Ea. injection H as -> <-.
    destruct (IH ev1 v ms' Ea) as (mss & -> & HF). exists (ms1 :: mss). split; [reflexivity|]. constructor; [|exact HF].
    exists (obs, EndStop). split; [exact HK|]. left. split; [reflexivity|]. now apply HR.
  + destruct e; try discriminate. destruct (check_all fuel he n verbose uuid 1 files) as [y ms'] eqn:Ea. injection H as -> <-.
    destruct (IH 1 v ms' Ea) as (mss & -> & HF). exists ((ms1 ++ [MFile name; MFailed]) :: mss). split; [cbn [List.concat]; now rewrite <- app_assoc|]. constructor; [|exact HF].
    exists (obs, en). split; [exact HK|]. right. exists j, ms1. split; [exact He|]. split; [now apply HR|reflexivity].
Qed.

Lemma C82_archives_partial_pf :
  forall (zl : zenv) fuel he M n verbose uuid files ess,
  archives unchunked zl fuel he (check_opts uuid) M files ess -> 64 <= M -> Forall (fun es => (List.length es < n)%nat) ess ->
  (forall es e pl, In es ess -> In (e, pl) es -> not_vacuous he e /\ plain_content (e_http e)) ->
  exists v ms, check_all (zl:=zl) fuel he n verbose uuid 0 files = (Ok v, ms) /\ archives_report verbose he (map fst files) ess ms.
Proof.
intros zl fuel he M n verbose uuid files ess HA HM Hn Hv. generalize 0 as ev.
induction HA as [|[name f] es files ess (data & sched & E & HG) HA IH]; intros ev; cbn [check_all].
- exists ev, []. split; [reflexivity|constructor].
- cbn [snd] in E. subst f. specialize (IH (Forall_inv_tail Hn) (fun es e pl A => Hv es e pl (or_intror A))).
  destruct (check_loop fuel he n (check_opts uuid) verbose name false ev (iter_new (raw_open data sched) BUFF_SIZE None)) as [[x ev1] ms1] eqn:Ec.
  destruct (check_archive fuel he uuid M sched data es n verbose name ev x ev1 ms1 HG HM (Forall_inv Hn)) as [(-> & _ & _ & _ & obs & F & Hs)|(_ & e & pl & He & Hx)]; auto.
  { intros e pl He. apply (Hv es e pl (or_introl eq_refl) He). }
  2:{ destruct Hx. apply (Hv es e pl (or_introl eq_refl) He). }
  destruct (IH ev1) as (v & ms & E & HR). rewrite E. exists v, (ms1 ++ ms). split; [reflexivity|]. cbn [map fst].
  destruct Hs as (mss & HF & ->).
  assert (HE : Forall2 (fun ep m => entry_report verbose he (fst ep) (snd ep) m) es mss).
  { assert (Hes : forall e pl, In (e, pl) es -> good_entry fuel he (check_opts uuid) M [] e /\ not_vacuous he e).
    { intros e [off len] He. split; [exact (proj1 (archive_entry _ _ _ _ _ _ _ _ _ _ _ _ HG He))|]. apply (Hv es e (off, len) (or_introl eq_refl) He). }
    clear - HF F Hes. revert mss HF. induction F as [|ob [e [off len]] obs es (us & _ & HO) F IH]; intros mss HF; inversion HF as [|? m ? mss' Hm HF']; subst; constructor.
    - cbn [fst snd] in *. destruct (Hes e (off, len) (or_introl eq_refl)) as [Hg Hvac]. pose proof (bad_fails fuel he uuid M e off len us ob Hg Hvac HO) as HB. unfold bad_ob in HB.
      assert (EL : record_line ob = entry_line e (off, len)).
      { unfold record_line, entry_line. rewrite (ob_place _ _ _ _ _ _ _ _ _ HO), (ob_headers _ _ _ _ _ _ _ _ _ HO). reflexivity. }
      destruct Hm as [ps Hp Hps|Hp Hvb|Hp Hvb|t Hp Hvb Ht]; rewrite ?EL.
      + apply ER_bad; [|exact Hps]. apply HB. now rewrite Hp.
      + apply ER_silent; [|exact Hvb]. intros X. apply HB in X. destruct (ob_passed ob) as [[|]|]; congruence.
      + apply ER_text; [|exact Hvb]. intros X. apply HB in X. now rewrite Hp in X.
      + apply ER_text; [|exact Hvb]. intros X. apply HB in X. now rewrite Hp in X.
    - apply IH; [intros e' pl' H; exact (Hes e' pl' (or_intror H))|exact HF']. }
  assert (headed false name (List.concat mss) = if is_nil (List.concat mss) then [] else MFile name :: List.concat mss) as -> by (destruct (List.concat mss); reflexivity).
  now constructor.
Qed.

Lemma C63_empty_block_refuted_pf :
  exists w, wf_record w /\ w_block w = [] /\ judged ck_henv [] (block_digest w) VBad
  /\ fst (check_all (zl:=toy_z) 500 ck_henv 3 false (lit "u") 0 [(lit "f", raw_open (ex_text w) [])]) = Ok 0.
Proof.
exists (mk_wrc (lit "WARC/1.0") [(lit "WARC-Type", lit "resource"); (lit "WARC-Block-Digest", ck_digest (lit "other")); (lit "Content-Length", lit "0")] []).
split; [|split; [reflexivity|split; [|vm_compute; reflexivity]]].
- split; [cbn; auto|]. split; [repeat constructor; apply Thm_Iter.ex_hdr; vm_compute; reflexivity|]. split; [exact I|]. exists (lit "0"). split; vm_compute; reflexivity.
- assert (Hd : is_digest (ck_digest (lit "other")) (lit "sha1") (b32encode (ck_hash (lit "other")))).
  { split; [reflexivity|]. intros H. repeat (destruct H as [H|H]; [discriminate|]). destruct H. }
  apply (J_bad _ _ _ _ _ ck_hash (ck_hash (lit "other")) Hd eq_refl); [now left|reflexivity| |vm_compute; discriminate].
  vm_compute. repeat constructor.
Qed.

Lemma C63_uncaught_refuted_pf :
  exists w e, wf_record w /\ e <> ArchiveLoadFailed /\ e <> OutOfFuel
  /\ forall files, fst (check_all (zl:=toy_z) 500 ck_henv 3 false (lit "u") 0 ((lit "f", raw_open (ex_text w) []) :: files)) = Err e.
Proof.
exists (mk_wrc (lit "WARC/1.0") [(lit "WARC-Type", lit "resource"); (lit "WARC-Block-Digest", lit "sha1:AAAAAAAA1"); (lit "Content-Length", lit "1")] [65%N]).
eexists. split; [|split; [|split]].
4: intros files; vm_compute; reflexivity.
- split; [cbn; auto|]. split; [repeat constructor; apply Thm_Iter.ex_hdr; vm_compute; reflexivity|]. split; [exact I|]. exists (lit "1"). split; vm_compute; reflexivity.
- discriminate.
- discriminate.
Qed.
