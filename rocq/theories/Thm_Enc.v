(** * Thm_Enc: proofs of the theorems restated in Props_Enc.v *)
From Coq Require Import String List ZArith NArith Bool Lia.
From Verif Require Import PyBase Utf8 Codecs Headers Streams Loader Iterator Writer StreamSpec WriterSpec ChunkSpec DigestSpec IterSpec Cli CliSpec ReportSpec EncSpec AllSpec Toy.
Import ListNotations.
Open Scope Z_scope.

From Verif Require Import Facts HeaderSpec HeaderProofs StreamProofs BufProofs FillProofs CallProofs ChunkProofs Thm_Chunk DigestProofs WriterProofs IterProofs CliProofs TraceProofs CheckProofs ExtractProofs Thm_Buffered Thm_Iter Thm_Cli Thm_Tools.

(** one file: as C63_archives and C82_archives, or the fuel runs out *)
Notation fails := CliSpec.fails.
Lemma check_either {zl : zenv} fuel he M n verbose uuid files ess :
  archives unchunked zl fuel he (check_opts uuid) M files ess -> 64 <= M -> Forall (fun es => (List.length es < n)%nat) ess ->
  (forall es e pl, In es ess -> In (e, pl) es -> not_vacuous he e) ->
  forall ev, (ev = 0 \/ ev = 1) ->
  (exists ms, check_all (zl:=zl) fuel he n verbose uuid ev files = (Err OutOfFuel, ms))
  \/ exists v ms, check_all (zl:=zl) fuel he n verbose uuid ev files = (Ok v, ms)
    /\ (v = 0 \/ v = 1) /\ (ev = 1 -> v = 1)
    /\ ((exists es e pl, In es ess /\ In (e, pl) es /\ fails he e) -> v = 1)
    /\ ((forall es e pl, In es ess -> In (e, pl) es -> ~ fails he e) -> v = ev)
    /\ archives_report verbose he (map fst files) ess ms.
Proof.
  intros HA HM Hn Hv. induction HA as [|[name f] es files ess (data & sched & E & HG) HA IH]; intros ev Hev; cbn [check_all].
  - right. exists ev, []. split; [reflexivity|]. split; [exact Hev|]. split; [auto|]. split; [|split; [reflexivity|constructor]]. intros (es & _ & _ & [] & _).
  - cbn [snd] in E. subst f. specialize (IH (Forall_inv_tail Hn) (fun es e pl A => Hv es e pl (or_intror A))).
    destruct (check_loop fuel he n (check_opts uuid) verbose name false ev (iter_new (raw_open data sched) BUFF_SIZE None)) as [[x ev1] ms1] eqn:Ec.
    destruct (check_archive fuel he uuid M sched data es n verbose name ev x ev1 ms1 HG HM (Forall_inv Hn)) as [(-> & H1 & H2 & H3 & obs & F & Hs)|(-> & _)]; auto.
    { intros e pl He. apply (Hv es e pl (or_introl eq_refl) He). }
    2:{ left. eexists. reflexivity. }
    destruct (IH ev1) as [(ms & E)|(v & ms & E & V0 & V1 & V2 & V3 & HR)]; [destruct H3 as [-> | ->]; auto| |]; rewrite E.
    { left. eexists. reflexivity. }
    right. exists v, (ms1 ++ ms).
    split; [reflexivity|]. split; [exact V0|]. split; [|split; [|split]].
    + intros ->. apply V1. destruct H3; auto.
    + intros (es' & e & pl & [<- |Hi] & He & Hf); [apply V1, H1; eauto|apply V2; eauto 6].
    + intros Hall. rewrite V3; [apply H2; intros e pl; apply Hall; now left|]. intros es' e pl Hi. apply Hall. now right.
    + cbn [map fst]. destruct Hs as (mss & HF & ->).
      assert (HE : Forall2 (fun ep m => entry_report verbose he (fst ep) (snd ep) m) es mss).
      { assert (Hes : forall e pl, In (e, pl) es -> good_entry fuel he (check_opts uuid) M [] e /\ not_vacuous he e).
        { intros e [off len] He. split; [exact (proj1 (archive_entry _ _ _ _ _ _ _ _ _ _ _ _ HG He))|]. apply (Hv es e (off, len) (or_introl eq_refl) He). }
        clear - HF F Hes. revert mss HF. induction F as [|ob [e [off len]] obs es (us & _ & HO) F IH]; intros mss HF; inversion HF as [|? m ? mss' Hm HF']; subst; constructor.
        - cbn [fst snd] in *. destruct (Hes e (off, len) (or_introl eq_refl)) as [Hg Hvac]. pose proof (bad_fails fuel he uuid M e off len us ob Hg Hvac HO) as HB. unfold bad_ob in HB.
          assert (EL : record_line ob = entry_line e (off, len)).
          { unfold record_line, entry_line. rewrite (ob_place _ _ _ _ _ _ _ _ _ HO), (ob_headers _ _ _ _ _ _ _ _ _ HO). reflexivity. }
          destruct Hm as [ps Hp Hps|Hp Hvb|Hp Hvb|t Hp Hvb Ht]; rewrite ?EL.
          + apply ER_bad; [|exact Hps]. apply HB. now rewrite Hp.
          + apply ER_silent; [|exact Hvb]. intros X. apply HB in X. destruct (ob_passed ob) as [[|]|]; congruence.
          + apply ER_text; [|exact Hvb]. intros X. apply HB in X. now rewrite Hp in X.
          + apply ER_text; [|exact Hvb]. intros X. apply HB in X. now rewrite Hp in X.
        - apply IH; [intros e' pl' H; exact (Hes e' pl' (or_intror H))|exact HF']. }
      assert (headed false name (List.concat mss) = if is_nil (List.concat mss) then [] else MFile name :: List.concat mss) as -> by (destruct (List.concat mss); reflexivity).
      now constructor.
Qed.

Lemma ec_short : short_lines 200 (ec_head ++ ec_payload).
Proof.
  exists ec_head, ec_payload. split; [reflexivity|]. split.
  - exists [lit "HTTP/1.1 200 OK" ++ crlf; lit "Transfer-Encoding: chunked" ++ crlf], crlf. split; [reflexivity|]. split.
    + constructor; [|constructor; [|constructor]].
      * split; [exists (lit "HTTP/1.1 200 OK" ++ [13%N]); split; [cbn; intuition discriminate|reflexivity]|].
        intros H. specialize (H 72%N). discriminate H. left. reflexivity.
      * split; [exists (lit "Transfer-Encoding: chunked" ++ [13%N]); split; [cbn; intuition discriminate|reflexivity]|].
        intros H. specialize (H 84%N). discriminate H. left. reflexivity.
    + left. split; [exists [13%N]; split; [cbn; intuition discriminate|reflexivity]|].
      intros c Hc. vm_compute in Hc. intuition (subst; reflexivity).
  - intros p q E. apply Z.le_trans with (lenZ (ec_head ++ ec_payload)); [|vm_compute; discriminate].
    rewrite E, !lenZ_app. pose proof (take_drop_line q) as Ht. apply (f_equal lenZ) in Ht. rewrite lenZ_app in Ht.
    pose proof (lenZ_nonneg p). pose proof (lenZ_nonneg (drop_line q)). pose proof (lenZ_nonneg ec_payload). lia.
Qed.
Lemma ec_good_pf o good : lo_norec o = false -> lo_verify o = false -> lo_check o <> KRaise -> Forall (good_entry 500 ck_henv o 200 []) (ec_es good).
Proof.
  intros Hn Hv Hc.
  constructor; [|constructor]; unfold good_entry; cbn [e_rec e_text e_http e_payload]; rewrite Hn, Hv.
  split.
  { split; [cbn; auto|]. split; [repeat constructor; apply Thm_Iter.ex_hdr; destruct good; vm_compute; reflexivity|]. split.
    - split; [cbn; intuition discriminate|]. intros m E. discriminate.
    - exists (lit "59"). split; vm_compute; reflexivity. }
  split; [destruct good; (eexists; split; vm_compute; reflexivity)|].
  split; [eexists; split; vm_compute; reflexivity|]. split; [intros _ _; exact ec_short|].
  split.
  { right. split; [apply ck_ready_pf|]. left. split; [exact Hc|]. split.
    - assert (block_digest (ec_w good) = Some (ck_digest (if good then ec_head ++ ec_payload else lit "other"))) as -> by (destruct good; reflexivity).
      apply ck_judgeable.
    - assert (payload_digest (ec_w good) = None) as -> by reflexivity. intros d. exists VNone. constructor. }
  split; constructor.
Qed.
Lemma ec_archive_pf quiet o good : lo_norec o = false -> lo_verify o = false -> lo_check o <> KRaise ->
  good_archive quiet toy_z 500 ck_henv o 200 0 [] (texts (ec_es good)) (placed 0 (ec_es good)).
Proof.
  intros Hn Hv Hc. apply GA_plain; [exact toy_gz_magic_pf|split; [vm_compute; discriminate|exact Logic.I]|right; split; [reflexivity|vm_compute; discriminate]|lia| |now apply ec_good_pf].
  unfold enough. destruct good; vm_compute; lia.
Qed.
Lemma ec_check_pf : forall good,
  archives unchunked toy_z 500 ck_henv (check_opts (lit "u")) 200 [(lit "f", raw_open (texts (ec_es good)) [])] [placed 0 (ec_es good)]
  /\ (forall e pl, In (e, pl) (placed 0 (ec_es good)) -> not_vacuous ck_henv e /\ ~ plain_content (e_http e))
  /\ check_all (zl:=toy_z) 500 ck_henv 3 false (lit "u") 0 [(lit "f", raw_open (texts (ec_es good)) [])]
     = if good then (Ok 0, []) else (Ok 1, [MFile (lit "f"); MRecord 0 None (Some (lit "response")); MProblem PBlockFailed]).
Proof.
  intros good. split; [constructor; [|constructor]; eexists _, []; split; [reflexivity|]; apply ec_archive_pf; [reflexivity..|discriminate]|].
  split; [|destruct good; vm_compute; reflexivity]. intros e pl [[= <- _]|[]]; (split; [intros X; discriminate X|]). intros X.
  destruct (X _ eq_refl) as [Y _]. apply Y. vm_compute. reflexivity.
Qed.

Lemma C63_encoded_pf :
  forall (zl : zenv) (he : henv) (verbose : bool) (uuid : str) (files : list (str * raw)),
  (exists N, forall n fuel, (N <= n)%nat -> (N <= fuel)%nat -> fst (check_all (zl:=zl) fuel he n verbose uuid 0 files) <> Err OutOfFuel)
  /\ forall fuel M n ess x ms,
     archives unchunked zl fuel he (check_opts uuid) M files ess -> 64 <= M -> Forall (fun es => (List.length es < n)%nat) ess ->
     (forall es e pl, In es ess -> In (e, pl) es -> not_vacuous he e) ->
     check_all (zl:=zl) fuel he n verbose uuid 0 files = (x, ms) -> x <> Err OutOfFuel ->
     exists v, x = Ok v
       /\ ((exists es e pl, In es ess /\ In (e, pl) es /\ fails he e) -> v = 1)
       /\ ((forall es e pl, In es ess -> In (e, pl) es -> ~ fails he e) -> v = 0)
       /\ archives_report verbose he (map fst files) ess ms.
Proof.
intros zl he verbose uuid files. split.
- destruct (C80_check_ends_pf zl he verbose uuid files) as (x & ms & [N HN] & Hx). exists N. intros n fuel Hn Hf.
  rewrite (HN n fuel Hn Hf). cbn [fst]. intros ->. destruct Hx; discriminate.
- intros fuel M n ess x ms HA HM Hn Hv E Hx.
  destruct (check_either fuel he M n verbose uuid files ess HA HM Hn Hv 0 (or_introl eq_refl)) as [(ms' & E')|(v & ms' & E' & _ & _ & V2 & V3 & HR)];
    rewrite E in E'; injection E' as -> ->; [now destruct Hx|].
  exists v. repeat (split; [try reflexivity; assumption|]). exact HR.
Qed.

(** ** the stream of a record as a stream with a known content *)
Lemma first_record_gen {zl : zenv} quiet fuel he o M p sched data es e off len known :
  good_archive quiet zl fuel he o M p sched data es -> lo_ensure o = false -> known <> Some FArc -> hd_error es = Some (e, (off, len)) ->
  exists rc it0, iter_next (zl:=zl) fuel he o (iter_new (mk_raw data p sched) BUFF_SIZE known) = (Ok (Some rc), it0)
    /\ rc_http rc = e_http e
    /\ forall us, nonneg_ops us -> limited_lines M us -> (quiet e -> no_lines us) ->
       exists it1, user_ops fuel us it0 = (map Ok (mem_user us (e_payload e)), it1).
Proof.
  intros HG Ho Hk Hh. destruct es as [|x es]; [discriminate|]. injection Hh as ->.
  assert (A : forall us, nonneg_ops us -> limited_lines M us -> (quiet e -> no_lines us) -> exists rc it0 it1 ob,
     iter_next (zl:=zl) fuel he o (iter_new (mk_raw data p sched) BUFF_SIZE known) = (Ok (Some rc), it0)
     /\ user_ops fuel us it0 = (map Ok (mem_user us (e_payload e)), it1) /\ ob_record ob = rc
     /\ observed (zl:=zl) he o (e_rec e) (e_http e) (e_payload e) off len us ob).
  { intros us H1 H2 H3.
    destruct (archive_run quiet fuel he o M p sched data _ (fun i => match i with O => us | _ => [] end) known (Datatypes.S (List.length ((e, (off, len)) :: es))) HG Ho Hk ltac:(lia)) as (obs & E & Hl & Hob).
    { intros [|i]; [split; assumption|split; constructor]. }
    { intros [|i] e' pl' Hi Hq; [injection Hi as <- _; auto|constructor]. }
    destruct obs as [|ob obs]; [discriminate|]. specialize (Hob O e off len ob eq_refl eq_refl).
    cbn [run_iter] in E.
    destruct (iter_next fuel he o (iter_new (mk_raw data p sched) BUFF_SIZE known)) as [[[rc|]|ex] it0]; [|discriminate|discriminate].
    destruct (user_ops fuel us it0) as [xs it1] eqn:Eu. destruct (get_offset_length fuel it1) as [info it2].
    match type of E with (let (_, _) := ?r in _) = _ => destruct r as [os en] end. injection E as <- <- ->.
    pose proof (ob_data _ _ _ _ _ _ _ _ _ Hob) as D. cbn [ob_reads] in D. subst xs.
    eexists rc, it0, it1, _. split; [reflexivity|]. split; [exact Eu|]. split; [|exact Hob]. reflexivity. }
  destruct (A [] ltac:(constructor) ltac:(constructor) ltac:(constructor)) as (rc & it0 & _ & ob & E & _ & Er & Hob). exists rc, it0. split; [exact E|].
  split; [rewrite <- Er; exact (ob_http _ _ _ _ _ _ _ _ _ Hob)|].
  intros us H1 H2 H3. destruct (A us H1 H2 H3) as (rc' & it0' & it1 & ob' & E' & Hu & _). rewrite E in E'. injection E' as <- <-.
  exists it1. exact Hu.
Qed.

Section Content.
  Context {zl : zenv} (fuel : nat).
  Notation rops := (rops (zl:=zl) fuel).
  (** reads with a size that is not negative, and, if [ln], readline(k) with k <= 64 *)
  Definition okc (ln : bool) (c : call) : Prop :=
    match c with CRead n => nonneg n | CLine (Some k) => ln = true /\ 0 <= k <= 64 | CLine None => False end.
  Definition SR (ln : bool) (st : rstream (breader zl raw)) (c : bytes) : Prop :=
    enough fuel c /\ forall cs, Forall (okc ln) cs -> exists st', do_calls (rs_ops rops) cs st = (map Ok (fst (mem_calls cs c)), st').
  Lemma SR_fuel ln st c : SR ln st c -> (List.length c + 3 <= fuel)%nat.
  Proof. intros [H _]. exact H. Qed.
  Lemma SR_step ln st c x : SR ln st c -> okc ln x ->
    let out := match x with CRead n => read_of n c | CLine n => line_of n c end in
    exists st', do_call (rs_ops rops) x st = (Ok out, st') /\ SR ln st' (dropZ (lenZ out) c).
  Proof.
    intros [Hf H] Hx out. destruct (do_call (rs_ops rops) x st) as [r st'] eqn:E.
    assert (Hr : r = Ok out).
    { destruct (H [x] ltac:(repeat constructor; exact Hx)) as (st1 & E1). cbn [do_calls mem_calls] in E1. rewrite E in E1.
      cbn [fst map] in E1. injection E1 as -> _. reflexivity. }
    subst r. exists st'. split; [reflexivity|]. split; [now apply enough_drop|].
    intros cs Hcs. destruct (H (x :: cs) (Forall_cons x Hx Hcs)) as (st2 & E2). cbn [do_calls mem_calls] in E2. rewrite E in E2.
    fold out in E2. destruct (mem_calls cs (dropZ (lenZ out) c)) as [l rest]. destruct (do_calls (rs_ops rops) cs st') as [xs st3].
    cbn [fst map] in E2. injection E2 as -> ->. exists st2. reflexivity.
  Qed.
  Lemma SR_exact ln : exact_read (rs_ops rops) (SR ln).
  Proof.
    intros st c k HR Hk. destruct (SR_step ln st c (CRead (Some k)) HR ltac:(cbn; lia)) as (st' & E & HR').
    cbn [do_call] in E. unfold read_of in E, HR'. replace (k <? 0) with false in * by lia.
    exists st'. split; [exact E|]. now rewrite dropZ_len_takeZ in HR'.
  Qed.
  Lemma SR_line : short_line (rs_ops rops) (SR true).
  Proof.
    intros st c k HR Hk. destruct (SR_step true st c (CLine (Some k)) HR ltac:(cbn; lia)) as (st' & E & HR').
    cbn [do_call] in E. unfold line_of in E, HR'. replace (k <? 0) with false in * by lia. exists st'. split; [exact E|exact HR'].
  Qed.
  Lemma SR_delivers ln : delivers (rs_ops rops) (SR ln).
  Proof.
    intros st c k HR Hk. destruct (SR_exact ln st c k HR Hk) as (st' & E & HR').
    exists (takeZ k c), (dropZ k c), st'. split; [exact E|]. split; [exact HR'|]. split; [symmetry; apply takeZ_dropZ|].
    split; [rewrite lenZ_takeZ; lia|]. intros H. destruct c as [|a c]; [reflexivity|]. cbn [takeZ] in H. replace (0 <? k) with true in H by lia. discriminate.
  Qed.

  Lemma mem_user_calls cs : forall c, mem_user (map uop_of cs) c = fst (mem_calls cs c).
  Proof.
    induction cs as [|x cs IH]; intros c; [reflexivity|]. destruct x as [n|n]; cbn [map uop_of mem_user mem_calls]; rewrite IH;
      destruct (mem_calls cs _); reflexivity.
  Qed.
End Content.

(** the record at which extract starts has the content of its entry *)
Lemma record_content {zl : zenv} fuel he o M sched data es k e off len :
  good_archive unchunked zl fuel he o M 0 sched data es -> 64 <= M -> lo_ensure o = false -> nth_error es k = Some (e, (off, len)) ->
  exists rc it0, iter_next (zl:=zl) fuel he o (iter_new (seek_file data sched off) BUFF_SIZE None) = (Ok (Some rc), it0)
    /\ rc_http rc = e_http e /\ SR fuel false (rc_stream rc) (e_payload e)
    /\ (~ unchunked e -> SR fuel true (rc_stream rc) (e_payload e)).
Proof.
  intros HG HM Ho Hk. destruct (archive_seek _ _ _ _ _ _ _ _ _ _ _ _ HG Hk) as [HG' Hhd].
  destruct (first_record_gen unchunked fuel he o M off sched (dropZ off data) (skipn k es) e off len None HG' Ho ltac:(discriminate) Hhd) as (rc & it0 & En & Hh & Hus).
  destruct (iter_next_some fuel he _ _ rc it0 En) as (Hrec & _ & _). pose proof (next_reader fuel he _ _ rc it0 En) as Hrd.
  destruct (archive_entry _ _ _ _ _ _ _ _ _ _ _ _ HG (nth_error_In _ _ Hk)) as [Hge Hen].
  assert (Hpl : enough fuel (e_payload e)).
  { pose proof (entry_payload _ _ _ _ _ _ Hge) as HP. unfold enough, lenZ in *. lia. }
  exists rc, it0. split; [exact En|]. split; [exact Hh|].
  assert (K : forall ln cs, (ln = true -> ~ unchunked e) -> Forall (okc ln) cs ->
     exists st', do_calls (rs_ops (rops (zl:=zl) fuel)) cs (rc_stream rc) = (map Ok (fst (mem_calls cs (e_payload e))), st')).
  { intros ln cs Hln Hcs. destruct (do_calls (rs_ops (rops (zl:=zl) fuel)) cs (rc_stream rc)) as [xs st'] eqn:E.
    pose proof (trace_user fuel _ it0 rc xs st' Hrec Hrd E) as Hu.
    destruct (Hus (map uop_of cs)) as (it1 & Hu').
    - clear - Hcs. induction Hcs as [|x cs Hx _ IH]; constructor; [|exact IH]. destruct x as [n|[n|]]; cbn in *; [exact Hx|lia|contradiction].
    - clear - Hcs HM. induction Hcs as [|x cs Hx _ IH]; constructor; [|exact IH]. destruct x as [n|[n|]]; cbn in *; [exact Logic.I|exists n; split; [reflexivity|lia]|contradiction].
    - intros Hq. clear - Hcs Hln Hq. induction Hcs as [|x cs Hx _ IH]; constructor; [|exact IH]. destruct x as [n|[n|]]; cbn in *; [exact Logic.I|now apply (Hln (proj1 Hx))|contradiction].
    - rewrite Hu in Hu'. injection Hu' as -> _. exists st'. now rewrite mem_user_calls. }
  split; [split; [exact Hpl|intros cs; apply (K false); discriminate]|].
  intros Hu. split; [exact Hpl|]. intros cs. apply (K true). auto.
Qed.

Lemma encoding_get h t : encoding_is h t -> content_encoding h = Some t /\ sah_bool h = true.
Proof.
  intros H. assert (exists e, value_of (lit "content-encoding") (sh_headers h) = Some e
     /\ lower e = match t with Gzip => lit "gzip" | Deflate => lit "deflate" | DeflateAlt => lit "deflate_alt" end) as (e & He & Ee).
  { destruct t; destruct H as (e & He & Ee); exists e; auto. }
  destruct (value_get _ _ _ He) as [Ge Hbool]. split; [|exact Hbool]. unfold content_encoding. rewrite Ge.
  destruct e as [|x e]; [destruct t; discriminate|]. rewrite Ee. destruct t; reflexivity.
Qed.
Lemma not_chunked h : value_of (lit "transfer-encoding") (sh_headers h) <> Some (lit "chunked") -> is_chunked h = false.
Proof.
  intros H. unfold is_chunked. rewrite value_of_hget in H. unfold get_header.
  destruct (hget (lit "transfer-encoding") (sh_headers h)) as [v|]; [|reflexivity]. destruct (leqb v (lit "chunked")) eqn:E; [|reflexivity].
  apply leqb_eq in E. now rewrite E in H.
Qed.
Lemma yes_chunked h : declares h "transfer-encoding" "chunked" -> is_chunked h = true /\ sah_bool h = true.
Proof. intros H. destruct (value_get _ _ _ H) as [G B]. unfold is_chunked. rewrite G. split; [reflexivity|exact B]. Qed.

(** the content stream of a record, as a reader with the decoded content *)
Lemma content_reader {zl : zenv} fuel http payload content (st : rstream (breader zl raw)) :
  decodes zl http payload content -> enough fuel content -> SR fuel false st payload ->
  ((exists h, http = Some h /\ declares h "transfer-encoding" "chunked") -> SR fuel true st payload) ->
  (content_stream (zl:=zl) http st = CSraw st /\ content = payload)
  \/ exists b (I : breader zl (rstream (breader zl raw)) -> bytes -> Prop),
       content_stream (zl:=zl) http st = CSbuf b /\ I b content /\ fill_ok (rs_ops (rops (zl:=zl) fuel)) fuel 1 I.
Proof.
  intros HD Hc HS HT. destruct HD as [Hp ->|h -> Ht He Hw|h t fin -> Ht He Hz|h p q fin -> Ht He Ep Hlp Hp Hz|h t p q -> Ht He Ep Hlp Hp Hp2 Hcp|h t z fin -> Ht He Hw Hz].
  - left. split; [exact (plain_raw (zl:=zl) http Hp st)|reflexivity].
  - right. destruct (yes_chunked h Ht) as [C B]. pose proof (value_none _ _ He) as Ge.
    specialize (HT (ex_intro _ h (conj eq_refl Ht))).
    exists (ckr_new st BUFF_SIZE None false), (CI (rs_ops (rops (zl:=zl) fuel)) fuel (SR fuel true) false []).
    split; [unfold content_stream, content_encoding; rewrite B, C, Ge; reflexivity|]. split.
    + apply (CI_new (rs_ops (rops (zl:=zl) fuel)) fuel _ false [] st payload content BUFF_SIZE None HT); [reflexivity| |exact Hc].
      rewrite <- (app_nil_r payload). now apply yields_body.
    + apply CI_fill_ok; [apply exact_paired, SR_exact|apply SR_line|apply SR_fuel].
  - right. destruct (encoding_get h t He) as [Ge B].
    exists (br_new st BUFF_SIZE (Some t) None false), (BI (zl:=zl) (rs_ops (rops (zl:=zl) fuel)) fuel (SR fuel false) 1 true (match t with Gzip => true | _ => false end) (dun fin)).
    split; [unfold content_stream; rewrite B, (not_chunked h Ht), Ge; reflexivity|]. split.
    + apply (BI_member (rs_ops (rops (zl:=zl) fuel)) fuel _ 1 t st payload BUFF_SIZE None content fin HS); [reflexivity|exact Hz|left; lia|exact Hc].
    + apply BI_fill_ok; [apply SR_delivers|apply SR_fuel].
  - right. destruct (encoding_get h _ He) as [Ge B].
    exists (br_new st BUFF_SIZE (Some Deflate) None false), (BI (zl:=zl) (rs_ops (rops (zl:=zl) fuel)) fuel (SR fuel false) 1 true false (dun fin)).
    split; [unfold content_stream; rewrite B, (not_chunked h Ht), Ge; reflexivity|]. split.
    + apply (BI_detect (rs_ops (rops (zl:=zl) fuel)) fuel _ (SR_delivers fuel false) 1 true Deflate st payload BUFF_SIZE p q content (dun fin) HS); [reflexivity|exact Ep|exact Hp| | | |exact Hc].
      * intros d s' E. destruct (SR_exact fuel false st payload BUFF_SIZE HS eq_refl) as (s2 & E2 & _). rewrite E in E2. injection E2 as -> _.
        rewrite lenZ_takeZ by (unfold BUFF_SIZE; lia). rewrite Ep, lenZ_app. pose proof (lenZ_nonneg q). lia.
      * left. split; [reflexivity|]. split; [reflexivity|]. exists fin. split; [exact Hz|reflexivity].
      * left. lia.
    + apply BI_fill_ok; [apply SR_delivers|apply SR_fuel].
  - right. destruct (encoding_get h t He) as [Ge B]. subst content.
    exists (br_new st BUFF_SIZE (Some t) None false), (BI (zl:=zl) (rs_ops (rops (zl:=zl) fuel)) fuel (SR fuel false) 1 false (match t with Gzip => true | _ => false end) []).
    split; [unfold content_stream; rewrite B, (not_chunked h Ht), Ge; reflexivity|]. split.
    + exists payload, payload. split; [exact HS|]. split.
      { right. split; [reflexivity|]. split.
        - intros d (s' & E & Hd). cbn [br_new br_stream br_block] in E. exists t. cbn. repeat (split; [reflexivity|]).
          destruct (SR_exact fuel false st payload BUFF_SIZE HS eq_refl) as (s2 & E2 & _). cbn in E. cbn in E2. rewrite E in E2. injection E2 as Ed _.
          assert (exists r, d = p ++ r) as (r & ->).
          { exists (dropZ (lenZ p) d). rewrite <- (takeZ_dropZ (lenZ p) d) at 1. f_equal.
            rewrite Ed, Ep. rewrite takeZ_app_ge by exact Hlp. apply takeZ_app_exact. }
          split; [now apply zfeed_None_app|]. right. repeat split. intros Hd2. apply zfeed_None_app. auto.
        - intros E0. cbn in E0. rewrite E0 in Ep. symmetry in Ep. apply app_eq_nil in Ep as [-> _]. discriminate. }
      split; [reflexivity|]. split; [split; [reflexivity|exact Logic.I|reflexivity]|].
      split; [contradiction|]. split; [destruct t; auto; discriminate|]. split; [exact Hc|]. split; [apply Z.le_refl|]. left. apply Z.le_refl.
    + apply BI_fill_ok; [apply SR_delivers|apply SR_fuel].
  - right. destruct (yes_chunked h Ht) as [C B]. destruct (encoding_get h t He) as [Ge _].
    specialize (HT (ex_intro _ h (conj eq_refl Ht))).
    exists (ckr_new st BUFF_SIZE (Some t) false), (CI (rs_ops (rops (zl:=zl) fuel)) fuel (SR fuel true) false []).
    split; [unfold content_stream; rewrite B, C, Ge; reflexivity|]. split.
    + apply (CI_new (rs_ops (rops (zl:=zl) fuel)) fuel _ false [] st payload content BUFF_SIZE (Some t) HT); [reflexivity| |exact Hc].
      rewrite <- (app_nil_r payload). now apply (yields_zbody false [] payload z t content fin).
    + apply CI_fill_ok; [apply exact_paired, SR_exact|apply SR_line|apply SR_fuel].
Qed.
Lemma copy_buf {zl : zenv} fuel I n : fill_ok (rs_ops (rops (zl:=zl) fuel)) fuel 1 I -> forall b c, I b c -> (List.length c < n)%nat ->
  exists ws, copy_content (zl:=zl) fuel n (CSbuf b) = (Ok tt, ws) /\ List.concat ws = c.
Proof.
  intros HF. induction n as [|n IH]; intros b c HI Hn; [lia|]. cbn [copy_content cs_read].
  destruct (br_exact_read (rs_ops (rops (zl:=zl) fuel)) fuel 1 I HF b c READ_SIZE HI ltac:(reflexivity)) as (b' & E & HI').
  cbn [br_ops o_read] in E. rewrite E. pose proof (takeZ_dropZ READ_SIZE c) as Hsp.
  destruct (takeZ READ_SIZE c) as [|x t] eqn:Et.
  - exists []. split; [reflexivity|]. destruct c as [|y c]; [reflexivity|]. cbn in Et. discriminate.
  - destruct (IH b' (dropZ READ_SIZE c) HI') as (ws & Ec & Hw).
    { apply (f_equal (@List.length N)) in Hsp. rewrite app_length in Hsp. cbn [List.length] in Hsp. lia. }
    rewrite Ec. exists ((x :: t) :: ws). split; [reflexivity|]. cbn [List.concat]. now rewrite Hw.
Qed.
Lemma copy_SR {zl : zenv} fuel n : forall st c, SR (zl:=zl) fuel false st c -> (List.length c < n)%nat ->
  exists ws, copy_content (zl:=zl) fuel n (CSraw st) = (Ok tt, ws) /\ List.concat ws = c.
Proof.
  induction n as [|n IH]; intros st c HI Hn; [lia|]. cbn [copy_content cs_read].
  destruct (SR_exact fuel false st c READ_SIZE HI ltac:(reflexivity)) as (st' & E & HI').
  cbn [rs_ops o_read] in E. rewrite E. pose proof (takeZ_dropZ READ_SIZE c) as Hsp.
  destruct (takeZ READ_SIZE c) as [|x t] eqn:Et.
  - exists []. split; [reflexivity|]. destruct c as [|y c]; [reflexivity|]. cbn in Et. discriminate.
  - destruct (IH st' (dropZ READ_SIZE c) HI') as (ws & Ec & Hw).
    { apply (f_equal (@List.length N)) in Hsp. rewrite app_length in Hsp. cbn [List.length] in Hsp. lia. }
    rewrite Ec. exists ((x :: t) :: ws). split; [reflexivity|]. cbn [List.concat]. now rewrite Hw.
Qed.
Lemma chunked_dec e : (exists h, e_http e = Some h /\ declares h "transfer-encoding" "chunked") -> ~ unchunked e.
Proof. intros (h & E & D) H. now apply (H h E). Qed.

Lemma ec_chunked : chunked_body ec_payload (lit "hi").
Proof.
  exists (lit "2" ++ [13;10]%N ++ lit "hi" ++ [13;10]%N), (lit "0" ++ [13;10]%N). split; [reflexivity|]. split.
  - apply (chunks_cons (lit "2" ++ [13;10]%N) (lit "hi") [] []); [|discriminate|cbn; lia|constructor].
    exists (lit "2"), []. repeat split; try reflexivity; try (cbn; lia); [apply (hn_one 50%N 2); reflexivity|now left].
  - exists (lit "0"), []. repeat split; try reflexivity; try (cbn; lia); [apply (hn_one 48%N 0); reflexivity|now left].
Qed.

Lemma C61_payload_encoded_pf :
  forall (zl : zenv) fuel he uuid M sched data es k e off len content,
  good_archive unchunked zl fuel he (extract_opts uuid) M 0 sched data es -> 64 <= M -> nth_error es k = Some (e, (off, len)) ->
  decodes zl (e_http e) (e_payload e) content -> enough fuel content ->
  exists ws, extract (zl:=zl) fuel he uuid true false (seek_file data sched off) = (XOk, ws) /\ concat ws = content.
Proof.
intros zl fuel he uuid M sched data es k e off len content HG HM Hk HD Hc.
destruct (record_content fuel he (extract_opts uuid) M sched data es k e off len HG HM eq_refl Hk) as (rc & it0 & En & Hh & HS & HT).
unfold extract. rewrite En, Hh.
destruct (content_reader fuel (e_http e) (e_payload e) content (rc_stream rc) HD Hc HS (fun X => HT (chunked_dec e X))) as [[-> ->]|(b & I & -> & HI & HF)].
- destruct (copy_SR fuel fuel (rc_stream rc) (e_payload e) HS) as (ws & E & Hw); [unfold enough in Hc; lia|]. exists ws. rewrite E. split; [reflexivity|exact Hw].
- destruct (copy_buf fuel I fuel HF b content HI) as (ws & E & Hw); [unfold enough in Hc; lia|]. exists ws. rewrite E. split; [reflexivity|exact Hw].
Qed.

Lemma C15_archive_pf :
  forall (zl : zenv) fuel he o M sched data es k e off len content calls,
  good_archive unchunked zl fuel he o M 0 sched data es -> 64 <= M -> lo_ensure o = false -> nth_error es k = Some (e, (off, len)) ->
  decodes zl (e_http e) (e_payload e) content -> enough fuel content -> ~ plain_content (e_http e) ->
  nonneg_calls calls -> full_lines calls ->
  exists rc it, iter_next (zl:=zl) fuel he o (iter_new (seek_file data sched off) BUFF_SIZE None) = (Ok (Some rc), it)
    /\ rc_http rc = e_http e
    /\ fst (run_calls (cs_ops (rops (zl:=zl) fuel) fuel) calls (content_stream (zl:=zl) (rc_http rc) (rc_stream rc)))
       = map Ok (fst (mem_calls calls content)).
Proof.
intros zl fuel he o M sched data es k e off len content calls HG HM Ho Hk HD Hc Hnp Hn Hl.
destruct (record_content fuel he o M sched data es k e off len HG HM Ho Hk) as (rc & it0 & En & Hh & HS & HT).
exists rc, it0. split; [exact En|]. split; [exact Hh|]. rewrite Hh.
assert (Hno : content_stream (zl:=zl) (e_http e) (rc_stream rc) <> CSraw (rc_stream rc)).
{ unfold content_stream. destruct HD as [Hp|h E Ht _ _|h t fin E Ht He _|h p q fin E Ht He _ _ _ _|h t p q E Ht He _ _ _ _ _|h t z fin E Ht _ _ _]; [contradiction| | | | |]; rewrite E;
    try (destruct (yes_chunked h Ht) as [C B]; rewrite B, C; discriminate);
    destruct (encoding_get h _ He) as [Ge B]; rewrite B, (not_chunked h Ht), Ge; discriminate. }
destruct (content_reader fuel (e_http e) (e_payload e) content (rc_stream rc) HD Hc HS (fun X => HT (chunked_dec e X))) as [[Hcs _]|(b & I & -> & HI & HF)]; [contradiction|].
rewrite cs_calls. destruct (run_calls_mem _ _ _ (br_mem_like (rs_ops (rops (zl:=zl) fuel)) fuel 1 I HF) calls _ _ HI (plain_br_call _ Hn Hl)) as (b' & -> & _). reflexivity.
Qed.

Lemma C15_members_refuted_pf :
  exists h payload content fuel,
  declares_ci h "content-encoding" "gzip" /\ value_of (lit "transfer-encoding") (sh_headers h) = None
  /\ members toy_z true payload content /\ enough fuel payload
  /\ exists part, content <> part
     /\ fst (run_calls (cs_ops raw_ops fuel) [CRead None; CRead None; CRead None]
          (content_stream (zl:=toy_z) (Some h) (RSlim (lim_new (raw_open payload []) (lenZ payload))))) = [Ok part; Ok []; Ok []].
Proof.
exists (mk_sah (lit "200 OK") [(lit "Content-Encoding", lit "gzip")] (lit "HTTP/1.1") 0 None),
  (toy_gz (lit "abc") ++ toy_gz (lit "xyz") ++ []), (lit "abc" ++ lit "xyz" ++ []), 60%nat.
split; [eexists; split; reflexivity|]. split; [reflexivity|]. split; [repeat constructor; discriminate|].
split; [unfold enough; cbn; lia|]. exists (lit "abc"). split; [discriminate|]. vm_compute. reflexivity.
Qed.
