(** * Thm_Rewrite: proofs of the theorems restated in Props_Rewrite.v *)
From Coq Require Import String List ZArith NArith Bool Lia.
From Coq Require Import ZifyBool ZifyNat ZifyN.
From Verif Require Import PyBase Utf8 Codecs Headers HeaderSpec Streams StreamSpec DigestSpec Loader Iterator Writer WriterSpec IterSpec RoundSpec AllSpec Cli CliSpec RewriteSpec Toy.
Import ListNotations.
Open Scope Z_scope.

From Verif Require Import Facts HeaderProofs FillProofs WriterProofs IterProofs GzProofs RoundProofs CliProofs TraceProofs CheckProofs ExtractProofs RewriteProofs DigestProofs AllSpec Thm_All Thm_Iter Thm_Round Thm_Cli.

(** examples: the archive of the examples for the command line tools, with a right digest *)
Definition ex_list : list entry := Thm_Cli.ex_es true.
Definition ex_data : bytes := texts ex_list.

Lemma good_entry_opts fuel he o o' M e : good_entry fuel he o M [] e -> lo_norec o' = lo_norec o -> lo_verify o' = lo_verify o ->
  digests_ready he o' (e_rec e) (e_payload e) -> good_entry fuel he o' M [] e.
Proof.
  intros (A & B & C & D & _ & F & G) H1 H2 H3. split; [exact A|]. split; [exact B|]. rewrite H1, H2. repeat (split; [assumption|]). exact G.
Qed.
Lemma good_archive_opts quiet zl fuel he o o' M p sched data es : good_archive quiet zl fuel he o M p sched data es -> lo_norec o' = lo_norec o -> lo_verify o' = lo_verify o ->
  (forall e, In e (map fst es) -> digests_ready he o' (e_rec e) (e_payload e)) -> good_archive quiet zl fuel he o' M p sched data es.
Proof.
  intros H H1 H2 H3. destruct H as [l Hz Hf Hr HM Hfu Hg|ms Hne HM Hfit Hfu Hg]; constructor; auto.
  - assert (Hi : forall e, In e l -> In e (map fst (placed p l))).
    { clear. revert p. induction l as [|a l IH]; intros p e H; [contradiction|]. cbn. destruct H as [->|H]; auto. }
    rewrite Forall_forall in *. intros e He. apply (good_entry_opts fuel he o); auto.
  - assert (Hi : forall x, In x ms -> In (fst x) (map fst (placed_gz p ms))).
    { clear. revert p. induction ms as [|[a m] l IH]; intros p x H; [contradiction|]. cbn. destruct H as [<-|H]; auto. }
    rewrite Forall_forall in *. intros x Hx. destruct (Hg x Hx) as (A & B & C). split; [|now split]. apply (good_entry_opts fuel he o); auto.
Qed.

(** reading back a record-compressed file *)
Lemma read_back {zl : zenv} fuel he o M es ms n :
  Forall (good_entry fuel he o M []) es -> compressed zl es ms -> back_fits zl fuel es ms -> lo_ensure o = false -> 0 <= M ->
  es <> [] -> (List.length es < n)%nat ->
  exists obs, run_iter (zl:=zl) fuel he o n (fun _ => [URead None]) 0 (iter_new (raw_open (concat ms) []) BUFF_SIZE None) = (obs, EndStop)
    /\ Forall2 (fun e ob => exists off len, observed he o (e_rec e) (e_http e) (e_payload e) off len [URead None] ob) es obs.
Proof.
  intros Hg Hc (F1 & F2 & F3) Ho HM Hne Hn.
  assert (exists ems, map fst ems = es /\ map snd ems = ms /\ forall e m, In (e, m) ems -> is_member zl m (e_text e) /\ member_fit zl BUFF_SIZE True e m) as (ems & Ee & Em & Hmem).
  { clear - Hc F3. revert F3. induction Hc as [|e m es ms H _ IH]; intros F3; [exists []; repeat split; auto; contradiction|].
    inversion F3 as [|? ? ? ? F4 F5]; subst. destruct (IH F5) as (ems & A & B & C).
    exists ((e, m) :: ems). split; [cbn; congruence|]. split; [cbn; congruence|]. intros e' m' [[= <- <-]|H']; auto. }
  rewrite Forall_forall in Hg, F2.
  assert (Hin : forall e m, In (e, m) ems -> In e es /\ In m ms).
  { intros e m H. split; [rewrite <- Ee; apply (in_map fst _ _ H)|rewrite <- Em; apply (in_map snd _ _ H)]. }
  destruct (gz_archive (zl:=zl) fuel he o M (fun _ => [URead None]) 0 ems [] BUFF_SIZE None n) as (obs & E & Hl & Hob); auto.
  - intros ->. cbn in Ee. congruence.
  - right. split; [reflexivity|]. intros i e m H. destruct (proj2 (Hmem e m (nth_error_In _ _ H))) as [X|(_ & X)]; [now left|right]. split; [repeat constructor|exact X].
  - reflexivity.
  - unfold gz_data. now rewrite Em.
  - intros e m H. apply F2. now apply (Hin e m).
  - intros i e m H. apply nth_error_In in H. split; [|now apply Hmem]. apply good_entry_reads; [apply Hg; now apply (Hin e m)|repeat constructor..].
  - discriminate.
  - rewrite <- Ee, map_length in Hn. exact Hn.
  - unfold gz_data in E. rewrite Em in E. exists obs. split; [exact E|]. rewrite <- Ee. clear - Hl Hob.
    apply Forall2_nth_build; [now rewrite map_length|]. intros i e ob H1 H2. rewrite nth_error_map in H1.
    destruct (nth_error ems i) as [[e' m]|] eqn:En; [|discriminate]. injection H1 as <-. eexists _, _. exact (Hob i e' m ob En H2).
Qed.

(** recompressing an archive of rewritable records *)
Lemma recompress_archive {zl : zenv} fuel he k sha1 uuid M data es n size :
  gzip_codec zl k -> hash_bytes sha1 ->
  good_archive every zl fuel he (recompress_opts uuid) M 0 [] data es -> Forall (fun x => rewritable fuel M false (fst x)) es -> (List.length es < n)%nat ->
  exists es' ms, recompress (zl:=zl) fuel he n sha1 k uuid size data = RcOk (List.length es) false (concat ms)
    /\ Forall2 (fun x e' => rewritten sha1 (fst x) e') es es' /\ compressed zl es' ms
    /\ forall he' o', lo_norec o' = false -> lo_verify o' = false -> (forall e', In e' es' -> digests_ready he' o' (e_rec e') (e_payload e')) -> Forall (good_entry fuel he' o' M []) es'.
Proof.
  intros Hz Hsha HG Hrw Hn.
  destruct (copy_archive fuel he (recompress_opts uuid) M [] data es n sha1 k (lit "WARC/1.0") true HG eq_refl eq_refl Hsha Hrw Hn)
    as (es' & wss & E & F1 & F2).
  exists es', (map (@concat N) wss). split; [|split; [|split]].
  - unfold recompress, load_and_write. change (raw_open data []) with (mk_raw data 0 []). rewrite E. f_equal.
    clear. induction wss as [|w wss IH]; [reflexivity|]. cbn [concat map]. rewrite concat_app. now f_equal.
  - clear - F1. induction F1 as [|x e' es es' [H _] _ IH]; constructor; auto.
  - clear - F2 Hz. unfold compressed. induction F2 as [|e' ws es' wss (w0 & E0 & ->) _ IH]; cbn [map]; constructor; [rewrite <- E0, gz_writes_deflated; apply Hz|exact IH].
  - intros he' o' H1 H2 H3. clear - F1 H1 H2 H3. induction F1 as [|x e' es es' [_ H] _ IH]; constructor; [|apply IH; intros; apply H3; now right].
    apply H; [exact H1|rewrite H2; reflexivity|]. apply H3. now left.
Qed.

Lemma rewritten_back {zl : zenv} sha1 he o e e' off len (ob : @obs zl) : rewritten sha1 e e' ->
  observed he o (e_rec e') (e_http e') (e_payload e') off len [URead None] ob -> comes_back sha1 e ob.
Proof.
  intros [R1 R2 R3 R4 (hb & R5 & R6)] H. constructor.
  - now rewrite (ob_version _ _ _ _ _ _ _ _ _ H).
  - rewrite (ob_type _ _ _ _ _ _ _ _ _ H). apply (hk_values _ _ _ _ _ _ R2). intros [X|[X|[X|X]]]; apply name_eq_spec in X; discriminate X.
  - now rewrite (ob_http _ _ _ _ _ _ _ _ _ H).
  - rewrite (ob_data _ _ _ _ _ _ _ _ _ H). cbn [mem_user map]. now rewrite R4.
  - exists hb. split; [exact R5|]. rewrite (ob_headers _ _ _ _ _ _ _ _ _ H). rewrite R6, R4 in R2. exact R2.
Qed.
Lemma Forall2_trans' {A B C} (P : A -> B -> Prop) (Q : B -> C -> Prop) l1 l2 l3 : Forall2 P l1 l2 -> Forall2 Q l2 l3 -> Forall2 (fun a c => exists b, P a b /\ Q b c) l1 l3.
Proof. intros H. revert l3. induction H as [|a b l1 l2 H _ IH]; intros l3 H3; inversion H3; subst; constructor; eauto. Qed.

Lemma http_block_fun o b b' : http_block None o b -> http_block None o b' -> b = b'.
Proof. unfold http_block. destruct o as [h|]; [destruct (sah_bool h)|]; congruence. Qed.

(** digests of a rewritten record *)
Section Dig.
  Context (he : henv) (sha1 : bytes -> bytes).
  Hypothesis Hh : henv_ok he.
  Hypothesis Hs : he (lit "sha1") = Some sha1.
  Variables (e e' : entry).
  Hypothesis Hr : rewritten sha1 e e'.
  Hypothesis Hst : digest_stable e.

  Lemma stable_block : w_block (e_rec e') = w_block (e_rec e) \/ w_value "WARC-Block-Digest" (e_rec e) = None.
  Proof.
    destruct Hst as [(hb & H1 & H2)|H]; [left|now right]. destruct (re_block _ _ _ Hr) as (hb' & H3 & ->).
    now rewrite (http_block_fun _ _ _ H3 H1).
  Qed.
  Lemma value_same n : ~ set_by_writer (lit n) -> w_value n (e_rec e') = w_value n (e_rec e).
  Proof. intros H. exact (hk_values _ _ _ _ _ _ (re_headers _ _ _ Hr) (lit n) H). Qed.
  Lemma type_same : w_value "WARC-Type" (e_rec e') = w_value "WARC-Type" (e_rec e).
  Proof. apply value_same. intros [X|[X|[X|X]]]; apply name_eq_spec in X; discriminate X. Qed.
  Lemma seg_same : w_value "WARC-Segment-Number" (e_rec e') = w_value "WARC-Segment-Number" (e_rec e).
  Proof. apply value_same. intros [X|[X|[X|X]]]; apply name_eq_spec in X; discriminate X. Qed.

  (** the same digest, or a fresh one where there was none *)
  Lemma block_digest_case : (w_block (e_rec e') = w_block (e_rec e) /\ block_digest (e_rec e') = block_digest (e_rec e))
    \/ (block_digest (e_rec e) = None /\ (block_digest (e_rec e') = None \/ block_digest (e_rec e') = Some (sha1_text sha1 (w_block (e_rec e'))))).
  Proof.
    pose proof (hk_block _ _ _ _ _ _ (re_headers _ _ _ Hr)) as K. unfold digest_kept in K.
    change (value_of (lit "WARC-Block-Digest") (w_headers (e_rec e))) with (w_value "WARC-Block-Digest" (e_rec e)) in K.
    change (value_of (lit "WARC-Block-Digest") (w_headers (e_rec e'))) with (w_value "WARC-Block-Digest" (e_rec e')) in K.
    unfold block_digest. rewrite type_same. destruct (w_value "WARC-Block-Digest" (e_rec e)) as [d|] eqn:E.
    - left. destruct stable_block as [H|H]; [|congruence]. now rewrite K.
    - right. rewrite K. unfold eff_block. destruct (w_value "WARC-Type" (e_rec e)) as [t|]; [destruct (leqb t (lit "revisit"))|]; auto.
  Qed.
  Lemma payload_digest_case : payload_digest (e_rec e') = payload_digest (e_rec e)
    \/ (payload_digest (e_rec e) = None /\ payload_digest (e_rec e') = Some (sha1_text sha1 (e_payload e'))).
  Proof.
    pose proof (hk_payload _ _ _ _ _ _ (re_headers _ _ _ Hr)) as K. unfold digest_kept in K.
    change (value_of (lit "WARC-Payload-Digest") (w_headers (e_rec e))) with (w_value "WARC-Payload-Digest" (e_rec e)) in K.
    change (value_of (lit "WARC-Payload-Digest") (w_headers (e_rec e'))) with (w_value "WARC-Payload-Digest" (e_rec e')) in K.
    unfold payload_digest. rewrite type_same, seg_same. destruct (w_value "WARC-Payload-Digest" (e_rec e)) as [d|] eqn:E; [left; now rewrite K|].
    rewrite K. unfold eff_payload, eff_block. destruct (w_value "WARC-Segment-Number" (e_rec e)); [now left|].
    destruct (w_value "WARC-Type" (e_rec e)) as [t|]; [|now right]. destruct (leqb t (lit "revisit")); [now left|].
    rewrite orb_false_r. destruct (leqb t (lit "warcinfo")); [now left|now right].
  Qed.
  Lemma fresh_not_bad x : ~ judged he x (Some (sha1_text sha1 x)) VBad.
  Proof. intros H. pose proof (judged_fun he x _ _ _ Hh H (fresh_judged he sha1 x Hs)). discriminate. Qed.
  Lemma none_not_bad x : ~ judged he x None VBad.
  Proof. intros H. inversion H. Qed.

  Lemma fails_same : fails he e' <-> fails he e.
  Proof.
    unfold fails. rewrite (re_payload _ _ _ Hr). pose proof (re_payload _ _ _ Hr) as Rp.
    assert (B : (w_block (e_rec e') <> [] /\ judged he (w_block (e_rec e')) (block_digest (e_rec e')) VBad)
                <-> (w_block (e_rec e) <> [] /\ judged he (w_block (e_rec e)) (block_digest (e_rec e)) VBad)).
    { destruct block_digest_case as [[-> ->]|[-> [-> | ->]]]; [reflexivity|split; intros [_ H]; exfalso; revert H; apply none_not_bad|].
      split; intros [_ H]; exfalso; revert H; [apply fresh_not_bad|apply none_not_bad]. }
    assert (P : judged he (e_payload e) (payload_digest (e_rec e')) VBad <-> judged he (e_payload e) (payload_digest (e_rec e)) VBad).
    { destruct payload_digest_case as [->|[-> ->]]; [reflexivity|]. rewrite Rp. split; intros H; exfalso; revert H; [apply fresh_not_bad|apply none_not_bad]. }
    now rewrite B, P.
  Qed.
  Lemma judge_same : judge_ok he e -> judge_ok he e'.
  Proof.
    intros (A & B & C). split; [|split].
    - destruct block_digest_case as [[_ ->]|[_ [-> | ->]]]; [exact A|intros x; exists VNone; constructor|now apply fresh_judgeable].
    - destruct payload_digest_case as [->|[_ ->]]; [exact B|now apply fresh_judgeable].
    - unfold not_vacuous in *. destruct block_digest_case as [[-> ->]|[_ [-> | ->]]]; [exact C|intros _; apply none_not_bad|].
      intros ->. apply fresh_not_bad.
  Qed.
End Dig.

Lemma ck_hash_bytes : hash_bytes ck_hash.
Proof. intros b. unfold ck_hash, toy_hash. repeat (constructor; [apply N.mod_lt; discriminate || reflexivity|]). repeat constructor; try (apply N.mod_lt; discriminate). Qed.
Lemma ex_rewritable : Forall (rewritable 500 200 false) ex_list.
Proof.
  constructor; [|constructor; [|constructor]].
  - constructor; [apply Nat.leb_le; vm_compute; reflexivity|intros X; vm_compute in X; discriminate X|left].
    exists (lit "HTTP/1.1 200 OK" ++ crlf ++ lit "A: b" ++ crlf ++ crlf). split; vm_compute; reflexivity.
  - constructor; [apply Nat.leb_le; vm_compute; reflexivity|intros X; vm_compute in X; discriminate X|left].
    exists []. split; vm_compute; reflexivity.
Qed.
Lemma ex_judge : Forall (judge_ok ck_henv) ex_list.
Proof.
  constructor; [|constructor; [|constructor]].
  - split; [exact (ck_judgeable Thm_Cli.ex_block)|]. split; [intros x; exists VNone; constructor|]. intros X. vm_compute in X. discriminate X.
  - split; [intros x; exists VNone; constructor|]. split; [intros x; exists VNone; constructor|]. intros X. vm_compute in X. discriminate X.
Qed.
Lemma ex_rewrite_pf : gzip_codec toy_z toy_k /\ hash_bytes ck_hash /\ henv_ok ck_henv
  /\ good_archive every toy_z 500 ck_henv (recompress_opts (lit "u")) 200 0 [] ex_data (placed 0 ex_list)
  /\ good_archive every toy_z 500 ck_henv (check_opts (lit "u")) 200 0 [] ex_data (placed 0 ex_list)
  /\ Forall (fun x => rewritable 500 200 false (fst x)) (placed 0 ex_list)
  /\ Forall (fun x => digest_stable (fst x) /\ judge_ok ck_henv (fst x)) (placed 0 ex_list).
Proof.
  split; [exact Thm_Round.toy_codec_pf|]. split; [exact ck_hash_bytes|]. split; [exact (proj1 Thm_Iter.ck_ready_pf)|].
  split; [apply Thm_Cli.ex_archive_pf; [reflexivity..|discriminate]|]. split; [apply Thm_Cli.ex_archive_pf; [reflexivity..|discriminate]|].
  assert (A : forall P : entry -> Prop, Forall P ex_list -> Forall (fun x => P (fst x)) (placed 0 ex_list)).
  { intros P H. inversion H as [|? ? H1 H2]; subst. inversion H2 as [|? ? H3 H4]; subst. constructor; [exact H1|constructor; [exact H3|constructor]]. }
  split; [apply (A (rewritable 500 200 false)), ex_rewritable|].
  apply (A (fun e => digest_stable e /\ judge_ok ck_henv e)). pose proof ex_judge as J. inversion J as [|? ? J1 J2]; subst. inversion J2 as [|? ? J3 J4]; subst.
  constructor; [split; [left; exists (lit "HTTP/1.1 200 OK" ++ crlf ++ lit "A: b" ++ crlf ++ crlf); split; vm_compute; reflexivity|exact J1]|].
  constructor; [split; [left; exists []; split; vm_compute; reflexivity|exact J3]|constructor].
Qed.
Lemma ex_fix_pf : is_member toy_z (toy_gz ex_data) (texts ex_list) /\ lenZ (toy_gz ex_data) <= BUFF_SIZE
  /\ Forall (fun e => good_entry 500 ck_henv (recompress_opts (lit "u")) 200 [] e /\ rewritable 500 200 false e) ex_list
  /\ match recompress (zl:=toy_z) 1200 ck_henv 5 ck_hash toy_k (lit "u") 100 (toy_gz ex_data) with RcOk 2 true _ => True | _ => False end.
Proof.
  split; [vm_compute; reflexivity|]. split; [vm_compute; discriminate|]. split; [|vm_compute; exact I].
  pose proof ex_rewritable as R. pose proof (Thm_Cli.ex_good_pf (recompress_opts (lit "u")) true eq_refl eq_refl ltac:(discriminate)) as G.
  apply Forall_forall. intros e He. rewrite Forall_forall in R, G. split; [now apply G|now apply R].
Qed.

Lemma C62_recompress_partial_pf :
  forall (zl : zenv) fuel he k sha1 uuid M data es n size,
  gzip_codec zl k -> hash_bytes sha1 -> 0 <= M ->
  good_archive every zl fuel he (recompress_opts uuid) M 0 [] data es ->
  Forall (fun x => rewritable fuel M false (fst x)) es -> (List.length es < n)%nat ->
  exists es' ms, recompress (zl:=zl) fuel he n sha1 k uuid size data = RcOk (List.length es) false (concat ms)
    /\ Forall2 (fun x e' => rewritten sha1 (fst x) e') es es'
    /\ compressed zl es' ms
    /\ (es <> [] -> back_fits zl fuel es' ms -> forall o n',
          lo_norec o = false -> lo_verify o = false -> digests_off o -> (List.length es < n')%nat ->
          exists obs, run_iter (zl:=zl) fuel he o n' (fun _ => [URead None]) 0 (iter_new (raw_open (concat ms) []) BUFF_SIZE None) = (obs, EndStop)
            /\ Forall2 (fun x ob => comes_back sha1 (fst x) ob) es obs).
Proof.
intros zl fuel he k sha1 uuid M data es n size Hz Hsha HM HG Hrw Hn.
destruct (recompress_archive fuel he k sha1 uuid M data es n size Hz Hsha HG Hrw Hn) as (es' & ms & E & F1 & F2 & F3).
exists es', ms. split; [exact E|]. split; [exact F1|]. split; [exact F2|].
intros Hne Hfit o n' Ho1 Ho2 [Ho3 Ho4] Hn'.
assert (Hl : List.length es = List.length es') by (clear - F1; induction F1; cbn; auto).
assert (Hge : Forall (good_entry fuel he o M []) es') by (apply F3; [exact Ho1|exact Ho2|]; intros e' _; now left).
destruct (read_back (zl:=zl) fuel he o M es' ms n' Hge F2 Hfit Ho4 HM) as (obs & Er & HF); [|now rewrite <- Hl|].
{ intros ->. destruct es; [contradiction|discriminate]. }
exists obs. split; [exact Er|]. pose proof (Forall2_trans' _ _ _ _ _ F1 HF) as G. clear - G.
induction G as [|x ob es obs (e' & R & off & len & H) _ IH]; constructor; [|exact IH]. eapply rewritten_back; eauto.
Qed.

Lemma C62_fix_partial_pf :
  forall (zl : zenv) fuel he k sha1 uuid M size (ms : list (entry * bytes)) m l n,
  gzip_codec zl k -> gz_magic zl -> hash_bytes sha1 -> 0 <= M <= BUFF_SIZE -> 0 < size ->
  (2 <= List.length l)%nat -> is_member zl m (texts l) ->
  Forall (fun x => is_member zl (snd x) (e_text (fst x))) ms -> lenZ (gz_data ms ++ m) <= BUFF_SIZE ->
  enough fuel (gz_data ms ++ m) -> enough fuel (texts (map fst ms ++ l)) ->
  Forall (fun e => good_entry fuel he (recompress_opts uuid) M [] e /\ rewritable fuel M false e) (map fst ms ++ l) ->
  (List.length ms + List.length l < n)%nat ->
  exists es' outs, recompress (zl:=zl) fuel he n sha1 k uuid size (gz_data ms ++ m) = RcOk (List.length ms + List.length l) true (concat outs)
    /\ Forall2 (rewritten sha1) (map fst ms ++ l) es' /\ compressed zl es' outs.
Proof.
intros zl fuel he k sha1 uuid M size ms m l n Hz Hmg Hsha HM Hsz Hl Hm Hms Hfit Hfu Hft Hg Hn.
set (o := recompress_opts uuid) in *. set (all := map fst ms ++ l) in *.
assert (Hge : forall e, In e all -> good_entry fuel he o M [] e /\ rewritable fuel M false e) by (rewrite Forall_forall in Hg; exact Hg).
assert (Hen : forall e, In e all -> enough fuel (e_text e)).
{ intros e He. apply in_split in He as (l1 & l2 & E). rewrite E in Hft. unfold enough, texts in *. rewrite map_app, concat_app in Hft. cbn [map concat] in Hft. rewrite !app_length in Hft. lia. }
(* the first attempt *)
assert (exists css : list (list bytes), Forall2 (fun e cs =>
    mem_user (repeat (URead (Some BUFF_SIZE)) (Datatypes.S (List.length cs))) (e_payload e) = cs ++ [[]]
    /\ Forall (fun x => x <> []) cs /\ concat cs = e_payload e /\ (List.length cs <= List.length (e_payload e))%nat) all css) as (css & Hcss).
{ clear. induction all as [|e es (css & IH)]; [exists []; constructor|].
  destruct (mem_chunks _ (e_payload e) (le_n _)) as (cs & H). exists (cs :: css). now constructor. }
set (prog := fun i => repeat (URead (Some BUFF_SIZE)) (Datatypes.S (List.length (nth i css [])))).
assert (Hpg : forall i, nonneg_ops (prog i) /\ limited_lines M (prog i)).
{ intros i. unfold prog. generalize (Datatypes.S (List.length (nth i css []))). clear. intros j.
  split; (induction j as [|j IH]; [constructor|]); cbn [repeat]; constructor; try exact IH; [vm_compute; discriminate|exact I]. }
assert (Hin1 : forall e x, In (e, x) ms -> In e all) by (intros e x H; apply in_or_app; left; exact (in_map fst _ _ H)).
assert (Hin2 : forall e, In e l -> In e all) by (intros e H; apply in_or_app; now right).
rewrite Forall_forall in Hms.
assert (Hsm : forall x, In x ms -> lenZ (snd x) <= BUFF_SIZE).
{ intros x Hx. apply in_split in Hx as (l1 & l2 & E). revert Hfit. unfold gz_data. rewrite E, map_app, concat_app. cbn [map concat]. rewrite !lenZ_app.
  pose proof (lenZ_nonneg (concat (map snd l1))). pose proof (lenZ_nonneg (concat (map snd l2))). pose proof (lenZ_nonneg m). lia. }
assert (Hm2 : lenZ m <= BUFF_SIZE) by (rewrite lenZ_app in Hfit; pose proof (lenZ_nonneg (gz_data ms)); lia).
destruct (gz_archive_multi (zl:=zl) fuel he o M prog 0 ms m l [] BUFF_SIZE None n) as (obs & ob & len & E & Hlo & Hob & Hlast).
{ exact Hl. } { exact Hm. }
{ unfold enough in *. unfold all, texts in Hft. rewrite map_app, concat_app, app_length in Hft. fold (texts l) in Hft. lia. }
{ right. now split. } { right. split; [reflexivity|]. intros i e x H. left. exact (Hsm _ (nth_error_In _ _ H)). } { reflexivity. } { lia. } { exact Hfu. }
{ intros e x H. apply Hen. eauto. }
{ intros i e x H. apply nth_error_In in H. split; [|exact (Hms _ H)]. destruct (Hpg i). apply good_entry_reads; auto. apply Hge. eauto. }
{ intros e H. destruct (Hpg (List.length ms)). apply good_entry_reads; auto. apply Hge. auto. }
{ reflexivity. } { discriminate. } { lia. }
assert (Hone : forall i e off ln (o1 : @Iterator.obs zl), nth_error all i = Some e -> observed he o (e_rec e) (e_http e) (e_payload e) off ln (prog i) o1 ->
   exists ws, copied (zl:=zl) fuel sha1 k (mk_wopts (lit "WARC/1.0") None true) o1 ws).
{ intros i e off ln o1 Hi Ho. destruct (Hge e (nth_error_In _ _ Hi)) as [G1 G2].
  assert (exists cs, nth_error css i = Some cs /\ mem_user (repeat (URead (Some BUFF_SIZE)) (Datatypes.S (List.length cs))) (e_payload e) = cs ++ [[]]
    /\ Forall (fun x => x <> []) cs /\ concat cs = e_payload e /\ (List.length cs <= List.length (e_payload e))%nat) as (cs & Hc & C1 & C2 & C3 & C4).
  { clear - Hcss Hi. revert i Hi. induction Hcss as [|x c all css Hx _ IH]; intros [|i] Hi; try discriminate; cbn [nth_error] in *; [|eauto].
    injection Hi as ->. exists c. now split. }
  apply (copied_one fuel sha1 k (lit "WARC/1.0") true he o M e off ln o1 cs G1 eq_refl (Hen e (nth_error_In _ _ Hi)) Hsha G2 C1 C2 C3 C4).
  unfold prog in Ho. rewrite (nth_error_nth css i [] Hc) in Ho. exact Ho. }
assert (exists wss, Forall2 (copied (zl:=zl) fuel sha1 k (mk_wopts (lit "WARC/1.0") None true)) (obs ++ [ob]) wss) as (wss & Hwss).
{ assert (forall i (o1 : @Iterator.obs zl), nth_error (obs ++ [ob]) i = Some o1 -> exists ws, copied (zl:=zl) fuel sha1 k (mk_wopts (lit "WARC/1.0") None true) o1 ws) as Hi.
  { intros i o1 Hi. destruct (Nat.lt_ge_cases i (List.length obs)) as [Hlt|Hge'].
    - rewrite nth_error_app1 in Hi by exact Hlt. destruct (nth_error ms i) as [[e x]|] eqn:En.
      2:{ apply nth_error_None in En. lia. }
      apply (Hone i e _ _ o1 ltac:(unfold all; rewrite nth_error_app1 by (rewrite map_length; lia); now rewrite nth_error_map, En) (Hob i e x o1 En Hi)).
    - rewrite nth_error_app2 in Hi by exact Hge'. destruct (i - List.length obs)%nat as [|d] eqn:Ed; [|destruct d; discriminate]. injection Hi as ->.
      assert (i = List.length ms) as -> by lia. destruct l as [|e l']; [cbn in Hl; lia|].
      apply (Hone (List.length ms) e _ _ o1 ltac:(unfold all; rewrite nth_error_app2 by (rewrite map_length; lia); now rewrite map_length, Nat.sub_diag) (Hlast e eq_refl)). }
  clear - Hi. induction (obs ++ [ob]) as [|a b IH]; [exists []; constructor|].
  destruct (Hi O a eq_refl) as (w & Hw). destruct IH as (ws & H); [intros i; apply (Hi (Datatypes.S i))|]. exists (w :: ws). now constructor. }
pose proof (copy_loop fuel he sha1 k (mk_wopts (lit "WARC/1.0") None true) o prog n (EndExn ArchiveLoadFailed) 0%nat _ _ (obs ++ [ob]) wss
   ltac:(intros i; unfold prog; eauto) (or_introl eq_refl) E Hwss) as Efail.
(* decompressing *)
assert (Hmem : members zl true (gz_data ms ++ m) (texts all)).
{ assert (Hnt : forall e, In e all -> e_text e <> []).
  { intros e He. destruct (Hge e He) as [(_ & (hd & _ & ->) & _) _]. intros X. apply app_eq_nil in X as [_ X]. apply app_eq_nil in X as [_ X]. discriminate. }
  assert (Hml : members zl true m (texts l)).
  { rewrite <- (app_nil_r m), <- (app_nil_r (texts l)). constructor; [exact Hm| |constructor]. intros _ X.
    destruct l as [|e l']; [cbn in Hl; lia|]. unfold texts in X. cbn in X. apply app_eq_nil in X as [X _]. apply (Hnt e); [apply Hin2; now left|exact X]. }
  clear - Hms Hnt Hml. unfold all in *. clear all.
  assert (forall x, In x ms -> e_text (fst x) <> []) as Hx by (intros x Hx; apply Hnt, in_or_app; left; now apply in_map).
  clear Hnt. induction ms as [|[e x] ms IH]; [exact Hml|]. unfold gz_data, texts. cbn [map app concat fst snd]. rewrite <- app_assoc.
  constructor; [exact (Hms (e, x) (or_introl eq_refl))|intros _; exact (Hx (e, x) (or_introl eq_refl))|].
  apply IH; intros; [apply Hms|apply Hx]; now right. }
assert (Ecopy : copyfileobj (zl:=zl) fuel fuel size (dbr_new (raw_open (gz_data ms ++ m) []) BUFF_SIZE None true) = Ok (texts all)).
{ apply copyfileobj_ok; [exact Hsz|unfold enough in Hft; lia|]. intros ks Hk. apply C10_read_all_partial_pf; auto. reflexivity. }
(* the second attempt *)
assert (HG : good_archive every zl fuel he o M 0 [] (texts all) (placed 0 all)).
{ constructor; auto; [split; [vm_compute; discriminate|exact I]|right; split; [reflexivity|lia]|lia|].
  apply Forall_forall. intros e He. now apply Hge. }
assert (Hpl : List.length (placed 0 all) = (List.length ms + List.length l)%nat) by (rewrite placed_length; unfold all; now rewrite app_length, map_length).
destruct (copy_archive fuel he o M [] (texts all) (placed 0 all) n sha1 k (lit "WARC/1.0") true HG eq_refl eq_refl Hsha) as (es' & wss' & E2 & F1 & F2).
{ apply Forall_forall. intros [e x] Hx. apply (in_map fst) in Hx. assert (map fst (placed 0 all) = all) as Ha.
  { clear. generalize 0. induction all as [|a b IH]; intros p; [reflexivity|]. cbn. now f_equal. }
  rewrite Ha in Hx. now apply Hge. }
{ lia. }
exists es', (map (@concat N) wss'). split; [|split].
- unfold recompress. replace (load_and_write (zl:=zl) fuel he n sha1 k uuid (raw_open (gz_data ms ++ m) [])) with (List.length (obs ++ [ob]), concat wss, Some ArchiveLoadFailed) by (symmetry; exact Efail).
  unfold decompress_and_recompress. rewrite Ecopy.
  replace (load_and_write (zl:=zl) fuel he n sha1 k uuid (raw_open (texts all) [])) with (List.length (placed 0 all), concat wss', @None exn) by (symmetry; exact E2).
  rewrite Hpl. f_equal. clear. induction wss' as [|w wss IH]; [reflexivity|]. cbn [concat map]. rewrite concat_app. now f_equal.
- clear - F1. revert F1. generalize 0. revert es'. induction all as [|e all IH]; intros es' p F1; cbn [placed] in F1; inversion F1 as [|? ? ? ? [A _] B]; subst; constructor; eauto.
- clear - F2 Hz. unfold compressed. induction F2 as [|e' ws es' wss (w0 & E0 & ->) _ IH]; cbn [map]; constructor; [rewrite <- E0, gz_writes_deflated; apply Hz|exact IH].
Qed.

Lemma C62_records_lost_refuted_pf :
  let r1 := ex_resp "resource" "urn:a" 5 (lit "hello") ++ four in
let r2 := ex_resp "resource" "urn:b" 5 (lit "world") ++ four in
exists data out, members toy_z false data (r1 ++ r2)
  /\ List.length (fst (ex_run (recompress_opts (lit "u")) (r1 ++ r2))) = 2%nat /\ snd (ex_run (recompress_opts (lit "u")) (r1 ++ r2)) = EndStop
  /\ recompress (zl:=toy_z) 1000 ck_henv 5 ck_hash toy_k (lit "u") 100 data = RcOk 1 false out.
Proof.
exists (toy_gz [] ++ toy_gz ((ex_resp "resource" "urn:a" 5 (lit "hello") ++ four) ++ (ex_resp "resource" "urn:b" 5 (lit "world") ++ four)) ++ []).
eexists. split.
{ set (c := (ex_resp "resource" "urn:a" 5 (lit "hello") ++ four) ++ (ex_resp "resource" "urn:b" 5 (lit "world") ++ four)).
  rewrite <- (app_nil_r c) at 2. apply (mem_cons toy_z false (toy_gz []) [] (toy_gz c ++ []) (c ++ [])); [vm_compute; reflexivity|discriminate|].
  constructor; [vm_compute; reflexivity|discriminate|constructor]. }
split; [vm_compute; reflexivity|]. split; [vm_compute; reflexivity|]. vm_compute. reflexivity.
Qed.

Lemma C62_non_ascii_refuted_pf :
  exists data out ob ob', recompress (zl:=toy_z) 600 ck_henv 5 ck_hash toy_k (lit "u") 100 data = RcOk 1 false out
  /\ run_iter (zl:=toy_z) 600 ck_henv (recompress_opts (lit "u")) 5 (fun _ => [URead None]) 0 (iter_new (raw_open data []) BUFF_SIZE None) = ([ob], EndStop)
  /\ run_iter (zl:=toy_z) 600 ck_henv (recompress_opts (lit "u")) 5 (fun _ => [URead None]) 0 (iter_new (raw_open out []) BUFF_SIZE None) = ([ob'], EndStop)
  /\ option_map sh_headers (rc_http (ob_record ob)) = Some [(lit "A", [233%N]); (lit "B", lit "c")]
  /\ option_map sh_headers (rc_http (ob_record ob')) = Some [(lit "A", lit "%C3%A9"); (lit "B", lit "c")].
Proof.
set (data := ex_resp "response" "http://a/" 33 (lit "HTTP/1.1 200 OK" ++ crlf ++ lit "A: " ++ [195; 169]%N ++ crlf ++ lit "B: c" ++ crlf ++ crlf ++ lit "x") ++ four).
exists data. eexists _, _, _. split; [vm_compute; reflexivity|]. split; [vm_compute; reflexivity|]. split; [vm_compute; reflexivity|]. split; vm_compute; reflexivity.
Qed.

Lemma C64_framed_partial_pf :
  forall (zl : zenv) fuel he o M sched data es known n prog obs sha1 i e off len ob hb,
  good_archive every zl fuel he o M 0 sched data es -> lo_norec o = false -> lo_ensure o = false -> known <> Some FArc ->
  (List.length es < n)%nat -> (forall j, nonneg_ops (prog j) /\ no_lines (prog j)) ->
  run_iter (zl:=zl) fuel he o n prog 0 (iter_new (raw_open data sched) BUFF_SIZE known) = (obs, EndStop) ->
  nth_error es i = Some (e, (off, len)) -> nth_error obs i = Some ob -> hash_bytes sha1 ->
  (occurs (lit "Content-Length") (w_headers (e_rec e)) <= 1)%nat ->
  (w_value "WARC-Type" (e_rec e) = Some (lit "revisit") -> e_payload e = []) ->
  (osah_bool (e_http e) = false -> w_block (e_rec e) = e_payload e) -> http_block None (e_http e) hb ->
  exists ws r' hs', write_plain fuel sha1 None (read_wrec (ob_record ob) (e_payload e)) = (Ok tt, ws, r')
    /\ is_record (w_version (e_rec e)) hs' (hb ++ e_payload e) (concat ws)
    /\ value_of (lit "Content-Length") hs' = Some (str_of_Z (lenZ (hb ++ e_payload e))).
Proof.
intros zl fuel he o M sched data es known n prog obs sha1 i e off len ob hb HG Ho Hen Hk Hn Hp Hrun Hi Hi' Hsha W1 W2 W3 Hb.
destruct (archive_run every fuel he o M 0 sched data es prog known n HG Hen Hk Hn) as (obs' & E & Hl & Hob).
{ intros j. destruct (Hp j) as [H1 H2]. split; [exact H1|]. eapply Forall_impl; [|exact H2]. intros [| |]; auto. contradiction. }
{ intros j _ _ _ _. apply Hp. }
change (raw_open data sched) with (mk_raw data 0 sched) in Hrun. rewrite E in Hrun. injection Hrun as ->.
destruct (archive_entry _ _ _ _ _ _ _ _ _ _ _ _ HG (nth_error_In _ _ Hi)) as [Hge Hef].
eapply frame_one; eauto. exact (observed_source _ _ _ _ _ _ _ (Hob i e off len ob Hi Hi')).
Qed.

Lemma C64_no_status_refuted_pf :
  misframed (ex_resp "response" "http://a/" 17 (lit "HTTP/1.0" ++ crlf ++ crlf ++ lit "hello") ++ four)
          (lit "hello") (lit "17") (lit "hello").
Proof.
eexists _, [(lit "WARC-Type", lit "response"); (lit "WARC-Target-URI", lit "http://a/"); (lit "Content-Length", lit "17");
  (lit "WARC-Payload-Digest", ck_digest (lit "hello")); (lit "WARC-Block-Digest", ck_digest (lit "hello"))], _.
split; [vm_compute; reflexivity|]. split; [vm_compute; reflexivity|]. split; [vm_compute; reflexivity|].
split; [eexists; split; vm_compute; reflexivity|]. split; [vm_compute; reflexivity|]. split; [vm_compute; discriminate|vm_compute; reflexivity].
Qed.

Lemma C64_revisit_refuted_pf :
  misframed (ex_resp "revisit" "urn:a" 5 (lit "hello") ++ four) (lit "hello") (lit "5") [].
Proof.
eexists _, [(lit "WARC-Type", lit "revisit"); (lit "WARC-Target-URI", lit "urn:a"); (lit "Content-Length", lit "5");
  (lit "WARC-Block-Digest", ck_digest (lit "hello"))], _.
split; [vm_compute; reflexivity|]. split; [vm_compute; reflexivity|]. split; [vm_compute; reflexivity|].
split; [eexists; split; vm_compute; reflexivity|]. split; [vm_compute; reflexivity|]. split; [vm_compute; discriminate|vm_compute; reflexivity].
Qed.

Lemma C64_truncated_refuted_pf :
  misframed (ex_resp "resource" "urn:a" 9 (lit "hello")) (lit "hello") (lit "9") (lit "hello").
Proof.
eexists _, [(lit "WARC-Type", lit "resource"); (lit "WARC-Target-URI", lit "urn:a"); (lit "Content-Length", lit "9");
  (lit "WARC-Payload-Digest", ck_digest (lit "hello")); (lit "WARC-Block-Digest", ck_digest (lit "hello"))], _.
split; [vm_compute; reflexivity|]. split; [vm_compute; reflexivity|]. split; [vm_compute; reflexivity|].
split; [eexists; split; vm_compute; reflexivity|]. split; [vm_compute; reflexivity|]. split; [vm_compute; discriminate|vm_compute; reflexivity].
Qed.

Lemma C65_digests_partial_pf :
  forall (zl : zenv) fuel he k sha1 uuid M data es n size,
  gzip_codec zl k -> henv_ok he -> he (lit "sha1") = Some sha1 -> 0 <= M ->
  good_archive every zl fuel he (check_opts uuid) M 0 [] data es ->
  Forall (fun x => rewritable fuel M false (fst x)) es ->
  Forall (fun x => digest_stable (fst x) /\ judge_ok he (fst x)) es -> es <> [] -> (List.length es < n)%nat ->
  exists es' ms, recompress (zl:=zl) fuel he n sha1 k uuid size data = RcOk (List.length es) false (concat ms)
    /\ Forall2 (fun x e' => rewritten sha1 (fst x) e') es es' /\ compressed zl es' ms
    /\ Forall2 (fun x e' => fails he (fst x) <-> fails he e') es es'
    /\ (back_fits zl fuel es' ms ->
        let check := fun data => run_iter (zl:=zl) fuel he (check_opts uuid) n (fun _ => [URead None]) 0 (iter_new (raw_open data []) BUFF_SIZE None) in
        exists obs obs', check data = (obs, EndStop) /\ check (concat ms) = (obs', EndStop)
          /\ Forall2 (fun ob ob' => ob_passed ob = Some false <-> ob_passed ob' = Some false) obs obs').
Proof.
intros zl fuel he k sha1 uuid M data es n size Hz Hh Hs HM HG Hrw Hdg Hne Hn.
assert (Hsha : hash_bytes sha1). { intros b. destruct (Hh _ _ Hs) as (m & _ & X). apply X. }
assert (HG' : good_archive every zl fuel he (recompress_opts uuid) M 0 [] data es).
{ apply (good_archive_opts every zl fuel he (check_opts uuid)); auto. intros e _. now left. }
destruct (recompress_archive fuel he k sha1 uuid M data es n size Hz Hsha HG' Hrw Hn) as (es' & ms & E & F1 & F2 & F3).
exists es', ms. split; [exact E|]. split; [exact F1|]. split; [exact F2|].
assert (FF : Forall2 (fun x e' => (fails he (fst x) <-> fails he e') /\ judge_ok he e') es es').
{ clear - F1 Hdg Hh Hs. induction F1 as [|x e' es es' R _ IH]; constructor; inversion Hdg as [|? ? [A B] C]; subst; [|auto].
  split; [symmetry; now apply (fails_same he sha1)|now apply (judge_same he sha1 Hh Hs (fst x))]. }
split; [clear - FF; induction FF as [|x e' es es' [H _] _ IH]; constructor; auto|].
intros Hfit check.
assert (Hl : List.length es = List.length es') by (clear - F1; induction F1; cbn; auto).
assert (HJ : forall e', In e' es' -> judge_ok he e').
{ clear - FF. induction FF as [|x e' es es' [_ H] _ IH]; intros y Hy; [contradiction|]. destruct Hy as [<-|Hy]; auto. }
assert (Hge : Forall (good_entry fuel he (check_opts uuid) M []) es').
{ apply F3; auto. intros e' He'. right. destruct (HJ e' He') as (A & B & _). split; [exact Hh|]. left. split; [discriminate|]. split; assumption. }
destruct (read_back fuel he (check_opts uuid) M es' ms n Hge F2 Hfit eq_refl HM) as (obs' & Er & HF); [|now rewrite <- Hl|].
{ intros ->. destruct es; [contradiction|discriminate]. }
destruct (archive_run every fuel he (check_opts uuid) M 0 [] data es (fun _ => [URead None]) None n HG eq_refl ltac:(discriminate) Hn) as (obs & Ero & Hlo & Hob).
{ intros i. split; repeat constructor. }
{ intros. repeat constructor. }
exists obs, obs'. split; [exact Ero|]. split; [exact Er|].
assert (G1 : Forall2 (fun x ob => ob_passed ob = Some false <-> fails he (fst x)) es obs).
{ apply Forall2_nth_build; [congruence|]. intros i [e [off len]] ob H1 H2. cbn [fst].
  destruct (archive_entry _ _ _ _ _ _ _ _ _ _ _ _ HG (nth_error_In _ _ H1)) as [He _].
  rewrite Forall_forall in Hdg. destruct (Hdg _ (nth_error_In _ _ H1)) as (_ & _ & _ & Hv).
  rewrite <- (bad_fails fuel he uuid M e off len [URead None] ob He Hv (Hob i e off len ob H1 H2)).
  unfold bad_ob. destruct (ob_passed ob) as [[]|]; split; congruence. }
assert (G2 : Forall2 (fun e' ob => ob_passed ob = Some false <-> fails he e') es' obs').
{ clear - HF Hge HJ. induction HF as [|e' ob es' obs' (off & len & H) _ IH]; constructor.
  - inversion Hge; subst. rewrite <- (bad_fails fuel he uuid M e' off len [URead None] ob); auto.
    + unfold bad_ob. destruct (ob_passed ob) as [[]|]; split; congruence.
    + now apply HJ; left.
  - apply IH; [intros; apply HJ; now right|now inversion Hge]. }
clear - G1 G2 FF. revert obs obs' G1 G2. induction FF as [|x e' es es' [H _] _ IH]; intros obs obs' G1 G2; inversion G1; inversion G2; subst; constructor; auto. tauto.
Qed.

Lemma C65_respelled_refuted_pf :
  exists data out ob ob', recompress (zl:=toy_z) 600 ck_henv 5 ck_hash toy_k (lit "u") 100 data = RcOk 1 false out
  /\ ex_run (check_opts (lit "u")) data = ([ob], EndStop) /\ ob_passed ob = Some true
  /\ ex_run (check_opts (lit "u")) out = ([ob'], EndStop) /\ ob_passed ob' = Some false
  /\ ob_reads ob' = ob_reads ob.
Proof.
set (b := lit "HTTP/1.0 200 OK" ++ crlf ++ lit "A:b" ++ crlf ++ crlf ++ lit "x").
set (data := lit "WARC/1.0" ++ crlf ++ lit "WARC-Type: response" ++ crlf ++ lit "WARC-Target-URI: http://a/" ++ crlf
  ++ lit "WARC-Block-Digest: " ++ ck_digest b ++ crlf ++ lit "Content-Length: 25" ++ crlf ++ crlf ++ b ++ four).
exists data. eexists _, _, _. split; [vm_compute; reflexivity|]. split; [vm_compute; reflexivity|]. split; [vm_compute; reflexivity|].
split; [vm_compute; reflexivity|]. split; vm_compute; reflexivity.
Qed.
