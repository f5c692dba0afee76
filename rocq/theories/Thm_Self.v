(** * Thm_Self: proofs of the theorems restated in Props_Self.v *)
From Coq Require Import String List ZArith NArith Bool Lia.
From Verif Require Import PyBase Codecs Headers Streams Loader Iterator Writer StreamSpec WriterSpec DigestSpec IterSpec RoundSpec CliSpec Cli ReportSpec SelfSpec Toy.
Import ListNotations.
Open Scope Z_scope.

From Verif Require Import Facts HeaderSpec DigestProofs WriterProofs IterProofs RoundProofs RewriteProofs Thm_Buffered Thm_Writer Thm_Iter Thm_Round Thm_Cli Thm_Tools Thm_Enc.

Lemma sha1_is_digest sha1 x : is_digest (sha1_text sha1 x) (lit "sha1") (b32encode (sha1 x)).
Proof. split; [reflexivity|]. vm_compute. intros H. repeat (destruct H as [H|H]; [discriminate|]). exact H. Qed.
Lemma sha1_judgeable he sha1 x : henv_ok he -> he (lit "sha1") = Some sha1 -> judgeable he (Some (sha1_text sha1 x)).
Proof.
  intros Hh Hs data. destruct (Hh _ _ Hs) as (n & _ & Hn).
  destruct (list_eq_dec N.eq_dec (sha1 x) (sha1 data)) as [E|E].
  - exists VGood. apply (J_good _ _ _ (lit "sha1") (b32encode (sha1 x)) sha1); [apply sha1_is_digest|exact Hs|]. left. now rewrite E.
  - exists VBad. apply (J_bad _ _ _ (lit "sha1") (b32encode (sha1 x)) sha1 (sha1 x)); [apply sha1_is_digest|exact Hs|now left| | |exact E].
    + rewrite (proj1 (Hn x)), (proj1 (Hn data)). reflexivity.
    + apply Hn.
Qed.
Lemma none_judgeable he : judgeable he None.
Proof. intros data. exists VNone. constructor. Qed.
Lemma none_not_bad he x : ~ judged he x None VBad.
Proof. intros H. inversion H. Qed.
Lemma fresh_not_bad he sha1 x : henv_ok he -> he (lit "sha1") = Some sha1 -> ~ judged he x (Some (sha1_text sha1 x)) VBad.
Proof. intros Hh Hs H. pose proof (judged_fun he x _ _ _ Hh H (fresh_judged he sha1 x Hs)). discriminate. Qed.
Lemma http_block_fun f o a b : http_block f o a -> http_block f o b -> a = b.
Proof. unfold http_block. destruct o as [h|]; [|congruence]. destruct (sah_bool h); [|congruence]. intros A B. rewrite A in B. now injection B. Qed.
Lemma same_headers a b h : same_http a b -> b = Some h -> exists h', a = Some h' /\ sh_headers h' = sh_headers h.
Proof.
  unfold same_http. destruct a as [h'|], b as [h0|]; try contradiction; [|discriminate].
  intros (_ & _ & E) [= <-]. exists h'. split; [reflexivity|]. now rewrite E.
Qed.

Definition fine (he : henv) (e : entry) : Prop := ~ fails he e /\ not_vacuous he e.

Lemma own_entry fuel sha1 he uuid M c r ws r' :
  henv_ok he -> he (lit "sha1") = Some sha1 -> own fuel sha1 M c r ->
  write_plain fuel sha1 None r = (Ok tt, ws, r') -> enough fuel (concat ws) ->
  exists e, e_text e = concat ws /\ good_entry fuel he (check_opts uuid) M [] e /\ fine he e
    /\ same_http (wr_http r) (e_http e) /\ ((cr_type c = lit "revisit" -> e_payload e = []) /\ (cr_type c <> lit "revisit" -> e_payload e = ps_rest (wr_stream r))).
Proof.
  intros Hh Hs (((f & C) & RO & Hfc) & U1 & U2 & U3) W Hfu.
  assert (Hsha : hash_bytes sha1). { destruct (Hh _ _ Hs) as (n & _ & Hn). intros b. apply Hn. }
  destruct (written_full fuel sha1 he (mk_lopts false false false false KFalse uuid) M f c r ws r' Hfc Hsha eq_refl (conj eq_refl eq_refl) RO C W Hfu)
    as (e & (V1 & V2 & V3 & hb & V4 & V5) & Et & (G1 & G2 & G3 & G4 & _ & G6 & G7) & P & _).
  destruct RO as [R1 [R2 R2'] _ _ _ _ _ _].
  destruct (C26_digests_pf fuel sha1 f None c r ws r' Hfc R1 R2' U1 U2 U3 C W) as (hb' & payload & block & D1 & _ & D3 & D4 & D5 & D6).
  assert (hb' = hb) by (eapply http_block_fun; eassumption). subst hb'.
  assert (Eb : w_block (e_rec e) = block).
  { destruct G2 as (hd & A1 & A2), D4 as (hd' & B1 & B2). rewrite V1, V2 in A1. rewrite A1 in B1. injection B1 as <-.
    rewrite Et, B2 in A2. apply app_inv_head in A2. now apply app_inv_tail in A2. }
  assert (Ep : e_payload e = payload).
  { rewrite V5, D3 in Eb. now apply app_inv_head in Eb. }
  assert (Bd : block_digest (e_rec e) = None \/ block_digest (e_rec e) = Some (sha1_text sha1 (w_block (e_rec e)))).
  { unfold block_digest, w_value. rewrite V2, D5, Eb. unfold eff_block.
    destruct (value_of (lit "WARC-Type") (sh_headers (wr_headers r'))) as [t|]; [destruct (leqb t (lit "revisit")); [left|right]; reflexivity|right; reflexivity]. }
  assert (Pd : payload_digest (e_rec e) = None \/ payload_digest (e_rec e) = Some (sha1_text sha1 (e_payload e))).
  { unfold payload_digest, w_value. rewrite V2, D6, Ep. unfold eff_payload, eff_block.
    destruct (leqb (cr_type c) (lit "warcinfo") || leqb (cr_type c) (lit "revisit")), (value_of (lit "WARC-Segment-Number") (sh_headers (wr_headers r'))),
      (value_of (lit "WARC-Type") (sh_headers (wr_headers r'))) as [t|]; try destruct (leqb t (lit "revisit")); auto. }
  exists e. split; [exact Et|]. split; [|split; [|split]].
  - split; [exact G1|]. split; [exact G2|]. split; [exact G3|]. split; [exact G4|].
    split; [|split; constructor]. right. split; [exact Hh|]. left. split; [discriminate|].
    split; [destruct Bd as [-> | ->]|destruct Pd as [-> | ->]]; try apply none_judgeable; now apply sha1_judgeable.
  - split.
    + intros [(_ & F)|F]; [destruct Bd as [X|X]|destruct Pd as [X|X]]; rewrite X in F; try (now apply none_not_bad in F); now apply fresh_not_bad in F.
    + intros N F. rewrite <- N in F. destruct Bd as [X|X]; rewrite X in F; [now apply none_not_bad in F|now apply fresh_not_bad in F].
  - exact V3.
  - exact P.
Qed.

Lemma own_plain fuel sha1 k he uuid M : henv_ok he -> he (lit "sha1") = Some sha1 -> forall cs rs, Forall2 (own fuel sha1 M) cs rs ->
  forall ws, write_all fuel sha1 k (mk_wopts (lit "WARC/1.0") None false) rs = (Ok tt, ws) -> enough fuel (List.concat ws) ->
  exists es, texts es = List.concat ws /\ Forall2 (fun r e => same_http (wr_http r) (e_http e)) rs es /\ Forall (good_entry fuel he (check_opts uuid) M []) es /\ Forall (fine he) es.
Proof.
  intros Hh Hs cs rs HF. induction HF as [|c r cs rs Hr _ IH]; intros ws Hw Hfu; cbn [write_all] in Hw.
  - injection Hw as <-. exists []. repeat split; constructor.
  - destruct (write_record fuel sha1 k (mk_wopts (lit "WARC/1.0") None false) r) as [[[u|e] w1] r1] eqn:E; [|discriminate].
    destruct (write_all fuel sha1 k (mk_wopts (lit "WARC/1.0") None false) rs) as [x w2]. injection Hw as -> <-.
    rewrite concat_app in Hfu. unfold enough in Hfu. rewrite app_length in Hfu.
    assert (E' : write_plain fuel sha1 None r = (Ok tt, w1, r1)) by (destruct u; exact (write_record_plain _ _ _ _ _ _ _ E)).
    destruct (own_entry fuel sha1 he uuid M c r w1 r1 Hh Hs Hr E') as (e & Et & Hg & Hfn & Hsm & _); [unfold enough; lia|].
    destruct (IH w2 eq_refl) as (es & Es & El & Hgs & Hfs); [unfold enough; lia|].
    exists (e :: es). split; [unfold texts in *; cbn [map List.concat]; rewrite concat_app, Et, Es; reflexivity|].
    split; [constructor; assumption|]. split; constructor; assumption.
Qed.

Lemma placed_in p es : forall e pl, In (e, pl) (placed p es) -> In e es.
Proof. revert p. induction es as [|a es IH]; cbn; intros p e pl H; [exact H|]. destruct H as [[= <- _]|H]; [now left|right; eauto]. Qed.
Lemma placed_len p es : List.length (placed p es) = List.length es.
Proof. revert p. induction es as [|a es IH]; cbn; intros p; [reflexivity|]. now rewrite IH. Qed.
Lemma placed_gz_in p ms : forall e pl, In (e, pl) (placed_gz p ms) -> exists m, In (e, m) ms.
Proof. revert p. induction ms as [|[a m] ms IH]; cbn; intros p e pl H; [contradiction|]. destruct H as [[= <- _]|H]; [eauto|]. destruct (IH _ _ _ H) as (m' & X). eauto. Qed.
Lemma placed_gz_len p ms : List.length (placed_gz p ms) = List.length ms.
Proof. revert p. induction ms as [|[a m] ms IH]; cbn; intros p; [reflexivity|]. now rewrite IH. Qed.
Lemma opt_dec (o : option str) (x : str) : o = Some x \/ o <> Some x.
Proof. destruct o as [y|]; [|right; discriminate]. destruct (leqb y x) eqn:E; [left; apply leqb_eq in E; now subst|right; apply leqb_neq in E; congruence]. Qed.
Lemma own_gz zl fuel sha1 k he uuid M block : henv_ok he -> he (lit "sha1") = Some sha1 -> gzip_codec zl k ->
  forall cs rs, Forall2 (own fuel sha1 M) cs rs -> forall ms, Forall2 (written_member fuel sha1 k) rs ms ->
  (forall r ws' r', In r rs -> write_plain fuel sha1 None r = (Ok tt, ws', r') -> enough fuel (List.concat ws')) ->
  (forall i c r m, nth_error cs i = Some c -> nth_error rs i = Some r -> nth_error ms i = Some m -> written_fit zl fuel sha1 block c r m /\ (is_chunked (wr_http r) -> lenZ m <= block)) ->
  exists ems : list (entry * bytes), map snd ems = ms
    /\ Forall (fun em => member_fit zl block (unchunked (fst em)) (fst em) (snd em)) ems
    /\ Forall (fun em => good_entry fuel he (check_opts uuid) M [] (fst em) /\ is_member zl (snd em) (e_text (fst em)) /\ enough fuel (e_text (fst em))) ems
    /\ Forall (fun em => fine he (fst em)) ems /\ Forall2 (fun r em => same_http (wr_http r) (e_http (fst em))) rs ems.
Proof.
  intros Hh Hs Hz cs rs HF. induction HF as [|c r cs rs Hr _ IH]; intros ms Hm Hfu Hfit; inversion Hm as [|? m ? ms' Hm1 Hm2]; subst.
  - exists []. repeat split; constructor.
  - destruct Hm1 as (w & r' & E & ->). destruct (write_record_gz _ _ _ _ _ _ _ E) as (w0 & E0 & ->).
    assert (Hmem : is_member zl (List.concat (gz_writes k (kinit k) w0 true)) (List.concat w0)) by (rewrite gz_writes_deflated; apply Hz).
    pose proof (Hfu r w0 r' (or_introl eq_refl) E0) as Hfw.
    destruct (own_entry fuel sha1 he uuid M c r w0 r' Hh Hs Hr E0 Hfw) as (e & Et & Hg & Hfn & Hsm & P1 & P2).
    destruct (IH ms' Hm2) as (ems & A & B & C & D & F).
    { intros r0 w1 r1 Hi. apply Hfu. now right. }
    { intros i c0 r0 m0 X Y Z. exact (Hfit (S i) c0 r0 m0 X Y Z). }
    exists ((e, List.concat (gz_writes k (kinit k) w0 true)) :: ems). split; [cbn [map snd]; now rewrite A|]. split; [|split; [|split]].
    + constructor; [|exact B]. cbn [fst snd].
      destruct (Hfit O c r _ eq_refl eq_refl eq_refl) as [Hwf Hck].
      assert (Hdec : is_chunked (wr_http r) \/ unchunked e).
      { destruct (e_http e) as [h|] eqn:Eh; [|right; intros h Y; rewrite Eh in Y; discriminate].
        destruct (same_headers _ _ h Hsm eq_refl) as (h' & Y1 & Y2).
        destruct (opt_dec (value_of (lit "transfer-encoding") (sh_headers h)) (lit "chunked")) as [Y|Y].
        - left. exists h'. rewrite Y2. split; assumption.
        - right. intros h0 Y0. rewrite Eh in Y0. injection Y0 as <-. exact Y. }
      destruct Hdec as [Hdec|Hun]; [left; now apply Hck|].
      destruct Hwf as [X|(w2 & r2 & pl & od & d & E2 & Q1 & Q2 & Ez & X)]; [now left|right].
      split; [exact Hun|]. exists od, d. split; [exact Ez|]. rewrite E0 in E2. injection E2 as <- <-. rewrite Et.
      replace (e_payload e) with pl; [exact X|]. destruct (leqb (cr_type c) (lit "revisit")) eqn:El; [apply leqb_eq in El; now rewrite Q1, P1|].
      apply leqb_neq in El. now rewrite Q2, P2.
    + constructor; [|exact C]. cbn [fst snd]. rewrite Et. split; [exact Hg|]. split; [exact Hmem|exact Hfw].
    + constructor; assumption.
    + constructor; assumption.
Qed.

Lemma own_archive zl fuel sha1 k he uuid M data rs : henv_ok he -> he (lit "sha1") = Some sha1 -> 64 <= M ->
  own_file zl fuel sha1 k M BUFF_SIZE data rs ->
  exists es, good_archive unchunked zl fuel he (check_opts uuid) M 0 [] data es /\ List.length es = List.length rs
    /\ forall e pl, In (e, pl) es -> fine he e /\ exists r, In r rs /\ same_http (wr_http r) (e_http e).
Proof.
  intros Hh Hs HM H. destruct H as [cs rs ws Hz HF Hw Hfu Hb|cs rs ms ws Hz HF Hne Hw Hms Hfu Hfp Hfit].
  - destruct (own_plain fuel sha1 k he uuid M Hh Hs cs rs HF ws Hw Hfu) as (es & Et & El & Hg & Hfn).
    exists (placed 0 es). split; [|split].
    + rewrite <- Et in Hfu |- *. apply GA_plain; [exact Hz|split; [unfold BUFF_SIZE; lia|exact Logic.I]|right; split; [reflexivity|exact Hb]|lia|exact Hfu|exact Hg].
    + rewrite placed_len. clear - El. induction El; cbn; auto.
    + intros e pl Hi. apply placed_in in Hi. rewrite Forall_forall in Hfn. split; [now apply Hfn|].
      clear - El Hi. induction El as [|r e0 rs es Hr _ IH]; [contradiction|]. destruct Hi as [<- |Hi]; [exists r; split; [now left|exact Hr]|].
      destruct (IH Hi) as (r0 & A & B). exists r0. split; [now right|exact B].
  - destruct (own_gz zl fuel sha1 k he uuid M BUFF_SIZE Hh Hs Hz cs rs HF ms Hms Hfp Hfit) as (ems & Es & Hf & Hg & Hfn & Hsm).
    assert (Ec : List.concat ws = List.concat ms).
    { clear - Hw Hms. revert ws Hw. induction Hms as [|r m rs ms (w & r' & E & ->) _ IH]; intros ws Hw; cbn [write_all] in Hw; [now injection Hw as <-|].
      rewrite E in Hw. destruct (write_all fuel sha1 k _ rs) as [x w2]. injection Hw as -> <-. cbn [List.concat]. rewrite concat_app. f_equal. now apply IH. }
    assert (Ed : List.concat ws = gz_data ems) by (unfold gz_data; now rewrite Es).
    exists (placed_gz 0 ems). split; [|split].
    + rewrite Ed in Hfu |- *. apply GA_gzip; [intros ->; inversion Hsm; subst; contradiction|lia|right; split; [reflexivity|exact Hf]|exact Hfu|exact Hg].
    + rewrite placed_gz_len. clear - Hsm. induction Hsm; cbn; auto.
    + intros e pl Hi. apply placed_gz_in in Hi. destruct Hi as (m & Hi). rewrite Forall_forall in Hfn. split; [exact (Hfn _ Hi)|].
      clear - Hsm Hi. induction Hsm as [|r em rs ems Hr _ IH]; [contradiction|]. destruct Hi as [-> |Hi]; [exists r; split; [now left|exact Hr]|].
      destruct (IH Hi) as (r0 & A & B). exists r0. split; [now right|exact B].
Qed.
Lemma own_archives zl fuel sha1 k he uuid M n (files : list (str * raw)) : henv_ok he -> he (lit "sha1") = Some sha1 -> 64 <= M ->
  Forall (fun f => exists data rs, snd f = raw_open data [] /\ own_file zl fuel sha1 k M BUFF_SIZE data rs /\ (List.length rs < n)%nat) files ->
  exists ess, archives unchunked zl fuel he (check_opts uuid) M files ess /\ Forall (fun es => (List.length es < n)%nat) ess
    /\ (forall es e pl, In es ess -> In (e, pl) es -> fine he e).
Proof.
  intros Hh Hs HM HF. induction HF as [|[name f] files (data & rs & E & Ho & Hm) _ IH].
  - exists []. split; [constructor|]. split; [constructor|]. intros es e pl [].
  - destruct IH as (ess & A & B & C). destruct (own_archive zl fuel sha1 k he uuid M data rs Hh Hs HM Ho) as (es & X & Y & Z).
    exists (es :: ess). split; [|split].
    + constructor; [|exact A]. exists data, []. split; assumption.
    + constructor; [now rewrite Y|exact B].
    + intros es' e pl [<-|Hi] He; [exact (proj1 (Z _ _ He))|eapply C; eassumption].
Qed.
Lemma own_archives_plain zl fuel sha1 k he uuid M n (files : list (str * raw)) : henv_ok he -> he (lit "sha1") = Some sha1 -> 64 <= M ->
  Forall (fun f => exists data rs, snd f = raw_open data [] /\ own_file zl fuel sha1 k M BUFF_SIZE data rs /\ (List.length rs < n)%nat
                    /\ Forall (fun r => plain_content (wr_http r)) rs) files ->
  exists ess, archives unchunked zl fuel he (check_opts uuid) M files ess /\ Forall (fun es => (List.length es < n)%nat) ess
    /\ (forall es e pl, In es ess -> In (e, pl) es -> fine he e /\ plain_content (e_http e)).
Proof.
  intros Hh Hs HM HF. induction HF as [|[name f] files (data & rs & E & Ho & Hm & Hp) _ IH].
  - exists []. split; [constructor|]. split; [constructor|]. intros es e pl [].
  - destruct IH as (ess & A & B & C). destruct (own_archive zl fuel sha1 k he uuid M data rs Hh Hs HM Ho) as (es & X & Y & Z).
    exists (es :: ess). split; [|split].
    + constructor; [|exact A]. exists data, []. split; assumption.
    + constructor; [now rewrite Y|exact B].
    + intros es' e pl [<-|Hi] He; [|eapply C; eassumption]. destruct (Z _ _ He) as (Q & r & Hr & Hsm). split; [exact Q|].
      rewrite Forall_forall in Hp. intros h Eh. destruct (same_headers _ _ h Hsm Eh) as (h' & Y1 & Y2). rewrite <- Y2. exact (Hp r Hr h' Y1).
Qed.
Lemma report_fine verbose he names ess ms : archives_report verbose he names ess ms ->
  (forall es e pl, In es ess -> In (e, pl) es -> ~ fails he e) ->
  (verbose = false -> ms = []) /\ (forall p, ~ In (MProblem p) ms) /\ ~ In MFailed ms.
Proof.
  intros H. induction H as [|name es names ess mss ms HF _ IH]; intros Hn; [repeat split; auto|].
  destruct IH as (A & B & C); [intros es' e pl Hi; apply Hn; now right|].
  assert (K : (verbose = false -> List.concat mss = []) /\ (forall p, ~ In (MProblem p) (List.concat mss)) /\ ~ In MFailed (List.concat mss)).
  { assert (Hn' : forall e pl, In (e, pl) es -> ~ fails he e) by (intros e pl Hi; eapply Hn; [now left|exact Hi]).
    clear - HF Hn'. induction HF as [|[e pl] m es mss Hr _ IH]; [repeat split; auto|].
    destruct IH as (A & B & C); [intros e' pl' Hi; eapply Hn'; now right; exact Hi|].
    cbn [List.concat]. inversion Hr as [ps F|F V|t F V]; subst; cbn [fst snd] in *.
    - exfalso. eapply Hn'; [now left|exact F].
    - cbn [app]. auto.
    - split; [discriminate|]. split; [intros p|]; cbn [app In]; intros [X|[X|X]]; try discriminate; [now apply (B p)|now apply C]. }
  destruct K as (K1 & K2 & K3). split; [intros V; rewrite (K1 V), (A V); reflexivity|].
  split; [intros p|]; rewrite in_app_iff; intros [X|X]; try (now apply (B p)); try (now apply C);
    destruct (is_nil (List.concat mss)); cbn [In] in X; try contradiction; destruct X as [X|X]; try discriminate; [now apply (K2 p)|now apply K3].
Qed.
Lemma own_c1_pf : own 2000 ck_hash 200 own_c1 (own_r own_c1).
Proof.
  split; [|split; [reflexivity|]; split; [reflexivity|]; intros E; vm_compute in E; discriminate].
  split; [exists None; reflexivity|]. split; [|vm_compute; lia]. constructor.
  + split; [reflexivity|right; reflexivity].
  + split; [vm_compute; auto|vm_compute; discriminate].
  + split; [|vm_compute; lia]. constructor; [|constructor]. apply ex_hdr; reflexivity.
  + split; [apply ex_value; reflexivity|]. split; [apply ex_value; reflexivity|]. split; [apply ex_value; reflexivity|].
    split; [apply ex_line; reflexivity|]. apply (ex_value (lit "http://a/")); reflexivity.
  + split; [vm_compute; intuition discriminate|]. intros m E. vm_compute in E. discriminate.
  + intros _ _. vm_compute. discriminate.
  + intros E. vm_compute in E. discriminate.
  + cbv zeta. change (wr_http (own_r own_c1)) with (Some own_h). split; [reflexivity|]. split.
    { split; [left; vm_compute; reflexivity|]. exists (lit "//a/"). left. vm_compute. reflexivity. }
    split.
    { split; [discriminate|]. split; [apply ex_line; reflexivity|]. split; [apply ex_trail; reflexivity|].
      split; [apply ex_line; reflexivity|]. split; [apply ex_lead; reflexivity|]. split; [apply ex_trail; reflexivity|].
      split; [|constructor; [|constructor]; apply ex_hdr'; [reflexivity|reflexivity|apply ex_value; reflexivity]].
      vm_compute. intuition discriminate. }
    split.
    { split; [apply ex_ascii; reflexivity|]. split; [apply ex_ascii; reflexivity|].
      constructor; [|constructor]. split; apply ex_ascii; reflexivity. }
    split; [lia|]. split; [vm_compute; discriminate|]. constructor; [|constructor]. vm_compute. discriminate.
Qed.
Lemma own_c3_pf : own 2000 ck_hash 200 own_c3 (own_r own_c3).
Proof.
  split; [|split; [reflexivity|]; split; [reflexivity|]; intros E; vm_compute in E; discriminate].
  split; [exists None; reflexivity|]. split; [|vm_compute; lia]. constructor.
  + split; [reflexivity|now left].
  + split; [vm_compute; auto|vm_compute; discriminate].
  + split; [|vm_compute; lia]. constructor.
  + split; [apply ex_value; reflexivity|]. split; [apply ex_value; reflexivity|]. split; [apply ex_value; reflexivity|].
    split; [apply ex_line; reflexivity|]. apply (ex_value (lit "http://a/")); reflexivity.
  + split; [vm_compute; intuition discriminate|]. intros m E. vm_compute in E. discriminate.
  + intros _ _. vm_compute. discriminate.
  + intros E. vm_compute in E. discriminate.
  + cbv zeta. change (wr_http (own_r own_c3)) with (Some (sah_new (lit "200 OK") [(lit "Transfer-Encoding", lit "chunked")] (lit "HTTP/1.1"))). split; [reflexivity|]. split.
    { split; [left; vm_compute; reflexivity|]. exists (lit "//a/"). left. vm_compute. reflexivity. }
    split.
    { split; [discriminate|]. split; [apply ex_line; reflexivity|]. split; [apply ex_trail; reflexivity|].
      split; [apply ex_line; reflexivity|]. split; [apply ex_lead; reflexivity|]. split; [apply ex_trail; reflexivity|].
      split; [|constructor; [|constructor]; apply ex_hdr'; [reflexivity|reflexivity|apply ex_value; reflexivity]].
      vm_compute. intuition discriminate. }
    split.
    { split; [apply ex_ascii; reflexivity|]. split; [apply ex_ascii; reflexivity|].
      constructor; [|constructor]. split; apply ex_ascii; reflexivity. }
    split; [lia|]. split; [vm_compute; discriminate|]. constructor; [|constructor]. vm_compute. discriminate.
Qed.
Lemma own_c2_pf : own 2000 ck_hash 200 own_c2 (own_r own_c2).
Proof.
  split; [|split; [reflexivity|]; split; [reflexivity|]; intros E; vm_compute in E; discriminate].
  split; [exists None; reflexivity|]. split; [|vm_compute; lia]. constructor.
  + split; [reflexivity|now left].
  + split; [vm_compute; auto|vm_compute; discriminate].
  + split; [|vm_compute; lia]. constructor.
  + split; [apply ex_value; reflexivity|]. split; [apply ex_value; reflexivity|]. split; [apply ex_value; reflexivity|].
    split; [apply ex_line; reflexivity|exact Logic.I].
  + vm_compute. exact Logic.I.
  + intros [H|[H|H]]; vm_compute in H; discriminate.
  + intros E. vm_compute in E. discriminate.
  + left. intros ([H|[H|H]] & _); vm_compute in H; discriminate.
Qed.
Lemma own_created_pf : Forall2 (own 2000 ck_hash 200) own_cs own_rs.
Proof. constructor; [exact own_c1_pf|constructor; [exact own_c2_pf|constructor]]. Qed.
Lemma own_created3_pf : Forall2 (own 2000 ck_hash 200) own_cs3 own_rs3.
Proof. constructor; [exact own_c3_pf|constructor; [exact own_c2_pf|constructor]]. Qed.
Lemma ck_hash_ok : henv_ok ck_henv.
Proof.
  intros a f E. unfold ck_henv in E. destruct (leqb a (lit "sha1")); [|discriminate]. injection E as <-.
  exists 20%nat. split; [lia|]. intros x. split; [reflexivity|]. unfold ck_hash, toy_hash.
  repeat constructor; try (apply N.mod_upper_bound; discriminate).
Qed.
Definition own_members (rs : list wrec) : list bytes :=
  map (fun r => List.concat (snd (fst (write_record 2000 ck_hash toy_k (mk_wopts (lit "WARC/1.0") None true) r)))) rs.
Lemma own_file_plain_gen cs rs ws : Forall2 (own 2000 ck_hash 200) cs rs ->
  write_all 2000 ck_hash toy_k (mk_wopts (lit "WARC/1.0") None false) rs = (Ok tt, ws) -> enough 2000 (List.concat ws) ->
  own_file toy_z 2000 ck_hash toy_k 200 BUFF_SIZE (List.concat ws) rs.
Proof.
  intros A B C. apply (Own_plain toy_z 2000 ck_hash toy_k 200 BUFF_SIZE cs rs ws); try assumption; [exact toy_gz_magic_pf|vm_compute; discriminate].
Qed.
Lemma own_file_plain_pf : own_file toy_z 2000 ck_hash toy_k 200 BUFF_SIZE (List.concat (own_ws false own_rs)) own_rs
  /\ own_file toy_z 2000 ck_hash toy_k 200 BUFF_SIZE (List.concat (own_ws false own_rs3)) own_rs3.
Proof.
  split; [apply (own_file_plain_gen own_cs); [exact own_created_pf| |]|apply (own_file_plain_gen own_cs3); [exact own_created3_pf| |]];
    [vm_compute; reflexivity|unfold enough; vm_compute; lia|vm_compute; reflexivity|unfold enough; vm_compute; lia].
Qed.
Lemma own_file_gzip_gen cs rs ws : Forall2 (own 2000 ck_hash 200) cs rs -> rs <> [] ->
  write_all 2000 ck_hash toy_k (mk_wopts (lit "WARC/1.0") None true) rs = (Ok tt, ws) -> enough 2000 (List.concat ws) ->
  Forall2 (written_member 2000 ck_hash toy_k) rs (own_members rs) ->
  (forall r ws' r', In r rs -> write_plain 2000 ck_hash None r = (Ok tt, ws', r') -> enough 2000 (List.concat ws')) ->
  forallb (fun m => lenZ m <=? BUFF_SIZE) (own_members rs) = true ->
  own_file toy_z 2000 ck_hash toy_k 200 BUFF_SIZE (List.concat ws) rs.
Proof.
  intros A B C D E F K. apply (Own_gzip toy_z 2000 ck_hash toy_k 200 BUFF_SIZE cs rs (own_members rs) ws); try assumption; [exact toy_codec_pf|].
  intros i c r m _ _ H. apply nth_error_In in H. rewrite forallb_forall in K. specialize (K m H). apply Z.leb_le in K.
  split; [now left|]. intros _. exact K.
Qed.
Lemma own_file_gzip_pf : own_file toy_z 2000 ck_hash toy_k 200 BUFF_SIZE (List.concat (own_ws true own_rs)) own_rs
  /\ own_file toy_z 2000 ck_hash toy_k 200 BUFF_SIZE (List.concat (own_ws true own_rs3)) own_rs3.
Proof.
  split.
  - apply (own_file_gzip_gen own_cs); [exact own_created_pf|discriminate|vm_compute; reflexivity|unfold enough; vm_compute; lia| | |vm_compute; reflexivity].
    + constructor; [|constructor; [|constructor]]; eexists; eexists; (split; [vm_compute; reflexivity|vm_compute; reflexivity]).
    + intros r ws' r' [<-|[<-|[]]] E; vm_compute in E; injection E as <- <-; unfold enough; vm_compute; lia.
  - apply (own_file_gzip_gen own_cs3); [exact own_created3_pf|discriminate|vm_compute; reflexivity|unfold enough; vm_compute; lia| | |vm_compute; reflexivity].
    + constructor; [|constructor; [|constructor]]; eexists; eexists; (split; [vm_compute; reflexivity|vm_compute; reflexivity]).
    + intros r ws' r' [<-|[<-|[]]] E; vm_compute in E; injection E as <- <-; unfold enough; vm_compute; lia.
Qed.

Lemma C86_check_own_partial_pf :
  forall (zl : zenv) fuel sha1 k he M n verbose uuid (files : list (str * raw)),
  henv_ok he -> he (lit "sha1") = Some sha1 -> 64 <= M ->
  Forall (fun f => exists data rs, snd f = raw_open data [] /\ own_file zl fuel sha1 k M BUFF_SIZE data rs /\ (List.length rs < n)%nat
                    /\ Forall (fun r => plain_content (wr_http r)) rs) files ->
  exists ms, check_all (zl:=zl) fuel he n verbose uuid 0 files = (Ok 0, ms)
    /\ (verbose = false -> ms = []) /\ (forall p, ~ In (MProblem p) ms) /\ ~ In MFailed ms.
Proof.
intros zl fuel sha1 k he M n verbose uuid files Hh Hs HM HF.
destruct (own_archives_plain zl fuel sha1 k he uuid M n files Hh Hs HM HF) as (ess & HA & HL & Hfn).
assert (HV : forall es e pl, In es ess -> In (e, pl) es -> not_vacuous he e /\ plain_content (e_http e)).
{ intros es e pl Hi He. destruct (Hfn es e pl Hi He) as ((_ & X) & Y). now split. }
destruct (C63_archives_partial_pf zl fuel he M n verbose uuid files ess HA HM HL HV) as (v & ms & E & _ & V0).
destruct (C82_archives_partial_pf zl fuel he M n verbose uuid files ess HA HM HL HV) as (v' & ms' & E' & R).
rewrite E in E'. injection E' as <- <-. exists ms. split.
- rewrite E, V0; [reflexivity|]. intros es e pl Hi He. now apply (Hfn es e pl).
- eapply report_fine; [exact R|]. intros es e pl Hi He. now apply (Hfn es e pl).
Qed.

Lemma C86_encoded_pf :
  forall (zl : zenv) he verbose uuid (files : list (str * raw)),
  (exists N, forall n fuel, (N <= n)%nat -> (N <= fuel)%nat -> fst (check_all (zl:=zl) fuel he n verbose uuid 0 files) <> Err OutOfFuel)
  /\ forall fuel sha1 k M n x ms,
     henv_ok he -> he (lit "sha1") = Some sha1 -> 64 <= M ->
     Forall (fun f => exists data rs, snd f = raw_open data [] /\ own_file zl fuel sha1 k M BUFF_SIZE data rs /\ (List.length rs < n)%nat) files ->
     check_all (zl:=zl) fuel he n verbose uuid 0 files = (x, ms) -> x <> Err OutOfFuel ->
     x = Ok 0 /\ (verbose = false -> ms = []) /\ (forall p, ~ In (MProblem p) ms) /\ ~ In MFailed ms.
Proof.
intros zl he verbose uuid files. destruct (C63_encoded_pf zl he verbose uuid files) as [HE HC]. split; [exact HE|].
intros fuel sha1 k M n x ms Hh Hs HM HF E Hx.
destruct (own_archives zl fuel sha1 k he uuid M n files Hh Hs HM HF) as (ess & HA & HL & Hfn).
destruct (HC fuel M n ess x ms HA HM HL) as (v & -> & _ & V0 & R); [intros es e pl Hi He; now apply (Hfn es e pl)|exact E|exact Hx|].
split.
- rewrite V0; [reflexivity|]. intros es e pl Hi He. now apply (Hfn es e pl).
- eapply report_fine; [exact R|]. intros es e pl Hi He. now apply (Hfn es e pl).
Qed.
