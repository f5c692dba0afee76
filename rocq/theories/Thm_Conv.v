(** * Thm_Conv: proofs of the theorems restated in Props_Conv.v *)
From Coq Require Import String List ZArith NArith Bool Lia.
From Coq Require Import ZifyBool ZifyNat ZifyN.
From Verif Require Import PyBase Utf8 Codecs Headers HeaderSpec Streams StreamSpec DigestSpec TimeUtils TimeSpec Loader Iterator Writer WriterSpec IterSpec RoundSpec ArcSpec Cli CliSpec RewriteSpec ConvSpec Toy.
Import ListNotations.
Open Scope Z_scope.

From Verif Require Import Facts TimeProofs HeaderProofs WriterProofs IterProofs GzProofs RoundProofs CliProofs TraceProofs CheckProofs ExtractProofs ArcProofs RewriteProofs Thm_Time Thm_Cli Thm_Arc Thm_Rewrite Thm_Buffered Thm_Enc Thm_Link.

Lemma digit_ok c : is_digit c = true -> is_scalar c = true /\ c <> LF /\ is_uspace c = false.
Proof.
  unfold is_digit. intros H. assert (48 <= c <= 57)%N as Hc by lia. clear H.
  assert (c = 48 \/ c = 49 \/ c = 50 \/ c = 51 \/ c = 52 \/ c = 53 \/ c = 54 \/ c = 55 \/ c = 56 \/ c = 57)%N as H by lia.
  repeat (destruct H as [->|H]; [repeat split; discriminate|]). subst c. repeat split; discriminate.
Qed.
Lemma iso_wf d : wf_value (iso19 d ++ lit "Z").
Proof.
  assert (A : forall c, In c (iso19 d ++ lit "Z") -> is_scalar c = true /\ c <> LF /\ is_uspace c = false).
  { intros c Hc. unfold iso19 in Hc.
    assert (D : forall w n, In c (fixed w n) -> is_scalar c = true /\ c <> LF /\ is_uspace c = false).
    { intros w n H. pose proof (fixed_digits w n) as X. rewrite forallb_forall in X. now apply digit_ok, X. }
    rewrite !in_app_iff in Hc.
    repeat match goal with H : _ \/ _ |- _ => destruct H as [H|H] end; try (now apply (D _ _ Hc)); vm_compute in Hc; destruct Hc as [<-|[]]; repeat split; discriminate. }
  split; [split|split].
  - intros c Hc. now apply A.
  - intros X. now apply A in X as (_ & X & _).
  - intros c t E. apply A. rewrite E. now left.
  - intros c t E. apply A. rewrite E. apply in_or_app. right. now left.
Qed.
Lemma id_wf uuid : wf_value uuid -> wf_value (make_warc_id uuid).
Proof.
  intros ((A & B) & _ & _). unfold make_warc_id. split; [split|split].
  - intros c Hc. repeat (apply in_app_or in Hc as [Hc|Hc]); [|now apply A|vm_compute in Hc; destruct Hc as [<-|[]]; reflexivity].
    vm_compute in Hc. repeat (destruct Hc as [<-|Hc]; [reflexivity|]). contradiction.
  - intros Hc. repeat (apply in_app_or in Hc as [Hc|Hc]); [|now apply B|vm_compute in Hc; destruct Hc as [Hc|[]]; discriminate].
    vm_compute in Hc. repeat (destruct Hc as [Hc|Hc]; [discriminate|]). contradiction.
  - intros c t E. injection E as <- _. reflexivity.
  - intros c t E. rewrite app_assoc in E. apply app_inj_tail in E as [_ <-]. reflexivity.
Qed.
Lemma const_header n v : wf_headerb (n, []) = true -> wf_value v -> wf_header (n, v).
Proof. intros H (A & B & C). apply wf_headerb_ok in H as (H1 & H2 & H3 & H4 & _). repeat (split; [assumption|]). exact C. Qed.

Lemma headers_fun uuid iso uri f hs : warc_headers (make_warc_id uuid) iso uri f hs -> hs = a2w_headers uuid iso uri f.
Proof.
  intros (A & B). destruct (a2w_headers_ok uuid iso uri f) as (A' & B'). destruct (is_filedesc (f_uri f)) eqn:E.
  - apply filedesc_iff in E as (t & Ht). rewrite (A t Ht). symmetry. now apply A'.
  - assert (~ filedesc f) as X by (intros X; apply filedesc_iff in X; congruence). rewrite (B X). symmetry. now apply B'.
Qed.
Lemma converted_fun f i1 u1 i2 u2 : converted f i1 u1 -> converted f i2 u2 -> i1 = i2 /\ u1 = u2.
Proof.
  intros ((d1 & E1 & ->) & H1) ((d2 & E2 & ->) & H2). rewrite E1 in E2. injection E2 as <-. split; [reflexivity|]. exact (normal_fun _ _ _ H1 H2).
Qed.

(** the record an ARC record is read as, and that it can be written *)
Definition warc_entry (uuid iso uri : str) (a : aentry) (txt : bytes) : entry :=
  mk_entry (mk_wrc (lit "WARC/1.0") (a2w_headers uuid iso uri (r_fields (ae_rec a))) (r_data (ae_rec a))) txt (ae_http a) (ae_payload a).
Lemma normal_nospace u v : normal_uri u v -> ~ In 32%N v.
Proof.
  assert (H : forall u v, spaces_encoded u v -> ~ In 32%N v).
  { clear. induction 1 as [|u v _ IH|c u v Hc _ IH]; [auto| |].
    - intros X. repeat (destruct X as [X|X]; [discriminate|]). now apply IH.
    - intros [X|X]; [now apply Hc|now apply IH]. }
  intros [(m & _ & X)|(_ & X)]; eauto.
Qed.
Lemma as_warc fuel M uuid a iso uri : wf_value uuid -> converted (r_fields (ae_rec a)) iso uri ->
  arc_writable fuel M a -> good_aentry fuel (recompress_opts uuid) M [] a -> enough fuel (ae_text a) ->
  exists txt, let e := warc_entry uuid iso uri a txt in
    arc_as_warc uuid a e /\ readied fuel M false e /\ rewritable fuel M false e.
Proof.
  intros Huu Hc [C1 C2 C3 C4 C5 C6] (Hwf & Hv & Hs & _) Hfu. pose proof Hc as ((d & _ & Ei) & Hu).
  set (f := r_fields (ae_rec a)) in *. set (hs := a2w_headers uuid iso uri f).
  assert (Hh : Forall wf_header hs).
  { unfold hs, a2w_headers. destruct (is_filedesc (f_uri f)) eqn:E.
    - apply filedesc_iff in E as (t & Ht). repeat (apply Forall_cons; [first [apply wf_headerb_ok; reflexivity|apply const_header; [reflexivity|]]|]); [..|apply Forall_nil].
      all: first [now apply id_wf|rewrite Ei; apply iso_wf|assumption|idtac].
      rewrite Ht. change 11 with (lenZ (lit "filedesc://")). rewrite dropZ_app_exact. apply (C4 t Ht).
    - repeat (apply Forall_cons; [first [apply wf_headerb_ok; reflexivity|apply const_header; [reflexivity|]]|]); [..|apply Forall_nil].
      all: first [now apply id_wf|rewrite Ei; apply iso_wf|assumption|now apply C5]. }
  destruct (wf_to_bytes (mk_sah [] hs (lit "WARC/1.0") 0 None)) as (head & Eh); [cbn; auto|reflexivity|exact Hh|].
  exists (head ++ r_data (ae_rec a) ++ [13; 10; 13; 10]%N). cbv zeta. unfold warc_entry. fold f hs.
  assert (Ht : w_value "WARC-Type" (mk_wrc (lit "WARC/1.0") hs (r_data (ae_rec a))) = Some (if is_filedesc (f_uri f) then lit "warcinfo" else lit "response")).
  { unfold hs, a2w_headers. destruct (is_filedesc (f_uri f)); reflexivity. }
  assert (Htu : w_value "WARC-Target-URI" (mk_wrc (lit "WARC/1.0") hs (r_data (ae_rec a))) = if is_filedesc (f_uri f) then None else Some uri).
  { unfold hs, a2w_headers. destruct (is_filedesc (f_uri f)); reflexivity. }
  cbn [recompress_opts lo_norec lo_verify lo_a2w] in Hv, Hs. destruct Hv as [Hv1 Hv2]. specialize (Hs eq_refl).
  assert (HV : http_view fuel false false (mk_wrc (lit "WARC/1.0") hs (r_data (ae_rec a))) (ae_http a) (ae_payload a)).
  { unfold http_view. rewrite Ht, Htu. cbn [w_block]. destruct (is_filedesc (f_uri f)) eqn:E.
    - destruct (Hv1 (proj1 (filedesc_iff _) E)) as [-> ->]. exists (raw_open (r_data (ae_rec a)) []). split; [|reflexivity].
      unfold load_http_headers. destruct (lenZ (r_data (ae_rec a))); reflexivity.
    - assert (~ filedesc f) as X by (intros X; apply filedesc_iff in X; congruence). destruct (Hv2 X) as (m & u & Hu' & Em & Ep).
      rewrite <- (normal_fun _ _ _ Hu Hu') in Em. exists m. now split. }
  split; [|split].
  - constructor; try reflexivity. exists iso, uri. split; [exact Hc|]. apply a2w_headers_ok.
  - unfold readied. cbn [e_rec e_text e_http e_payload w_version w_headers w_block]. split; [cbn; auto|]. split; [exact Hh|]. split.
    + rewrite Htu. destruct (is_filedesc (f_uri f)); [exact Logic.I|]. split; [now apply (normal_nospace _ _ Hu)|now apply C5].
    + split; [|split; [exact HV|split; [exact Hs|]]].
      * unfold text_of. cbn [w_version w_headers w_block]. now apply (is_record_ok (mk_sah [] hs (lit "WARC/1.0") 0 None) head).
      * unfold enough, ae_text, arc_bytes in Hfu. rewrite !app_length in Hfu. lia.
  - constructor; cbn [e_rec e_text e_http e_payload w_version w_headers w_block].
    + unfold hs, a2w_headers. destruct (is_filedesc (f_uri f)); vm_compute; lia.
    + rewrite Ht. destruct (is_filedesc (f_uri f)); discriminate.
    + destruct (ae_http a) as [h|] eqn:Eh'.
      * destruct (C6 h eq_refl) as (hb & Hb & [Q|(Q1 & Q2 & Q3 & Q4 & Q5)]).
        -- left. exists hb. cbn [e_http e_rec w_block e_payload]. now split.
        -- right. exists h, hb. rewrite Ht. split; [reflexivity|]. split; [exact Q1|]. split; [exact Hb|]. split; [exact Q2|].
           split; [|now split]. destruct (is_filedesc (f_uri f)) eqn:E; [|exact Q3].
           destruct (Hv1 (proj1 (filedesc_iff _) E)) as [Q _]. discriminate.
      * left. exists []. cbn [e_http e_rec w_block e_payload]. split; [reflexivity|].
        destruct HV as (m & Em & Ep). cbn [w_block] in Em. rewrite Ep. assert (enough fuel (r_data (ae_rec a))) as Hfd by (unfold enough, ae_text, arc_bytes in *; rewrite !app_length in Hfu; lia).
        destruct (http_None _ _ _ _ _ m Hfd Em) as [-> _]. reflexivity.
Qed.

Lemma as_warc_all fuel M uuid es : wf_value uuid -> Forall (arc_writable fuel M) es ->
  (forall a, In a es -> good_aentry fuel (recompress_opts uuid) M [] a /\ enough fuel (ae_text a)) ->
  exists es0, Forall2 (fun a e => (exists iso uri txt, converted (r_fields (ae_rec a)) iso uri /\ e = warc_entry uuid iso uri a txt)
                         /\ arc_as_warc uuid a e /\ readied fuel M false e /\ rewritable fuel M false e) es es0.
Proof.
  intros Huu Hw Hg. induction Hw as [|a es Ha _ IH]; [exists []; constructor|].
  destruct IH as (es0 & F); [intros b Hb; apply Hg; now right|]. destruct (Hg a (or_introl eq_refl)) as [G1 G2].
  destruct (converted_total (r_fields (ae_rec a))) as (iso & uri & Hc). destruct (as_warc fuel M uuid a iso uri Huu Hc Ha G1 G2) as (txt & A).
  exists (warc_entry uuid iso uri a txt :: es0). constructor; [|exact F]. split; [now exists iso, uri, txt|exact A].
Qed.

Lemma arc_source {zl : zenv} uuid a iso uri txt off len us (ob : @obs zl) : converted (r_fields (ae_rec a)) iso uri ->
  arc_observed (recompress_opts uuid) (ae_rec a) (ae_http a) (ae_payload a) off len us ob -> source (ob_record ob) (warc_entry uuid iso uri a txt).
Proof.
  intros Hc [_ Hw Hct (Hp & Hst) Hl Hh Hpl _ _ _]. destruct (Hw eq_refl) as (_ & (i' & u' & Hc' & X) & T1 & T2). specialize (Hct eq_refl).
  destruct (converted_fun _ _ _ _ _ Hc Hc') as [<- <-]. apply headers_fun in X. cbn [recompress_opts lo_uuid] in X.
  unfold source, warc_entry. cbn [e_rec e_http e_payload w_version w_headers w_block].
  split; [|split; [exact Hp|]; split; [exact X|]; split; [exact Hst|]; split; [exact Hl|]; split; [|now split]].
  - unfold w_value. cbn [w_headers]. unfold a2w_headers. destruct (is_filedesc (f_uri (r_fields (ae_rec a)))) eqn:E.
    + rewrite (T1 (proj1 (filedesc_iff _) E)). reflexivity.
    + rewrite T2; [reflexivity|]. intros Y. apply filedesc_iff in Y. congruence.
  - rewrite Hct, X. reflexivity.
Qed.

Lemma good_areads fuel o M us a : good_aentry fuel o M [] a -> nonneg_ops us -> limited_lines M us -> good_aentry fuel o M us a.
Proof. intros (A & B & C & _ & _) Hn Hr. repeat (split; [assumption|]). eapply Forall_impl; [|exact Hr]. intros [n|n|] H; auto. Qed.
Lemma arc_archive_good zl fuel o M data es : arc_archive zl fuel o M data es -> forall a, In a es -> good_aentry fuel o M [] a /\ enough fuel (ae_text a).
Proof.
  intros [l Hz HM Hfu Hg|ms Hne Hfit Hfu Hg] a Ha.
  - apply In_nth_error in Ha as (i & Hi). split; [apply (Hg i a Hi)|]. apply nth_error_split in Hi as (l1 & l2 & -> & _).
    unfold enough, ae_texts in *. rewrite map_app, concat_app in Hfu. cbn [map concat] in Hfu. rewrite !app_length in Hfu. lia.
  - apply in_map_iff in Ha as ([b m] & <- & Ha). destruct (Hg b m Ha) as (A & _ & _ & B). now split.
Qed.
Lemma arc_archive_run {zl : zenv} fuel he o M data es n prog : arc_archive zl fuel o M data es -> 0 <= M -> lo_ensure o = false -> (List.length es < n)%nat -> read_prog prog ->
  exists obs, run_iter (zl:=zl) fuel he o n prog 0 (iter_new (mk_raw data 0 []) BUFF_SIZE None) = (obs, EndStop) /\ List.length obs = List.length es
    /\ forall i a ob, nth_error es i = Some a -> nth_error obs i = Some ob ->
         exists off len, arc_observed o (ae_rec a) (ae_http a) (ae_payload a) off len (prog i) ob.
Proof.
  intros H HM0 Hen Hn Hp. destruct H as [l Hz HM Hfu Hg|ms Hne Hfit Hfu Hg].
  - destruct (arc_plain (zl:=zl) fuel he o M prog 0 l [] BUFF_SIZE None n Hz) as (obs & E & Hl & Hob); try assumption.
    + split; [vm_compute; discriminate|exact Logic.I].
    + right. now split.
    + intros i e He. destruct (Hg i e He) as (A & B). split; [|exact B]. destruct (read_prog_ok prog M i Hp) as (P1 & P2 & _). now apply good_areads.
    + discriminate.
    + exists obs. split; [exact E|]. split; [exact Hl|]. intros i a ob H1 H2. eexists _, _. exact (Hob i a ob H1 H2).
  - rewrite map_length in *. destruct (arc_gz (zl:=zl) fuel he o M prog 0 ms [] BUFF_SIZE None n Hne) as (obs & E & Hl & Hob); try assumption.
    + destruct Hfit as [X|(_ & X)]; [now left|right]. split; [reflexivity|]. intros i e m He. destruct (X i e m He) as [Y|(_ & Y)]; [now left|right].
      split; [|exact Y]. now destruct (read_prog_ok prog M i Hp) as (_ & _ & P).
    + reflexivity.
    + intros e m He. now destruct (Hg e m He) as (_ & _ & _ & A).
    + intros i e m He. destruct (Hg e m (nth_error_In _ _ He)) as (A & B & C & _). destruct (read_prog_ok prog M i Hp) as (P1 & P2 & _). split; [now apply good_areads|now split].
    + discriminate.
    + exists obs. split; [exact E|]. split; [exact Hl|]. intros i a ob H1 H2. rewrite nth_error_map in H1.
      destruct (nth_error ms i) as [[b m]|] eqn:Eb; [|discriminate]. injection H1 as <-. eexists _, _. exact (Hob i b m ob Eb H2).
Qed.

Lemma convert_archive {zl : zenv} fuel he k sha1 uuid M data es n size :
  gzip_codec zl k -> hash_bytes sha1 -> 0 <= M -> wf_value uuid ->
  arc_archive zl fuel (recompress_opts uuid) M data es -> Forall (arc_writable fuel M) es -> (List.length es < n)%nat ->
  exists es0 es' ms, recompress (zl:=zl) fuel he n sha1 k uuid size data = RcOk (List.length es) false (concat ms)
    /\ Forall2 (arc_as_warc uuid) es es0 /\ Forall2 (rewritten sha1) es0 es' /\ compressed zl es' ms
    /\ forall he' o', lo_norec o' = false -> lo_verify o' = false -> (forall e', In e' es' -> digests_ready he' o' (e_rec e') (e_payload e')) -> Forall (good_entry fuel he' o' M []) es'.
Proof.
  intros Hz Hsha HM Huu HA Hw Hn. destruct (as_warc_all fuel M uuid es Huu Hw (arc_archive_good _ _ _ _ _ _ HA)) as (es0 & F0).
  assert (L0 : List.length es0 = List.length es) by (clear - F0; induction F0; cbn; auto).
  destruct (copy_any (zl:=zl) fuel he (recompress_opts uuid) M es0 n sha1 k (lit "WARC/1.0") true (iter_new (mk_raw data 0 []) BUFF_SIZE None) eq_refl Hsha)
    as (es' & wss & E & F1 & F2).
  - clear - F0. induction F0 as [|a e es es0 (_ & _ & A) _ IH]; constructor; [exact A|exact IH].
  - intros prog Hp. destruct (arc_archive_run (zl:=zl) fuel he (recompress_opts uuid) M data es n prog HA HM eq_refl Hn Hp) as (obs & E & Hl & Hob).
    exists obs. split; [exact E|]. split; [congruence|]. intros i e ob H1 H2.
    assert (exists a, nth_error es i = Some a /\ exists iso uri txt, converted (r_fields (ae_rec a)) iso uri /\ e = warc_entry uuid iso uri a txt) as (a & Ha & iso & uri & txt & Hc & ->).
    { clear - F0 H1. revert i H1. induction F0 as [|a e0 es es0 (A & _) _ IH]; intros [|i] H1; try discriminate; [injection H1 as <-; exists a; now split|exact (IH i H1)]. }
    destruct (Hob i a ob Ha H2) as (off & len & Ho). split; [now apply (arc_source uuid a iso uri txt off len (prog i))|].
    destruct Ho. split; [exact ao_data|]. exists off, len. exact ao_place.
  - exists es0, es', (map (@concat N) wss). split; [|split; [|split; [|split]]].
    + unfold recompress, load_and_write. change (raw_open data []) with (mk_raw data 0 []). rewrite E, L0. f_equal.
      clear. induction wss as [|w wss IH]; [reflexivity|]. cbn [concat map]. rewrite concat_app. now f_equal.
    + clear - F0. induction F0 as [|a e es es0 (_ & A & _) _ IH]; constructor; [exact A|exact IH].
    + clear - F1. induction F1 as [|x e' es es' [H _] _ IH]; constructor; auto.
    + clear - F2 Hz. unfold compressed. induction F2 as [|e' ws es' wss (w0 & E0 & ->) _ IH]; cbn [map]; constructor; [rewrite <- E0, gz_writes_deflated; apply Hz|exact IH].
    + intros he' o' H1 H2 H3. clear - F1 H1 H2 H3. induction F1 as [|x e' es es' [_ H] _ IH]; constructor; [|apply IH; intros; apply H3; now right].
      apply H; [exact H1|rewrite H2; reflexivity|]. apply H3. now left.
Qed.
(** the example of C75 *)
Lemma conv_ok v : forallb (fun c => is_scalar c && negb (c =? LF)%N && negb (is_uspace c)) v = true -> wf_value v.
Proof.
  intros H. assert (K : forall c, In c v -> is_scalar c = true /\ c <> LF /\ is_uspace c = false).
  { intros c Hc. rewrite forallb_forall in H. specialize (H c Hc). apply andb_prop in H as [H H3]. apply andb_prop in H as [H1 H2].
    split; [exact H1|]. split; [intros ->; discriminate|]. now apply negb_true_iff. }
  split; [split|split].
  - intros c Hc. now apply K.
  - intros Hc. now apply K in Hc as (_ & X & _).
  - intros c t E. apply K. rewrite E. now left.
  - intros c t E. apply K. rewrite E. apply in_or_app. right. now left.
Qed.
Lemma conv_ex : arc_archive toy_z 600 (recompress_opts (lit "u")) 200 (ae_texts Thm_Arc.ex_es) Thm_Arc.ex_es /\ Forall (arc_writable 600 200) Thm_Arc.ex_es.
Proof.
  split.
  - apply AA_plain; [apply toy_gz_magic_pf|vm_compute; discriminate|vm_compute; lia|].
    intros i e Hi. destruct (Thm_Arc.ex_good_pf i e Hi) as ((A & B & C & _) & W). split; [|exact W]. split; [exact A|]. split; [|split; [exact C|split; constructor]].
    destruct i as [|[|i]]; cbn in Hi; [| |destruct i; discriminate]; injection Hi as <-.
    + split; [auto|]. intros X. exfalso. apply X. now exists (lit "a.arc").
    + split; [intros (t & Ht); discriminate Ht|]. intros _. eexists _, _. split; [right; split; [|apply replace_spaces_ok]|].
      { intros m X. vm_compute in X. injection X as X. discriminate. }
      split; vm_compute; reflexivity.
  - repeat (apply Forall_cons; [constructor; try (apply conv_ok; reflexivity)|]); [..|apply Forall_nil].
    + intros t Ht. apply (app_inv_head (lit "filedesc://") (lit "a.arc") t) in Ht as <-. apply conv_ok. reflexivity.
    + intros u Hu. rewrite <- (normal_fun _ _ _ (normal_plain (lit "filedesc://a.arc") ltac:(split; [apply Thm_Arc.ex_nospace; reflexivity|intros m X; discriminate X])) Hu).
      split; [apply conv_ok; reflexivity|]. intros m X. discriminate X.
    + discriminate.
    + intros t Ht. discriminate Ht.
    + intros u Hu. assert (normal_uri (lit "http://a/x y") (lit "http://a/x%20y")) as N.
      { right. split; [intros m X; discriminate X|apply (replace_spaces_ok (lit "http://a/x y"))]. }
      rewrite <- (normal_fun _ _ _ N Hu). split; [apply conv_ok; reflexivity|]. intros m X. discriminate X.
    + intros h [= <-]. exists (r_data Thm_Arc.ex_r1). split; [vm_compute; reflexivity|]. left. reflexivity.
Qed.
(** converted records have no digests *)
Lemma converted_digests uuid a e : arc_as_warc uuid a e ->
  w_value "WARC-Block-Digest" (e_rec e) = None /\ w_value "WARC-Payload-Digest" (e_rec e) = None.
Proof.
  intros [_ (iso & uri & _ & X) _ _ _]. apply headers_fun in X. unfold w_value. rewrite X. unfold a2w_headers.
  destruct (is_filedesc (f_uri (r_fields (ae_rec a)))); split; reflexivity.
Qed.

Lemma C93_convert_pf :
  forall (zl : zenv) fuel he k sha1 uuid M data es n size,
  gzip_codec zl k -> hash_bytes sha1 -> 0 <= M -> wf_value uuid ->
  arc_archive zl fuel (recompress_opts uuid) M data es -> Forall (arc_writable fuel M) es -> (List.length es < n)%nat ->
  exists es0 es' ms, recompress (zl:=zl) fuel he n sha1 k uuid size data = RcOk (List.length es) false (concat ms)
    /\ Forall2 (arc_as_warc uuid) es es0 /\ Forall2 (rewritten sha1) es0 es' /\ compressed zl es' ms
    /\ (es <> [] -> back_fits zl fuel es' ms -> forall o n',
          lo_norec o = false -> lo_verify o = false -> digests_off o -> (List.length es < n')%nat ->
          exists obs, run_iter (zl:=zl) fuel he o n' (fun _ => [URead None]) 0 (iter_new (raw_open (concat ms) []) BUFF_SIZE None) = (obs, EndStop)
            /\ Forall2 (comes_back sha1) es0 obs).
Proof.
intros zl fuel he k sha1 uuid M data es n size Hz Hsha HM Huu HA Hw Hn.
destruct (convert_archive (zl:=zl) fuel he k sha1 uuid M data es n size Hz Hsha HM Huu HA Hw Hn) as (es0 & es' & ms & E & F0 & F1 & F2 & F3).
exists es0, es', ms. repeat (split; [assumption|]). intros Hne Hfit o n' Ho1 Ho2 [Ho3 Ho4] Hn'.
assert (L0 : List.length es = List.length es0) by (clear - F0; induction F0; cbn; auto).
assert (Hl : List.length es0 = List.length es') by (clear - F1; induction F1; cbn; auto).
assert (Hge : Forall (good_entry fuel he o M []) es') by (apply F3; [exact Ho1|exact Ho2|]; intros e' _; now left).
destruct (read_back (zl:=zl) fuel he o M es' ms n' Hge F2 Hfit Ho4 HM) as (obs & Er & HF); [|lia|].
{ intros ->. destruct es; [contradiction|cbn in *; lia]. }
exists obs. split; [exact Er|]. pose proof (Forall2_trans' _ _ _ _ _ F1 HF) as G. clear - G.
induction G as [|x ob es obs (e' & R & off & len & H) _ IH]; constructor; [|exact IH]. eapply rewritten_back; eauto.
Qed.

Lemma C93_check_pf :
  forall (zl : zenv) fuel he k sha1 uuid M data es n size,
  gzip_codec zl k -> henv_ok he -> he (lit "sha1") = Some sha1 -> 64 <= M -> wf_value uuid ->
  arc_archive zl fuel (recompress_opts uuid) M data es -> Forall (arc_writable fuel M) es -> es <> [] -> (List.length es < n)%nat ->
  exists es' ms, recompress (zl:=zl) fuel he n sha1 k uuid size data = RcOk (List.length es) false (concat ms)
    /\ compressed zl es' ms /\ Forall (fun e => exists d, w_value "WARC-Block-Digest" (e_rec e) = Some d) es'
    /\ (back_fits zl fuel es' ms -> Forall2 (fun e m => unchunked e \/ lenZ m <= BUFF_SIZE) es' ms ->
        forall name verbose x ms1,
        check_all (zl:=zl) fuel he n verbose uuid 0 [(name, raw_open (concat ms) [])] = (x, ms1) -> x <> Err OutOfFuel -> x = Ok 0).
Proof.
intros zl fuel he k sha1 uuid M data es n size Hz Hh Hs HM Huu HA Hw Hne Hn.
assert (Hsha : hash_bytes sha1). { intros b. destruct (Hh _ _ Hs) as (m & _ & X). apply X. }
destruct (convert_archive (zl:=zl) fuel he k sha1 uuid M data es n size Hz Hsha ltac:(lia) Huu HA Hw Hn) as (es0 & es' & ms & E & F0 & F1 & F2 & F3).
exists es', ms. split; [exact E|]. split; [exact F2|].
assert (L0 : List.length es = List.length es0) by (clear - F0; induction F0; cbn; auto).
assert (Hl : List.length es0 = List.length es') by (clear - F1; induction F1; cbn; auto).
assert (FF : Forall2 (fun e e' => rewritten sha1 e e' /\ w_value "WARC-Block-Digest" (e_rec e) = None /\ w_value "WARC-Payload-Digest" (e_rec e) = None) es0 es').
{ clear - F0 F1. revert es F0. induction F1 as [|e e' es0 es' R _ IH]; intros es F0; inversion F0 as [|a ? es1 ? A B]; subst; constructor; [|eauto].
  split; [exact R|exact (converted_digests uuid a e A)]. }
split.
{ clear - FF. induction FF as [|e e' es0 es' (R & D & _) _ IH]; constructor; [|exact IH]. pose proof (hk_block _ _ _ _ _ _ (re_headers _ _ _ R)) as X.
  unfold w_value in *. unfold digest_kept in X. rewrite D in X. eauto. }
assert (HJ : forall e', In e' es' -> judge_ok he e' /\ ~ fails he e').
{ intros e' He'. clear - FF He' Hh Hs. induction FF as [|e x es0 es' (R & D1 & D2) _ IH]; [contradiction|]. destruct He' as [->|He']; [|auto].
  assert (B1 : block_digest (e_rec e) = None) by (unfold block_digest; rewrite D1; unfold eff_block; now destruct (w_value "WARC-Type" (e_rec e)) as [t|]; [destruct (leqb t (lit "revisit"))|]).
  assert (B2 : payload_digest (e_rec e) = None).
  { unfold payload_digest. rewrite D2. unfold eff_payload, eff_block. destruct (w_value "WARC-Segment-Number" (e_rec e)); [reflexivity|].
    destruct (w_value "WARC-Type" (e_rec e)) as [t|]; [|reflexivity]. now destruct (leqb t (lit "revisit")). }
  assert (NB : forall x, ~ judged he x None VBad) by (intros y J; inversion J).
  assert (JE : judge_ok he e).
  { split; [|split]; [rewrite B1; intros y; exists VNone; constructor|rewrite B2; intros y; exists VNone; constructor|]. intros _. rewrite B1. apply NB. }
  assert (ST : digest_stable e) by (now right).
  split; [now apply (judge_same he sha1 Hh Hs e)|]. intros Hf. apply (fails_same he sha1 Hh Hs e e' R ST) in Hf.
  destruct Hf as [(_ & J)|J]; [rewrite B1 in J|rewrite B2 in J]; now apply NB in J. }
intros Hfit Hun name verbose x ms1 Ex Nx.
assert (Hge : Forall (good_entry fuel he (check_opts uuid) M []) es').
{ apply F3; auto. intros e' He'. right. destruct (HJ e' He') as ((A & B & _) & _). split; [exact Hh|]. left. split; [discriminate|]. split; assumption. }
assert (Hne' : es' <> []) by (intros ->; destruct es; [contradiction|cbn in *; lia]).
destruct (back_archive unchunked fuel he (check_opts uuid) M es' ms Hge F2 Hfit Hun ltac:(lia) Hne') as (pes & HB & Hfst).
assert (Hlp : (List.length pes < n)%nat) by (assert (List.length pes = List.length es') by (rewrite <- Hfst; now rewrite map_length); lia).
destruct (proj2 (C63_encoded_pf zl he verbose uuid [(name, raw_open (concat ms) [])]) fuel M n [pes] x ms1) as (v & V1 & V2 & V3 & _); auto.
- constructor; [exists (concat ms), []; now split|constructor].
- intros es1 e pl [<-|[]] Hi. assert (In e es') as X by (rewrite <- Hfst; exact (in_map fst _ _ Hi)). now destruct (HJ e X) as ((_ & _ & Y) & _).
- rewrite V1. f_equal. apply V3. intros es1 e pl [<-|[]] Hi. assert (In e es') as X by (rewrite <- Hfst; exact (in_map fst _ _ Hi)). now destruct (HJ e X).
Qed.
