(** * Thm_Arc: proofs of the theorems restated in Props_Arc.v *)
From Coq Require Import String List ZArith NArith Bool Lia.
From Coq Require Import ZifyBool ZifyNat ZifyN.
From Verif Require Import PyBase Utf8 Codecs Headers HeaderSpec Streams StreamSpec DigestSpec TimeUtils TimeSpec Loader Iterator WriterSpec IterSpec ArcSpec Toy.
Import ListNotations.
Open Scope Z_scope.

From Verif Require Import Facts StreamProofs HeaderProofs FillProofs Thm_Time IterProofs GzProofs RoundProofs ArcProofs.

(** examples: a file with its description and a response whose URL contains a space *)
Definition ex_f0 : fields := mk_fields (lit "filedesc://a.arc") (lit "0.0.0.0") (lit "20131226101112") (lit "text/plain") (lit "34").
Definition ex_f1 : fields := mk_fields (lit "http://a/x y") (lit "127.0.0.1") (lit "20131226101113") (lit "text/html") (lit "25").
Definition ex_r0 : arec :=
  mk_arec ex_f0 (lit "filedesc://a.arc 0.0.0.0 20131226101112 text/plain 34" ++ [10%N])
    (lit "1 0 Org" ++ [10%N] ++ lit "URL IP Date Type Length" ++ [10%N]) (lit "!!").
Definition ex_r1 : arec :=
  mk_arec ex_f1 (lit "http://a/x y 127.0.0.1 20131226101113 text/html 25" ++ [13; 10]%N) []
    (lit "HTTP/1.0 200 OK" ++ crlf ++ lit "A: b" ++ crlf ++ crlf).
Definition ex_http : sah := mk_sah (lit "200 OK") [(lit "A", lit "b")] (lit "HTTP/1.0") 25 None.
Definition ex_es : list aentry := [mk_aentry ex_r0 [10%N] None (lit "!!"); mk_aentry ex_r1 [] (Some ex_http) []].
(** and a record without data *)
Definition ex_f2 : fields := mk_fields (lit "dns:a") (lit "127.0.0.1") (lit "20131226101113") (lit "text/dns") (lit "0").
Definition ex_r2 : arec := mk_arec ex_f2 (lit "dns:a 127.0.0.1 20131226101113 text/dns 0" ++ [10%N]) [] [].
(** the records with no blank lines between them *)
Definition ex_bare2 : list aentry := [mk_aentry ex_r0 [] None (lit "!!"); mk_aentry ex_r1 [] (Some ex_http) []].
Definition ex_bare3 : list aentry := [mk_aentry ex_r0 [] None (lit "!!"); mk_aentry ex_r2 [] None []; mk_aentry ex_r1 [] (Some ex_http) []].
Definition ex_o : lopts := mk_lopts false false false false KFalse (lit "u").
Definition ex_prog (k : nat) : list uop := match k with O => [URead (Some 1)] | _ => [] end.

Lemma ex_line0 : is_line (r_line ex_r0). Proof. exists (lit "filedesc://a.arc 0.0.0.0 20131226101112 text/plain 34"). split; [|reflexivity]. cbn. intros H. repeat (destruct H as [H|H]; [discriminate|]). exact H. Qed.
Lemma ex_line1 : is_line (r_line ex_r1). Proof. exists (lit "http://a/x y 127.0.0.1 20131226101113 text/html 25" ++ [13%N]). split; [|reflexivity]. cbn. intros H. repeat (destruct H as [H|H]; [discriminate|]). exact H. Qed.
Lemma ex_nospace s : forallb (fun c => negb (c =? 32)%N) s = true -> ~ In 32%N s.
Proof. intros H X. rewrite forallb_forall in H. specialize (H _ X). discriminate. Qed.
Lemma ex_trail (p : N -> bool) s c : p c = false -> no_trail p (s ++ [c]).
Proof. intros H x t E. apply app_inj_tail in E as [_ <-]. exact H. Qed.
Lemma ex_notwarc t : match t with c :: _ => negb (c =? 87)%N | [] => true end = true -> forall q r, In q WARC_TYPES -> t <> q ++ r.
Proof. intros H q r Hq ->. destruct Hq as [<-|[<-|[<-|[<-|[]]]]]; discriminate H. Qed.
Lemma ex_wf0 : wf_arec ex_r0.
Proof.
  split; [|split; [exact ex_line0|split; [|split; [|split; [|split; [|split]]]]]].
  - repeat (split; [now apply ex_nospace|]). apply (ex_trail is_uspace (lit "filedesc://a.arc 0.0.0.0 20131226101112 text/plain 3") 52%N). reflexivity.
  - exists [10%N]. split; [reflexivity|]. intros c [<-|[]]. reflexivity.
  - apply ex_notwarc. reflexivity.
  - discriminate.
  - intros _. exists (lit "1 0 Org" ++ [10%N]), (lit "URL IP Date Type Length" ++ [10%N]). split; [reflexivity|]. split; [|split].
    + exists (lit "1 0 Org"). split; [|reflexivity]. cbn. intros H. repeat (destruct H as [H|H]; [discriminate|]). exact H.
    + exists (lit "URL IP Date Type Length"). split; [|reflexivity]. cbn. intros H. repeat (destruct H as [H|H]; [discriminate|]). exact H.
    + intros c Hc. assert (forallb (fun c => c <? 128)%N (r_spec ex_r0) = true) as X by reflexivity. rewrite forallb_forall in X. specialize (X c Hc). lia.
  - intros H. exfalso. apply H. exists (lit "a.arc"). reflexivity.
  - reflexivity.
Qed.
Lemma ex_wf1 : wf_arec ex_r1.
Proof.
  split; [|split; [exact ex_line1|split; [|split; [|split; [|split; [|split]]]]]].
  - repeat (split; [now apply ex_nospace|]). apply (ex_trail is_uspace (lit "http://a/x y 127.0.0.1 20131226101113 text/html 2") 53%N). reflexivity.
  - exists [13; 10]%N. split; [reflexivity|]. intros c [<-|[<-|[]]]; reflexivity.
  - apply ex_notwarc. reflexivity.
  - discriminate.
  - intros (t & Ht). discriminate Ht.
  - intros _. reflexivity.
  - reflexivity.
Qed.
Lemma ex_wf2 : wf_arec ex_r2.
Proof.
  split; [|split; [|split; [|split; [|split; [|split; [|split]]]]]].
  - repeat (split; [now apply ex_nospace|]). apply (ex_trail is_uspace (lit "dns:a 127.0.0.1 20131226101113 text/dns ") 48%N). reflexivity.
  - exists (lit "dns:a 127.0.0.1 20131226101113 text/dns 0"). split; [|reflexivity]. cbn. intros H. repeat (destruct H as [H|H]; [discriminate|]). exact H.
  - exists [10%N]. split; [reflexivity|]. intros c [<-|[]]. reflexivity.
  - apply ex_notwarc. reflexivity.
  - discriminate.
  - intros (t & Ht). discriminate Ht.
  - intros _. reflexivity.
  - reflexivity.
Qed.
Lemma ex_good2 tl : good_aentry 300 ex_o 200 [] (mk_aentry ex_r2 tl None []).
Proof.
  split; [exact ex_wf2|]. split; [split; [intros (t & Ht); discriminate Ht|]|].
  - intros _. eexists _, _. split; [reflexivity|]. split; vm_compute; reflexivity.
  - split; [intros _ H; now elim H|]. split; constructor.
Qed.
Lemma ex_good_pf : forall i e, nth_error ex_es i = Some e -> good_aentry 300 ex_o 200 (ex_prog i) e
  /\ white (ae_tail e) /\ (white_lines (ae_tail e) \/ S i = List.length ex_es).
Proof.
  assert (W : white [10%N]) by (intros c [<-|[]]; reflexivity).
  intros [|[|i]] e Hi; cbn in Hi; [| |destruct i; discriminate]; injection Hi as <-; cbn [ae_tail ae_rec ae_http ae_payload].
  - split; [|split; [exact W|left; split; [exact W|now exists []]]].
    split; [exact ex_wf0|]. split; [split; [auto|]|].
    + intros H. exfalso. apply H. now exists (lit "a.arc").
    + split; [intros _ H; now elim H|]. split; [constructor; [cbn; lia|constructor]|]. constructor; [exact I|constructor].
  - split; [|split; [intros c []|now right]].
    split; [exact ex_wf1|]. split; [split; [intros (t & Ht); discriminate Ht|]|].
    + intros _. eexists _, _. split; [reflexivity|]. split; vm_compute; reflexivity.
    + split; [|split; constructor]. intros _ _. exists (r_data ex_r1), []. split; [reflexivity|]. split.
      * exists [lit "HTTP/1.0 200 OK" ++ crlf; lit "A: b" ++ crlf], crlf. split; [reflexivity|]. split.
        -- repeat constructor.
           ++ exists (lit "HTTP/1.0 200 OK" ++ [13%N]). split; [|reflexivity]. cbn. intros H. repeat (destruct H as [H|H]; [discriminate|]). exact H.
           ++ intros H. specialize (H 72%N). assert (is_uspace 72 = true) as X; [apply H; cbn; now left|discriminate X].
           ++ exists (lit "A: b" ++ [13%N]). split; [|reflexivity]. cbn. intros H. repeat (destruct H as [H|H]; [discriminate|]). exact H.
           ++ intros H. specialize (H 65%N). assert (is_uspace 65 = true) as X; [apply H; cbn; now left|discriminate X].
        -- left. split; [exists [13%N]; split; [|reflexivity]; intros [H|[]]; discriminate|]. intros c Hc. cbn in Hc. destruct Hc as [<-|[<-|[]]]; reflexivity.
      * intros p q E. assert (lenZ (r_data ex_r1) = 25) as X by reflexivity. rewrite E, lenZ_app in X.
        pose proof (lenZ_nonneg p). pose proof (take_drop_line q) as Y. apply (f_equal lenZ) in Y. rewrite lenZ_app in Y. pose proof (lenZ_nonneg (drop_line q)). lia.
Qed.

Lemma fields_unique f g : wf_fields f -> wf_fields g -> arc_text f = arc_text g -> f = g.
Proof.
  intros Hf Hg E. pose proof (rsplit_fields f Hf) as Ef. rewrite E, (rsplit_fields g Hg) in Ef. destruct f, g. cbn in Ef. now injection Ef as -> -> -> -> ->.
Qed.

Lemma C43_fields_pf :
  forall (S : Type) (ops : sops S) (R : S -> bytes -> Prop) uuid f s c,
  exact_full_line ops R -> R s c -> wf_fields f -> text_line (take_line c) (arc_text f) ->
  exists s' n, arc_parse ops false uuid None s = (Ok (mk_sah [] (native_headers f) (lit "WARC/1.0") n None), s')
    /\ (~ filedesc f -> R s' (drop_line c) /\ n = 0)
    /\ (filedesc f -> R s' (drop_line (drop_line (drop_line c)))
        /\ n = lenZ (decode_header (take_line (drop_line c))) + lenZ (decode_header (take_line (drop_line (drop_line c))))).
Proof.
intros S ops R uuid f s c HL HR Hf (ws & Ed & Hws).
destruct (arc_parse_None ops R HL false uuid s c HR) as (s1 & _ & HR1 & ->).
assert (Eu : urstrip (decode_hline (HBytes (take_line c))) = arc_text f) by (cbn [decode_hline]; rewrite Ed; apply urstrip_text; [apply Hf|exact Hws]).
assert (Hne : decode_hline (HBytes (take_line c)) <> []).
{ intros X. rewrite X in Eu. symmetry in Eu. exact (arc_text_ne f Eu). }
destruct (arc_parse_line ops R HL false uuid (HBytes (take_line c)) s1 _ HR1 Hne) as (s2 & E & HR2).
rewrite Eu, filedesc_line in E, HR2. rewrite (parsed_fields false uuid f [] Hf) in E by discriminate.
eexists s2, _. split; [exact E|]. split; intros Hfd.
- destruct (is_filedesc (f_uri f)) eqn:Ei; [apply filedesc_iff in Ei; contradiction|]. now split.
- apply filedesc_iff in Hfd. rewrite Hfd in *. now split.
Qed.

Lemma C43_complete_pf :
  forall (S : Type) (ops : sops S) (R : S -> bytes -> Prop) uuid s c t,
  exact_full_line ops R -> R s c -> c <> [] -> text_line (take_line c) t -> no_trail is_uspace t ->
  ((4 <= count_occ N.eq_dec t 32%N)%nat ->
     exists f, wf_fields f /\ arc_text f = t /\ (forall g, wf_fields g -> arc_text g = t -> g = f)
       /\ exists h s', arc_parse ops false uuid None s = (Ok h, s') /\ sh_headers h = native_headers f)
  /\ ((count_occ N.eq_dec t 32%N < 4)%nat -> exists l s', arc_parse ops false uuid None s = (Err (ParserExn l), s')).
Proof.
intros S ops R uuid s c t HL HR Hc Hl Ht. split.
- intros Hn. destruct (rsplit_Some4 t Hn) as (f & E & H1 & H2 & H3 & H4). assert (Hf : wf_fields f) by (subst t; repeat split; assumption).
  exists f. split; [exact Hf|]. split; [exact E|]. split; [intros g Hg Eg; apply fields_unique; [exact Hg|exact Hf|congruence]|].
  subst t. destruct (C43_fields_pf S ops R uuid f s c HL HR Hf Hl) as (s' & n & Ep & _). eexists _, s'. split; [exact Ep|reflexivity].
- intros Hn. destruct Hl as (ws & Ed & Hws).
  destruct (arc_parse_None ops R HL false uuid s c HR) as (s1 & _ & HR1 & ->).
  assert (Hne : decode_hline (HBytes (take_line c)) <> []).
  { cbn [decode_hline]. apply decode_ne. intros X. apply Hc. now apply take_line_nil. }
  destruct (arc_parse_line ops R HL false uuid (HBytes (take_line c)) s1 _ HR1 Hne) as (s2 & E & _).
  rewrite E. cbn [decode_hline]. rewrite Ed, (urstrip_text t ws Ht Hws). unfold parsed.
  assert (X : List.length (rsplit 32 4 t) <> 5%nat) by (rewrite rsplit_length; lia).
  destruct (lenZ (rsplit 32 4 t) =? 5) eqn:E5; [exfalso; apply X; unfold lenZ in E5; lia|]. cbn [negb]. now exists [], s2.
Qed.

Lemma C43_load_failed_pf :
  forall (S : Type) (ops : sops S) (R : S -> bytes -> Prop) fuel he o known s c t,
  exact_full_line ops R -> R s c -> text_line (take_line c) t -> no_trail is_uspace t -> t <> [] ->
  (known <> Some FArc -> forall q r, In q WARC_TYPES -> upper t <> q ++ r) ->
  (known <> Some FWarc -> (count_occ N.eq_dec t 32%N < 4)%nat) ->
  exists s', parse_record_stream ops fuel he o None known s = (Err ArchiveLoadFailed, s').
Proof.
intros S ops R fuel he o known s c t HL HR (ws & Ed & Hws) Ht Htn Hw Ha.
destruct (HL s c HR) as (s1 & Er & HR1).
assert (Hd : decode_header (take_line c) <> []) by (rewrite Ed; destruct t; [contradiction|discriminate]).
assert (Harc : forall h s0 c0, R s0 c0 -> decode_hline h = decode_header (take_line c) -> known <> Some FWarc ->
          exists l s', arc_parse ops (lo_a2w o) (lo_uuid o) (Some h) s0 = (Err (ParserExn l), s')).
{ intros h s0 c0 HR0 Eh Hk. destruct (arc_parse_line ops R HL (lo_a2w o) (lo_uuid o) h s0 c0 HR0) as (s2 & E & _); [now rewrite Eh|].
  rewrite E, Eh, Ed, (urstrip_text t ws Ht Hws). unfold parsed. specialize (Ha Hk).
  assert (X : List.length (rsplit 32 4 t) <> 5%nat) by (rewrite rsplit_length; lia).
  destruct (lenZ (rsplit 32 4 t) =? 5) eqn:E5; [exfalso; apply X; unfold lenZ in E5; lia|]. cbn [negb]. eauto. }
assert (Pw : known <> Some FArc -> parse (o_readline ops None) fuel (mk_parser WARC_TYPES true) None s = (Err (ParserExn (decode_header (take_line c))), s1)).
{ intros Hk. rewrite (parse_first _ fuel _ s _ _ Er). unfold parse. cbn [decode_hline p_verify p_list].
  destruct (lenZ (decode_header (take_line c)) =? 0) eqn:E0; [exfalso; apply Hd, lenZ_0; lia|].
  rewrite Ed, (urstrip_text t ws Ht Hws). destruct t as [|x t]; [contradiction|]. cbn [is_nil].
  rewrite (proj2 (split_prefix_None (x :: t) WARC_TYPES)); [reflexivity|]. intros q r Hq. exact (Hw Hk q r Hq). }
unfold parse_record_stream, detect_type. destruct known as [[|]|].
- rewrite Pw by discriminate. now exists s1.
- unfold arc_parse. rewrite Er. destruct (Harc (HBytes (take_line c)) s1 _ HR1 eq_refl ltac:(discriminate)) as (l & s' & E). unfold arc_parse in E. rewrite E. now exists s'.
- rewrite Pw by discriminate. destruct (Harc (HStr (decode_header (take_line c))) s1 _ HR1 eq_refl ltac:(discriminate)) as (l & s' & E). rewrite E. now exists s'.
Qed.

Lemma C44_headers_pf :
  forall (S : Type) (ops : sops S) (R : S -> bytes -> Prop) uuid f s c,
  exact_full_line ops R -> R s c -> wf_fields f -> text_line (take_line c) (arc_text f) ->
  exists s' n hs d, arc_parse ops true uuid None s = (Ok (mk_sah [] hs (lit "WARC/1.0") n None), s')
    /\ timestamp_to_datetime (f_date f) = Ok d /\ valid_dt d
    /\ (forall d0, valid_dt d0 -> 1900 <= dt_y d0 <= 2999 -> dt_us d0 = 0 -> f_date f = ts14 d0 -> d = d0)
    /\ warc_headers (lit "<urn:uuid:" ++ uuid ++ lit ">") (iso19 d ++ lit "Z") (f_uri f) f hs
    /\ (~ filedesc f -> R s' (drop_line c) /\ n = 0)
    /\ (filedesc f -> R s' (drop_line (drop_line (drop_line c)))
        /\ n = lenZ (decode_header (take_line (drop_line c))) + lenZ (decode_header (take_line (drop_line (drop_line c))))).
Proof.
intros S ops R uuid f s c HL HR Hf (ws & Ed & Hws). destruct (C50_total_pf (f_date f)) as (d & Etd & Hd & Hy & Hus).
destruct (arc_parse_None ops R HL true uuid s c HR) as (s1 & _ & HR1 & ->).
assert (Eu : urstrip (decode_hline (HBytes (take_line c))) = arc_text f) by (cbn [decode_hline]; rewrite Ed; apply urstrip_text; [apply Hf|exact Hws]).
assert (Hne : decode_hline (HBytes (take_line c)) <> []).
{ intros X. rewrite X in Eu. symmetry in Eu. exact (arc_text_ne f Eu). }
destruct (arc_parse_line ops R HL true uuid (HBytes (take_line c)) s1 _ HR1 Hne) as (s2 & E & HR2).
rewrite Eu, filedesc_line in E, HR2. rewrite (parsed_fields true uuid f (iso19 d ++ lit "Z") Hf) in E by (intros _; now apply any_iso).
eexists s2, _, _, d. split; [exact E|]. split; [exact Etd|]. split; [exact Hd|]. split.
{ intros d0 H0 Hy0 Hu0 Ets. destruct (C51_timestamp_roundtrip_pf d0 H0 Hy0 Hu0) as [X _]. rewrite <- Ets, Etd in X. now injection X. }
split; [apply a2w_headers_ok|]. split; intros Hfd.
- destruct (is_filedesc (f_uri f)) eqn:Ei; [apply filedesc_iff in Ei; contradiction|]. now split.
- apply filedesc_iff in Hfd. rewrite Hfd in *. now split.
Qed.

Lemma C75_iterate_partial_pf :
  forall (zl : zenv) fuel he o M prog p es sched block known n,
  gz_magic zl -> first_two block sched -> reads_fit M block sched -> 0 <= M -> enough fuel (ae_texts es) ->
  (forall i e, nth_error es i = Some e -> good_aentry fuel o M (prog i) e
     /\ white (ae_tail e) /\ (white_lines (ae_tail e) \/ S i = List.length es)) ->
  lo_ensure o = false -> known <> Some FWarc -> (List.length es < n)%nat ->
  exists obs, run_iter (zl:=zl) fuel he o n prog 0 (iter_new (mk_raw (ae_texts es) p sched) block known) = (obs, EndStop)
    /\ List.length obs = List.length es
    /\ forall i e ob, nth_error es i = Some e -> nth_error obs i = Some ob ->
         arc_observed o (ae_rec e) (ae_http e) (ae_payload e) (p + ae_position i es) (lenZ (arc_bytes (ae_rec e))) (prog i) ob.
Proof.
intros zl fuel he o M prog p es sched block known n. apply arc_plain.
Qed.

Lemma C75_gzip_partial_pf :
  forall (zl : zenv) fuel he o M prog p (ms : list (aentry * bytes)) sched block known n,
  ms <> [] -> agz_fit zl M block sched prog ms -> 0 < block -> 0 <= M ->
  enough fuel (agz_data ms) -> (forall e m, In (e, m) ms -> enough fuel (ae_text e)) ->
  (forall i e m, nth_error ms i = Some (e, m) -> good_aentry fuel o M (prog i) e /\ white (ae_tail e) /\ is_member zl m (ae_text e)) ->
  lo_ensure o = false -> known <> Some FWarc -> (List.length ms < n)%nat ->
  exists obs, run_iter (zl:=zl) fuel he o n prog 0 (iter_new (mk_raw (agz_data ms) p sched) block known) = (obs, EndStop)
    /\ List.length obs = List.length ms
    /\ forall i e m ob, nth_error ms i = Some (e, m) -> nth_error obs i = Some ob ->
         arc_observed o (ae_rec e) (ae_http e) (ae_payload e) (p + agz_position i ms) (lenZ m) (prog i) ob.
Proof.
intros zl fuel he o M prog p ms sched block known n. apply arc_gz.
Qed.

Lemma C74_no_blank_line_refuted_pf :
  (forall es, es = ex_bare2 \/ es = ex_bare3 -> forall i e, nth_error es i = Some e -> good_aentry 300 ex_o 200 [] e /\ ae_tail e = [])
/\ (exists obs, run_iter (zl:=toy_z) 300 toy_henv ex_o 4 (fun _ => []) 0 (iter_new (raw_open (ae_texts ex_bare2) []) BUFF_SIZE None)
      = (obs, EndExn ArchiveLoadFailed) /\ List.length obs = 1%nat)
/\ (exists ob1 ob2, run_iter (zl:=toy_z) 300 toy_henv ex_o 4 (fun _ => []) 0 (iter_new (raw_open (ae_texts ex_bare3) []) BUFF_SIZE None)
      = ([ob1; ob2], EndStop)
      /\ map (fun ob => get_header (lit "uri") (rc_headers (ob_record ob))) [ob1; ob2] = [Some (lit "filedesc://a.arc"); Some (lit "http://a/x y")]).
Proof.
split; [|split].
- assert (G0 : good_aentry 300 ex_o 200 [] (mk_aentry ex_r0 [] None (lit "!!"))).
  { destruct (ex_good_pf 0%nat _ eq_refl) as ((A & B & C & _) & _). split; [exact A|]. split; [exact B|]. split; [exact C|]. split; constructor. }
  assert (G1 : good_aentry 300 ex_o 200 [] (mk_aentry ex_r1 [] (Some ex_http) [])) by exact (proj1 (ex_good_pf 1%nat _ eq_refl)).
  intros es [->| ->] i e Hi.
  + destruct i as [|[|i]]; cbn in Hi; [| |destruct i; discriminate]; injection Hi as <-; split; trivial.
  + destruct i as [|[|[|i]]]; cbn in Hi; [| | |destruct i; discriminate]; injection Hi as <-; split; trivial. apply ex_good2.
- eexists. split; vm_compute; reflexivity.
- eexists _, _. split; vm_compute; reflexivity.
Qed.
