(** * ArcProofs: ARC record lines, loading ARC records, iterating over ARC files *)
From Coq Require Import String List ZArith NArith Bool Lia.
From Coq Require Import ZifyBool ZifyNat ZifyN.
From Verif Require Import PyBase Facts Utf8 Headers Streams StreamSpec StreamProofs BufProofs FillProofs CallProofs
  HeaderSpec HeaderProofs DigestSpec DigestProofs DigStep Thm_Headers TimeUtils TimeSpec TimeProofs Thm_Time Loader Iterator SimProofs WriterSpec WriterProofs IterSpec IterProofs GzProofs RoundSpec RoundProofs ArcSpec.
Import ListNotations.
Open Scope Z_scope.

Local Arguments name_eq : simpl never.

(** ** splitting *)
Lemma rsplit1_None c l : rsplit1 c l = None <-> ~ In c l.
Proof.
  induction l as [|x l IH]; cbn [rsplit1]; [split; [now intros _ []|reflexivity]|].
  destruct (rsplit1 c l) as [[a b]|].
  - split; [discriminate|]. intros H. exfalso. assert (~ In c l) as X by (intros ?; apply H; now right). apply IH in X. discriminate.
  - destruct (N.eqb_spec x c) as [->|Hn].
    + split; [discriminate|]. intros H. exfalso. apply H. now left.
    + split; [|reflexivity]. intros _ [E|H]; [now apply Hn|]. now apply (proj1 IH).
Qed.
Lemma rsplit1_app c a b : ~ In c b -> rsplit1 c (a ++ c :: b) = Some (a, b).
Proof.
  intros H. induction a as [|x a IH]; cbn [app rsplit1].
  - apply rsplit1_None in H. now rewrite H, N.eqb_refl.
  - now rewrite IH.
Qed.
Lemma rsplit1_Some c l a b : rsplit1 c l = Some (a, b) -> l = a ++ c :: b /\ ~ In c b.
Proof.
  revert a b. induction l as [|x l IH]; intros a b; cbn [rsplit1]; [discriminate|].
  destruct (rsplit1 c l) as [[a' b']|] eqn:E.
  - intros [= <- <-]. destruct (IH a' b' eq_refl) as [-> H]. now split.
  - destruct (N.eqb_spec x c) as [->|]; [|discriminate]. intros [= <- <-]. split; [reflexivity|]. now apply rsplit1_None.
Qed.
Lemma rsplit_fields f : wf_fields f -> rsplit 32 4 (arc_text f) = [f_uri f; f_ip f; f_date f; f_ctype f; f_length f].
Proof.
  intros (H1 & H2 & H3 & H4 & _). unfold arc_text. cbn [rsplit].
  replace (f_uri f ++ 32%N :: f_ip f ++ 32%N :: f_date f ++ 32%N :: f_ctype f ++ 32%N :: f_length f)
    with ((((f_uri f ++ 32%N :: f_ip f) ++ 32%N :: f_date f) ++ 32%N :: f_ctype f) ++ 32%N :: f_length f) by (rewrite <- !app_assoc; reflexivity).
  rewrite rsplit1_app by assumption. rewrite rsplit1_app by assumption. rewrite rsplit1_app by assumption. rewrite rsplit1_app by assumption. reflexivity.
Qed.
Lemma count_app c (a b : str) : count_occ N.eq_dec (a ++ b) c = (count_occ N.eq_dec a c + count_occ N.eq_dec b c)%nat.
Proof. induction a as [|x a IH]; cbn; [reflexivity|]. destruct (N.eq_dec x c); rewrite IH; reflexivity. Qed.
Lemma rsplit_length c k l : List.length (rsplit c k l) = S (min k (count_occ N.eq_dec l c)).
Proof.
  revert l. induction k as [|k IH]; intros l; cbn [rsplit]; [reflexivity|].
  destruct (rsplit1 c l) as [[a b]|] eqn:E.
  - apply rsplit1_Some in E as [-> H]. rewrite app_length, IH. apply (count_occ_not_In N.eq_dec) in H. rewrite count_app. cbn [count_occ].
    destruct (N.eq_dec c c) as [_|X]; [|contradiction]. rewrite H. cbn [List.length]. generalize (count_occ N.eq_dec a c). intros n. lia.
  - apply rsplit1_None in E. apply (count_occ_not_In N.eq_dec) in E. rewrite E. cbn. reflexivity.
Qed.
Lemma rsplit_Some4 t : (4 <= count_occ N.eq_dec t 32%N)%nat -> exists f, arc_text f = t
  /\ ~ In 32%N (f_ip f) /\ ~ In 32%N (f_date f) /\ ~ In 32%N (f_ctype f) /\ ~ In 32%N (f_length f).
Proof.
  intros H.
  assert (X : forall l n, (S n <= count_occ N.eq_dec l 32%N)%nat -> exists a b, l = a ++ 32%N :: b /\ ~ In 32%N b /\ (n <= count_occ N.eq_dec a 32%N)%nat).
  { intros l n Hl. destruct (rsplit1 32%N l) as [[a b]|] eqn:E.
    - apply rsplit1_Some in E as [-> Hb]. exists a, b. split; [reflexivity|]. split; [exact Hb|].
      apply (count_occ_not_In N.eq_dec) in Hb. rewrite count_app in Hl. cbn [count_occ] in Hl. destruct (N.eq_dec 32 32); [|contradiction]. lia.
    - apply rsplit1_None, (count_occ_not_In N.eq_dec) in E. lia. }
  destruct (X t 3%nat H) as (t1 & b4 & -> & H4 & Ht1). destruct (X t1 2%nat Ht1) as (t2 & b3 & -> & H3 & Ht2).
  destruct (X t2 1%nat Ht2) as (t3 & b2 & -> & H2 & Ht3). destruct (X t3 0%nat Ht3) as (t4 & b1 & -> & H1 & _).
  exists (mk_fields t4 b1 b2 b3 b4). split; [|auto]. unfold arc_text. cbn [f_uri f_ip f_date f_ctype f_length]. rewrite <- !app_assoc. reflexivity.
Qed.

(** ** the stripped text of a line *)
Lemma urstrip_text t ws : no_trail is_uspace t -> (forall c, In c ws -> is_uspace c = true) -> urstrip (t ++ ws) = t.
Proof.
  intros Ht Hws. unfold urstrip. rewrite rstripp_app by now rewrite forallb_forall. now apply urstrip_id.
Qed.
Lemma urstrip_split t : exists ws, t = urstrip t ++ ws /\ (forall c, In c ws -> is_uspace c = true).
Proof. destruct (rstripp_split is_uspace t) as (ws & E & H). exists ws. split; [exact E|]. now rewrite forallb_forall in H. Qed.
Lemma rstripp_no_trail p l : no_trail p (rstripp p l).
Proof.
  induction l as [|x l IH]; cbn [rstripp]; intros c t E; [destruct t; discriminate|].
  destruct (rstripp p l) as [|y r].
  - destruct (p x) eqn:Ex; [destruct t; discriminate|]. destruct t as [|a [|]]; try discriminate. injection E as <-. exact Ex.
  - destruct t as [|a t]; [discriminate|]. injection E as _ E. now apply (IH c t).
Qed.
Lemma arc_text_ne f : arc_text f <> [].
Proof. unfold arc_text. destruct (f_uri f); discriminate. Qed.

Lemma starts_uri p u x : ~ In 32%N p -> startswith p (u ++ 32%N :: x) = startswith p u.
Proof.
  revert u. induction p as [|a p IH]; intros u Hp; [destruct u; reflexivity|].
  destruct u as [|b u]; cbn [app startswith].
  - destruct (N.eqb_spec a 32) as [->|]; [exfalso; apply Hp; now left|reflexivity].
  - rewrite IH by (intros H; apply Hp; now right). reflexivity.
Qed.
Lemma filedesc_iff f : is_filedesc (f_uri f) = true <-> filedesc f.
Proof. unfold is_filedesc, filedesc. apply startswith_spec. Qed.
Lemma filedesc_line f : is_filedesc (arc_text f) = is_filedesc (f_uri f).
Proof. unfold is_filedesc, arc_text. apply starts_uri. cbn. intros H. repeat (destruct H as [H|H]; [discriminate|]). exact H. Qed.

(** ** the record line *)
Definition a2w_headers (uuid : str) (iso uri : str) (f : fields) : list header :=
  [(lit "WARC-Type", if is_filedesc (f_uri f) then lit "warcinfo" else lit "response");
   (lit "WARC-Record-ID", make_warc_id uuid);
   (if is_filedesc (f_uri f) then (lit "WARC-Filename", dropZ 11 (f_uri f)) else (lit "WARC-Target-URI", uri));
   (lit "WARC-IP-Address", f_ip f); (lit "WARC-Date", iso);
   (lit "Content-Type", if is_filedesc (f_uri f) then f_ctype f else lit "application/http;msgtype=response");
   (lit "Content-Length", f_length f)].
Lemma a2w_headers_ok uuid iso uri f : warc_headers (make_warc_id uuid) iso uri f (a2w_headers uuid iso uri f).
Proof.
  unfold a2w_headers. split.
  - intros file E. rewrite (proj2 (filedesc_iff f)) by (now exists file). rewrite E. change 11 with (lenZ (lit "filedesc://")).
    rewrite (dropZ_app_exact (lit "filedesc://") file). reflexivity.
  - intros H. destruct (is_filedesc (f_uri f)) eqn:E; [apply filedesc_iff in E; contradiction|reflexivity].
Qed.

Section Arc.
  Context {S : Type} (ops : sops S) (fuel : nat) (R : S -> bytes -> Prop).
  Hypothesis HL : exact_full_line ops R.

  (** what the line turns into *)
  Definition parsed (a2w : bool) (uuid : str) (t : str) : res (list header) :=
    if negb (lenZ (rsplit 32 4 t) =? 5) then Err (ParserExn [])
    else if a2w then arc2warc_headers uuid t (rsplit 32 4 t) else Ok (List.combine ARC_HEADERS (rsplit 32 4 t)).

  Lemma arc_parse_line a2w uuid h s c : R s c -> decode_hline h <> [] ->
    exists s', arc_parse ops a2w uuid (Some h) s
        = (match parsed a2w uuid (urstrip (decode_hline h)) with
           | Err e => Err e
           | Ok hs => Ok (mk_sah [] hs (lit "WARC/1.0")
                        (if is_filedesc (urstrip (decode_hline h)) then lenZ (decode_header (take_line c)) + lenZ (decode_header (take_line (drop_line c))) else 0) None)
           end, s')
      /\ R s' (if is_filedesc (urstrip (decode_hline h)) then drop_line (drop_line c) else c).
  Proof using HL.
    intros HR Hne. unfold arc_parse, parsed. destruct (decode_hline h) as [|x t] eqn:Ed; [contradiction|]. cbn [is_nil].
    destruct (is_filedesc (urstrip (x :: t))) eqn:Ef.
    - destruct (HL s c HR) as (s1 & -> & HR1). destruct (HL s1 _ HR1) as (s2 & -> & HR2). exists s2. split; [|exact HR2].
      destruct (negb _); [reflexivity|]. destruct a2w; [|reflexivity]. destruct (arc2warc_headers _ _ _); reflexivity.
    - exists s. split; [|exact HR]. destruct (negb _); [reflexivity|]. destruct a2w; [|reflexivity]. destruct (arc2warc_headers _ _ _); reflexivity.
  Qed.
  Lemma arc_parse_None a2w uuid s c : R s c -> exists s', o_readline ops None s = (Ok (take_line c), s') /\ R s' (drop_line c)
    /\ arc_parse ops a2w uuid None s = arc_parse ops a2w uuid (Some (HBytes (take_line c))) s'.
  Proof using HL. intros HR. destruct (HL s c HR) as (s' & E & HR'). exists s'. split; [exact E|]. split; [exact HR'|]. unfold arc_parse at 1. rewrite E. reflexivity. Qed.
End Arc.

Lemma parsed_fields a2w uuid f iso : wf_fields f -> (a2w = true -> timestamp_to_iso_date (f_date f) = Ok iso) ->
  parsed a2w uuid (arc_text f) = Ok (if a2w then a2w_headers uuid iso (f_uri f) f else native_headers f).
Proof.
  intros Hf Hd. unfold parsed. rewrite (rsplit_fields f Hf). cbn [lenZ List.length]. change (negb (lenZ [f_uri f; f_ip f; f_date f; f_ctype f; f_length f] =? 5)) with false. cbn iota.
  destruct a2w; [|reflexivity]. unfold arc2warc_headers. rewrite (Hd eq_refl), filedesc_line. reflexivity.
Qed.

(** ** loading *)
Lemma decode_ne l : l <> [] -> decode_header l <> [].
Proof.
  intros H E. destruct l as [|x l]; [contradiction|]. unfold decode_header in E. destruct (utf8_decode (x :: l)) as [s|] eqn:U; [|discriminate E].
  subst s. exact (utf8_decode_ne x l U).
Qed.
Lemma white_blank l : forallb is_bspace l = true -> blank l.
Proof.
  intros H. rewrite forallb_forall in H. assert (A : ascii_text l) by (intros c Hc; specialize (H c Hc); unfold is_bspace in H; lia).
  unfold blank. rewrite (ascii_decode l A). intros c Hc. specialize (H c Hc). unfold is_bspace, is_uspace in *. lia.
Qed.

Definition no_digests (h : sah) : Prop :=
  get_header (lit "WARC-Payload-Digest") h = None /\ get_header (lit "WARC-Block-Digest") h = None.
Definition unjudged (ck : checker) : Prop := dc_passed ck = None.

Section Load.
  Context {zl : zenv} (fuel : nat) (he : henv) (o : lopts) (Q : breader zl raw -> bytes -> Prop) (M : rlim).
  Notation rdr := (breader zl raw).
  Notation rops := (rops (zl:=zl) fuel).
  Hypothesis HRd : reader_ok fuel M Q.
  Hypothesis HM : 0 <= rM M.
  Let HL : exact_full_line rops Q. Proof. now destruct HRd as (? & ? & ? & ?). Qed.
  Let HE : exact_read rops Q. Proof. now destruct HRd as (? & ? & ? & ?). Qed.
  Let HX : forall s c k, Q s c -> 0 < k -> lenZ (takeZ k (take_line c)) <= rM M -> lenZ (takeZ k (take_line c)) <= lenZ c - rL M ->
    exists s', o_readline rops (Some k) s = (Ok (takeZ k (take_line c)), s') /\ Q s' (dropZ (lenZ (takeZ k (take_line c))) c).
  Proof. now destruct HRd as (? & ? & ? & ?). Qed.
  Let HF : forall s c, Q s c -> (List.length c + 3 <= fuel)%nat. Proof. now destruct HRd as (? & ? & ? & ?). Qed.

  (** once the headers have been read *)
  Lemma load_rest st known r h0 h s1 ty uri cl ct sub data rest http payload :
    detect_type rops fuel (lo_a2w o) (lo_uuid o) st known r = (Ok (true, h0), s1) -> Q s1 (data ++ rest) ->
    (if negb (lo_a2w o) then h0 = h /\
       (ty, uri, cl, ct, sub) = (Some (match get_header (lit "uri") h with Some u => if is_filedesc u then lit "arc_header" else lit "response" | None => lit "response" end),
           get_header (lit "uri") h, get_header (lit "length") h, get_header (lit "content-type") h, sh_total h)
     else ensure_target_uri h0 = (uri, h) /\
       (ty, cl, ct, sub) = (get_header (lit "WARC-Type") h0, get_header (lit "Content-Length") h, get_header (lit "Content-Type") h, sh_total h)) ->
    eff_length cl sub = Some (lenZ data) -> no_digests h ->
    (if lo_norec o then http = None /\ payload = data
     else exists m, load_http_headers raw_ops fuel (lo_verify o) ty uri (Some (lenZ data)) (raw_open data []) = (Ok http, m) /\ payload = rw_rest m) ->
    (lo_norec o = false -> http <> None -> short_lines (rM M) data) -> lo_ensure o = false -> rL M <= lenZ payload + lenZ rest ->
    exists rc, parse_record_stream rops fuel he o st known r = (Ok rc, rs_base (rc_stream rc))
      /\ rec_R Q unjudged rest rc payload
      /\ rc_format rc = (if lo_a2w o then FWarc else FArc) /\ rc_type rc = ty /\ rc_headers rc = h
      /\ rc_length rc = Some (lenZ data) /\ rc_ctype rc = ct /\ rc_http rc = http
      /\ rc_plen rc = if osah_bool http then lenZ payload else -1.
  Proof using HRd HM.
    intros D HQ1 Hsel Hlen (Hnp & Hnb) Hv Hsh Hen HrL.
    assert (Hfw : enough fuel data) by (apply HF in HQ1; rewrite app_length in HQ1; unfold enough; lia).
    pose proof (lim_R_new Q s1 _ (lenZ data) HQ1 (lenZ_nonneg _)) as HR. rewrite takeZ_app_exact, dropZ_app_exact in HR.
    assert (HP : http_P fuel Q rest (lenZ data) None (RSlim (lim_new s1 (lenZ data))) (raw_open data [])).
    { split; [cbn; unfold lim_tell; cbn; lia|]. exists (lim_new s1 (lenZ data)). cbn. auto. }
    assert (Hst : (if ckind_bool (lo_check o) then wrap_digest he (lim_new s1 (lenZ data)) ty h (chk_new (lo_check o)) (lenZ data)
                   else Ok (RSlim (lim_new s1 (lenZ data)))) = Ok (RSlim (lim_new s1 (lenZ data)))).
    { destruct (ckind_bool (lo_check o)); [|reflexivity]. unfold wrap_digest. rewrite Hnp, Hnb. reflexivity. }
    assert (Tell : rs_tell rops (RSlim (lim_new s1 (lenZ data))) = 0) by (cbn; unfold lim_tell; cbn; lia).
    (* HTTP headers *)
    assert (Hload : exists l plen, (if lo_norec o then (Ok None, RSlim (lim_new s1 (lenZ data)))
         else load_http_headers (rs_ops rops) fuel (lo_verify o) ty uri (Some (lenZ data)) (RSlim (lim_new s1 (lenZ data)))) = (Ok http, RSlim l)
       /\ lim_R Q rest l payload /\ lm_limit l = lenZ payload
       /\ (if negb (lo_norec o) && negb (lenZ data =? 0) && osah_bool http then lenZ data - (rs_tell rops (RSlim l) - 0) else -1) = plen
       /\ plen = if osah_bool http then lenZ payload else -1).
    { destruct (lo_norec o).
      - destruct Hv as [-> ->]. exists (lim_new s1 (lenZ data)). eexists. split; [reflexivity|]. split; [exact HR|]. split; [reflexivity|]. split; reflexivity.
      - destruct Hv as (m & Em & ->).
        assert (S : same (http_P fuel Q rest (lenZ data) None)
                     (load_http_headers (rs_ops rops) fuel (lo_verify o) ty uri (Some (lenZ data)) (RSlim (lim_new s1 (lenZ data)))) (Ok http, m)).
        { destruct http as [http|].
          - rewrite <- Em. apply (load_http_rec fuel Q M HL HE HX HF HM _ _ _ []); [discriminate|exact HP|]. apply (hdr_short_room _ _ _ (rw_rest m)); [|now apply (http_upto _ _ _ _ _ _ _ _ Hfw Em)|lia].
            apply short_lines_hdr; [apply Hsh; [reflexivity|discriminate]|exact HM].
          - destruct (http_None _ _ _ _ _ m Hfw Em) as [-> Hn]. rewrite Hn. split; [reflexivity|exact HP]. }
        destruct (load_http_headers (rs_ops rops) fuel (lo_verify o) _ _ _ _) as [x st'].
        destruct S as [S1 S2]. cbn [fst snd] in S1, S2. subst x. destruct S2 as (Ht' & l & -> & HR' & Hl'). exists l. eexists. split; [reflexivity|]. split; [exact HR'|]. split; [exact Hl'|].
        split; [reflexivity|]. rewrite Ht'. cbn [negb andb]. destruct (osah_bool http) eqn:Eo; [|now rewrite andb_false_r]. destruct (lenZ data =? 0) eqn:E0.
        + exfalso. assert (lenZ data = 0) as E1 by lia. unfold load_http_headers in Em. rewrite E1 in Em. injection Em as <- <-. discriminate.
        + cbn. lia. }
    destruct Hload as (l & plen & Hload & HRl & Hll & Hpl & Epl).
    assert (X : parse_record_stream rops fuel he o st known r
       = (Ok (mk_rec (if lo_a2w o then FWarc else FArc) ty h (RSlim l) http ct (Some (lenZ data)) plen (chk_new (lo_check o))), rs_base (RSlim l))).
    { unfold parse_record_stream. rewrite D. destruct (lo_a2w o); cbn [andb negb] in *.
      - destruct Hsel as [Hu Hsel]. rewrite Hu. injection Hsel as -> -> -> ->. rewrite Hlen, Hst, Hload, Tell, Hen, Hpl, andb_false_r. reflexivity.
      - destruct Hsel as [-> Hsel]. injection Hsel as -> -> -> -> ->. rewrite Hlen, Hst, Hload, Tell, Hen, Hpl, andb_false_r. reflexivity. }
    eexists. split; [exact X|]. unfold rec_R. cbn [rc_stream rc_chk rc_format rc_type rc_headers rc_length rc_ctype rc_http rc_plen].
    split; [split; [exact HRl|]; split; [exact Hll|reflexivity]|]. repeat split; exact Epl || reflexivity.
  Qed.
End Load.

Definition arc_known (k : option fmt) : Prop := k <> Some FWarc.
Definition arc_seen {zl : zenv} (o : lopts) (r : arec) (http : option sah) (payload : bytes) (rc : record (breader zl raw)) : Prop :=
  (lo_a2w o = false -> rc_format rc = FArc /\ sh_headers (rc_headers rc) = native_headers (r_fields r) /\ rc_ctype rc = Some (f_ctype (r_fields r))
     /\ (filedesc (r_fields r) -> rc_type rc = Some (lit "arc_header")) /\ (~ filedesc (r_fields r) -> rc_type rc = Some (lit "response")))
  /\ (lo_a2w o = true -> rc_format rc = FWarc
     /\ (exists iso uri, converted (r_fields r) iso uri /\ warc_headers (make_warc_id (lo_uuid o)) iso uri (r_fields r) (sh_headers (rc_headers rc)))
     /\ (filedesc (r_fields r) -> rc_type rc = Some (lit "warcinfo")) /\ (~ filedesc (r_fields r) -> rc_type rc = Some (lit "response")))
  /\ (lo_a2w o = true -> rc_ctype rc = value_of (lit "Content-Type") (sh_headers (rc_headers rc)))
  /\ (sh_proto (rc_headers rc) = lit "WARC/1.0" /\ sh_status (rc_headers rc) = []) /\ rc_length rc = Some (lenZ (r_data r)) /\ rc_http rc = http
  /\ rc_plen rc = if osah_bool http then lenZ payload else -1.

Lemma arc_detect {zl : zenv} fuel (Q : breader zl raw -> bytes -> Prop) (M : rlim) a2w uuid nl r0 (r : arec) rest known :
  reader_ok fuel M Q -> wf_arec r -> arc_known known -> at_line fuel Q nl r0 (arc_bytes r ++ rest) ->
  (exists h s1, decode_hline h = decode_header (r_line r) /\ Q s1 (r_spec r ++ r_data r ++ rest)
     /\ detect_type (rops fuel) fuel a2w uuid (match nl with Some l => Some (HBytes l) | None => None end) known r0
        = match arc_parse (rops fuel) a2w uuid (Some h) s1 with
          | (Ok h, s') => (Ok (true, h), s')
          | (Err (ParserExn _), s') => (Err ArchiveLoadFailed, s')
          | (Err e, s') => (Err e, s')
          end).
Proof.
  intros HRd (Hf & Hline & (ws & Ed & Hws) & Hnw & _) Hk (_ & Hat). pose proof HRd as (HL & _).
  unfold arc_bytes in Hat. rewrite <- !app_assoc in Hat. destruct (is_line_take (r_line r) (r_spec r ++ r_data r ++ rest) Hline) as [Et Edr].
  assert (Hs : exists s1, Q s1 (r_spec r ++ r_data r ++ rest) /\ (match nl with Some l => l = r_line r /\ s1 = r0 | None => o_readline (rops fuel) None r0 = (Ok (r_line r), s1) end)).
  { destruct nl as [l|].
    - destruct Hat as (_ & -> & HQ). rewrite Edr in HQ. exists r0. split; [exact HQ|]. split; [exact Et|reflexivity].
    - destruct (HL r0 _ Hat) as (s1 & E & HQ). rewrite Et in E. rewrite Edr in HQ. now exists s1. }
  destruct Hs as (s1 & HQ & Hs).
  assert (Hne : r_line r <> []) by (destruct Hline as (a & _ & ->); now destruct a).
  assert (Parc : arc_parse (rops fuel) a2w uuid (match nl with Some l => Some (HBytes l) | None => None end) r0 = arc_parse (rops fuel) a2w uuid (Some (HBytes (r_line r))) s1).
  { destruct nl as [l|]; [now destruct Hs as [-> ->]|]. unfold arc_parse at 1. rewrite Hs. reflexivity. }
  assert (Pwarc : parse (o_readline (rops fuel) None) fuel (mk_parser WARC_TYPES true) (match nl with Some l => Some (HBytes l) | None => None end) r0
                  = (Err (ParserExn (decode_header (r_line r))), s1)).
  { assert (parse (o_readline (rops fuel) None) fuel (mk_parser WARC_TYPES true) (match nl with Some l => Some (HBytes l) | None => None end) r0
        = parse (o_readline (rops fuel) None) fuel (mk_parser WARC_TYPES true) (Some (HBytes (r_line r))) s1) as ->.
    { destruct nl as [l|]; [now destruct Hs as [-> ->]|]. now apply parse_first. }
    unfold parse. cbn [decode_hline p_verify p_list]. pose proof (decode_ne _ Hne) as Hd.
    assert (Eu : urstrip (decode_header (r_line r)) = arc_text (r_fields r)) by (rewrite Ed; apply urstrip_text; [apply Hf|exact Hws]).
    destruct (lenZ (decode_header (r_line r)) =? 0) eqn:E0; [exfalso; apply Hd, lenZ_0; lia|].
    rewrite Eu. pose proof (arc_text_ne (r_fields r)) as Hn. destruct (arc_text (r_fields r)) as [|x t] eqn:Ex; [contradiction|]. cbn [is_nil].
    rewrite (proj2 (split_prefix_None (x :: t) WARC_TYPES)); [reflexivity|]. intros q t' Hq. now apply Hnw. }
  unfold detect_type. destruct known as [[|]|]; [now elim Hk| |].
  - exists (HBytes (r_line r)), s1. split; [reflexivity|]. split; [exact HQ|]. rewrite Parc. reflexivity.
  - exists (HStr (decode_header (r_line r))), s1. split; [reflexivity|]. split; [exact HQ|]. rewrite Pwarc. reflexivity.
Qed.

(** timestamps of any form *)
Lemma any_iso t d : timestamp_to_datetime t = Ok d -> timestamp_to_iso_date t = Ok (iso19 d ++ lit "Z").
Proof.
  intros E. destruct (C50_total_pf t) as (d' & E' & Hv & Hy & Hus). rewrite E in E'. injection E' as <-.
  unfold timestamp_to_iso_date. rewrite E, iso_fmt; [reflexivity|exact Hv|lia].
Qed.
Lemma iso_ok f iso uri : converted f iso uri -> timestamp_to_iso_date (f_date f) = Ok iso.
Proof. intros ((d & Hd & ->) & _). now apply any_iso. Qed.
Lemma converted_total f : exists iso uri, converted f iso uri.
Proof.
  destruct (C50_total_pf (f_date f)) as (d & E & _). destruct (normal_total (f_uri f)) as (v & Hv).
  exists (iso19 d ++ lit "Z"), v. split; [now exists d|exact Hv].
Qed.

Lemma arc_loadable {zl : zenv} fuel he o (M : rlim) r http payload :
  0 <= rM M -> wf_arec r -> arc_http_view fuel (lo_norec o) (lo_verify o) (lo_a2w o) r http payload ->
  (lo_norec o = false -> http <> None -> short_lines (rM M) (r_data r)) -> lo_ensure o = false ->
  loadable (zl:=zl) fuel he o M arc_known (arc_bytes r) payload unjudged (arc_seen o r http payload).
Proof.
  intros HM Hwf Hv Hs Hen Q HRd nl r0 rest known Hk Hat HrL. destruct (converted_total (r_fields r)) as (iso & url & Hc).
  destruct (arc_detect fuel Q M (lo_a2w o) (lo_uuid o) nl r0 r rest known HRd Hwf Hk Hat) as (h0 & s0 & Ed & HQ0 & D).
  destruct Hwf as (Hf & Hline & (ws & Edl & Hws) & Hnw & _ & Hfd & Hnfd & Hlen). pose proof HRd as (HL & _).
  assert (Hne : r_line r <> []) by (destruct Hline as (a & _ & ->); now destruct a).
  assert (Eu : urstrip (decode_hline h0) = arc_text (r_fields r)) by (rewrite Ed, Edl; apply urstrip_text; [apply Hf|exact Hws]).
  destruct (arc_parse_line (rops fuel) Q HL (lo_a2w o) (lo_uuid o) h0 s0 _ HQ0 ltac:(rewrite Ed; now apply decode_ne)) as (s1 & Ep & HQ1).
  rewrite Eu, filedesc_line in Ep, HQ1.
  assert (Htot : exists tot, (if is_filedesc (f_uri (r_fields r)) then lenZ (decode_header (take_line (r_spec r ++ r_data r ++ rest))) + lenZ (decode_header (take_line (drop_line (r_spec r ++ r_data r ++ rest)))) else 0) = tot
     /\ tot = lenZ (r_spec r) /\ Q s1 (r_data r ++ rest)).
  { destruct (is_filedesc (f_uri (r_fields r))) eqn:Ei.
    - destruct (Hfd (proj1 (filedesc_iff _) Ei)) as (v & sp & Es & Hv1 & Hsp & Ha). rewrite Es in *. rewrite <- !app_assoc in *.
      destruct (is_line_take v (sp ++ r_data r ++ rest) Hv1) as [E1 E2]. destruct (is_line_take sp (r_data r ++ rest) Hsp) as [E3 E4].
      rewrite E1, E2, E3. rewrite E2, E4 in HQ1. eexists. split; [reflexivity|]. split; [|exact HQ1].
      rewrite !ascii_decode by (intros c Hcc; apply Ha, in_or_app; auto). now rewrite lenZ_app.
    - assert (X : ~ filedesc (r_fields r)) by (intros X; apply filedesc_iff in X; rewrite X in Ei; discriminate).
      exists 0. split; [reflexivity|]. rewrite (Hnfd X) in *. split; [reflexivity|exact HQ1]. }
  destruct Htot as (tot & Et & Etot & HQ1'). rewrite Et, (parsed_fields (lo_a2w o) (lo_uuid o) (r_fields r) iso Hf (fun _ => iso_ok _ iso url Hc)) in Ep. rewrite Ep in D.
  set (hs0 := if lo_a2w o then a2w_headers (lo_uuid o) iso (f_uri (r_fields r)) (r_fields r) else native_headers (r_fields r)) in *.
  set (hs := if lo_a2w o then a2w_headers (lo_uuid o) iso url (r_fields r) else native_headers (r_fields r)) in *.
  set (ty := if lo_a2w o then (if is_filedesc (f_uri (r_fields r)) then lit "warcinfo" else lit "response")
             else (if is_filedesc (f_uri (r_fields r)) then lit "arc_header" else lit "response")).
  set (uri := if lo_a2w o then (if is_filedesc (f_uri (r_fields r)) then None else Some url) else Some (f_uri (r_fields r))).
  set (ct := if lo_a2w o then (if is_filedesc (f_uri (r_fields r)) then f_ctype (r_fields r) else lit "application/http;msgtype=response") else f_ctype (r_fields r)).
  destruct (load_rest fuel he o Q M HRd HM (match nl with Some l => Some (HBytes l) | None => None end) known r0 (mk_sah [] hs0 (lit "WARC/1.0") tot None) (mk_sah [] hs (lit "WARC/1.0") tot None) s1
              (Some ty) uri (Some (f_length (r_fields r))) (Some ct) tot (r_data r) rest http payload D HQ1') as (rc & E & HR & F1 & F2 & F3 & F4 & F5 & F6 & F7).
  { destruct (lo_a2w o) eqn:Ea; cbn [negb].
    - destruct Hc as (_ & Hu). subst hs0 hs uri ty ct. cbn iota. unfold a2w_headers. split.
      + destruct (is_filedesc (f_uri (r_fields r))) eqn:Ei; [reflexivity|].
        match goal with |- ensure_target_uri (mk_sah _ [?x; ?y; ?z; ?a; ?b; ?c; ?d] ?v _ _) = _ =>
          destruct (ensure_normal (mk_sah [] [x; y; z; a; b; c; d] v tot None) (mk_wrc v [x; y; z; a; b; c; d] [])
                      (mk_wrc v [x; y; (fst z, url); a; b; c; d] [])) as (h' & E' & E1 & E2 & E3 & E4 & E5);
          [reflexivity|split; [reflexivity|split; [reflexivity|right; exists [x; y], (fst z), (snd z), [a; b; c; d], url]]|]
        end.
        { split; [reflexivity|]. split; [apply ci_eq_refl|]. split; [|split; [exact Hu|reflexivity]].
          repeat constructor; intros X; apply name_eq_spec in X; vm_compute in X; discriminate. }
        refine (eq_trans E' _). cbn [w_headers fst sh_proto sh_status sh_total sh_buff] in E1, E2, E3, E4, E5. f_equal.
        destruct h' as [x1 x2 x3 x4 x5]. cbn in E1, E2, E3, E4, E5. subst. reflexivity.
      + destruct (is_filedesc (f_uri (r_fields r))); reflexivity.
    - split; [subst hs0 hs; reflexivity|]. subst hs. reflexivity. }
  { unfold eff_length. rewrite Hlen, Etot, lenZ_app. pose proof (lenZ_nonneg (r_data r)). destruct (_ <? 0) eqn:E0; [lia|]. f_equal. lia. }
  { subst hs. destruct (lo_a2w o); [|split; reflexivity]. unfold a2w_headers. destruct (is_filedesc (f_uri (r_fields r))); split; reflexivity. }
  { unfold arc_http_view in Hv. destruct (lo_norec o); [exact Hv|]. destruct Hv as [Hv1 Hv2].
    destruct (is_filedesc (f_uri (r_fields r))) eqn:Ei.
    - destruct (Hv1 (proj1 (filedesc_iff _) Ei)) as [-> ->]. exists (raw_open (r_data r) []). split; [|reflexivity].
      unfold load_http_headers. destruct (lenZ (r_data r)); try reflexivity; subst ty; destruct (lo_a2w o); reflexivity.
    - subst ty uri. assert (X : ~ filedesc (r_fields r)) by (intros X; apply filedesc_iff in X; rewrite X in Ei; discriminate).
      destruct (Hv2 X) as (m & u & Hu & E & Ep'). exists m. split; [|exact Ep']. destruct Hc as (_ & Hc).
      destruct (lo_a2w o); [rewrite (normal_fun _ _ _ Hc Hu)|rewrite <- Hu]; exact E. }
  { exact Hs. } { exact Hen. } { exact HrL. }
  exists rc. split; [exact E|]. split; [exact HR|]. split.
  - unfold arc_seen. rewrite F1, F2, F3, F5. cbn [sh_headers sh_proto sh_status]. split; [|split; [|split; [|auto]]].
    + intros Ea. subst hs ct ty. rewrite Ea. split; [reflexivity|]. split; [reflexivity|]. split; [reflexivity|]. split; intros X.
      * now rewrite (proj2 (filedesc_iff _) X).
      * destruct (is_filedesc (f_uri (r_fields r))) eqn:Ei; [apply filedesc_iff in Ei; contradiction|reflexivity].
    + intros Ea. subst hs ct ty. rewrite Ea. split; [reflexivity|]. split; [|split; intros X].
      * exists iso, url. split; [exact Hc|apply a2w_headers_ok].
      * now rewrite (proj2 (filedesc_iff _) X).
      * destruct (is_filedesc (f_uri (r_fields r))) eqn:Ei; [apply filedesc_iff in Ei; contradiction|reflexivity].
    + intros Ea. subst hs ct. rewrite Ea. unfold a2w_headers. destruct (is_filedesc (f_uri (r_fields r))); reflexivity.
  - rewrite F1. destruct (lo_a2w o); [exact Hk|discriminate].
Qed.

(** ** complete iterations *)
Definition arc_item {zl : zenv} (o : lopts) (e : aentry) : item zl :=
  mk_item (arc_bytes (ae_rec e)) (ae_tail e) (ae_payload e) unjudged (arc_seen o (ae_rec e) (ae_http e) (ae_payload e)).
Lemma arc_items_text {zl : zenv} o es : i_texts (map (arc_item (zl:=zl) o) es) = ae_texts es.
Proof. unfold i_texts, ae_texts. rewrite map_map. reflexivity. Qed.
Lemma arc_item_load {zl : zenv} fuel he o (M : rlim) us e : 0 <= rM M -> lo_ensure o = false -> good_aentry fuel o (rM M) us e ->
  loadable (zl:=zl) fuel he o M arc_known (arc_bytes (ae_rec e)) (ae_payload e) unjudged (arc_seen o (ae_rec e) (ae_http e) (ae_payload e)).
Proof. intros HM Hen (Hwf & Hv & Hs & _). now apply (arc_loadable fuel he o M (ae_rec e) (ae_http e) (ae_payload e)). Qed.
Lemma line_cons l : is_line l -> (forall c, l <> [c]) -> exists a b t, l = a :: b :: t.
Proof. intros (x & _ & ->) H. destruct x as [|a [|b x]]; [now elim (H LF)| |]; cbn; eauto. Qed.
Lemma arc_item_ok {zl : zenv} fuel he o M us e : 0 <= M -> lo_ensure o = false -> good_aentry fuel o M us e -> white (ae_tail e) ->
  item_ok (zl:=zl) fuel he o M arc_known (arc_item o e).
Proof.
  intros HM Hen Hg Hw. split; [now apply (arc_item_load fuel he o M us e)|]. split; [now apply forallb_forall|].
  destruct Hg as ((Hf & Hline & (ws & Edl & Hws) & _ & Hgz & _) & _). cbn [arc_item i_core].
  assert (Hnb : rstripp is_bspace (r_line (ae_rec e)) <> []).
  { intros X. apply rstripp_nil_all, white_blank, urstrip_nil_blank in X. rewrite Edl, urstrip_text in X; [|apply Hf|exact Hws]. now apply arc_text_ne in X. }
  split.
  - intros more. right. unfold arc_bytes. rewrite <- !app_assoc. destruct (is_line_take (r_line (ae_rec e)) (r_spec (ae_rec e) ++ r_data (ae_rec e) ++ more) Hline) as [-> _]. exact Hnb.
  - destruct (line_cons _ Hline) as (a & b & t & E).
    { intros c X. destruct Hline as (y & Hy & Ey). rewrite X in Ey. destruct y as [|? [|]]; try discriminate. injection Ey as ->. rewrite X in Hnb. now apply Hnb. }
    exists a, b, (t ++ r_spec (ae_rec e) ++ r_data (ae_rec e)). unfold arc_bytes. rewrite E. split; [reflexivity|]. intros [= -> ->]. now apply (Hgz t).
Qed.
Lemma arc_item_seen {zl : zenv} o e us off len (ob : @obs zl) : item_seen us (arc_item o e) off len ob ->
  arc_observed o (ae_rec e) (ae_http e) (ae_payload e) off len us ob.
Proof. intros ((H1 & H2 & H0 & H3 & H4 & H5 & H6) & Hd & Hi & ck & Hv & Hp). constructor; auto. rewrite Hp. exact Hv. Qed.

Lemma arc_plain {zl : zenv} fuel he o M prog p es sched block known n :
  gz_magic zl -> first_two block sched -> reads_fit M block sched -> 0 <= M -> enough fuel (ae_texts es) ->
  (forall i e, nth_error es i = Some e -> good_aentry fuel o M (prog i) e
     /\ white (ae_tail e) /\ (white_lines (ae_tail e) \/ S i = List.length es)) ->
  lo_ensure o = false -> known <> Some FWarc -> (List.length es < n)%nat ->
  exists obs, run_iter (zl:=zl) fuel he o n prog 0 (iter_new (mk_raw (ae_texts es) p sched) block known) = (obs, EndStop)
    /\ List.length obs = List.length es
    /\ forall i e ob, nth_error es i = Some e -> nth_error obs i = Some ob ->
         arc_observed o (ae_rec e) (ae_http e) (ae_payload e) (p + ae_position i es) (lenZ (arc_bytes (ae_rec e))) (prog i) ob.
Proof.
  intros Hz Hb Hfit HM Hfu Hgood Hen Hk Hn. pose proof (arc_items_text (zl:=zl) o es) as Etx.
  destruct (plain_items (zl:=zl) fuel he o M arc_known prog p (map (arc_item o) es) [] sched block known) as (obs & it' & E & Hl & Hob & Hend & _); auto.
  { now rewrite Etx, app_nil_r. }
  { apply Forall_forall. intros x Hx. apply in_map_iff in Hx as (e & <- & He). apply In_nth_error in He as (i & Hi).
    destruct (Hgood i e Hi) as (Hg & Hw & _). now apply (arc_item_ok fuel he o M (prog i) e). }
  { intros i x Hi. rewrite nth_error_map in Hi. destruct (nth_error es i) as [e|] eqn:En; [|discriminate]. injection Hi as <-.
    destruct (Hgood i e En) as ((_ & _ & _ & A & B) & _). now split. }
  { assert (X : forall i e, nth_error es i = Some e -> white_lines (ae_tail e) \/ S i = List.length es) by (intros i e Hi; now destruct (Hgood i e Hi)).
    clear -X. induction es as [|e es IH]; [exact I|]. split.
    - destruct (X 0%nat e eq_refl) as [[Hw (a & Ea)]|Hl].
      + left. exists a. split; [exact Ea|]. now apply forallb_forall.
      + right. destruct es; [now split|discriminate].
    - apply IH. intros i e' Hi. destruct (X (S i) e' Hi) as [H|H]; [now left|right]. now injection H. }
  { now left. }
  rewrite map_length in *. rewrite Etx, app_nil_r in E. exists obs.
  assert (exists m, n = (List.length es + Datatypes.S m)%nat) as (n' & ->) by (exists (n - List.length es - 1)%nat; lia).
  rewrite E, (Hend eq_refl), app_nil_r. split; [reflexivity|]. split; [exact Hl|].
  intros i e ob Hi Hi'. assert (nth_error (map (arc_item (zl:=zl) o) es) i = Some (arc_item o e)) as Hi2 by now rewrite nth_error_map, Hi.
  pose proof (Hob i _ ob Hi2 Hi') as X. rewrite firstn_map, arc_items_text in X. apply arc_item_seen. exact X.
Qed.

Lemma arc_gz {zl : zenv} fuel he o M prog p (ms : list (aentry * bytes)) sched block known n :
  ms <> [] -> agz_fit zl M block sched prog ms -> 0 < block -> 0 <= M ->
  enough fuel (agz_data ms) -> (forall e m, In (e, m) ms -> enough fuel (ae_text e)) ->
  (forall i e m, nth_error ms i = Some (e, m) -> good_aentry fuel o M (prog i) e /\ white (ae_tail e) /\ is_member zl m (ae_text e)) ->
  lo_ensure o = false -> known <> Some FWarc -> (List.length ms < n)%nat ->
  exists obs, run_iter (zl:=zl) fuel he o n prog 0 (iter_new (mk_raw (agz_data ms) p sched) block known) = (obs, EndStop)
    /\ List.length obs = List.length ms
    /\ forall i e m ob, nth_error ms i = Some (e, m) -> nth_error obs i = Some ob ->
         arc_observed o (ae_rec e) (ae_http e) (ae_payload e) (p + agz_position i ms) (lenZ m) (prog i) ob.
Proof.
  intros Hne Hfit Hb HM Hfu Hfe Hgood Hen Hk Hn.
  set (xs := map (fun x => (arc_item (zl:=zl) o (fst x), snd x)) ms).
  assert (Eb : forall l, gz_bytes (map (fun x : aentry * bytes => (arc_item (zl:=zl) o (fst x), snd x)) l) = agz_data l).
  { intros l. unfold gz_bytes, agz_data. now rewrite map_map. }
  assert (Hnth : forall i x m, nth_error xs i = Some (x, m) -> exists e, nth_error ms i = Some (e, m) /\ x = arc_item o e).
  { intros i x m. unfold xs. rewrite nth_error_map. destruct (nth_error ms i) as [[e m']|]; [|discriminate]. cbn. intros [= <- <-]. eauto. }
  destruct (gz_items (zl:=zl) fuel he o M arc_known prog p xs sched block known n) as (obs & E & Hl & Hob); auto.
  { unfold xs. destruct ms; [contradiction|discriminate]. }
  { destruct Hfit as [Hf|[Hx Hf]]; [now left|right]. split; [exact Hx|]. intros i x m Hi. apply Hnth in Hi as (e & Hi & ->). exact (Hf i e m Hi). }
  { unfold xs. now rewrite Eb. }
  { intros x m Hx. apply In_nth_error in Hx as (i & Hi). apply Hnth in Hi as (e & Hi & ->). apply (Hfe e m). exact (nth_error_In _ _ Hi). }
  { intros i x m Hi. apply Hnth in Hi as (e & Hi & ->). destruct (Hgood i e m Hi) as (Hg & Hw & Hz).
    split; [split; [intros L HL; now apply (arc_item_load fuel he o (mk_rlim M L) (prog i) e)|now apply forallb_forall]|]. split; [exact Hz|]. destruct Hg as (_ & _ & _ & A & B). now split. }
  { unfold xs. now rewrite map_length. }
  unfold xs in E, Hl. rewrite Eb in E. rewrite map_length in Hl. exists obs. split; [exact E|]. split; [exact Hl|].
  intros i e m ob Hi Hi'. assert (nth_error xs i = Some (arc_item o e, m)) as Hi2 by (unfold xs; now rewrite nth_error_map, Hi).
  pose proof (Hob i _ m ob Hi2 Hi') as X. apply arc_item_seen. unfold gz_pos, xs in X. rewrite firstn_map, Eb in X. exact X.
Qed.
