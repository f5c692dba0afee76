(** * IterProofs: loading one record, what the consumer sees of it, and moving on *)
From Coq Require Import String List ZArith NArith Bool Lia.
From Coq Require Import ZifyBool ZifyNat ZifyN.
From Verif Require Import PyBase Facts Utf8 Headers Streams StreamSpec StreamProofs BufProofs FillProofs CallProofs
  HeaderSpec HeaderProofs DigestSpec DigestProofs DigStep Thm_Headers Loader Iterator SimProofs WriterSpec WriterProofs IterSpec.
Import ListNotations.
Open Scope Z_scope.

Local Arguments name_eq : simpl never.

(** ** lines *)
Lemma is_line_take l rest : is_line l -> take_line (l ++ rest) = l /\ drop_line (l ++ rest) = rest.
Proof.
  intros (a & Ha & ->).
  assert (E : take_line ((a ++ [LF]) ++ rest) = a ++ [LF]) by (rewrite <- app_assoc; now apply take_line_LF).
  split; [exact E|]. pose proof (take_drop_line ((a ++ [LF]) ++ rest)) as H. rewrite E in H. now apply app_inv_head in H.
Qed.

Lemma len_drop_line c : lenZ c - lenZ (take_line c) = lenZ (drop_line c).
Proof. rewrite <- (take_drop_line c) at 1. rewrite lenZ_app. lia. Qed.

(** lines up to the first blank one are at most [M] long *)
Inductive hdr_short (M : Z) : bytes -> Prop :=
| hs_last c : lenZ (take_line c) <= M -> urstrip (decode_header (take_line c)) = [] -> hdr_short M c
| hs_more c : lenZ (take_line c) <= M -> hdr_short M (drop_line c) -> hdr_short M c.

Lemma hdr_short_nil M : 0 <= M -> hdr_short M [].
Proof. intros. apply hs_last; [cbn; lia|reflexivity]. Qed.

Lemma short_lines_hdr M block : short_lines M block -> 0 <= M -> hdr_short M block.
Proof.
  intros (hb & rest & -> & (lines & last & -> & HL & Hend) & HM) H0.
  induction lines as [|l lines IH]; cbn [concat app] in *.
  - destruct Hend as [[Hl Hb]|[-> Hno]].
    + destruct (is_line_take last rest Hl) as [Et _]. apply hs_last.
      * rewrite Et. specialize (HM [] last eq_refl). destruct (is_line_take last [] Hl) as [Et' _].
        rewrite app_nil_r in Et'. now rewrite Et' in HM.
      * rewrite Et. now apply urstrip_nil_blank.
    + rewrite app_nil_r. apply hs_more.
      * specialize (HM [] last eq_refl). exact HM.
      * pose proof (take_drop_line last) as E. rewrite take_line_noLF in E by assumption.
        rewrite <- (app_nil_r last) in E at 3. apply app_inv_head in E. rewrite E. now apply hdr_short_nil.
  - inversion HL as [|? ? [Hl _] HL']; subst. rewrite <- !app_assoc.
    destruct (is_line_take l ((concat lines ++ last) ++ rest) Hl) as [Et Ed]. rewrite <- app_assoc in Et, Ed.
    apply hs_more.
    + rewrite Et. specialize (HM [] ((l ++ concat lines) ++ last) eq_refl). rewrite <- app_assoc in HM.
      destruct (is_line_take l (concat lines ++ last) Hl) as [Et' _]. now rewrite Et' in HM.
    + rewrite Ed, app_assoc. apply IH; [assumption|]. intros p q E. apply (HM (l ++ p) q).
      rewrite <- !app_assoc. now rewrite <- E.
Qed.

(** ** the head of a record *)
Lemma warc_types_in v : In v WARC_TYPES -> v = lit "WARC/1.1" \/ v = lit "WARC/1.0" \/ v = lit "WARC/0.17" \/ v = lit "WARC/0.18".
Proof. cbn. intuition. Qed.

Lemma wf_rec_lines w : wf_record w -> wf_lines w.
Proof. intros (A & B & _). now split. Qed.
Lemma wf_head w : wf_lines w -> wf_block (mk_parser WARC_TYPES true) (sah_new [] (w_headers w) (w_version w)).
Proof.
  intros (Hv & Hh). unfold wf_block. cbn [sh_proto sh_status sh_headers sah_new].
  assert (G : wf_blockb (mk_parser WARC_TYPES true) (sah_new [] [] (w_version w)) = true).
  { destruct (warc_types_in _ Hv) as [->|[->|[->| ->]]]; vm_compute; reflexivity. }
  apply wf_blockb_ok in G. unfold wf_block in G. cbn [sh_proto sh_status sh_headers sah_new] in G.
  destruct G as (G1 & G2 & G3 & G4 & G5 & G6 & G7 & _). repeat (split; [assumption|]). exact Hh.
Qed.

Lemma head_parse {S} (rl : S -> res bytes * S) (R : S -> bytes -> Prop) fuel w head s body :
  reads_lines rl R -> wf_lines w -> utf8_encode (record_text (w_version w) (w_headers w)) = Some head ->
  R s (head ++ body) -> enough fuel head ->
  exists h s', parse rl fuel (mk_parser WARC_TYPES true) None s = (Ok h, s') /\ R s' body
    /\ sh_proto h = w_version w /\ sh_headers h = w_headers w /\ sh_status h = [].
Proof.
  intros HL Hwf He HR Hf. pose proof (wf_head w Hwf) as Hb.
  destruct (C19_roundtrip_pf S rl R fuel _ _ HL Hb) as (data & Ed & H).
  assert (data = head).
  { pose proof (to_bytes_record (sah_new [] (w_headers w) (w_version w)) data eq_refl) as T. cbn [sah_new sh_proto sh_headers] in T.
    rewrite T in He; [now injection He| |exact Ed]. destruct Hb as (Hb & _). exact Hb. }
  subst data. destruct (H s body HR Hf) as (h & s' & E & HR' & Ep & Es & Eh & _). exists h, s'. auto.
Qed.

Lemma parse_first {S} (rl : S -> res bytes * S) fuel p s b s' : rl s = (Ok b, s') ->
  parse rl fuel p None s = parse rl fuel p (Some (HBytes b)) s'.
Proof. intros E. unfold parse. now rewrite E. Qed.

(** a plain URI is left alone *)
Lemma ensure_plain h : plain_uri (get_header (lit "WARC-Target-URI") h) ->
  ensure_target_uri h = (get_header (lit "WARC-Target-URI") h, h).
Proof.
  intros H. unfold ensure_target_uri. destruct (get_header (lit "WARC-Target-URI") h) as [u|] eqn:E; [|reflexivity].
  destruct H as [Hs Hb].
  assert (startswith (lit "<") u && endswith (lit ">") u = false) as ->.
  { destruct (startswith (lit "<") u) eqn:E1; [|reflexivity]. destruct (endswith (lit ">") u) eqn:E2; [|reflexivity].
    apply startswith_spec in E1 as (a & ->). apply endswith_spec in E2 as (b & E2). exfalso.
    destruct b as [|x b]; [destruct a; discriminate|]. cbn in E2. injection E2 as <- ->. now apply (Hb b). }
  assert (has_char 32%N u = false) as ->; [|reflexivity].
  destruct (has_char 32%N u) eqn:E1; [|reflexivity]. exfalso. apply Hs. unfold has_char in E1.
  apply existsb_exists in E1 as (x & Hx & Ex). apply N.eqb_eq in Ex. now subst.
Qed.

(** any other URI *)
Lemma replace_spaces_ok u : spaces_encoded u (replace_spaces u).
Proof.
  induction u as [|c u IH]; [constructor|]. unfold replace_spaces. cbn [flat_map]. fold (replace_spaces u).
  destruct (N.eqb_spec c 32) as [->|H]; [now constructor|]. now constructor.
Qed.
Lemma se_fun u v1 v2 : spaces_encoded u v1 -> spaces_encoded u v2 -> v1 = v2.
Proof.
  intros H. revert v2. induction H as [|u v H IH|c u v Hc H IH]; intros v2 H2; inversion H2; subst; try reflexivity; try contradiction;
    f_equal; auto; f_equal; auto.
Qed.
Lemma se_same u : ~ In 32%N u -> spaces_encoded u u.
Proof. induction u as [|c u IH]; [constructor|]. intros H. constructor; [intros ->; apply H; now left|apply IH; intros X; apply H; now right]. Qed.
Lemma normal_fun u v1 v2 : normal_uri u v1 -> normal_uri u v2 -> v1 = v2.
Proof.
  intros [(m & E & H)|(H0 & H)] [(m' & E' & H')|(H0' & H')].
  - rewrite E in E'. injection E' as E'. apply app_inj_tail in E' as [-> _]. now apply (se_fun m').
  - now destruct (H0' m).
  - now destruct (H0 m').
  - now apply (se_fun u).
Qed.
Lemma normal_total u : exists v, normal_uri u v.
Proof.
  assert (HB : (exists m, u = 60%N :: m ++ [62%N]) \/ forall m, u <> 60%N :: m ++ [62%N]).
  { destruct u as [|c u]; [right; discriminate|]. destruct (N.eq_dec c 60) as [->|Hc]; [|right; intros m X; injection X as X _; contradiction].
    destruct (rev u) as [|d r] eqn:Er.
    - assert (u = []) as -> by now rewrite <- (rev_involutive u), Er. right. intros m X. injection X as X. destruct m; discriminate.
    - assert (u = rev r ++ [d]) as -> by (rewrite <- (rev_involutive u), Er; reflexivity).
      destruct (N.eq_dec d 62) as [->|Hd]; [left; now exists (rev r)|]. right. intros m X. injection X as X. apply app_inj_tail in X as [_ X]. contradiction. }
  destruct HB as [(m & Em)|Hu].
  - exists (replace_spaces m). left. exists m. split; [exact Em|apply replace_spaces_ok].
  - exists (replace_spaces u). right. split; [exact Hu|apply replace_spaces_ok].
Qed.
Lemma normal_plain u : plain_uri (Some u) -> normal_uri u u.
Proof. intros [H1 H2]. right. split; [exact H2|now apply se_same]. Qed.
Lemma named_other n m (k : str) v : named n (k, v) -> ~ ci_eq n m -> name_eq k m = false.
Proof.
  intros H1 H2. apply name_eq_not. intros E. apply H2. exact (ci_eq_trans _ _ _ (ci_eq_sym _ _ H1) E).
Qed.
Lemma value_app n a h (b : list header) : name_eq (fst h) n = false -> value_of n (a ++ h :: b) = value_of n (a ++ b).
Proof. intros H. unfold value_of. rewrite !filter_app. cbn [filter]. now rewrite H. Qed.
Lemma value_here n a k v (b : list header) : named n (k, v) -> Forall (fun h => ~ named n h) a -> value_of n (a ++ (k, v) :: b) = Some v.
Proof.
  intros Hk Ha. rewrite value_of_hget. induction Ha as [|[k' v'] a H _ IH]; cbn.
  - unfold named in Hk. cbn in Hk. apply name_eq_spec in Hk. now rewrite Hk.
  - apply name_eq_not in H. cbn [fst] in H. now rewrite H.
Qed.
(** only the target URI changes *)
Lemma normal_other w0 w n : normalised w0 w -> ~ ci_eq (lit "WARC-Target-URI") (lit n) -> w_value n w = w_value n w0.
Proof.
  intros (_ & _ & [(_ & E)|(a & k & u & b & v & E0 & Hk & _ & _ & E)]) Hn; unfold w_value; rewrite E; [reflexivity|]. rewrite E0.
  rewrite !value_app; [reflexivity| |]; cbn [fst].
  - exact (named_other _ _ k u Hk Hn).
  - exact (named_other _ _ k u Hk Hn).
Qed.
Lemma ensure_normal h w0 w : sh_headers h = w_headers w0 -> normalised w0 w ->
  exists h', ensure_target_uri h = (w_value "WARC-Target-URI" w, h') /\ sh_headers h' = w_headers w
    /\ sh_proto h' = sh_proto h /\ sh_status h' = sh_status h /\ sh_total h' = sh_total h /\ sh_buff h' = sh_buff h.
Proof.
  intros Eh (_ & _ & [(Hp & E)|(a & k & u & b & v & E0 & Hk & Hab & Hu & E)]).
  - exists h. assert (get_header (lit "WARC-Target-URI") h = w_value "WARC-Target-URI" w0) as G.
    { unfold get_header, w_value. rewrite Eh. symmetry. apply value_of_hget. }
    rewrite ensure_plain by (rewrite G; exact Hp). rewrite G. unfold w_value. rewrite E. repeat split. exact Eh.
  - rewrite Forall_app in Hab. destruct Hab as [Ha Hb].
    assert (forall x y, value_of (lit "WARC-Target-URI") (a ++ (k, x) :: y) = Some x) as VA.
    { intros x y. apply value_here; [exact Hk|exact Ha]. }
    unfold w_value. rewrite E, VA. unfold ensure_target_uri.
    assert (get_header (lit "WARC-Target-URI") h = Some u) as ->.
    { unfold get_header. rewrite Eh, E0, <- value_of_hget. apply VA. }
    assert (forall s x y, sh_headers s = a ++ (k, x) :: b -> sh_headers (replace_header_ (lit "WARC-Target-URI") y s) = a ++ (k, y) :: b
              /\ sh_proto (replace_header_ (lit "WARC-Target-URI") y s) = sh_proto s /\ sh_status (replace_header_ (lit "WARC-Target-URI") y s) = sh_status s
              /\ sh_total (replace_header_ (lit "WARC-Target-URI") y s) = sh_total s /\ sh_buff (replace_header_ (lit "WARC-Target-URI") y s) = sh_buff s) as RP.
    { intros s x y Es. unfold replace_header_. rewrite (replace_header_last _ y s a k x b Es Hk Hb). repeat split. }
    assert (exists h1 u1, (if startswith (lit "<") u && endswith (lit ">") u
              then (takeZ (lenZ u - 2) (dropZ 1 u), replace_header_ (lit "WARC-Target-URI") (takeZ (lenZ u - 2) (dropZ 1 u)) h) else (u, h)) = (u1, h1)
            /\ sh_headers h1 = a ++ (k, u1) :: b /\ sh_proto h1 = sh_proto h /\ sh_status h1 = sh_status h /\ sh_total h1 = sh_total h /\ sh_buff h1 = sh_buff h /\ spaces_encoded u1 v) as (h1 & u1 & -> & H1 & H2 & H3 & H5 & H6 & H4).
    { destruct (startswith (lit "<") u && endswith (lit ">") u) eqn:Eb.
      - apply andb_true_iff in Eb as [E1 E2]. apply startswith_spec in E1 as (x & E1). apply endswith_spec in E2 as (y & E2).
        assert (exists m, u = 60%N :: m ++ [62%N]) as (m & Em).
        { rewrite E1 in E2. destruct y as [|c y]; [destruct x; discriminate|]. cbn in E2. injection E2 as <- E2. exists y. rewrite E1, E2. reflexivity. }
        destruct Hu as [(m' & Em' & Hu)|(Hu & _)]; [|now destruct (Hu m)]. rewrite Em in Em'. injection Em' as Em'. apply app_inj_tail in Em' as [<- _].
        assert (takeZ (lenZ u - 2) (dropZ 1 u) = m) as ->.
        { rewrite Em. change (60%N :: m ++ [62%N]) with ([60%N] ++ m ++ [62%N]). rewrite !lenZ_app. change (lenZ [60%N]) with 1. change (lenZ [62%N]) with 1.
          change 1 with (lenZ [60%N]) at 3. rewrite dropZ_app_exact. replace (1 + (lenZ m + 1) - 2) with (lenZ m) by lia. apply takeZ_app_exact. }
        eexists _, m. split; [reflexivity|]. destruct (RP h u m) as (R1 & R2 & R3 & R4 & R5); [now rewrite Eh|]. auto 10.
      - exists h, u. split; [reflexivity|]. split; [now rewrite Eh|]. split; [reflexivity|]. split; [reflexivity|]. split; [reflexivity|]. split; [reflexivity|].
        destruct Hu as [(m & -> & _)|(_ & Hu)]; [|exact Hu]. exfalso. apply andb_false_iff in Eb as [Eb|Eb].
        + assert (startswith (lit "<") (60%N :: m ++ [62%N]) = true) as X by (apply startswith_spec; exists (m ++ [62%N]); reflexivity). congruence.
        + assert (endswith (lit ">") (60%N :: m ++ [62%N]) = true) as X by (apply endswith_spec; exists (60%N :: m); reflexivity). congruence. }
    destruct (has_char 32%N u1) eqn:Es.
    + assert (replace_spaces u1 = v) as -> by (apply (se_fun u1); [apply replace_spaces_ok|exact H4]).
      eexists. split; [reflexivity|]. destruct (RP h1 u1 v H1) as (R1 & R2 & R3 & R4 & R5). rewrite R2, R3, R4, R5. auto 10.
    + assert (u1 = v) as <-; [|exists h1; auto 10]. apply (se_fun u1); [|exact H4]. apply se_same. intros Hin.
      unfold has_char in Es. assert (existsb (N.eqb 32) u1 = true) as X; [|congruence]. apply existsb_exists. exists 32%N. split; [exact Hin|reflexivity].
Qed.
Lemma normal_refl w : plain_uri (w_value "WARC-Target-URI" w) -> normalised w w.
Proof. intros H. split; [reflexivity|]. split; [reflexivity|]. now left. Qed.

(** ** one record *)
(** HTTP headers are absent only if they were not looked for *)
Lemma http_None fuel v t uri block m : enough fuel block ->
  load_http_headers raw_ops fuel v t uri (Some (lenZ block)) (raw_open block []) = (Ok None, m) ->
  m = raw_open block [] /\ forall T (ops : sops T) s, load_http_headers ops fuel v t uri (Some (lenZ block)) s = (Ok None, s).
Proof.
  intros Hf. unfold load_http_headers.
  destruct (match Some (lenZ block) with Some 0 => true | _ => false end) eqn:E0; [intros E; injection E as <-; now split|].
  destruct (is_http_record t); cbn [negb]; [|intros E; injection E as <-; now split].
  destruct uri as [u|]; [|discriminate]. destruct (is_http_uri u); cbn [negb]; [|intros E; injection E as <-; now split].
  destruct (otype_is t "request"); [destruct (parse _ _ _ _ _) as [[?|?] ?]; discriminate|].
  destruct (parse _ _ _ _ _) as [x s'] eqn:Ep. intros E. exfalso.
  pose proof (C21_failures_pf _ _ (raw_R (lenZ block) fuel) fuel (mk_parser HTTP_TYPES v) (raw_open block []) block
    (raw_lines (lenZ block) fuel)) as X.
  destruct X as (X & _); [unfold raw_R; cbn; now repeat split|exact Hf|]. rewrite Ep in X. cbn [fst] in X.
  destruct x as [?|e]; [discriminate|]. destruct e; try discriminate.
  rewrite (proj1 X eq_refl) in E0. discriminate E0.
Qed.

(** ... and at least [L] bytes follow them *)
Inductive hdr_room (M L : Z) : bytes -> Prop :=
| hr_last c : lenZ (take_line c) <= M -> L <= lenZ (drop_line c) -> urstrip (decode_header (take_line c)) = [] -> hdr_room M L c
| hr_more c : lenZ (take_line c) <= M -> L <= lenZ (drop_line c) -> hdr_room M L (drop_line c) -> hdr_room M L c.

Lemma upto_le c p : upto_blank c p -> lenZ p <= lenZ c.
Proof.
  induction 1 as [|c Hc Hb|c r Hc Hnb H IH]; [lia| |]; pose proof (len_drop_line c); pose proof (lenZ_nonneg (take_line c)); lia.
Qed.

Lemma hdr_short_room M L c p : hdr_short M c -> upto_blank c p -> L <= lenZ p -> hdr_room M L c.
Proof.
  intros Hs Hu. revert Hs. induction Hu as [|c Hc Hb|c r Hc Hnb H IH]; intros Hs HL.
  - apply hr_last; [inversion Hs; assumption|exact HL|reflexivity].
  - apply hr_last; [inversion Hs; assumption|exact HL|now apply urstrip_nil_blank].
  - pose proof (upto_le _ _ H). inversion Hs; subst.
    + exfalso. apply Hnb. now apply urstrip_nil_blank.
    + apply hr_more; [assumption|lia|]. apply IH; assumption.
Qed.

(** what load_http_headers leaves is what follows the header block *)
Lemma http_upto fuel v t uri len block h m : enough fuel block ->
  load_http_headers raw_ops fuel v t uri len (raw_open block []) = (Ok (Some h), m) -> upto_blank block (rw_rest m).
Proof.
  intros Hf E.
  assert (HR : reads_lines (o_readline raw_ops None) (fun r c => rw_rest r = c)).
  { intros s c <-. cbn. unfold raw_readline. eexists. split; [reflexivity|]. cbn [rw_rest line_of]. symmetry. apply drop_line_dropZ. }
  unfold load_http_headers in E.
  destruct (match len with Some 0 => true | _ => false end); [discriminate|].
  destruct (negb (is_http_record t)); [discriminate|]. destruct uri as [u|]; [|discriminate].
  destruct (negb (is_http_uri u)); [discriminate|].
  assert (PA : forall pl h' q, parse (o_readline raw_ops None) fuel (mk_parser pl v) None (raw_open block []) = (Ok h', q) -> upto_blank block (rw_rest q)).
  { intros pl h' q E'. destruct (parse_any _ _ HR fuel (mk_parser pl v) (raw_open block []) block) as [(_ & s' & E2 & _)|[(h2 & s' & rest & E2 & HR2 & Hu & _)|(s' & E2 & _)]];
      [reflexivity|unfold enough in Hf; lia| | |]; rewrite E' in E2; [discriminate| |discriminate]. injection E2 as _ ->. now rewrite HR2. }
  destruct (otype_is t "request").
  - destruct (parse _ fuel (mk_parser HTTP_VERBS v) None _) as [[x|e] q] eqn:E0; [|discriminate]. injection E as _ <-. now apply PA in E0.
  - destruct (parse _ fuel (mk_parser HTTP_TYPES v) None _) as [[x|e] q] eqn:E0; [injection E as _ <-; now apply PA in E0|].
    destruct e; try discriminate. destruct (otype_is t "revisit"); discriminate.
Qed.

Section Gen.
  Context {zl : zenv} (fuel : nat) (he : henv) (o : lopts) (Q : breader zl raw -> bytes -> Prop) (M : rlim).
  Notation rdr := (breader zl raw).
  Notation rops := (rops (zl:=zl) fuel).
  Notation iter := (@iter zl).
  Hypothesis HL : exact_full_line rops Q.
  Hypothesis HE : exact_read rops Q.
  Hypothesis HX : forall s c k, Q s c -> 0 < k -> lenZ (takeZ k (take_line c)) <= rM M ->
    lenZ (takeZ k (take_line c)) <= lenZ c - rL M ->
    exists s', o_readline rops (Some k) s = (Ok (takeZ k (take_line c)), s') /\ Q s' (dropZ (lenZ (takeZ k (take_line c))) c).
  Hypothesis HF : forall s c, Q s c -> (List.length c + 3 <= fuel)%nat.
  Hypothesis HM : 0 <= rM M.

  Lemma lines_Q : reads_lines (o_readline rops None) Q.
  Proof using HL HE HX HF HM. intros s c H. exact (HL s c H). Qed.

  (** the next line may already have been read *)
  Definition at_line (nl : option bytes) (r : rdr) (c : bytes) : Prop :=
    (List.length c + 3 <= fuel)%nat
    /\ match nl with
       | None => Q r c
       | Some l => c <> [] /\ l = take_line c /\ Q r (drop_line c)
       end.

  (** reading through the LimitReader of a record *)
  Lemma lim_line tail l c : lim_R Q tail l c -> lenZ (take_line c) <= rM M -> lenZ (take_line c) <= lenZ (c ++ tail) - rL M ->
    exists l', lim_readline rops None l = (Ok (take_line c), l') /\ lim_R Q tail l' (drop_line c)
               /\ lm_limit l' = lm_limit l - lenZ (take_line c).
  Proof using HL HE HX HF HM.
    intros HR Hs HLr. pose proof HR as (HR1 & HR2 & HR3). rewrite lim_readline_None.
    pose proof (lenZ_nonneg c) as Hc0. destruct (Z.eq_dec (lm_limit l) 0) as [E0|E0].
    - rewrite lim_readline_0 by (unfold lim_len; lia). assert (c = []) as -> by (eapply lim_R_limit0; eassumption).
      exists l. repeat split; auto; cbn; lia.
    - unfold lim_readline, lim_len. rewrite Z.min_id. replace (lm_limit l =? 0) with false by lia.
      pose proof (lim_take_line Q tail l c (lm_limit l) HR ltac:(lia)) as Et. rewrite Z.min_id in Et.
      assert (lenZ (take_line c) <= lenZ c) as Hle.
      { pose proof (take_drop_line c) as Ht. apply (f_equal lenZ) in Ht. rewrite lenZ_app in Ht. pose proof (lenZ_nonneg (drop_line c)). lia. }
      rewrite (takeZ_all (lm_limit l) (take_line c)) in Et by lia.
      destruct (HX _ _ (lm_limit l) HR1 ltac:(lia)) as (s' & E & HQ'); [rewrite Et; lia|rewrite Et; lia|]. rewrite Et in E, HQ'.
      rewrite E. eexists. split; [reflexivity|]. split; [|reflexivity].
      eapply lim_R_step; [exact HR|symmetry; apply take_drop_line|].
      rewrite dropZ_app_le in HQ' by lia. now rewrite drop_line_dropZ.
  Qed.

  Lemma lim_line_n tail l c k : lim_R Q tail l c -> 0 <= k -> lenZ (takeZ k (take_line c)) <= rM M -> lenZ (takeZ k (take_line c)) <= lenZ (c ++ tail) - rL M ->
    exists l', lim_readline rops (Some k) l = (Ok (takeZ k (take_line c)), l')
               /\ lim_R Q tail l' (dropZ (lenZ (takeZ k (take_line c))) c)
               /\ lm_limit l' = lm_limit l - lenZ (takeZ k (take_line c)).
  Proof using HL HE HX HF HM.
    intros HR Hk Hs HLr. pose proof HR as (HR1 & HR2 & HR3). pose proof (lenZ_nonneg c) as Hc0.
    destruct (Z.eq_dec k 0) as [->|Hk0].
    - rewrite lim_readline_0 by (unfold lim_len; lia). rewrite takeZ_0, lenZ_nil, dropZ_0 by lia. exists l. repeat split; auto; cbn; lia.
    - destruct (Z.eq_dec (lm_limit l) 0) as [E0|E0].
      + rewrite lim_readline_0 by (unfold lim_len; lia). assert (c = []) as -> by (eapply lim_R_limit0; eassumption).
        exists l. repeat split; auto; cbn; lia.
      + unfold lim_readline, lim_len. replace (Z.min k (lm_limit l) =? 0) with false by lia.
        pose proof (lim_take_line Q tail l c k HR ltac:(lia)) as Et.
        destruct (HX _ _ (Z.min k (lm_limit l)) HR1 ltac:(lia)) as (s' & E & HQ'); [rewrite Et; exact Hs|rewrite Et; exact HLr|].
        rewrite Et in E, HQ'. rewrite E. eexists. split; [reflexivity|]. split; [|reflexivity].
        eapply lim_R_step; [exact HR| |].
        * pose proof (line_of_split (Some k) c) as S. unfold line_of in S. replace (k <? 0) with false in S by lia. symmetry. exact S.
        * rewrite dropZ_app_le in HQ'; [exact HQ'|]. rewrite lenZ_takeZ by lia.
          pose proof (take_drop_line c) as Ht. apply (f_equal lenZ) in Ht. rewrite lenZ_app in Ht. pose proof (lenZ_nonneg (drop_line c)). lia.
  Qed.

  Lemma lim_rd tail l c n : lim_R Q tail l c -> nonneg n ->
    exists l', lim_read rops n l = (Ok (read_of n c), l') /\ lim_R Q tail l' (dropZ (lenZ (read_of n c)) c)
               /\ lm_limit l' = lm_limit l - lenZ (read_of n c).
  Proof using HL HE HX HF HM.
    intros HR Hn. pose proof HR as (HR1 & HR2 & HR3). pose proof (lenZ_nonneg c) as Hc0.
    assert (Hread : forall n, 0 <= n -> exists l', lim_read rops (Some n) l = (Ok (takeZ n c), l')
            /\ lim_R Q tail l' (dropZ (lenZ (takeZ n c)) c) /\ lm_limit l' = lm_limit l - lenZ (takeZ n c)).
    { intros k Hk. unfold lim_read, lim_len. destruct (Z.min k (lm_limit l) =? 0) eqn:E0.
      - assert (k = 0 \/ c = []) as [->| ->]. { destruct (Z.eq_dec k 0); [now left|right]. apply (lim_R_limit0 Q tail l c HR). lia. }
        + rewrite takeZ_0, lenZ_nil, dropZ_0 by lia. exists l. repeat split; auto; cbn; lia.
        + exists l. repeat split; auto; cbn; lia.
      - destruct (HE _ _ (Z.min k (lm_limit l)) HR1 ltac:(lia)) as (s' & E & HQ'). rewrite E.
        assert (Et : takeZ (Z.min k (lm_limit l)) (c ++ tail) = takeZ k c).
        { destruct tail as [|x t].
          - rewrite app_nil_r. destruct (Z.le_gt_cases k (lm_limit l)); [f_equal; lia|]. rewrite !takeZ_all by lia. reflexivity.
          - rewrite (HR3 ltac:(discriminate)). rewrite takeZ_app_le by lia.
            destruct (Z.le_gt_cases k (lenZ c)); [f_equal; lia|]. rewrite !takeZ_all by lia. reflexivity. }
        rewrite Et. eexists. split; [reflexivity|]. split; [|reflexivity].
        eapply lim_R_step; [exact HR| |].
        + rewrite dropZ_len_takeZ. symmetry. apply takeZ_dropZ.
        + rewrite <- Et in *. rewrite <- (dropZ_len_takeZ (Z.min k (lm_limit l)) (c ++ tail)) in HQ'. rewrite Et in *.
          rewrite dropZ_app_le in HQ'; [exact HQ'|]. rewrite lenZ_takeZ by lia. lia. }
    destruct n as [k|]; cbn [nonneg read_of] in *.
    - replace (k <? 0) with false by lia. now apply Hread.
    - rewrite lim_read_None. destruct (Hread (lm_limit l) ltac:(lia)) as (l' & E & H).
      rewrite takeZ_all in * by assumption. exists l'. now split.
  Qed.

  (** ** the stream of a record: [c] is left; [V] will hold of the digest checker at the end *)
  Definition rec_R (V : checker -> Prop) (tail : bytes) (rc : record rdr) (c : bytes) : Prop :=
    match rc_stream rc with
    | RSbase _ => False
    | RSlim l => lim_R Q tail l c /\ lm_limit l = lenZ c /\ V (rc_chk rc)
    | RSdig d => lim_R Q tail (lm_stream (dr_lim d)) c /\ lm_limit (lm_stream (dr_lim d)) = lenZ c /\ lm_limit (dr_lim d) = lenZ c
                 /\ exists u p, setup_ok u p /\ K2 u p d c /\ V (ds_cP u p)
    end.

  Lemma rec_read V tail rc c n : rec_R V tail rc c -> nonneg n ->
    exists st, rs_read rops n (rc_stream rc) = (Ok (read_of n c), st) /\ rec_R V tail (rc_set_stream st rc) (dropZ (lenZ (read_of n c)) c).
  Proof using HL HE HX HF HM.
    unfold rec_R. intros HR Hn. assert (Hlen : lenZ (dropZ (lenZ (read_of n c)) c) = lenZ c - lenZ (read_of n c)).
    { pose proof (read_of_split n c) as S. apply (f_equal lenZ) in S. rewrite lenZ_app in S. lia. }
    destruct (rc_stream rc) as [s|l|d] eqn:Es; [contradiction| |]; cbn [rs_read].
    - destruct HR as (HR & Hx & HV). destruct (lim_rd tail l c n HR Hn) as (l' & -> & HR' & Hx').
      exists (RSlim l'). cbn. split; [reflexivity|]. split; [exact HR'|]. split; [lia|exact HV].
    - destruct HR as (HR & Hx & Hy & u & p & Hu & HK & HV). destruct (lim_rd tail _ c n HR Hn) as (l' & E & HR' & Hx').
      destruct (dig_read_exact rops n d _ l' ltac:(lia) ltac:(pose proof (lenZ_nonneg c); lia) Hn E) as [(E2 & Eo & El)|(Hne & E2)].
      + rewrite E2, Eo. exists (RSdig d). cbn [rc_set_stream rc_stream]. rewrite lenZ_nil, dropZ_0 by lia.
        split; [reflexivity|]. eauto 10.
      + rewrite E2. pose proof (read_of_split n c) as S. rewrite <- S in HK.
        destruct (K2_upd u p d _ _ (mk_lim l' (lm_limit (dr_lim d) - lenZ (read_of n c)) (lm_orig (dr_lim d))) Hu HK Hne) as (d' & -> & Ed & HK').
        { now rewrite S. } { cbn. lia. }
        exists (RSdig d'). split; [reflexivity|]. cbn [rc_set_stream rc_stream]. rewrite Ed. cbn [lm_stream lm_limit].
        split; [exact HR'|]. split; [lia|]. split; [lia|]. exists u, p. auto.
  Qed.

  Lemma rec_readline V tail rc c n : rec_R V tail rc c -> nonneg n -> lenZ (line_of n c) <= rM M -> lenZ (line_of n c) <= lenZ (c ++ tail) - rL M ->
    exists st, rs_readline rops n (rc_stream rc) = (Ok (line_of n c), st) /\ rec_R V tail (rc_set_stream st rc) (dropZ (lenZ (line_of n c)) c).
  Proof using HL HE HX HF HM.
    unfold rec_R. intros HR Hn Hs HLr. assert (Hlen : lenZ (dropZ (lenZ (line_of n c)) c) = lenZ c - lenZ (line_of n c)).
    { pose proof (line_of_split n c) as S. apply (f_equal lenZ) in S. rewrite lenZ_app in S. lia. }
    assert (Hln : forall l, lim_R Q tail l c -> exists l', lim_readline rops n l = (Ok (line_of n c), l')
              /\ lim_R Q tail l' (dropZ (lenZ (line_of n c)) c) /\ lm_limit l' = lm_limit l - lenZ (line_of n c)).
    { intros l HRl. destruct n as [k|]; cbn [nonneg line_of] in *.
      - replace (k <? 0) with false in * by lia. now apply lim_line_n.
      - rewrite <- drop_line_dropZ. now apply lim_line. }
    destruct (rc_stream rc) as [s|l|d] eqn:Es; [contradiction| |]; cbn [rs_readline].
    - destruct HR as (HR & Hx & HV). destruct (Hln l HR) as (l' & -> & HR' & Hx').
      exists (RSlim l'). cbn. split; [reflexivity|]. split; [exact HR'|]. split; [lia|exact HV].
    - destruct HR as (HR & Hx & Hy & u & p & Hu & HK & HV). destruct (Hln _ HR) as (l' & E & HR' & Hx').
      destruct (dig_readline_exact rops n d _ l' ltac:(lia) ltac:(pose proof (lenZ_nonneg c); lia) Hn E) as [(E2 & Eo & El)|(Hne & E2)].
      + rewrite E2, Eo. exists (RSdig d). cbn [rc_set_stream rc_stream]. rewrite lenZ_nil, dropZ_0 by lia.
        split; [reflexivity|]. eauto 10.
      + rewrite E2. pose proof (line_of_split n c) as S. rewrite <- S in HK.
        destruct (K2_upd u p d _ _ (mk_lim l' (lm_limit (dr_lim d) - lenZ (line_of n c)) (lm_orig (dr_lim d))) Hu HK Hne) as (d' & -> & Ed & HK').
        { now rewrite S. } { cbn. lia. }
        exists (RSdig d'). split; [reflexivity|]. cbn [rc_set_stream rc_stream]. rewrite Ed. cbn [lm_stream lm_limit].
        split; [exact HR'|]. split; [lia|]. split; [lia|]. exists u, p. auto.
  Qed.

  (** ** HTTP headers through the record's stream *)
  Definition http_P (tail : bytes) (L : Z) (mode : option dsetup) (a : rstream rdr) (m : raw) : Prop :=
    rs_tell rops a = L - lenZ (rw_rest m)
    /\ match mode with
       | None => exists l, a = RSlim l /\ lim_R Q tail l (rw_rest m) /\ lm_limit l = lenZ (rw_rest m)
       | Some u => exists d, a = RSdig d /\ lim_R Q tail (lm_stream (dr_lim d)) (rw_rest m)
                     /\ lm_limit (lm_stream (dr_lim d)) = lenZ (rw_rest m) /\ lm_limit (dr_lim d) = lenZ (rw_rest m)
                     /\ K1 u d (rw_rest m)
       end.

  Lemma readline_orig n (l l' : limr rdr) x : lim_readline rops n l = (x, l') -> lm_orig l' = lm_orig l.
  Proof using. clear. unfold lim_readline. destruct (_ =? 0); [intros E; now injection E as <- <-|].
    destruct (o_readline _ _ _) as [[b|e] s']; intros E; injection E as <- <-; reflexivity. Qed.

  Lemma http_line tail L mode pay a m : (forall u, mode = Some u -> setup_ok u pay) -> http_P tail L mode a m -> lenZ (take_line (rw_rest m)) <= rM M ->
    rL M <= lenZ (drop_line (rw_rest m)) + lenZ tail ->
    exists a', rs_readline rops None a = (Ok (take_line (rw_rest m)), a')
      /\ forall m', rw_rest m' = drop_line (rw_rest m) -> http_P tail L mode a' m'.
  Proof using HL HE HX HF HM.
    intros Hok (Ht & HP) Hs HLr. pose proof (len_drop_line (rw_rest m)) as Hlen.
    assert (HLt : lenZ (take_line (rw_rest m)) <= lenZ (rw_rest m ++ tail) - rL M) by (rewrite lenZ_app; lia). destruct mode as [u|].
    - destruct HP as (d & -> & HR & Hx & Hy & HK). cbn [rs_readline rs_tell] in *. unfold dig_tell, lim_tell in Ht.
      destruct (lim_line tail _ (rw_rest m) HR Hs HLt) as (l' & E & HR' & Hx').
      destruct (dig_readline_exact rops None d _ l' ltac:(lia) ltac:(pose proof (lenZ_nonneg (rw_rest m)); lia) Logic.I E) as [(E2 & Eo & El)|(Hne & E2)].
      + rewrite E2, Eo. exists (RSdig d). split; [reflexivity|]. intros m' Hm'.
        apply (proj1 (take_line_nil (rw_rest m))) in Eo. assert (Edl : drop_line (rw_rest m) = rw_rest m) by now rewrite Eo. rewrite Edl in Hm'.
        split; [cbn [rs_tell]; unfold dig_tell, lim_tell; rewrite Hm'; exact Ht|]. exists d. rewrite Hm'. auto 10.
      + rewrite E2. rewrite <- (take_drop_line (rw_rest m)) in HK at 1.
        destruct (K1_upd u pay d _ _ (mk_lim l' (lm_limit (dr_lim d) - lenZ (take_line (rw_rest m))) (lm_orig (dr_lim d))) (Hok u eq_refl) HK Hne) as (d' & -> & Ed & HK').
        { now rewrite take_drop_line. } { cbn. lia. }
        exists (RSdig d'). split; [reflexivity|]. intros m' Hm'. rewrite <- Hm' in *. split.
        { cbn [rs_tell]. unfold dig_tell, lim_tell. rewrite Ed. cbn. lia. }
        exists d'. rewrite Ed. cbn [lm_stream lm_limit]. split; [reflexivity|]. split; [exact HR'|]. split; [lia|]. split; [lia|exact HK'].
    - destruct HP as (l & -> & HR & Hx). cbn [rs_readline rs_tell] in *. unfold lim_tell in Ht.
      destruct (lim_line tail _ (rw_rest m) HR Hs HLt) as (l' & E & HR' & Hx'). rewrite E. exists (RSlim l'). split; [reflexivity|].
      intros m' Hm'. rewrite <- Hm' in *. split; [cbn [rs_tell]; unfold lim_tell; rewrite (readline_orig _ _ _ _ E); lia|].
      exists l'. split; [reflexivity|]. split; [exact HR'|lia].
  Qed.

  Lemma load_http_rec tail L mode pay st block v t uri len :
    (forall u, mode = Some u -> setup_ok u pay) -> http_P tail L mode st (raw_open block []) -> hdr_room (rM M) (rL M - lenZ tail) block ->
    same (http_P tail L mode) (load_http_headers (rs_ops rops) fuel v t uri len st)
         (load_http_headers raw_ops fuel v t uri len (raw_open block [])).
  Proof using HL HE HX HF HM.
    intros Hok HP Hs.
    apply (load_http_sim2 (rs_ops rops) raw_ops (fun a m => http_P tail L mode a m /\ hdr_room (rM M) (rL M - lenZ tail) (rw_rest m))).
    - now intros a b [H _].
    - intros a b [HP0 Hs0]. left. cbn [rs_ops o_readline raw_ops].
      destruct (http_line tail L mode pay a b Hok HP0) as (a' & E & HP'); [inversion Hs0; assumption|inversion Hs0; lia|].
      rewrite E. eexists _, _, _. split; [reflexivity|]. unfold raw_readline. split; [reflexivity|].
      cbn [line_of rw_rest]. rewrite <- drop_line_dropZ. split.
      + apply HP'. reflexivity.
      + intros Hb. split; [apply HP'; reflexivity|]. inversion Hs0; subst; [contradiction|assumption].
    - now split.
  Qed.

  (** ** parse_record_stream on a well-formed record *)
  Lemma eff_length_ok l n : py_int l = Some n -> 0 <= n -> eff_length (Some l) 0 = Some n.
  Proof using. clear. intros E Hn. unfold eff_length. rewrite E. replace (n - 0 <? 0) with false by lia. f_equal. lia. Qed.

  Definition verdict_at (w : wrc) (payload : bytes) (ck : checker) : Prop := checked he o w payload (dc_passed ck).

  (** after the HTTP headers the stream is the record's *)
  Lemma http_rec tail L mode st m t h http ct ln pl w :
    (forall u, mode = Some u -> setup_ok u (rw_rest m)) -> http_P tail L mode st m ->
    (mode = None -> verdict_at w (rw_rest m) (chk_new (lo_check o))) ->
    (forall u, mode = Some u -> verdict_at w (rw_rest m) (ds_cP u (rw_rest m))) ->
    exists st', (match st with RSdig d => let (x, d') := begin_payload d in (x, RSdig d') | _ => (Ok tt, st) end) = (Ok tt, st')
      /\ rec_R (verdict_at w (rw_rest m)) tail (mk_rec FWarc t h st' http ct ln pl (chk_new (lo_check o))) (rw_rest m).
  Proof using.
    intros Hok (Ht & HP) Hv0 Hv1. destruct mode as [u|].
    - destruct HP as (d & -> & HR & Hx & Hy & HK). destruct (K1_begin u d _ (Hok u eq_refl) HK Hy) as (d' & -> & Ed & HK').
      exists (RSdig d'). split; [reflexivity|]. unfold rec_R. cbn [rc_stream]. rewrite Ed. split; [exact HR|]. split; [exact Hx|]. split; [exact Hy|].
      exists u, (rw_rest m). auto.
    - destruct HP as (l & -> & HR & Hx). exists (RSlim l). split; [reflexivity|]. unfold rec_R. cbn. auto.
  Qed.

  Lemma plen_ok (L a b : Z) (x : bool) : a = L - b -> (if x then L - (a - 0) else -1) = (if x then b else -1).
  Proof using. clear. intros ->. destruct x; lia. Qed.

  Lemma read_head nl r w head body :
    wf_lines w -> utf8_encode (record_text (w_version w) (w_headers w)) = Some head -> at_line nl r (head ++ body) ->
    exists h s1, parse (o_readline rops None) fuel (mk_parser WARC_TYPES true)
                  (match nl with Some l => Some (HBytes l) | None => None end) r = (Ok h, s1)
                /\ Q s1 body /\ sh_proto h = w_version w /\ sh_headers h = w_headers w /\ sh_status h = [].
  Proof using HL HE HX HF HM.
    intros Hwf He Hat. destruct Hat as [Hfu Hat]. destruct nl as [l|].
    - destruct Hat as (Hne & -> & HQ).
      (* a virtual stream on which the line has not been read yet *)
      set (c := head ++ body) in *.
      pose (rl := fun s : bool * rdr => if fst s then (Ok (take_line c), (false, snd s))
                    else let (x, s') := o_readline rops None (snd s) in (x, (false, s'))).
      pose (R := fun (s : bool * rdr) c' => if fst s then c' = c /\ Q (snd s) (drop_line c) else Q (snd s) c').
      assert (HRL : reads_lines rl R).
      { intros [[|] s] c' HR; cbn [fst snd R] in HR; unfold rl; cbn [fst snd].
        - destruct HR as [-> HR]. exists (false, s). split; [reflexivity|exact HR].
        - destruct (HL s c' HR) as (s' & -> & HQ'). exists (false, s'). split; [reflexivity|exact HQ']. }
      destruct (head_parse rl R fuel w head (true, r) (body) HRL Hwf He) as (h & s' & E & HR' & Ep & Eh & Est).
      { split; [reflexivity|exact HQ]. }
      { unfold enough. unfold c in Hfu. rewrite app_length in Hfu. lia. }
      rewrite (parse_first rl fuel _ (true, r) (take_line c) (false, r) eq_refl) in E.
      destruct (parse_sim rl (o_readline rops None) (fun a b => fst a = false /\ snd a = b)) with
        (fuel := fuel) (p := mk_parser WARC_TYPES true) (full := Some (HBytes (take_line c))) (a := (false, r)) (b := r) as [S1 S2].
      { intros [b0 a] b [X1 X2]. cbn in X1, X2. subst. unfold rl. cbn [fst snd].
        destruct (o_readline rops None b). now split. }
      { now split. }
      rewrite E in S1, S2. cbn [fst snd] in S1, S2.
      destruct (parse (o_readline rops None) fuel _ (Some (HBytes (take_line c))) r) as [x s1]. cbn [fst snd] in S1, S2. subst x.
      destruct S2 as [F <-]. exists h, (snd s'). split; [reflexivity|]. unfold R in HR'. rewrite F in HR'. auto.
    - destruct (head_parse (o_readline rops None) Q fuel w head r (body) lines_Q Hwf He Hat) as (h & s' & E & HR' & Ep & Eh & Est).
      { unfold enough. rewrite app_length in Hfu. lia. }
      exists h, s'. auto.
  Qed.

  Lemma load_record nl r w0 w head rest http payload known :
    wf_lines w0 -> normalised w0 w -> declares_length w -> utf8_encode (record_text (w_version w0) (w_headers w0)) = Some head ->
    at_line nl r (head ++ w_block w ++ rest) ->
    http_view fuel (lo_norec o) (lo_verify o) w http payload ->
    (lo_norec o = false -> http <> None -> short_lines (rM M) (w_block w)) -> rL M <= lenZ payload + lenZ rest ->
    digests_ready he o w payload -> lo_ensure o = false -> known <> Some FArc ->
    exists rc, parse_record_stream rops fuel he o (match nl with Some l => Some (HBytes l) | None => None end) known r
                 = (Ok rc, rs_base (rc_stream rc))
      /\ rec_R (verdict_at w payload) rest rc payload
      /\ rc_format rc = FWarc /\ rc_type rc = w_value "WARC-Type" w
      /\ sh_proto (rc_headers rc) = w_version w /\ sh_headers (rc_headers rc) = w_headers w
      /\ rc_length rc = Some (lenZ (w_block w)) /\ rc_ctype rc = w_value "Content-Type" w
      /\ rc_http rc = http /\ sh_status (rc_headers rc) = []
      /\ rc_plen rc = if osah_bool http then lenZ payload else -1.
  Proof using HL HE HX HF HM.
    intros Hwf Hnw (cl & Ecl & Hcl) He Hat Hv Hsh HLr Hck Hen Hkn.
    pose proof (read_head nl r w0 head (w_block w ++ rest) Hwf He Hat) as P.
    destruct P as (h0 & s1 & P & HQ1 & Ep & Eh & Est).
    assert (D : detect_type rops fuel (lo_a2w o) (lo_uuid o) (match nl with Some l => Some (HBytes l) | None => None end) known r = (Ok (false, h0), s1)).
    { unfold detect_type. rewrite P. destruct known as [[|]|]; [reflexivity|contradiction|reflexivity]. }
    assert (G0 : get_header (lit "WARC-Type") h0 = w_value "WARC-Type" w).
    { rewrite (normal_other w0 w "WARC-Type" Hnw) by (intros X; apply name_eq_spec in X; vm_compute in X; discriminate).
      unfold get_header, w_value. rewrite Eh. symmetry. apply value_of_hget. }
    destruct (ensure_normal h0 w0 w Eh Hnw) as (h & Hens & Ehn & Epn & Esn & _). rewrite Ep in Epn. rewrite <- (proj1 Hnw) in Epn. rewrite Est in Esn.
    clear Ep Eh Est. rename Epn into Ep, Ehn into Eh, Esn into Est.
    assert (G : forall n, get_header (lit n) h = w_value n w).
    { intros n. unfold get_header, w_value. rewrite Eh. symmetry. apply value_of_hget. }
    pose proof (lim_R_new Q s1 _ (lenZ (w_block w)) HQ1 (lenZ_nonneg _)) as HR. rewrite takeZ_app_exact, dropZ_app_exact in HR.
    (* the stream before the HTTP headers *)
    assert (ST : exists st mode, (if ckind_bool (lo_check o) then wrap_digest he (lim_new s1 (lenZ (w_block w))) (w_value "WARC-Type" w) h (chk_new (lo_check o)) (lenZ (w_block w))
                     else Ok (RSlim (lim_new s1 (lenZ (w_block w))))) = Ok st
                 /\ rs_tell rops st = 0 /\ (forall u, mode = Some u -> setup_ok u payload) /\ http_P rest (lenZ (w_block w)) mode st (raw_open (w_block w) [])
                 /\ (mode = None -> verdict_at w payload (chk_new (lo_check o))) /\ (forall u, mode = Some u -> verdict_at w payload (ds_cP u payload))).
    { assert (Plain : (lo_check o = KFalse \/ (block_digest w = None \/ block_digest w = Some []) /\ (payload_digest w = None \/ payload_digest w = Some [])) ->
         exists st mode, Ok (RSlim (lim_new s1 (lenZ (w_block w)))) = Ok st
                 /\ rs_tell rops st = 0 /\ (forall u : dsetup, mode = Some u -> setup_ok u payload) /\ http_P rest (lenZ (w_block w)) mode st (raw_open (w_block w) [])
                 /\ (mode = None -> verdict_at w payload (chk_new (lo_check o))) /\ (forall u, mode = Some u -> verdict_at w payload (ds_cP u payload))).
      { intros Hno. exists (RSlim (lim_new s1 (lenZ (w_block w)))), None. split; [reflexivity|]. split; [cbn; unfold lim_tell; cbn; lia|].
        split; [discriminate|]. split; [split; [cbn; unfold lim_tell; cbn; lia|]; exists (lim_new s1 (lenZ (w_block w))); cbn; auto|].
        split; [intros _|discriminate]. split; [reflexivity|]. intros Hk vb vp Jb Jp. destruct Hno as [Hno|[Hb Hp]]; [contradiction|].
        assert (forall data d v, (d = None \/ d = Some []) -> judged he data d v -> v = VNone) as X.
        { clear. intros data d v Hd J. destruct J as [| |? Hne ?|? ? ? Hi ?|? ? ? ? Hi ? ?|? ? ? ? ? Hi ? ? ? ? ?]; try reflexivity; exfalso; destruct Hd as [E|E]; try discriminate E; injection E as ->; try (now apply Hne); now apply is_digest_ne in Hi. }
        rewrite (X _ _ _ Hb Jb), (X _ _ _ Hp Jp). split; [reflexivity|]. intros _ _. split; discriminate. }
      destruct (ckind_bool (lo_check o)) eqn:Ek; [|apply Plain; left; destruct (lo_check o); [reflexivity|discriminate|discriminate|discriminate]].
      destruct Hck as [Hck|(Hhe & Hck)]; [rewrite Hck in Ek; discriminate|].
      unfold wrap_digest. rewrite !G. destruct (negb (truthy (w_value "WARC-Payload-Digest" w)) && negb (truthy (w_value "WARC-Block-Digest" w))) eqn:Et.
      - apply Plain. right. apply andb_true_iff in Et as [E1 E2].
        assert (X : forall d, negb (truthy d) = true -> d = None \/ d = Some []) by (intros [[|? ?]|] E; [now right|discriminate|now left]).
        apply X in E1, E2. unfold block_digest, payload_digest, eff_payload, eff_block. clear -E1 E2.
        destruct (w_value "WARC-Segment-Number" w), (w_value "WARC-Type" w) as [t|]; try destruct (leqb t (lit "revisit")); auto.
      - destruct (dig_start he (lo_check o) (w_value "WARC-Type" w) (w_value "WARC-Payload-Digest" w) (w_value "WARC-Block-Digest" w) (w_value "WARC-Segment-Number" w)
                    (w_block w) payload (lim_new s1 (lenZ (w_block w))) Hhe Hck) as (d & u & -> & Ed & Eb & Hok & HK & Hver).
        exists (RSdig d), (Some u). split; [reflexivity|]. split; [cbn; unfold dig_tell, lim_tell; rewrite Ed; cbn; lia|].
        split; [intros u' E; now injection E as <-|]. split.
        { split; [cbn; unfold dig_tell, lim_tell; rewrite Ed; cbn; lia|]. exists d. rewrite Ed. cbn. auto 10. }
        split; [discriminate|]. intros u' E. injection E as <-. split; [intros X; rewrite X in Ek; discriminate|].
        intros _ vb vp Jb Jp. exact (Hver vb vp Jb Jp). }
    destruct ST as (st & mode & Est0 & Htell & Hok & HP & HV).
    unfold parse_record_stream. rewrite D. cbn [andb]. rewrite Hens, G0.
    rewrite !G, Ecl, (eff_length_ok _ _ Hcl (lenZ_nonneg _)), Hen, Est0, Htell.
    unfold http_view in Hv. destruct (lo_norec o).
    - destruct Hv as [-> ->]. cbn [negb andb osah_bool].
      destruct (http_rec rest _ mode st (raw_open (w_block w) []) (w_value "WARC-Type" w) h None (w_value "Content-Type" w) (Some (lenZ (w_block w))) (-1) w Hok HP) as (st' & -> & HRec);
        [now apply HV|now apply HV|].
      match goal with |- context [(Ok (mk_rec ?a ?b ?c ?d ?e ?f ?g ?i ?j), rs_base _)] => exists (mk_rec a b c d e f g i j) end.
      split; [reflexivity|]. cbn [rc_stream rc_format rc_type rc_headers rc_length rc_ctype rc_http rc_plen]. auto 15.
    - destruct Hv as (m & Em & ->).
      assert (S : same (http_P rest (lenZ (w_block w)) mode)
                   (load_http_headers (rs_ops rops) fuel (lo_verify o) (w_value "WARC-Type" w) (w_value "WARC-Target-URI" w) (Some (lenZ (w_block w))) st)
                   (Ok http, m)).
      { assert (Hfw : enough fuel (w_block w)) by (destruct Hat as [Hfu _]; rewrite !app_length in Hfu; unfold enough; lia).
        destruct http as [http|].
        - rewrite <- Em. apply (load_http_rec _ _ _ (rw_rest m)); [exact Hok|exact HP|].
          apply (hdr_short_room _ _ _ (rw_rest m)); [|now apply (http_upto _ _ _ _ _ _ _ _ Hfw Em)|lia].
          apply short_lines_hdr; [apply Hsh; [reflexivity|discriminate]|exact HM].
        - destruct (http_None _ _ _ _ _ m Hfw Em) as [-> Hn]. rewrite Hn. split; [reflexivity|exact HP]. }
      destruct (load_http_headers (rs_ops rops) fuel (lo_verify o) _ _ _ st) as [x st'].
      destruct S as [S1 S2]. cbn [fst snd] in S1, S2. subst x.
      destruct S2 as (Ht' & HP'). rewrite Ht'.
      destruct (http_rec rest _ mode st' m (w_value "WARC-Type" w) h http (w_value "Content-Type" w) (Some (lenZ (w_block w)))
                  (if osah_bool http then lenZ (rw_rest m) else -1) w Hok (conj Ht' HP')) as (st'' & E'' & HRec); [now apply HV|now apply HV|].
      rewrite E'', andb_false_r.
      assert (Epl : (if negb false && negb (lenZ (w_block w) =? 0) && osah_bool http then lenZ (w_block w) - (lenZ (w_block w) - lenZ (rw_rest m) - 0) else -1)
               = if osah_bool http then lenZ (rw_rest m) else -1).
      { destruct (osah_bool http) eqn:Eo; [|now rewrite andb_false_r]. destruct (lenZ (w_block w) =? 0) eqn:E0.
        - exfalso. assert (lenZ (w_block w) = 0) as E1 by lia. unfold load_http_headers in Em. rewrite E1 in Em. injection Em as <- <-. discriminate.
        - cbn. lia. }
      rewrite Epl. match goal with |- context [(Ok (mk_rec ?a ?b ?c ?d ?e ?f ?g ?i ?j), rs_base _)] => exists (mk_rec a b c d e f g i j) end.
      split; [reflexivity|]. cbn [rc_stream rc_format rc_type rc_headers rc_length rc_ctype rc_http rc_plen]. auto 15.
  Qed.

  (** ** the consumer *)
  Definition same_core (a b : iter) : Prop :=
    it_offset b = it_offset a /\ it_known b = it_known a /\ it_next_line b = it_next_line a
    /\ it_err_count b = it_err_count a /\ it_phase b = it_phase a /\ it_raise_gz b = it_raise_gz a
    /\ it_empty b = it_empty a.
  Lemma same_core_refl a : same_core a a. Proof. repeat split. Qed.
  Lemma same_core_trans a b c : same_core a b -> same_core b c -> same_core a c.
  Proof. intros (?&?&?&?&?&?&?) (?&?&?&?&?&?&?). repeat split; congruence. Qed.

  (** the current record has [c] left *)
  Definition live (V : checker -> Prop) (tail c : bytes) (it : iter) : Prop :=
    exists rc, it_record it = Some rc /\ rec_R V tail rc c
      /\ it_reader it = rs_base (rc_stream rc) /\ it_member it = None.
  (** the current record is finished *)
  Definition empty_stream (st : rstream rdr) : Prop :=
    match st with RSbase _ => False | RSlim l => lm_limit l = 0 | RSdig d => lm_limit (dr_lim d) = 0 end.
  Definition dead (it : iter) : Prop :=
    exists rc, it_record it = Some rc /\ empty_stream (rc_stream rc)
      /\ it_reader it = rs_base (rc_stream rc) /\ it_member it <> None.
  (** [V] holds of its digest checker *)
  Definition holds (V : checker -> Prop) (it : iter) : Prop :=
    exists rc, it_record it = Some rc /\ V (rc_checker rc).

  Lemma set_same (it : iter) rc : it_record it = Some rc -> it_reader it = rs_base (rc_stream rc) ->
    it_set_rstream (rc_stream rc) it = it.
  Proof using. clear.
    intros Er Ed. unfold it_set_rstream. rewrite Er, <- Ed.
    assert (rc_set_stream (rc_stream rc) rc = rc) as -> by (destruct rc; reflexivity).
    rewrite <- Er. destruct it; reflexivity.
  Qed.
  Lemma set_reader_same (it : iter) rc : it_record it = Some rc -> it_reader it = rs_base (rc_stream rc) ->
    it_set_reader (it_reader it) it = it.
  Proof using. clear.
    intros Er Ed. unfold it_set_reader. rewrite Er, Ed.
    assert (rc_set_stream (rs_set_base (rs_base (rc_stream rc)) (rc_stream rc)) rc = rc) as ->.
    { assert (rs_set_base (rs_base (rc_stream rc)) (rc_stream rc) = rc_stream rc) as ->.
      { destruct (rc_stream rc) as [s|[? ? ?]|[[[? ? ?] ? ?] ? ? ? ? ? ?]]; reflexivity. }
      destruct rc; reflexivity. }
    rewrite <- Er, <- Ed. destruct it; reflexivity.
  Qed.

  Lemma dead_op u it : dead it -> match u with URead n | UReadline n => nonneg n | UInfo => True end ->
    user_op fuel u it = (Ok [], it).
  Proof using. clear.
    intros (rc & Er & E0 & Ed & Hm) Hn. pose proof (set_same it rc Er Ed) as It.
    assert (Z0 : forall n (l : limr rdr), nonneg n -> lm_limit l = 0 -> lim_len n l = 0).
    { intros n l Hn0 Hl. unfold lim_len. destruct n; cbn in Hn0; lia. }
    assert (Z1 : forall n (l : limr (limr rdr)), nonneg n -> lm_limit l = 0 -> lim_len n l = 0).
    { intros n l Hn0 Hl. unfold lim_len. destruct n; cbn in Hn0; lia. }
    destruct u as [n|n|]; unfold user_op.
    - rewrite Er. destruct (rc_stream rc) as [s|l|d] eqn:Es; [contradiction| |]; cbn [rs_read empty_stream] in *.
      + rewrite lim_read_0 by auto. now rewrite It.
      + unfold dig_read, dig_rd. rewrite Z1 by auto. cbn. now rewrite It.
    - rewrite Er. destruct (rc_stream rc) as [s|l|d] eqn:Es; [contradiction| |]; cbn [rs_readline empty_stream] in *.
      + rewrite lim_readline_0 by auto. now rewrite It.
      + unfold dig_readline, dig_rd. rewrite Z1 by auto. cbn. now rewrite It.
    - unfold get_offset_length, read_to_end. rewrite Er. destruct (it_member it); [reflexivity|contradiction].
  Qed.

  Lemma dead_ops us : forall it, dead it -> nonneg_ops us -> user_ops fuel us it = (map Ok (mem_user us []), it).
  Proof using. clear.
    induction us as [|u us IH]; intros it Hd Hn; [reflexivity|]. inversion Hn as [|? ? H1 H2]; subst.
    cbn [user_ops]. rewrite dead_op by assumption. rewrite IH by assumption.
    destruct u as [n|n|]; cbn [mem_user map]; [| |reflexivity].
    - assert (read_of n [] = (@nil N)) as -> by (destruct n as [k|]; cbn; [destruct (k <? 0)|]; reflexivity). reflexivity.
    - assert (line_of n [] = (@nil N)) as -> by (destruct n as [k|]; cbn; [destruct (k <? 0)|]; reflexivity). reflexivity.
  Qed.

  Lemma line_of_le n c : nonneg n -> lenZ (line_of n c) <= lenZ (take_line c).
  Proof using. clear. destruct n as [k|]; cbn; [|lia]. intros H. replace (k <? 0) with false by lia. rewrite lenZ_takeZ by lia. lia. Qed.
  (** readline reaches the last [rL M] bytes only if the consumer does not use it *)
  Definition user_room (us : list uop) (tail : bytes) : Prop := rL M <= lenZ tail \/ no_lines us.
  Lemma live_op V u it tail c : live V tail c it -> user_lines (rM M) [u] c -> user_room [u] tail ->
    match u with URead n | UReadline n => nonneg n | UInfo => False end ->
    exists out it', user_op fuel u it = (Ok out, it')
      /\ out = match u with URead n => read_of n c | UReadline n => line_of n c | UInfo => [] end
      /\ live V tail (dropZ (lenZ out) c) it' /\ same_core it it'.
  Proof using HL HE HX HF HM.
    intros (rc & Er & HR & Ed & Em) Hl Hrm Hn.
    assert (K : forall (out : bytes) st, rec_R V tail (rc_set_stream st rc) (dropZ (lenZ out) c) ->
       live V tail (dropZ (lenZ out) c) (it_set_rstream st it) /\ same_core it (it_set_rstream st it)).
    { intros out st HR'. split; [|repeat split]. unfold live, it_set_rstream. rewrite Er. eexists. cbn. eauto. }
    destruct u as [n|n|]; [| |contradiction]; unfold user_op; rewrite Er.
    - destruct (rec_read V tail rc c n HR Hn) as (st & -> & HR'). eexists _, _. split; [reflexivity|]. split; [reflexivity|]. now apply K.
    - assert (Hs : lenZ (line_of n c) <= rM M).
      { unfold user_lines in Hl. apply Forall_inv in Hl. destruct Hl as [Hf|(k & -> & Hk)].
        - pose proof (Hf [] c eq_refl). pose proof (line_of_le n c Hn). lia.
        - unfold line_of. cbn in Hn. replace (k <? 0) with false by lia. rewrite lenZ_takeZ by lia. lia. }
      assert (HLr : lenZ (line_of n c) <= lenZ (c ++ tail) - rL M).
      { destruct Hrm as [Hrm|Hrm]; [|apply Forall_inv in Hrm; contradiction]. rewrite lenZ_app.
        pose proof (line_of_le n c Hn). pose proof (len_drop_line c). pose proof (lenZ_nonneg (drop_line c)). lia. }
      destruct (rec_readline V tail rc c n HR Hn Hs HLr) as (st & -> & HR'). eexists _, _. split; [reflexivity|]. split; [reflexivity|]. now apply K.
  Qed.

  (** [F]: what holds of the iterator when the record is finished *)
  Lemma user_run V (F : iter -> Prop) (core : iter -> Prop) tail :
    (forall it it', core it -> same_core it it' -> core it') ->
    (forall it c, live V tail c it -> core it -> exists it', read_to_end fuel it = (Ok tt, it') /\ F it' /\ dead it') ->
    forall us it c, live V tail c it -> core it -> nonneg_ops us -> user_lines (rM M) us c -> user_room us tail ->
    exists it', user_ops fuel us it = (map Ok (mem_user us c), it')
      /\ exists it2, get_offset_length fuel it' = (Ok (it_member it2), it2) /\ F it2 /\ dead it2.
  Proof using HL HE HX HF HM.
    intros HC HR. induction us as [|u us IH]; intros it c Hl Hc Hn Hu Hrm.
    - exists it. split; [reflexivity|]. destruct (HR it c Hl Hc) as (it2 & E & HF2 & Hd). exists it2.
      unfold get_offset_length. rewrite E. auto.
    - inversion Hn as [|? ? H1 H2]; subst. cbn [user_ops].
      assert (u = UInfo \/ match u with URead n | UReadline n => nonneg n | UInfo => False end) as [->|Hnu]
        by (destruct u; [now right|now right|now left]).
      + destruct (HR it c Hl Hc) as (it2 & E & HF2 & Hd). cbn [user_op]. unfold get_offset_length. rewrite E.
        rewrite dead_ops by assumption. cbn [mem_user map]. exists it2. split; [reflexivity|]. exists it2.
        split; [|now split]. unfold read_to_end. destruct Hd as (rc & Er & _ & _ & Hm). rewrite Er.
        destruct (it_member it2) as [mi|] eqn:Emi; [now rewrite Emi|contradiction].
      + destruct (live_op V u it tail c Hl) as (out & it1 & E & Eo & Hl1 & Hs1).
        { unfold user_lines in *. constructor; [exact (Forall_inv Hu)|constructor]. }
        { destruct Hrm as [Hrm|Hrm]; [now left|right]. constructor; [exact (Forall_inv Hrm)|constructor]. }
        { exact Hnu. }
        rewrite E. destruct (IH it1 _ Hl1 (HC _ _ Hc Hs1) H2) as (it' & E' & X).
        { unfold user_lines in *. apply Forall_inv_tail in Hu. eapply Forall_impl; [|exact Hu]. intros [n|n|] Hx; auto.
          destruct Hx as [Hx|Hx]; [left; intros a b Hab; revert a b Hab; now apply lines_le_drop|now right]. }
        { destruct Hrm as [Hrm|Hrm]; [now left|right]. exact (Forall_inv_tail Hrm). }
        rewrite E'. exists it'. split; [|exact X]. destruct u; [subst out; reflexivity|subst out; reflexivity|contradiction].
  Qed.

  (** ** the rest of a record is skipped *)
  Lemma drain_rec V tail n : forall rc c, rec_R V tail rc c -> (List.length c < n)%nat ->
    exists st, drain fuel n (rc_stream rc) = (Ok tt, st) /\ empty_stream st /\ Q (rs_base st) tail /\ V (rc_checker (rc_set_stream st rc)).
  Proof using HL HE HX HF HM.
    induction n as [|n IH]; intros rc c HR Hn; [lia|]. cbn [drain].
    destruct (rec_read V tail rc c (Some BUFF_SIZE) HR ltac:(cbv; discriminate)) as (st & -> & HR').
    unfold read_of in *. replace (BUFF_SIZE <? 0) with false in * by reflexivity.
    destruct c as [|x c].
    - exists st. cbn [takeZ] in *. split; [reflexivity|]. cbn in HR'. unfold rec_R in HR'. unfold rc_checker. cbn [rc_set_stream rc_stream rc_chk] in *.
      destruct st as [s|l|d]; [contradiction| |]; cbn [empty_stream rs_base].
      + destruct HR' as ((HR' & _) & Hx & HV). cbn in Hx. split; [lia|]. split; [exact HR'|exact HV].
      + destruct HR' as ((HR' & _) & Hx & Hy & u & p & Hu & HK & HV). cbn in Hy. split; [lia|]. split; [exact HR'|].
        rewrite (K2_end u p d HK) by lia. exact HV.
    - cbn [takeZ] in *. replace (0 <? BUFF_SIZE) with true in * by reflexivity.
      set (out := x :: takeZ (BUFF_SIZE - 1) c) in *.
      assert (0 < lenZ out) by (unfold out; rewrite lenZ_cons; pose proof (lenZ_nonneg (takeZ (BUFF_SIZE - 1) c)); lia).
      assert (HX2 : exists st2, drain fuel n (rc_stream (rc_set_stream st rc)) = (Ok tt, st2) /\ empty_stream st2 /\ Q (rs_base st2) tail
                 /\ V (rc_checker (rc_set_stream st2 (rc_set_stream st rc)))).
      { apply (IH _ (dropZ (lenZ out) (x :: c)) HR').
        pose proof (lenZ_dropZ (lenZ out) (x :: c) ltac:(lia)) as Ed. unfold lenZ in *. cbn [List.length] in *. lia. }
      exact HX2.
  Qed.

  Lemma rec_len V tail rc c : rec_R V tail rc c -> (List.length (c ++ tail) + 3 <= fuel)%nat.
  Proof using HF.
    unfold rec_R. destruct (rc_stream rc) as [s|l|d]; [contradiction| |].
    - intros ((H & _) & _). exact (HF _ _ H).
    - intros ((H & _) & _). exact (HF _ _ H).
  Qed.

  (** ** blank lines *)
  Fixpoint skip_blank (n : nat) (first : bool) (size errs : Z) (c : bytes) : option bytes * Z * Z * bytes :=
    match n with
    | O => (None, size, errs, c)
    | Datatypes.S n' =>
        match take_line c with
        | [] => (None, size, errs, [])
        | line =>
            let blank := is_nil (rstripp is_bspace line) in
            if blank || first
            then skip_blank n' false (size + lenZ line) (if blank then errs else errs + 1) (drop_line c)
            else (Some line, size, errs, drop_line c)
        end
    end.

  Lemma consume_ok n : forall first size errs r c, Q r c -> (List.length c < n)%nat ->
    exists nl sz er c' r', consume_loop fuel n first size errs r = (Ok (nl, sz, er), r')
      /\ skip_blank n first size errs c = (nl, sz, er, c') /\ Q r' c'.
  Proof using HL HE HX HF HM.
    induction n as [|n IH]; intros first size errs r c HQ Hn; [lia|]. cbn [consume_loop skip_blank].
    destruct (HL r c HQ) as (r' & -> & HQ'). pose proof (take_line_nil c) as Hnil. pose proof (take_drop_line c) as Hs.
    destruct (take_line c) as [|x line] eqn:E.
    - exists None, size, errs, [], r'. repeat split; auto. rewrite (proj1 Hnil eq_refl) in HQ'. exact HQ'.
    - destruct (is_nil (rstripp is_bspace (x :: line)) || first) eqn:Eb.
      + apply IH; [assumption|]. rewrite <- Hs in Hn. rewrite app_length in Hn. cbn [List.length] in Hn. lia.
      + eexists _, _, _, _, r'. split; [reflexivity|]. split; [reflexivity|]. exact HQ'.
  Qed.

  Lemma skip_blank_len n : forall first size errs c nl sz er c', skip_blank n first size errs c = (nl, sz, er, c') ->
    (List.length c < n)%nat ->
    sz + lenZ (match nl with Some l => l | None => [] end) + lenZ c' = size + lenZ c
    /\ match nl with None => c' = [] | Some l => exists c2, c2 <> [] /\ l = take_line c2 /\ c' = drop_line c2 /\ lenZ c2 <= lenZ c /\ rstripp is_bspace l <> [] end.
  Proof using. clear.
    induction n as [|n IH]; intros first size errs c nl sz er c' H Hn; [lia|]. cbn [skip_blank] in H.
    pose proof (take_line_nil c) as Hnil. pose proof (take_drop_line c) as Hs. pose proof (len_drop_line c) as Hlen.
    destruct (take_line c) as [|x line] eqn:E.
    - injection H as <- <- <- <-. rewrite (proj1 Hnil eq_refl). split; [cbn; lia|reflexivity].
    - destruct (is_nil (rstripp is_bspace (x :: line)) || first) eqn:Eb.
      + apply IH in H.
        * destruct H as [H1 H2]. split; [lia|]. destruct nl as [l|]; [|exact H2]. destruct H2 as (c2 & A & B & C & D & F).
          exists c2. repeat (split; [assumption|]). split; [|assumption]. pose proof (lenZ_nonneg (x :: line)). lia.
        * rewrite <- Hs in Hn. rewrite app_length in Hn. cbn [List.length] in Hn. lia.
      + injection H as <- <- <- <-. split; [lia|]. exists c. rewrite E. split; [intros ->; discriminate|].
        split; [reflexivity|]. split; [reflexivity|]. split; [lia|]. destruct (rstripp is_bspace (x :: line)); [discriminate|discriminate].
  Qed.

End Gen.

(** what loading a record needs of the reader *)
Definition reader_ok {zl : zenv} (fuel : nat) (M : rlim) (Q : breader zl raw -> bytes -> Prop) : Prop :=
  exact_full_line (rops fuel) Q /\ exact_read (rops fuel) Q
  /\ (forall s c k, Q s c -> 0 < k -> lenZ (takeZ k (take_line c)) <= rM M -> lenZ (takeZ k (take_line c)) <= lenZ c - rL M ->
        exists s', o_readline (rops fuel) (Some k) s = (Ok (takeZ k (take_line c)), s') /\ Q s' (dropZ (lenZ (takeZ k (take_line c))) c))
  /\ (forall s c, Q s c -> (List.length c + 3 <= fuel)%nat).

(** a text [core] is loaded as a record satisfying [P] with [payload] left in its stream,
    in every iterator whose known format is in [K] *)
Definition loadable {zl : zenv} (fuel : nat) (he : henv) (o : lopts) (M : rlim) (K : option fmt -> Prop)
           (core payload : bytes) (V : checker -> Prop) (P : record (breader zl raw) -> Prop) : Prop :=
  forall Q, reader_ok fuel M Q -> forall nl r rest known, K known -> at_line fuel Q nl r (core ++ rest) ->
  rL M <= lenZ payload + lenZ rest ->
  exists rc, parse_record_stream (rops fuel) fuel he o (match nl with Some l => Some (HBytes l) | None => None end) known r
                 = (Ok rc, rs_base (rc_stream rc))
      /\ rec_R Q V rest rc payload /\ P rc /\ K (if lo_a2w o then known else Some (rc_format rc)).

(** the text of a record and the blank lines after it *)
Record item (zl : zenv) := mk_item {
  i_core : bytes; i_tail : bytes; i_payload : bytes;
  i_V : checker -> Prop; i_P : record (breader zl raw) -> Prop
}.
Arguments mk_item {zl}. Arguments i_core {zl}. Arguments i_tail {zl}. Arguments i_payload {zl}. Arguments i_V {zl}. Arguments i_P {zl}.
Definition i_text {zl} (x : item zl) : bytes := i_core x ++ i_tail x.
Definition i_texts {zl} (l : list (item zl)) : bytes := concat (map i_text l).
(** blank lines, at least one *)
Definition blank_tail (t : bytes) : Prop := exists a, t = a ++ [LF] /\ forallb is_bspace t = true.
Definition starts_text (c : bytes) : Prop := c = [] \/ rstripp is_bspace (take_line c) <> [].
Definition item_ok {zl} fuel he o (M : rlim) K (x : item zl) : Prop :=
  loadable fuel he o M K (i_core x) (i_payload x) (i_V x) (i_P x) /\ forallb is_bspace (i_tail x) = true
  /\ (forall more, starts_text (i_core x ++ more)) /\ exists a b t, i_core x = a :: b :: t /\ (a, b) <> (31%N, 139%N).
(** records are followed by blank lines; nothing needs to follow the last one *)
Fixpoint tails_ok {zl} (xs : list (item zl)) (more : bytes) : Prop :=
  match xs with
  | [] => True
  | x :: t => (blank_tail (i_tail x) \/ (t = [] /\ more = [])) /\ tails_ok t more
  end.
(** what the consumer sees of it *)
Definition item_seen {zl} (us : list uop) (x : item zl) (off len : Z) (ob : @obs zl) : Prop :=
  i_P x (ob_record ob) /\ ob_reads ob = map Ok (mem_user us (i_payload x)) /\ ob_info ob = Ok (Some (off, len))
  /\ exists ck, i_V x ck /\ ob_passed ob = dc_passed ck.

Section Core.
  Context {zl : zenv} (fuel : nat) (he : henv) (o : lopts) (Q : breader zl raw -> bytes -> Prop) (M : rlim) (K : option fmt -> Prop).
  Notation rdr := (breader zl raw).
  Notation rops := (rops (zl:=zl) fuel).
  Notation iter := (@iter zl).
  Hypothesis HRd : reader_ok fuel M Q.

  (** ** finding the next record *)
  Definition good_core (it : iter) : Prop :=
    K (it_known it) /\ it_raise_gz it = false /\ it_empty it = false.
  Lemma good_core_same a b : good_core a -> same_core a b -> good_core b.
  Proof. intros (H1&H2&H3) (E1&E2&E3&E4&E5&E6&E7). repeat split; congruence. Qed.

  Lemma loop_record it core rest payload V P :
    (0 < fuel)%nat -> good_core it -> at_line fuel Q (it_next_line it) (it_reader it) (core ++ rest) ->
    loadable fuel he o M K core payload V P -> rL M <= lenZ payload + lenZ rest ->
    exists rc it', iter_loop fuel he o fuel it = (Ok (Some rc), it') /\ live Q V rest payload it' /\ good_core it'
      /\ it_offset it' = it_offset it /\ it_phase it' = PYield /\ P rc.
  Proof using HRd.
    intros Hf0 (G1 & G2 & G3) Hat HP HLr.
    destruct (HP Q HRd _ _ rest (it_known it) G1 Hat HLr) as (rc & E & HR & F & Hk).
    replace (iter_loop fuel he o fuel it) with (iter_loop fuel he o (Datatypes.S (pred fuel)) it) by (f_equal; lia).
    cbn [iter_loop]. unfold next_record at 1. rewrite E. cbn [it_raise_gz]. rewrite G2.
    eexists rc, _. split; [reflexivity|]. unfold set_phase. cbn.
    split. { exists rc. cbn. auto 10. }
    split. { split; [|now split]. cbn. destruct (lo_a2w o); exact Hk. }
    split; [reflexivity|]. split; [reflexivity|]. exact F.
  Qed.
End Core.

(** ** uncompressed archives *)
Section Plain.
  Context {zl : zenv} (fuel : nat) (he : henv) (o : lopts) (Q : breader zl raw -> bytes -> Prop) (M T C0 : Z) (K : option fmt -> Prop).
  Notation rdr := (breader zl raw).
  Notation rops := (rops (zl:=zl) fuel).
  Notation iter := (@iter zl).
  Notation good_core := (good_core (zl:=zl) K).
  Hypothesis HRd : reader_ok fuel M Q.
  Hypothesis HM : 0 <= M.
  Hypothesis HPos : forall r c, Q r c -> rw_pos (br_stream r) - rem_length r = T - lenZ c.
  Hypothesis HDec : forall r c, Q r c -> lenZ c < C0 -> has_dec r = false.
  Hypothesis HNext : forall r, Q r [] -> has_dec r = true -> fst (read_next_member r) = false.
  Let HL : exact_full_line rops Q. Proof. now destruct HRd as (? & ? & ? & ?). Qed.
  Let HE : exact_read rops Q. Proof. now destruct HRd as (? & ? & ? & ?). Qed.
  Let HX : forall s c k, Q s c -> 0 < k -> lenZ (takeZ k (take_line c)) <= rM M -> lenZ (takeZ k (take_line c)) <= lenZ c - rL M ->
    exists s', o_readline rops (Some k) s = (Ok (takeZ k (take_line c)), s') /\ Q s' (dropZ (lenZ (takeZ k (take_line c))) c).
  Proof. now destruct HRd as (? & ? & ? & ?). Qed.
  Let HF : forall s c, Q s c -> (List.length c + 3 <= fuel)%nat. Proof. now destruct HRd as (? & ? & ? & ?). Qed.

  Definition ready (it : iter) (c : bytes) : Prop :=
    at_line fuel Q (it_next_line it) (it_reader it) c /\ it_offset it = T - lenZ c /\ good_core it.

  (** the current record has been read to its end, or to the end of the file *)
  Definition past (it : iter) : Prop := exists rc, it_record it = Some rc /\ it_member it <> None.
  Lemma dead_past it : dead it -> past it.
  Proof. intros (rc & Er & _ & _ & Hm). now exists rc. Qed.

  (** about to continue with [c] *)
  Definition resume (it : iter) (c : bytes) : Prop :=
    ready it c
    /\ ((it_phase it = PStart /\ it_record it = None) \/ (it_phase it = PYield /\ past it /\ lenZ c < C0)).

  Lemma ready_dec it c : ready it c -> lenZ c < C0 -> has_dec (it_reader it) = false.
  Proof.
    intros ((Hf & Hat) & _) Hc. destruct (it_next_line it) as [l|].
    - destruct Hat as (Hne & El & HQ). apply (HDec _ _ HQ). pose proof (len_drop_line c). pose proof (lenZ_nonneg (take_line c)). lia.
    - now apply (HDec _ c).
  Qed.

  Lemma past_rte (it : iter) : past it -> read_to_end fuel it = (Ok tt, it).
  Proof.
    intros (rc & Er & Hm). unfold read_to_end. rewrite Er. destruct (it_member it); [reflexivity|contradiction].
  Qed.

  Lemma dead_rte (it : iter) : dead it -> read_to_end fuel it = (Ok tt, it).
  Proof. intros H. now apply past_rte, dead_past. Qed.

  Lemma resume_next it c : resume it c -> iter_next fuel he o it = iter_loop fuel he o fuel it.
  Proof.
    intros (Hr & [(Hp & _)|(Hp & Hd & Hc)]); unfold iter_next; rewrite Hp; [reflexivity|].
    unfold after_record. rewrite past_rte by assumption. rewrite (ready_dec it c Hr Hc).
    destruct Hr as (_ & _ & _ & _ & He). now rewrite He.
  Qed.

  (** what remains after the blank lines *)
  Definition skipped (rest rest' : bytes) : Prop :=
    exists nl sz er c', skip_blank fuel true 0 0 rest = (nl, sz, er, c')
      /\ rest' = (match nl with Some l => l | None => [] end) ++ c'.

  Lemma plain_rte V it off rest c : live Q V rest c it -> (it_phase it = PYield /\ it_offset it = off /\ good_core it) ->
    lenZ rest < C0 ->
    exists it', read_to_end fuel it = (Ok tt, it')
      /\ (it_member it' = Some (off, T - lenZ rest - off) /\ holds V it' /\ exists rest', skipped rest rest' /\ resume it' rest')
      /\ dead it'.
  Proof.
    intros (rc & Er & HR & Ed & Em) (Hp & Ho & Hg) Hc0. pose proof (rec_len fuel Q HF V rest rc c HR) as Hfu. unfold read_to_end. rewrite Er, Em.
    destruct (drain_rec fuel Q M HL HE HX HF HM V rest fuel rc c HR) as (l' & -> & E0 & HQ & HV). { rewrite app_length in Hfu. lia. }
    cbn [it_set_rstream it_reader rs_base]. unfold it_set_rstream at 1. cbn [it_reader rs_base].
    destruct (consume_ok fuel Q M HL HE HX HF HM fuel true 0 0 (rs_base l') rest HQ) as (nl & sz & er & c' & r' & -> & Hsk & HQ').
    { rewrite app_length in Hfu. lia. }
    destruct (skip_blank_len fuel true 0 0 rest nl sz er c' Hsk) as [Hlen Hnl]. { rewrite app_length in Hfu. lia. }
    assert (Hsz : 0 <= sz).
    { clear - Hsk. assert (G : forall n first size errs c nl sz er c', skip_blank n first size errs c = (nl, sz, er, c') -> 0 <= size -> 0 <= sz).
      { induction n as [|n IH]; intros first size errs c nl0 sz0 er0 c0 H Hs; cbn [skip_blank] in H; [injection H as <- <- <- <-; lia|].
        destruct (take_line c) as [|x line] eqn:E; [injection H as <- <- <- <-; lia|].
        destruct (is_nil (rstripp is_bspace (x :: line)) || first); [|injection H as <- <- <- <-; lia].
        apply IH in H; [lia|]. pose proof (lenZ_nonneg (x :: line)). lia. }
      exact (G _ _ _ _ _ _ _ _ _ Hsk ltac:(lia)). }
    pose proof (HPos _ _ HQ') as Hpos.
    assert (Hdec : has_dec r' = false).
    { apply (HDec _ _ HQ'). pose proof (lenZ_nonneg (match nl with Some l => l | None => [] end)). lia. }
    eexists. split; [reflexivity|].
    match goal with |- context [mk_iter ?a ?b ?k ?m ?n ?e ?rr ?p ?rg ?em] => set (it' := mk_iter a b k m n e rr p rg em) end.
    assert (Dd : dead it' /\ holds V it').
    { unfold it', it_set_reader, it_set_rstream. cbn. rewrite Er. split.
      - eexists. cbn. split; [reflexivity|]. split; [destruct l'; exact E0|]. split; [destruct l'; reflexivity|discriminate].
      - eexists. cbn. split; [reflexivity|]. unfold rc_checker in *. cbn [rc_stream rc_set_stream rc_chk] in *. destruct l'; exact HV. }
    destruct Dd as [Dd Hh].
    split; [|exact Dd]. split.
    - unfold it'. cbn [it_member]. unfold it_set_reader, it_set_rstream. cbn [it_offset]. rewrite Ho, Hdec. do 2 f_equal.
      destruct nl as [x|]; cbn in Hlen; lia.
    - split; [exact Hh|]. exists ((match nl with Some l => l | None => [] end) ++ c'). split; [exists nl, sz, er, c'; auto|].
      assert (Hl2 : lenZ ((match nl with Some l => l | None => [] end) ++ c') <= lenZ rest) by (rewrite lenZ_app; lia).
      split; [|right; split; [unfold it', it_set_reader, it_set_rstream; cbn; exact Hp|split; [exact (dead_past _ Dd)|lia]]].
      split; [|split].
      + unfold it', it_set_reader, it_set_rstream. cbn [it_next_line it_reader]. split.
        * unfold lenZ in Hl2. rewrite app_length in Hfu. lia.
        * destruct nl as [x|]; [|cbn; exact HQ']. destruct Hnl as (c2 & Hne & -> & -> & _).
          rewrite take_drop_line. now repeat split.
      + unfold it'. cbn [it_offset]. rewrite lenZ_app. destruct nl as [x|]; cbn; lia.
      + unfold good_core, it', it_set_reader, it_set_rstream. cbn. exact Hg.
  Qed.

  (** one record *)
  Lemma run_one prog k it core rest payload V P :
    resume it (core ++ rest) -> lenZ (core ++ rest) <= C0 -> core <> [] ->
    loadable fuel he o M K core payload V P ->
    nonneg_ops (prog k) -> user_lines M (prog k) payload ->
    exists ob it' rest', (forall n, run_iter fuel he o (Datatypes.S n) prog k it
        = (let (os, en) := run_iter fuel he o n prog (Datatypes.S k) it' in (ob :: os, en)))
      /\ (forall tl, item_seen (prog k) (mk_item core tl payload V P) (it_offset it) (lenZ core) ob)
      /\ skipped rest rest' /\ resume it' rest'.
  Proof.
    intros Hr Hc0 Hne HP Hn Hu. pose proof Hr as ((Hat & Hoff & Hg) & _).
    assert (Hfu : (List.length (core ++ rest) + 3 <= fuel)%nat) by now destruct Hat.
    destruct (loop_record fuel he o Q M K HRd it core rest payload V P ltac:(lia) Hg Hat HP ltac:(cbn [rl0 rL]; pose proof (lenZ_nonneg payload); pose proof (lenZ_nonneg rest); lia))
      as (rc & it1 & E & Hl & Hg1 & Ho1 & Hp1 & F).
    assert (Hhead : 0 < lenZ core) by now apply lenZ_pos.
    rewrite !lenZ_app in Hc0. pose proof (lenZ_nonneg rest).
    destruct (user_run fuel Q M HL HE HX HF HM V
                (fun it => it_member it = Some (it_offset it1, T - lenZ rest - it_offset it1) /\ holds V it /\ exists rest', skipped rest rest' /\ resume it rest')
                (fun i => it_phase i = PYield /\ it_offset i = it_offset it1 /\ good_core i) rest) with (us := prog k) (it := it1) (c := payload)
      as (it2 & E2 & it3 & E3 & (Em3 & (rc3 & Er3 & Hv3) & rest' & Hsk & Hres) & Hd3).
    { intros a b (H1 & H2 & H3) Hab. pose proof (good_core_same K a b H3 Hab) as H4. destruct Hab as (?&?&?&?&?&?&?).
      split; [congruence|]. split; [congruence|exact H4]. }
    { intros i c Hli Hci. destruct (plain_rte V i (it_offset it1) rest c Hli Hci ltac:(lia)) as (i' & X1 & X2 & X3). exists i'. auto. }
    { exact Hl. } { auto. } { exact Hn. } { exact Hu. } { left. apply lenZ_nonneg. }
    exists (mk_obs rc (map Ok (mem_user (prog k) payload)) (Ok (Some (it_offset it, lenZ core))) (dc_passed (rc_checker rc3))), it3, rest'.
    split; [|split; [|now split]].
    - intros n. cbn [run_iter]. rewrite (resume_next _ _ Hr), E, E2, E3, Em3.
      assert (T - lenZ rest - it_offset it1 = lenZ core) as ->. { rewrite Ho1, Hoff, !lenZ_app. lia. }
      rewrite Ho1. unfold it_passed. rewrite Er3. reflexivity.
    - intros tl. unfold item_seen. cbn. split; [exact F|]. split; [reflexivity|]. split; [reflexivity|]. exists (rc_checker rc3). auto.
  Qed.

  (** the end *)
  Lemma run_end n prog k it : resume it [] -> run_iter fuel he o (Datatypes.S n) prog k it = ([], EndStop).
  Proof.
    intros Hr. cbn [run_iter]. rewrite (resume_next _ _ Hr). destruct Hr as (((Hfu & Hat) & Hoff & G1 & G2 & G3) & Hph).
    destruct (it_next_line it) as [l|] eqn:En; [now destruct Hat|].
    replace (iter_loop fuel he o fuel it) with (iter_loop fuel he o (Datatypes.S (pred fuel)) it) by (f_equal; cbn in Hfu; lia).
    cbn [iter_loop]. unfold next_record. rewrite En.
    destruct (HL _ _ Hat) as (r' & E & HQ'). cbn in HQ'.
    assert (P : parse_record_stream rops fuel he o None (it_known it) (it_reader it) = (Err EOFError, r')).
    { unfold parse_record_stream, detect_type, parse. rewrite E. cbn. unfold arc_parse. rewrite E. cbn. destruct (it_known it) as [[|]|]; reflexivity. }
    rewrite P.
    assert (R : read_to_end fuel (set_empty true (it_set_reader r' it)) = (Ok tt, set_empty true (it_set_reader r' it))).
    { unfold read_to_end, set_empty, it_set_reader. cbn [it_record it_member].
      destruct Hph as [(_ & ->)|(_ & (rc & -> & Hm) & _)]; [reflexivity|]. destruct (it_member it); [reflexivity|contradiction]. }
    unfold after_record. rewrite R. unfold set_empty, it_set_reader. cbn [it_reader it_empty].
    destruct (has_dec r') eqn:Eh; [|reflexivity]. pose proof (HNext r' HQ' Eh) as Hn.
    destruct (read_next_member r') as [b r2]. cbn [fst] in Hn. subst b. reflexivity.
  Qed.

  (** the blank lines after a record *)
  Lemma take_line_blank a more : exists p q, a ++ [LF] = p ++ q /\ take_line ((a ++ [LF]) ++ more) = p /\ drop_line ((a ++ [LF]) ++ more) = q ++ more
    /\ p <> [] /\ (q = [] \/ exists a', q = a' ++ [LF]).
  Proof using. clear.
    induction a as [|x a IH].
    - exists [LF], []. cbn. repeat split; auto. discriminate.
    - cbn [app take_line drop_line]. destruct (x =? LF)%N eqn:E.
      + exists [x], (a ++ [LF]). cbn. repeat split; auto; [discriminate|]. right. now exists a.
      + destruct IH as (p & q & E1 & E2 & E3 & E4 & E5). exists (x :: p), q. rewrite E2, E3. cbn [app]. rewrite <- E1. repeat split; auto. discriminate.
  Qed.
  Lemma skip_blank_tail more : starts_text more -> forall n a first size errs, forallb is_bspace (a ++ [LF]) = true -> (List.length (a ++ [LF]) + 1 < n)%nat ->
    exists nl sz er c', skip_blank n first size errs ((a ++ [LF]) ++ more) = (nl, sz, er, c') /\ more = (match nl with Some l => l | None => [] end) ++ c'.
  Proof using. clear.
    intros Ht. induction n as [|n IH]; intros a first size errs Hb Hn; [lia|].
    destruct (take_line_blank a more) as (p & q & E1 & E2 & E3 & E4 & E5). cbn [skip_blank]. rewrite E2, E3.
    rewrite E1, forallb_app, andb_true_iff in Hb. destruct Hb as [Hp Hq].
    destruct p as [|x p]; [contradiction|]. rewrite (rstripp_all is_bspace (x :: p) Hp). cbn [is_nil orb].
    destruct E5 as [->|(a' & ->)].
    - cbn [app]. destruct n as [|n]; [rewrite E1, app_length in Hn; cbn in Hn; lia|]. cbn [skip_blank].
      pose proof (take_drop_line more) as Hs. pose proof (take_line_nil more) as Hnil. unfold starts_text in Ht.
      destruct (take_line more) as [|y line] eqn:El.
      + eexists _, _, _, _. split; [reflexivity|]. now rewrite (proj1 Hnil eq_refl).
      + destruct Ht as [->|Ht]; [discriminate|]. destruct (rstripp is_bspace (y :: line)); [contradiction|]. cbn [is_nil orb].
        eexists _, _, _, _. split; [reflexivity|]. now symmetry.
    - apply IH; [exact Hq|]. rewrite E1, app_length in Hn. cbn [List.length] in Hn. lia.
  Qed.
  Lemma skipped_blank t more rest' : skipped (t ++ more) rest' -> blank_tail t -> starts_text more -> (List.length (t ++ more) + 1 < fuel)%nat -> rest' = more.
  Proof using. clear.
    intros (nl & sz & er & c' & E & ->) (a & -> & Hb) Ht Hf. rewrite app_length in Hf.
    destruct (skip_blank_tail more Ht fuel a true 0 0 Hb ltac:(lia)) as (nl' & sz' & er' & c2 & E' & ->). rewrite E in E'. injection E' as -> -> -> ->. reflexivity.
  Qed.

  Lemma skip_all : forall n first size errs tl nl sz er c', forallb is_bspace tl = true -> (List.length tl + 1 < n)%nat ->
    skip_blank n first size errs tl = (nl, sz, er, c') -> nl = None /\ c' = [].
  Proof using. clear.
    induction n as [|n IH]; intros first size errs tl nl sz er c' Hb Hn; [lia|]. cbn [skip_blank].
    pose proof (take_drop_line tl) as Hs. pose proof (take_line_nil tl) as Hnil. rewrite <- Hs, forallb_app, andb_true_iff in Hb. destruct Hb as [H1 H2].
    destruct (take_line tl) as [|x l] eqn:E.
    - assert (tl = []) as -> by now apply Hnil. intros [= <- _ _ <-]. now split.
    - rewrite (rstripp_all is_bspace _ H1). cbn [is_nil orb]. apply IH; [exact H2|]. rewrite <- Hs, app_length in Hn. cbn [List.length] in Hn. lia.
  Qed.
  Lemma skipped_white t rest' : skipped t rest' -> forallb is_bspace t = true -> (List.length t + 1 < fuel)%nat -> rest' = [].
  Proof using. clear.
    intros (nl & sz & er & c' & E & ->) Hb Hf. destruct (skip_all fuel true 0 0 t nl sz er c' Hb Hf E) as [-> ->]. reflexivity.
  Qed.

  Lemma run_archive prog : forall xs k,
    Forall (item_ok fuel he o M K) xs ->
    (forall i x, nth_error xs i = Some x -> nonneg_ops (prog (k + i)%nat) /\ user_lines M (prog (k + i)%nat) (i_payload x)) ->
    forall more it, resume it (i_texts xs ++ more) -> tails_ok xs more -> starts_text more -> lenZ (i_texts xs ++ more) <= C0 ->
    exists obs it', (forall n, run_iter fuel he o (List.length xs + n) prog k it
        = (let (os, en) := run_iter fuel he o n prog (k + List.length xs) it' in (obs ++ os, en)))
      /\ List.length obs = List.length xs
      /\ (forall i x ob, nth_error xs i = Some x -> nth_error obs i = Some ob ->
           item_seen (prog (k + i)%nat) x (it_offset it + lenZ (i_texts (firstn i xs))) (lenZ (i_core x)) ob)
      /\ resume it' more /\ it_offset it' = it_offset it + lenZ (i_texts xs).
  Proof.
    induction xs as [|x xs IH]; intros k Hgood Huse more it Hr Htl Hmore Hc0.
    - exists [], it. cbn [List.length plus app i_texts map concat] in *. split; [intros n; rewrite Nat.add_0_r; destruct (run_iter fuel he o n prog k it); reflexivity|].
      split; [reflexivity|]. split; [intros [|i] ? ? Hi; discriminate|]. split; [exact Hr|]. cbn. lia.
    - pose proof (Huse 0%nat x eq_refl) as Hux. rewrite Nat.add_0_r in Hux. destruct Hux as [Hnn Hu].
      inversion Hgood as [|? ? Hx Hxs]; subst. destruct Hx as (HP & Hwh & _ & (a & b & t & Ec & _)). destruct Htl as [Htl Htls].
      unfold i_texts in *. cbn [map concat List.length plus] in *. unfold i_text at 1 in Hr. unfold i_text at 1 in Hc0.
      rewrite <- !app_assoc in Hr, Hc0.
      assert (Hst : starts_text (concat (map i_text xs) ++ more)).
      { destruct xs as [|x' xs']; [exact Hmore|]. cbn [map concat]. unfold i_text at 1. rewrite <- !app_assoc.
        inversion Hxs as [|? ? (_ & _ & Hx' & _) _]; subst. apply Hx'. }
      destruct (run_one prog k it (i_core x) _ (i_payload x) (i_V x) (i_P x) Hr Hc0 ltac:(rewrite Ec; discriminate) HP Hnn Hu) as (ob & it1 & rest' & E & Hob & Hsk & Hr1).
      assert (rest' = concat (map i_text xs) ++ more).
      { destruct Hr as (((Hfu & _) & _) & _). rewrite Ec in Hfu. cbn [app List.length] in Hfu. rewrite !app_length in Hfu. destruct Htl as [Hbl|[-> ->]].
        - apply (skipped_blank (i_tail x) (concat (map i_text xs) ++ more) rest' Hsk Hbl Hst). rewrite !app_length. lia.
        - cbn [map concat app] in *. rewrite app_nil_r in Hsk. apply (skipped_white (i_tail x) rest' Hsk Hwh). lia. }
      subst rest'.
      assert (Eo : it_offset it1 = it_offset it + lenZ (i_text x)).
      { destruct Hr1 as ((_ & Ho1 & _) & _), Hr as ((_ & Ho & _) & _). rewrite Ho1, Ho. unfold i_text. rewrite !lenZ_app. lia. }
      destruct (IH (Datatypes.S k) Hxs) with (more := more) (it := it1) as (obs & it' & E2 & Hlen & Hobs & Hr2 & Ho2); auto.
      { intros i e' Hi. replace (Datatypes.S k + i)%nat with (k + Datatypes.S i)%nat by lia. now apply Huse. }
      { rewrite !lenZ_app in *. pose proof (lenZ_nonneg (i_core x)). pose proof (lenZ_nonneg (i_tail x)). lia. }
      exists (ob :: obs), it'. split; [|split; [|split; [|split; [exact Hr2|]]]].
      + intros n. rewrite E, E2. replace (k + Datatypes.S (List.length xs))%nat with (Datatypes.S k + List.length xs)%nat by lia.
        destruct (run_iter fuel he o n prog _ it'); reflexivity.
      + cbn. now rewrite Hlen.
      + intros [|i] e' ob' Hi Hi'; cbn [nth_error] in Hi, Hi'.
        * injection Hi as <-. injection Hi' as <-. rewrite Nat.add_0_r. cbn [firstn map concat]. rewrite lenZ_nil, Z.add_0_r. specialize (Hob (i_tail x)). destruct x; exact Hob.
        * pose proof (Hobs i e' ob' Hi Hi') as X. replace (k + Datatypes.S i)%nat with (Datatypes.S k + i)%nat by lia.
          replace (it_offset it + lenZ (concat (map i_text (firstn (Datatypes.S i) (x :: xs))))) with (it_offset it1 + lenZ (concat (map i_text (firstn i xs)))); [exact X|].
          rewrite Eo. cbn [firstn map concat]. rewrite lenZ_app. lia.
      + rewrite Ho2, Eo, lenZ_app. lia.
  Qed.
End Plain.

(** the reader of an uncompressed archive *)
Section PlainReader.
  Context {zl : zenv} (fuel : nat) (M T C0 : Z) (R : raw -> bytes -> Prop).
  Notation rdr := (breader zl raw).
  Hypothesis HD : delivers raw_ops R.
  Hypothesis HRr : forall s c, R s c -> raw_R T fuel s c.
  Let Hfuel : forall s c, R s c -> (List.length c + 3 <= fuel)%nat.
  Proof. intros s c H. now apply (raw_R_fuel T fuel s), HRr. Qed.
  Notation BI := (BI (zl:=zl) raw_ops fuel R).

  Definition plainQ (b : rdr) (c : bytes) : Prop :=
    BI M false true [] b c /\ startd b = [] /\ (br_dec b = None \/ lenZ c = C0).

  Lemma fill_none (b b' : rdr) : base_mode b -> br_dec b = None -> br_all b = false ->
    fillbuff raw_ops fuel b = (Ok tt, b') -> br_dec b' = None.
  Proof.
    intros Hm Hd Ha. unfold fillbuff.
    assert (match br_ck b with Some c => if ck_not c then fill_base raw_ops fuel b else chunk_fill raw_ops fuel fuel b
            | None => fill_base raw_ops fuel b end = fill_base raw_ops fuel b) as ->.
    { unfold base_mode in Hm. destruct (br_ck b) as [k|]; [now rewrite Hm|reflexivity]. }
    assert (L : forall n d (x y : rdr), br_dec x = None -> fill_loop raw_ops n d x = (Ok tt, y) -> br_dec y = None).
    { intros n d x y Hx. destruct n; cbn [fill_loop]; [discriminate|]. unfold fill_cond. rewrite Hx, andb_false_r.
      cbn [andb]. intros E. now injection E as <-. }
    assert (P : forall d (x : rdr), br_dec x = None -> br_dec (process_read d x) = None).
    { intros d x Hx. unfold process_read. destruct (is_nil d); [exact Hx|]. unfold decompress. rewrite Hx. exact Hx. }
    unfold fill_base, br_empty. rewrite Ha. destruct (buff_empty b); cbn [negb]; [|intros E; now injection E as <-].
    destruct (0 <? rem_length b); [intros E; now injection E as <-|].
    destruct (br_start b) as [[|d0 d]|].
    - destruct (o_read raw_ops _ _) as [[d|e] s']; [|discriminate]. apply L. now apply P.
    - apply L. now apply P.
    - destruct (o_read raw_ops _ _) as [[d|e] s']; [|discriminate]. apply L. now apply P.
  Qed.

  Lemma plainQ_ok : fill_ok raw_ops fuel M plainQ.
  Proof.
    pose proof (BI_fill_ok (zl:=zl) raw_ops fuel R HD Hfuel M false true []) as FO. split.
    - intros b c (HB & Hs & Hd). destruct (fo_fill _ _ _ _ FO b c HB) as (b' & E & HB' & Hs' & He & Hm).
      exists b'. split; [exact E|]. split; [|auto]. split; [exact HB'|]. split; [exact Hs'|].
      destruct Hd as [Hd|Hd]; [left|now right].
      destruct HB as (? & ? & _ & _ & _ & [Hall Hck _] & _). exact (fill_none b b' Hck Hd Hall E).
    - intros b c (HB & _). exact (fo_buff _ _ _ _ FO b c HB).
    - intros b c n (HB & Hs & Hd) Hn. split; [now apply (fo_take _ _ _ _ FO)|]. split; [exact Hs|].
      destruct (Z.eq_dec n 0) as [->|Hn0]; [rewrite !dropZ_0 by lia; exact Hd|].
      left. cbn. destruct HB as (c1 & pend & _ & Hsrc & _). destruct Hsrc as [Hst|(Eb & _)].
      + unfold steady in Hst. destruct (br_dec b) as [[?|?|]|]; [now destruct Hst|now destruct Hst|contradiction|reflexivity].
      + rewrite Eb in Hn. cbn in Hn. lia.
    - intros b c (HB & _). exact (fo_empty _ _ _ _ FO b c HB).
    - intros b c (HB & _). exact (fo_fuel _ _ _ _ FO b c HB).
  Qed.

  (** the undelivered bytes are those in the buffer and those in the file *)
  Lemma plainQ_rest b c : plainQ b c -> exists c1, R (br_stream b) c1 /\ c = buff_data b ++ c1 /\ unused b = []
    /\ (c = [] -> has_dec b = true -> fst (read_next_member b) = false).
  Proof.
    intros ((c1 & pend & HR & Hsrc & -> & [_ _ Hblk] & _) & Hs & _). exists c1. split; [exact HR|].
    destruct Hsrc as [Hst|(Eb & Hi & Hnil)].
    - unfold steady in Hst. unfold unused, has_dec. destruct (br_dec b) as [[?|?|]|]; [now destruct Hst|now destruct Hst|contradiction|].
      destruct Hst as (_ & -> & _). rewrite Hs. repeat split. discriminate.
    - rewrite Hs in *. cbn [app] in *. destruct c1 as [|x c1].
      + destruct (Hnil eq_refl) as (-> & _ & _ & t & Ed). unfold unused, has_dec, read_next_member. rewrite Ed. repeat split.
      + assert (exists d, first_block raw_ops b d) as (d & Hd).
        { unfold first_block. rewrite Hs. destruct (HD _ _ _ HR Hblk) as (d & rest & s2 & E2 & _ & _ & _ & Hne).
          exists d, s2. split; [exact E2|]. intros ->. now specialize (Hne eq_refl). }
        destruct (Hi d Hd) as (t & Ed & _ & _ & _ & [(_ & Hf & _)|(_ & _ & -> & _)]); [discriminate|].
        unfold unused. rewrite Ed. repeat split. rewrite Eb. discriminate.
  Qed.

  Lemma plainQ_pos r c : plainQ r c -> rw_pos (br_stream r) - rem_length r = T - lenZ c.
  Proof.
    intros H. destruct (plainQ_rest r c H) as (c1 & HR & -> & Hu & _). apply HRr in HR as (_ & Hp & _).
    unfold rem_length. rewrite Hu, lenZ_app. unfold buff_data. destruct (br_buff r); cbn; lia.
  Qed.
  Lemma plainQ_dec r c : plainQ r c -> lenZ c < C0 -> has_dec r = false.
  Proof. intros (_ & _ & [H|H]) Hc; [unfold has_dec; now rewrite H|lia]. Qed.
  Lemma plainQ_next r : plainQ r [] -> has_dec r = true -> fst (read_next_member r) = false.
  Proof. intros H Hd. destruct (plainQ_rest r [] H) as (c1 & _ & _ & _ & X). now apply X. Qed.
End PlainReader.

Lemma plainQ_open {zl : zenv} fuel M (R : raw -> bytes -> Prop) f data block :
  delivers raw_ops R -> R f data -> gz_magic zl -> 2 <= block -> full_ok raw_ops R M false block 0 ->
  (List.length data + 3 <= fuel)%nat ->
  (data = [] \/ exists a b t, data = a :: b :: t /\ (a, b) <> (31%N, 139%N)) ->
  (forall d s', o_read raw_ops (Some block) f = (Ok d, s') -> data = [] \/ 2 <= lenZ d) ->
  plainQ (zl:=zl) fuel M (lenZ data) R (dbr_new f block None false) data.
Proof.
  intros HD HR (_ & Hz) Hb Hf Hl Hdata Hfirst. split; [|split; [reflexivity|now right]].
  destruct Hdata as [->|(a & b & t & -> & Hab)].
  - exists [], []. split; [exact HR|]. split.
    { right. split; [reflexivity|]. split.
      - intros d (s' & E & Hd). destruct (HD f [] block HR ltac:(lia)) as (out & rest & s2 & E2 & _ & Ec & _). change (o_read raw_ops (Some block) f = (Ok d, s')) in E. rewrite E in E2.
        injection E2 as <- <-. symmetry in Ec. apply app_eq_nil in Ec as [-> _]. contradiction.
      - intros _. repeat split. eexists. reflexivity. }
    split; [reflexivity|]. split; [split; [reflexivity|exact Logic.I|cbn; lia]|]. split; [contradiction|].
    split; [reflexivity|]. split; [exact Hl|]. split; [apply Z.le_refl|]. exact Hf.
  - apply (BI_detect (zl:=zl) raw_ops fuel R HD M false Gzip f (a :: b :: t) block [a; b] t); auto; try lia.
    + intros d s' E. destruct (Hfirst d s' E) as [?|?]; [discriminate|exact H].
    + right. repeat split. discriminate.
Qed.


(** a complete iteration over an uncompressed archive followed by [more] *)
Lemma plain_start {zl : zenv} fuel he o M K prog p (xs : list (item zl)) more sched block known :
  gz_magic zl -> first_two block sched -> reads_fit M block sched -> 0 <= M ->
  enough fuel (i_texts xs ++ more) ->
  Forall (item_ok fuel he o M K) xs ->
  (forall i x, nth_error xs i = Some x -> nonneg_ops (prog i) /\ user_lines M (prog i) (i_payload x)) ->
  K known -> tails_ok xs more -> starts_text more ->
  (xs = [] -> more = [] \/ exists a b t, more = a :: b :: t /\ (a, b) <> (31%N, 139%N)) ->
  exists obs it', (forall n, run_iter (zl:=zl) fuel he o (List.length xs + n) prog 0 (iter_new (mk_raw (i_texts xs ++ more) p sched) block known)
      = (let (os, en) := run_iter fuel he o n prog (List.length xs) it' in (obs ++ os, en)))
    /\ List.length obs = List.length xs
    /\ (forall i x ob, nth_error xs i = Some x -> nth_error obs i = Some ob ->
         item_seen (prog i) x (p + lenZ (i_texts (firstn i xs))) (lenZ (i_core x)) ob)
    /\ exists Q T C0, reader_ok fuel M Q /\ (forall r c, Q r c -> rw_pos (br_stream r) - rem_length r = T - lenZ c)
         /\ (forall r c, Q r c -> lenZ c < C0 -> has_dec r = false) /\ (forall r, Q r [] -> has_dec r = true -> fst (read_next_member r) = false)
         /\ resume fuel Q T C0 K it' more /\ lenZ more <= C0 /\ it_offset it' = p + lenZ (i_texts xs).
Proof.
  intros Hz [Hb Hs] Hfit HM Hfu Hgood Huse Hk Htl Hmore Hmagic.
  set (data := i_texts xs ++ more) in *. set (f := mk_raw data p sched). set (T := p + lenZ data). set (C0 := lenZ data).
  assert (G : exists R : raw -> bytes -> Prop, delivers raw_ops R /\ R f data /\ (forall s c, R s c -> raw_R T fuel s c) /\ full_ok raw_ops R M false block 0).
  { assert (Hraw : raw_R T fuel f data) by (unfold raw_R, f, T; cbn; repeat split; exact Hfu).
    destruct Hfit as [Hfit|[-> Hfit]].
    - exists (raw_R T fuel). split; [apply raw_delivers|]. split; [exact Hraw|]. split; [auto|]. now left.
    - exists (raw_RX T fuel). split; [apply raw_deliversX|]. split; [split; [exact Hraw|reflexivity]|].
      split; [now intros s c [H _]|]. right. split; [apply raw_exact_read|exact Hfit]. }
  destruct G as (R & HD & HR & HRr & Hfull).
  assert (Hd : data = [] \/ exists a b t, data = a :: b :: t /\ (a, b) <> (31%N, 139%N)).
  { destruct xs as [|x xs']; [exact (Hmagic eq_refl)|]. right. inversion Hgood as [|? ? (_ & _ & _ & (a & b & t & Ec & Hab)) _]; subst.
    unfold data, i_texts. cbn [map concat]. unfold i_text at 1. rewrite Ec. cbn [app]. eauto. }
  assert (Hfirst : forall d s', o_read raw_ops (Some block) f = (Ok d, s') -> data = [] \/ 2 <= lenZ d).
  { intros d s' E. destruct Hd as [->|(a & b & t & Ed & _)]; [now left|right].
    unfold raw_ops, o_read, raw_read, f in E. cbn [rw_rest rw_sched rw_pos] in E. replace (0 <? block) with true in E by lia.
    rewrite Ed in E.
    assert (G : forall m, 2 <= m -> 2 <= lenZ (takeZ m (a :: b :: t))).
    { intros m Hm. rewrite lenZ_takeZ by lia. rewrite !lenZ_cons. pose proof (lenZ_nonneg t). lia. }
    destruct sched as [|k sc]; injection E as <- <-; apply G; lia. }
  pose proof (plainQ_open (zl:=zl) fuel M R f _ block HD HR Hz Hb Hfull Hfu Hd Hfirst) as HQ. fold C0 in HQ.
  pose proof (plainQ_ok (zl:=zl) fuel M T C0 R HD HRr) as FO.
  pose proof (br_full_line raw_ops fuel M _ FO) as HL.
  pose proof (br_exact_read raw_ops fuel M _ FO) as HE.
  pose proof (fun s c k HQ' Hk' Hle => br_readline_exact0 raw_ops fuel M _ FO s c k HQ' Hk' Hle) as HX.
  pose proof (fo_fuel _ _ _ _ FO) as HF.
  pose proof (plainQ_pos (zl:=zl) fuel M T C0 R HD HRr) as HPos.
  pose proof (plainQ_dec (zl:=zl) fuel M T C0 R HRr) as HDec.
  assert (HNext : forall r, plainQ (zl:=zl) fuel M C0 R r [] -> has_dec r = true -> fst (read_next_member r) = false)
    by (intros r0 HQr Hdr; eapply plainQ_next; eassumption).
  assert (HRd : reader_ok fuel M (plainQ fuel M C0 R)) by (split; [exact HL|split; [exact HE|split; [intros s c k A1 A2 A3 _; exact (HX s c k A1 A2 A3)|exact HF]]]).
  assert (Hres : resume fuel (plainQ fuel M C0 R) T C0 K (iter_new (zl:=zl) f block known) data).
  { split; [|left; split; reflexivity]. split; [split; [exact Hfu|exact HQ]|]. split; [unfold T; cbn; lia|].
    repeat split. exact Hk. }
  destruct (run_archive (zl:=zl) fuel he o (plainQ fuel M C0 R) M T C0 K HRd HM HPos HDec HNext prog xs 0%nat Hgood Huse
              more (iter_new (zl:=zl) f block known) Hres Htl Hmore (Z.le_refl _)) as (obs & it' & E & Hlen & Hobs & Hr & Ho).
  exists obs, it'. split; [exact E|]. split; [exact Hlen|]. split; [exact Hobs|].
  exists (plainQ fuel M C0 R), T, C0. split; [exact HRd|]. split; [exact HPos|]. split; [exact HDec|]. split; [exact HNext|]. split; [exact Hr|].
  split; [unfold C0, data; rewrite lenZ_app; pose proof (lenZ_nonneg (i_texts xs)); lia|exact Ho].
Qed.

Lemma plain_items {zl : zenv} fuel he o M K prog p (xs : list (item zl)) more sched block known :
  gz_magic zl -> first_two block sched -> reads_fit M block sched -> 0 <= M ->
  enough fuel (i_texts xs ++ more) ->
  Forall (item_ok fuel he o M K) xs ->
  (forall i x, nth_error xs i = Some x -> nonneg_ops (prog i) /\ user_lines M (prog i) (i_payload x)) ->
  K known -> tails_ok xs more -> starts_text more ->
  (xs = [] -> more = [] \/ exists a b t, more = a :: b :: t /\ (a, b) <> (31%N, 139%N)) ->
  exists obs it', (forall n, run_iter (zl:=zl) fuel he o (List.length xs + n) prog 0 (iter_new (mk_raw (i_texts xs ++ more) p sched) block known)
      = (let (os, en) := run_iter fuel he o n prog (List.length xs) it' in (obs ++ os, en)))
    /\ List.length obs = List.length xs
    /\ (forall i x ob, nth_error xs i = Some x -> nth_error obs i = Some ob ->
         item_seen (prog i) x (p + lenZ (i_texts (firstn i xs))) (lenZ (i_core x)) ob)
    /\ (more = [] -> forall n, run_iter fuel he o (Datatypes.S n) prog (List.length xs) it' = ([], EndStop))
    /\ (forall core rest payload V P, more = core ++ rest -> core <> [] -> loadable fuel he o M K core payload V P ->
          nonneg_ops (prog (List.length xs)) -> user_lines M (prog (List.length xs)) payload ->
          exists ob it2, (forall n, run_iter fuel he o (Datatypes.S n) prog (List.length xs) it'
                = (let (os, en) := run_iter fuel he o n prog (Datatypes.S (List.length xs)) it2 in (ob :: os, en)))
            /\ forall tl, item_seen (prog (List.length xs)) (mk_item core tl payload V P) (p + lenZ (i_texts xs)) (lenZ core) ob).
Proof.
  intros Hz Hf Hfit HM Hfu Hgood Huse Hk Htl Hmore Hmagic.
  destruct (plain_start fuel he o M K prog p xs more sched block known Hz Hf Hfit HM Hfu Hgood Huse Hk Htl Hmore Hmagic)
    as (obs & it' & E & Hlen & Hobs & Q & T & C0 & HRd & HPos & HDec & HNext & Hr & Hc0 & Ho).
  exists obs, it'. split; [exact E|]. split; [exact Hlen|]. split; [exact Hobs|]. split.
  - intros Em n. rewrite Em in Hr. eapply (run_end (zl:=zl) fuel he o Q) with (T := T) (C0 := C0); eassumption.
  - intros core rest payload V P Em Hne HP Hnn Hu. rewrite Em in Hr, Hc0.
    destruct (run_one fuel he o Q M T C0 K HRd HM HPos HDec HNext prog (List.length xs) it' core rest payload V P Hr)
      as (ob & it2 & rest' & E2 & Hob & _); try assumption.
    exists ob, it2. split; [exact E2|]. rewrite Ho in Hob. exact Hob.
Qed.

(** ** WARC records *)
Definition warc_known (k : option fmt) : Prop := k <> Some FArc.
Definition warc_seen {zl : zenv} (w : wrc) (http : option sah) (payload : bytes) (rc : record (breader zl raw)) : Prop :=
  rc_format rc = FWarc /\ rc_type rc = w_value "WARC-Type" w
  /\ sh_proto (rc_headers rc) = w_version w /\ sh_headers (rc_headers rc) = w_headers w
  /\ rc_length rc = Some (lenZ (w_block w)) /\ rc_ctype rc = w_value "Content-Type" w
  /\ rc_http rc = http /\ sh_status (rc_headers rc) = []
  /\ rc_plen rc = if osah_bool http then lenZ payload else -1.

Lemma warc_loadable_n {zl : zenv} fuel he o (M : rlim) w0 w head http payload :
  0 <= rM M -> wf_lines w0 -> normalised w0 w -> declares_length w -> utf8_encode (record_text (w_version w0) (w_headers w0)) = Some head ->
  http_view fuel (lo_norec o) (lo_verify o) w http payload ->
  (lo_norec o = false -> http <> None -> short_lines (rM M) (w_block w)) ->
  digests_ready he o w payload -> lo_ensure o = false ->
  loadable (zl:=zl) fuel he o M warc_known (head ++ w_block w) payload (verdict_at he o w payload) (warc_seen w http payload).
Proof.
  intros HM Hwf Hno Hcl He Hv Hs Hck Hen Q (HL & HE & HX & HF) nl r rest known Hk Hat HLr. rewrite <- app_assoc in Hat.
  destruct (load_record fuel he o Q M HL HE HX HF HM nl r w0 w head rest http payload known Hwf Hno Hcl He Hat Hv Hs HLr Hck Hen Hk) as (rc & E & HR & F).
  exists rc. split; [exact E|]. split; [exact HR|]. split; [exact F|]. destruct F as (F1 & _). rewrite F1. destruct (lo_a2w o); [exact Hk|discriminate].
Qed.
Lemma warc_loadable {zl : zenv} fuel he o (M : rlim) w head http payload :
  0 <= rM M -> wf_record w -> utf8_encode (record_text (w_version w) (w_headers w)) = Some head ->
  http_view fuel (lo_norec o) (lo_verify o) w http payload ->
  (lo_norec o = false -> http <> None -> short_lines (rM M) (w_block w)) ->
  digests_ready he o w payload -> lo_ensure o = false ->
  loadable (zl:=zl) fuel he o M warc_known (head ++ w_block w) payload (verdict_at he o w payload) (warc_seen w http payload).
Proof.
  intros HM Hwf. pose proof Hwf as (_ & _ & Hu & Hcl). apply warc_loadable_n; [exact HM|now apply wf_rec_lines|now apply normal_refl|exact Hcl].
Qed.

Lemma text_starts w out more : wf_record w -> text_of w out -> starts_text (out ++ more).
Proof.
  intros (Hv & _) (head & He & ->). right. unfold utf8_encode in He. destruct (forallb is_scalar _); [|discriminate].
  injection He as <-. unfold record_text. intros E. apply rstripp_nil_all in E. rewrite forallb_forall in E.
  specialize (E 87%N). assert (is_bspace 87 = true) as X; [apply E|discriminate].
  destruct (warc_types_in _ Hv) as [->|[->|[->| ->]]]; cbn; now left.
Qed.

Definition entry_item {zl : zenv} (he : henv) (o : lopts) (e : entry) : item zl :=
  mk_item (takeZ (lenZ (e_text e) - 4) (e_text e)) [13; 10; 13; 10]%N (e_payload e)
    (verdict_at he o (e_rec e) (e_payload e)) (warc_seen (e_rec e) (e_http e) (e_payload e)).
Lemma entry_core {zl : zenv} he o (e : entry) head : e_text e = head ++ w_block (e_rec e) ++ [13; 10; 13; 10]%N ->
  i_core (entry_item (zl:=zl) he o e) = head ++ w_block (e_rec e).
Proof.
  intros E. unfold entry_item. cbn [i_core]. rewrite E, app_assoc. generalize (head ++ w_block (e_rec e)). intros l.
  replace (lenZ (l ++ [13; 10; 13; 10]%N) - 4) with (lenZ l); [apply takeZ_app_exact|].
  rewrite lenZ_app. change (lenZ [13; 10; 13; 10]%N) with 4. lia.
Qed.
Lemma entry_item_text {zl : zenv} he o (e : entry) : (exists head, e_text e = head ++ w_block (e_rec e) ++ [13; 10; 13; 10]%N) ->
  i_text (entry_item (zl:=zl) he o e) = e_text e /\ lenZ (i_core (entry_item (zl:=zl) he o e)) = lenZ (e_text e) - 4.
Proof.
  intros (head & E). unfold i_text. rewrite (entry_core he o e head E). cbn [entry_item i_tail]. rewrite E. split; [now rewrite <- app_assoc|].
  rewrite !lenZ_app. change (lenZ [13; 10; 13; 10]%N) with 4. lia.
Qed.
Lemma entry_item_ok {zl : zenv} fuel he o (M : rlim) us e : 0 <= rM M -> lo_ensure o = false -> good_entry fuel he o (rM M) us e ->
  item_ok (zl:=zl) fuel he o M warc_known (entry_item he o e).
Proof.
  intros HM Hen (Hwf & Htx & Hv & Hs & Hck & _ & _). pose proof Htx as (head & He & Et). unfold item_ok.
  assert (Hh : exists t, head = 87%N :: 65%N :: t).
  { unfold utf8_encode in He. destruct (forallb is_scalar _); [|discriminate]. injection He as <-. unfold record_text. pose proof Hwf as (Hver & _).
    destruct (warc_types_in _ Hver) as [->|[->|[->| ->]]]; cbn; eauto. }
  rewrite (entry_core he o e head Et). cbn [i_payload entry_item i_V i_P i_tail]. split; [now apply warc_loadable|]. split; [reflexivity|]. split.
  - intros more. pose proof (text_starts (e_rec e) (e_text e) [] Hwf Htx) as X. rewrite app_nil_r, Et in X.
    destruct Hh as (t & ->). right. intros Ex. apply rstripp_nil_all in Ex. rewrite forallb_forall in Ex. specialize (Ex 87%N).
    assert (is_bspace 87 = true) as Y; [apply Ex; cbn; now left|discriminate].
  - destruct Hh as (t & ->). eexists _, _, _. split; [reflexivity|discriminate].
Qed.
Lemma warc_observed {zl : zenv} he o w http payload off len us core tl (ob : @obs zl) :
  item_seen us (mk_item core tl payload (verdict_at he o w payload) (warc_seen w http payload)) off len ob ->
  observed he o w http payload off len us ob.
Proof.
  intros (F & Hd & Hi & ck & Hv & Hp). cbn in *. destruct F as (F1 & F2 & F3 & F4 & F5 & F6 & F7 & F8 & F9). constructor; auto. rewrite Hp. exact Hv.
Qed.
Lemma entry_observed {zl : zenv} he o us off len e (ob : @obs zl) :
  item_seen us (entry_item he o e) off len ob -> observed he o (e_rec e) (e_http e) (e_payload e) off len us ob.
Proof. intros H. eapply warc_observed. exact H. Qed.
Lemma good_entry_text fuel he o M us e : good_entry fuel he o M us e -> exists head, e_text e = head ++ w_block (e_rec e) ++ [13; 10; 13; 10]%N.
Proof. intros (_ & (head & _ & Et) & _). eauto. Qed.
Lemma entry_items_text {zl : zenv} he o es : (forall e, In e es -> exists head, e_text e = head ++ w_block (e_rec e) ++ [13; 10; 13; 10]%N) ->
  i_texts (map (entry_item (zl:=zl) he o) es) = texts es.
Proof.
  intros H. unfold i_texts, texts. f_equal. rewrite map_map. apply map_ext_in. intros e He. now apply entry_item_text, H.
Qed.

Lemma plain_archive {zl : zenv} fuel he o M prog p es more sched block known :
  gz_magic zl -> first_two block sched -> reads_fit M block sched -> 0 <= M ->
  enough fuel (texts es ++ more) ->
  (forall i e, nth_error es i = Some e -> good_entry fuel he o M (prog i) e) ->
  lo_ensure o = false -> known <> Some FArc -> starts_text more ->
  (es = [] -> more = [] \/ exists a b t, more = a :: b :: t /\ (a, b) <> (31%N, 139%N)) ->
  exists obs it', (forall n, run_iter (zl:=zl) fuel he o (List.length es + n) prog 0 (iter_new (mk_raw (texts es ++ more) p sched) block known)
      = (let (os, en) := run_iter fuel he o n prog (List.length es) it' in (obs ++ os, en)))
    /\ List.length obs = List.length es
    /\ (forall i e ob, nth_error es i = Some e -> nth_error obs i = Some ob ->
         observed he o (e_rec e) (e_http e) (e_payload e) (p + position i es) (lenZ (e_text e) - 4) (prog i) ob)
    /\ (more = [] -> forall n, run_iter fuel he o (Datatypes.S n) prog (List.length es) it' = ([], EndStop))
    /\ (forall w head rest http payload, more = head ++ w_block w ++ rest -> wf_record w ->
          utf8_encode (record_text (w_version w) (w_headers w)) = Some head ->
          http_view fuel (lo_norec o) (lo_verify o) w http payload ->
          (lo_norec o = false -> http <> None -> short_lines M (w_block w)) -> digests_ready he o w payload ->
          nonneg_ops (prog (List.length es)) -> user_lines M (prog (List.length es)) payload ->
          exists ob it2, (forall n, run_iter fuel he o (Datatypes.S n) prog (List.length es) it'
                = (let (os, en) := run_iter fuel he o n prog (Datatypes.S (List.length es)) it2 in (ob :: os, en)))
            /\ observed he o w http payload (p + lenZ (texts es)) (lenZ head + lenZ (w_block w)) (prog (List.length es)) ob).
Proof.
  intros Hz Hb Hfit HM Hfu Hgood Hoff Hk Hmore Hmagic.
  assert (Htx : forall e, In e es -> exists head, e_text e = head ++ w_block (e_rec e) ++ [13; 10; 13; 10]%N).
  { intros e He. apply In_nth_error in He as (i & Hi). exact (good_entry_text _ _ _ _ _ _ (Hgood i e Hi)). }
  pose proof (entry_items_text (zl:=zl) he o es Htx) as Etx.
  destruct (plain_items (zl:=zl) fuel he o M warc_known prog p (map (entry_item he o) es) more sched block known) as (obs & it' & E & Hl & Hob & Hend & Hone); auto.
  { now rewrite Etx. }
  { apply Forall_forall. intros x Hx. apply in_map_iff in Hx as (e & <- & He). apply In_nth_error in He as (i & Hi).
    apply (entry_item_ok fuel he o M (prog i) e HM Hoff (Hgood i e Hi)). }
  { intros i x Hi. rewrite nth_error_map in Hi. destruct (nth_error es i) as [e|] eqn:En; [|discriminate]. injection Hi as <-.
    destruct (Hgood i e En) as (_ & _ & _ & _ & _ & A & B). now split. }
  { clear. induction es as [|e es IH]; [exact I|]. split; [|exact IH]. left. exists [13; 10; 13]%N. split; reflexivity. }
  { intros X. destruct es; [now apply Hmagic|discriminate]. }
  rewrite map_length in *. rewrite Etx in E. exists obs, it'. split; [exact E|]. split; [exact Hl|]. split; [|split; [exact Hend|]].
  - intros i e ob Hi Hi'. assert (nth_error (map (entry_item (zl:=zl) he o) es) i = Some (entry_item he o e)) as Hi2 by now rewrite nth_error_map, Hi.
    pose proof (Hob i _ ob Hi2 Hi') as X. rewrite firstn_map, entry_items_text in X by (intros x Hx; apply Htx; revert Hx; clear; revert es; induction i as [|i IH]; intros [|a es]; cbn; try tauto; intros [->|H]; auto).
    rewrite (proj2 (entry_item_text he o e (Htx e (nth_error_In _ _ Hi)))) in X. apply entry_observed. exact X.
  - intros w head rest http payload Em Hwf He Hv Hsh Hck Hnn Hu.
    destruct (Hone (head ++ w_block w) rest payload (verdict_at he o w payload) (warc_seen w http payload)) as (ob & it2 & E2 & Hob2); auto.
    { rewrite Em. now rewrite app_assoc. }
    { intros X. apply app_eq_nil in X as [-> _]. unfold utf8_encode in He. destruct (forallb is_scalar _); [|discriminate]. injection He as He.
      unfold record_text in He. pose proof Hwf as (Hver & _). destruct (warc_types_in _ Hver) as [E1|[E1|[E1|E1]]]; rewrite E1 in He; discriminate. }
    { now apply warc_loadable. }
    exists ob, it2. split; [exact E2|]. specialize (Hob2 []). rewrite Etx in Hob2. rewrite lenZ_app in Hob2. eapply warc_observed. exact Hob2.
Qed.
