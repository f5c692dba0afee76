(** * RoundProofs: what the writer puts out is what the iterator accepts *)
From Coq Require Import String List ZArith NArith Bool Lia.
From Coq Require Import ZifyBool ZifyNat ZifyN.
From Verif Require Import PyBase Facts Utf8 Codecs CodecProofs Headers Streams StreamSpec StreamProofs
  HeaderSpec HeaderProofs Thm_Headers Loader Iterator Writer WriterSpec WriterProofs Thm_Writer IterSpec IterProofs RoundSpec.
Import ListNotations.
Open Scope Z_scope.

(** ** ASCII *)
Lemma enc_ascii s : ascii_text s -> enc s = s.
Proof.
  induction s as [|c t IH]; intros H; [reflexivity|]. unfold enc in *. cbn [flat_map]. rewrite IH by (intros x Hx; apply H; now right).
  assert (c < 128)%N by (apply H; now left). unfold utf8_enc1. replace (c <? 128)%N with true by lia. reflexivity.
Qed.
Lemma ascii_scalar s : ascii_text s -> forall c, In c s -> is_scalar c = true.
Proof. intros H c Hc. specialize (H c Hc). unfold is_scalar, is_surrogate. lia. Qed.
Lemma ascii_app a b : ascii_text a -> ascii_text b -> ascii_text (a ++ b).
Proof. intros H1 H2 c Hc. apply in_app_or in Hc as [Hc|Hc]; auto. Qed.
Lemma ascii_decode s : ascii_text s -> decode_header s = s.
Proof. intros H. rewrite <- (enc_ascii s H) at 1. apply decode_enc. now apply ascii_scalar. Qed.
Lemma ascii_crlf : ascii_text crlf. Proof. intros c [<-|[<-|[]]]; reflexivity. Qed.
Lemma ascii_field x : ascii_text (fst x) -> ascii_text (snd x) -> ascii_text (field_line x).
Proof.
  intros H1 H2. unfold field_line. apply ascii_app; [exact H1|]. apply ascii_app; [intros c [<-|[<-|[]]]; reflexivity|].
  apply ascii_app; [exact H2|exact ascii_crlf].
Qed.
Lemma ascii_status p s : ascii_text p -> ascii_text s -> ascii_text (status_text p s).
Proof.
  intros H1 H2. unfold status_text. destruct s; [exact H1|]. apply ascii_app; [exact H1|]. intros c [<-|Hc]; [reflexivity|now apply H2].
Qed.

(** the text of an HTTP header block *)
Definition block_lines (h : sah) : list str := (status_text (sh_proto h) (sh_status h) ++ crlf) :: map field_line (sh_headers h).
Lemma to_str_lines h : sh_proto h <> [] -> to_str None h = concat (block_lines h).
Proof.
  intros Hp. unfold to_str, block_lines. rewrite first_line_eq by assumption. cbn [concat]. f_equal.
  unfold header_lines. rewrite flat_map_concat_map. reflexivity.
Qed.

Lemma block_bytes h : sh_proto h <> [] -> ascii_block h ->
  to_ascii_bytes None h = (Ok (concat (block_lines h) ++ crlf), h) /\ to_bytes None h = Ok (concat (block_lines h) ++ crlf)
  /\ Forall ascii_text (block_lines h).
Proof.
  intros Hp (H1 & H2 & H3).
  assert (HA : Forall ascii_text (block_lines h)).
  { constructor; [apply ascii_app; [now apply ascii_status|exact ascii_crlf]|]. rewrite Forall_map.
    eapply Forall_impl; [|exact H3]. intros x [A B]. now apply ascii_field. }
  assert (HB : ascii_text (to_str None h)).
  { rewrite to_str_lines by assumption. intros c Hc. apply in_concat in Hc as (l & Hl & Hc). rewrite Forall_forall in HA. exact (HA l Hl c Hc). }
  rewrite <- to_str_lines by assumption. split; [|split; [|exact HA]].
  - unfold to_ascii_bytes, ascii_encode. assert (is_ascii (to_str None h) = true) as ->; [|reflexivity].
    unfold is_ascii. rewrite forallb_forall. intros c Hc. specialize (HB c Hc). lia.
  - unfold to_bytes, utf8_encode. assert (forallb is_scalar (to_str None h) = true) as ->.
    { rewrite forallb_forall. now apply ascii_scalar. }
    change (flat_map utf8_enc1 (to_str None h)) with (enc (to_str None h)). rewrite enc_ascii by assumption. reflexivity.
Qed.

(** lines *)
Lemma lines_bound M : forall lines p q, Forall (fun l => is_line l /\ lenZ l <= M) lines -> 0 <= M -> concat lines = p ++ q -> lenZ (take_line q) <= M.
Proof.
  induction lines as [|l lines IH]; intros p q HF HM E.
  - cbn in E. symmetry in E. apply app_eq_nil in E as [_ ->]. cbn. lia.
  - inversion HF as [|? ? [Hl HlM] HF']. subst. cbn [concat] in E.
    destruct (Nat.le_gt_cases (List.length l) (List.length p)) as [Hle|Hgt].
    + apply (IH (skipn (List.length l) p) q HF' HM).
      apply (f_equal (skipn (List.length l))) in E. rewrite skipn_app, skipn_all, Nat.sub_diag in E. cbn in E.
      rewrite E, skipn_app. now replace (List.length l - List.length p)%nat with 0%nat by lia.
    + assert (El : l = p ++ skipn (List.length p) l).
      { rewrite <- (firstn_skipn (List.length p) l) at 1. f_equal. apply (f_equal (firstn (List.length p))) in E.
        rewrite !firstn_app in E. replace (List.length p - List.length l)%nat with 0%nat in E by lia. rewrite Nat.sub_diag in E. cbn in E.
        rewrite !app_nil_r in E. now rewrite E, firstn_all. }
      set (q1 := skipn (List.length p) l) in *.
      assert (Eq : q = q1 ++ concat lines).
      { rewrite El, <- app_assoc in E. now apply app_inv_head in E. }
      assert (Hq1 : q1 <> []) by (intros X; rewrite X, app_nil_r in El; rewrite El in Hgt; lia).
      assert (HLF : In LF q1).
      { destruct Hl as (a & _ & Ea). destruct (exists_last Hq1) as (q2 & x & Ex). rewrite Ex, app_assoc in El. rewrite El in Ea.
        apply app_inj_tail in Ea as [_ ->]. rewrite Ex. apply in_or_app. right. now left. }
      rewrite Eq, take_line_hasLF by assumption. pose proof (take_drop_line q1) as T. apply (f_equal lenZ) in T. rewrite lenZ_app in T.
      pose proof (lenZ_nonneg (drop_line q1)). apply (f_equal lenZ) in El. rewrite lenZ_app in El. pose proof (lenZ_nonneg p). lia.
Qed.

Lemma line_crlf s : ~ In LF s -> is_line (s ++ crlf).
Proof.
  intros H. exists (s ++ [13%N]). split; [|now rewrite <- app_assoc]. intros X. apply in_app_or in X as [X|[X|[]]]; [auto|discriminate].
Qed.
Lemma status_noLF p s : ~ In LF p -> ~ In LF s -> ~ In LF (status_text p s).
Proof.
  intros H1 H2. unfold status_text. destruct s; [exact H1|]. intros X. apply in_app_or in X as [X|[X|X]]; [auto|discriminate|auto].
Qed.

Lemma http_lines M p h rest : wf_block p h -> ascii_block h -> lines_fit M h ->
  short_lines M (concat (block_lines h) ++ crlf ++ rest).
Proof.
  intros (Hne & [_ Hp] & Htr & [_ Hs] & _ & _ & _ & Hh) Ha (HM & HM1 & HM2).
  assert (HA : Forall ascii_text (block_lines h)) by (now apply block_bytes).
  assert (Hlines : Forall (fun l => is_line l /\ lenZ l <= M) (block_lines h)).
  { constructor.
    - split; [apply line_crlf; now apply status_noLF|]. rewrite lenZ_app. change (lenZ crlf) with 2. lia.
    - rewrite Forall_map. rewrite Forall_forall in *. intros x Hx. split; [|now apply HM2].
      destruct (Hh x Hx) as ([_ H1] & _ & _ & _ & [_ H2] & _). unfold field_line.
      replace (fst x ++ [58; 32]%N ++ snd x ++ [13; 10]%N) with ((fst x ++ [58; 32]%N ++ snd x) ++ crlf) by (rewrite <- !app_assoc; reflexivity).
      apply line_crlf. intros X. apply in_app_or in X as [X|X]; [auto|]. apply in_app_or in X as [[X|[X|[]]]|X]; [discriminate|discriminate|auto]. }
  exists (concat (block_lines h) ++ crlf), rest. split; [now rewrite <- app_assoc|]. split.
  - exists (block_lines h), crlf. split; [reflexivity|]. split.
    + rewrite Forall_forall in *. intros l Hl. split; [now apply Hlines|]. intros B. unfold blank in B. rewrite ascii_decode in B by (now apply HA).
      unfold block_lines in Hl. destruct Hl as [<-|Hl].
      * destruct (exists_last Hne) as (t & x & E). assert (is_uspace x = true) as X.
        { apply B. apply in_or_app. left. unfold status_text. destruct (sh_status h); rewrite E.
          - apply in_or_app. right. now left.
          - apply in_or_app. left. apply in_or_app. right. now left. }
        rewrite (Htr x t E) in X. discriminate.
      * apply in_map_iff in Hl as (x & <- & Hx). assert (is_uspace 58 = true) as X; [|discriminate].
        apply B. unfold field_line. apply in_or_app. right. now left.
    + left. split; [exists [13%N]; split; [cbn; intuition discriminate|reflexivity]|].
      intros c Hc. vm_compute in Hc. intuition (subst; reflexivity).
  - intros a b E. apply (lines_bound M (block_lines h ++ [crlf]) a b); [|lia|].
    + apply Forall_app. split; [exact Hlines|]. constructor; [|constructor]. split; [exists [13%N]; split; [cbn; intuition discriminate|reflexivity]|exact HM].
    + rewrite concat_app. cbn [concat]. now rewrite app_nil_r.
Qed.

(** ** the headers of a written record *)
Lemma wf_mk n v : forallb (fun c => is_scalar c && negb ((c =? 10) || (c =? 58) || is_sp_tab c))%N n = true -> wf_value v -> wf_header (n, v).
Proof.
  rewrite forallb_forall. intros H (Hv & Hv1 & Hv2). unfold wf_header, line_text, no_lead, no_trail. cbn [fst snd].
  assert (N : forall c, In c n -> is_scalar c = true /\ c <> 10%N /\ c <> 58%N /\ is_sp_tab c = false).
  { intros c Hc. specialize (H c Hc). destruct (is_sp_tab c); [rewrite !orb_true_r, andb_false_r in H; discriminate|]. repeat split; try lia.
    all: destruct (is_scalar c); [reflexivity|discriminate]. }
  repeat split; try (apply Hv).
  - intros c Hc. now apply N.
  - intros X. now destruct (N _ X) as (_ & X1 & _).
  - intros X. now destruct (N _ X) as (_ & _ & X1 & _).
  - intros c t ->. apply N. now left.
  - intros c t ->. apply N. apply in_or_app. right. now left.
  - exact Hv1.
  - exact Hv2.
Qed.
Lemma wf_value_of n v : wf_header (n, v) -> wf_value v.
Proof. intros (_ & _ & _ & _ & H1 & H2 & H3). repeat split; try apply H1; assumption. Qed.
Lemma wf_rename n v v' : wf_header (n, v) -> wf_value v' -> wf_header (n, v').
Proof. intros (H1 & H2 & H3 & H4 & _) (Ha & Hb & Hc). unfold wf_header. cbn [fst snd] in *. split; [exact H1|]. split; [exact H2|]. split; [exact H3|]. split; [exact H4|]. split; [exact Ha|]. split; assumption. Qed.

Definition wfs (s : sah) : Prop := Forall wf_header (sh_headers s).
Lemma wf_add n v s : wfs s -> wf_header (n, v) -> wfs (add_header n v s).
Proof. intros H1 H2. unfold wfs, add_header. cbn. apply Forall_app. split; [exact H1|]. now constructor. Qed.
Lemma wf_replace n v s : wfs s -> wf_header (n, v) -> wfs (replace_header_ n v s).
Proof.
  intros H1 H2. unfold wfs in *. destruct (replace_cases n v s) as [(pre & k & w & post & E & _ & _ & ->)|[_ ->]]; cbn [set_headers sh_headers].
  - rewrite E in H1. apply Forall_app in H1 as [A B]. inversion B. subst. apply Forall_app. split; [exact A|]. constructor; [|assumption].
    eapply wf_rename; [eassumption|]. now apply wf_value_of in H2.
  - apply Forall_app. split; [exact H1|]. now constructor.
Qed.
Lemma wf_remove n s : wfs s -> wfs (remove_header_ n s).
Proof.
  intros H1. unfold wfs in *. destruct (remove_cases n s) as [(pre & k & w & post & E & _ & _ & ->)|[_ ->]]; cbn [set_headers sh_headers]; [|exact H1].
  rewrite E in H1. apply Forall_app in H1 as [A B]. inversion B. subst. apply Forall_app. now split.
Qed.
Lemma wf_get n v s : wfs s -> get_header n s = Some v -> wf_value v.
Proof.
  unfold get_header, wfs. induction (sh_headers s) as [|[k w] t IH]; [discriminate|]. intros H. inversion H. subst. cbn.
  destruct (name_eq k n); [intros E; injection E as <-; now apply wf_value_of in H2|now apply IH].
Qed.

Lemma wfv_ascii (s : str) : forallb (fun c => (33 <=? c) && (c <=? 126))%N s = true -> wf_value s.
Proof.
  rewrite forallb_forall. intros H.
  assert (A : forall c, In c s -> is_scalar c = true /\ c <> 10%N /\ is_uspace c = false).
  { intros c Hc. specialize (H c Hc). split; [unfold is_scalar, is_surrogate; lia|]. split; [lia|]. unfold is_uspace; lia. }
  repeat split.
  - intros c Hc. now apply A.
  - intros X. now destruct (A _ X) as (_ & X1 & _).
  - intros c t ->. apply A. now left.
  - intros c t ->. apply A. apply in_or_app. right. now left.
Qed.
Lemma b32char_ok v : (v < 32)%N -> ((33 <=? b32char v) && (b32char v <=? 126))%N = true.
Proof. unfold b32char. intros H. destruct (v <? 26)%N eqn:E; lia. Qed.
Lemma b32_ok h : Forall (fun x => (x < 256)%N) h -> forallb (fun c => (33 <=? c) && (c <=? 126))%N (b32encode h) = true.
Proof.
  revert h. apply (list5_ind (fun h => Forall (fun x => (x < 256)%N) h -> forallb (fun c => (33 <=? c) && (c <=? 126))%N (b32encode h) = true)); intros;
    repeat match goal with H : Forall _ (_ :: _) |- _ => inversion H; clear H; subst end; [reflexivity|..];
    cbn [b32encode forallb]; rewrite ?b32char_ok by bnd; cbn [andb]; try reflexivity. rewrite forallb_app. cbn [forallb]. rewrite ?b32char_ok by bnd. auto.
Qed.
Lemma sha1_wf sha1 b : hash_bytes sha1 -> wf_value (sha1_str sha1 b).
Proof. intros H. apply wfv_ascii. unfold sha1_str. rewrite forallb_app. apply andb_true_iff. split; [reflexivity|]. apply b32_ok, H. Qed.
Lemma digits_wf n : 0 <= n -> wf_value (str_of_Z n).
Proof.
  intros H. apply wfv_ascii. pose proof (str_of_Z_digits n H) as D. rewrite forallb_forall in *. intros c Hc. specialize (D c Hc).
  unfold is_digit in D. lia.
Qed.
Lemma wfv_id uuid : line_text uuid -> wf_value (make_warc_id uuid).
Proof.
  intros [H1 H2]. unfold make_warc_id. repeat split.
  - intros c Hc. apply in_app_or in Hc as [Hc|Hc]; [vm_compute in Hc; intuition (subst; reflexivity)|].
    apply in_app_or in Hc as [Hc|[<-|[]]]; [now apply H1|reflexivity].
  - intros Hc. apply in_app_or in Hc as [Hc|Hc]; [vm_compute in Hc; intuition discriminate|].
    apply in_app_or in Hc as [Hc|[Hc|[]]]; [auto|discriminate].
  - intros c t E. injection E as <- _. reflexivity.
  - intros c t E. rewrite app_assoc in E. change (lit ">") with [62%N] in E. apply app_inj_tail in E as [_ <-]. reflexivity.
Qed.
Lemma default_ctype_wf t : wf_value (default_ctype t).
Proof.
  unfold default_ctype.
  assert (P : forall s, forallb (fun c => is_scalar c && negb (c =? 10))%N s = true ->
            match s with c :: _ => is_uspace c = false | [] => True end -> match rev s with c :: _ => is_uspace c = false | [] => True end -> wf_value s).
  { intros s H1 H2 H3. rewrite forallb_forall in H1. repeat split.
    - intros c Hc. specialize (H1 c Hc). destruct (is_scalar c); [reflexivity|discriminate].
    - intros X. specialize (H1 _ X). discriminate.
    - intros c u ->. exact H2.
    - intros c u ->. rewrite rev_app_distr in H3. exact H3. }
  repeat match goal with |- context[if ?b then _ else _] => destruct b end; apply P; reflexivity.
Qed.

Lemma cr_wh_wf c : Forall wf_header (given_headers c) -> wf_value (cr_type c) -> wf_value (cr_now c) -> line_text (cr_uuid c) ->
  match cr_uri c with Some u => wf_value u | None => True end -> wfs (cr_wh c).
Proof.
  intros H1 H2 H3 H4 H5.
  assert (I : Forall wf_header (cr_hdict c) -> wfs (init_warc_headers (cr_version c) (cr_uuid c) (cr_now c) (cr_uri c) (cr_type c) (cr_hdict c))).
  { intros H. unfold init_warc_headers.
    set (h0 := replace_header_ (lit "WARC-Type") _ _). assert (A : wfs h0) by (apply wf_replace; [exact H|now apply wf_mk]).
    clearbody h0. set (h1 := if truthy (get_header (lit "WARC-Record-ID") h0) then h0 else _).
    assert (B : wfs h1) by (unfold h1; destruct (truthy _); [exact A|apply wf_add; [exact A|apply wf_mk; [reflexivity|now apply wfv_id]]]).
    clearbody h1. set (h2 := match cr_uri c with Some ((_ :: _) as u) => _ | _ => h1 end).
    assert (C : wfs h2) by (unfold h2; destruct (cr_uri c) as [[|x u]|]; try exact B; apply wf_replace; [exact B|now apply wf_mk]).
    clearbody h2. destruct (truthy _); [exact C|]. apply wf_add; [exact C|now apply wf_mk]. }
  unfold cr_wh, c_headers, given_headers, osah_bool in *. destruct (cr_whdrs c) as [h|]; [|now apply I].
  destruct (sah_bool h); [exact H1|now apply I].
Qed.

Lemma dh_wf sha1 nb np pre c h : hash_bytes sha1 -> wfs h -> wfs (digest_headers sha1 nb np pre c h).
Proof.
  intros Hs H. unfold digest_headers, add_if.
  assert (A : wfs (if np then add_header PD (sha1_str sha1 c) h else h)).
  { destruct np; [|exact H]. apply wf_add; [exact H|]. apply wf_mk; [reflexivity|now apply sha1_wf]. }
  destruct nb; [|exact A]. apply wf_add; [exact A|]. apply wf_mk; [reflexivity|now apply sha1_wf].
Qed.
Lemma final_wf sha1 hb r n : hash_bytes sha1 -> wfs (wr_headers r) -> match wr_ctype r with Some c => wf_value c | None => True end ->
  w_len hb r = Some n -> 0 <= n -> wfs (w_final sha1 hb r).
Proof.
  intros Hs H Hc Hl Hn. unfold w_final. apply wf_replace; [|apply wf_mk; [reflexivity|]; rewrite Hl; now apply digits_wf].
  assert (B : wfs (w_base r)).
  { unfold w_base. destruct (wr_length r); [exact H|]. unfold strip_for_unknown. cbn [w_set_headers wr_headers]. apply wf_remove.
    destruct (otype_is _ _); repeat apply wf_remove; exact H. }
  unfold w_ctype. destruct (wr_ctype r); [apply wf_replace; [|now apply wf_mk]|]; now apply dh_wf.
Qed.

(** ** reading the block *)
Lemma http_type_b t : is_http_record t = true <-> http_type t.
Proof.
  unfold http_type, is_http_record. destruct t as [t|]; [|split; [discriminate|intuition discriminate]].
  rewrite !orb_true_iff, !leqb_eq. split; [intros [[->| ->]| ->]; auto|intros [E|[E|E]]; injection E as ->; auto].
Qed.
Lemma starts_iff p s : startswith p s = true <-> exists r, s = p ++ r.
Proof.
  revert s. induction p as [|x p IH]; intros s; [split; [eexists; reflexivity|reflexivity]|]. destruct s as [|y s]; cbn.
  - split; [discriminate|intros (r & E); discriminate].
  - rewrite andb_true_iff, N.eqb_eq, IH. split; [intros [-> (r & ->)]; now exists r|intros (r & E); injection E as -> ->; eauto].
Qed.
Lemma http_like_b t uri u : uri = Some u -> (is_http_record t && is_http_uri u = true <-> http_like t uri).
Proof.
  intros ->. unfold http_like, is_http_uri. rewrite andb_true_iff, orb_true_iff, http_type_b, !starts_iff.
  split.
  - intros [H1 [[r ->]|[r ->]]]; (split; [exact H1|exists r; auto]).
  - intros [H1 (r & [E|E])]; injection E as ->; (split; [exact H1|]); [left|right]; now exists r.
Qed.

Lemma read_block fuel o M w (http : option sah) hb payload :
  lo_norec o = false -> enough fuel (w_block w) -> http_block None http hb -> w_block w = hb ++ payload ->
  let t := w_value "WARC-Type" w in let uri := w_value "WARC-Target-URI" w in
  match http with
  | Some h => sah_bool h = true /\ http_like t uri /\ wf_block (reading_parser t (lo_verify o)) h /\ ascii_block h /\ lines_fit M h
  | None => ~ http_like t uri \/ payload = []
  end ->
  (match uri with None => is_http_record t = false \/ w_block w = [] | Some _ => True end) ->
  exists http', http_view fuel (lo_norec o) (lo_verify o) w http' payload /\ same_http http http'
    /\ (http' <> None -> short_lines M (w_block w)).
Proof.
  intros Hn Hf Hb Eb t uri Hh Hu. unfold http_view. rewrite Hn. fold t. fold uri.
  destruct http as [h|].
  - destruct Hh as (Hs & Hlk & Hwf & Ha & Hl). cbn [http_block] in Hb. rewrite Hs in Hb.
    assert (Hne : sh_proto h <> []) by apply Hwf.
    destruct (block_bytes h Hne Ha) as (B1 & B2 & _). rewrite B1 in Hb. cbn [fst] in Hb. assert (Ehb : concat (block_lines h) ++ crlf = hb) by (clear - Hb; now injection Hb). subst hb.
    destruct (C19_file_pf fuel (reading_parser t (lo_verify o)) h payload [] Hwf) as (data & D1 & D2).
    assert (data = concat (block_lines h) ++ crlf) by (rewrite B2 in D1; clear - D1; now injection D1). subst data. rewrite <- Eb in D2. destruct (D2 Hf) as (h' & s' & E & R1 & R2 & P1 & P2 & P3).
    exists (Some h'). split; [|split; [now repeat split|]].
    + exists s'. split; [|now rewrite R1]. pose proof Hlk as Hlk'. destruct Hlk' as [_ (u0 & Hu0)].
      assert (exists u, uri = Some u) as (u & Eu) by (destruct Hu0; eauto).
      pose proof (proj2 (http_like_b t uri u Eu) Hlk) as Hb2. apply andb_true_iff in Hb2 as [Hb2 Hb3].
      unfold load_http_headers. fold t. rewrite Eu, Hb2, Hb3. cbn [negb].
      assert (match Some (lenZ (w_block w)) with Some 0 => true | _ => false end = false) as ->.
      { rewrite Eb, !lenZ_app. change (lenZ crlf) with 2. pose proof (lenZ_nonneg (concat (block_lines h))). pose proof (lenZ_nonneg payload).
        destruct (lenZ (concat (block_lines h)) + 2 + lenZ payload) eqn:E0; [lia|reflexivity|lia]. }
      unfold reading_parser, otype_is in *. destruct t as [t0|]; [|discriminate]. destruct (leqb t0 (lit "request")); rewrite E; reflexivity.
    + intros _. rewrite Eb, <- app_assoc. now apply http_lines with (p := reading_parser t (lo_verify o)).
  - cbn [http_block] in Hb. subst hb. cbn [app] in Eb. exists None. split; [|split; [exact I|now intros X]].
    exists (raw_open (w_block w) []). split; [|now rewrite Eb].
    unfold load_http_headers. destruct (match Some (lenZ (w_block w)) with Some 0 => true | _ => false end) eqn:E0; [reflexivity|].
    assert (Hne : w_block w <> []) by (intros X; rewrite X in E0; discriminate).
    destruct Hh as [Hh|Hh]; [|rewrite Eb in Hne; contradiction].
    destruct (is_http_record t) eqn:Et; [|reflexivity]. cbn [negb]. destruct uri as [u|] eqn:Eu; [|destruct Hu; [discriminate|contradiction]].
    destruct (is_http_uri u) eqn:Eh; [|reflexivity]. exfalso. apply Hh. apply (http_like_b t (Some u) u eq_refl). now rewrite Et, Eh.
Qed.

Lemma written_full fuel sha1 he o M f c r ws r' :
  (List.length (cr_bytes c) + 3 <= fuel)%nat -> hash_bytes sha1 -> lo_norec o = false -> digests_off o ->
  round_ok M (lo_verify o) c r ->
  create fuel sha1 f c = Ok r -> write_plain fuel sha1 None r = (Ok tt, ws, r') -> enough fuel (concat ws) ->
  exists e, (w_version (e_rec e) = sh_proto (wr_headers r) /\ w_headers (e_rec e) = sh_headers (wr_headers r')
      /\ same_http (wr_http r) (e_http e) /\ exists hb, http_block None (wr_http r) hb /\ w_block (e_rec e) = hb ++ e_payload e)
    /\ e_text e = concat ws /\ good_entry fuel he o M [URead None] e
    /\ ((cr_type c = lit "revisit" -> e_payload e = []) /\ (cr_type c <> lit "revisit" -> e_payload e = ps_rest (wr_stream r)))
    /\ forall (zl : zenv) off len (ob : @obs zl), observed he o (e_rec e) (e_http e) (e_payload e) off len [URead None] ob ->
         returned c r (sh_headers (wr_headers r')) ob.
Proof.
  intros Hf Hsha Hnr Hoff RO C W Hfe. destruct RO as [R1 [R2 R2'] [R3 R3'] (V1 & V2 & V3 & V4 & V5) R5 Hup R6 R7].
  destruct (create_facts fuel sha1 f c r Hf R1 C) as (Hpay & Hp & Hf' & Ht & Hct & Hh & HL & _).
  destruct (created_version fuel sha1 f c r Hf R1 R2' C) as [Vs Vp].
  destruct (is_record_written fuel sha1 None r ws r' Hp Hf' Vs Vp W) as (hb & Hb & Hh' & Hrec).
  set (payload := if w_only r then [] else ps_rest (wr_stream r)) in *.
  assert (Hlen : len_ok r).
  { apply HL; [|exact R6]. unfold no_empty_http. destruct (wr_http r) as [h|]; [|auto]. left. cbn. now destruct R7. }
  set (w := mk_wrc (sh_proto (wr_headers r)) (sh_headers (wr_headers r')) (hb ++ payload)).
  assert (G : forall n, name_eq BD n = false -> name_eq PD n = false -> name_eq CT n = false -> name_eq CL n = false ->
            value_of n (w_headers w) = value_of n (sh_headers (wr_headers r))).
  { intros n N1 N2 N3 N4. unfold w. cbn [w_headers]. rewrite !value_of_hget, Hh'. exact (w_final_get sha1 n hb r N1 N2 N3 N4). }
  assert (Gt : w_value "WARC-Type" w = value_of (lit "WARC-Type") (sh_headers (wr_headers r))) by (apply G; reflexivity).
  assert (Gu : w_value "WARC-Target-URI" w = value_of (lit "WARC-Target-URI") (sh_headers (wr_headers r))) by (apply G; reflexivity).
  assert (Hwh : wfs (wr_headers r)) by (rewrite Hh; apply dh_wf; [exact Hsha|now apply cr_wh_wf]).
  assert (Hwf : wf_record w).
  { split; [exact R2|]. split; [|split].
    - unfold w. cbn [w_headers]. rewrite Hh'. apply final_wf with (n := lenZ (hb ++ payload)); [exact Hsha|exact Hwh| |now apply (w_len_ok None)|apply lenZ_nonneg].
      rewrite Hct. unfold c_ctype. destruct (is_nil (cr_ctype c)); [|exact V2].
      assert (wfs (cr_wh c)) by now apply cr_wh_wf.
      destruct (get_header CT (cr_wh c)) as [[|x u]|] eqn:E; [apply default_ctype_wf| |apply default_ctype_wf]. exact (wf_get _ _ _ H E).
    - now rewrite Gu.
    - exists (str_of_Z (lenZ (w_block w))). split; [|apply py_int_str, lenZ_nonneg].
      unfold w_value, w. cbn [w_headers w_block]. rewrite value_of_hget, Hh'.
      change (hget (lit "Content-Length") (sh_headers (w_final sha1 hb r))) with (get_header CL (w_final sha1 hb r)).
      rewrite w_final_CL, (w_len_ok None r hb Hlen Hb); [reflexivity|]. rewrite Hh, create_headers_occurs by reflexivity. exact R3'. }
  assert (Hpb : cr_bytes c = [] -> payload = []).
  { intros X. unfold payload. destruct (w_only r); [reflexivity|]. destruct Hpay as [A B].
    destruct (osah_bool (cr_http c)) eqn:Eo; [rewrite A, X; auto|]. destruct (wr_http r) as [h|]; [|rewrite A, X; auto].
    destruct (cr_payload c) eqn:Ep; [|rewrite A, X; auto].
    destruct (B eq_refl ltac:(discriminate) ltac:(discriminate)) as (blk & Eb & _). rewrite X in Eb. symmetry in Eb.
    now apply app_eq_nil in Eb. }
  destruct (read_block fuel o M w (wr_http r) hb payload Hnr) as (http' & Hv & Hsame & Hsh); auto.
  { unfold enough in *. destruct Hrec as (hd & _ & E). rewrite E, !app_length in Hfe. unfold w. cbn [w_block]. rewrite app_length. lia. }
  { rewrite Gt, Gu. destruct (wr_http r); [exact R7|]. destruct R7; [now left|right; now apply Hpb]. }
  { rewrite Gu, Gt. destruct (value_of (lit "WARC-Target-URI") (sh_headers (wr_headers r))) eqn:Eu; [exact I|].
    destruct (is_http_record (value_of (lit "WARC-Type") (sh_headers (wr_headers r)))) eqn:Er; [right|now left].
    assert (X : cr_bytes c = []).
    { destruct (cr_bytes c) eqn:Ec; [reflexivity|]. exfalso. apply Hup; [now apply http_type_b|discriminate|reflexivity]. }
    unfold w. cbn [w_block]. rewrite (Hpb X), app_nil_r.
    destruct (wr_http r) as [h|]; [|exact Hb]. destruct R7 as (_ & (_ & (u & [Z|Z])) & _); congruence. }
  exists (mk_entry w (concat ws) http' payload). split; [split; [reflexivity|]; split; [reflexivity|]; split; [exact Hsame|]; exists hb; split; [exact Hb|reflexivity]|]. split; [reflexivity|]. split.
  - split; [exact Hwf|]. cbn [e_rec e_text e_http e_payload]. split; [exact Hrec|]. split; [exact Hv|]. split; [intros _; exact Hsh|].
    split; [left; exact (proj1 Hoff)|]. split; repeat constructor.
  - split.
    { cbn [e_payload]. pose proof (only_iff r _ Ht) as HO. unfold payload. split; intros X.
      - now rewrite (proj2 HO X).
      - destruct (w_only r); [exfalso; apply X; now apply HO|reflexivity]. }
    intros zl off len ob Hob. cbn [e_rec e_text e_http e_payload] in Hob. destruct Hob as [B1 B2 B3 B4 _ B5 B6 B7 _ B8 B9 _]. constructor.
    + exact B3.
    + exact B4.
    + intros n N1 N2 N3 N4. rewrite <- name_eq_spec in *. apply G; now apply not_true_iff_false.
    + now rewrite B2, Gt.
    + now rewrite B7.
    + exists payload. split; [rewrite B8; reflexivity|]. pose proof (only_iff r _ Ht) as HO. split.
      * intros X. unfold payload. now rewrite (proj2 HO X).
      * intros X. unfold payload. destruct (w_only r); [exfalso; apply X; now apply HO|exact Hpay].
Qed.
Lemma written_entry fuel sha1 he o M f c r ws r' :
  (List.length (cr_bytes c) + 3 <= fuel)%nat -> hash_bytes sha1 -> lo_norec o = false -> digests_off o ->
  round_ok M (lo_verify o) c r ->
  create fuel sha1 f c = Ok r -> write_plain fuel sha1 None r = (Ok tt, ws, r') -> enough fuel (concat ws) ->
  exists e, e_text e = concat ws /\ good_entry fuel he o M [URead None] e
    /\ ((cr_type c = lit "revisit" -> e_payload e = []) /\ (cr_type c <> lit "revisit" -> e_payload e = ps_rest (wr_stream r)))
    /\ forall (zl : zenv) off len (ob : @obs zl), observed he o (e_rec e) (e_http e) (e_payload e) off len [URead None] ob ->
         returned c r (sh_headers (wr_headers r')) ob.
Proof.
  intros Hf Hsha Hnr Hoff RO C W Hfe.
  destruct (written_full fuel sha1 he o M f c r ws r' Hf Hsha Hnr Hoff RO C W Hfe) as (e & _ & H). now exists e.
Qed.
