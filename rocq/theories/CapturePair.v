(** * CapturePair: lemmas about the two records made by RequestRecorder.done (Capture.v) *)
From Coq Require Import String List ZArith NArith Bool Lia.
From Coq Require Import ZifyBool ZifyNat ZifyN.
From Verif Require Import PyBase Utf8 Facts Codecs Headers HeaderSpec HeaderProofs Streams StreamSpec StreamProofs Loader Writer WriterSpec WriterProofs
  RoundSpec RoundProofs Capture CaptureSpec CaptureProofs.
Import ListNotations.
Open Scope Z_scope.

(** ** Header texts that can be encoded *)
Definition txs (s : sah) : Prop := Forall (fun h => scalar_text (fst h) /\ scalar_text (snd h)) (sh_headers s).
Lemma tx_app a b : scalar_text a -> scalar_text b -> scalar_text (a ++ b).
Proof. intros H1 H2 c Hc. apply in_app_or in Hc as [Hc|Hc]; auto. Qed.
Lemma tx_lit s : forallb is_scalar (lit s) = true -> scalar_text (lit s).
Proof. rewrite forallb_forall. auto. Qed.
Lemma tx_value v : wf_value v -> scalar_text v.
Proof. intros ((H & _) & _). exact H. Qed.
Lemma tx_add n v s : txs s -> scalar_text n -> scalar_text v -> txs (add_header n v s).
Proof. intros H1 H2 H3. unfold txs, add_header. cbn. apply Forall_app. split; [exact H1|]. constructor; [now split|constructor]. Qed.
Lemma tx_replace n v s : txs s -> scalar_text n -> scalar_text v -> txs (replace_header_ n v s).
Proof.
  intros H1 H2 H3. unfold txs in *. destruct (replace_cases n v s) as [(pre & k & w & post & E & _ & _ & ->)|[_ ->]]; cbn [set_headers sh_headers].
  - rewrite E in H1. apply Forall_app in H1 as [A B]. inversion B as [|x l [Hk Hw] Hl]. subst. apply Forall_app. split; [exact A|]. constructor; [now split|assumption].
  - apply Forall_app. split; [exact H1|]. constructor; [now split|constructor].
Qed.
Lemma tx_get n v s : txs s -> get_header n s = Some v -> scalar_text v.
Proof.
  unfold get_header, txs. induction (sh_headers s) as [|[k w] t IH]; [discriminate|]. intros H. inversion H as [|x l [Hk Hw] Hl]. subst. cbn.
  destruct (name_eq k n); [intros E; injection E as <-; exact Hw|now apply IH].
Qed.
Lemma tx_init version uuid now uri t hdict : Forall (fun h => scalar_text (fst h) /\ scalar_text (snd h)) hdict ->
  scalar_text uuid -> scalar_text now -> match uri with Some u => scalar_text u | None => True end -> scalar_text t ->
  txs (init_warc_headers version uuid now uri t hdict).
Proof.
  intros H Hu Hn Huri Ht. unfold init_warc_headers.
  set (h0 := replace_header_ (lit "WARC-Type") _ _). assert (A : txs h0) by (apply tx_replace; [exact H|now apply tx_lit|exact Ht]).
  clearbody h0. set (h1 := if truthy (get_header (lit "WARC-Record-ID") h0) then h0 else _).
  assert (B : txs h1).
  { unfold h1. destruct (truthy _); [exact A|]. apply tx_add; [exact A|now apply tx_lit|]. unfold make_warc_id. apply tx_app; [now apply tx_lit|apply tx_app; [exact Hu|now apply tx_lit]]. }
  clearbody h1. set (h2 := match uri with Some ((_ :: _) as u) => _ | _ => h1 end).
  assert (C : txs h2) by (unfold h2; destruct uri as [[|x u]|]; try exact B; apply tx_replace; [exact B|now apply tx_lit|exact Huri]).
  clearbody h2. destruct (truthy _); [exact C|]. apply tx_add; [exact C|now apply tx_lit|exact Hn].
Qed.
Lemma tx_digest sha1 nb np pre c h : hash_bytes sha1 -> txs h -> txs (digest_headers sha1 nb np pre c h).
Proof.
  intros Hs H. unfold digest_headers, add_if.
  assert (A : txs (if np then add_header PD (sha1_str sha1 c) h else h)).
  { destruct np; [|exact H]. apply tx_add; [exact H|now apply tx_lit|]. now apply tx_value, sha1_wf. }
  destruct nb; [|exact A]. apply tx_add; [exact A|now apply tx_lit|now apply tx_value, sha1_wf].
Qed.
Lemma tx_final sha1 hb r n : hash_bytes sha1 -> wr_length r <> None -> txs (wr_headers r) ->
  match wr_ctype r with Some c => scalar_text c | None => True end ->
  w_len hb r = Some n -> 0 <= n -> txs (w_final sha1 hb r).
Proof.
  intros Hs Hw H Hc Hl Hn. unfold w_final. apply tx_replace; [|now apply tx_lit|rewrite Hl; now apply tx_value, digits_wf].
  assert (B : txs (w_base r)) by (unfold w_base; destruct (wr_length r); [exact H|contradiction]).
  unfold w_ctype. destruct (wr_ctype r); [apply tx_replace; [|now apply tx_lit|exact Hc]|]; now apply tx_digest.
Qed.
Lemma tx_bytes s : scalar_text (sh_proto s) -> scalar_text (sh_status s) -> sh_proto s <> [] -> txs s -> exists b, to_bytes None s = Ok b.
Proof.
  intros H1 H2 H3 H4. unfold to_bytes, utf8_encode. assert (forallb is_scalar (to_str None s) = true) as ->; [|eauto].
  rewrite forallb_forall. intros c Hc. rewrite to_str_lines in Hc by assumption. apply in_concat in Hc as (l & [<-|Hl] & Hc).
  - apply in_app_or in Hc as [Hc|Hc]; [|vm_compute in Hc; intuition (subst; reflexivity)].
    unfold status_text in Hc. destruct (sh_status s); [auto|]. apply in_app_or in Hc as [Hc|[<-|Hc]]; [auto|reflexivity|auto].
  - apply in_map_iff in Hl as (x & <- & Hx). unfold txs in H4. rewrite Forall_forall in H4. destruct (H4 x Hx) as [A B]. unfold field_line in Hc.
    apply in_app_or in Hc as [Hc|Hc]; [auto|]. apply in_app_or in Hc as [Hc|Hc]; [vm_compute in Hc; intuition (subst; reflexivity)|].
    apply in_app_or in Hc as [Hc|Hc]; [auto|vm_compute in Hc; intuition (subst; reflexivity)].
Qed.

Section Pair.
  Context (fuel : nat) (sha1 : bytes -> bytes) (Hsha : hash_bytes sha1) (k : kenv).

  Definition http_parser (ty : str) : parser := mk_parser (if leqb ty (lit "request") then HTTP_VERBS else HTTP_TYPES) true.

  (** what create_record gives *)
  Record made (version id now url ty : str) (hdict : list header) (data : bytes) (hb : bytes) (r : wrec) : Prop := {
    md_type : wr_type r = Some ty;
    md_ctype : wr_ctype r = Some (c_ctype [] ty (init_warc_headers version id now (Some url) ty hdict));
    md_block : http_block None (wr_http r) hb;
    md_bool : osah_bool (wr_http r) = true;
    md_data : hb ++ ps_rest (wr_stream r) = data;
    md_ok : ps_ok (wr_stream r);
    md_fuel : (List.length (ps_rest (wr_stream r)) < fuel)%nat;
    md_len : wr_length r = Some (lenZ (ps_rest (wr_stream r)));
    md_plen : wr_plen r = Some (lenZ (ps_rest (wr_stream r)));
    md_headers : wr_headers r = digest_headers sha1 false (c_np ty (init_warc_headers version id now (Some url) ty hdict)) [] (ps_rest (wr_stream r))
                                  (init_warc_headers version id now (Some url) ty hdict)
  }.

  Lemma create_made f version id now url ty hdict data :
    is_http_record (Some ty) = true -> is_http_uri url = true -> message (http_parser ty) data -> (List.length data + 3 <= fuel)%nat ->
    exists hb r, create_warc_record fuel sha1 version id now f (Some url) ty (Some (bytesio data)) (Some (lenZ data)) [] hdict None None = Ok r
      /\ made version id now url ty hdict data hb r.
  Proof.
    intros Hty Huri (h & payload & Hwf & Hsb & Hasc & Ed) Hf.
    assert (Hne : sh_proto h <> []) by apply Hwf.
    set (h' := mk_sah (sh_status h) (sh_headers h) (sh_proto h) (lenZ (to_str None h) + 2) None).
    assert (Hb' : sah_bool h' = true). { unfold sah_bool, h'. cbn. destruct Hsb as [X|X]; [destruct (sh_status h)|destruct (sh_headers h)]; try contradiction; cbn; rewrite ?orb_true_r; reflexivity. }
    destruct (block_bytes h' Hne Hasc) as (B1 & _ & BA).
    assert (Ed' : data = (concat (block_lines h') ++ crlf) ++ payload).
    { rewrite Ed. unfold record_text, block_lines, h'. cbn [sh_proto sh_status sh_headers concat]. rewrite <- !app_assoc. reflexivity. }
    assert (Elen : (List.length (sh_headers h) + 3 <= fuel)%nat).
    { assert (L : forall l : list header, (List.length l <= List.length (concat (map field_line l)))%nat).
      { induction l as [|a l IH]; [apply le_n|]. cbn [map concat]. rewrite app_length. unfold field_line at 1. rewrite !app_length. cbn [List.length]. lia. }
      specialize (L (sh_headers h)). rewrite Ed in Hf. unfold record_text in Hf. rewrite !app_length in Hf. lia. }
    assert (HR : ps_R data (bytesio data) (enc (to_str None h) ++ crlf ++ payload)).
    { split; [reflexivity|]. split; [unfold ps_in, bytesio; cbn; pose proof (lenZ_nonneg data); lia|]. rewrite ps_rest_bytesio.
      rewrite enc_ascii.
      - rewrite to_str_lines by assumption. change (block_lines h) with (block_lines h'). rewrite Ed' at 1. now rewrite <- app_assoc.
      - intros c Hc. rewrite to_str_lines in Hc by assumption. apply in_concat in Hc as (l & Hl & Hc). rewrite Forall_forall in BA. exact (BA l Hl c Hc). }
    destruct (parse_wf _ _ (ps_reads_lines data) fuel (http_parser ty) h (bytesio data) payload Hwf HR Elen) as (s' & EP & HR').
    fold h' in EP. destruct HR' as (Q1 & Q2 & Q3).
    assert (Hn0 : lenZ data <> 0).
    { rewrite Ed', !lenZ_app. change (lenZ crlf) with 2. pose proof (lenZ_nonneg (concat (block_lines h'))). pose proof (lenZ_nonneg payload). lia. }
    assert (EL : load_http_headers ps_ops fuel true (Some ty) (Some url) (Some (lenZ data)) (bytesio data) = (Ok (Some h'), s')).
    { unfold load_http_headers. rewrite Hty, Huri. cbn [negb]. destruct (lenZ data) eqn:E0; [congruence| |]; unfold http_parser, otype_is in *; destruct (leqb ty (lit "request")); rewrite EP; reflexivity. }
    set (c := mk_creation version id now (Some url) ty (Some (bytesio data)) (Some (lenZ data)) [] hdict None None).
    assert (Epl : py_pos s' = lenZ data - lenZ payload) by (pose proof (ps_in_len s' Q2) as L; rewrite Q3, Q1 in L; lia).
    assert (Hlp : (List.length payload <= List.length data)%nat) by (rewrite Ed', app_length; lia).
    destruct (create_fwd fuel sha1 f c (bytesio data) (Some h') s' (Some (lenZ data - py_pos s')) eq_refl) as (r & C1 & C2 & C3).
    { unfold step1. cbn [c cr_http osah_bool cr_type cr_uri cr_length]. rewrite EL. cbn [osah_bool]. now rewrite Hb'. } { exact Q2. } { rewrite Q3. lia. }
    unfold create in C1. cbn [c cr_version cr_uuid cr_now cr_uri cr_type cr_payload cr_length cr_ctype cr_hdict cr_whdrs cr_http] in C1.
    exists (concat (block_lines h') ++ crlf), r. split; [exact C1|].
    destruct (fun H => create_ok fuel sha1 _ _ _ _ _ _ _ _ _ _ _ _ r H C1) as (http' & p' & len' & Hst & T1 & T2 & T3 & T4 & T5 & T6 & T7 & T8 & T9).
    { split; [unfold ps_in, bytesio; cbn; pose proof (lenZ_nonneg data); lia|]. now rewrite ps_rest_bytesio. }
    cbn [osah_bool] in Hst. destruct Hst as [Hst El]. rewrite EL in Hst. injection Hst as <- <-. cbn [osah_bool] in El. rewrite Hb' in El. subst len'.
    unfold c_headers in *. cbn [osah_bool] in *. rewrite Q3 in *.
    constructor; try assumption; rewrite ?C3, ?T2; try reflexivity.
    - cbn [http_block]. rewrite Hb', B1. reflexivity.
    - exact Hb'.
    - now rewrite <- Ed'.
    - lia.
    - rewrite T4. f_equal. lia.
    - rewrite T8. destruct (_ && _); f_equal; lia.
    - exact T7.
  Qed.

  (** writing one *)
  Lemma write_made version hb r : ps_ok (wr_stream r) -> (List.length (ps_rest (wr_stream r)) < fuel)%nat ->
    http_block None (wr_http r) hb -> osah_bool (wr_http r) = true -> w_only r = false ->
    wr_length r = Some (lenZ (ps_rest (wr_stream r))) -> wr_plen r = Some (lenZ (ps_rest (wr_stream r))) ->
    sh_status (wr_headers r) = [] -> sh_proto (wr_headers r) = version -> version <> [] -> scalar_text version ->
    txs (wr_headers r) -> match wr_ctype r with Some c => scalar_text c | None => True end ->
    exists ws r', write_plain fuel sha1 None r = (Ok tt, ws, r') /\ wr_headers r' = w_final sha1 hb r
      /\ is_record version (sh_headers (wr_headers r')) (hb ++ ps_rest (wr_stream r)) (concat ws).
  Proof.
    intros H1 H2 H3 Hb H4 H5 H6 H7 H8 H9 H10 H11 H12.
    pose proof (write_plain_fwd fuel sha1 None r hb H1 H2 H3) as F.
    assert (Hp : sh_proto (w_final sha1 hb r) = version /\ sh_status (w_final sha1 hb r) = []).
    { unfold w_final, w_ctype, w_base. rewrite H5. destruct (wr_ctype r); rewrite ?(proj1 (proto_replace _ _ _)), ?(proj2 (proto_replace _ _ _)),
        ?(proj1 (dh_proto _ _ _ _ _ _)), ?(proj2 (dh_proto _ _ _ _ _ _)); auto. }
    destruct Hp as [Hp Hs].
    assert (Hl : w_len hb r = Some (lenZ hb + lenZ (ps_rest (wr_stream r)))).
    { unfold w_len, w_plen. rewrite Hb, H4, H6. pose proof (lenZ_nonneg (ps_rest (wr_stream r))).
      assert (E : (if w_temp r then Some (lenZ (ps_rest (wr_stream r))) else Some (lenZ (ps_rest (wr_stream r)))) = Some (lenZ (ps_rest (wr_stream r)))) by now destruct (w_temp r).
      rewrite E. cbn [opt_plen andb]. destruct (0 <=? lenZ (ps_rest (wr_stream r))) eqn:E0; [reflexivity|lia]. }
    destruct (tx_bytes (w_final sha1 hb r)) as [b Eb].
    { now rewrite Hp. } { rewrite Hs. intros c []. } { now rewrite Hp. }
    { eapply tx_final; try eassumption; [congruence|]. pose proof (lenZ_nonneg hb). pose proof (lenZ_nonneg (ps_rest (wr_stream r))). lia. }
    rewrite Eb in F. destruct F as (ws & r' & E & Eh & Ec & _). exists ws, r'. split; [exact E|]. split; [exact Eh|]. rewrite Eh. rewrite H4 in Ec.
    rewrite <- Hp at 1. apply is_record_ok with (head := b); [exact Hs|now rewrite Hp|exact Eb|]. rewrite Ec, <- app_assoc. reflexivity.
  Qed.

  (** the headers recorders keep *)
  Definition kept (hdict : list header) : Prop :=
    Forall (fun h => (fst h = lit "WARC-IP-Address" \/ fst h = lit "WARC-Proxy-Host") /\ scalar_text (snd h)) hdict.
  Lemma kept_texts hdict : kept hdict -> Forall (fun h => scalar_text (fst h) /\ scalar_text (snd h)) hdict.
  Proof. unfold kept. intros H. eapply Forall_impl; [|exact H]. intros [n v] [[E|E] Hv]; cbn [fst snd] in *; subst n; (split; [now apply tx_lit|exact Hv]). Qed.
  Lemma kept_other hdict n : kept hdict -> name_eq (lit "WARC-IP-Address") n = false -> name_eq (lit "WARC-Proxy-Host") n = false -> occurs n hdict = 0%nat.
  Proof.
    intros H N1 N2. induction H as [|[m v] t [[E|E] _] _ IH]; [reflexivity|..]; cbn [fst] in E; subst m; rewrite occurs_cons, ?N1, ?N2; exact IH.
  Qed.

  Lemma pair_made o id1 now1 id2 now2 url hdict req resp :
    wo_filter o = None -> wo_version o <> [] -> scalar_text (wo_version o) -> is_http_uri url = true -> scalar_text url -> kept hdict ->
    scalar_text id1 -> scalar_text now1 -> scalar_text id2 -> scalar_text now2 ->
    message (mk_parser HTTP_VERBS true) req -> message (mk_parser HTTP_TYPES true) resp ->
    (List.length req + 3 <= fuel)%nat -> (List.length resp + 3 <= fuel)%nat ->
    exists rq rs ws hs1 hs2,
      create_warc_record fuel sha1 (wo_version o) id1 now1 (wo_filter o) (Some url) (lit "request") (Some (bytesio req)) (Some (lenZ req)) [] hdict None None = Ok rq
      /\ create_warc_record fuel sha1 (wo_version o) id2 now2 (wo_filter o) (Some url) (lit "response") (Some (bytesio resp)) (Some (lenZ resp)) [] hdict None None = Ok rs
      /\ write_pair fuel sha1 k o rq rs = (Ok tt, ws)
      /\ two_records k o hs1 hs2 resp req (concat ws)
      /\ value_of (lit "WARC-Type") hs1 = Some (lit "response") /\ value_of (lit "WARC-Type") hs2 = Some (lit "request")
      /\ value_of (lit "WARC-Target-URI") hs1 = Some url /\ value_of (lit "WARC-Target-URI") hs2 = Some url
      /\ value_of (lit "WARC-Date") hs1 = Some now2 /\ value_of (lit "WARC-Date") hs2 = Some now2
      /\ value_of (lit "WARC-Record-ID") hs1 = Some (make_warc_id id2) /\ value_of (lit "WARC-Concurrent-To") hs2 = Some (make_warc_id id2)
      /\ value_of (lit "WARC-Record-ID") hs2 = Some (make_warc_id id1)
      /\ forall n, n = lit "WARC-IP-Address" \/ n = lit "WARC-Proxy-Host" -> value_of n hs1 = hget n hdict /\ value_of n hs2 = hget n hdict.
  Proof.
    intros Hf Hv Hvt Hu Hut Hk T1 T2 T3 T4 M1 M2 F1 F2. rewrite Hf.
    destruct (create_made None (wo_version o) id1 now1 url (lit "request") hdict req eq_refl Hu M1 F1) as (hb2 & rq & C1 & D1).
    destruct (create_made None (wo_version o) id2 now2 url (lit "response") hdict resp eq_refl Hu M2 F2) as (hb1 & rs & C2 & D2).
    destruct D1 as [q1 q2 q3 q4 q5 q6 q7 q8 q9 q10]. destruct D2 as [p1 p2 p3 p4 p5 p6 p7 p8 p9 p10].
    assert (Hne : url <> []) by (intros ->; discriminate).
    assert (K0 : forall n, name_eq (lit "WARC-IP-Address") n = false -> name_eq (lit "WARC-Proxy-Host") n = false -> occurs n hdict = 0%nat) by (intros; now apply kept_other).
    (* facts about the initial headers *)
    assert (I : forall id now ty, scalar_text id -> scalar_text now -> scalar_text ty -> let h := init_warc_headers (wo_version o) id now (Some url) ty hdict in
      txs h /\ sh_proto h = wo_version o /\ sh_status h = []
      /\ get_header (lit "WARC-Target-URI") h = Some url /\ get_header (lit "WARC-Type") h = Some ty
      /\ get_header (lit "WARC-Date") h = Some now /\ get_header (lit "WARC-Record-ID") h = Some (make_warc_id id)
      /\ (occurs (lit "WARC-Target-URI") (sh_headers h) <= 1)%nat /\ (occurs (lit "WARC-Date") (sh_headers h) <= 1)%nat
      /\ forall n, special n = false -> occurs n (sh_headers h) = occurs n hdict /\ get_header n h = hget n hdict).
    { intros id now ty X1 X2 X3. cbv zeta. split; [apply tx_init; auto; now apply kept_texts|]. split; [apply init_proto|]. split; [apply init_proto|].
      split; [apply init_uri; [rewrite K0 by reflexivity; lia|exact Hne]|]. split; [apply init_type; rewrite K0 by reflexivity; lia|].
      unfold init_warc_headers. set (h0 := replace_header_ (lit "WARC-Type") ty (sah_new [] hdict (wo_version o))).
      assert (G0 : forall n, name_eq (lit "WARC-Type") n = false -> name_eq (lit "WARC-IP-Address") n = false -> name_eq (lit "WARC-Proxy-Host") n = false ->
        occurs n (sh_headers h0) = 0%nat /\ get_header n h0 = None).
      { intros n N1 N2 N3. unfold h0. rewrite occurs_replace, N1, get_replace_other by assumption. split; [now apply K0|]. unfold get_header, sah_new. cbn [sh_headers]. apply hget_None_occurs. now apply K0. }
      destruct (G0 (lit "WARC-Record-ID")) as [G1 G2]; try reflexivity. rewrite G2. cbn [truthy].
      set (h1 := add_header (lit "WARC-Record-ID") (make_warc_id id) h0).
      destruct url as [|u0 ut] eqn:Eu; [contradiction|]. rewrite <- Eu in *.
      set (h2 := replace_header_ (lit "WARC-Target-URI") url h1).
      assert (G3 : occurs (lit "WARC-Date") (sh_headers h2) = 0%nat).
      { unfold h2, h1. rewrite occurs_replace, occurs_add. cbn [name_eq]. now rewrite (proj1 (G0 (lit "WARC-Date") eq_refl eq_refl eq_refl)). }
      assert (G4 : get_header (lit "WARC-Date") h2 = None) by (now apply hget_None_occurs).
      rewrite G4. cbn [truthy]. split; [now apply get_add_same|]. split.
      { rewrite get_add_other by reflexivity. unfold h2. rewrite get_replace_other by reflexivity. unfold h1. now apply get_add_same. }
      split. { rewrite occurs_add. unfold h2, h1. rewrite occurs_replace, occurs_add. rewrite (proj1 (G0 (lit "WARC-Target-URI") eq_refl eq_refl eq_refl)). cbn. lia. }
      split. { rewrite occurs_add, G3. cbn. lia. }
      intros n Hn. pose proof (init_keeps (wo_version o) id now (Some url) ty hdict n Hn) as X. cbv zeta in X. unfold init_warc_headers in X. fold h0 in X. rewrite G2 in X. cbn [truthy] in X. fold h1 in X.
      rewrite Eu in X. rewrite <- Eu in X. fold h2 in X. rewrite G4 in X. exact X. }
    destruct (I id1 now1 (lit "request") T1 T2) as (a1 & a2 & a3 & a4 & a5 & a6 & a7 & a8 & a9 & a10); [now apply tx_lit|].
    destruct (I id2 now2 (lit "response") T3 T4) as (b1 & b2 & b3 & b4 & b5 & b6 & b7 & b8 & b9 & b10); [now apply tx_lit|]. clear I.
    set (ih1 := init_warc_headers (wo_version o) id1 now1 (Some url) (lit "request") hdict) in *.
    set (ih2 := init_warc_headers (wo_version o) id2 now2 (Some url) (lit "response") hdict) in *. clearbody ih1 ih2.
    assert (CT1 : scalar_text (c_ctype [] (lit "request") ih1)).
    { unfold c_ctype. cbn [is_nil]. destruct (get_header CT ih1) as [[|y t]|] eqn:E; [apply tx_value, default_ctype_wf|exact (tx_get _ _ _ a1 E)|apply tx_value, default_ctype_wf]. }
    assert (CT2 : scalar_text (c_ctype [] (lit "response") ih2)).
    { unfold c_ctype. cbn [is_nil]. destruct (get_header CT ih2) as [[|y t]|] eqn:E; [apply tx_value, default_ctype_wf|exact (tx_get _ _ _ b1 E)|apply tx_value, default_ctype_wf]. }
    assert (Gp : forall n, name_eq BD n = false -> name_eq PD n = false -> get_header n (wr_headers rs) = get_header n ih2) by (intros; rewrite p10; now apply dh_get).
    assert (Gq : forall n, name_eq BD n = false -> name_eq PD n = false -> get_header n (wr_headers rq) = get_header n ih1) by (intros; rewrite q10; now apply dh_get).
    destruct (write_made (wo_version o) hb1 rs) as (ws1 & r1 & W1 & Eh1 & R1); try assumption.
    { unfold w_only. now rewrite p1. } { rewrite p10, (proj2 (dh_proto _ _ _ _ _ _)). exact b3. } { rewrite p10, (proj1 (dh_proto _ _ _ _ _ _)). exact b2. }
    { rewrite p10. now apply tx_digest. } { now rewrite p2. }
    (* the request *)
    set (h1 := replace_header_ (lit "WARC-Target-URI") url (wr_headers rq)). set (h2 := replace_header_ (lit "WARC-Date") now2 h1).
    set (h3 := add_header (lit "WARC-Concurrent-To") (make_warc_id id2) h2).
    assert (Tid : scalar_text (make_warc_id id2)) by (unfold make_warc_id; apply tx_app; [now apply tx_lit|apply tx_app; [exact T3|now apply tx_lit]]).
    assert (EL : link_request rq rs = Some (w_set_headers h3 rq)).
    { unfold link_request. rewrite !Gp by reflexivity. rewrite b4, b6, b7. reflexivity. }
    assert (X3 : txs h3).
    { unfold h3, h2, h1. apply tx_add; [apply tx_replace; [apply tx_replace|..]|..]; try assumption; try now apply tx_lit. rewrite q10. now apply tx_digest. }
    assert (P3 : sh_proto h3 = wo_version o /\ sh_status h3 = []).
    { unfold h3, add_header. cbn [set_headers sh_proto sh_status]. unfold h2, h1. rewrite !(proj1 (proto_replace _ _ _)), !(proj2 (proto_replace _ _ _)), q10, (proj1 (dh_proto _ _ _ _ _ _)), (proj2 (dh_proto _ _ _ _ _ _)). now split. }
    destruct P3 as [P3 S3].
    destruct (write_made (wo_version o) hb2 (w_set_headers h3 rq)) as (ws2 & r2 & W2 & Eh2 & R2); try assumption.
    { unfold w_only. cbn. now rewrite q1. } { cbn. now rewrite q2. }
    cbn [w_set_headers wr_stream] in R2. rewrite q5 in R2. rewrite p5 in R1.
    exists rq, rs. eexists. exists (sh_headers (wr_headers r1)), (sh_headers (wr_headers r2)). split; [exact C1|]. split; [exact C2|]. split.
    { unfold write_pair, write_record. rewrite Hf, W1, EL, W2. reflexivity. }
    split.
    { exists ws1, ws2. split; [exact R1|]. split; [exact R2|]. destruct (wo_gzip o); rewrite concat_app, ?gz_writes_deflated; reflexivity. }
    rewrite !value_of_hget, Eh1, Eh2.
    assert (G1 : forall n, name_eq BD n = false -> name_eq PD n = false -> name_eq CT n = false -> name_eq CL n = false ->
       hget n (sh_headers (w_final sha1 hb1 rs)) = get_header n ih2).
    { intros n A B C D. etransitivity; [apply (w_final_get sha1 n hb1 rs A B C D)|now apply Gp]. }
    assert (G2 : forall n, name_eq BD n = false -> name_eq PD n = false -> name_eq CT n = false -> name_eq CL n = false ->
       hget n (sh_headers (w_final sha1 hb2 (w_set_headers h3 rq))) = get_header n h3).
    { intros n A B C D. etransitivity; [apply (w_final_get sha1 n hb2 (w_set_headers h3 rq) A B C D)|reflexivity]. }
    assert (K3 : forall n, name_eq (lit "WARC-Concurrent-To") n = false -> get_header n h3 = get_header n h2) by (intros n A; unfold h3; now rewrite get_add_other).
    assert (K2 : forall n, name_eq (lit "WARC-Concurrent-To") n = false -> name_eq (lit "WARC-Date") n = false -> name_eq (lit "WARC-Target-URI") n = false ->
       name_eq BD n = false -> name_eq PD n = false -> get_header n h3 = get_header n ih1).
    { intros n A B C D E. rewrite K3 by assumption. unfold h2, h1. rewrite !get_replace_other by assumption. now apply Gq. }
    assert (OQ : forall n, name_eq PD n = false -> name_eq BD n = false -> occurs n (sh_headers (wr_headers rq)) = occurs n (sh_headers ih1)).
    { intros n A B. rewrite q10, dh_occurs, A, B, !andb_false_r. lia. }
    assert (U2 : get_header (lit "WARC-Target-URI") h2 = Some url).
    { unfold h2. rewrite get_replace_other by reflexivity. apply get_replace_same. now rewrite OQ by reflexivity. }
    assert (D2 : get_header (lit "WARC-Date") h2 = Some now2).
    { unfold h2. apply get_replace_same. unfold h1. rewrite occurs_replace, OQ by reflexivity. exact a9. }
    rewrite !G1, !G2 by reflexivity. split; [exact b5|]. split; [rewrite K2 by reflexivity; exact a5|]. split; [exact b4|]. split; [rewrite K3 by reflexivity; exact U2|].
    split; [exact b6|]. split; [rewrite K3 by reflexivity; exact D2|]. split; [exact b7|]. split.
    { unfold h3. apply get_add_same. apply hget_None_occurs. unfold h2, h1. rewrite !occurs_replace, OQ by reflexivity.
      destruct (a10 (lit "WARC-Concurrent-To") eq_refl) as [Z _]. rewrite Z. now apply K0. }
    split; [rewrite K2 by reflexivity; exact a7|].
    intros n Hn. rewrite !value_of_hget.
    destruct Hn as [-> | ->]; (rewrite G1, G2, K2 by reflexivity; split; [now apply b10|now apply a10]).
  Qed.
End Pair.
