(** * Thm_Build: proofs of the theorems restated in Props_Build.v *)
From Coq Require Import String List ZArith NArith Bool Lia.
From Coq Require Import ZifyBool ZifyNat ZifyN.
From Verif Require Import PyBase Utf8 Codecs Headers HeaderSpec Streams Loader Writer WriterSpec BuildSpec Toy.
Import ListNotations.
Open Scope Z_scope.

From Verif Require Import Facts HeaderProofs SimProofs WriterProofs Thm_Writer.

Lemma replace_new name v s : occurs name (sh_headers s) = 0%nat ->
  replace_header_ name v s = set_headers s (sh_headers s ++ [(name, v)]).
Proof.
  intros H. destruct (replace_cases name v s) as [(pre & k & w & post & E & Hk & Hp & _)|[_ ->]]; [|reflexivity].
  rewrite E, occurs_app, occurs_cons, Hk in H. lia.
Qed.
Lemma remove_new name s : occurs name (sh_headers s) = 0%nat -> remove_header_ name s = s.
Proof.
  intros H. destruct (remove_cases name s) as [(pre & k & w & post & E & Hk & Hp & _)|[_ ->]]; [|reflexivity].
  rewrite E, occurs_app, occurs_cons, Hk in H. lia.
Qed.
Lemma remove_last name v s W : sh_headers s = W ++ [(name, v)] -> sh_headers (remove_header_ name s) = W.
Proof.
  intros H. destruct (remove_cases name s) as [(pre & k & w & post & E & Hk & Hp & ->)|[H0 _]].
  - cbn [set_headers sh_headers]. rewrite H in E.
    destruct post as [|z post] using rev_ind; [|clear IHpost].
    + apply app_inj_tail in E as [-> _]. apply app_nil_r.
    + rewrite app_comm_cons, app_assoc in E. apply app_inj_tail in E as [E <-]. rewrite occurs_app, occurs_cons in Hp.
      unfold name_eq in Hp at 1. rewrite leqb_refl in Hp. lia.
  - rewrite H, occurs_app, occurs_cons in H0. unfold name_eq in H0 at 1. rewrite leqb_refl in H0. lia.
Qed.
Lemma get_absent n s : occurs n (sh_headers s) = 0%nat -> get_header n s = None.
Proof. intros H. unfold get_header. now apply hget_None_occurs. Qed.

Lemma init_layout version uuid now uri t hdict :
  (forall n, In n own_names -> occurs n hdict = 0%nat) ->
  sh_headers (init_warc_headers version uuid now uri t hdict) =
  hdict ++ [(lit "WARC-Type", t); (lit "WARC-Record-ID", urn_id uuid)]
        ++ unless_empty (lit "WARC-Target-URI") (uri_text uri) ++ [(lit "WARC-Date", now)].
Proof.
  intros H. unfold init_warc_headers. rewrite replace_new by (apply H; cbn; auto 10). cbn [set_headers sh_headers sah_new].
  set (h1 := set_headers _ _). assert (E1 : sh_headers h1 = hdict ++ [(lit "WARC-Type", t)]) by reflexivity. clearbody h1.
  rewrite (get_absent (lit "WARC-Record-ID") h1).
  2:{ rewrite E1, occurs_app, (H (lit "WARC-Record-ID")) by (cbn; auto 10). reflexivity. }
  cbn [truthy]. set (h2 := add_header _ _ h1).
  assert (E2 : sh_headers h2 = hdict ++ [(lit "WARC-Type", t); (lit "WARC-Record-ID", urn_id uuid)]).
  { unfold h2, add_header. cbn [set_headers sh_headers]. rewrite E1, <- app_assoc. reflexivity. }
  clearbody h2. clear E1.
  set (h3 := match uri with Some ((_ :: _) as u) => _ | _ => h2 end).
  assert (E3 : sh_headers h3 = hdict ++ [(lit "WARC-Type", t); (lit "WARC-Record-ID", urn_id uuid)] ++ unless_empty (lit "WARC-Target-URI") (uri_text uri)).
  { unfold h3. destruct uri as [[|x u]|]; cbn [uri_text unless_empty]; try (rewrite app_nil_r; exact E2).
    rewrite replace_new; [cbn [set_headers sh_headers]; rewrite E2, <- app_assoc; reflexivity|].
    rewrite E2, occurs_app, (H (lit "WARC-Target-URI")) by (cbn; auto 10). reflexivity. }
  clearbody h3. clear E2.
  rewrite (get_absent (lit "WARC-Date") h3).
  2:{ rewrite E3, !occurs_app, (H (lit "WARC-Date")) by (cbn; auto 10). destruct (uri_text uri); reflexivity. }
  cbn [truthy]. unfold add_header. cbn [set_headers sh_headers]. rewrite E3, <- !app_assoc. reflexivity.
Qed.

Definition pdl (sha1 : bytes -> bytes) (t : str) (payload : bytes) : list header :=
  if no_payload_digest (Some t) then [] else [(PD, sha1_text sha1 payload)].

Lemma pd_occurs sha1 t p n : name_eq PD n = false -> occurs n (pdl sha1 t p) = 0%nat.
Proof. intros H. unfold pdl. destruct (no_payload_digest _); [reflexivity|]. rewrite occurs_cons, H. reflexivity. Qed.

Lemma layout sha1 hb r W t c :
  wr_type r = Some t -> wr_ctype r = Some c ->
  (forall n, In n [BD; PD; CT; CL] -> occurs n W = 0%nat) ->
  sh_headers (wr_headers r) = W ++ pdl sha1 t (ps_rest (wr_stream r)) ->
  sh_headers (w_final sha1 hb r) =
  W ++ pdl sha1 t (ps_rest (wr_stream r)) ++ [(BD, sha1_text sha1 (hb ++ ps_rest (wr_stream r))); (CT, c); (CL, len_str (w_len hb r))].
Proof.
  intros Ht Hc HW HH. set (p := ps_rest (wr_stream r)) in *.
  assert (W1 : occurs BD W = 0%nat) by (apply HW; cbn; auto). assert (W2 : occurs PD W = 0%nat) by (apply HW; cbn; auto).
  assert (W3 : occurs CT W = 0%nat) by (apply HW; cbn; auto 6). assert (W4 : occurs CL W = 0%nat) by (apply HW; cbn; auto 6).
  assert (D : sh_headers (digest_headers sha1 (w_nb r) (w_np r) hb p (w_base r)) = W ++ pdl sha1 t p ++ [(BD, sha1_text sha1 (hb ++ p))]).
  { assert (X : exists q, sh_headers (w_base r) = W ++ q /\ (q = pdl sha1 t p \/ q = [])).
    { unfold w_base. destruct (wr_length r) as [z|]; [exists (pdl sha1 t p); split; [exact HH|now left]|].
      exists []. split; [|now right]. rewrite app_nil_r. unfold strip_for_unknown. cbn [w_set_headers wr_headers].
      assert (R1 : remove_header_ (lit "WARC-Block-Digest") (wr_headers r) = wr_headers r).
      { apply remove_new. rewrite HH, occurs_app, pd_occurs by reflexivity. change (lit "WARC-Block-Digest") with BD. lia. }
      rewrite R1. rewrite Ht.
      assert (R2 : sh_headers (if otype_is (Some t) "revisit" then wr_headers r else remove_header_ (lit "WARC-Payload-Digest") (wr_headers r)) = W).
      { unfold otype_is. unfold pdl, no_payload_digest in HH. destruct (leqb t (lit "revisit")) eqn:Er.
        - rewrite HH, orb_true_r. apply app_nil_r.
        - rewrite orb_false_r in HH. destruct (leqb t (lit "warcinfo")).
          + rewrite app_nil_r in HH. rewrite remove_new; [exact HH|]. rewrite HH. exact W2.
          + eapply remove_last. exact HH. }
      rewrite remove_new; [exact R2|]. rewrite R2. exact W3. }
    destruct X as (q & Eq & Hq). unfold digest_headers, w_nb, w_np, need. rewrite Ht.
    assert (NB : get_header BD (w_base r) = None).
    { apply get_absent. rewrite Eq, occurs_app, W1. destruct Hq as [-> | ->]; [now apply pd_occurs|reflexivity]. }
    rewrite NB. cbn [truthy negb add_if]. unfold add_header. cbn [set_headers sh_headers].
    rewrite app_assoc. change (sha1_str sha1 (hb ++ p)) with (sha1_text sha1 (hb ++ p)). f_equal.
    unfold pdl in Hq |- *. destruct (no_payload_digest (Some t)) eqn:En; cbn [negb].
    - rewrite andb_false_r. cbn [add_if]. rewrite Eq. f_equal. now destruct Hq.
    - rewrite andb_true_r. destruct Hq as [-> | ->].
      + replace (get_header PD (w_base r)) with (Some (sha1_text sha1 p)); [exact Eq|].
        unfold get_header. rewrite Eq, hget_app_None by exact W2. reflexivity.
      + rewrite app_nil_r in Eq. rewrite get_absent by (rewrite Eq; exact W2). cbn [truthy negb add_if]. unfold add_header. cbn [set_headers sh_headers]. now rewrite Eq. }
  unfold w_final, w_ctype. rewrite Hc. set (d := digest_headers _ _ _ _ _ _) in *. clearbody d.
  rewrite (replace_new CT c d).
  2:{ rewrite D, !occurs_app, W3, pd_occurs by reflexivity. reflexivity. }
  rewrite replace_new; cbn [set_headers sh_headers]; rewrite D.
  - rewrite <- !app_assoc. reflexivity.
  - rewrite !occurs_app, W4, pd_occurs by reflexivity. reflexivity.
Qed.

Lemma default_media t : media_type t (default_ctype t).
Proof.
  unfold default_ctype, media_type, media_types.
  destruct (leqb t (lit "warcinfo")) eqn:E1; [apply leqb_eq in E1; subst; left; cbn; auto|].
  destruct (leqb t (lit "response")) eqn:E2; [apply leqb_eq in E2; subst; left; cbn; auto 6|].
  destruct (leqb t (lit "revisit")) eqn:E3; [apply leqb_eq in E3; subst; left; cbn; auto 7|].
  destruct (leqb t (lit "request")) eqn:E4; [apply leqb_eq in E4; subst; left; cbn; auto 6|].
  destruct (leqb t (lit "metadata")) eqn:E5; [apply leqb_eq in E5; subst; left; cbn; auto 6|].
  right. split; [|reflexivity]. intros ct' H.
  assert (X : forall s, leqb t s = false -> t <> s) by (intros s H1 H2; subst; now rewrite leqb_refl in H1).
  cbn [In] in H. decompose [or] H; try contradiction; match goal with K : (_, _) = (t, ct') |- _ => injection K as K _; symmetry in K; revert K; now apply X end.
Qed.

(** examples: a stream with short reads that cannot be rewound; create and write *)
Definition bex_short : pstream := mk_ps (lit "hello world") 0 [3; 1; 2] false.
Definition bex_out (c : creation) : option bytes :=
  match create 200 toy_hash None c with
  | Ok r => match write_plain 200 toy_hash None r with
            | (Ok _, ws, _) => Some (concat ws)
            | _ => None
            end
  | Err _ => None
  end.

Lemma C94_layout_pf :
  forall fuel sha1 f f' c r ws r',
  (List.length (cr_bytes c) + 3 <= fuel)%nat -> length_right c -> cr_whdrs c = None -> cr_version c <> [] ->
  (forall n, In n own_names -> occurs n (cr_hdict c) = 0%nat) ->
  create fuel sha1 f c = Ok r -> http_real c r -> revisit_plain c r ->
  write_plain fuel sha1 f' r = (Ok tt, ws, r') ->
  exists payload hb ct block digests,
    payload_of c (wr_http r) payload /\ http_block f' (wr_http r) hb
    /\ (cr_type c = lit "revisit" -> block = hb) /\ (cr_type c <> lit "revisit" -> block = hb ++ payload)
    /\ (cr_ctype c <> [] -> ct = cr_ctype c) /\ (cr_ctype c = [] -> media_type (cr_type c) ct)
    /\ (without_payload (cr_type c) -> digests = [])
    /\ (~ without_payload (cr_type c) -> digests = [(lit "WARC-Payload-Digest", sha1_text sha1 payload)])
    /\ is_record (cr_version c)
         (cr_hdict c
            ++ [(lit "WARC-Type", cr_type c); (lit "WARC-Record-ID", urn_id (cr_uuid c))]
            ++ unless_empty (lit "WARC-Target-URI") (uri_text (cr_uri c))
            ++ [(lit "WARC-Date", cr_now c)]
            ++ digests
            ++ [(lit "WARC-Block-Digest", sha1_text sha1 (hb ++ payload)); (lit "Content-Type", ct);
                (lit "Content-Length", str_of_Z (lenZ block))])
         block (concat ws).
Proof.
intros fuel sha1 f f' c r ws r' Hf Hl Hwh Hv Hn E Hne Hrf W.
assert (Hv' : version_ok c) by (unfold version_ok; now rewrite Hwh).
destruct (create_facts fuel sha1 f c r Hf Hl E) as (Hpay & Hp & Hf' & Ht & Hc & H & HL & _).
destruct (created_version fuel sha1 f c r Hf Hl Hv' E) as [V1 V2].
destruct (is_record_written fuel sha1 f' r ws r' Hp Hf' V1 V2 W) as (hb & Hb & Hh & Hr).
assert (Ewh : cr_wh c = init_warc_headers (cr_version c) (cr_uuid c) (cr_now c) (cr_uri c) (cr_type c) (cr_hdict c)).
{ unfold cr_wh, c_headers. now rewrite Hwh. }
assert (Evers : sh_proto (wr_headers r) = cr_version c).
{ rewrite H, (proj1 (dh_proto _ _ _ _ _ _)), Ewh. apply init_proto. }
set (WW := cr_hdict c ++ [(lit "WARC-Type", cr_type c); (lit "WARC-Record-ID", urn_id (cr_uuid c))]
        ++ unless_empty (lit "WARC-Target-URI") (uri_text (cr_uri c)) ++ [(lit "WARC-Date", cr_now c)]).
assert (EW : sh_headers (cr_wh c) = WW) by (rewrite Ewh; now apply init_layout).
assert (HW : forall n, In n [BD; PD; CT; CL] -> occurs n WW = 0%nat).
{ intros n Hin. unfold WW. rewrite !occurs_app. rewrite Hn by (cbn [In] in Hin; decompose [or] Hin; subst; try contradiction; cbn; auto 10).
  cbn [In] in Hin; decompose [or] Hin; subst; try contradiction; destruct (uri_text (cr_uri c)); reflexivity. }
set (p := ps_rest (wr_stream r)) in *.
assert (HH : sh_headers (wr_headers r) = WW ++ pdl sha1 (cr_type c) p).
{ rewrite H. unfold digest_headers, c_np, need. cbn [add_if]. rewrite get_absent by (rewrite EW; apply HW; cbn; auto).
  cbn [truthy negb andb]. unfold pdl. destruct (no_payload_digest (Some (cr_type c))); cbn [negb add_if].
  - now rewrite app_nil_r.
  - unfold add_header. cbn [set_headers sh_headers]. now rewrite EW. }
pose proof (layout sha1 hb r WW _ _ Ht Hc HW HH) as L.
exists p, hb, (c_ctype (cr_ctype c) (cr_type c) (cr_wh c)), (hb ++ (if w_only r then [] else p)), (pdl sha1 (cr_type c) p).
split; [exact Hpay|]. split; [exact Hb|].
split. { intros R. rewrite (proj2 (only_iff r _ Ht) R). apply app_nil_r. }
split. { intros R. destruct (w_only r) eqn:Eo; [|reflexivity]. exfalso. apply R. now apply (only_iff r _ Ht). }
split. { intros R. unfold c_ctype. destruct (cr_ctype c); [contradiction|reflexivity]. }
split. { intros R. unfold c_ctype. rewrite R. cbn [is_nil]. rewrite get_absent by (rewrite EW; apply HW; cbn; auto 6). apply default_media. }
assert (NP : no_payload_digest (Some (cr_type c)) = true <-> without_payload (cr_type c)).
{ unfold no_payload_digest, without_payload. rewrite orb_true_iff, !leqb_eq. reflexivity. }
split. { intros R. apply NP in R. unfold pdl. now rewrite R. }
split. { intros R. unfold pdl. destruct (no_payload_digest (Some (cr_type c))); [exfalso; apply R; now apply NP|reflexivity]. }
rewrite Evers, Hh, L in Hr. rewrite (w_len_ok f' r hb (HL Hne Hrf) Hb) in Hr. unfold WW in Hr. rewrite <- !app_assoc in Hr. exact Hr.
Qed.

Lemma init_id version uuid now uri t hdict : value_of (lit "WARC-Record-ID") hdict <> Some [] ->
  get_header (lit "WARC-Record-ID") (init_warc_headers version uuid now uri t hdict) = Some (given_or (lit "WARC-Record-ID") (urn_id uuid) hdict).
Proof.
  intros Hne. unfold given_or. rewrite value_of_hget in *. unfold init_warc_headers.
  set (h0 := replace_header_ (lit "WARC-Type") t (sah_new [] hdict version)).
  assert (A : get_header (lit "WARC-Record-ID") h0 = hget (lit "WARC-Record-ID") hdict) by (unfold h0; now rewrite get_replace_other by reflexivity).
  clearbody h0. set (h1 := if truthy (get_header (lit "WARC-Record-ID") h0) then h0 else _).
  assert (B : get_header (lit "WARC-Record-ID") h1 = Some (match hget (lit "WARC-Record-ID") hdict with Some v => v | None => urn_id uuid end)).
  { unfold h1. destruct (hget (lit "WARC-Record-ID") hdict) as [[|x v]|]; [contradiction| |].
    - rewrite A. cbn [truthy]. exact A.
    - rewrite A. cbn [truthy]. now apply get_add_same. }
  clearbody h1. set (h2 := match uri with Some ((_ :: _) as u) => _ | _ => h1 end).
  assert (C : get_header (lit "WARC-Record-ID") h2 = get_header (lit "WARC-Record-ID") h1).
  { unfold h2. destruct uri as [[|x u]|]; try reflexivity. now rewrite get_replace_other by reflexivity. }
  rewrite <- C in B. clearbody h2. destruct (truthy _); [exact B|]. rewrite get_add_other by reflexivity. exact B.
Qed.
Lemma init_date version uuid now uri t hdict : value_of (lit "WARC-Date") hdict <> Some [] ->
  get_header (lit "WARC-Date") (init_warc_headers version uuid now uri t hdict) = Some (given_or (lit "WARC-Date") now hdict).
Proof.
  intros Hne. unfold given_or. rewrite value_of_hget in *. unfold init_warc_headers.
  set (h0 := replace_header_ (lit "WARC-Type") t (sah_new [] hdict version)).
  assert (A : get_header (lit "WARC-Date") h0 = hget (lit "WARC-Date") hdict) by (unfold h0; now rewrite get_replace_other by reflexivity).
  clearbody h0. set (h1 := if truthy (get_header (lit "WARC-Record-ID") h0) then h0 else _).
  assert (B : get_header (lit "WARC-Date") h1 = hget (lit "WARC-Date") hdict).
  { unfold h1. destruct (truthy _); [exact A|]. now rewrite get_add_other by reflexivity. }
  clearbody h1. set (h2 := match uri with Some ((_ :: _) as u) => _ | _ => h1 end).
  assert (C : get_header (lit "WARC-Date") h2 = hget (lit "WARC-Date") hdict).
  { unfold h2. destruct uri as [[|x u]|]; try exact B. now rewrite get_replace_other by reflexivity. }
  clearbody h2. destruct (hget (lit "WARC-Date") hdict) as [[|x v]|]; [contradiction| |].
  - rewrite C. cbn [truthy]. exact C.
  - rewrite C. cbn [truthy]. now apply get_add_same.
Qed.
Lemma init_occ version uuid now uri t hdict n : In n [lit "WARC-Type"; lit "WARC-Record-ID"; lit "WARC-Date"] ->
  (occurs n hdict <= 1)%nat -> value_of (lit "WARC-Record-ID") hdict <> Some [] -> value_of (lit "WARC-Date") hdict <> Some [] ->
  occurs n (sh_headers (init_warc_headers version uuid now uri t hdict)) = 1%nat.
Proof.
  intros Hn Ho H1 H2. rewrite value_of_hget in *. unfold init_warc_headers.
  set (h0 := replace_header_ (lit "WARC-Type") t (sah_new [] hdict version)).
  assert (A1 : get_header (lit "WARC-Record-ID") h0 = hget (lit "WARC-Record-ID") hdict) by (unfold h0; now rewrite get_replace_other by reflexivity).
  assert (A2 : get_header (lit "WARC-Date") h0 = hget (lit "WARC-Date") hdict) by (unfold h0; now rewrite get_replace_other by reflexivity).
  assert (A3 : occurs n (sh_headers h0) = if name_eq (lit "WARC-Type") n then 1%nat else occurs n hdict).
  { unfold h0. rewrite occurs_replace. cbn [sah_new sh_headers]. destruct (name_eq _ n); lia. }
  clearbody h0. set (h1 := if truthy (get_header (lit "WARC-Record-ID") h0) then h0 else _).
  assert (B2 : get_header (lit "WARC-Date") h1 = hget (lit "WARC-Date") hdict).
  { unfold h1. destruct (truthy _); [exact A2|]. now rewrite get_add_other by reflexivity. }
  assert (B3 : occurs n (sh_headers h1) = if name_eq (lit "WARC-Type") n then 1%nat else if name_eq (lit "WARC-Record-ID") n then 1%nat else occurs n hdict).
  { unfold h1. rewrite A1. cbn [In] in Hn. decompose [or] Hn; try contradiction; subst n.
    - destruct (truthy (hget (lit "WARC-Record-ID") hdict)); [exact A3|]. rewrite occurs_add, A3. reflexivity.
    - destruct (hget (lit "WARC-Record-ID") hdict) as [[|x v]|] eqn:E; [contradiction| |]; cbn [truthy].
      + rewrite A3. change (name_eq (lit "WARC-Type") (lit "WARC-Record-ID")) with false. change (name_eq (lit "WARC-Record-ID") (lit "WARC-Record-ID")) with true. cbv iota.
        destruct (occurs (lit "WARC-Record-ID") hdict) as [|k] eqn:Ek; [|lia]. apply hget_None_occurs in Ek. congruence.
      + rewrite occurs_add, A3. apply hget_None_occurs in E. rewrite E. reflexivity.
    - destruct (truthy (hget (lit "WARC-Record-ID") hdict)); [exact A3|]. rewrite occurs_add, A3. change (name_eq (lit "WARC-Record-ID") (lit "WARC-Date")) with false. cbv iota. lia. }
  clearbody h1. set (h2 := match uri with Some ((_ :: _) as u) => _ | _ => h1 end).
  assert (C2 : get_header (lit "WARC-Date") h2 = hget (lit "WARC-Date") hdict).
  { unfold h2. destruct uri as [[|x u]|]; try exact B2. now rewrite get_replace_other by reflexivity. }
  assert (C3 : occurs n (sh_headers h2) = occurs n (sh_headers h1)).
  { unfold h2. destruct uri as [[|x u]|]; try reflexivity. rewrite occurs_replace. cbn [In] in Hn. decompose [or] Hn; try contradiction; subst n; reflexivity. }
  rewrite B3 in C3. clearbody h2. rewrite C2. cbn [In] in Hn. decompose [or] Hn; try contradiction; subst n.
  - destruct (truthy _); [exact C3|]. rewrite occurs_add, C3. reflexivity.
  - destruct (truthy _); [exact C3|]. rewrite occurs_add, C3. reflexivity.
  - destruct (hget (lit "WARC-Date") hdict) as [[|x v]|] eqn:E; [contradiction| |]; cbn [truthy].
    + rewrite C3. change (name_eq (lit "WARC-Type") (lit "WARC-Date")) with false. change (name_eq (lit "WARC-Record-ID") (lit "WARC-Date")) with false. cbv iota.
      destruct (occurs (lit "WARC-Date") hdict) as [|k] eqn:Ek; [|lia]. apply hget_None_occurs in Ek. congruence.
    + rewrite occurs_add, C3. apply hget_None_occurs in E. rewrite E. reflexivity.
Qed.
Lemma init_uri_none version uuid now uri t hdict : uri_text uri = [] ->
  get_header (lit "WARC-Target-URI") (init_warc_headers version uuid now uri t hdict) = hget (lit "WARC-Target-URI") hdict.
Proof.
  intros Hu. unfold init_warc_headers. set (h0 := replace_header_ (lit "WARC-Type") t (sah_new [] hdict version)).
  assert (A : get_header (lit "WARC-Target-URI") h0 = hget (lit "WARC-Target-URI") hdict) by (unfold h0; now rewrite get_replace_other by reflexivity).
  clearbody h0. set (h1 := if truthy (get_header (lit "WARC-Record-ID") h0) then h0 else _).
  assert (B : get_header (lit "WARC-Target-URI") h1 = hget (lit "WARC-Target-URI") hdict).
  { unfold h1. destruct (truthy _); [exact A|]. now rewrite get_add_other by reflexivity. }
  clearbody h1. destruct uri as [[|x u]|]; [|discriminate|]; destruct (truthy _); rewrite ?get_add_other by reflexivity; exact B.
Qed.
Lemma strip_occ n r : name_eq BD n = false -> name_eq PD n = false -> name_eq CT n = false ->
  occurs n (sh_headers (wr_headers (strip_for_unknown r))) = occurs n (sh_headers (wr_headers r)).
Proof.
  intros H1 H2 H3. unfold strip_for_unknown. cbn [w_set_headers wr_headers]. rewrite (proj2 (occurs_remove CT n _) H3).
  destruct (otype_is (wr_type r) "revisit"); [now apply occurs_remove|].
  rewrite (proj2 (occurs_remove PD n _) H2). now apply occurs_remove.
Qed.
Lemma w_final_occ sha1 n hb r : name_eq BD n = false -> name_eq PD n = false -> name_eq CT n = false -> name_eq CL n = false ->
  occurs n (sh_headers (w_final sha1 hb r)) = occurs n (sh_headers (wr_headers r)).
Proof.
  intros H1 H2 H3 H4. unfold w_final, w_ctype. rewrite occurs_replace, H4.
  assert (E : occurs n (sh_headers (w_base r)) = occurs n (sh_headers (wr_headers r))).
  { unfold w_base. destruct (wr_length r); [reflexivity|now apply strip_occ]. }
  destruct (wr_ctype r); rewrite ?occurs_replace, ?H3, dh_occurs, H1, H2, !andb_false_r; lia.
Qed.
Lemma w_final_occ1 sha1 n hb r c : In n [CT; CL] -> wr_ctype r = Some c -> (occurs n (sh_headers (wr_headers r)) <= 1)%nat ->
  occurs n (sh_headers (w_final sha1 hb r)) = 1%nat.
Proof.
  intros Hn Hc Ho. pose proof (w_base_occurs n r) as WB. unfold w_final, w_ctype. rewrite Hc, !occurs_replace, dh_occurs.
  cbn [In] in Hn. decompose [or] Hn; try contradiction; subst n.
  - change (name_eq CL CT) with false. change (name_eq CT CT) with true. change (name_eq PD CT) with false. change (name_eq BD CT) with false. rewrite !andb_false_r. cbv iota. lia.
  - change (name_eq CL CL) with true. change (name_eq CT CL) with false. change (name_eq PD CL) with false. change (name_eq BD CL) with false. rewrite !andb_false_r. cbv iota. lia.
Qed.

Lemma C94_given_pf :
  forall fuel sha1 f f' c r ws r',
  (List.length (cr_bytes c) + 3 <= fuel)%nat -> length_right c -> cr_whdrs c = None -> cr_version c <> [] ->
  (forall n, In n own_names -> (occurs n (cr_hdict c) <= 1)%nat) ->
  value_of (lit "WARC-Record-ID") (cr_hdict c) <> Some [] -> value_of (lit "WARC-Date") (cr_hdict c) <> Some [] ->
  create fuel sha1 f c = Ok r ->
  write_plain fuel sha1 f' r = (Ok tt, ws, r') ->
  let hs := sh_headers (wr_headers r') in
  exists block ct, is_record (cr_version c) hs block (concat ws)
    /\ value_of (lit "WARC-Type") hs = Some (cr_type c)
    /\ value_of (lit "WARC-Record-ID") hs = Some (given_or (lit "WARC-Record-ID") (urn_id (cr_uuid c)) (cr_hdict c))
    /\ value_of (lit "WARC-Date") hs = Some (given_or (lit "WARC-Date") (cr_now c) (cr_hdict c))
    /\ (uri_text (cr_uri c) <> [] -> value_of (lit "WARC-Target-URI") hs = Some (uri_text (cr_uri c)))
    /\ (uri_text (cr_uri c) = [] -> value_of (lit "WARC-Target-URI") hs = value_of (lit "WARC-Target-URI") (cr_hdict c))
    /\ value_of (lit "Content-Type") hs = Some ct
    /\ (cr_ctype c <> [] -> ct = cr_ctype c)
    /\ (cr_ctype c = [] -> forall x t, value_of (lit "Content-Type") (cr_hdict c) = Some (x :: t) -> ct = x :: t)
    /\ (cr_ctype c = [] -> (forall x t, value_of (lit "Content-Type") (cr_hdict c) <> Some (x :: t)) -> media_type (cr_type c) ct)
    /\ (forall n, In n [lit "WARC-Type"; lit "WARC-Record-ID"; lit "WARC-Date"; lit "Content-Type"; lit "Content-Length"] -> occurs n hs = 1%nat)
    /\ (forall n, (forall m, In m own_names -> ~ ci_eq m n) ->
          occurs n hs = occurs n (cr_hdict c) /\ value_of n hs = value_of n (cr_hdict c)).
Proof.
intros fuel sha1 f f' c r ws r' Hf Hl Hwh Hv Hn Hid Hda E W.
assert (Hv' : version_ok c) by (unfold version_ok; now rewrite Hwh).
destruct (create_facts fuel sha1 f c r Hf Hl E) as (Hpay & Hp & Hf' & Ht & Hc & H & _ & _).
destruct (created_version fuel sha1 f c r Hf Hl Hv' E) as [V1 V2].
destruct (is_record_written fuel sha1 f' r ws r' Hp Hf' V1 V2 W) as (hb & Hb & Hh & Hr).
assert (Ewh : cr_wh c = init_warc_headers (cr_version c) (cr_uuid c) (cr_now c) (cr_uri c) (cr_type c) (cr_hdict c)).
{ unfold cr_wh, c_headers. now rewrite Hwh. }
assert (Evers : sh_proto (wr_headers r) = cr_version c).
{ rewrite H, (proj1 (dh_proto _ _ _ _ _ _)), Ewh. apply init_proto. }
assert (Egh : given_headers c = cr_hdict c) by (unfold given_headers; now rewrite Hwh).
rewrite Evers in Hr. cbv zeta. eexists _, (c_ctype (cr_ctype c) (cr_type c) (cr_wh c)). split; [exact Hr|]. rewrite !value_of_hget, Hh.
assert (G : forall n, name_eq BD n = false -> name_eq PD n = false -> name_eq CT n = false -> name_eq CL n = false ->
   hget n (sh_headers (w_final sha1 hb r)) = get_header n (cr_wh c)).
{ intros n A B C D. change (get_header n (w_final sha1 hb r) = get_header n (cr_wh c)). rewrite w_final_get by assumption. rewrite H. now apply dh_get. }
assert (O : forall n, name_eq BD n = false -> name_eq PD n = false ->
   occurs n (sh_headers (wr_headers r)) = occurs n (sh_headers (cr_wh c))).
{ intros n A B. rewrite H, dh_occurs, A, B, !andb_false_r. lia. }
split. { rewrite G by reflexivity. rewrite Ewh. apply init_type. apply Hn. cbn; auto. }
split. { rewrite G by reflexivity. rewrite Ewh. now apply init_id. }
split. { rewrite G by reflexivity. rewrite Ewh. now apply init_date. }
split. { intros Hu. rewrite G by reflexivity. rewrite Ewh. destruct (cr_uri c) as [u|]; [|contradiction]. apply init_uri; [|exact Hu]. apply Hn. cbn; auto 6. }
split. { intros Hu. rewrite G by reflexivity. rewrite Ewh. now apply init_uri_none. }
assert (OC : forall n, In n [CT; CL] -> (occurs n (sh_headers (wr_headers r)) <= 1)%nat).
{ intros n Hin. assert (S0 : special n = false /\ In n own_names /\ name_eq BD n = false /\ name_eq PD n = false).
  { cbn [In] in Hin; decompose [or] Hin; try contradiction; subst n; (split; [reflexivity|]; split; [cbn; auto 10|]; split; reflexivity). }
  destruct S0 as (S1 & S2 & S3 & S4). rewrite O by assumption. rewrite (proj1 (cr_wh_keeps c n S1)), Egh. now apply Hn. }
split. { change (get_header CT (w_final sha1 hb r) = Some (c_ctype (cr_ctype c) (cr_type c) (cr_wh c))). apply w_final_CT; [exact Hc|]. apply OC. now left. }
assert (KC : get_header CT (cr_wh c) = hget CT (cr_hdict c)) by (rewrite <- Egh; now apply cr_wh_keeps).
split. { intros R. unfold c_ctype. destruct (cr_ctype c); [contradiction|reflexivity]. }
split. { intros R x t Ex. unfold c_ctype. rewrite R. cbn [is_nil]. rewrite KC. change CT with (lit "Content-Type"). rewrite Ex. reflexivity. }
split. { intros R N. unfold c_ctype. rewrite R. cbn [is_nil]. rewrite KC. destruct (hget CT (cr_hdict c)) as [[|x t]|] eqn:Ec; [apply default_media| |apply default_media].
  exfalso. apply (N x t). reflexivity. }
split.
{ intros n Hin. cbn [In] in Hin. decompose [or] Hin; try contradiction; subst n.
  1-3: rewrite w_final_occ, O, Ewh by reflexivity; apply init_occ; try assumption; [cbn; auto|apply Hn; cbn; auto 10].
  1-2: eapply w_final_occ1; [cbn; auto|exact Hc|apply OC; cbn; auto]. }
intros n Hno.
assert (Q : forall m, In m own_names -> name_eq m n = false) by (intros m Hm; apply name_eq_not; now apply Hno).
assert (S1 : special n = false).
{ unfold special. rewrite !Q by (cbn; auto 10). reflexivity. }
destruct (cr_wh_keeps c n S1) as [K1 K2]. rewrite Egh in K1, K2. split.
- rewrite w_final_occ by (apply Q; cbn; auto 10). rewrite O by (apply Q; cbn; auto 10). exact K1.
- rewrite !value_of_hget, G by (apply Q; cbn; auto 10). exact K2.
Qed.

Lemma C94_empty_id_refuted_pf :
  exists c r ws r', length_right c /\ cr_whdrs c = None
  /\ create 200 toy_hash None c = Ok r /\ write_plain 200 toy_hash None r = (Ok tt, ws, r')
  /\ occurs (lit "WARC-Record-ID") (sh_headers (wr_headers r')) = 2%nat
  /\ value_of (lit "WARC-Record-ID") (sh_headers (wr_headers r')) = Some [].
Proof.
set (c := mk_creation (lit "WARC/1.0") (lit "1234") (lit "2000-01-01T00:00:00Z") (Some (lit "dns:a")) (lit "metadata")
                  (Some (bytesio (lit "a: b"))) (Some 4) [] [(lit "WARC-Record-ID", [])] None None).
destruct (create 200 toy_hash None c) as [r|e] eqn:E; [|vm_compute in E; discriminate].
destruct (write_plain 200 toy_hash None r) as [[x ws] r'] eqn:W.
exists c, r, ws, r'. split; [split; [reflexivity|now right]|]. split; [reflexivity|]. split; [exact E|].
vm_compute in E. injection E as <-. vm_compute in W. injection W as <- <- <-. split; [reflexivity|]. vm_compute. split; reflexivity.
Qed.

Lemma content_encode info : warcinfo_content info = utf8_encode (concat (map field_line (with_value info))).
Proof.
  induction info as [|[n v] t IH]; [reflexivity|]. cbn [warcinfo_content]. rewrite IH. unfold warcinfo_line, with_value. cbn [filter fst snd].
  destruct v as [|x v].
  - destruct (utf8_encode _); reflexivity.
  - cbn [map concat]. change (n ++ lit ": " ++ (x :: v) ++ crlf) with (field_line (n, x :: v)).
    rewrite (utf8_encode_app (field_line (n, x :: v))). reflexivity.
Qed.

Lemma C95_warcinfo_pf :
  forall fuel sha1 version uuid now f f' filename info,
  version <> [] ->
  match utf8_encode (concat (map field_line (with_value info))) with
  | None => create_warcinfo_record fuel sha1 version uuid now f filename info = Err UnicodeErr
  | Some block =>
      (List.length block + 3 <= fuel)%nat ->
      exists r, create_warcinfo_record fuel sha1 version uuid now f filename info = Ok r
        /\ forall ws r', write_plain fuel sha1 f' r = (Ok tt, ws, r') ->
           is_record version
             ([(lit "WARC-Type", lit "warcinfo"); (lit "WARC-Record-ID", urn_id uuid)]
                ++ unless_empty (lit "WARC-Filename") filename
                ++ [(lit "WARC-Date", now); (lit "WARC-Block-Digest", sha1_text sha1 block);
                    (lit "Content-Type", lit "application/warc-fields");
                    (lit "Content-Length", str_of_Z (lenZ block))])
             block (concat ws)
  end.
Proof.
intros fuel sha1 version uuid now f f' filename info Hv. unfold create_warcinfo_record. cbv zeta. rewrite content_encode.
destruct (utf8_encode (concat (map field_line (with_value info)))) as [block|]; [|reflexivity]. intros Hf.
set (h := add_header (lit "WARC-Date") now _).
assert (Hh : sh_proto h = version /\ sh_status h = [] /\ sh_headers h = [(lit "WARC-Type", lit "warcinfo"); (lit "WARC-Record-ID", urn_id uuid)]
                ++ unless_empty (lit "WARC-Filename") filename ++ [(lit "WARC-Date", now)]).
{ unfold h. destruct filename as [|x t]; (split; [|split]; reflexivity). }
destruct Hh as (P1 & P2 & P3). clearbody h.
assert (Hb : sah_bool h = true).
{ unfold sah_bool. rewrite P3, P2. reflexivity. }
set (W := [(lit "WARC-Type", lit "warcinfo"); (lit "WARC-Record-ID", urn_id uuid)] ++ unless_empty (lit "WARC-Filename") filename ++ [(lit "WARC-Date", now)]) in *.
assert (HW : forall n, In n [BD; PD; CT; CL] -> occurs n W = 0%nat).
{ intros n Hin. unfold W. rewrite !occurs_app. cbn [In] in Hin; decompose [or] Hin; subst; try contradiction; destruct filename; reflexivity. }
set (c := mk_creation version uuid now (Some []) (lit "warcinfo") (Some (bytesio block)) (Some (lenZ block)) [] [] (Some h) None).
change (create_warc_record fuel sha1 version uuid now f (Some []) (lit "warcinfo") (Some (bytesio block)) (Some (lenZ block)) [] [] (Some h) None)
  with (create fuel sha1 f c).
assert (Hl : length_right c) by (split; [reflexivity|now right]).
assert (Hv' : version_ok c) by (unfold version_ok; cbn; rewrite Hb; split; [exact P2|now rewrite P1]).
assert (Ewh : cr_wh c = h) by (unfold cr_wh, c_headers; cbn; now rewrite Hb).
assert (E : exists r, create fuel sha1 f c = Ok r /\ wr_http r = None).
{ unfold create. unfold c at 1 2 3 4 5 6 7 8 9 10 11. cbn [cr_version cr_uuid cr_now cr_uri cr_type cr_payload cr_length cr_ctype cr_hdict cr_whdrs cr_http]. unfold create_warc_record. cbn [osah_bool].
  assert (EL : load_http_headers ps_ops fuel true (Some (lit "warcinfo")) (Some []) (Some (lenZ block)) (bytesio block) = (Ok None, bytesio block)).
  { unfold load_http_headers. destruct (lenZ block); reflexivity. }
  match goal with |- context [load_http_headers ?a ?b ?c ?d ?e ?f ?g] => replace (load_http_headers a b c d e f g) with (Ok (@None sah), bytesio block) by (symmetry; exact EL) end. cbn [osah_bool]. cbv zeta. rewrite Hb.
  match goal with |- context [ensure_digest fuel sha1 f false true ?R] => set (r0 := R) end.
  destruct (ensure_digest fuel sha1 f false true r0) as [[u|e] r] eqn:Ed.
  - exists r. split; [reflexivity|]. revert Ed. unfold ensure_digest. cbn [wr_type r0 wr_length]. change (no_payload_digest (Some (lit "warcinfo"))) with true.
    rewrite orb_true_r. cbn [negb andb]. intros [= _ <-]. reflexivity.
  - exfalso. revert Ed. unfold ensure_digest. cbn [wr_type r0 wr_length]. change (no_payload_digest (Some (lit "warcinfo"))) with true.
    rewrite orb_true_r. cbn [negb andb]. discriminate. }
destruct E as (r & E & Eh). exists r. split; [exact E|]. intros ws r' Wr.
destruct (create_facts fuel sha1 f c r Hf Hl E) as (Hpay & Hp & Hf' & Ht & Hc & H & HL & _).
destruct (created_version fuel sha1 f c r Hf Hl Hv' E) as [V1 V2].
destruct (is_record_written fuel sha1 f' r ws r' Hp Hf' V1 V2 Wr) as (hb & Hhb & Hh & Hr).
assert (Epay : ps_rest (wr_stream r) = block). { destruct Hpay as [P _]. apply P. right. left. exact Eh. }
assert (Ehb : hb = []) by (rewrite Eh in Hhb; exact Hhb). subst hb.
assert (Eo : w_only r = false) by (unfold w_only; now rewrite Ht).
assert (HH : sh_headers (wr_headers r) = W ++ pdl sha1 (lit "warcinfo") (ps_rest (wr_stream r))).
{ rewrite H, Ewh. unfold digest_headers, c_np. change (no_payload_digest (Some (cr_type c))) with true. rewrite andb_false_r. cbn [add_if].
  rewrite P3. symmetry. apply app_nil_r. }
assert (Evers : sh_proto (wr_headers r) = version) by (now rewrite H, (proj1 (dh_proto _ _ _ _ _ _)), Ewh).
assert (Ect : c_ctype (cr_ctype c) (cr_type c) (cr_wh c) = lit "application/warc-fields").
{ rewrite Ewh. unfold c_ctype. cbn [cr_ctype c is_nil]. rewrite get_absent; [reflexivity|]. rewrite P3. apply HW. cbn; auto. }
rewrite Ect in Hc.
pose proof (layout sha1 [] r W _ _ Ht Hc HW HH) as L.
assert (LO : len_ok r). { apply HL; [right; now left|intros X; discriminate X]. }
rewrite Evers, Hh, L in Hr. rewrite (w_len_ok f' r [] LO Hhb) in Hr. rewrite Eo, Epay in Hr. unfold W in Hr.
change (pdl sha1 (cr_type c) block) with (@nil header) in Hr. cbn [app] in Hr. rewrite <- app_assoc in Hr. exact Hr.
Qed.

Lemma filter_text g h : sh_proto h <> [] -> sh_status h <> [] ->
  to_str (Some g) h ++ crlf = head_text (sh_proto h) (sh_status h) (kept g (sh_headers h)).
Proof.
  intros Hp Hs. unfold to_str, head_text. rewrite first_line_eq by assumption. unfold status_text.
  destruct (sh_status h) as [|x t]; [contradiction|]. rewrite <- !app_assoc. f_equal. cbn [app]. do 2 f_equal.
  f_equal. change crlf with [13%N; 10%N]. cbn [app]. do 2 f_equal. f_equal. unfold header_lines, kept. induction (sh_headers h) as [|y l IH]; [reflexivity|].
  cbn [flat_map]. destruct (g y) as [y'|]; [|exact IH]. cbn [app map concat]. now rewrite IH.
Qed.

Lemma C97_filter_pf :
  forall fuel sha1 g r h ws r',
  0 <= py_pos (wr_stream r) -> (List.length (ps_rest (wr_stream r)) < fuel)%nat ->
  sh_status (wr_headers r) = [] -> sh_proto (wr_headers r) <> [] ->
  wr_http r = Some h -> sh_proto h <> [] -> sh_status h <> [] ->
  ascii_text (head_text (sh_proto h) (sh_status h) (kept g (sh_headers h))) ->
  write_plain fuel sha1 (Some g) r = (Ok tt, ws, r') ->
  exists block,
    (wr_type r = Some (lit "revisit") -> block = head_text (sh_proto h) (sh_status h) (kept g (sh_headers h)))
    /\ (wr_type r <> Some (lit "revisit") -> block = head_text (sh_proto h) (sh_status h) (kept g (sh_headers h)) ++ ps_rest (wr_stream r))
    /\ is_record (sh_proto (wr_headers r)) (sh_headers (wr_headers r')) block (concat ws)
    /\ ((occurs (lit "Content-Length") (sh_headers (wr_headers r)) <= 1)%nat ->
        wr_plen r = Some (lenZ (ps_rest (wr_stream r))) ->
        value_of (lit "Content-Length") (sh_headers (wr_headers r')) = Some (str_of_Z (lenZ block)))
    /\ (occurs (lit "WARC-Block-Digest") (sh_headers (wr_headers r)) = 0%nat -> wr_type r <> Some (lit "revisit") ->
        value_of (lit "WARC-Block-Digest") (sh_headers (wr_headers r')) = Some (sha1_text sha1 block))
    /\ (forall n, (forall m, In m [lit "WARC-Block-Digest"; lit "WARC-Payload-Digest"; lit "Content-Type"; lit "Content-Length"] -> ~ ci_eq m n) ->
          value_of n (sh_headers (wr_headers r')) = value_of n (sh_headers (wr_headers r))).
Proof.
intros fuel sha1 g r h ws r' Hp Hf Hs Hpr Eh Hhp Hhs Ha W.
destruct (is_record_written fuel sha1 (Some g) r ws r' Hp Hf Hs Hpr W) as (hb & Hb & Hh & Hr).
assert (Sb : sah_bool h = true).
{ unfold sah_bool. destruct (sh_status h); [contradiction|reflexivity]. }
assert (Ehb : hb = head_text (sh_proto h) (sh_status h) (kept g (sh_headers h))).
{ unfold http_block in Hb. rewrite Eh, Sb in Hb. rewrite <- filter_text in Ha |- * by assumption. unfold to_ascii_bytes, ascii_encode in Hb.
  assert (A : is_ascii (to_str (Some g) h) = true).
  { unfold is_ascii. apply forallb_forall. intros x Hx. assert (x < 128)%N by (apply Ha; apply in_or_app; now left). apply N.ltb_lt. exact H. }
  rewrite A in Hb. cbn [fst] in Hb. injection Hb as <-. reflexivity. }
assert (O : w_only r = true <-> wr_type r = Some (lit "revisit")).
{ unfold w_only, otype_is. destruct (wr_type r) as [t|]; [|split; discriminate]. rewrite leqb_eq. split; [now intros ->|now intros [= ->]]. }
exists (hb ++ (if w_only r then [] else ps_rest (wr_stream r))).
split. { intros R. apply O in R. now rewrite R, app_nil_r, Ehb. }
split. { intros R. destruct (w_only r); [exfalso; apply R; now apply O|]. now rewrite Ehb. }
split; [exact Hr|]. rewrite !value_of_hget, Hh.
split.
{ intros Ho Hpl. change (get_header CL (w_final sha1 hb r) = Some (str_of_Z (lenZ (hb ++ (if w_only r then [] else ps_rest (wr_stream r)))))).
  rewrite w_final_CL by exact Ho. rewrite (w_len_ok (Some g) r hb); [reflexivity| |exact Hb]. unfold len_ok. rewrite Eh. cbn [osah_bool]. rewrite Sb. split; [|now left].
  destruct (wr_length r); [exact Hpl|exact I]. }
split.
{ intros Ho R. change (get_header BD (w_final sha1 hb r) = Some (sha1_text sha1 (hb ++ (if w_only r then [] else ps_rest (wr_stream r))))).
  rewrite w_final_BD.
  - destruct (w_only r); [exfalso; apply R; now apply O|reflexivity].
  - apply get_absent. pose proof (w_base_occurs BD r) as X. change (lit "WARC-Block-Digest") with BD in Ho. lia. }
intros n Hn. rewrite !value_of_hget.
assert (Q : forall m, In m [BD; PD; CT; CL] -> name_eq m n = false) by (intros m Hm; apply name_eq_not; now apply Hn).
apply (w_final_get sha1 n hb r); apply Q; cbn; auto 6.
Qed.
