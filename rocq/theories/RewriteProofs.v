(** * RewriteProofs: writing records that were read *)
From Coq Require Import String List ZArith NArith Bool Lia.
From Coq Require Import ZifyBool ZifyNat ZifyN.
From Verif Require Import PyBase Facts Utf8 Codecs Headers HeaderSpec HeaderProofs Streams StreamSpec StreamProofs Loader Iterator Writer WriterSpec WriterProofs.
From Verif Require Import DigestSpec DigestProofs IterSpec IterProofs GzProofs RoundSpec RoundProofs Thm_Writer Thm_Headers Cli CliSpec CliProofs TraceProofs CheckProofs ExtractProofs RewriteSpec.
Import ListNotations.
Open Scope Z_scope.
Local Arguments name_eq : simpl never.

Notation BD := (lit "WARC-Block-Digest").
Notation PD := (lit "WARC-Payload-Digest").
Notation CT := (lit "Content-Type").
Notation CL := (lit "Content-Length").

(** ** headers *)
Lemma not_set k : ~ set_by_writer k -> name_eq BD k = false /\ name_eq PD k = false /\ name_eq CT k = false /\ name_eq CL k = false.
Proof.
  unfold set_by_writer. intros H.
  assert (A : forall n, ~ ci_eq k n -> name_eq n k = false).
  { intros n Hn. apply name_eq_not. intros X. apply Hn. now apply ci_eq_sym. }
  repeat split; apply A; tauto.
Qed.
Lemma filter_replace (P : str -> bool) name value s : (forall k, ci_eq k name -> P k = false) ->
  filter (fun h => P (fst h)) (sh_headers (replace_header_ name value s)) = filter (fun h => P (fst h)) (sh_headers s).
Proof. apply Thm_Headers.filter_replace. Qed.
Lemma filter_add (P : str -> bool) name value s : P name = false ->
  filter (fun h => P (fst h)) (sh_headers (add_header name value s)) = filter (fun h => P (fst h)) (sh_headers s).
Proof. intros H. unfold add_header. cbn [set_headers sh_headers]. rewrite filter_app. cbn [filter fst]. rewrite H. apply app_nil_r. Qed.
Lemma get_add_some n m v x s : get_header n s = Some v -> get_header n (add_header m x s) = Some v.
Proof. intros H. unfold get_header, add_header in *. cbn [set_headers sh_headers]. now apply hget_app_Some. Qed.
Lemma get_replace_first n v s : get_header n s = Some v -> get_header n (replace_header_ n v s) = Some v.
Proof.
  intros H. unfold get_header in *. destruct (Thm_Headers.replace_cases n v s) as [(pre & k & v0 & post & E & Hk & Hp & ->)|[Hn ->]].
  - rewrite E in H. destruct (hget n pre) as [u|] eqn:Eu.
    + pose proof (hget_app_Some n pre ((k,v0)::post) u Eu) as X. rewrite X in H. cbn [set_headers sh_headers]. now rewrite (hget_app_Some n pre _ u Eu).
    + apply hget_None_occurs in Eu. rewrite (hget_app_None n pre) by exact Eu. cbn [hget]. apply name_eq_spec in Hk. now rewrite Hk.
  - rewrite hget_None in H by exact Hn. discriminate.
Qed.

Section One.
  Context (sha1 : bytes -> bytes).

  Lemma final_filter P hb r n : wr_length r = Some n -> (forall k, set_by_writer k -> P k = false) ->
    filter (fun h => P (fst h)) (sh_headers (w_final sha1 hb r)) = filter (fun h => P (fst h)) (sh_headers (wr_headers r)).
  Proof.
    intros Hl HP. unfold w_final. rewrite (filter_replace P) by (intros k Hk; apply HP; now left).
    assert (A : forall h, filter (fun h => P (fst h)) (sh_headers (w_ctype r h)) = filter (fun h => P (fst h)) (sh_headers h)).
    { intros h. unfold w_ctype. destruct (wr_ctype r); [|reflexivity]. apply filter_replace. intros k Hk. apply HP. right. now left. }
    rewrite A. unfold digest_headers, add_if, w_base. rewrite Hl.
    assert (P BD = false) by (apply HP; right; right; left; apply ci_eq_refl).
    assert (P PD = false) by (apply HP; right; right; right; apply ci_eq_refl).
    destruct (w_nb r), (w_np r); rewrite ?(filter_add P) by assumption; reflexivity.
  Qed.
  Lemma final_CT hb r n : wr_length r = Some n -> wr_ctype r = get_header CT (wr_headers r) ->
    get_header CT (w_final sha1 hb r) = get_header CT (wr_headers r).
  Proof.
    intros Hl Hc. unfold w_final. rewrite get_replace_other by reflexivity. unfold w_ctype. rewrite Hc.
    assert (A : get_header CT (digest_headers sha1 (w_nb r) (w_np r) hb (ps_rest (wr_stream r)) (w_base r)) = get_header CT (wr_headers r)).
    { rewrite dh_get by reflexivity. unfold w_base. now rewrite Hl. }
    destruct (get_header CT (wr_headers r)) as [c|]; [now apply get_replace_first|exact A].
  Qed.
  Lemma final_BD hb r n : wr_length r = Some n ->
    digest_kept (get_header BD (wr_headers r)) (get_header BD (w_final sha1 hb r)) (Some (sha1_text sha1 (hb ++ ps_rest (wr_stream r)))).
  Proof.
    intros Hl. unfold w_final. rewrite get_replace_other by reflexivity. unfold digest_kept.
    assert (A : forall h, get_header BD (w_ctype r h) = get_header BD h).
    { intros h. unfold w_ctype. destruct (wr_ctype r); [now rewrite get_replace_other by reflexivity|reflexivity]. }
    rewrite A. unfold digest_headers, w_base. rewrite Hl. unfold w_nb, w_base. rewrite Hl. unfold need, add_if.
    destruct (get_header BD (wr_headers r)) as [v|] eqn:E.
    - destruct (negb (truthy (Some v))), (w_np r); repeat apply get_add_some; exact E.
    - cbn [truthy negb]. apply get_add_same. destruct (w_np r); [rewrite get_add_other by reflexivity|]; exact E.
  Qed.
  Lemma final_PD hb r n : wr_length r = Some n ->
    digest_kept (get_header PD (wr_headers r)) (get_header PD (w_final sha1 hb r))
      (if no_payload_digest (wr_type r) then None else Some (sha1_text sha1 (ps_rest (wr_stream r)))).
  Proof.
    intros Hl. unfold w_final. rewrite get_replace_other by reflexivity. unfold digest_kept.
    assert (A : forall h, get_header PD (w_ctype r h) = get_header PD h).
    { intros h. unfold w_ctype. destruct (wr_ctype r); [now rewrite get_replace_other by reflexivity|reflexivity]. }
    rewrite A. unfold digest_headers, w_base. rewrite Hl. unfold w_np, w_base. rewrite Hl. unfold need, add_if.
    assert (B : forall b x h, get_header PD (if b : bool then add_header BD x h else h) = get_header PD h).
    { intros [] x h; [now rewrite get_add_other by reflexivity|reflexivity]. }
    rewrite B. destruct (get_header PD (wr_headers r)) as [v|] eqn:E.
    - destruct (negb (truthy (Some v)) && negb (no_payload_digest (wr_type r))); [now apply get_add_some|exact E].
    - cbn [truthy negb andb]. destruct (no_payload_digest (wr_type r)); cbn [negb]; [exact E|]. now apply get_add_same.
  Qed.
End One.

(** ** records that are written as they were read *)
Definition vals (n : str) (hs : list header) : list str := map snd (filter (fun h => name_eq (fst h) n) hs).
Lemma vals_replace n v s : vals n (sh_headers (replace_header_ n v s)) = removelast (vals n (sh_headers s)) ++ [v].
Proof. exact (Thm_Headers.values_replace n v s). Qed.
Lemma vals_other n m v s : ~ ci_eq m n -> vals n (sh_headers (replace_header_ m v s)) = vals n (sh_headers s).
Proof. exact (Thm_Headers.values_other n m v s). Qed.
Lemma vals_add n m v s : name_eq m n = false -> vals n (sh_headers (add_header m v s)) = vals n (sh_headers s).
Proof. intros H. unfold vals, add_header. cbn [set_headers sh_headers]. rewrite filter_app, map_app. cbn [filter fst]. rewrite H. cbn [map]. apply app_nil_r. Qed.
Lemma vals_get n hs : hd_error (vals n hs) = value_of n hs.
Proof. unfold vals, value_of. now destruct (filter (fun h => name_eq (fst h) n) hs). Qed.
Lemma vals_occurs n hs : List.length (vals n hs) = occurs n hs.
Proof. unfold vals, occurs. apply map_length. Qed.
Lemma replace_last n v s : hd_error (rev (vals n (sh_headers s))) = Some v -> sh_headers (replace_header_ n v s) = sh_headers s.
Proof.
  intros H. destruct (Thm_Headers.replace_cases n v s) as [(pre & k & v0 & post & E & Hk & Hp & ->)|[Hn _]].
  - rewrite E in H |- *. change (vals n) with (Thm_Headers.values n) in H.
    rewrite Thm_Headers.values_app, Thm_Headers.values_one, (Thm_Headers.values_none n post Hp), rev_app_distr in H by exact Hk. cbn in H. congruence.
  - change (vals n) with (Thm_Headers.values n) in H. rewrite (Thm_Headers.values_none n _ Hn) in H. discriminate.
Qed.
Lemma replaced_ends (n v : str) (vs : list str) : hd_error vs = Some v -> hd_error (rev (removelast vs ++ [v])) = hd_error (removelast vs ++ [v]).
Proof. intros H. rewrite rev_app_distr. cbn [rev app hd_error]. destruct vs as [|a [|b vs]]; [discriminate| |]; injection H as ->; reflexivity. Qed.
Lemma block_same a b hb : same_http a b -> http_block None a hb -> http_block None b hb.
Proof.
  destruct a as [[p1 s1 h1 ? ?]|], b as [[p2 s2 h2 ? ?]|]; cbn [same_http]; try contradiction; [|auto]. cbn [sh_proto sh_status sh_headers].
  intros (-> & -> & ->). unfold http_block, sah_bool, to_ascii_bytes, to_str, percent_encode. cbn [sh_proto sh_status sh_headers set_headers].
  destruct (ascii_encode _) eqn:E1; [auto|]. destruct (ascii_encode _) eqn:E2 in |- *; auto.
Qed.
Lemma block_fun a hb hb' : http_block None a hb -> http_block None a hb' -> hb = hb'.
Proof. unfold http_block. destruct a as [h|]; [destruct (sah_bool h)|]; congruence. Qed.

(** ** one record *)
Definition source {zl : zenv} (rc : record (breader zl raw)) (e : entry) : Prop :=
  rc_type rc = w_value "WARC-Type" (e_rec e) /\ sh_proto (rc_headers rc) = w_version (e_rec e)
  /\ sh_headers (rc_headers rc) = w_headers (e_rec e) /\ sh_status (rc_headers rc) = []
  /\ rc_length rc = Some (lenZ (w_block (e_rec e))) /\ rc_ctype rc = w_value "Content-Type" (e_rec e)
  /\ rc_http rc = e_http e /\ rc_plen rc = (if osah_bool (e_http e) then lenZ (e_payload e) else -1).
Lemma observed_source {zl : zenv} he o e off len us (ob : @obs zl) :
  observed he o (e_rec e) (e_http e) (e_payload e) off len us ob -> source (ob_record ob) e.
Proof. intros [B1 B2 B3 B4 B5 B6 B7 B8 B9 _ _ _]. unfold source. repeat split; assumption. Qed.

Lemma wf_to_bytes h : In (sh_proto h) WARC_TYPES -> sh_status h = [] -> wfs h -> exists b, to_bytes None h = Ok b.
Proof.
  intros Hv Hs Hw. unfold to_bytes.
  assert (A : forallb is_scalar (to_str None h) = true).
  { apply forallb_forall. unfold to_str. intros c Hc. apply in_app_or in Hc as [Hc|Hc].
    - rewrite Hs in Hc. assert (forallb is_scalar (first_line (sh_proto h) []) = true) as X.
      { cbn in Hv. repeat destruct Hv as [<-|Hv]; try reflexivity; contradiction. }
      rewrite forallb_forall in X. auto.
    - unfold header_lines in Hc. apply in_flat_map in Hc as ([k v] & Hi & Hc). unfold wfs in Hw. rewrite Forall_forall in Hw.
      destruct (Hw _ Hi) as (L1 & _ & _ & _ & L2 & _). unfold header_line in Hc. cbn [fst snd] in *.
      repeat (apply in_app_or in Hc as [Hc|Hc]).
      + now apply L1.
      + repeat destruct Hc as [<-|Hc]; try reflexivity. contradiction.
      + now apply L2.
      + repeat destruct Hc as [<-|Hc]; try reflexivity. contradiction. }
  unfold utf8_encode. rewrite A. eauto.
Qed.

Lemma view_http_like fuel verify w h payload : http_view fuel false verify w (Some h) payload ->
  http_like (w_value "WARC-Type" w) (w_value "WARC-Target-URI" w).
Proof.
  intros (m & E & _). unfold load_http_headers in E. destruct (match Some (lenZ (w_block w)) with Some 0 => true | _ => false end); [discriminate|].
  destruct (is_http_record (w_value "WARC-Type" w)) eqn:E1; [|discriminate]. cbn [negb] in E.
  destruct (w_value "WARC-Target-URI" w) as [u|] eqn:E2; [|discriminate]. destruct (is_http_uri u) eqn:E3; [|discriminate].
  apply (http_like_b _ (Some u) u eq_refl). now rewrite E1, E3.
Qed.

(** what is needed to write [e] again *)
Definition readied (fuel : nat) (M : Z) (verify : bool) (e : entry) : Prop :=
  In (w_version (e_rec e)) WARC_TYPES /\ Forall wf_header (w_headers (e_rec e)) /\ plain_uri (w_value "WARC-Target-URI" (e_rec e))
  /\ text_of (e_rec e) (e_text e) /\ http_view fuel false verify (e_rec e) (e_http e) (e_payload e)
  /\ (e_http e <> None -> short_lines M (w_block (e_rec e))) /\ (List.length (w_block (e_rec e)) + 3 <= fuel)%nat.
Lemma good_readied fuel he o M us e : good_entry fuel he o M us e -> lo_norec o = false -> enough fuel (e_text e) -> readied fuel M (lo_verify o) e.
Proof.
  intros ((Hver & Hwh & Huri & _) & Ht & Hv & Hsl & _) Hn Hf. rewrite Hn in Hv. repeat (split; [assumption|]). split; [exact (Hsl Hn)|].
  destruct Ht as (hd & _ & E). unfold enough in Hf. rewrite E, !app_length in Hf. lia.
Qed.
Lemma rewrite_any {zl : zenv} fuel sha1 o M (rc : record (breader zl raw)) e :
  readied fuel M (lo_verify o) e -> lo_norec o = false -> hash_bytes sha1 ->
  rewritable fuel M (lo_verify o) e -> source rc e ->
  exists ws r' e', write_plain fuel sha1 None (read_wrec rc (e_payload e)) = (Ok tt, ws, r')
    /\ e_text e' = concat ws /\ rewritten sha1 e e'
    /\ forall he' o', lo_norec o' = false -> lo_verify o' = lo_verify o -> digests_ready he' o' (e_rec e') (e_payload e') -> good_entry fuel he' o' M [] e'.
Proof.
  intros (Hver & Hwh & Huri & Ht & Hv & Hsl & Hblk) Hn Hsha [W1 W2 W3] (S1 & S2 & S3 & S4 & S5 & S6 & S7 & S8).
  pose proof (view_suffix fuel false (lo_verify o) _ _ _ Hv) as Hsuf.
  set (r := read_wrec rc (e_payload e)).
  assert (Er : ps_rest (wr_stream r) = e_payload e) by (unfold ps_rest; destruct (e_payload e); reflexivity).
  assert (Hlen : (List.length (e_payload e) < fuel)%nat).
  { clear - Hsuf Hblk. unfold lenZ in Hsuf. lia. }
  assert (exists hb, http_block None (e_http e) hb /\ enough fuel (hb ++ e_payload e)
     /\ (w_block (e_rec e) = hb ++ e_payload e
         \/ exists h, e_http e = Some h /\ sah_bool h = true
              /\ wf_block (reading_parser (w_value "WARC-Type" (e_rec e)) (lo_verify o)) h /\ ascii_block h /\ RoundSpec.lines_fit M h))
    as (hb & Hb & Hfb & Hcase).
  { destruct W3 as [(hb & Hb & Eb)|(h & hb & E & A & B & C & D)].
    - exists hb. split; [exact Hb|]. split; [unfold enough; rewrite <- Eb; lia|]. now left.
    - exists hb. rewrite E. split; [exact B|]. split; [exact C|]. right. exists h. tauto. }
  assert (Hb' : http_block None (wr_http r) hb) by (change (wr_http r) with (rc_http rc); now rewrite S7).
  assert (Honly : w_only r = true -> e_payload e = []).
  { unfold w_only. change (wr_type r) with (rc_type rc). rewrite S1. intros X. apply otype_is_spec in X. auto. }
  assert (Hpay : (if w_only r then [] else ps_rest (wr_stream r)) = e_payload e).
  { rewrite Er. destruct (w_only r) eqn:E; [symmetry; now apply Honly|reflexivity]. }
  assert (Hlo : len_ok r).
  { unfold len_ok. change (wr_length r) with (rc_length rc). change (wr_http r) with (rc_http rc). change (wr_plen r) with (Some (rc_plen rc)).
    rewrite S5, S7, S8, Er. destruct (osah_bool (e_http e)) eqn:Eo; (split; [|intros X; right; auto]); [reflexivity|].
    destruct Hcase as [->|(h & E & X & _)]; [now rewrite (http_block_nil _ _ _ Hb Eo)|]. rewrite E in Eo. cbn in Eo. congruence. }
  assert (Hwl : w_len hb r = Some (lenZ (hb ++ e_payload e))) by (rewrite (w_len_ok None r hb Hlo Hb'), Hpay; reflexivity).
  assert (Hl : wr_length r = Some (lenZ (w_block (e_rec e)))) by exact S5.
  set (F := w_final sha1 hb r).
  assert (HwF : wfs F).
  { apply final_wf with (n := lenZ (hb ++ e_payload e)); [exact Hsha| | |exact Hwl|apply lenZ_nonneg].
    - unfold wfs. change (wr_headers r) with (rc_headers rc). now rewrite S3.
    - change (wr_ctype r) with (rc_ctype rc). rewrite S6. destruct (w_value "Content-Type" (e_rec e)) as [c|] eqn:Ec; [|exact I].
      unfold w_value in Ec. rewrite value_of_hget, <- S3 in Ec. apply (wf_get CT c (rc_headers rc)); [|exact Ec]. unfold wfs. now rewrite S3. }
  destruct (w_final_proto sha1 hb r) as [P1 P2]. fold F in P1, P2. change (wr_headers r) with (rc_headers rc) in P1, P2.
  assert (Hver' : In (sh_proto F) WARC_TYPES) by (rewrite P1, S2; exact Hver).
  destruct (wf_to_bytes F Hver' ltac:(congruence) HwF) as (head & Ehd).
  assert (Hps : ps_ok (wr_stream r)) by (unfold ps_ok; cbn; lia).
  rewrite <- Er in Hlen. pose proof (write_plain_fwd fuel sha1 None r hb Hps Hlen Hb') as W. fold F in W. rewrite Ehd in W.
  destruct W as (ws & r' & Ew & Eh & Ec & _).
  set (w' := mk_wrc (w_version (e_rec e)) (sh_headers F) (hb ++ e_payload e)).
  assert (Htext : text_of w' (concat ws)).
  { unfold text_of, w'. cbn [w_version w_headers w_block]. rewrite <- S2, <- P1. eapply is_record_ok; [congruence| |exact Ehd|].
    - intros X. rewrite X in Hver'. cbn in Hver'. repeat destruct Hver' as [Hver'|Hver']; try discriminate. contradiction.
    - rewrite Ec, Hpay, <- app_assoc. reflexivity. }
  assert (G : forall n, name_eq BD n = false -> name_eq PD n = false -> name_eq CT n = false -> name_eq CL n = false ->
            value_of n (sh_headers F) = value_of n (w_headers (e_rec e))).
  { intros n N1 N2 N3 N4. rewrite !value_of_hget, <- S3. exact (w_final_get sha1 n hb r N1 N2 N3 N4). }
  assert (Gt : w_value "WARC-Type" w' = w_value "WARC-Type" (e_rec e)) by (apply G; reflexivity).
  assert (Gu : w_value "WARC-Target-URI" w' = w_value "WARC-Target-URI" (e_rec e)) by (apply G; reflexivity).
  assert (Hcl' : value_of CL (sh_headers F) = Some (str_of_Z (lenZ (hb ++ e_payload e)))).
  { rewrite value_of_hget. change (hget CL (sh_headers F)) with (get_header CL F). unfold F. rewrite w_final_CL; [now rewrite Hwl|].
    change (wr_headers r) with (rc_headers rc). now rewrite S3. }
  assert (Hwf' : wf_record w').
  { split; [exact Hver|]. split; [exact HwF|]. split; [now rewrite Gu|]. exists (str_of_Z (lenZ (hb ++ e_payload e))).
    split; [exact Hcl'|]. apply py_int_str, lenZ_nonneg. }
  assert (exists http', http_view fuel false (lo_verify o) w' http' (e_payload e) /\ same_http (e_http e) http'
     /\ (http' <> None -> short_lines M (w_block w'))) as (http' & V1 & V2 & V3).
  { destruct Hcase as [Eb|(h & E & Hbo & X1 & X2 & X3)].
    - exists (e_http e). split; [|split].
      + unfold http_view in Hv |- *. rewrite Gt, Gu. unfold w'. cbn [w_block]. rewrite <- Eb. exact Hv.
      + destruct (e_http e); [now repeat split|exact I].
      + intros X. unfold w'. cbn [w_block]. rewrite <- Eb. auto.
    - destruct (read_block fuel o M w' (e_http e) hb (e_payload e) Hn Hfb Hb eq_refl) as (http' & A & B & C).
      + rewrite E, Gt, Gu. rewrite E in Hv. split; [exact Hbo|]. split; [now apply (view_http_like _ _ _ _ _ Hv)|]. tauto.
      + rewrite Gu. rewrite E in Hv. apply view_http_like in Hv as [_ (u & [->| ->])]; exact I.
      + exists http'. rewrite Hn in A. tauto. }
  exists ws, r', (mk_entry w' (concat ws) http' (e_payload e)).
  split; [exact Ew|]. split; [reflexivity|]. split.
  - constructor; cbn [e_rec e_http e_payload].
    + reflexivity.
    + unfold w'. cbn [w_headers w_block]. constructor.
      * intros P HP. unfold F. rewrite (final_filter sha1 P hb r _ Hl HP). change (wr_headers r) with (rc_headers rc). now rewrite S3.
      * intros n Hns. destruct (not_set n Hns) as (N1 & N2 & N3 & N4). now apply G.
      * rewrite !value_of_hget, <- S3. change (get_header CT F = get_header CT (wr_headers r)). unfold F. apply (final_CT sha1 hb r _ Hl).
        change (wr_ctype r) with (rc_ctype rc). rewrite S6. unfold w_value. rewrite value_of_hget, <- S3. reflexivity.
      * exact Hcl'.
      * rewrite !value_of_hget, <- S3. pose proof (final_BD sha1 hb r _ Hl) as X. rewrite Er in X. exact X.
      * rewrite !value_of_hget, <- S3. pose proof (final_PD sha1 hb r _ Hl) as X. rewrite Er in X. change (wr_type r) with (rc_type rc) in X.
        rewrite S1 in X. exact X.
    + exact V2.
    + reflexivity.
    + exists hb. now split.
    + intros [T1 T2 T3 (bd & T4 & T4') T5]. destruct T1 as (hb' & Hb2 & Eb). rewrite <- (block_fun _ _ _ Hb Hb2) in Eb.
      assert (EF : sh_headers F = w_headers (e_rec e)).
      { unfold values_of in T2, T3. fold (vals CL (w_headers (e_rec e))) in T2. fold (vals CT (w_headers (e_rec e))) in T3.
        assert (Edh : digest_headers sha1 (w_nb r) (w_np r) hb (ps_rest (wr_stream r)) (w_base r) = wr_headers r).
        { unfold digest_headers. assert (w_base r = wr_headers r) as Ebase by (unfold w_base; now rewrite Hl).
          assert (w_nb r = false) as ->.
          { unfold w_nb, need. rewrite Ebase. unfold get_header. change (wr_headers r) with (rc_headers rc). rewrite S3, <- value_of_hget.
            unfold w_value in T4. rewrite T4. cbn [truthy]. now destruct bd. }
          assert (w_np r = false) as ->.
          { unfold w_np. change (wr_type r) with (rc_type rc). rewrite S1.
            destruct T5 as [->|[->|(pd & T5 & T5')]]; [apply andb_false_r..|]. unfold need. rewrite Ebase. unfold get_header. change (wr_headers r) with (rc_headers rc).
            rewrite S3, <- value_of_hget. unfold w_value in T5. rewrite T5. cbn [truthy]. destruct pd; [contradiction|reflexivity]. }
          exact Ebase. }
        assert (Ect : sh_headers (w_ctype r (wr_headers r)) = w_headers (e_rec e)).
        { unfold w_ctype. change (wr_ctype r) with (rc_ctype rc). change (wr_headers r) with (rc_headers rc). rewrite S6. unfold w_value. rewrite <- vals_get.
          change (lit "Content-Type") with CT. rewrite <- T3, <- S3. destruct (hd_error (rev (vals CT (sh_headers (rc_headers rc))))) as [c|] eqn:Ecc; [|reflexivity].
          now apply replace_last. }
        unfold F, w_final. rewrite Edh. rewrite <- Ect. apply replace_last. rewrite Ect, T2, Hwl, Eb. reflexivity. }
      cbn [e_text]. assert (w' = e_rec e) as Ew' by (unfold w'; rewrite EF, <- Eb; now destruct (e_rec e)).
      rewrite Ew' in Htext. destruct Htext as (h1 & A1 & ->), Ht as (h2 & A2 & ->). congruence.
    + intros (D1 & D2).
      assert (EV : forall n, name_eq BD n = false -> name_eq PD n = false -> vals n (sh_headers (digest_headers sha1 (w_nb r) (w_np r) hb (ps_rest (wr_stream r)) (w_base r))) = vals n (w_headers (e_rec e))).
      { intros n N1 N2. unfold digest_headers, add_if, w_base. rewrite Hl. change (wr_headers r) with (rc_headers rc). rewrite <- S3.
        destruct (w_nb r), (w_np r); rewrite ?vals_add by assumption; reflexivity. }
      constructor; cbn [e_rec e_http e_payload].
      * exists hb. split; [now apply (block_same (e_http e))|reflexivity].
      * unfold values_of, w'. cbn [e_rec w_headers w_block]. fold (vals CL (sh_headers F)). unfold F, w_final. rewrite vals_replace, Hwl.
        assert (vals CL (sh_headers (w_ctype r (digest_headers sha1 (w_nb r) (w_np r) hb (ps_rest (wr_stream r)) (w_base r)))) = vals CL (w_headers (e_rec e))) as ->.
        { unfold w_ctype. destruct (wr_ctype r); [rewrite vals_other by (apply name_eq_not; reflexivity)|]; apply EV; reflexivity. }
        pose proof (vals_occurs CL (w_headers (e_rec e))) as Ho. change (lit "Content-Length") with CL in W1. rewrite <- Ho in W1.
        destruct (vals CL (w_headers (e_rec e))) as [|a [|b l]]; [reflexivity..|cbn in W1; lia].
      * unfold values_of, w'. cbn [e_rec w_headers w_block]. fold (vals CT (sh_headers F)). unfold F, w_final. rewrite vals_other by (apply name_eq_not; reflexivity).
        unfold w_ctype. change (wr_ctype r) with (rc_ctype rc). rewrite S6. unfold w_value. rewrite <- vals_get. change (lit "Content-Type") with CT.
        destruct (hd_error (vals CT (w_headers (e_rec e)))) as [c|] eqn:Ecc.
        -- rewrite vals_replace, EV by reflexivity. now apply (replaced_ends CT).
        -- rewrite EV by reflexivity. destruct (vals CT (w_headers (e_rec e))); [reflexivity|discriminate].
      * unfold w_value, w'. cbn [e_rec w_headers]. pose proof (final_BD sha1 hb r _ Hl) as X. fold F in X. unfold digest_kept, get_header in X.
        change (wr_headers r) with (rc_headers rc) in X. rewrite S3, <- !value_of_hget in X. unfold w_value in D1. change (lit "WARC-Block-Digest") with BD in *.
        destruct (value_of BD (w_headers (e_rec e))) as [v0|]; rewrite X; eexists; (split; [reflexivity|]); [intros Q; apply D1; now rewrite Q|discriminate].
      * unfold w_value in Gt |- *. cbn [e_rec] in *. rewrite Gt. unfold w'. cbn [w_headers]. pose proof (final_PD sha1 hb r _ Hl) as X. fold F in X. unfold digest_kept, get_header in X.
        change (wr_headers r) with (rc_headers rc) in X. change (wr_type r) with (rc_type rc) in X. rewrite S1, S3, <- !value_of_hget in X. unfold w_value in D2, X. change (lit "WARC-Payload-Digest") with PD in *.
        destruct (value_of PD (w_headers (e_rec e))) as [v0|]; [right; right; rewrite X; eexists; (split; [reflexivity|]); intros Q; apply D2; now rewrite Q|].
        unfold no_payload_digest in X. destruct (value_of (lit "WARC-Type") (w_headers (e_rec e))) as [ty|] eqn:Ety.
        -- destruct (leqb ty (lit "warcinfo")) eqn:E1; [left; apply leqb_eq in E1; now rewrite E1|].
           destruct (leqb ty (lit "revisit")) eqn:E2; [right; left; apply leqb_eq in E2; now rewrite E2|]. cbn [orb] in X. right; right. rewrite X. eexists. split; [reflexivity|discriminate].
        -- right; right. rewrite X. eexists. split; [reflexivity|discriminate].
  - intros he' o' Hn' Hve Hd. split; [exact Hwf'|]. cbn [e_rec e_text e_http e_payload]. split; [exact Htext|].
    rewrite Hn', Hve. split; [exact V1|]. split; [intros _; exact V3|]. split; [exact Hd|]. split; constructor.
Qed.

Lemma rewrite_one {zl : zenv} fuel sha1 he o M (rc : record (breader zl raw)) e :
  good_entry fuel he o M [] e -> lo_norec o = false -> enough fuel (e_text e) -> hash_bytes sha1 ->
  rewritable fuel M (lo_verify o) e -> source rc e ->
  exists ws r' e', write_plain fuel sha1 None (read_wrec rc (e_payload e)) = (Ok tt, ws, r')
    /\ e_text e' = concat ws /\ rewritten sha1 e e'
    /\ forall he' o', lo_norec o' = false -> lo_verify o' = lo_verify o -> digests_ready he' o' (e_rec e') (e_payload e') -> good_entry fuel he' o' M [] e'.
Proof. intros H1 H2 H3. apply rewrite_any; [now apply (good_readied fuel he o M [])|exact H2]. Qed.

(** ** reading a record's content in blocks *)
Lemma mem_chunks : forall n c, (List.length c <= n)%nat -> exists cs,
  mem_user (repeat (URead (Some BUFF_SIZE)) (Datatypes.S (List.length cs))) c = cs ++ [[]]
  /\ Forall (fun x => x <> []) cs /\ concat cs = c /\ (List.length cs <= List.length c)%nat.
Proof.
  induction n as [|n IH]; intros c Hc.
  - destruct c; [|cbn in Hc; lia]. exists []. split; [reflexivity|]. split; [constructor|]. split; [reflexivity|apply le_n].
  - destruct c as [|a c]; [exists []; split; [reflexivity|]; split; [constructor|]; split; [reflexivity|apply le_n]|].
    pose proof (read_of_split (Some BUFF_SIZE) (a :: c)) as Sp.
    assert (Hne : read_of (Some BUFF_SIZE) (a :: c) <> []) by (vm_compute; discriminate).
    set (r := read_of (Some BUFF_SIZE) (a :: c)) in *. set (c1 := dropZ (lenZ r) (a :: c)) in *.
    assert (Hl : (List.length c1 + List.length r = List.length (a :: c))%nat) by (rewrite <- Sp, app_length; lia).
    assert (Hr : (1 <= List.length r)%nat) by (destruct r; [contradiction|cbn; lia]).
    destruct (IH c1 ltac:(lia)) as (cs & E & Hn & Ec & Hlc). exists (r :: cs).
    split; [|split; [now constructor|split; [cbn [concat]; rewrite Ec; exact Sp|cbn [List.length] in *; lia]]].
    cbn [List.length]. change (repeat (URead (Some BUFF_SIZE)) (Datatypes.S (Datatypes.S (List.length cs))))
      with (URead (Some BUFF_SIZE) :: repeat (URead (Some BUFF_SIZE)) (Datatypes.S (List.length cs))).
    cbn [mem_user]. fold r. fold c1. now rewrite E.
Qed.

Section Loop.
  Context {zl : zenv} (fuel : nat) (he : henv).
  Notation rdr := (breader zl raw).
  Notation rops := (rops (zl:=zl) fuel).

  Lemma collect_ok cs : forall n st st', Forall (fun x => x <> []) cs -> (List.length cs < n)%nat ->
    do_calls (rs_ops rops) (repeat (CRead (Some BUFF_SIZE)) (Datatypes.S (List.length cs))) st = (map Ok (cs ++ [[]]), st') ->
    collect (zl:=zl) fuel n st = (Ok (concat cs), st').
  Proof.
    induction cs as [|c cs IH]; intros n st st' Hn Hl E; (destruct n as [|n]; [cbn in Hl; lia|]).
    - cbn [List.length repeat do_calls do_call rs_ops o_read app map] in E. cbn [collect].
      destruct (rs_read rops (Some BUFF_SIZE) st) as [x s1]. injection E as -> <-. reflexivity.
    - cbn [List.length] in E.
      change (repeat (CRead (Some BUFF_SIZE)) (Datatypes.S (Datatypes.S (List.length cs))))
        with (CRead (Some BUFF_SIZE) :: repeat (CRead (Some BUFF_SIZE)) (Datatypes.S (List.length cs))) in E.
      remember (repeat (CRead (Some BUFF_SIZE)) (Datatypes.S (List.length cs))) as calls.
      cbn [do_calls do_call rs_ops o_read app map] in E. cbn [collect].
      destruct (rs_read rops (Some BUFF_SIZE) st) as [x s1]. destruct (do_calls (rs_ops rops) calls s1) as [ys s2] eqn:E2.
      injection E as -> -> ->. inversion Hn; subst. destruct c as [|a c]; [contradiction|].
      rewrite (IH n s1 st' ltac:(assumption) ltac:(cbn in Hl; lia) E2). reflexivity.
  Qed.

  Definition copied (sha1 : bytes -> bytes) (k : kenv) (wo : wopts) (ob : @obs zl) (ws : writes) : Prop :=
    exists cs r', ob_reads ob = map Ok (cs ++ [[]]) /\ Forall (fun x => x <> []) cs /\ (List.length cs < fuel)%nat
      /\ (exists off len, ob_info ob = Ok (Some (off, len)))
      /\ write_record fuel sha1 k wo (read_wrec (ob_record ob) (concat cs)) = (Ok tt, ws, r').

  Lemma copy_loop sha1 k wo o prog n en : forall j it it2 obs wss,
    (forall i, exists m, prog i = repeat (URead (Some BUFF_SIZE)) m) ->
    (it2 = it \/ iter_next fuel he o it2 = iter_next fuel he o it) ->
    run_iter fuel he o n prog j it = (obs, en) -> Forall2 (copied sha1 k wo) obs wss ->
    copy_records fuel he n sha1 k wo o it2 = (List.length obs, concat wss, match en with EndStop => None | EndExn e => Some e end).
  Proof.
    induction n as [|n IH]; intros j it it2 obs wss Hp Hn Hr HF; [injection Hr as <- <-; inversion HF; reflexivity|].
    cbn [run_iter] in Hr. cbn [copy_records].
    assert (iter_next fuel he o it2 = iter_next fuel he o it) as -> by (destruct Hn as [->|]; auto).
    destruct (iter_next fuel he o it) as [[[rc|]|e] it0] eqn:E; [|injection Hr as <- <-; inversion HF; reflexivity..].
    destruct (user_ops fuel (prog j) it0) as [xs it1] eqn:Eu. destruct (get_offset_length fuel it1) as [info it3] eqn:Ei.
    destruct (run_iter fuel he o n prog (Datatypes.S j) it3) as [os en'] eqn:Er. injection Hr as <- ->.
    inversion HF as [|? ws ? wss' Hc HF']; subst. destruct Hc as (cs & r' & C1 & C2 & C3 & (off & len & C4) & C5).
    cbn [ob_reads ob_info ob_record] in *. subst xs info.
    destruct (iter_next_some fuel he o it rc it0 E) as (Hrec & _ & Hph). pose proof (next_reader fuel he o it rc it0 E) as Hrd.
    destruct (Hp j) as (m & Em).
    destruct (do_calls (rs_ops rops) (repeat (CRead (Some BUFF_SIZE)) m) (rc_stream rc)) as [ys st] eqn:Ed.
    pose proof (trace_user fuel _ it0 rc ys st Hrec Hrd Ed) as Hu.
    assert (map uop_of (repeat (CRead (Some BUFF_SIZE)) m) = repeat (URead (Some BUFF_SIZE)) m) as Emm
      by (clear; induction m as [|m IH]; cbn [repeat map uop_of]; [reflexivity|now rewrite IH]).
    rewrite Emm, <- Em, Eu in Hu. injection Hu as <- ->.
    pose proof (do_calls_length _ _ _ _ _ Ed) as Hlen. rewrite map_length, app_length, repeat_length in Hlen. cbn [List.length] in Hlen.
    assert (m = Datatypes.S (List.length cs)) as -> by lia.
    rewrite (collect_ok cs fuel (rc_stream rc) st C2 C3 Ed), C5.
    destruct (info_ok fuel he o _ it3 _ Ei) as (_ & _ & _ & Hnext).
    rewrite (IH (Datatypes.S j) it3 (it_set_rstream st it0) os wss' Hp); auto.
    right. symmetry. apply Hnext. exact Hph.
  Qed.
End Loop.

(** ** archives *)
Lemma Forall2_nth_build {A B} (P : A -> B -> Prop) l1 : forall l2, List.length l1 = List.length l2 ->
  (forall i a b, nth_error l1 i = Some a -> nth_error l2 i = Some b -> P a b) -> Forall2 P l1 l2.
Proof.
  induction l1 as [|a l1 IH]; intros [|b l2] Hl H; try discriminate; constructor.
  - now apply (H O).
  - apply IH; [now injection Hl|]. intros i x y. apply (H (Datatypes.S i)).
Qed.

Definition read_prog (prog : nat -> list uop) : Prop := forall i, exists m, prog i = repeat (URead (Some BUFF_SIZE)) (Datatypes.S m).
Lemma copy_any {zl : zenv} fuel he o M es n sha1 k v g it :
  lo_norec o = false -> hash_bytes sha1 ->
  Forall (fun e => readied fuel M (lo_verify o) e /\ rewritable fuel M (lo_verify o) e) es ->
  (forall prog, read_prog prog -> exists obs : list (@obs zl), run_iter fuel he o n prog 0 it = (obs, EndStop) /\ List.length obs = List.length es
     /\ forall i e ob, nth_error es i = Some e -> nth_error obs i = Some ob ->
          source (ob_record ob) e /\ ob_reads ob = map Ok (mem_user (prog i) (e_payload e)) /\ exists off len, ob_info ob = Ok (Some (off, len))) ->
  exists es' wss, copy_records (zl:=zl) fuel he n sha1 k (mk_wopts v None g) o it = (List.length es, concat wss, None)
    /\ Forall2 (fun e e' => rewritten sha1 e e' /\
         forall he' o', lo_norec o' = false -> lo_verify o' = lo_verify o -> digests_ready he' o' (e_rec e') (e_payload e') -> good_entry fuel he' o' M [] e') es es'
    /\ Forall2 (fun e' ws => exists w0, concat w0 = e_text e' /\ ws = if g then gz_writes k (kinit k) w0 true else w0) es' wss.
Proof.
  intros Hno Hsha Hrw Hrun.
  assert (exists css : list (list bytes), Forall2 (fun (e : entry) cs =>
      mem_user (repeat (URead (Some BUFF_SIZE)) (Datatypes.S (List.length cs))) (e_payload e) = cs ++ [[]]
      /\ Forall (fun x => x <> []) cs /\ concat cs = e_payload e /\ (List.length cs <= List.length (e_payload e))%nat) es css) as (css & Hcss).
  { clear. induction es as [|e es (css & IH)]; [exists []; constructor|].
    destruct (mem_chunks _ (e_payload e) (le_n _)) as (cs & H). exists (cs :: css). now constructor. }
  set (prog := fun i => repeat (URead (Some BUFF_SIZE)) (Datatypes.S (List.length (nth i css [])))).
  assert (Hlc : List.length css = List.length es) by (clear - Hcss; induction Hcss; cbn; auto).
  destruct (Hrun prog) as (obs & E & Hl & Hob); [intros i; unfold prog; eauto|].
  assert (Hall : forall i e ob cs, nth_error es i = Some e -> nth_error obs i = Some ob -> nth_error css i = Some cs ->
     exists e' ws w0, copied fuel sha1 k (mk_wopts v None g) ob ws /\ (rewritten sha1 e e' /\
         forall he' o', lo_norec o' = false -> lo_verify o' = lo_verify o -> digests_ready he' o' (e_rec e') (e_payload e') -> good_entry fuel he' o' M [] e')
       /\ concat w0 = e_text e' /\ ws = if g then gz_writes k (kinit k) w0 true else w0).
  { intros i e ob cs H1 H2 H3. destruct (Hob i e ob H1 H2) as (Hsrc & Hreads & Hplace).
    rewrite Forall_forall in Hrw. destruct (Hrw _ (nth_error_In _ _ H1)) as [Hrd Hre].
    destruct (rewrite_any fuel sha1 o M (ob_record ob) e Hrd Hno Hsha Hre Hsrc) as (w0 & r' & e' & W & Et & Hrew & Hgood).
    assert (HC : mem_user (repeat (URead (Some BUFF_SIZE)) (Datatypes.S (List.length cs))) (e_payload e) = cs ++ [[]]
      /\ Forall (fun x => x <> []) cs /\ concat cs = e_payload e /\ (List.length cs <= List.length (e_payload e))%nat).
    { clear - Hcss H1 H3. revert i H1 H3. induction Hcss as [|x c es css Hx _ IH]; intros [|i] H1 H3; try discriminate.
      - injection H1 as ->. injection H3 as ->. exact Hx.
      - eauto. }
    destruct HC as (C1 & C2 & C3 & C4).
    exists e', (if g then gz_writes k (kinit k) w0 true else w0), w0. split; [|split; [now split|split; [now symmetry|reflexivity]]].
    exists cs, r'. split; [|split; [exact C2|split; [|split]]].
    - rewrite Hreads. unfold prog. rewrite (nth_error_nth css i [] H3). now rewrite C1.
    - destruct Hrd as (_ & _ & _ & _ & Hv & _ & Hblk). apply view_suffix in Hv. unfold lenZ in Hv. apply Nat2Z.inj_le in Hv.
      eapply Nat.le_lt_trans; [exact C4|]. eapply Nat.le_lt_trans; [exact Hv|]. eapply Nat.lt_le_trans; [|exact Hblk]. lia.
    - exact Hplace.
    - rewrite C3. unfold write_record. cbn [wo_filter wo_gzip]. rewrite W. destruct g; reflexivity. }
  assert (exists es' wss, Forall2 (copied fuel sha1 k (mk_wopts v None g)) obs wss
    /\ Forall2 (fun e e' => rewritten sha1 e e' /\
         forall he' o', lo_norec o' = false -> lo_verify o' = lo_verify o -> digests_ready he' o' (e_rec e') (e_payload e') -> good_entry fuel he' o' M [] e') es es'
    /\ Forall2 (fun e' ws => exists w0, concat w0 = e_text e' /\ ws = if g then gz_writes k (kinit k) w0 true else w0) es' wss)
    as (es' & wss & F1 & F2 & F3).
  { clear - Hall Hl Hlc. revert obs css Hl Hlc Hall. induction es as [|e es IH]; intros [|ob obs] [|cs css] Hl Hlc Hall; try discriminate.
    - exists [], []. repeat split; constructor.
    - destruct (IH obs css ltac:(now injection Hl) ltac:(now injection Hlc)) as (es' & wss & F1 & F2 & F3).
      { intros i e0 ob0 cs0. apply (Hall (Datatypes.S i)). }
      destruct (Hall O e ob cs eq_refl eq_refl eq_refl) as (e' & ws & w0 & A & B & C & D).
      exists (e' :: es'), (ws :: wss). split; [now constructor|]. split; [now constructor|]. constructor; [|exact F3]. now exists w0. }
  exists es', wss. split; [|now split].
  rewrite <- Hl. apply (copy_loop fuel he sha1 k (mk_wopts v None g) o prog n EndStop 0%nat it _ obs wss).
  - intros i. unfold prog. eauto.
  - now left.
  - exact E.
  - exact F1.
Qed.
Lemma read_prog_ok prog M i : read_prog prog -> nonneg_ops (prog i) /\ limited_lines M (prog i) /\ no_lines (prog i).
Proof.
  intros H. destruct (H i) as (m & ->). generalize (Datatypes.S m). clear. intros m.
  split; [|split]; (induction m as [|m IH]; [constructor|]); cbn [repeat]; constructor; try exact IH; try exact I. vm_compute; discriminate.
Qed.

Lemma copy_archive {zl : zenv} fuel he o M sched data es n sha1 k v g :
  good_archive every zl fuel he o M 0 sched data es -> lo_norec o = false -> lo_ensure o = false -> hash_bytes sha1 ->
  Forall (fun e => rewritable fuel M (lo_verify o) (fst e)) es -> (List.length es < n)%nat ->
  exists es' wss, copy_records (zl:=zl) fuel he n sha1 k (mk_wopts v None g) o (iter_new (mk_raw data 0 sched) BUFF_SIZE None)
                  = (List.length es, concat wss, None)
    /\ Forall2 (fun e e' => rewritten sha1 (fst e) e' /\
         forall he' o', lo_norec o' = false -> lo_verify o' = lo_verify o -> digests_ready he' o' (e_rec e') (e_payload e') -> good_entry fuel he' o' M [] e') es es'
    /\ Forall2 (fun e' ws => exists w0, concat w0 = e_text e' /\ ws = if g then gz_writes k (kinit k) w0 true else w0) es' wss.
Proof.
  intros HG Hno Hen Hsha Hrw Hn.
  destruct (copy_any (zl:=zl) fuel he o M (map fst es) n sha1 k v g (iter_new (mk_raw data 0 sched) BUFF_SIZE None) Hno Hsha) as (es' & wss & E & F1 & F2).
  - rewrite Forall_forall in *. intros e He. apply in_map_iff in He as ([e0 [off len]] & <- & He). cbn [fst]. destruct (archive_entry _ _ _ _ _ _ _ _ _ _ _ _ HG He) as [Hge Hef].
    split; [now apply (good_readied fuel he o M [])|exact (Hrw _ He)].
  - intros prog Hp. destruct (archive_run every fuel he o M 0 sched data es prog None n HG Hen ltac:(discriminate) Hn) as (obs & E & Hl & Hob).
    { intros i. destruct (read_prog_ok prog M i Hp) as (A & B & _). now split. }
    { intros i _ _ _ _. now destruct (read_prog_ok prog M i Hp) as (_ & _ & C). }
    exists obs. split; [exact E|]. split; [now rewrite map_length|]. intros i e ob H1 H2. rewrite nth_error_map in H1.
    destruct (nth_error es i) as [[e0 [off len]]|] eqn:Ee; [|discriminate]. injection H1 as <-. pose proof (Hob i e0 off len ob Ee H2) as Hobs. cbn [fst].
    split; [exact (observed_source _ _ _ _ _ _ _ Hobs)|]. split; [exact (ob_data _ _ _ _ _ _ _ _ _ Hobs)|]. exists off, len. exact (ob_place _ _ _ _ _ _ _ _ _ Hobs).
  - rewrite map_length in E. exists es', wss. split; [exact E|]. split; [|exact F2]. clear - F1.
    revert es' F1. induction es as [|x es IH]; intros es' F1; inversion F1; subst; constructor; auto.
Qed.

(** writing any record that was read completely and whose HTTP headers are written as read *)
Lemma frame_one {zl : zenv} fuel sha1 he o M (rc : record (breader zl raw)) e hb :
  good_entry fuel he o M [] e -> lo_norec o = false -> enough fuel (e_text e) -> hash_bytes sha1 -> source rc e ->
  (occurs (lit "Content-Length") (w_headers (e_rec e)) <= 1)%nat ->
  (w_value "WARC-Type" (e_rec e) = Some (lit "revisit") -> e_payload e = []) ->
  (osah_bool (e_http e) = false -> w_block (e_rec e) = e_payload e) -> http_block None (e_http e) hb ->
  exists ws r' hs', write_plain fuel sha1 None (read_wrec rc (e_payload e)) = (Ok tt, ws, r')
    /\ is_record (w_version (e_rec e)) hs' (hb ++ e_payload e) (concat ws)
    /\ value_of (lit "Content-Length") hs' = Some (str_of_Z (lenZ (hb ++ e_payload e))).
Proof.
  intros (Hwf & Ht & Hv & _) Hn Hf Hsha (S1 & S2 & S3 & S4 & S5 & S6 & S7 & S8) W1 W2 W3 Hb.
  rewrite Hn in Hv. destruct Hwf as (Hver & Hwh & Huri & cl & Hcl & Hint).
  pose proof (view_suffix fuel false (lo_verify o) _ _ _ Hv) as Hsuf.
  set (r := read_wrec rc (e_payload e)).
  assert (Er : ps_rest (wr_stream r) = e_payload e) by (unfold ps_rest; destruct (e_payload e); reflexivity).
  assert (Hblk : (List.length (w_block (e_rec e)) + 3 <= fuel)%nat).
  { destruct Ht as (hd & _ & E). unfold enough in Hf. rewrite E, !app_length in Hf. lia. }
  assert (Hlen : (List.length (e_payload e) < fuel)%nat).
  { clear - Hsuf Hblk. unfold lenZ in Hsuf. lia. }
  assert (Hb' : http_block None (wr_http r) hb) by (change (wr_http r) with (rc_http rc); now rewrite S7).
  assert (Hpay : (if w_only r then [] else ps_rest (wr_stream r)) = e_payload e).
  { rewrite Er. destruct (w_only r) eqn:E; [|reflexivity]. symmetry. apply W2. rewrite <- S1. apply otype_is_spec. exact E. }
  assert (Hlo : len_ok r).
  { unfold len_ok. change (wr_length r) with (rc_length rc). change (wr_http r) with (rc_http rc). change (wr_plen r) with (Some (rc_plen rc)).
    rewrite S5, S7, S8, Er. destruct (osah_bool (e_http e)) eqn:Eo; (split; [|intros X; right]); [reflexivity| | |].
    - apply W2. rewrite <- S1. apply otype_is_spec. exact X.
    - now rewrite W3.
    - apply W2. rewrite <- S1. apply otype_is_spec. exact X. }
  assert (Hwl : w_len hb r = Some (lenZ (hb ++ e_payload e))) by (rewrite (w_len_ok None r hb Hlo Hb'), Hpay; reflexivity).
  set (F := w_final sha1 hb r).
  assert (HwF : wfs F).
  { apply final_wf with (n := lenZ (hb ++ e_payload e)); [exact Hsha| | |exact Hwl|apply lenZ_nonneg].
    - unfold wfs. change (wr_headers r) with (rc_headers rc). now rewrite S3.
    - change (wr_ctype r) with (rc_ctype rc). rewrite S6. destruct (w_value "Content-Type" (e_rec e)) as [c|] eqn:Ec; [|exact I].
      unfold w_value in Ec. rewrite value_of_hget, <- S3 in Ec. apply (wf_get CT c (rc_headers rc)); [|exact Ec]. unfold wfs. now rewrite S3. }
  destruct (w_final_proto sha1 hb r) as [P1 P2]. fold F in P1, P2. change (wr_headers r) with (rc_headers rc) in P1, P2.
  assert (Hver' : In (sh_proto F) WARC_TYPES) by (rewrite P1, S2; exact Hver).
  destruct (wf_to_bytes F Hver' ltac:(congruence) HwF) as (head & Ehd).
  assert (Hps : ps_ok (wr_stream r)) by (unfold ps_ok; cbn; lia).
  rewrite <- Er in Hlen. pose proof (write_plain_fwd fuel sha1 None r hb Hps Hlen Hb') as W. fold F in W. rewrite Ehd in W.
  destruct W as (ws & r' & Ew & Eh & Ec & _).
  exists ws, r', (sh_headers F). split; [exact Ew|]. split.
  - rewrite <- S2, <- P1. eapply is_record_ok; [congruence| |exact Ehd|].
    + intros X. rewrite X in Hver'. cbn in Hver'. repeat destruct Hver' as [Hver'|Hver']; try discriminate. contradiction.
    + rewrite Ec, Hpay, <- app_assoc. reflexivity.
  - rewrite value_of_hget. change (hget CL (sh_headers F)) with (get_header CL F). unfold F. rewrite w_final_CL; [now rewrite Hwl|].
    change (wr_headers r) with (rc_headers rc). now rewrite S3.
Qed.

(** ** digests *)
Lemma fresh_judged he sha1 x : he (lit "sha1") = Some sha1 -> judged he x (Some (sha1_text sha1 x)) VGood.
Proof.
  intros H. apply (J_good he x _ (lit "sha1") (b32encode (sha1 x)) sha1); [|exact H|now left].
  split; [reflexivity|]. cbn. intuition discriminate.
Qed.
Lemma fresh_judgeable he sha1 x : henv_ok he -> he (lit "sha1") = Some sha1 -> judgeable he (Some (sha1_text sha1 x)).
Proof.
  intros Hh H data. assert (Hd : is_digest (sha1_text sha1 x) (lit "sha1") (b32encode (sha1 x))).
  { split; [reflexivity|]. cbn. intuition discriminate. }
  destruct (Hh _ _ H) as (n & _ & Hn). destruct (list_eq_dec N.eq_dec (sha1 x) (sha1 data)) as [E|E].
  - exists VGood. apply (J_good _ _ _ _ _ sha1 Hd H). left. now rewrite E.
  - exists VBad. apply (J_bad _ _ _ _ _ sha1 (sha1 x) Hd H); [now left| |apply Hn|exact E]. now rewrite !(proj1 (Hn _)).
Qed.

(** ** a gzip file whose last member holds several records *)
Lemma copied_one {zl : zenv} fuel sha1 k v g he o M e off len (ob : @obs zl) cs :
  good_entry fuel he o M [] e -> lo_norec o = false -> enough fuel (e_text e) -> hash_bytes sha1 -> rewritable fuel M (lo_verify o) e ->
  mem_user (repeat (URead (Some BUFF_SIZE)) (Datatypes.S (List.length cs))) (e_payload e) = cs ++ [[]] ->
  Forall (fun x => x <> []) cs -> concat cs = e_payload e -> (List.length cs <= List.length (e_payload e))%nat ->
  observed he o (e_rec e) (e_http e) (e_payload e) off len (repeat (URead (Some BUFF_SIZE)) (Datatypes.S (List.length cs))) ob ->
  exists ws, copied fuel sha1 k (mk_wopts v None g) ob ws.
Proof.
  intros Hge Hno Hef Hsha Hre C1 C2 C3 C4 Hobs.
  destruct (rewrite_one fuel sha1 he o M (ob_record ob) e Hge Hno Hef Hsha Hre (observed_source _ _ _ _ _ _ _ Hobs)) as (w0 & r' & e' & W & _).
  exists (if g then gz_writes k (kinit k) w0 true else w0), cs, r'. split; [|split; [exact C2|split; [|split]]].
  - pose proof (ob_data _ _ _ _ _ _ _ _ _ Hobs) as D. rewrite D. now rewrite C1.
  - pose proof (entry_payload _ _ _ _ _ _ Hge) as HP. unfold enough in Hef. unfold lenZ in HP. apply Nat2Z.inj_le in HP.
    eapply Nat.le_lt_trans; [exact C4|]. eapply Nat.le_lt_trans; [exact HP|]. eapply Nat.lt_le_trans; [|exact Hef]. rewrite Nat.add_comm. cbn. lia.
  - exists off, len. exact (ob_place _ _ _ _ _ _ _ _ _ Hobs).
  - rewrite C3. unfold write_record. cbn [wo_filter wo_gzip]. rewrite W. destruct g; reflexivity.
Qed.

Lemma copyfileobj_ok {zl : zenv} fuel size : 0 < size -> forall n c (b : breader zl raw), (List.length c < n)%nat ->
  (forall ks, Forall nonneg ks -> fst (run_calls (br_ops raw_ops fuel) (map CRead ks) b) = map Ok (fst (mem_calls (map CRead ks) c))) ->
  copyfileobj fuel n size b = Ok c.
Proof.
  intros Hs. induction n as [|n IH]; intros c b Hc H; [lia|]. cbn [copyfileobj].
  assert (E : exists b', br_read raw_ops fuel (Some size) b = (Ok (read_of (Some size) c), b')
    /\ forall ks, Forall nonneg ks -> fst (run_calls (br_ops raw_ops fuel) (map CRead ks) b') = map Ok (fst (mem_calls (map CRead ks) (dropZ (lenZ (read_of (Some size) c)) c)))).
  { assert (K : forall ks, Forall nonneg ks -> Forall nonneg (Some size :: ks)) by (intros ks Hk; constructor; [cbn; lia|exact Hk]).
    pose proof (H [Some size] (K [] ltac:(constructor))) as H1. cbn [map run_calls do_call br_ops o_read mem_calls fst] in H1.
    destruct (br_read raw_ops fuel (Some size) b) as [[x|e] b'] eqn:Eb; [|discriminate]. cbn [fst] in H1. injection H1 as ->.
    exists b'. split; [reflexivity|]. intros ks Hk. specialize (H (Some size :: ks) (K ks Hk)).
    cbn [map run_calls do_call br_ops o_read mem_calls] in H. rewrite Eb in H.
    destruct (run_calls (br_ops raw_ops fuel) (map CRead ks) b') as [l s]. destruct (mem_calls (map CRead ks) _) as [l' s'].
    cbn [fst map] in *. now injection H as ->. }
  destruct E as (b' & -> & Hnext). pose proof (read_of_split (Some size) c) as Sp.
  assert (Hz : read_of (Some size) c = [] -> c = []).
  { intros X. rewrite X in Sp. destruct c as [|a c]; [reflexivity|]. exfalso. unfold read_of in X.
    destruct (size <? 0) eqn:Y; [lia|]. cbn [takeZ] in X. destruct (0 <? size) eqn:Z; [discriminate|lia]. }
  destruct (read_of (Some size) c) as [|a x] eqn:Er; [now rewrite Hz|].
  rewrite (IH (dropZ (lenZ (a :: x)) c) b'); [now rewrite Sp| |exact Hnext].
  rewrite <- Sp in Hc at 1. rewrite app_length in Hc. cbn [List.length] in Hc. lia.
Qed.
