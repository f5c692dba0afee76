(** * Thm_Headers: proofs of the theorems restated in Props_Headers.v *)
From Coq Require Import String List ZArith NArith Bool Lia.
From Coq Require Import ZifyBool ZifyNat ZifyN.
From Verif Require Import PyBase Utf8 Headers HeaderSpec Streams StreamSpec.
Import ListNotations.
Open Scope Z_scope.

From Verif Require Import Facts HeaderProofs StreamProofs.

Lemma is_ascii_spec s : is_ascii s = true <-> ascii_text s.
Proof.
  unfold is_ascii, ascii_text. rewrite forallb_forall. split; intros H c Hc; specialize (H c Hc); lia.
Qed.
Lemma ascii_scalar s : ascii_text s -> scalar_text s.
Proof. intros H c Hc. specialize (H c Hc). unfold is_scalar, is_surrogate. lia. Qed.
Lemma enc1_byte c b : is_scalar c = true -> In b (utf8_enc1 c) -> (b < 256)%N.
Proof.
  unfold is_scalar, is_surrogate, utf8_enc1. intros H.
  destruct (c <? 128)%N eqn:E1; [|destruct (c <? 2048)%N eqn:E2; [|destruct (c <? 65536)%N eqn:E3]]; cbn [In]; intros Hb;
  repeat (destruct Hb as [Hb|Hb]; [divmod|]); contradiction.
Qed.
Lemma enc_byte s b : scalar_text s -> In b (enc s) -> (b < 256)%N.
Proof. unfold enc. rewrite in_flat_map. intros H (c & Hc & Hb). eapply enc1_byte; eauto. Qed.

Lemma hexdigU_val d : (d < 16)%N -> hexval (hexdigU d) = Some d.
Proof.
  intros H. unfold hexdigU, hexval. destruct (d <? 10)%N eqn:E.
  - replace ((48 <=? 48 + d) && (48 + d <=? 57))%N with true by lia. f_equal. lia.
  - replace ((48 <=? 55 + d) && (55 + d <=? 57))%N with false by lia.
    replace ((97 <=? 55 + d) && (55 + d <=? 102))%N with false by lia.
    replace ((65 <=? 55 + d) && (55 + d <=? 70))%N with true by lia. f_equal. lia.
Qed.

Lemma quote_byte_ascii b c : (b < 256)%N -> In c (quote_byte b) -> (c < 128)%N.
Proof.
  unfold quote_byte. destruct (unreserved b) eqn:E.
  - unfold unreserved in E. cbn. lia.
  - cbn [In]. unfold hexdigU. intros Hb [<-|[<-|[<-|[]]]]; [lia| |];
    [destruct (b / 16 <? 10)%N eqn:E2|destruct (b mod 16 <? 10)%N eqn:E2]; divmod.
Qed.
Lemma quote_ascii s : scalar_text s -> ascii_text (quote s).
Proof.
  intros H c. unfold quote. rewrite in_flat_map. intros (b & Hb & Hc). eapply quote_byte_ascii; [|exact Hc].
  eapply enc_byte; eauto.
Qed.

Lemma pct_quote bs : forall fuel, (forall b, In b bs -> (b < 256)%N) -> (List.length (flat_map quote_byte bs) < fuel)%nat ->
  pct_decode fuel (flat_map quote_byte bs) = Some bs.
Proof.
  induction bs as [|b bs IH]; intros fuel Hb Hf; (destruct fuel as [|fuel]; [cbn in Hf; lia|]); [reflexivity|].
  cbn [flat_map] in *. rewrite app_length in Hf. unfold quote_byte in *. destruct (unreserved b) eqn:E.
  - cbn [app pct_decode]. replace (b =? 37)%N with false by (unfold unreserved in E; lia).
    rewrite IH; [reflexivity| |cbn in Hf; lia]. intros x Hx. apply Hb. now right.
  - cbn [app pct_decode]. cbn [List.length] in Hf. specialize (Hb b (or_introl eq_refl)) as Hb0.
    rewrite !hexdigU_val by divmod. change ((37 =? 37)%N) with true. cbv iota.
    rewrite IH; [|intros x Hx; apply Hb; now right|lia]. cbn. f_equal. f_equal. divmod.
Qed.

Lemma quote_pct s : scalar_text s -> pct_decode (S (List.length (quote s))) (quote s) = utf8_encode s.
Proof.
  intros H. unfold quote. change (flat_map utf8_enc1 s) with (enc s). rewrite pct_quote; [|intros b; now apply enc_byte|lia].
  unfold utf8_encode. assert (forallb is_scalar s = true) as -> by (now rewrite forallb_forall). reflexivity.
Qed.

Lemma not_ascii_false s : is_ascii s = false <-> ~ ascii_text s.
Proof. rewrite <- is_ascii_spec. destruct (is_ascii s); split; congruence || intros H; exfalso; auto. Qed.

Lemma encode_value_form v : scalar_text v -> (ascii_text v \/ ~ In 59%N v) -> ascii_form v (encode_value v).
Proof.
  intros Hs Hv. unfold encode_value. destruct (is_ascii v) eqn:Ea.
  - apply is_ascii_spec in Ea. repeat split; auto. contradiction.
  - apply not_ascii_false in Ea. destruct Hv as [Hv|Hv]; [contradiction|].
    assert (has_char 59 v = false) as ->.
    { unfold has_char. rewrite <- not_true_iff_false, existsb_exists. intros (x & Hx & E). apply N.eqb_eq in E. subst. contradiction. }
    cbn [negb]. repeat split; [now apply quote_ascii|contradiction|]. intros _. now apply quote_pct.
Qed.

Lemma ascii_text_app a b : ascii_text (a ++ b) <-> ascii_text a /\ ascii_text b.
Proof.
  unfold ascii_text. split.
  - intros H. split; intros c Hc; apply H, in_or_app; auto.
  - intros [Ha Hb] c Hc. apply in_app_or in Hc as []; auto.
Qed.
Lemma ascii_header_lines hs : ascii_text (header_lines None hs) <-> Forall (fun h => ascii_text (fst h) /\ ascii_text (snd h)) hs.
Proof.
  induction hs as [|[k v] hs IH].
  - split; [constructor|intros _ c []].
  - rewrite header_line_enc. rewrite !ascii_text_app, IH. split.
    + intros [((Hk & _ & Hv) & _) Hh]. constructor; auto.
    + intros H. inversion H as [|? ? [Hk Hv] Hh]; subst. cbn in Hk, Hv. repeat split; auto;
      intros c; cbn; intuition subst; reflexivity.
Qed.
Lemma ascii_first proto status : ascii_text proto -> ascii_text status -> ascii_text (first_line proto status).
Proof.
  intros Hp Hs. unfold first_line. cbv zeta.
  assert (H1 : ascii_text (if negb (is_nil proto) && negb (is_nil status) then proto ++ [32%N] else proto)).
  { destruct (_ && _); [|assumption]. apply ascii_text_app. split; [assumption|]. intros c [<-|[]]. reflexivity. }
  assert (H2 : forall x, ascii_text x -> ascii_text (if negb (is_nil x) then x ++ crlf else x)).
  { intros x Hx. destruct (negb (is_nil x)); [|assumption]. apply ascii_text_app. split; [assumption|].
    intros c [<-|[<-|[]]]; reflexivity. }
  apply H2. destruct (negb (is_nil status)); [|assumption]. apply ascii_text_app. auto.
Qed.
Lemma enc_ascii s : ascii_text s -> enc s = s.
Proof.
  induction s as [|c t IH]; intros H; [reflexivity|]. change (enc (c :: t)) with (utf8_enc1 c ++ enc t).
  unfold utf8_enc1. specialize (H c (or_introl eq_refl)) as Hc. replace (c <? 128)%N with true by lia.
  cbn. f_equal. apply IH. intros x Hx. apply H. now right.
Qed.

Lemma raw_lines T fuel : reads_lines (o_readline raw_ops None) (raw_R T fuel).
Proof. exact (raw_exact_full_line T fuel). Qed.

Lemma C16_get_header_first_pf :
  forall name dflt s pre k v post,
  sh_headers s = pre ++ (k, v) :: post -> ci_eq k name -> Forall (fun h => ~ named name h) pre ->
  get_header_default name dflt s = Some v.
Proof.
  intros name dflt s pre k v post E Hk Hp. unfold get_header_default, get_header. rewrite E. assert (H : hget name (pre ++ (k, v) :: post) = Some v) by now apply hget_first. unfold header, str in *. now rewrite H.
Qed.

Lemma C16_get_header_none_pf :
  forall name dflt s, Forall (fun h => ~ named name h) (sh_headers s) -> get_header_default name dflt s = dflt.
Proof.
  intros name dflt s H. unfold get_header_default, get_header. now rewrite hget_None.
Qed.

Lemma C16_add_header_pf :
  forall name value s,
  sh_headers (add_header name value s) = sh_headers s ++ [(name, value)]
  /\ sh_status (add_header name value s) = sh_status s /\ sh_proto (add_header name value s) = sh_proto s
  /\ get_header name (add_header name value s)
     = match get_header name s with Some v => Some v | None => Some value end.
Proof.
  intros name value s. repeat split. unfold get_header, add_header. cbn [set_headers sh_headers].
  destruct (hget name (sh_headers s)) as [v|] eqn:E.
  - apply hget_Some_inv in E as (pre & k & post & -> & Hk & Hp). rewrite <- app_assoc. now apply hget_first.
  - apply hget_None_inv in E. apply hget_first; [apply ci_eq_refl|assumption].
Qed.

Lemma C17_replace_last_pf :
  forall name value s,
  (forall pre k v post, sh_headers s = pre ++ (k, v) :: post -> ci_eq k name -> Forall (fun h => ~ named name h) post ->
     replace_header name value s = (Some v, set_headers s (pre ++ (k, value) :: post)))
  /\ (Forall (fun h => ~ named name h) (sh_headers s) ->
      replace_header name value s = (None, set_headers s (sh_headers s ++ [(name, value)]))).
Proof.
  intros name value s. split.
  - intros pre k v post. apply replace_header_last.
  - apply replace_header_none.
Qed.

Lemma C17_replace_get_partial_pf :
  forall name value s,
  (exists pre h post, sh_headers s = pre ++ h :: post /\ named name h
     /\ Forall (fun x => ~ named name x) pre /\ Forall (fun x => ~ named name x) post)
  \/ Forall (fun x => ~ named name x) (sh_headers s) ->
  let s' := replace_header_ name value s in
  get_header name s' = Some value
  /\ fst (replace_header name value s) = get_header name s
  /\ forall other, ~ ci_eq other name -> get_header other s' = get_header other s.
Proof.
  intros name value s H s'.
  assert (Hoth : forall other (pre : list header) k v v' (post : list header), ~ ci_eq other name -> ci_eq k name ->
     hget other (pre ++ (k, v) :: post) = hget other (pre ++ (k, v') :: post)).
  { intros other pre k v v' post Ho Hk. induction pre as [|[k0 v0] pre IH]; cbn [app hget]; [|now rewrite IH].
    assert (name_eq k other = false) as ->; [|reflexivity]. apply name_eq_not. intros Hc. apply Ho.
    apply (ci_eq_trans _ k); [now apply ci_eq_sym|assumption]. }
  destruct H as [(pre & [k v] & post & E & Hn & Hp & Hq)|H].
  - unfold s', replace_header_. rewrite (replace_header_last name value s pre k v post E Hn Hq).
    cbn [snd fst]. unfold get_header. cbn [set_headers sh_headers]. split; [now apply hget_first|]. split.
    + rewrite E. symmetry. now apply hget_first.
    + intros other Ho. rewrite E. now apply Hoth.
  - unfold s', replace_header_. rewrite (replace_header_none name value s H). cbn [snd fst]. unfold get_header. cbn [set_headers sh_headers].
    split; [apply hget_first; [apply ci_eq_refl|assumption]|]. split; [now rewrite hget_None|].
    intros other Ho. clear - Ho. induction (sh_headers s) as [|[k v] hs IH]; cbn [app hget].
    + assert (name_eq name other = false) as ->; [|reflexivity]. apply name_eq_not. intros Hc. apply Ho. now apply ci_eq_sym.
    + now rewrite IH.
Qed.

Lemma C17_replace_get_refuted_pf :
  exists name value s, get_header name (replace_header_ name value s) <> Some value.
Proof.
  exists (lit "Via"), (lit "c"), (sah_new [] [(lit "Via", lit "a"); (lit "Via", lit "b")] []). vm_compute. discriminate.
Qed.

Lemma C18_remove_last_pf :
  forall name s,
  (forall pre k v post, sh_headers s = pre ++ (k, v) :: post -> ci_eq k name -> Forall (fun h => ~ named name h) post ->
     remove_header name s = (true, set_headers s (pre ++ post)))
  /\ (Forall (fun h => ~ named name h) (sh_headers s) -> remove_header name s = (false, s)).
Proof.
  intros name s. split.
  - intros pre k v post. apply remove_header_last.
  - apply remove_header_none.
Qed.

Lemma C19_roundtrip_pf :
  forall (S : Type) (rl : S -> res bytes * S) (R : S -> bytes -> Prop) fuel p h,
  reads_lines rl R -> wf_block p h ->
  exists data, to_bytes None h = Ok data
    /\ forall s body, R s (data ++ body) -> enough fuel data ->
       exists h' s', parse rl fuel p None s = (Ok h', s') /\ R s' body
         /\ sh_proto h' = sh_proto h /\ sh_status h' = sh_status h /\ sh_headers h' = sh_headers h
         /\ (sah_bool h = true -> sah_eq h h' = true).
Proof.
  intros S rl R fuel p h HL Hwf.
  assert (Hsc : forallb is_scalar (to_str None h) = true).
  { destruct Hwf as (Hne & [Hp _] & _ & [Hs _] & _ & _ & _ & Hh). rewrite forallb_forall. intros c Hc. unfold to_str in Hc.
    rewrite (first_line_eq _ _ Hne) in Hc. apply in_app_or in Hc as [Hc|Hc].
    - apply in_app_or in Hc as [Hc|[<-|[<-|[]]]]; [|reflexivity..].
      unfold status_text in Hc. destruct (sh_status h) as [|y st]; [auto|]. apply in_app_or in Hc as [Hc|[<-|Hc]]; [auto|reflexivity|auto].
    - unfold header_lines in Hc. apply in_flat_map in Hc as ([k v] & Hkv & Hc). rewrite Forall_forall in Hh. specialize (Hh _ Hkv).
      destruct (line_text_header k v Hh) as [Hl _]. unfold header_line in Hc. cbn [fst snd] in Hc.
      rewrite (app_assoc (lit ": ") v crlf), app_assoc in Hc. apply in_app_or in Hc as [Hc|[<-|[<-|[]]]]; [auto|reflexivity..]. }
  exists (enc (to_str None h) ++ crlf). split.
  { unfold to_bytes, utf8_encode. now rewrite Hsc. }
  intros s body HR Hf. rewrite <- app_assoc in HR.
  destruct (parse_wf rl R HL fuel p h s body Hwf HR) as (s' & E & HR').
  { unfold enough in Hf. rewrite app_length in Hf. enough (List.length (sh_headers h) <= List.length (enc (to_str None h)))%nat by lia.
    unfold to_str. rewrite enc_app, app_length.
    enough (List.length (sh_headers h) <= List.length (enc (header_lines None (sh_headers h))))%nat by lia.
    clear. generalize (sh_headers h). intros hs. induction hs as [|[k v] hs IH]; [cbn; lia|].
    rewrite header_line_enc, !enc_app, !app_length, enc_crlf. cbn [List.length crlf]. lia. }
  eexists _, s'. split; [exact E|]. split; [assumption|]. cbn [sh_proto sh_status sh_headers]. do 3 (split; [reflexivity|]).
  destruct Hwf as (Hne & _). unfold sah_eq. cbn [sh_proto sh_status sh_headers]. rewrite !leqb_refl.
  assert (Hh : headers_eqb (sh_headers h) (sh_headers h) = true).
  { generalize (sh_headers h). intros hs. induction hs as [|[k v] hs IH]; [reflexivity|]. cbn [headers_eqb]. unfold header_eqb. now rewrite !leqb_refl, IH. }
  rewrite Hh. unfold sah_bool. cbn [sh_status sh_headers]. now intros ->.
Qed.

Lemma C19_file_pf :
  forall fuel p h body sched, wf_block p h ->
  exists data, to_bytes None h = Ok data
    /\ (enough fuel (data ++ body) ->
       exists h' s', parse (o_readline raw_ops None) fuel p None (raw_open (data ++ body) sched) = (Ok h', s')
         /\ rw_rest s' = body /\ rw_pos s' = lenZ data
         /\ sh_proto h' = sh_proto h /\ sh_status h' = sh_status h /\ sh_headers h' = sh_headers h).
Proof.
  intros fuel p h body sched Hwf.
  destruct (C19_roundtrip_pf raw (o_readline raw_ops None) (raw_R 0 fuel) fuel p h (raw_lines _ _) Hwf) as (data & Ed & _).
  exists data. split; [exact Ed|]. intros Hf.
  destruct (C19_roundtrip_pf raw (o_readline raw_ops None) (raw_R (lenZ (data ++ body)) fuel) fuel p h (raw_lines _ _) Hwf) as (data' & Ed' & H).
  assert (data' = data) by congruence. subst data'.
  destruct (H (raw_open (data ++ body) sched) body) as (h' & s' & E & (Hr & Hp & _) & H1 & H2 & H3 & _).
  { unfold raw_R. cbn [raw_open rw_rest rw_pos]. repeat split; [exact Hf]. }
  { unfold enough in *. rewrite app_length in Hf. lia. }
  exists h', s'. rewrite lenZ_app in Hp. repeat split; auto. lia.
Qed.

Lemma C20_stops_after_blank_pf :
  forall (S : Type) (rl : S -> res bytes * S) (R : S -> bytes -> Prop) fuel p s c,
  reads_lines rl R -> R s c -> enough fuel c ->
  exists block rest s', snd (parse rl fuel p None s) = s' /\ R s' rest /\ c = block ++ rest
    /\ (header_block block rest
        \/ (block = take_line c /\ exists m, fst (parse rl fuel p None s) = Err (ParserExn m))).
Proof.
  intros S rl R fuel p s c HL HR Hf.
  destruct (parse_any rl R HL fuel p s c HR Hf) as [(-> & s' & E & HR')|[(h & s' & rest & E & HR' & Hu & _)|(s' & E & HR' & _)]]; rewrite E; cbn [fst snd].
  - exists [], [], s'. repeat split; auto. left. exists [], []. repeat split; [constructor|]. right. split; [reflexivity|intros []].
  - destruct (upto_blank_block c rest Hu) as (block & -> & Hb). exists block, rest, s'. auto.
  - exists (take_line c), (drop_line c), s'. repeat split; auto; [now rewrite take_drop_line|]. right. eauto.
Qed.

Lemma C21_failures_pf :
  forall (S : Type) (rl : S -> res bytes * S) (R : S -> bytes -> Prop) fuel p s c,
  reads_lines rl R -> R s c -> enough fuel c ->
  let r := fst (parse rl fuel p None s) in
  let line1 := take_line c in
  let expected := exists q t, In q (p_list p) /\ upper (urstrip (decode_header line1)) = q ++ t in
  (r = Err EOFError <-> c = [])
  /\ (r = Err (ParserExn (decode_header line1)) <-> p_verify p = true /\ c <> [] /\ ~ blank line1 /\ ~ expected)
  /\ ((exists h, r = Ok h) <-> c <> [] /\ (p_verify p = false \/ blank line1 \/ expected))
  /\ ((exists h, r = Ok h) \/ r = Err EOFError \/ r = Err (ParserExn (decode_header line1))).
Proof.
  intros S rl R fuel p s c HL HR Hf r line1 expected.
  destruct (parse_any rl R HL fuel p s c HR Hf) as [(-> & s' & E & HR')|[(h & s' & rest & E & HR' & Hu & Hne & Hx)|(s' & E & HR' & Hne & Hnb & Hv & Hx)]];
  unfold r; rewrite E; cbn [fst].
  - split; [tauto|]. split; [split; [discriminate|intros (_ & H & _); contradiction]|].
    split; [split; [intros (h & [=])|intros [H _]; contradiction]|]. auto.
  - split; [split; [discriminate|contradiction]|]. fold line1 in Hx. split.
    { split; [discriminate|]. intros (Hv & _ & Hb & He). destruct Hx as [Hx|[Hx|(q & t & Hq & Ht)]]; [contradiction|congruence|].
      exfalso. apply He. exists q, t. auto. }
    split; [|left; eauto]. split; [|eauto]. intros _. split; [assumption|]. unfold expected. destruct Hx as [Hx|[Hx|(q & t & Hq & Ht)]]; auto. right. right. eauto.
  - split; [split; [discriminate|contradiction]|]. fold line1 in Hx, Hnb |- *.
    assert (Hne' : ~ expected) by (intros (q & t & Hq & Ht); exact (Hx q t Hq Ht)).
    split; [split; [auto|reflexivity]|]. split; [|auto]. split; [intros (h & [=])|].
    intros (_ & [H|[H|H]]); [congruence|contradiction..].
Qed.

Lemma C22_ascii_partial_pf :
  forall s, ascii_text (sh_proto s) -> ascii_text (sh_status s) ->
  Forall (fun h => ascii_text (fst h) /\ scalar_text (snd h) /\ (ascii_text (snd h) \/ ~ In 59%N (snd h))) (sh_headers s) ->
  exists s' b, to_ascii_bytes None s = (Ok b, s') /\ b = to_str None s' ++ crlf /\ ascii_text b
    /\ sh_proto s' = sh_proto s /\ sh_status s' = sh_status s
    /\ Forall2 (fun h h' => fst h' = fst h /\ ascii_form (snd h) (snd h')) (sh_headers s) (sh_headers s').
Proof.
  intros s Hp Hs Hh.
  assert (Hcr : ascii_text crlf) by (intros c [<-|[<-|[]]]; reflexivity).
  unfold to_ascii_bytes, ascii_encode. destruct (is_ascii (to_str None s)) eqn:E.
  - apply is_ascii_spec in E. exists s, (to_str None s ++ crlf). split; [reflexivity|]. split; [reflexivity|].
    split; [apply ascii_text_app; auto|]. do 2 (split; [reflexivity|]). unfold to_str in E. apply ascii_text_app in E as [_ E].
    apply ascii_header_lines in E. clear - E. induction E as [|[k v] hs [Hk Hv] _ IH]; constructor; [|assumption].
    split; [reflexivity|]. repeat split; auto. contradiction.
  - assert (E2 : ascii_text (to_str None (percent_encode s))).
    { unfold to_str. apply ascii_text_app. split; [now apply ascii_first|]. apply ascii_header_lines. cbn [percent_encode set_headers sh_headers].
      apply Forall_map. apply (Forall_impl _ (P := fun h => ascii_text (fst h) /\ scalar_text (snd h) /\ (ascii_text (snd h) \/ ~ In 59%N (snd h)))); [|assumption].
      intros [k v] (Hk & Hsv & Hv). cbn [fst snd] in *. split; [assumption|]. now apply encode_value_form. }
    pose proof (proj2 (is_ascii_spec _) E2) as E3. rewrite E3.
    exists (percent_encode s), (to_str None (percent_encode s) ++ crlf). split; [reflexivity|]. split; [reflexivity|].
    split; [apply ascii_text_app; auto|]. do 2 (split; [reflexivity|]). cbn [percent_encode set_headers sh_headers].
    clear - Hh. induction Hh as [|[k v] hs (Hk & Hsv & Hv) _ IH]; cbn [map]; constructor; [|assumption].
    cbn [fst snd] in *. split; [reflexivity|]. now apply encode_value_form.
Qed.

Lemma span_group_all g r : (forall c, In c g -> c <> 59%N /\ c <> 34%N) -> span_group (g ++ 34%N :: r) = (g, 34%N :: r).
Proof.
  induction g as [|c g IH]; intros H; [reflexivity|]. cbn [app span_group].
  destruct (H c (or_introl eq_refl)). replace ((c =? 59)%N || (c =? 34)%N) with false by lia.
  rewrite IH; [reflexivity|]. intros x Hx. apply H. now right.
Qed.
Lemma rx_sub_nil f : rx_sub f [] = []. Proof. now destruct f. Qed.
Lemma rx_sub_prefix a : forall fuel l, ~ In 61%N a -> rx_sub (List.length a + fuel) (a ++ l) = a ++ rx_sub fuel l.
Proof.
  induction a as [|c a IH]; intros fuel l H; [reflexivity|]. cbn [List.length Nat.add app rx_sub].
  destruct (N.eqb_spec c 61) as [->|Hc]; [exfalso; apply H; now left|]. rewrite IH; [reflexivity|]. intros Hi. apply H. now right.
Qed.

Lemma C22_parameter_partial_pf :
  forall a g, ascii_text a -> ~ In 61%N a -> In 59%N a -> scalar_text g -> ~ ascii_text g ->
  (forall c, In c g -> c <> 59%N /\ c <> 34%N) ->
  encode_value (a ++ lit "=""" ++ g ++ lit """") = a ++ lit "*=UTF-8''" ++ quote g
  /\ ascii_text (a ++ lit "*=UTF-8''" ++ quote g).
Proof.
  intros a g Ha Ha61 Ha59 Hg Hng Hgc.
  assert (Hout : ascii_text (a ++ lit "*=UTF-8''" ++ quote g)).
  { apply ascii_text_app. split; [assumption|]. apply ascii_text_app. split; [|now apply quote_ascii].
    apply is_ascii_spec. reflexivity. }
  split; [|exact Hout]. unfold encode_value.
  assert (Hna : ~ ascii_text (a ++ lit "=""" ++ g ++ lit """")).
  { rewrite !ascii_text_app. tauto. }
  rewrite (proj2 (not_ascii_false _) Hna).
  assert (has_char 59 (a ++ lit "=""" ++ g ++ lit """") = true) as ->.
  { unfold has_char. apply existsb_exists. exists 59%N. split; [apply in_or_app; auto|reflexivity]. }
  cbn [negb]. cbv zeta.
  assert (E : rx_sub (List.length (a ++ lit "=""" ++ g ++ lit """")) (a ++ lit "=""" ++ g ++ lit """") = a ++ lit "*=UTF-8''" ++ quote g).
  { rewrite app_length, rx_sub_prefix by assumption. f_equal. change (lit "=""") with [61%N; 34%N]. change (lit """") with [34%N].
    cbn [app List.length rx_sub]. change ((61 =? 61)%N) with true. cbv iota. unfold rx_match. change (is_quote 34) with true. cbv iota.
    rewrite span_group_all by assumption. destruct g as [|c g]; [exfalso; apply Hng; intros c []|].
    change (drop_quote [34%N]) with (@nil N). unfold do_encode. now rewrite app_nil_r. }
  rewrite E. destruct (leqb (a ++ lit "*=UTF-8''" ++ quote g) (a ++ lit "=""" ++ g ++ lit """")) eqn:El; [|reflexivity].
  apply leqb_eq in El. rewrite <- El in Hna. contradiction.
Qed.

Lemma C22_ascii_refuted_pf :
  exists s, ascii_text (sh_proto s) /\ ascii_text (sh_status s) /\ Forall (fun h => ascii_text (fst h) /\ scalar_text (snd h)) (sh_headers s)
  /\ fst (to_ascii_bytes None s) = Err UnicodeErr.
Proof.
  exists (sah_new (lit "200 OK") [(lit "A", [233%N] ++ lit "; b=c")] (lit "HTTP/1.0")).
  split; [apply is_ascii_spec; reflexivity|]. split; [apply is_ascii_spec; reflexivity|]. split; [|reflexivity].
  constructor; [|constructor]. cbn [fst snd]. split; [apply is_ascii_spec; reflexivity|].
  unfold scalar_text. apply forallb_forall. reflexivity.
Qed.

Lemma C23_injection_refuted_pf :
  exists h, List.length (sh_headers h) = 1%nat
  /\ exists data h' s', to_bytes None h = Ok data
     /\ parse (o_readline raw_ops None) 60 (mk_parser [lit "HTTP/1.0"] true) None (raw_open data []) = (Ok h', s')
     /\ List.length (sh_headers h') = 2%nat.
Proof.
  exists (sah_new (lit "200 OK") [(lit "A", lit "b" ++ crlf ++ lit "Set-Cookie: x")] (lit "HTTP/1.0")). split; [reflexivity|].
  eexists _, _, _. split; [vm_compute; reflexivity|]. split; [vm_compute; reflexivity|reflexivity].
Qed.

Lemma C23_no_injection_partial_pf :
  forall (S : Type) (rl : S -> res bytes * S) (R : S -> bytes -> Prop) fuel p h,
  reads_lines rl R -> wf_block p h ->
  exists data, to_bytes None h = Ok data
    /\ forall s body, R s (data ++ body) -> enough fuel data ->
       exists h' s', parse rl fuel p None s = (Ok h', s') /\ List.length (sh_headers h') = List.length (sh_headers h).
Proof.
  intros S rl R fuel p h HL Hwf. destruct (C19_roundtrip_pf S rl R fuel p h HL Hwf) as (data & Ed & H). exists data. split; [exact Ed|].
  intros s body HR Hf. destruct (H s body HR Hf) as (h' & s' & E & _ & _ & _ & Hh & _). exists h', s'. now rewrite Hh.
Qed.

(** the values of the headers called [name], in order *)
Definition values (name : str) (hs : list header) : list str :=
  map snd (filter (fun h => leqb (map lower1 (fst h)) (map lower1 name)) hs).

Lemma lower_idem n : lower (lower n) = lower n.
Proof.
  unfold lower. rewrite map_map. apply map_ext. intros c. unfold lower1. destruct ((65 <=? c) && (c <=? 90))%N eqn:E; [|now rewrite E].
  replace ((65 <=? c + 32) && (c + 32 <=? 90))%N with false by lia. reflexivity.
Qed.
Lemma values_spec name (h : header) : leqb (map lower1 (fst h)) (map lower1 name) = name_eq (fst h) name.
Proof. reflexivity. Qed.
Lemma replace_cases name value s :
  (exists (pre : list header) k v (post : list header), sh_headers s = pre ++ (k, v) :: post /\ ci_eq k name
      /\ Forall (fun h => ~ named name h) post /\ sh_headers (replace_header_ name value s) = pre ++ (k, value) :: post)
  \/ Forall (fun h => ~ named name h) (sh_headers s) /\ sh_headers (replace_header_ name value s) = sh_headers s ++ [(name, value)].
Proof.
  assert (D : forall (l : list header), Forall (fun h => ~ named name h) l \/ exists pre k v post, l = pre ++ (k, v) :: post /\ ci_eq k name
      /\ Forall (fun h => ~ named name h) post).
  { induction l as [|[k v] l IH]; [left; constructor|]. destruct IH as [IH|(pre & k' & v' & post & -> & Hk & Hp)].
    - destruct (name_eq k name) eqn:E.
      + right. exists [], k, v, l. split; [reflexivity|]. split; [now apply name_eq_spec|assumption].
      + left. constructor; [|assumption]. now apply name_eq_not in E.
    - right. exists ((k, v) :: pre), k', v', post. now split. }
  destruct (D (sh_headers s)) as [H|(pre & k & v & post & E & Hk & Hp)].
  - right. split; [exact H|]. unfold replace_header_. now rewrite (replace_header_none _ _ _ H).
  - left. exists pre, k, v, post. split; [exact E|]. split; [exact Hk|]. split; [exact Hp|].
    unfold replace_header_. now rewrite (replace_header_last name value s pre k v post E Hk Hp).
Qed.
Lemma values_none name l : Forall (fun h => ~ named name h) l -> values name l = [].
Proof.
  unfold values. intros H. induction H as [|h l H _ IH]; [reflexivity|]. cbn [filter]. rewrite values_spec.
  apply name_eq_not in H. now rewrite H.
Qed.
Lemma values_app name a b : values name (a ++ b) = values name a ++ values name b.
Proof. unfold values. now rewrite filter_app, map_app. Qed.
Lemma values_one name k v l : ci_eq k name -> values name ((k, v) :: l) = v :: values name l.
Proof. intros H. unfold values. cbn [filter]. rewrite values_spec. apply name_eq_spec in H. cbn [fst]. now rewrite H. Qed.
Lemma values_replace name value s :
  values name (sh_headers (replace_header_ name value s)) = removelast (values name (sh_headers s)) ++ [value].
Proof.
  destruct (replace_cases name value s) as [(pre & k & v & post & E & Hk & Hp & ->)|[H ->]].
  - rewrite E, !values_app, !values_one, (values_none name post Hp) by assumption.
    rewrite removelast_app by discriminate. cbn [removelast]. now rewrite app_nil_r.
  - rewrite values_app, (values_none _ _ H), values_one by apply ci_eq_refl. reflexivity.
Qed.
Lemma filter_replace (P : str -> bool) name value s : (forall k, ci_eq k name -> P k = false) ->
  filter (fun h => P (fst h)) (sh_headers (replace_header_ name value s)) = filter (fun h => P (fst h)) (sh_headers s).
Proof.
  intros HP. destruct (replace_cases name value s) as [(pre & k & v & post & E & Hk & Hp & E')|[H E']]; rewrite E'.
  - rewrite E, !filter_app. cbn [filter fst]. now rewrite (HP k Hk).
  - rewrite filter_app. cbn [filter fst]. rewrite (HP name (ci_eq_refl name)). apply app_nil_r.
Qed.
Lemma values_other n name value s : ~ ci_eq name n ->
  values n (sh_headers (replace_header_ name value s)) = values n (sh_headers s).
Proof.
  intros H. unfold values. f_equal. apply (filter_replace (fun k => leqb (map lower1 k) (map lower1 n))).
  intros k Hk. apply (name_eq_not k n). intros Hc. apply H. apply (ci_eq_trans _ k); [now apply ci_eq_sym|assumption].
Qed.
Lemma replace_status name value s : sh_status (replace_header_ name value s) = sh_status s /\ sh_proto (replace_header_ name value s) = sh_proto s.
Proof. unfold replace_header_, replace_header. destruct (rep_rev _ _ _) as [[? ?]|]; now split. Qed.
Lemma lits_differ a b : leqb (map lower1 a) (map lower1 b) = false -> ~ ci_eq a b.
Proof. intros H. now apply name_eq_not. Qed.

Lemma C70_add_range_pf :
  forall start len total s,
  let s' := add_range start len total s in
  sh_status s' = lit "206 Partial Content" /\ sh_proto s' = sh_proto s
  /\ values (lit "content-range") (sh_headers s')
     = removelast (values (lit "content-range") (sh_headers s))
       ++ [lit "bytes " ++ str_of_Z start ++ lit "-" ++ str_of_Z (start + (len - 1)) ++ lit "/" ++ str_of_Z total]
  /\ values (lit "content-length") (sh_headers s')
     = removelast (values (lit "content-length") (sh_headers s)) ++ [str_of_Z len]
  /\ values (lit "accept-ranges") (sh_headers s')
     = removelast (values (lit "accept-ranges") (sh_headers s)) ++ [lit "bytes"]
  /\ (forall P : str -> bool,
        (forall k, ci_eq k (lit "content-range") \/ ci_eq k (lit "content-length") \/ ci_eq k (lit "accept-ranges") -> P k = false) ->
        filter (fun h => P (fst h)) (sh_headers s') = filter (fun h => P (fst h)) (sh_headers s)).
Proof.
  intros start len total s s'. unfold s', add_range. cbv zeta.
  set (cr := lit "bytes " ++ _). 
  assert (Ecr : cr = lit "bytes " ++ str_of_Z start ++ lit "-" ++ str_of_Z (start + (len - 1)) ++ lit "/" ++ str_of_Z total).
  { unfold cr. now replace (start + (len - 1)) with (start + len - 1) by lia. }
  set (s0 := set_status s (lit "206 Partial Content")).
  set (s1 := replace_header_ (lit "Content-Range") cr s0).
  set (s2 := replace_header_ (lit "Content-Length") (str_of_Z len) s1).
  destruct (replace_status (lit "Content-Range") cr s0) as [A1 B1]. fold s1 in A1, B1.
  destruct (replace_status (lit "Content-Length") (str_of_Z len) s1) as [A2 B2]. fold s2 in A2, B2.
  destruct (replace_status (lit "Accept-Ranges") (lit "bytes") s2) as [A3 B3].
  split; [now rewrite A3, A2, A1|]. split; [now rewrite B3, B2, B1|].
  change (sh_headers s) with (sh_headers s0).
  change (lit "content-range") with (lower (lit "Content-Range")). change (lit "content-length") with (lower (lit "Content-Length")).
  change (lit "accept-ranges") with (lower (lit "Accept-Ranges")).
  assert (L : forall n l, values (lower n) l = values n l).
  { intros n l. unfold values. f_equal. apply filter_ext. intros h. f_equal. change (lower (lower n) = lower n). apply lower_idem. }
  rewrite !L. repeat split.
  - rewrite values_other by (apply lits_differ; reflexivity). unfold s2. rewrite values_other by (apply lits_differ; reflexivity). unfold s1. rewrite <- Ecr. apply values_replace.
  - rewrite values_other by (apply lits_differ; reflexivity). unfold s2. rewrite values_replace. unfold s1.
    now rewrite values_other by (apply lits_differ; reflexivity).
  - rewrite values_replace. unfold s2. rewrite values_other by (apply lits_differ; reflexivity). unfold s1. now rewrite values_other by (apply lits_differ; reflexivity).
  - intros P HP. assert (HL : forall n k, ci_eq k n -> ci_eq k (lower n)).
    { intros n k H. apply name_eq_spec. apply name_eq_spec in H. unfold name_eq in *. now rewrite lower_idem. }
    rewrite (filter_replace P) by auto. unfold s2. rewrite (filter_replace P) by auto. unfold s1. now rewrite (filter_replace P) by auto.
Qed.

Lemma C71_membership_partial_pf :
  forall name s, sah_contains name s = true <-> exists v t, values name (sh_headers s) = v :: t /\ v <> [].
Proof.
  intros name s. unfold sah_contains, get_header. assert (E : hget name (sh_headers s) = hd_error (values name (sh_headers s))).
  { induction (sh_headers s) as [|[k v] l IH]; [reflexivity|]. cbn [hget]. unfold values. cbn [filter]. rewrite values_spec. cbn [fst].
    destruct (name_eq k name); [reflexivity|exact IH]. }
  rewrite E. destruct (values name (sh_headers s)) as [|v t]; cbn [hd_error truthy].
  - split; [discriminate|]. now intros (v & t & H & _).
  - destruct v as [|c v]; cbn [is_nil negb]; split; try discriminate.
    + intros (v & t' & H & Hn). injection H as <- <-. now contradiction Hn.
    + intros _. now exists (c :: v), t.
    + reflexivity.
Qed.

Lemma C71_membership_refuted_pf :
  exists name s, get_header name s = Some [] /\ sah_contains name s = false.
Proof.
  exists (lit "X"), (sah_new [] [(lit "X", [])] []). now split.
Qed.

Lemma headers_eqb_spec a b : headers_eqb a b = true <-> a = b.
Proof.
  revert b. induction a as [|[k v] a IH]; intros [|[k' v'] b]; cbn [headers_eqb]; try (split; [discriminate|discriminate]); [tauto|].
  unfold header_eqb. cbn [fst snd]. rewrite !andb_true_iff, IH, !leqb_eq. split; [now intros [[-> ->] ->]|now injection 1 as -> -> ->].
Qed.

Lemma C72_equality_partial_pf :
  forall a b, sh_status b <> [] \/ sh_headers b <> [] ->
  (sah_eq a b = true <-> sh_status a = sh_status b /\ sh_headers a = sh_headers b /\ sh_proto a = sh_proto b).
Proof.
  intros a b Hb. unfold sah_eq. assert (sah_bool b = true) as ->.
  { unfold sah_bool. destruct Hb; [destruct (sh_status b)|destruct (sh_headers b)]; cbn [is_nil negb]; try contradiction; auto with bool. }
  rewrite !andb_true_iff, headers_eqb_spec, !leqb_eq. tauto.
Qed.

Lemma C72_equality_refuted_pf :
  exists a, sah_eq a a = false.
Proof.
  now exists (sah_new [] [] (lit "WARC/1.0")).
Qed.

Lemma C73_statuscode_pf :
  forall s, (forall a b, ~ In 32%N a -> sh_status s = a ++ 32%N :: b -> get_statuscode s = a)
  /\ (~ In 32%N (sh_status s) -> get_statuscode s = sh_status s).
Proof.
  intros s. unfold get_statuscode. split.
  - intros a b Ha E. now rewrite E, (proj2 (split1_spec 32%N (a ++ 32%N :: b) a b) (conj eq_refl Ha)).
  - intros H. now rewrite (proj2 (split1_None 32%N (sh_status s)) H).
Qed.

Lemma C73_validate_pf :
  forall valid s,
  let '(ok, s') := validate_statusline valid s in
  (ok = true <-> exists n, py_int (get_statuscode s) = Some n /\ 0 < n)
  /\ (ok = true -> s' = s)
  /\ (ok = false -> sh_status s' = valid /\ sh_headers s' = sh_headers s /\ sh_proto s' = sh_proto s)
  /\ (fst (validate_statusline valid (set_status s valid)) = true -> fst (validate_statusline valid s') = true).
Proof.
  intros valid s. assert (V : forall s, fst (validate_statusline valid s) = true <-> exists n, py_int (get_statuscode s) = Some n /\ 0 < n).
  { intros x. unfold validate_statusline. destruct (py_int (get_statuscode x)) as [c|]; cbn [fst].
    - destruct (0 <? c) eqn:E; cbn [fst].
      + split; [|reflexivity]. intros _. exists c. split; [reflexivity|lia].
      + split; [discriminate|]. intros (n & H & Hn). injection H as ->. lia.
    - split; [discriminate|]. now intros (n & H & _). }
  destruct (validate_statusline valid s) as [ok s'] eqn:E. pose proof (V s) as Vs. rewrite E in Vs. cbn [fst] in Vs.
  unfold validate_statusline in E.
  assert (D : (ok, s') = (true, s) \/ (ok, s') = (false, set_status s valid)).
  { destruct (py_int (get_statuscode s)) as [c|]; [destruct (0 <? c)|]; auto. }
  split; [exact Vs|]. destruct D as [D|D]; injection D as -> ->.
  - split; [reflexivity|]. split; [discriminate|]. intros _. apply V. now apply Vs.
  - split; [discriminate|]. split; [now intros _|]. tauto.
Qed.
