(** * Thm_Ascii: proofs of the theorems restated in Props_Ascii.v *)
From Coq Require Import String List ZArith NArith Bool.
From Verif Require Import PyBase Utf8 Headers HeaderSpec AsciiSpec.
Import ListNotations.
Open Scope Z_scope.

From Coq Require Import Lia ZifyBool ZifyNat ZifyN.
From Verif Require Import Facts HeaderProofs Thm_Headers.

Lemma span_group_spec l : forall g r, span_group l = (g, r) ->
  l = g ++ r /\ (forall c, In c g -> c <> 59%N /\ c <> 34%N) /\ stops r.
Proof.
  induction l as [|x t IH]; cbn [span_group]; intros g r E.
  - injection E as <- <-. split; [reflexivity|]. split; [intros c []|now left].
  - destruct ((x =? 59) || (x =? 34))%N eqn:Ex.
    + injection E as <- <-. split; [reflexivity|]. split; [intros c []|]. right. exists x, t. split; [reflexivity|]. lia.
    + destruct (span_group t) as [a b]. injection E as <- <-. destruct (IH a b eq_refl) as (-> & H2 & H3).
      split; [reflexivity|]. split; [|exact H3]. intros c [<-|Hc]; [lia|now apply H2].
Qed.
Lemma span_group_unique g r : (forall c, In c g -> c <> 59%N /\ c <> 34%N) -> stops r -> span_group (g ++ r) = (g, r).
Proof.
  intros Hg Hr. induction g as [|x g IH]; cbn [app].
  - destruct Hr as [->|(c & r' & -> & Hc)]; [reflexivity|]. cbn [span_group]. assert (((c =? 59) || (c =? 34))%N = true) as -> by lia. reflexivity.
  - cbn [span_group]. assert (((x =? 59) || (x =? 34))%N = false) as -> by (destruct (Hg x (or_introl eq_refl)); lia).
    rewrite IH by (intros c Hc; apply Hg; now right). reflexivity.
Qed.
Lemma after_quote_spec r rest : stops r -> after_quote r rest <-> rest = drop_quote r.
Proof.
  intros [->|(c & r' & -> & [->| ->])]; unfold after_quote, drop_quote.
  - split; [intros [[E _]|E]; [exact E|discriminate]|]. intros ->. left. split; [reflexivity|]. intros r' X. discriminate.
  - change (is_quote 59) with false. cbv iota. split; [intros [[E _]|E]; [exact E|discriminate]|]. intros ->. left. split; [reflexivity|]. intros r'' X. discriminate.
  - change (is_quote 34) with true. cbv iota. split; [intros [[_ E]|E]; [now destruct (E r')|now injection E]|]. intros ->. now right.
Qed.
Lemma rx_match_group t g rest : rx_match t = Some (g, rest) <-> group_at t g rest.
Proof.
  split.
  - destruct t as [|q t]; cbn [rx_match]; [discriminate|].
    assert (Direct : forall g0 r0 , span_group (q :: t) = (g0, r0) -> g0 <> [] ->
      (forall d t', t = d :: t' -> (q = 34%N \/ q = 39%N) -> d = 59%N \/ d = 34%N) -> group_at (q :: t) g0 (drop_quote r0)).
    { intros g0 r0 E Hne Hq. destruct (span_group_spec _ _ _ E) as (E1 & E2 & E3).
      exists [], r0. split; [exact E1|]. split; [now left|]. split; [exact Hne|]. split; [exact E2|]. split; [exact E3|].
      split; [|now apply after_quote_spec]. intros _ c d t' X. injection X as <- ->. exact (Hq d t' eq_refl). }
    destruct (is_quote q) eqn:Eq.
    + destruct (span_group t) as [[|x g0] r0] eqn:E.
      * destruct (span_group (q :: t)) as [[|y g1] r1] eqn:E2; [discriminate|]. intros X. injection X as <- <-. apply (Direct _ _ eq_refl); [discriminate|].
        intros d t' -> _. destruct (span_group_spec _ _ _ E) as (F1 & _ & F3). cbn [app] in F1. subst r0.
        destruct F3 as [F3|(c & r' & F3 & Hc)]; [discriminate|]. injection F3 as -> _. exact Hc.
      * intros X. injection X as <- <-. destruct (span_group_spec _ _ _ E) as (-> & E2 & E3).
        exists [q], r0. split; [reflexivity|]. split; [right; unfold is_quote in Eq; assert (q = 34%N \/ q = 39%N) as [-> | ->] by lia; auto|].
        split; [discriminate|]. split; [exact E2|]. split; [exact E3|]. split; [discriminate|now apply after_quote_spec].
    + destruct (span_group (q :: t)) as [[|y g1] r1] eqn:E2; [discriminate|]. intros X. injection X as <- <-. apply (Direct _ _ eq_refl); [discriminate|].
      intros d t' _ Hq. unfold is_quote in Eq. lia.
  - intros (q & r & -> & Hq & Hne & Hg & Hr & Hbt & Ha). apply after_quote_spec in Ha; [|exact Hr]. subst rest.
    assert (Hs : span_group (g ++ r) = (g, r)) by now apply span_group_unique.
    destruct g as [|x g]; [easy|].
    destruct Hq as [->|Hq].
    + cbn [app] in *. cbn [rx_match]. destruct (is_quote x) eqn:Ex.
      * destruct (span_group (g ++ r)) as [[|y g1] r1] eqn:E2.
        -- now rewrite Hs.
        -- exfalso. destruct (span_group_spec _ _ _ E2) as (F1 & F2 & _). specialize (Hbt eq_refl x y (g1 ++ r1)).
           rewrite F1 in Hbt. specialize (Hbt eq_refl). unfold is_quote in Ex. destruct (F2 y (or_introl eq_refl)). destruct Hbt; lia.
      * now rewrite Hs.
    + assert (exists c, q = [c] /\ is_quote c = true) as (c & -> & Hc) by (destruct Hq as [-> | ->]; eexists; split; reflexivity).
      change ([c] ++ (x :: g) ++ r) with (c :: (x :: g) ++ r). cbn [rx_match]. rewrite Hc, Hs. reflexivity.
Qed.
Lemma drop_quote_len r : (length (drop_quote r) <= length r)%nat.
Proof. destruct r as [|c r]; cbn; [lia|]. destruct (is_quote c); cbn; lia. Qed.
Lemma group_len t g rest : group_at t g rest -> (length rest < length t)%nat.
Proof.
  intros (q & r & -> & _ & Hne & _ & Hr & _ & Ha). apply after_quote_spec in Ha; [|exact Hr]. subst rest. rewrite !app_length. pose proof (drop_quote_len r). destruct g; [easy|cbn]. lia.
Qed.
Lemma quote_byte_escapes b bs e : (b < 256)%N -> escapes bs e -> escapes (b :: bs) (quote_byte b ++ e).
Proof.
  intros Hb He. unfold quote_byte. destruct (unreserved b) eqn:U.
  - cbn [app]. constructor; [|exact He]. unfold kept. unfold unreserved in U. lia.
  - cbn [app]. apply (es_pct b bs e (b / 16) (b mod 16))%N; [unfold kept; unfold unreserved in U; lia|apply N.div_mod; lia| | |exact He].
    + unfold hex_digit, hexdigU. assert (b / 16 < 16)%N by (apply N.div_lt_upper_bound; lia). destruct (N.ltb_spec (b / 16) 10); lia.
    + unfold hex_digit, hexdigU. assert (b mod 16 < 16)%N by (apply N.mod_lt; lia). destruct (N.ltb_spec (b mod 16) 10); lia.
Qed.
Lemma quote_escaped g : scalar_text g -> escaped g (quote g).
Proof.
  intros S. assert (F : forallb is_scalar g = true) by (apply forallb_forall; exact S).
  exists (flat_map utf8_enc1 g). split; [unfold utf8_encode; now rewrite F|]. unfold quote.
  assert (B : forall b, In b (flat_map utf8_enc1 g) -> (b < 256)%N).
  { intros b Hb. apply in_flat_map in Hb as (c & Hc & Hb). exact (enc1_byte c b (S c Hc) Hb). }
  revert B. generalize (flat_map utf8_enc1 g) as l. induction l as [|b l IH]; intros B; cbn [flat_map]; [constructor|].
  apply quote_byte_escapes; [apply B; now left|]. apply IH. intros x Hx. apply B. now right.
Qed.
Lemma escapes_fun bs e : escapes bs e -> forall e', escapes bs e' -> e = e'.
Proof.
  intros H. induction H as [|b bs e K H IH|b bs e h l hc lc K E Hh Hl H IH]; intros e' H'; inversion H'; subst; try contradiction; [reflexivity|f_equal; now apply IH|].
  match goal with X : (16 * h + l = 16 * ?h' + ?l')%N |- _ => assert (h = h' /\ l = l') as [-> ->] by (unfold hex_digit in *; lia) end.
  unfold hex_digit in *. repeat f_equal; try (now apply IH); lia.
Qed.
Lemma escaped_fun g e e' : escaped g e -> escaped g e' -> e = e'.
Proof. intros (bs & E & H) (bs' & E' & H'). rewrite E in E'. injection E' as <-. exact (escapes_fun _ _ H _ H'). Qed.
(** the fuel suffices, and the result is the rendering of the parts *)
Definition render1 (p : part) : str := match p with Plain c => [c] | Param g => lit "*=UTF-8''" ++ quote g end.
Lemma rx_sub_parts : forall fuel v, (length v <= fuel)%nat -> exists ps, parts v ps /\ rx_sub fuel v = flat_map render1 ps.
Proof.
  induction fuel as [|f IH]; intros v L.
  - destruct v; [|cbn in L; lia]. exists []. split; [constructor|reflexivity].
  - destruct v as [|c t]; [exists []; split; [constructor|reflexivity]|]. cbn [length] in L. cbn [rx_sub].
    destruct (N.eqb_spec c 61) as [->|Hc].
    + destruct (rx_match t) as [[g r]|] eqn:E.
      * apply rx_match_group in E. pose proof (group_len _ _ _ E). destruct (IH r ltac:(lia)) as (ps & Hp & Er).
        exists (Param g :: ps). split; [now apply (pt_param t g r)|]. cbn [flat_map render1]. unfold do_encode. now rewrite Er.
      * destruct (IH t ltac:(lia)) as (ps & Hp & Er). exists (Plain 61 :: ps). split; [constructor; [|exact Hp]|cbn [flat_map render1 app]; now rewrite Er].
        right. intros g rest X. apply rx_match_group in X. congruence.
    + destruct (IH t ltac:(lia)) as (ps & Hp & Er). exists (Plain c :: ps). split; [constructor; [now left|exact Hp]|cbn [flat_map render1 app]; now rewrite Er].
Qed.
Lemma parts_fun v ps : parts v ps -> forall ps', parts v ps' -> ps = ps'.
Proof.
  intros H. induction H as [|t g rest ps G H IH|c t ps G H IH]; intros ps' H'; inversion H'; subst.
  - reflexivity.
  - match goal with K : group_at t _ _ |- _ => apply rx_match_group in K; apply rx_match_group in G; rewrite G in K; injection K as <- <- end. f_equal. now apply IH.
  - exfalso. match goal with K : 61%N <> 61%N \/ _ |- _ => destruct K as [K|K]; [now apply K|exact (K _ _ G)] end.
  - exfalso. destruct G as [G|G]; [now apply G|]. eapply G; eassumption.
  - f_equal. now apply IH.
Qed.
Lemma render_len v ps : parts v ps -> (length v <= length (flat_map render1 ps))%nat /\ ((exists g, In (Param g) ps) -> (length v < length (flat_map render1 ps))%nat).
Proof.
  assert (QB : forall b, (1 <= length (quote_byte b))%nat) by (intros b; unfold quote_byte; destruct (unreserved b); cbn; lia).
  assert (U1 : forall c, (1 <= length (utf8_enc1 c))%nat) by (intros c; unfold utf8_enc1; repeat (destruct (N.ltb _ _)); cbn; lia).
  assert (Q : forall g, (length g <= length (quote g))%nat).
  { intros g. unfold quote. assert (A : (length g <= length (flat_map utf8_enc1 g))%nat).
    { induction g as [|c g IH]; cbn [flat_map length]; [lia|]. rewrite app_length. specialize (U1 c). lia. }
    refine (Nat.le_trans _ _ _ A _). generalize (flat_map utf8_enc1 g) as l. clear - QB.
    induction l as [|c g IH]; cbn [flat_map length]; [lia|]. rewrite app_length. specialize (QB c). lia. }
  intros H. induction H as [|t g rest ps G H [IH _]|c t ps G H [IH1 IH2]]; cbn [flat_map length].
  - split; [lia|]. intros [g []].
  - cbn [render1]. rewrite !app_length. change (length (lit "*=UTF-8''")) with 9%nat.
    destruct G as (q & r & -> & Hq & _ & _ & Hr & _ & Ha). rewrite !app_length. specialize (Q g).
    assert (length q <= 1)%nat by (destruct Hq as [->|[->| ->]]; cbn; lia).
    assert (length r <= S (length rest))%nat by (destruct Ha as [[-> _]| ->]; cbn; lia). lia.
  - cbn [render1 app length]. split; [lia|]. intros [g [X|X]]; [discriminate|]. assert (length t < length (flat_map render1 ps))%nat by eauto. lia.
Qed.
Lemma render_none v ps : parts v ps -> (forall g, ~ In (Param g) ps) -> flat_map render1 ps = v.
Proof.
  intros H. induction H as [|t g rest ps G H IH|c t ps G H IH]; intros N; [reflexivity|destruct (N g); now left|].
  cbn [flat_map render1 app]. f_equal. apply IH. intros g X. apply (N g). now right.
Qed.
Lemma has_param ps : (exists g, In (Param g) ps) \/ (forall g, ~ In (Param g) ps).
Proof.
  induction ps as [|[c|g] ps [[g' IH]|IH]].
  - right. intros g [].
  - left. exists g'. now right.
  - right. intros g [X|X]; [discriminate|exact (IH g X)].
  - left. exists g. now left.
  - left. exists g. now left.
Qed.
Lemma parts_scalar v ps : parts v ps -> scalar_text v -> (forall c, In (Plain c) ps -> In c v) /\ (forall g, In (Param g) ps -> scalar_text g).
Proof.
  intros H. induction H as [|t g rest ps G H IH|c t ps G H IH]; intros S.
  - split; intros ? [].
  - destruct G as (q & r & -> & _ & _ & _ & _ & _ & Ha).
    assert (Hin : forall c, In c rest -> In c (61%N :: q ++ g ++ r)).
    { intros c Hc. right. apply in_or_app. right. apply in_or_app. right. destruct Ha as [[-> _]| ->]; [exact Hc|now right]. }
    destruct IH as [IH1 IH2]; [intros c Hc; apply S; now apply Hin|]. split.
    + intros c [X|X]; [discriminate|]. apply Hin. now apply IH1.
    + intros g' [X|X]; [|now apply IH2]. injection X as <-. intros c Hc. apply S. right. apply in_or_app. right. apply in_or_app. now left.
  - destruct IH as [IH1 IH2]; [intros x Hx; apply S; now right|]. split.
    + intros x [X|X]; [injection X as <-; now left|right; now apply IH1].
    + intros g' [X|X]; [discriminate|now apply IH2].
Qed.
Lemma render_ascii ps : (forall g, In (Param g) ps -> scalar_text g) ->
  (ascii_text (flat_map render1 ps) <-> forall c, In (Plain c) ps -> (c < 128)%N).
Proof.
  induction ps as [|p ps IH]; intros S; cbn [flat_map].
  - split; [intros _ c []|intros _ c []].
  - rewrite ascii_text_app, IH by (intros g X; apply S; now right). destruct p as [c|g]; cbn [render1].
    + split; [intros [A B] x [X|X]; [injection X as <-; apply A; now left|now apply B]|]. intros A. split; [intros x [<-|[]]; apply A; now left|intros x X; apply A; now right].
    + split; [intros [A B] x [X|X]; [discriminate|now apply B]|]. intros A. split; [|intros x X; apply A; now right].
      apply ascii_text_app. split; [apply is_ascii_spec; reflexivity|apply quote_ascii; apply S; now left].
Qed.
Lemma rendered v ps : parts v ps -> (forall g, In (Param g) ps -> scalar_text g) -> rendering ps (flat_map render1 ps).
Proof.
  intros _. induction ps as [|[c|g] ps IH]; intros S; cbn [flat_map render1]; [constructor|constructor; apply IH; intros g X; apply S; now right|].
  rewrite <- app_assoc. constructor; [|apply IH; intros g' X; apply S; now right].
  apply quote_escaped. apply S. now left.
Qed.
Lemma encode_value_out v : scalar_text v -> (ascii_value v <-> ascii_text (encode_value v)) /\ (ascii_value v -> written_as v (encode_value v)).
Proof.
  intros S. unfold encode_value. destruct (is_ascii v) eqn:Ea.
  { apply is_ascii_spec in Ea. split; [split; [auto|now left]|]. intros _. now apply wa_ascii. }
  apply not_ascii_false in Ea. destruct (has_char 59%N v) eqn:Es; cbn [negb].
  - assert (In 59%N v) by (unfold has_char in Es; apply existsb_exists in Es as (x & Hx & E); apply N.eqb_eq in E; now subst).
    destruct (rx_sub_parts (length v) v (Nat.le_refl _)) as (ps & Hp & E). cbv zeta. rewrite E.
    destruct (parts_scalar _ _ Hp S) as [S1 S2]. destruct (has_param ps) as [Hg|Hn].
    + assert (leqb (flat_map render1 ps) v = false) as ->.
      { destruct (leqb _ _) eqn:L; [|reflexivity]. apply leqb_eq in L. pose proof (proj2 (render_len _ _ Hp) Hg) as X. rewrite L in X. lia. }
      split.
      * split; [|intros A; right; right; exists ps; split; [exact Hp|right; now apply render_ascii]].
        intros [A|[A|(ps' & Hp' & A)]]; [contradiction|contradiction|]. rewrite <- (parts_fun _ _ Hp _ Hp') in A.
        destruct A as [A|A]; [destruct Hg as [g Hg]; destruct (A g Hg)|now apply render_ascii].
      * intros _. apply (wa_params v (flat_map render1 ps) ps); auto. now apply (rendered v).
    + rewrite (render_none _ _ Hp Hn). assert (leqb v v = true) as -> by now apply leqb_eq.
      split; [split; [intros _; now apply quote_ascii|intros _; right; right; exists ps; auto]|].
      intros _. apply wa_whole; [exact Ea|right; exists ps; auto|]. now apply quote_escaped.
  - assert (~ In 59%N v) by (intros X; unfold has_char in Es; assert (existsb (N.eqb 59) v = true) by (apply existsb_exists; exists 59%N; split; [exact X|reflexivity]); congruence).
    split; [split; [intros _; now apply quote_ascii|intros _; right; now left]|].
    intros _. apply wa_whole; [exact Ea|now left|]. now apply quote_escaped.
Qed.
Lemma ascii_first_inv proto status : ascii_text (first_line proto status) -> ascii_text proto /\ ascii_text status.
Proof.
  unfold first_line. destruct proto as [|a p], status as [|b s]; cbn [is_nil negb andb]; intros H; (split; intros c Hc; try (destruct Hc; fail); apply H); cbn [is_nil negb app]; rewrite ?in_app_iff; cbn [In] in *; rewrite ?in_app_iff; cbn [In]; tauto.
Qed.

Lemma C22_exact_pf :
  forall s, Forall (fun h => scalar_text (snd h)) (sh_headers s) ->
  ((exists b s', to_ascii_bytes None s = (Ok b, s'))
     <-> (ascii_text (sh_proto s) /\ ascii_text (sh_status s) /\ Forall (fun h => ascii_text (fst h) /\ ascii_value (snd h)) (sh_headers s)))
  /\ (forall e s', to_ascii_bytes None s = (Err e, s') -> e = UnicodeErr)
  /\ (forall b s', to_ascii_bytes None s = (Ok b, s') ->
        ascii_text b /\ b = first_line (sh_proto s) (sh_status s) ++ flat_map (fun h => fst h ++ lit ": " ++ snd h ++ crlf) (sh_headers s') ++ crlf
        /\ sh_proto s' = sh_proto s /\ sh_status s' = sh_status s
        /\ Forall2 (fun h h' => fst h' = fst h /\ written_as (snd h) (snd h')) (sh_headers s) (sh_headers s')).
Proof.
intros s Hs.
assert (Hcr : ascii_text crlf) by (intros c [<-|[<-|[]]]; reflexivity).
assert (W : forall hs, Forall (fun h => ascii_text (fst h) /\ ascii_text (snd h)) hs -> Forall2 (fun h h' : header => fst h' = fst h /\ written_as (snd h) (snd h')) hs hs).
{ intros hs H. induction H as [|h hs [_ H] _ IH]; constructor; [|exact IH]. split; [reflexivity|now apply wa_ascii]. }
assert (Enc : ascii_text (to_str None (percent_encode s)) <->
  (ascii_text (sh_proto s) /\ ascii_text (sh_status s) /\ Forall (fun h => ascii_text (fst h) /\ ascii_value (snd h)) (sh_headers s))).
{ unfold to_str. rewrite ascii_text_app, ascii_header_lines. cbn [percent_encode set_headers sh_headers sh_proto sh_status]. rewrite Forall_map. cbn [fst snd].
  split.
  - intros [A B]. apply ascii_first_inv in A as [A1 A2]. split; [exact A1|]. split; [exact A2|]. rewrite Forall_forall in *. intros h Hh. specialize (B h Hh). destruct B as [B1 B2].
    split; [exact B1|]. apply (proj1 (encode_value_out _ (Hs h Hh))). exact B2.
  - intros (A1 & A2 & B). split; [now apply ascii_first|]. rewrite Forall_forall in *. intros h Hh. specialize (B h Hh). destruct B as [B1 B2].
    split; [exact B1|]. apply (proj1 (encode_value_out _ (Hs h Hh))). exact B2. }
unfold to_ascii_bytes, ascii_encode. destruct (is_ascii (to_str None s)) eqn:E.
- apply is_ascii_spec in E. pose proof E as E0. unfold to_str in E0. apply ascii_text_app in E0 as [E1 E2]. apply ascii_header_lines in E2. apply ascii_first_inv in E1 as [E1 E1'].
  split; [split; [intros _|eauto]|].
  + split; [exact E1|]. split; [exact E1'|]. eapply Forall_impl; [|exact E2]. intros h [A B]. split; [exact A|now left].
  + split; [discriminate|]. intros b s' X. injection X as <- <-. split; [apply ascii_text_app; auto|]. split; [unfold to_str; now rewrite <- app_assoc|].
    split; [reflexivity|]. split; [reflexivity|]. now apply W.
- destruct (is_ascii (to_str None (percent_encode s))) eqn:E3.
  + apply is_ascii_spec in E3. split; [split; [intros _; now apply Enc|eauto]|]. split; [discriminate|]. intros b s' X. injection X as <- <-.
    split; [apply ascii_text_app; auto|]. split; [unfold to_str; now rewrite <- app_assoc|]. split; [reflexivity|]. split; [reflexivity|].
    apply Enc in E3 as (_ & _ & B). cbn [percent_encode set_headers sh_headers]. clear - Hs B. induction Hs as [|h hs Hh Hs IH]; cbn [map]; constructor; inversion B; subst.
    * cbn [fst snd]. split; [reflexivity|]. apply encode_value_out; tauto.
    * now apply IH.
  + apply not_ascii_false in E3. split; [split; [intros (b & s' & X); discriminate|intros X; destruct E3; now apply Enc]|]. split; [|discriminate]. intros e s' X. now injection X as <-.
Qed.

Lemma C22_parts_pf :
  forall v, (exists ps, parts v ps /\ forall ps', parts v ps' -> ps' = ps)
  /\ (forall a b, written_as v a -> written_as v b -> a = b).
Proof.
intros v. destruct (rx_sub_parts (length v) v (Nat.le_refl _)) as (ps & Hp & _). split.
{ exists ps. split; [exact Hp|]. intros ps' H. exact (eq_sym (parts_fun _ _ Hp _ H)). }
intros a b Ha Hb.
assert (R : forall ps a b, rendering ps a -> rendering ps b -> a = b).
{ intros qs x y H. revert y. induction H as [|c rs o H IH|g e rs o He H IH]; intros y Hy; inversion Hy; subst.
  - reflexivity.
  - f_equal. now apply IH.
  - f_equal. f_equal; [eapply escaped_fun; eassumption|now apply IH]. }
destruct Ha as [v Ha|v a Ha Ha2 Ha3|v a qs Ha Ha1 Ha2 Ha3 Ha4]; inversion Hb; subst; try contradiction; try reflexivity.
- eapply escaped_fun; eassumption.
- exfalso. match goal with K : parts v ?q, G : exists g, In _ ?q |- _ => destruct Ha2 as [X|(qs & X1 & X2)]; [contradiction|]; rewrite (parts_fun _ _ X1 _ K) in X2; destruct G as [g G]; exact (X2 g G) end.
- exfalso. match goal with K : ~ In 59%N v \/ _ |- _ => destruct K as [X|(q2 & X1 & X2)]; [contradiction|]; rewrite (parts_fun _ _ X1 _ Ha2) in X2; destruct Ha3 as [g G]; exact (X2 g G) end.
- match goal with K : parts v ?q, G : rendering ?q b |- _ => rewrite (parts_fun _ _ K _ Ha2) in G; exact (R _ _ _ Ha4 G) end.
Qed.
