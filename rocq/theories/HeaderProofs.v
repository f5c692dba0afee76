(** * HeaderProofs: lemmas about UTF-8, the header list operations and the parser *)
From Coq Require Import String List ZArith NArith Bool Lia.
From Coq Require Import ZifyBool ZifyNat ZifyN.
From Verif Require Import PyBase Utf8 Headers HeaderSpec Facts.
Import ListNotations.
Open Scope Z_scope.

(** ** UTF-8 *)
Ltac divmod := Z.div_mod_to_equations; lia.

Lemma utf8_dec_enc1 c t : is_scalar c = true ->
  utf8_decode (utf8_enc1 c ++ t) = option_map (cons c) (utf8_decode t).
Proof.
  unfold is_scalar, is_surrogate, utf8_enc1. intros H.
  destruct (c <? 128)%N eqn:E1.
  { cbn [app utf8_decode]. now rewrite E1. }
  destruct (c <? 2048)%N eqn:E2.
  { cbn [app utf8_decode].
    replace (192 + c / 64 <? 128)%N with false by divmod.
    replace ((194 <=? 192 + c / 64) && (192 + c / 64 <=? 223))%N with true by divmod.
    unfold is_cont. replace ((128 <=? 128 + c mod 64) && (128 + c mod 64 <=? 191))%N with true by divmod.
    replace ((192 + c / 64 - 192) * 64 + (128 + c mod 64 - 128))%N with c by divmod. reflexivity. }
  destruct (c <? 65536)%N eqn:E3.
  { cbn [app utf8_decode].
    replace (224 + c / 4096 <? 128)%N with false by divmod.
    replace ((194 <=? 224 + c / 4096) && (224 + c / 4096 <=? 223))%N with false by divmod.
    replace ((224 <=? 224 + c / 4096) && (224 + c / 4096 <=? 239))%N with true by divmod.
    unfold is_cont. replace ((128 <=? 128 + (c / 64) mod 64) && (128 + (c / 64) mod 64 <=? 191))%N with true by divmod.
    replace ((128 <=? 128 + c mod 64) && (128 + c mod 64 <=? 191))%N with true by divmod.
    replace ((224 + c / 4096 - 224) * 4096 + (128 + (c / 64) mod 64 - 128) * 64 + (128 + c mod 64 - 128))%N with c by divmod.
    unfold is_surrogate. replace (2048 <=? c)%N with true by lia. replace ((55296 <=? c) && (c <=? 57343))%N with false by lia. reflexivity. }
  cbn [app utf8_decode].
  replace (240 + c / 262144 <? 128)%N with false by divmod.
  replace ((194 <=? 240 + c / 262144) && (240 + c / 262144 <=? 223))%N with false by divmod.
  replace ((224 <=? 240 + c / 262144) && (240 + c / 262144 <=? 239))%N with false by divmod.
  replace ((240 <=? 240 + c / 262144) && (240 + c / 262144 <=? 244))%N with true by divmod.
  unfold is_cont. replace ((128 <=? 128 + (c / 4096) mod 64) && (128 + (c / 4096) mod 64 <=? 191))%N with true by divmod.
  replace ((128 <=? 128 + (c / 64) mod 64) && (128 + (c / 64) mod 64 <=? 191))%N with true by divmod.
  replace ((128 <=? 128 + c mod 64) && (128 + c mod 64 <=? 191))%N with true by divmod.
  replace ((240 + c / 262144 - 240) * 262144 + (128 + (c / 4096) mod 64 - 128) * 4096 + (128 + (c / 64) mod 64 - 128) * 64 + (128 + c mod 64 - 128))%N with c by divmod.
  replace (65536 <=? c)%N with true by lia. replace (c <=? 1114111)%N with true by lia. reflexivity.
Qed.

Definition enc (s : str) : bytes := flat_map utf8_enc1 s.

Lemma enc_app a b : enc (a ++ b) = enc a ++ enc b.
Proof. unfold enc. apply flat_map_app. Qed.

Lemma utf8_dec_enc s : (forall c, In c s -> is_scalar c = true) -> utf8_decode (enc s) = Some s.
Proof.
  induction s as [|c t IH]; intros H; [reflexivity|].
  change (enc (c :: t)) with (utf8_enc1 c ++ enc t).
  rewrite utf8_dec_enc1 by (apply H; now left). rewrite IH; [reflexivity|]. intros x Hx. apply H. now right.
Qed.

Lemma decode_enc s : (forall c, In c s -> is_scalar c = true) -> decode_header (enc s) = s.
Proof. intros H. unfold decode_header. now rewrite utf8_dec_enc. Qed.

Lemma enc1_LF c : In LF (utf8_enc1 c) -> c = LF.
Proof.
  unfold utf8_enc1, LF. destruct (c <? 128)%N; [cbn; intuition|].
  destruct (c <? 2048)%N; [|destruct (c <? 65536)%N]; cbn [In]; intros H; exfalso;
  repeat (destruct H as [H|H]; [divmod|]); assumption.
Qed.

Lemma enc_LF s : In LF (enc s) -> In LF s.
Proof.
  unfold enc. rewrite in_flat_map. intros (c & Hc & H). apply enc1_LF in H. now subst.
Qed.

Lemma enc_crlf : enc crlf = crlf. Proof. reflexivity. Qed.

Lemma omap_ne {A} (x : A) o : option_map (cons x) o <> Some [].
Proof. destruct o; discriminate. Qed.
Lemma utf8_decode_ne b t : utf8_decode (b :: t) <> Some [].
Proof.
  cbn [utf8_decode]. destruct (b <? 128)%N; [apply omap_ne|].
  destruct ((194 <=? b) && (b <=? 223))%N.
  { destruct t as [|b1 t]; [discriminate|]. destruct (is_cont b1); [apply omap_ne|discriminate]. }
  destruct ((224 <=? b) && (b <=? 239))%N.
  { destruct t as [|b1 [|b2 t]]; [discriminate..|]. cbv zeta. destruct (_ && _ && _ && _); [apply omap_ne|discriminate]. }
  destruct ((240 <=? b) && (b <=? 244))%N; [|discriminate].
  destruct t as [|b1 [|b2 [|b3 t]]]; [discriminate..|]. cbv zeta. destruct (_ && _ && _ && _ && _); [apply omap_ne|discriminate].
Qed.

(** ** Names *)
Lemma lower1_ci x y : lower1 x = lower1 y <-> ci1 x y.
Proof.
  unfold lower1, ci1. destruct ((65 <=? x) && (x <=? 90))%N eqn:Ex; destruct ((65 <=? y) && (y <=? 90))%N eqn:Ey; lia.
Qed.

Lemma name_eq_spec a b : name_eq a b = true <-> ci_eq a b.
Proof.
  unfold name_eq, ci_eq, lower. rewrite leqb_eq. revert b. induction a as [|x a IH]; intros [|y b]; cbn.
  - split; [constructor|reflexivity].
  - split; [discriminate|intros H; inversion H].
  - split; [discriminate|intros H; inversion H].
  - split.
    + intros [= E1 E2]. constructor; [now apply lower1_ci|now apply IH].
    + intros H. inversion H as [|? ? ? ? H1 H2]; subst. f_equal; [now apply lower1_ci|now apply IH].
Qed.

Lemma name_eq_not a b : name_eq a b = false <-> ~ ci_eq a b.
Proof. rewrite <- name_eq_spec. destruct (name_eq a b); split; congruence || (intros H; exfalso; auto). Qed.

Lemma hget_first name (pre : list header) k v (post : list header) :
  ci_eq k name -> Forall (fun h => ~ named name h) pre -> hget name (pre ++ (k, v) :: post) = Some v.
Proof.
  intros Hk Hp. induction Hp as [|[k' v'] pre H _ IH]; cbn.
  - apply name_eq_spec in Hk. now rewrite Hk.
  - apply name_eq_not in H. cbn [fst] in H. now rewrite H.
Qed.

Lemma hget_None name hs : Forall (fun h => ~ named name h) hs -> hget name hs = None.
Proof.
  intros Hp. induction Hp as [|[k' v'] pre H _ IH]; cbn; [reflexivity|].
  apply name_eq_not in H. cbn [fst] in H. now rewrite H.
Qed.

Lemma hget_None_inv name hs : hget name hs = None -> Forall (fun h => ~ named name h) hs.
Proof.
  induction hs as [|[k v] t IH]; cbn; [constructor|].
  destruct (name_eq k name) eqn:E; [discriminate|]. intros H. constructor; [now apply name_eq_not|auto].
Qed.

Lemma hget_Some_inv name hs v : hget name hs = Some v ->
  exists pre k post, hs = pre ++ (k, v) :: post /\ ci_eq k name /\ Forall (fun h => ~ named name h) pre.
Proof.
  induction hs as [|[k v'] t IH]; cbn; [discriminate|].
  destruct (name_eq k name) eqn:E.
  - intros [= ->]. exists [], k, t. repeat split; [now apply name_eq_spec|constructor].
  - intros H. destruct (IH H) as (pre & k' & post & -> & Hk & Hp).
    exists ((k, v') :: pre), k', post. repeat split; [assumption|]. constructor; [now apply name_eq_not|assumption].
Qed.

Lemma rep_rev_first name value (pre : list header) k v (post : list header) :
  ci_eq k name -> Forall (fun h => ~ named name h) pre ->
  rep_rev name value (pre ++ (k, v) :: post) = Some (v, pre ++ (k, value) :: post).
Proof.
  intros Hk Hp. induction Hp as [|[k' v'] pre H _ IH]; cbn.
  - apply name_eq_spec in Hk. now rewrite Hk.
  - apply name_eq_not in H. cbn [fst] in H. now rewrite H, IH.
Qed.
Lemma rep_rev_None name value hs : Forall (fun h => ~ named name h) hs -> rep_rev name value hs = None.
Proof.
  intros Hp. induction Hp as [|[k' v'] pre H _ IH]; cbn; [reflexivity|].
  apply name_eq_not in H. cbn [fst] in H. now rewrite H, IH.
Qed.
Lemma rem_rev_first name (pre : list header) k v (post : list header) :
  ci_eq k name -> Forall (fun h => ~ named name h) pre ->
  rem_rev name (pre ++ (k, v) :: post) = Some (pre ++ post).
Proof.
  intros Hk Hp. induction Hp as [|[k' v'] pre H _ IH]; cbn.
  - apply name_eq_spec in Hk. now rewrite Hk.
  - apply name_eq_not in H. cbn [fst] in H. now rewrite H, IH.
Qed.
Lemma rem_rev_None name hs : Forall (fun h => ~ named name h) hs -> rem_rev name hs = None.
Proof.
  intros Hp. induction Hp as [|[k' v'] pre H _ IH]; cbn; [reflexivity|].
  apply name_eq_not in H. cbn [fst] in H. now rewrite H, IH.
Qed.

Lemma replace_header_last name value s (pre : list header) k v (post : list header) :
  sh_headers s = pre ++ (k, v) :: post -> ci_eq k name -> Forall (fun h => ~ named name h) post ->
  replace_header name value s = (Some v, set_headers s (pre ++ (k, value) :: post)).
Proof.
  unfold header in *. intros E Hk Hp. unfold replace_header. rewrite E, rev_app_distr. cbn [rev]. rewrite <- app_assoc. cbn [app].
  pose proof (rep_rev_first name value (rev post) k v (rev pre) Hk (Forall_rev Hp)) as P. unfold header in *. rewrite P.
  f_equal. f_equal. rewrite rev_app_distr. cbn [rev]. rewrite !rev_involutive, <- app_assoc. reflexivity.
Qed.
Lemma replace_header_none name value s :
  Forall (fun h => ~ named name h) (sh_headers s) ->
  replace_header name value s = (None, set_headers s (sh_headers s ++ [(name, value)])).
Proof.
  intros H. unfold replace_header. now rewrite rep_rev_None by now apply Forall_rev.
Qed.

Lemma remove_header_last name s (pre : list header) k v (post : list header) :
  sh_headers s = pre ++ (k, v) :: post -> ci_eq k name -> Forall (fun h => ~ named name h) post ->
  remove_header name s = (true, set_headers s (pre ++ post)).
Proof.
  unfold header in *. intros E Hk Hp. unfold remove_header. rewrite E, rev_app_distr. cbn [rev]. rewrite <- app_assoc. cbn [app].
  pose proof (rem_rev_first name (rev post) k v (rev pre) Hk (Forall_rev Hp)) as P. unfold header in *. rewrite P.
  f_equal. f_equal. now rewrite rev_app_distr, !rev_involutive.
Qed.
Lemma remove_header_none name s :
  Forall (fun h => ~ named name h) (sh_headers s) -> remove_header name s = (false, s).
Proof. intros H. unfold remove_header. now rewrite rem_rev_None by now apply Forall_rev. Qed.

Lemma ci_eq_refl a : ci_eq a a.
Proof. apply name_eq_spec. unfold name_eq. apply leqb_refl. Qed.
Lemma ci_eq_sym a b : ci_eq a b -> ci_eq b a.
Proof. rewrite <- !name_eq_spec. unfold name_eq. rewrite !leqb_eq. congruence. Qed.
Lemma ci_eq_trans a b c : ci_eq a b -> ci_eq b c -> ci_eq a c.
Proof. rewrite <- !name_eq_spec. unfold name_eq. rewrite !leqb_eq. congruence. Qed.

(** ** The parser on arbitrary input *)
Lemma upper_len s : lenZ (upper s) = lenZ s.
Proof. unfold upper, lenZ. now rewrite map_length. Qed.

Lemma urstrip_nil_blank l : urstrip (decode_header l) = [] <-> blank l.
Proof.
  unfold urstrip, blank. split.
  - intros H. apply rstripp_nil_all in H. rewrite forallb_forall in H. exact H.
  - intros H. apply rstripp_all. now rewrite forallb_forall.
Qed.

Inductive upto_blank : bytes -> bytes -> Prop :=
| ub_end : upto_blank [] []
| ub_blank c : c <> [] -> blank (take_line c) -> upto_blank c (drop_line c)
| ub_line c r : c <> [] -> ~ blank (take_line c) -> upto_blank (drop_line c) r -> upto_blank c r.

Definition after (line : str) (c rest : bytes) : Prop :=
  match line with [] => rest = c | _ => upto_blank c rest end.

Lemma blank_nil : blank [].
Proof. intros c []. Qed.

Lemma drop_line_shorter c : c <> [] -> (List.length (drop_line c) < List.length c)%nat.
Proof.
  intros H. pose proof (take_drop_line c) as E. apply (f_equal (@List.length N)) in E. rewrite app_length in E.
  assert (take_line c <> []) by now rewrite take_line_nil. destruct (take_line c); [contradiction|]. cbn in E. lia.
Qed.
Lemma drop_line_le c : (List.length (drop_line c) <= List.length c)%nat.
Proof. destruct c; [cbn; lia|]. pose proof (drop_line_shorter (n :: c) ltac:(discriminate)). lia. Qed.

Section Parser.
  Context {S : Type} (rl : S -> res bytes * S) (R : S -> bytes -> Prop) (HL : reads_lines rl R).
  Variable fuel : nat.

  Lemma next_line_any total s c : R s c ->
    exists s', next_line rl total s = (Ok (urstrip (decode_header (take_line c)), total + lenZ (decode_header (take_line c))), s')
      /\ R s' (drop_line c).
  Proof.
    intros HR. destruct (HL s c HR) as (s' & E & HR'). exists s'. unfold next_line. now rewrite E.
  Qed.

  Lemma after_step c rest : after (urstrip (decode_header (take_line c))) (drop_line c) rest -> upto_blank c rest.
  Proof.
    intros H. destruct (urstrip (decode_header (take_line c))) eqn:E.
    - cbn in H. subst rest. destruct c; [cbn; apply ub_end|]. apply ub_blank; [discriminate|]. now apply urstrip_nil_blank.
    - destruct c as [|x c]; [cbn in E; discriminate|]. apply ub_line; [discriminate| |exact H].
      rewrite <- urstrip_nil_blank. rewrite E. discriminate.
  Qed.

  Lemma cont_loop_any n : forall value line total s c, R s c -> (List.length c + 2 <= n)%nat ->
    exists v l' tot s' c', cont_loop rl n value line total s = (Ok (v, l', tot), s') /\ R s' c'
      /\ (List.length c' <= List.length c)%nat
      /\ (forall rest, after l' c' rest -> after line c rest).
  Proof.
    induction n as [|n IH]; intros value line total s c HR Hn; [lia|]. cbn [cont_loop].
    destruct (negb (is_nil line) && starts_sp_tab line) eqn:Eb.
    2:{ exists value, line, total, s, c. repeat split; auto. }
    destruct (next_line_any total s c HR) as (s1 & E1 & HR1). rewrite E1.
    destruct line as [|x line]; [discriminate|].
    destruct c as [|y c].
    - cbn [take_line drop_line] in *. change (urstrip (decode_header [])) with (@nil N).
      destruct n as [|n]; [cbn in Hn; lia|]. cbn [cont_loop is_nil negb andb].
      eexists _, [], _, s1, []. split; [reflexivity|]. repeat split; auto. cbn. intros rest ->. apply ub_end.
    - pose proof (drop_line_shorter (y :: c) ltac:(discriminate)).
      destruct (IH (match value with Some v => Some (v ++ x :: line) | None => None end)
                  (urstrip (decode_header (take_line (y :: c)))) (total + lenZ (decode_header (take_line (y :: c)))) s1 _ HR1 ltac:(lia))
        as (v & l' & tot & s' & c' & E & HR' & Hc' & Ha).
      exists v, l', tot, s', c'. split; [exact E|]. repeat split; auto; [lia|].
      intros rest Hr. cbn [after]. apply after_step. auto.
  Qed.

  Lemma header_loop_any n : forall acc line total s c, R s c ->
    (List.length c + 2 <= n)%nat -> (List.length c + 2 <= fuel)%nat ->
    exists hs tot s' rest, header_loop rl fuel n acc line total s = (Ok (hs, tot), s') /\ R s' rest /\ after line c rest.
  Proof.
    induction n as [|n IH]; intros acc line total s c HR Hn Hf; [lia|]. cbn [header_loop].
    destruct line as [|x line].
    { cbn [is_nil]. exists acc, total, s, c. repeat split; auto. }
    cbn [is_nil]. destruct (split_header (x :: line)) as [name value].
    destruct (next_line_any total s c HR) as (s1 & E1 & HR1). rewrite E1.
    destruct (cont_loop_any fuel value (urstrip (decode_header (take_line c))) (total + lenZ (decode_header (take_line c))) s1 _ HR1)
      as (v & l' & tot & s2 & c2 & E2 & HR2 & Hc2 & Ha).
    { pose proof (drop_line_le c). lia. }
    rewrite E2. destruct c as [|y c].
    - cbn [take_line drop_line] in *. change (urstrip (decode_header [])) with (@nil N) in *.
      destruct fuel as [|f]; [cbn in Hf; lia|]. cbn [cont_loop is_nil negb andb] in E2. injection E2 as <- <- <- <-.
      destruct n as [|n]; [cbn in Hn; lia|]. cbn [header_loop is_nil].
      eexists _, _, s1, []. split; [reflexivity|]. split; [assumption|]. cbn. apply ub_end.
    - pose proof (drop_line_shorter (y :: c) ltac:(discriminate)).
      destruct (IH (match v with Some v0 => acc ++ [(name, v0)] | None => acc end) l' tot s2 c2 HR2 ltac:(lia) ltac:(lia))
        as (hs & tot' & s3 & rest & E3 & HR3 & Ha3).
      exists hs, tot', s3, rest. split; [exact E3|]. split; [assumption|]. cbn [after]. apply after_step. auto.
  Qed.

  (** outcome of split_prefix *)
  Lemma split_prefix_None key ps : split_prefix key ps = None <-> forall q r, In q ps -> upper key <> q ++ r.
  Proof.
    induction ps as [|p ps IH]; cbn.
    - split; [intros _ q r []|reflexivity].
    - destruct (startswith p (upper key)) eqn:E.
      + split; [discriminate|]. intros H. apply startswith_spec in E as (r & E). exfalso. now apply (H p r); [left|].
      + rewrite IH. split.
        * intros H q r [<-|Hq]; [|now apply H]. intros E'. assert (startswith p (upper key) = true); [|congruence].
          apply startswith_spec. now exists r.
        * intros H q r Hq. apply H. now right.
  Qed.

  Lemma parse_any p s c : R s c -> (List.length c + 3 <= fuel)%nat ->
    let line1 := take_line c in
    (c = [] /\ exists s', parse rl fuel p None s = (Err EOFError, s') /\ R s' [])
    \/ (exists h s' rest, parse rl fuel p None s = (Ok h, s') /\ R s' rest /\ upto_blank c rest /\ c <> []
         /\ (blank line1 \/ p_verify p = false \/ exists q r, In q (p_list p) /\ upper (urstrip (decode_header line1)) = q ++ r))
    \/ (exists s', parse rl fuel p None s = (Err (ParserExn (decode_header line1)), s') /\ R s' (drop_line c)
         /\ c <> [] /\ ~ blank line1 /\ p_verify p = true
         /\ forall q r, In q (p_list p) -> upper (urstrip (decode_header line1)) <> q ++ r).
  Proof.
    intros HR Hf line1. unfold parse. destruct (HL s c HR) as (s1 & E1 & HR1). rewrite E1. cbn [decode_hline].
    fold line1. destruct (lenZ (decode_header line1) =? 0) eqn:E0.
    { left. assert (Hd : decode_header line1 = []) by (apply lenZ_0; lia).
      assert (line1 = []).
      { unfold decode_header, latin1_decode in Hd. destruct (utf8_decode line1) as [d|] eqn:Ed; [|assumption].
        subst d. destruct line1 as [|b t]; [reflexivity|exfalso]. now apply utf8_decode_ne in Ed. }
      assert (c = []) by (unfold line1 in *; now apply take_line_nil). subst c. split; [reflexivity|]. exists s1. auto. }
    destruct c as [|y c]. { exfalso. unfold line1 in E0. cbn in E0. discriminate. }
    right. set (c0 := y :: c) in *. assert (Hc0 : c0 <> []) by discriminate. clearbody c0. clear y c.
    destruct (urstrip (decode_header line1)) as [|x sl] eqn:Es.
    { left. cbn [is_nil]. assert (blank line1) by now apply urstrip_nil_blank.
      eexists _, s1, (drop_line c0). split; [reflexivity|]. split; [assumption|]. split; [now apply ub_blank|]. auto. }
    assert (Hnb : ~ blank line1). { rewrite <- urstrip_nil_blank, Es. discriminate. }
    cbn [is_nil]. rewrite <- Es.
    assert (Hgo : forall proto st, exists h s' rest,
      match next_line rl (lenZ (decode_header line1)) s1 with
      | (Ok (line, total'), s2) =>
          match header_loop rl fuel fuel [] line total' s2 with
          | (Ok (hs, tot), s3) => (Ok (mk_sah (match st with Some x0 => ustrip x0 | None => [] end) hs proto tot None), s3)
          | (Err e, s3) => (Err e, s3)
          end
      | (Err e, s2) => (Err e, s2)
      end = (Ok h, s') /\ R s' rest /\ upto_blank c0 rest).
    { intros proto st. destruct (next_line_any (lenZ (decode_header line1)) s1 _ HR1) as (s2 & E2 & HR2). rewrite E2.
      pose proof (drop_line_shorter c0 Hc0) as Hd1. pose proof (drop_line_le (drop_line c0)) as Hd2.
      edestruct (header_loop_any fuel [] (urstrip (decode_header (take_line (drop_line c0))))) as (hs & tot & s3 & rest & E3 & HR3 & Ha);
        [exact HR2| | |]; [lia|lia|].
      rewrite E3. eexists _, s3, rest. split; [reflexivity|]. split; [assumption|].
      apply ub_line; auto. now apply after_step. }
    destruct (p_verify p) eqn:Ev.
    - destruct (split_prefix (urstrip (decode_header line1)) (p_list p)) as [[proto st]|] eqn:Ep.
      + left. destruct (Hgo proto (Some st)) as (h & s' & rest & E & HRr & Hub). exists h, s', rest. repeat split; auto.
        right. right. clear - Ep. revert Ep. induction (p_list p) as [|q ps IH]; cbn; [discriminate|].
        destruct (startswith q (upper (urstrip (decode_header line1)))) eqn:E.
        * intros _. apply startswith_spec in E as (r & E). exists q, r. auto.
        * intros H. destruct (IH H) as (q' & r & Hq & Hr). exists q', r. auto.
      + right. exists s1. split; [reflexivity|]. repeat split; auto. now apply split_prefix_None.
    - left. destruct (split1 32%N (urstrip (decode_header line1))) as [[proto st]|].
      + destruct (Hgo proto (Some st)) as (h & s' & rest & E & HRr & Hub). exists h, s', rest. repeat split; auto.
      + destruct (Hgo (urstrip (decode_header line1)) None) as (h & s' & rest & E & HRr & Hub). exists h, s', rest. repeat split; auto.
  Qed.

  Lemma upto_blank_block c rest : upto_blank c rest -> exists block, c = block ++ rest /\ header_block block rest.
  Proof.
    induction 1 as [|c Hc Hb|c r Hc Hnb H IH].
    - exists []. split; [reflexivity|]. exists [], []. repeat split; [constructor|]. right. auto.
    - exists (take_line c). split; [now rewrite take_drop_line|]. exists [], (take_line c). repeat split; [constructor|].
      destruct (In_LF_dec c) as [Hi|Hi].
      + left. split; [|assumption]. apply in_split in Hi. clear - Hi.
        destruct Hi as (a & b & ->). induction a as [|x a IHa]; cbn.
        * exists []. auto.
        * destruct (N.eqb_spec x LF) as [->|Hx]; [exists []; auto|].
          destruct IHa as (a' & Ha & ->). exists (x :: a'). split; [|reflexivity]. cbn. intuition.
      + right. rewrite take_line_noLF by assumption. split; [|assumption].
        pose proof (take_drop_line c) as E. rewrite take_line_noLF in E by assumption.
        rewrite <- (app_nil_r c) in E at 3. now apply app_inv_head in E.
    - destruct IH as (block & E & lines & last & -> & Hl & Hlast).
      destruct (In_LF_dec c) as [Hi|Hi].
      + exists (take_line c ++ concat lines ++ last). split; [now rewrite <- app_assoc, <- E, take_drop_line|].
        exists (take_line c :: lines), last. split; [cbn; now rewrite <- app_assoc|]. split; [|assumption].
        constructor; [|assumption]. split; [|assumption]. apply in_split in Hi. clear - Hi.
        destruct Hi as (a & b & ->). induction a as [|x a IHa]; cbn.
        * exists []. auto.
        * destruct (N.eqb_spec x LF) as [->|Hx]; [exists []; auto|].
          destruct IHa as (a' & Ha & ->). exists (x :: a'). split; [|reflexivity]. cbn. intuition.
      + assert (drop_line c = []) as E0.
        { pose proof (take_drop_line c) as E0. rewrite take_line_noLF in E0 by assumption.
          rewrite <- (app_nil_r c) in E0 at 3. now apply app_inv_head in E0. }
        rewrite E0 in E. symmetry in E. apply app_eq_nil in E as [E1 ->].
        exists c. split; [now rewrite app_nil_r|]. exists [], c. repeat split; [constructor|]. right. auto.
  Qed.

  (** ** Parsing what to_bytes produced *)
  Lemma ustrip_id s : no_lead is_uspace s -> no_trail is_uspace s -> ustrip s = s.
  Proof.
    intros H1 H2. unfold ustrip, stripp.
    assert (E : rstripp is_uspace s = s).
    { apply rstripp_id. destruct s as [|x s0] using rev_ind; [now left|right]. exists s0, x. split; [reflexivity|]. now apply (H2 x s0). }
    rewrite E. apply lstripp_id. destruct s as [|x s]; [exact I|]. now apply (H1 x s).
  Qed.
  Lemma urstrip_id s : no_trail is_uspace s -> urstrip s = s.
  Proof.
    intros H2. unfold urstrip. apply rstripp_id. destruct s as [|x s0] using rev_ind; [now left|right]. exists s0, x. split; [reflexivity|]. now apply (H2 x s0).
  Qed.

  Lemma next_line_text total s t rest : R s (enc (t ++ crlf) ++ rest) -> line_text t ->
    exists s', next_line rl total s = (Ok (urstrip t, total + lenZ t + 2), s') /\ R s' rest.
  Proof.
    intros HR [Hsc Hlf]. rewrite enc_app, enc_crlf in HR.
    assert (Hl : take_line ((enc t ++ crlf) ++ rest) = enc t ++ crlf /\ drop_line ((enc t ++ crlf) ++ rest) = rest).
    { assert (Et : take_line ((enc t ++ crlf) ++ rest) = enc t ++ crlf).
      { change crlf with ([CR] ++ [LF]). rewrite app_assoc, <- (app_assoc _ [LF] rest). cbn [app].
        apply take_line_LF. intros Hi. apply in_app_or in Hi as [Hi|[Hi|[]]]; [now apply enc_LF in Hi|discriminate]. }
      split; [exact Et|]. rewrite drop_line_dropZ, Et. apply dropZ_app_exact. }
    destruct Hl as [Et Ed]. destruct (next_line_any total s _ HR) as (s' & E & HR'). rewrite Et in E. rewrite Ed in HR'.
    exists s'. split; [|assumption]. rewrite E.
    assert (Edec : decode_header (enc t ++ crlf) = t ++ crlf).
    { rewrite <- enc_crlf, <- enc_app. apply decode_enc. intros c Hc. apply in_app_or in Hc as [Hc|Hc]; [auto|].
      destruct Hc as [<-|[<-|[]]]; reflexivity. }
    rewrite Edec. unfold urstrip. rewrite rstripp_app by reflexivity. rewrite lenZ_app. change (lenZ crlf) with 2.
    do 3 f_equal. lia.
  Qed.

  Lemma split_header_line k v : wf_header (k, v) -> split_header (urstrip (k ++ lit ": " ++ v)) = (k, Some v).
  Proof.
    intros (_ & Hc & _ & Htr & _ & Hvl & Hvt). cbn [fst snd] in *.
    assert (Hk : rstripp is_sp_tab k = k).
    { apply rstripp_id. destruct k as [|x k0] using rev_ind; [now left|right]. exists k0, x. split; [reflexivity|]. now apply (Htr x k0). }
    unfold split_header. destruct v as [|x v0].
    - assert (E : urstrip (k ++ lit ": " ++ []) = k ++ [58%N]).
      { rewrite app_nil_r. change (lit ": ") with ([58%N] ++ [32%N]). rewrite app_assoc. unfold urstrip.
        rewrite rstripp_app by reflexivity. now apply rstripp_last. }
      rewrite E. assert (Es : split1 58%N (k ++ [58%N]) = Some (k, [])) by (apply split1_spec; auto). rewrite Es. now rewrite Hk.
    - assert (E : urstrip (k ++ lit ": " ++ x :: v0) = k ++ 58%N :: 32%N :: x :: v0).
      { apply (urstrip_id (k ++ 58%N :: 32%N :: x :: v0)). intros c t Et.
        destruct (exists_last (l := x :: v0) ltac:(discriminate)) as (w & d & Ew). rewrite Ew in Et.
        change (58%N :: 32%N :: w ++ [d]) with ((58%N :: 32%N :: w) ++ [d]) in Et. rewrite app_assoc in Et.
        apply app_inj_tail in Et as [_ <-]. now apply (Hvt d w). }
      rewrite E. assert (Es : split1 58%N (k ++ 58%N :: 32%N :: x :: v0) = Some (k, 32%N :: x :: v0)) by (apply split1_spec; auto).
      rewrite Es, Hk. f_equal. f_equal. unfold ulstrip. change (32%N :: x :: v0) with ([32%N] ++ x :: v0).
      rewrite lstripp_app by reflexivity. apply lstripp_id. now apply (Hvl x v0).
  Qed.

  Lemma line_text_header k v : wf_header (k, v) -> line_text (k ++ lit ": " ++ v).
  Proof.
    intros ((H1 & H2) & _ & _ & _ & (H3 & H4) & _). cbn [fst snd] in *. split.
    - intros c Hc. apply in_app_or in Hc as [Hc|Hc]; [auto|]. apply in_app_or in Hc as [Hc|Hc]; [|auto].
      destruct Hc as [<-|[<-|[]]]; reflexivity.
    - intros Hc. apply in_app_or in Hc as [Hc|Hc]; [auto|]. apply in_app_or in Hc as [Hc|Hc]; [|auto].
      destruct Hc as [E|[E|[]]]; discriminate.
  Qed.

  Lemma header_line_ne k v : urstrip (k ++ lit ": " ++ v) <> [].
  Proof.
    intros E. apply rstripp_nil_all in E. rewrite forallb_forall in E. specialize (E 58%N).
    assert (is_uspace 58%N = true) as [=]. apply E. apply in_or_app. right. cbn. auto.
  Qed.

  Lemma header_line_lead k v : wf_header (k, v) -> starts_sp_tab (urstrip (k ++ lit ": " ++ v)) = false.
  Proof.
    intros H. destruct H as (_ & _ & Hlead & _). cbn [fst] in Hlead.
    unfold urstrip. destruct (rstripp_split is_uspace (k ++ lit ": " ++ v)) as (b & E & _).
    destruct (rstripp is_uspace (k ++ lit ": " ++ v)) as [|x r]; [reflexivity|]. cbn.
    destruct k as [|y k]; cbn in E; injection E as <- _; [reflexivity|]. now apply (Hlead y k).
  Qed.

  Lemma header_line_enc (k v : str) (hs : list header) : header_lines None ((k, v) :: hs) = ((k ++ lit ": " ++ v) ++ crlf) ++ header_lines None hs.
  Proof. unfold header_lines. cbn [flat_map]. unfold header_line at 1. cbn [fst snd]. now rewrite !app_assoc. Qed.

  Lemma header_loop_wf hs : forall k v n acc total s body,
    Forall wf_header ((k, v) :: hs) -> R s (enc (header_lines None hs) ++ crlf ++ body) ->
    (List.length hs + 1 < n)%nat -> (1 < fuel)%nat ->
    exists s', header_loop rl fuel n acc (urstrip (k ++ lit ": " ++ v)) total s
      = (Ok (acc ++ (k, v) :: hs, total + lenZ (header_lines None hs) + 2), s') /\ R s' body.
  Proof.
    induction hs as [|[k1 v1] hs IH]; intros k v n acc total s body Hwf HR Hn Hf;
    (destruct n as [|n]; [lia|]); cbn [header_loop];
    inversion Hwf as [|? ? Hkv Hrest]; subst;
    rewrite (proj2 (is_nil_false _) (header_line_ne k v)), (split_header_line k v Hkv).
    - cbn [header_lines flat_map enc app] in HR. rewrite <- (enc_crlf) in HR. change (enc crlf) with (enc ([] ++ crlf)) in HR.
      destruct (next_line_text total s [] body HR) as (s1 & E1 & HR1); [split; [intros c []|intros []]|]. rewrite E1.
      destruct fuel as [|f]; [lia|]. cbn [cont_loop urstrip rstripp is_nil negb andb].
      destruct n as [|n]; [cbn in Hn; lia|]. cbn [header_loop is_nil].
      exists s1. split; [|assumption]. do 3 f_equal.
    - rewrite header_line_enc, enc_app, <- app_assoc in HR.
      inversion Hrest as [|? ? Hkv1 _]; subst.
      destruct (next_line_text total s _ _ HR (line_text_header k1 v1 Hkv1)) as (s1 & E1 & HR1). rewrite E1.
      assert (Ec : cont_loop rl fuel (Some v) (urstrip (k1 ++ lit ": " ++ v1)) (total + lenZ (k1 ++ lit ": " ++ v1) + 2) s1
                   = (Ok (Some v, urstrip (k1 ++ lit ": " ++ v1), total + lenZ (k1 ++ lit ": " ++ v1) + 2), s1)).
      { destruct fuel as [|f]; [lia|]. cbn [cont_loop]. now rewrite (header_line_lead k1 v1 Hkv1), andb_false_r. }
      rewrite Ec. cbn [List.length] in Hn.
      destruct (IH k1 v1 n (acc ++ [(k, v)]) (total + lenZ (k1 ++ lit ": " ++ v1) + 2) s1 body Hrest HR1 ltac:(lia) Hf) as (s2 & E2 & HR2).
      exists s2. split; [|assumption]. rewrite E2. rewrite <- app_assoc. cbn [app]. do 3 f_equal.
      rewrite header_line_enc, !lenZ_app. change (lenZ crlf) with 2. lia.
  Qed.

  Lemma takeZ_all_app {A} (a b : list A) : takeZ (lenZ a) (a ++ b) = a.
  Proof. apply takeZ_app_exact. Qed.

  Lemma split_prefix_first key before proto after :
    (forall q r, In q before -> upper key <> q ++ r) -> (exists r, upper key = proto ++ r) ->
    split_prefix key (before ++ proto :: after) = Some (proto, dropZ (lenZ proto) key).
  Proof.
    intros Hb (r & Hr). induction before as [|q before IH]; cbn [app split_prefix].
    - assert (E : startswith proto (upper key) = true) by (apply startswith_spec; now exists r). rewrite E.
      now rewrite Hr, takeZ_app_exact.
    - destruct (startswith q (upper key)) eqn:E.
      + apply startswith_spec in E as (r' & E). exfalso. now apply (Hb q r'); [left|].
      + apply IH. intros q' r' Hq. apply Hb. now right.
  Qed.

  Lemma first_line_eq proto status : proto <> [] -> first_line proto status = status_text proto status ++ crlf.
  Proof.
    intros H. unfold first_line, status_text. destruct proto as [|x p]; [contradiction|]. cbn [is_nil negb andb].
    destruct status as [|y st]; cbn [is_nil negb]; [reflexivity|]. cbn [is_nil app]. f_equal. now rewrite <- !app_assoc.
  Qed.

  Lemma status_text_trail proto status : proto <> [] -> no_trail is_uspace proto -> no_trail is_uspace status ->
    no_trail is_uspace (status_text proto status).
  Proof.
    intros Hne Hp Hs. unfold status_text. destruct status as [|y st]; [assumption|]. intros c t E.
    destruct (exists_last (l := y :: st) ltac:(discriminate)) as (w & d & Ew). rewrite Ew in E.
    change (32%N :: w ++ [d]) with ((32%N :: w) ++ [d]) in E. rewrite app_assoc in E.
    apply app_inj_tail in E as [_ <-]. now apply (Hs d w).
  Qed.

  Lemma parse_wf p h s body : wf_block p h -> R s (enc (to_str None h) ++ crlf ++ body) ->
    (List.length (sh_headers h) + 3 <= fuel)%nat ->
    exists s', parse rl fuel p None s
      = (Ok (mk_sah (sh_status h) (sh_headers h) (sh_proto h) (lenZ (to_str None h) + 2) None), s') /\ R s' body.
  Proof.
    intros (Hne & Hpt & Hptr & Hst & Hsl & Hstr & Hrec & Hhs) HR Hf. destruct h as [status hs proto tot bf]. cbn [sh_status sh_headers sh_proto] in *.
    unfold to_str in *. cbn [sh_status sh_headers sh_proto] in *. rewrite (first_line_eq _ status Hne) in *.
    set (st := status_text proto status) in *.
    assert (Hstt : line_text st).
    { unfold st, status_text. destruct status as [|y st0]; [assumption|]. destruct Hpt as [H1 H2], Hst as [H3 H4]. split.
      - intros c Hc. apply in_app_or in Hc as [Hc|[<-|Hc]]; [auto|reflexivity|auto].
      - intros Hc. apply in_app_or in Hc as [Hc|[E|Hc]]; [auto|discriminate|auto]. }
    assert (Hsttr : no_trail is_uspace st) by now apply status_text_trail.
    assert (Hstne : st <> []). { unfold st, status_text. destruct status; [assumption|]. now destruct proto. }
    rewrite enc_app, <- app_assoc in HR.
    destruct (next_line_text 0 s st _ HR Hstt) as (s1 & E1 & HR1).
    unfold parse. unfold next_line in E1. destruct (rl s) as [[b|e] s1'] eqn:Erl; [|discriminate].
    injection E1 as Eu Et <-. cbn [decode_hline]. rewrite Eu, (urstrip_id st Hsttr).
    assert (Elen : lenZ (decode_header b) = lenZ st + 2) by lia. rewrite Elen.
    pose proof (lenZ_nonneg st). replace (lenZ st + 2 =? 0) with false by lia.
    rewrite (proj2 (is_nil_false st) Hstne).
    (* the protocol *)
    match goal with |- context [if p_verify p then ?a else ?b] => set (ps := if p_verify p then a else b) end.
    assert (Eps : exists rest, ps = Some (proto, rest) /\ match rest with Some x => ustrip x | None => [] end = status).
    { unfold ps, recognises in *. destruct (p_verify p).
      - destruct Hrec as (Hup & before & aft & -> & Hb). fold st in Hb.
        pose proof (split_prefix_first st before proto aft Hb) as P. unfold str in *. rewrite P; clear P.
        2:{ unfold st, status_text. destruct status as [|y st0]; [exists []; now rewrite app_nil_r|].
            unfold upper. rewrite map_app. fold (upper proto). rewrite Hup. eexists. reflexivity. }
        eexists. split; [reflexivity|]. unfold st, status_text. destruct status as [|y st0].
        + rewrite <- (app_nil_r proto) at 2. rewrite dropZ_app_exact. reflexivity.
        + rewrite dropZ_app_exact. unfold ustrip, stripp.
          assert (E : rstripp is_uspace (32%N :: y :: st0) = 32%N :: y :: st0).
          { apply rstripp_id. right. destruct (exists_last (l := y :: st0) ltac:(discriminate)) as (w & d & Ew). rewrite Ew.
            exists (32%N :: w), d. split; [reflexivity|]. now apply (Hstr d w). }
          rewrite E. change (32%N :: y :: st0) with ([32%N] ++ y :: st0). rewrite lstripp_app by reflexivity.
          apply lstripp_id. now apply (Hsl y st0).
      - unfold st, status_text. destruct status as [|y st0].
        + rewrite (proj2 (split1_None 32%N proto) Hrec). exists None. auto.
        + assert (Es : split1 32%N (proto ++ 32%N :: y :: st0) = Some (proto, y :: st0)) by (apply split1_spec; auto).
          rewrite Es. exists (Some (y :: st0)). split; [reflexivity|]. now apply ustrip_id. }
    destruct Eps as (rest & Eps & Est). rewrite Eps.
    destruct hs as [|[k v] hs].
    - cbn [header_lines flat_map enc app] in *. rewrite <- enc_crlf in HR1. change (enc crlf) with (enc ([] ++ crlf)) in HR1.
      destruct (next_line_text (lenZ st + 2) s1' [] body HR1) as (s2 & E2 & HR2); [split; [intros c []|intros []]|]. rewrite E2.
      destruct fuel as [|f]; [lia|]. cbn [header_loop urstrip rstripp is_nil]. exists s2. split; [|assumption].
      rewrite Est. do 3 f_equal. rewrite app_nil_r, lenZ_app. change (lenZ crlf) with 2. cbn. lia.
    - rewrite header_line_enc, enc_app, <- app_assoc in HR1. inversion Hhs as [|? ? Hkv Hrest]; subst.
      destruct (next_line_text (lenZ st + 2) s1' _ _ HR1 (line_text_header k v Hkv)) as (s2 & E2 & HR2). rewrite E2.
      assert (Hfl : (List.length hs + 1 < fuel)%nat) by (unfold header, str in *; cbn in Hf; lia).
      destruct (header_loop_wf hs k v fuel [] (lenZ st + 2 + lenZ (k ++ lit ": " ++ v) + 2) s2 body Hhs HR2 Hfl ltac:(lia)) as (s3 & E3 & HR3).
      rewrite E3. exists s3. split; [|assumption]. rewrite header_line_enc. rewrite !lenZ_app. change (lenZ crlf) with 2. cbn [app].
      do 3 f_equal. lia.
  Qed.
End Parser.

(** ** Boolean versions of the well-formedness conditions (for the examples) *)
Definition line_textb (s : str) : bool := forallb (fun c => is_scalar c && negb (c =? 10)%N) s.
Definition no_leadb (p : N -> bool) (s : str) : bool := match s with c :: _ => negb (p c) | [] => true end.
Definition no_trailb (p : N -> bool) (s : str) : bool := no_leadb p (rev s).
Definition wf_headerb (h : header) : bool :=
  line_textb (fst h) && negb (has_char 58 (fst h)) && no_leadb is_sp_tab (fst h) && no_trailb is_sp_tab (fst h)
  && line_textb (snd h) && no_leadb is_uspace (snd h) && no_trailb is_uspace (snd h).
Fixpoint first_matchb (t proto : str) (ps : list str) : bool :=
  match ps with
  | [] => false
  | q :: r => leqb q proto || (negb (startswith q t) && first_matchb t proto r)
  end.
Definition wf_blockb (p : parser) (h : sah) : bool :=
  negb (is_nil (sh_proto h)) && line_textb (sh_proto h) && no_trailb is_uspace (sh_proto h)
  && line_textb (sh_status h) && no_leadb is_uspace (sh_status h) && no_trailb is_uspace (sh_status h)
  && (if p_verify p then leqb (upper (sh_proto h)) (sh_proto h)
        && first_matchb (upper (status_text (sh_proto h) (sh_status h))) (sh_proto h) (p_list p)
      else negb (has_char 32 (sh_proto h)))
  && forallb wf_headerb (sh_headers h).

Lemma has_char_false c s : has_char c s = false -> ~ In c s.
Proof.
  unfold has_char. rewrite <- not_true_iff_false, existsb_exists. intros H Hi. apply H. exists c. split; [assumption|apply N.eqb_refl].
Qed.
Lemma has_char_true c s : has_char c s = true <-> In c s.
Proof.
  unfold has_char. rewrite existsb_exists. split; [intros (x & Hx & E); apply N.eqb_eq in E; now subst|].
  intros H. exists c. split; [assumption|apply N.eqb_refl].
Qed.
Lemma line_textb_ok s : line_textb s = true -> line_text s.
Proof.
  unfold line_textb. rewrite forallb_forall. intros H. split.
  - intros c Hc. specialize (H c Hc). now apply andb_true_iff in H as [H _].
  - intros Hc. specialize (H _ Hc). apply andb_true_iff in H as [_ H]. discriminate.
Qed.
Lemma no_leadb_ok p s : no_leadb p s = true -> no_lead p s.
Proof. intros H c t ->. cbn in H. now apply negb_true_iff in H. Qed.
Lemma no_trailb_ok p s : no_trailb p s = true -> no_trail p s.
Proof. intros H c t ->. unfold no_trailb in H. rewrite rev_app_distr in H. cbn in H. now apply negb_true_iff in H. Qed.
Lemma wf_headerb_ok h : wf_headerb h = true -> wf_header h.
Proof.
  unfold wf_headerb. rewrite !andb_true_iff. intros ((((((H1 & H2) & H3) & H4) & H5) & H6) & H7).
  repeat split; try (now apply line_textb_ok); try (now apply no_leadb_ok); try (now apply no_trailb_ok).
  apply has_char_false. now apply negb_true_iff in H2.
Qed.
Lemma first_matchb_ok t proto ps : first_matchb t proto ps = true ->
  exists before aft, ps = before ++ proto :: aft /\ forall q r, In q before -> t <> q ++ r.
Proof.
  induction ps as [|q ps IH]; cbn; [discriminate|]. rewrite orb_true_iff. intros [H|H].
  - apply leqb_eq in H. subst. exists [], ps. split; [reflexivity|]. intros q r [].
  - apply andb_true_iff in H as [H1 H2]. destruct (IH H2) as (before & aft & -> & Hb). exists (q :: before), aft.
    split; [reflexivity|]. intros q' r [<-|Hq]; [|now apply Hb]. intros ->. apply negb_true_iff in H1.
    assert (startswith q (q ++ r) = true) by (apply startswith_spec; eauto). congruence.
Qed.
Lemma wf_blockb_ok p h : wf_blockb p h = true -> wf_block p h.
Proof.
  unfold wf_blockb. rewrite !andb_true_iff. intros (((((((H1 & H2) & H3) & H4) & H5) & H6) & H7) & H8).
  split; [destruct (sh_proto h); discriminate|].
  split; [now apply line_textb_ok|]. split; [now apply no_trailb_ok|]. split; [now apply line_textb_ok|].
  split; [now apply no_leadb_ok|]. split; [now apply no_trailb_ok|]. split.
  - unfold recognises. destruct (p_verify p).
    + apply andb_true_iff in H7 as [H7 H9]. apply leqb_eq in H7. split; [assumption|]. now apply first_matchb_ok.
    + apply has_char_false. now apply negb_true_iff in H7.
  - rewrite forallb_forall in H8. rewrite Forall_forall. intros x Hx. now apply wf_headerb_ok, H8.
Qed.
