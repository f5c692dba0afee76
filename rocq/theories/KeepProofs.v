(** * KeepProofs: what loading a record leaves unchanged in the streams it reads from *)
From Coq Require Import List ZArith NArith Bool String Lia.
From Coq Require Import ZifyBool ZifyNat ZifyN.
From Verif Require Import PyBase Facts Headers Streams Loader Iterator TermProofs AdvProofs.
Import ListNotations.
Open Scope Z_scope.

(** ** Header parsing keeps whatever readline keeps *)
Section Parse.
  Context {S : Type} (rl : S -> res bytes * S) (P : S -> Prop).
  Hypothesis K : forall s, P s -> P (snd (rl s)).

  Lemma next_line_keep total s : P s -> P (snd (next_line rl total s)).
  Proof. intros H. apply K in H. unfold next_line. destruct (rl s) as [[b|e] s']; exact H. Qed.

  Lemma cont_keep n v line total s : P s -> P (snd (cont_loop rl n v line total s)).
  Proof.
    revert v line total s. induction n as [|n IH]; intros v line total s H; [exact H|]. cbn [cont_loop].
    destruct (negb (is_nil line) && starts_sp_tab line); [|exact H].
    pose proof (next_line_keep total s H) as H1. destruct (next_line rl total s) as [[[l t]|e] s']; [|exact H1].
    now apply IH.
  Qed.

  Lemma header_keep f n acc line total s : P s -> P (snd (header_loop rl f n acc line total s)).
  Proof.
    revert acc line total s. induction n as [|n IH]; intros acc line total s H; [exact H|]. cbn [header_loop].
    destruct (is_nil line); [exact H|]. destruct (split_header line) as [name value].
    pose proof (next_line_keep total s H) as H1. destruct (next_line rl total s) as [[[l t]|e] s']; [|exact H1].
    pose proof (cont_keep f value l t s' H1) as H2. destruct (cont_loop rl f value l t s') as [[[[v l'] t']|e] s'']; [|exact H2].
    now apply IH.
  Qed.

  Lemma parse_keep f p full s : P s -> P (snd (parse rl f p full s)).
  Proof.
    intros H. unfold parse.
    destruct (match full with
              | Some h => (Ok h, s)
              | None => match rl s with (Ok b, s') => (Ok (HBytes b), s') | (Err e, s') => (Err e, s') end
              end) as [r s1] eqn:E.
    assert (H1 : P s1).
    { destruct full as [h|]; [now injection E as _ <-|]. apply K in H.
      destruct (rl s) as [[b|e] s']; injection E as _ <-; exact H. }
    destruct r as [h|e]; [|exact H1]. cbn zeta.
    destruct (lenZ (decode_hline h) =? 0); [exact H1|].
    destruct (is_nil (urstrip (decode_hline h))); [exact H1|].
    destruct (if p_verify p then _ else _) as [[proto st]|]; [|exact H1].
    pose proof (next_line_keep (lenZ (decode_hline h)) s1 H1) as H2.
    destruct (next_line rl (lenZ (decode_hline h)) s1) as [[[l t]|e] s2]; [|exact H2].
    pose proof (header_keep f f [] l t s2 H2) as H3.
    destruct (header_loop rl f f [] l t s2) as [[[hs tot]|e] s3]; exact H3.
  Qed.
End Parse.

Lemma arc_keep {S} (ops : sops S) (P : S -> Prop) a2w uuid full s :
  (forall s, P s -> P (snd (o_readline ops None s))) -> P s -> P (snd (arc_parse ops a2w uuid full s)).
Proof.
  intros K H. unfold arc_parse.
  destruct (match full with
            | Some h => (Ok h, s)
            | None => match o_readline ops None s with (Ok b, s') => (Ok (HBytes b), s') | (Err e, s') => (Err e, s') end
            end) as [r s1] eqn:E.
  assert (H1 : P s1).
  { destruct full as [h|]; [now injection E as _ <-|]. apply K in H.
    destruct (o_readline ops None s) as [[b|e] s']; injection E as _ <-; exact H. }
  destruct r as [h|e]; [|exact H1]. cbn zeta. destruct (is_nil (decode_hline h)); [exact H1|].
  destruct (if is_filedesc (urstrip (decode_hline h)) then _ else _) as [t s2] eqn:E2.
  assert (H2 : P s2).
  { destruct (is_filedesc (urstrip (decode_hline h))); [|now injection E2 as _ <-].
    pose proof (K _ H1) as H3. destruct (o_readline ops None s1) as [[v|e] s3]; [|injection E2 as _ <-; exact H3].
    pose proof (K _ H3) as H4. cbn [snd] in H3, H4.
    destruct (o_readline ops None s3) as [[sp|e] s4]; injection E2 as _ <-; exact H4. }
  destruct t as [total|e]; [|exact H2].
  destruct (negb (lenZ (rsplit 32%N 4 (urstrip (decode_hline h))) =? 5)); [exact H2|].
  destruct (if a2w then _ else _); exact H2.
Qed.

Lemma detect_keep {S} (ops : sops S) f (P : S -> Prop) a2w uuid sl known s :
  (forall s, P s -> P (snd (o_readline ops None s))) -> P s -> P (snd (detect_type ops f a2w uuid sl known s)).
Proof.
  intros K H. unfold detect_type.
  assert (A : forall st s, P s -> P (snd match arc_parse ops a2w uuid st s with
      | (Ok h, s') => (Ok (true, h), s')
      | (Err (ParserExn _), s') => (Err ArchiveLoadFailed, s')
      | (Err e, s') => (Err e, s') end)).
  { intros st s0 H0. pose proof (arc_keep ops P a2w uuid st s0 K H0) as H1.
    destruct (arc_parse ops a2w uuid st s0) as [[h|[]] s']; exact H1. }
  assert (B : P (snd match parse (o_readline ops None) f (mk_parser WARC_TYPES true) sl s with
        | (Ok h, s') => (Ok (false, h), s')
        | (Err (ParserExn line), s') =>
            match known with
            | Some FWarc => (Err ArchiveLoadFailed, s')
            | _ => match arc_parse ops a2w uuid (Some (HStr line)) s' with
                   | (Ok h, s') => (Ok (true, h), s')
                   | (Err (ParserExn _), s') => (Err ArchiveLoadFailed, s')
                   | (Err e, s') => (Err e, s') end
            end
        | (Err e, s') => (Err e, s') end)).
  { pose proof (parse_keep (o_readline ops None) P K f (mk_parser WARC_TYPES true) sl s H) as H1.
    destruct (parse (o_readline ops None) f (mk_parser WARC_TYPES true) sl s) as [[h|[]] s']; try exact H1.
    destruct known as [[|]|]; [exact H1|now apply A|now apply A]. }
  destruct known as [[|]|]; [exact B|now apply A|exact B].
Qed.

Lemma http_keep {T} (ops : sops T) f (P : T -> Prop) verify t uri len s :
  (forall s, P s -> P (snd (o_readline ops None s))) -> P s -> P (snd (load_http_headers ops f verify t uri len s)).
Proof.
  intros K H. unfold load_http_headers.
  destruct (match len with Some 0 => true | _ => false end); [exact H|].
  destruct (negb (is_http_record t)); [exact H|]. destruct uri as [u|]; [|exact H].
  destruct (negb (is_http_uri u)); [exact H|]. destruct (otype_is t "request").
  - pose proof (parse_keep (o_readline ops None) P K f (mk_parser HTTP_VERBS verify) None s H) as H1.
    destruct (parse _ f _ None s) as [[h|e] s']; exact H1.
  - pose proof (parse_keep (o_readline ops None) P K f (mk_parser HTTP_TYPES verify) None s H) as H1.
    destruct (parse _ f _ None s) as [[h|[]] s']; try exact H1. destruct (otype_is t "revisit"); exact H1.
Qed.

(** ** The reader *)
Section Reader.
  Context {zl : zenv}.
  Notation rdr := (breader zl raw).

  (** not a chunked reader, and not read_all_members *)
  Definition plain (b : rdr) : Prop := br_ck b = None /\ br_all b = false.

  Lemma decompress_ck d (b : rdr) : br_ck (snd (decompress d b)) = br_ck b.
  Proof.
    unfold decompress. destruct (br_dec b) as [x|]; [|reflexivity]. destruct (is_nil d); [reflexivity|].
    destruct (dobj_decompress zl x d) as [[o|] x']; [reflexivity|]. destruct (br_nblk b =? 0); [|reflexivity].
    destruct (br_dtype b) as [[| |]|]; try reflexivity.
    now destruct (dobj_decompress zl (DActive (zinit zl DeflateAlt)) d) as [[o|] ?].
  Qed.
  Lemma process_plain d (b : rdr) : plain b -> plain (process_read d b).
  Proof.
    intros [H1 H2]. split; [|now rewrite process_all]. unfold process_read. destruct (is_nil d); [exact H1|].
    pose proof (decompress_ck d b) as H. destruct (decompress d b). cbn [snd] in H. cbn. congruence.
  Qed.
  Lemma loop_plain n d (b : rdr) : plain b -> plain (snd (fill_loop raw_ops n d b)).
  Proof.
    revert d b. induction n as [|n IH]; intros d b H; [exact H|]. cbn [fill_loop].
    destruct (fill_cond d b); [|exact H].
    destruct (o_read raw_ops (Some (br_block b)) (br_stream b)) as [[d'|e] s']; [|exact H].
    apply IH, process_plain, H.
  Qed.
  Lemma fill_plain f (b : rdr) : plain b -> plain (snd (fillbuff raw_ops f b)).
  Proof.
    intros H. unfold fillbuff. rewrite (proj1 H). unfold fill_base. rewrite br_empty_all by apply H.
    destruct (buff_empty b); cbn [negb]; [|exact H]. destruct (0 <? rem_length b); [exact H|].
    assert (R : plain (snd match o_read raw_ops (Some (br_block b)) (br_stream b) with
        | (Ok d, s') => fill_loop raw_ops f d (process_read d (set_stream s' b))
        | (Err e, s') => (Err e, set_stream s' b) end)).
    { destruct (o_read raw_ops (Some (br_block b)) (br_stream b)) as [[d'|e] s']; [|exact H].
      apply loop_plain, process_plain, H. }
    destruct (br_start b) as [[|c d]|]; [exact R| |exact R]. apply loop_plain, process_plain, H.
  Qed.

  Lemma lloop_plain f n len line (b : rdr) : plain b -> plain (snd (line_loop raw_ops f n len line b)).
  Proof.
    revert len line b. induction n as [|n IH]; intros len line b H; [exact H|]. cbn [line_loop].
    destruct (ends_lf line); [exact H|]. destruct (match len with Some k => _ | None => false end); [exact H|].
    pose proof (fill_plain f b H) as H1. destruct (fillbuff raw_ops f b) as [[u|e] b1]; [|exact H1].
    cbn [snd] in H1. rewrite br_empty_all by apply H1. destruct (buff_empty b1); [exact H1|].
    unfold buff_line. apply IH. exact H1.
  Qed.
  Lemma readline_plain f n (b : rdr) : plain b -> plain (snd (br_readline raw_ops f n b)).
  Proof.
    intros H. unfold br_readline. destruct (match n with Some k => k =? 0 | None => false end); [exact H|].
    pose proof (fill_plain f b H) as H1. destruct (fillbuff raw_ops f b) as [[u|e] b1]; [|exact H1].
    cbn [snd] in H1. rewrite br_empty_all by apply H1. destruct (buff_empty b1); [exact H1|].
    unfold buff_line. apply lloop_plain. exact H1.
  Qed.
  Lemma rloop_plain f n len acc (b : rdr) : plain b -> plain (snd (read_loop raw_ops f n len acc b)).
  Proof.
    revert len acc b. induction n as [|n IH]; intros len acc b H; [exact H|]. cbn [read_loop].
    destruct (match len with Some k => _ | None => true end); [|exact H].
    pose proof (fill_plain f b H) as H1. destruct (fillbuff raw_ops f b) as [[u|e] b1]; [|exact H1].
    cbn [snd] in H1. rewrite br_empty_all by apply H1. destruct (buff_empty b1); [exact H1|].
    apply IH. exact H1.
  Qed.
  Lemma next_member_plain (b : rdr) : plain b -> plain (snd (read_next_member b)).
  Proof. intros H. unfold read_next_member. destruct (br_dec b) as [[s|[|x u]|]|]; exact H. Qed.

  (** readline(k) returns at most k bytes *)
  Lemma lloop_len f n k line x (b b' : rdr) : 0 < k -> line_loop raw_ops f n (Some k) line b = (Ok x, b') ->
    lenZ x <= Z.max (lenZ line) k.
  Proof.
    revert k line b. induction n as [|n IH]; intros k line b Hk H; [discriminate|]. cbn [line_loop] in H.
    destruct (ends_lf line); [injection H as <- _; lia|]. replace (k =? 0) with false in H by lia.
    destruct (k - lenZ line <=? 0) eqn:El; [injection H as <- _; lia|].
    destruct (fillbuff raw_ops f b) as [[u|e] b1]; [|discriminate].
    destruct (br_empty b1) as [e b2]. destruct e; [injection H as <- _; lia|]. unfold buff_line in H.
    apply IH in H; [|lia]. rewrite lenZ_app in H.
    assert (lenZ (line_of (Some (k - lenZ line)) (buff_data b2)) <= k - lenZ line).
    { cbn [line_of]. replace (k - lenZ line <? 0) with false by lia. rewrite lenZ_takeZ by lia. lia. }
    pose proof (lenZ_nonneg line). lia.
  Qed.
  Lemma readline_len f k x (b b' : rdr) : 0 <= k -> br_readline raw_ops f (Some k) b = (Ok x, b') -> lenZ x <= k.
  Proof.
    intros Hk H. unfold br_readline in H. destruct (k =? 0) eqn:E0; [injection H as <- _; exact Hk|].
    destruct (fillbuff raw_ops f b) as [[u|e] b1]; [|discriminate].
    destruct (br_empty b1) as [e b2]. destruct e; [injection H as <- _; exact Hk|]. unfold buff_line in H.
    apply lloop_len in H; [|lia].
    assert (lenZ (line_of (Some k) (buff_data b2)) <= k).
    { cbn [line_of]. replace (k <? 0) with false by lia. rewrite lenZ_takeZ by lia. lia. }
    lia.
  Qed.

  (** ** The record's stream: limits that fit *)
  Definition lims (st : rstream rdr) : Prop :=
    match st with
    | RSbase _ => True
    | RSlim l => 0 <= lm_limit l
    | RSdig d => 0 <= lm_limit (dr_lim d) /\ lm_limit (lm_stream (dr_lim d)) = lm_limit (dr_lim d)
    end.
  Definition Ps (st : rstream rdr) : Prop := plain (rs_base st) /\ lims st.

  Lemma dig_update_lim x l (d : digr rdr) : dr_lim (snd (dig_update x l d)) = l.
  Proof.
    unfold dig_update. destruct (lm_limit l =? 0); [|reflexivity].
    destruct (check_one PBlockFailed _ _ _) as [[u|e] c]; [|reflexivity].
    destruct (check_one PPayloadFailed _ _ _) as [[u'|e] c']; reflexivity.
  Qed.

  Lemma rs_line_keep f st : Ps st -> Ps (snd (rs_readline (@rops zl f) None st)).
  Proof.
    intros [H1 H2]. destruct st as [b|l|d]; cbn [rs_readline rs_base] in *.
    - pose proof (readline_plain f None b H1) as H. cbn [rops br_ops o_readline].
      destruct (br_readline raw_ops f None b) as [x b']. now split.
    - unfold lim_readline. cbn [lim_len]. cbn [lims] in H2. destruct (lm_limit l =? 0) eqn:E0; [now split|].
      cbn [rops br_ops o_readline]. pose proof (readline_plain f (Some (lm_limit l)) _ H1) as H.
      destruct (br_readline raw_ops f (Some (lm_limit l)) (lm_stream l)) as [[x|e] b'] eqn:E; cbn [snd] in *.
      + apply readline_len in E; [|exact H2]. split; [exact H|]. cbn [lims lim_update lm_limit]. lia.
      + split; [exact H|exact H2].
    - unfold dig_readline, dig_rd. cbn [lim_len]. destruct H2 as [H2 H3].
      destruct (lm_limit (dr_lim d) =? 0) eqn:E0; [now split|].
      cbn [lim_ops o_readline]. unfold lim_readline. cbn [lim_len]. rewrite H3, Z.min_id, E0.
      cbn [rops br_ops o_readline]. pose proof (readline_plain f (Some (lm_limit (dr_lim d))) _ H1) as H.
      destruct (br_readline raw_ops f (Some (lm_limit (dr_lim d))) (lm_stream (lm_stream (dr_lim d)))) as [[x|e] b'] eqn:E; cbn [snd] in *.
      + apply readline_len in E; [|exact H2].
        destruct (dig_update _ _ d) as [y d'] eqn:Eu. apply (f_equal snd) in Eu. cbn [snd] in Eu.
        cbn [snd]. unfold Ps. cbn [rs_base lims]. rewrite <- Eu, dig_update_lim. cbn [lim_update lm_stream lm_limit].
        split; [exact H|]. split; lia.
      + split; [exact H|]. cbn [lims dr_lim lm_limit lm_stream]. now split.
  Qed.

  Lemma begin_payload_lim (d : digr rdr) : dr_lim (snd (begin_payload d)) = dr_lim d.
  Proof.
    unfold begin_payload. cbn [dr_set_pon dr_lim]. destruct (lm_limit (dr_lim d) =? 0); [|reflexivity].
    destruct (check_one _ _ _ _) as [[[|]|e] c]; reflexivity.
  Qed.

  Lemma dig_new_lim he l n c t pd bd seg (d : digr rdr) : dig_new he l n c t pd bd seg = Ok d -> dr_lim d = lim_new l n.
  Proof.
    unfold dig_new. destruct (mk_digester he PUnknownBlock _ c) as [[bo|e] c1]; [|discriminate].
    destruct (mk_digester he PUnknownPayload _ c1) as [[po|e] c2]; [|discriminate]. now intros [= <-].
  Qed.

  Lemma eff_length_nonneg l s n : eff_length l s = Some n -> 0 <= n.
  Proof.
    unfold eff_length. destruct l as [l|]; [|discriminate]. destruct (py_int l) as [z|]; [|now intros [= <-]].
    destruct (z - s <? 0) eqn:E; intros [= <-]; lia.
  Qed.

  (** loading a record leaves the reader plain and the record's limits fitting *)
  Lemma record_keep f he o sl known (b : rdr) : plain b ->
    let r := parse_record_stream (@rops zl f) f he o sl known b in
    plain (snd r) /\ match fst r with Ok rc => Ps (rc_stream rc) | Err _ => True end.
  Proof.
    intros H. cbn zeta. unfold parse_record_stream.
    pose proof (detect_keep (@rops zl f) f plain (lo_a2w o) (lo_uuid o) sl known b
                  (fun s Hs => readline_plain f None s Hs) H) as H1.
    destruct (detect_type (@rops zl f) f (lo_a2w o) (lo_uuid o) sl known b) as [[[is_arc h]|e] s1]; [|now split].
    cbn [snd] in H1. cbn zeta.
    destruct (if is_arc && negb (lo_a2w o) then _ else _) as [[[[[t uri] h'] len] ctype] sub].
    destruct (match eff_length len sub with
              | Some n => if ckind_bool (lo_check o) then wrap_digest he (lim_new s1 n) t h' (chk_new (lo_check o)) n
                          else Ok (RSlim (lim_new s1 n))
              | None => Ok (RSbase s1) end) as [st|e] eqn:Est; [|now split].
    assert (H2 : Ps st).
    { destruct (eff_length len sub) as [n|] eqn:El; [|injection Est as <-; now split].
      apply eff_length_nonneg in El. destruct (ckind_bool (lo_check o)).
      - unfold wrap_digest in Est.
        destruct (negb (truthy _) && negb (truthy _)); [injection Est as <-; split; [exact H1|exact El]|].
        destruct (dig_new he _ _ _ _ _ _ _) as [d|e] eqn:Ed; [|discriminate]. injection Est as <-.
        apply dig_new_lim in Ed. unfold Ps. cbn [rs_base lims]. rewrite Ed. cbn [lim_new lm_stream lm_limit].
        split; [exact H1|]. now split.
      - injection Est as <-. split; [exact H1|exact El]. }
    destruct (if lo_norec o then (Ok None, st)
              else load_http_headers (rs_ops (rops f)) f (lo_verify o) t uri (eff_length len sub) st) as [r st'] eqn:Eh.
    assert (H3 : Ps st').
    { destruct (lo_norec o); [injection Eh as _ <-; exact H2|].
      pose proof (http_keep (rs_ops (@rops zl f)) f Ps (lo_verify o) t uri (eff_length len sub) st
                    (fun s Hs => rs_line_keep f s Hs) H2) as H3. rewrite Eh in H3. exact H3. }
    destruct r as [http|e]; [|split; [apply H3|exact Logic.I]].
    destruct (match st' with RSdig d => let (x, d') := begin_payload d in (x, RSdig d') | _ => (Ok tt, st') end)
      as [r2 st''] eqn:Eb.
    assert (H4 : Ps st'').
    { destruct st' as [b'|l|d]; try (injection Eb as _ <-; exact H3).
      pose proof (begin_payload_lim d) as Hl. destruct (begin_payload d) as [x d']. injection Eb as _ <-.
      cbn [snd] in Hl. unfold Ps in *. cbn [rs_base lims] in *. now rewrite Hl. }
    destruct r2 as [u|e]; (split; [apply H4|]); [exact H4|exact Logic.I].
  Qed.
End Reader.
