(** * ReportProofs: a digest checker that failed knows a problem *)
From Coq Require Import String List ZArith NArith Bool Lia.
From Verif Require Import PyBase Headers HeaderSpec Streams StreamSpec Loader Iterator CallProofs TraceProofs KeepProofs.
Import ListNotations.
Open Scope Z_scope.

Definition told (c : checker) : Prop := dc_passed c = Some false -> dc_problems c <> [].

Lemma told_problem p c : told (snd (chk_problem p c)).
Proof. unfold chk_problem, told. destruct (dc_kind c); cbn; intros _ X; now apply app_eq_nil in X as [_ X]. Qed.
Lemma told_pass c : told c -> told (chk_pass c).
Proof. unfold told, chk_pass. intros H. destruct (dc_passed c) as [[|]|] eqn:E; cbn; try discriminate. rewrite E. exact H. Qed.
Lemma told_check p g d c : told c -> told (snd (check_one p g d c)).
Proof.
  intros H. unfold check_one. destruct (compare_digest g d) as [[[|]|]|e]; [now apply told_pass| |exact H|exact H].
  pose proof (told_problem p c) as X. destruct (chk_problem p c) as [[]]; exact X.
Qed.
Lemma told_digester he p d c : told c -> told (snd (mk_digester he p d c)).
Proof.
  intros H. unfold mk_digester. pose proof (told_problem p c) as X.
  destruct d as [[|x d]|]; [exact H| |exact H]. destruct (parse_digest (x :: d)) as [[a v]|].
  - destruct (dgst_new he a); [exact H|]. destruct (chk_problem p c) as [[]]; exact X.
  - destruct (chk_problem p c) as [[]]; exact X.
Qed.

Section Rs.
  Context {S : Type} (ops : sops S) (he : henv).
  Definition told_rs (st : rstream S) : Prop := match st with RSdig d => told (dr_chk d) | _ => True end.

  Lemma told_new l n c t pd bd seg (d : digr S) : told c -> dig_new he l n c t pd bd seg = Ok d -> told (dr_chk d).
  Proof.
    unfold dig_new. intros H.
    match goal with |- context [mk_digester he PUnknownBlock ?x c] => pose proof (told_digester he PUnknownBlock x c H) as H1;
      destruct (mk_digester he PUnknownBlock x c) as [[b|e] c1]; [|discriminate] end.
    cbn [snd] in H1.
    match goal with |- context [mk_digester he PUnknownPayload ?x c1] => pose proof (told_digester he PUnknownPayload x c1 H1) as H2;
      destruct (mk_digester he PUnknownPayload x c1) as [[p|e] c2]; [|discriminate] end.
    intros [= <-]. exact H2.
  Qed.
  Lemma told_begin (d : digr S) : told (dr_chk d) -> told (dr_chk (snd (begin_payload d))).
  Proof.
    intros H. unfold begin_payload. destruct (lm_limit (dr_lim (dr_set_pon true d)) =? 0); [|exact H].
    pose proof (told_check PPayloadFailed (dr_pobj (dr_set_pon true d)) (dr_pdig (dr_set_pon true d)) (dr_chk (dr_set_pon true d)) H) as X.
    destruct (check_one _ _ _ _) as [[[|]|e] c]; exact X.
  Qed.
  Lemma told_update b l (d : digr S) : told (dr_chk d) -> told (dr_chk (snd (dig_update b l d))).
  Proof.
    intros H. unfold dig_update. destruct (lm_limit l =? 0); [|exact H].
    match goal with |- context [check_one PBlockFailed ?x ?y ?z] => pose proof (told_check PBlockFailed x y z H) as X;
      destruct (check_one PBlockFailed x y z) as [[r|e] c]; [|exact X] end. cbn [snd] in X.
    match goal with |- context [check_one PPayloadFailed ?x ?y ?z] => pose proof (told_check PPayloadFailed x y z X) as Y;
      destruct (check_one PPayloadFailed x y z) as [[r2|e] c2]; exact Y end.
  Qed.
  Lemma told_rd op n (d : digr S) : told (dr_chk d) -> told (dr_chk (snd (dig_rd ops op n d))).
  Proof.
    intros H. unfold dig_rd. destruct (lim_len n (dr_lim d) =? 0); [exact H|].
    destruct (op _ _ _) as [[b|e] s']; [now apply told_update|exact H].
  Qed.
  Lemma told_read n st : told_rs st -> told_rs (snd (rs_read ops n st)).
  Proof.
    intros H. destruct st as [s|l|d]; cbn [rs_read].
    - now destruct (o_read ops n s).
    - now destruct (lim_read ops n l).
    - pose proof (told_rd o_read n d H) as X. unfold dig_read. destruct (dig_rd ops o_read n d). exact X.
  Qed.
  Lemma told_readline n st : told_rs st -> told_rs (snd (rs_readline ops n st)).
  Proof.
    intros H. destruct st as [s|l|d]; cbn [rs_readline].
    - now destruct (o_readline ops n s).
    - now destruct (lim_readline ops n l).
    - pose proof (told_rd o_readline n d H) as X. unfold dig_readline. destruct (dig_rd ops o_readline n d). exact X.
  Qed.
  Lemma told_base s st : told_rs st -> told_rs (rs_set_base s st).
  Proof. now destruct st. Qed.
  Lemma told_calls cs : forall st xs st', do_calls (rs_ops ops) cs st = (xs, st') -> told_rs st -> told_rs st'.
  Proof.
    induction cs as [|c cs IH]; intros st xs st' H Ht; [injection H as <- <-; exact Ht|]. cbn [do_calls] in H.
    destruct (do_call (rs_ops ops) c st) as [x st1] eqn:E.
    assert (H1 : told_rs st1).
    { destruct c as [n|n]; [pose proof (told_read n st Ht) as X|pose proof (told_readline n st Ht) as X]; cbn [do_call rs_ops o_read o_readline] in E; rewrite E in X; exact X. }
    destruct (do_calls (rs_ops ops) cs st1) as [ys st2] eqn:E2. injection H as <- <-. now apply (IH _ _ _ E2).
  Qed.

  Definition told_rec (rc : record S) : Prop := told (rc_chk rc) /\ told_rs (rc_stream rc).
  Lemma told_rec_checker rc : told_rec rc -> told (rc_checker rc).
  Proof. intros [H1 H2]. unfold rc_checker. destruct (rc_stream rc); auto. Qed.
  Lemma told_rec_set st rc : told_rec rc -> told_rs st -> told_rec (rc_set_stream st rc).
  Proof. intros [H1 H2] H. now split. Qed.

  Lemma told_parse fuel o sl known s rc s' : parse_record_stream ops fuel he o sl known s = (Ok rc, s') -> told_rec rc.
  Proof.
    unfold parse_record_stream. destruct (detect_type ops fuel (lo_a2w o) (lo_uuid o) sl known s) as [[[is_arc h]|e] s1]; [|discriminate].
    cbn zeta. destruct (if is_arc && negb (lo_a2w o) then _ else _) as [[[[[t uri] h'] len] ct] sub].
    set (c := chk_new (lo_check o)). assert (Hc : told c) by discriminate.
    destruct (match eff_length len sub with
              | Some n => if ckind_bool (lo_check o) then wrap_digest he (lim_new s1 n) t h' c n else Ok (RSlim (lim_new s1 n))
              | None => Ok (RSbase s1) end) as [st|e] eqn:Est; [|discriminate].
    assert (H0 : told_rs st).
    { destruct (eff_length len sub) as [n|]; [|now injection Est as <-]. destruct (ckind_bool (lo_check o)); [|now injection Est as <-].
      unfold wrap_digest in Est. destruct (_ && _); [now injection Est as <-|].
      destruct (dig_new he _ _ _ _ _ _ _) as [d|e] eqn:Ed; [|discriminate]. injection Est as <-. exact (told_new _ _ _ _ _ _ _ _ Hc Ed). }
    assert (H1 : told_rs (snd (if lo_norec o then (Ok None, st) else load_http_headers (rs_ops ops) fuel (lo_verify o) t uri (eff_length len sub) st))).
    { destruct (lo_norec o); [exact H0|]. apply http_keep; [|exact H0]. intros x Hx. now apply told_readline. }
    destruct (if lo_norec o then (Ok None, st) else load_http_headers (rs_ops ops) fuel (lo_verify o) t uri (eff_length len sub) st) as [[http|e] st']; [|discriminate].
    cbn [snd] in H1.
    destruct st' as [b|l|d].
    - intros [= <- <-]. split; [exact Hc|exact I].
    - intros [= <- <-]. split; [exact Hc|exact I].
    - pose proof (told_begin d H1) as H2. destruct (begin_payload d) as [[x|e] d']; [|discriminate]. intros [= <- <-]. split; [exact Hc|exact H2].
  Qed.
End Rs.

Section It.
  Context {zl : zenv} (fuel : nat) (he : henv).
  Notation rdr := (breader zl raw).
  Notation iter := (@iter zl).
  Definition told_it (it : iter) : Prop := match it_record it with Some rc => told_rec rc | None => True end.

  Lemma told_loop o n : forall (it : iter) rc it', iter_loop fuel he o n it = (Ok (Some rc), it') -> told_rec rc.
  Proof.
    induction n as [|n IH]; intros it rc it' H; [discriminate|]. cbn [iter_loop] in H. unfold next_record in H.
    destruct (parse_record_stream _ _ _ _ _ _ _) as [[r|e] s] eqn:E.
    - cbn [it_raise_gz] in H. destruct (it_raise_gz it); [discriminate|]. injection H as <- <-. exact (told_parse _ _ _ _ _ _ _ _ _ E).
    - destruct e; try discriminate. destruct (after_record fuel _) as [[[|]|e'] i2]; try (now apply IH in H); try discriminate. destruct e'; discriminate.
  Qed.
  Lemma told_next o (it : iter) rc it' : iter_next fuel he o it = (Ok (Some rc), it') -> told_rec rc.
  Proof.
    unfold iter_next. destruct (it_phase it).
    - apply told_loop.
    - destruct (after_record fuel it) as [[[|]|e] i2]; try discriminate. apply told_loop.
    - discriminate.
  Qed.
  Lemma told_drain n : forall st : rstream rdr, told_rs st -> told_rs (snd (drain fuel n st)).
  Proof.
    induction n as [|n IH]; intros st H; [exact H|]. cbn [drain]. pose proof (told_read (rops (zl:=zl) fuel) (Some BUFF_SIZE) st H) as X.
    destruct (rs_read _ _ st) as [[[|b x]|e] st']; cbn [snd] in X; [exact X|now apply IH|exact X].
  Qed.
  Lemma told_rstream st (it : iter) : told_it it -> told_rs st -> told_it (it_set_rstream st it).
  Proof. unfold told_it, it_set_rstream. cbn [it_record]. destruct (it_record it); [|auto]. apply told_rec_set. Qed.
  Lemma told_reader r (it : iter) : told_it it -> told_it (it_set_reader r it).
  Proof. unfold told_it, it_set_reader. cbn [it_record]. destruct (it_record it); [|auto]. intros H. apply told_rec_set; [exact H|]. apply told_base, H. Qed.
  Lemma told_info (it : iter) : told_it it -> told_it (snd (get_offset_length fuel it)).
  Proof.
    intros H. unfold get_offset_length. assert (told_it (snd (read_to_end fuel it))) as X.
    { unfold read_to_end. destruct (it_record it) as [rc|] eqn:Er; [|exact H]. destruct (it_member it); [exact H|].
      assert (Hs : told_rs (rc_stream rc)) by (unfold told_it in H; rewrite Er in H; apply H).
      pose proof (told_drain fuel (rc_stream rc) Hs) as Hd. destruct (drain fuel fuel (rc_stream rc)) as [[x|e] st]; cbn [snd] in Hd; [|now apply told_rstream].
      pose proof (told_rstream st it H Hd) as H1.
      destruct (consume_loop fuel fuel true 0 0 (it_reader (it_set_rstream st it))) as [[[[nl size] errs]|e] r]; cbn [snd]; [|now apply told_reader].
      exact (told_reader r _ H1). }
    destruct (read_to_end fuel it) as [[]]; exact X.
  Qed.
End It.
