(** * TwoRuns: two iterations over the same file whose options differ, in lock step

    The first run has the options [o1], the second [o2].  Related streams give the same results
    until the second one raises an exception of [E]; then the stream of the first one satisfies
    [P], and keeps it. *)
From Coq Require Import String List ZArith NArith Bool Lia.
From Coq Require Import ZifyBool ZifyNat ZifyN.
From Verif Require Import PyBase Headers Streams Loader Iterator KeepProofs IterSpec Cli CliSpec ReportSpec ModeSpec.
Import ListNotations.
Open Scope Z_scope.

Definition two (E : exn -> Prop) {S A} (R : S -> S -> Prop) (P : S -> Prop) (x y : res A * S) : Prop :=
  (fst x = fst y /\ R (snd x) (snd y)) \/ (P (snd x) /\ exists e, E e /\ fst y = Err e).

Section Parse2.
  Context (E : exn -> Prop) {S : Type} (rl : S -> res bytes * S) (R : S -> S -> Prop) (P : S -> Prop).
  Hypothesis HR : forall s1 s2, R s1 s2 -> two E R P (rl s1) (rl s2).
  Hypothesis HP : forall s, P s -> P (snd (rl s)).
  Notation two2 := (two E R P).

  Lemma next_line_two total s1 s2 : R s1 s2 -> two2 (next_line rl total s1) (next_line rl total s2).
  Proof.
    intros H. destruct (HR s1 s2 H) as [[H1 H2]|[H1 (e & H2 & H3)]]; unfold next_line;
      destruct (rl s1) as [r1 t1], (rl s2) as [r2 t2]; cbn [fst snd] in *; subst r2.
    - left. destruct r1; split; auto.
    - right. split; [destruct r1; exact H1|exists e; auto].
  Qed.
  Lemma cont_two n : forall v line total s1 s2, R s1 s2 -> two2 (cont_loop rl n v line total s1) (cont_loop rl n v line total s2).
  Proof.
    induction n as [|n IH]; intros v line total s1 s2 H; [left; now split|]. cbn [cont_loop].
    destruct (negb (is_nil line) && starts_sp_tab line); [|left; now split].
    destruct (next_line_two total s1 s2 H) as [[H1 H2]|[H1 (e & H2 & H3)]];
      destruct (next_line rl total s1) as [r1 t1], (next_line rl total s2) as [r2 t2]; cbn [fst snd] in *; subst r2.
    - destruct r1 as [[l t]|e]; [now apply IH|left; now split].
    - right. split; [|exists e; auto]. destruct r1 as [[l t]|e1]; [now apply (cont_keep rl P HP)|exact H1].
  Qed.
  Lemma header_two f n : forall acc line total s1 s2, R s1 s2 -> two2 (header_loop rl f n acc line total s1) (header_loop rl f n acc line total s2).
  Proof.
    induction n as [|n IH]; intros acc line total s1 s2 H; [left; now split|]. cbn [header_loop].
    destruct (is_nil line); [left; now split|]. destruct (split_header line) as [name value].
    destruct (next_line_two total s1 s2 H) as [[H1 H2]|[H1 (e & H2 & H3)]];
      destruct (next_line rl total s1) as [r1 t1], (next_line rl total s2) as [r2 t2]; cbn [fst snd] in *; subst r2.
    - destruct r1 as [[l t]|e]; [|left; now split].
      destruct (cont_two f value l t t1 t2 H2) as [[H1 H3]|[H1 (e & H3 & H4)]];
        destruct (cont_loop rl f value l t t1) as [r1 u1], (cont_loop rl f value l t t2) as [r2 u2]; cbn [fst snd] in *; subst r2.
      + destruct r1 as [[[v' l'] t']|e]; [now apply IH|left; now split].
      + right. split; [|exists e; auto]. destruct r1 as [[[v' l'] t']|e1]; [now apply (header_keep rl P HP)|exact H1].
    - right. split; [|exists e; auto]. destruct r1 as [[l t]|e1]; [|exact H1].
      pose proof (cont_keep rl P HP f value l t t1 H1) as H5. destruct (cont_loop rl f value l t t1) as [[[[v' l'] t']|e1] u]; [|exact H5].
      now apply (header_keep rl P HP).
  Qed.
  Lemma parse_two f p s1 s2 : R s1 s2 -> two2 (parse rl f p None s1) (parse rl f p None s2).
  Proof.
    intros H. pose proof (parse_keep rl P HP f p) as HK. unfold parse.
    destruct (HR s1 s2 H) as [[H1 H2]|[H1 (e & H2 & H3)]].
    - destruct (rl s1) as [r1 t1], (rl s2) as [r2 t2]; cbn [fst snd] in *; subst r2. destruct r1 as [b|e]; [|left; now split].
      cbn zeta. destruct (lenZ (decode_hline (HBytes b)) =? 0); [left; now split|].
      destruct (is_nil (urstrip (decode_hline (HBytes b)))); [left; now split|].
      destruct (if p_verify p then _ else _) as [[proto st]|]; [|left; now split].
      destruct (next_line_two (lenZ (decode_hline (HBytes b))) t1 t2 H2) as [[H1 H3]|[H1 (e & H3 & H4)]];
        destruct (next_line rl _ t1) as [r1 u1], (next_line rl _ t2) as [r2 u2]; cbn [fst snd] in *; subst r2.
      + destruct r1 as [[l t]|e]; [|left; now split].
        destruct (header_two f f [] l t u1 u2 H3) as [[H1 H4]|[H1 (e & H4 & H5)]];
          destruct (header_loop rl f f [] l t u1) as [r1 v1], (header_loop rl f f [] l t u2) as [r2 v2]; cbn [fst snd] in *; subst r2.
        * destruct r1 as [[hs tot]|e]; left; now split.
        * right. split; [destruct r1 as [[hs tot]|e1]; exact H1|exists e; auto].
      + right. split; [|exists e; auto]. destruct r1 as [[l t]|e1]; [|exact H1].
        pose proof (header_keep rl P HP f f [] l t u1 H1) as H5. destruct (header_loop rl f f [] l t u1) as [[[hs tot]|e1] v]; exact H5.
    - right. split.
      + destruct (rl s1) as [[b|e1] t1] eqn:Er; [|exact H1]. cbn [snd] in H1.
        specialize (HK (Some (HBytes b)) t1 H1). unfold parse in HK. exact HK.
      + exists e. split; [exact H2|]. destruct (rl s2) as [r2 t2]. cbn in H3. now subst r2.
  Qed.
End Parse2.

Lemma http_two (E : exn -> Prop) {S} (ops : sops S) (R : S -> S -> Prop) (P : S -> Prop) f verify t uri len s1 s2 : ~ E EOFError ->
  (forall s1 s2, R s1 s2 -> two E R P (o_readline ops None s1) (o_readline ops None s2)) -> (forall s, P s -> P (snd (o_readline ops None s))) ->
  R s1 s2 -> two E R P (load_http_headers ops f verify t uri len s1) (load_http_headers ops f verify t uri len s2).
Proof.
  intros HE HR HP H. unfold load_http_headers. destruct (match len with Some 0 => true | _ => false end); [left; now split|].
  destruct (negb (is_http_record t)); [left; now split|]. destruct uri as [u|]; [|left; now split]. destruct (negb (is_http_uri u)); [left; now split|].
  destruct (otype_is t "request").
  - destruct (parse_two E (o_readline ops None) R P HR HP f (mk_parser HTTP_VERBS verify) s1 s2 H) as [[H1 H2]|[H1 (e & H2 & H3)]];
      destruct (parse _ f _ None s1) as [r1 t1], (parse _ f _ None s2) as [r2 t2]; cbn [fst snd] in *; subst r2.
    + left. destruct r1; now split.
    + right. split; [destruct r1; exact H1|exists e; auto].
  - destruct (parse_two E (o_readline ops None) R P HR HP f (mk_parser HTTP_TYPES verify) s1 s2 H) as [[H1 H2]|[H1 (e & H2 & H3)]];
      destruct (parse _ f _ None s1) as [r1 t1], (parse _ f _ None s2) as [r2 t2]; cbn [fst snd] in *; subst r2.
    + left. destruct r1 as [h|[]]; try (now split). destruct (otype_is t "revisit"); now split.
    + right. split; [destruct r1 as [h|[]]; try exact H1; destruct (otype_is t "revisit"); exact H1|].
      exists e. split; [exact H2|]. destruct e; try reflexivity. contradiction.
Qed.

Definition passed_of {S} (st : rstream S) : option bool := match st with RSdig d => dc_passed (dr_chk d) | _ => None end.

Section Two.
  Context {zl : zenv} (fuel : nat) (he : henv) (o1 o2 : lopts).
  Notation rdr := (breader zl raw).
  Notation rst := (rstream rdr).
  Notation rops := (rops (zl:=zl) fuel).
  Notation iter := (@iter zl).
  Notation rcd := (record rdr).
  Context (E : exn -> Prop) (R : rst -> rst -> Prop) (P : rst -> Prop) (V : option bool -> option bool -> Prop) (W : option bool -> Prop) (L : Prop) (T : rcd -> rcd -> Prop).
  Hypothesis Hread : forall n s1 s2, R s1 s2 -> two E R P (rs_read rops n s1) (rs_read rops n s2).
  Hypothesis Hline : forall n s1 s2, R s1 s2 -> two E R P (rs_readline rops n s1) (rs_readline rops n s2).
  Hypothesis Pread : forall n s, P s -> P (snd (rs_read rops n s)).
  Hypothesis Pline : forall n s, P s -> P (snd (rs_readline rops n s)).
  Hypothesis Pbase : forall b s, P s -> P (rs_set_base b s).
  Hypothesis Rbase : forall s1 s2, R s1 s2 -> rs_base s1 = rs_base s2.
  Hypothesis Rset : forall b s1 s2, R s1 s2 -> R (rs_set_base b s1) (rs_set_base b s2).
  Hypothesis RV : forall s1 s2, R s1 s2 -> V (passed_of s1) (passed_of s2).
  Hypothesis PW : forall s, P s -> W (passed_of s).

  Definition recR (a b : rcd) : Prop :=
    T a b /\ R (rc_stream a) (rc_stream b) /\ dc_passed (rc_chk a) = None /\ dc_passed (rc_chk b) = None.
  Definition recP (a : rcd) : Prop := P (rc_stream a) /\ dc_passed (rc_chk a) = None.
  Hypothesis Hparse : forall sl known s,
    let x := parse_record_stream rops fuel he o1 sl known s in let y := parse_record_stream rops fuel he o2 sl known s in
    (snd x = snd y /\ match fst x, fst y with Ok a, Ok b => recR a b | Err e, Err e' => e = e' | _, _ => False end)
    \/ ((exists e, E e /\ fst y = Err e) /\ match fst x with Ok a => recP a | Err EOFError => L | Err _ => True end).
  Hypothesis HEeof : ~ E EOFError.
  Hypothesis Ha2w : lo_a2w o1 = lo_a2w o2.
  Hypothesis Tset : forall a b s t, T a b -> T (rc_set_stream s a) (rc_set_stream t b).
  Hypothesis Tfmt : forall a b, T a b -> rc_format a = rc_format b.

  Definition orecR (a b : option rcd) : Prop := match a, b with Some a, Some b => recR a b | None, None => True | _, _ => False end.
  Definition itR (a b : iter) : Prop :=
    it_reader a = it_reader b /\ it_offset a = it_offset b /\ it_known a = it_known b /\ it_member a = it_member b /\ it_next_line a = it_next_line b
    /\ it_err_count a = it_err_count b /\ it_phase a = it_phase b /\ it_raise_gz a = it_raise_gz b /\ it_empty a = it_empty b
    /\ orecR (it_record a) (it_record b).
  Definition itP (a : iter) : Prop := exists rc, it_record a = Some rc /\ recP rc.
  Definition pend (a : iter) : Prop := it_record a <> None /\ it_member a = None.

  Lemma set_stream_R a b s t : recR a b -> R s t -> recR (rc_set_stream s a) (rc_set_stream t b).
  Proof. intros (H1 & H2 & H3 & H4) H. split; [now apply Tset|]. repeat split; assumption. Qed.
  Lemma set_stream_P a s : recP a -> P s -> recP (rc_set_stream s a).
  Proof. intros [H1 H2] H. now split. Qed.
  Lemma it_reader_R r a b : itR a b -> itR (it_set_reader r a) (it_set_reader r b).
  Proof.
    intros (H1 & H2 & H3 & H4 & H5 & H6 & H7 & H8 & H9 & H). unfold itR, it_set_reader. cbn. repeat split; try assumption.
    unfold orecR in *. destruct (it_record a), (it_record b); try contradiction; [|exact H]. apply set_stream_R; [exact H|]. apply Rset, H.
  Qed.
  Lemma it_reader_P r a : itP a -> itP (it_set_reader r a).
  Proof. intros (rc & H & HP). unfold itP, it_set_reader. cbn. rewrite H. eexists. split; [reflexivity|]. apply set_stream_P; [exact HP|]. apply Pbase, HP. Qed.
  Lemma it_rstream_R s t a b : itR a b -> R s t -> itR (it_set_rstream s a) (it_set_rstream t b).
  Proof.
    intros (H1 & H2 & H3 & H4 & H5 & H6 & H7 & H8 & H9 & H) HR. unfold itR, it_set_rstream. cbn. repeat split; try assumption; [now apply Rbase|].
    unfold orecR in *. destruct (it_record a), (it_record b); try contradiction; [|exact H]. now apply set_stream_R.
  Qed.
  Lemma it_rstream_P s a : itP a -> P s -> itP (it_set_rstream s a).
  Proof. intros (rc & H & HP) Hs. unfold itP, it_set_rstream. cbn. rewrite H. eexists. split; [reflexivity|]. now apply set_stream_P. Qed.
  Lemma it_passed_R a b : itR a b -> it_record a <> None -> V (it_passed a) (it_passed b).
  Proof.
    intros (_ & _ & _ & _ & _ & _ & _ & _ & _ & H) Hn. unfold it_passed, rc_checker. unfold orecR in H.
    destruct (it_record a) as [ra|], (it_record b) as [rb|]; try contradiction. destruct H as (_ & HR & Ca & Cb). apply RV in HR. unfold passed_of in HR.
    destruct (rc_stream ra), (rc_stream rb); rewrite ?Ca, ?Cb; exact HR.
  Qed.
  Lemma it_passed_P a : itP a -> W (it_passed a).
  Proof.
    intros (rc & H & HP & Hc). unfold it_passed, rc_checker. rewrite H. apply PW in HP. unfold passed_of in HP.
    destruct (rc_stream rc); rewrite ?Hc; exact HP.
  Qed.

  Lemma drain_two n : forall s1 s2, R s1 s2 -> two E R P (drain fuel n s1) (drain fuel n s2).
  Proof.
    induction n as [|n IH]; intros s1 s2 H; [left; now split|]. cbn [drain].
    assert (KP : forall m s, P s -> P (snd (drain fuel m s))).
    { clear - Pread. induction m as [|m IHm]; intros s Hs; [exact Hs|]. cbn [drain]. apply (Pread (Some BUFF_SIZE)) in Hs.
      destruct (rs_read rops (Some BUFF_SIZE) s) as [[[|]|] ?]; cbn [snd] in *; auto. }
    destruct (Hread (Some BUFF_SIZE) s1 s2 H) as [[H1 H2]|[H1 (e & H2 & H3)]];
      destruct (rs_read rops (Some BUFF_SIZE) s1) as [r1 t1], (rs_read rops (Some BUFF_SIZE) s2) as [r2 t2]; cbn [fst snd] in *; subst r2.
    - destruct r1 as [[|]|]; [left; now split|now apply IH|left; now split].
    - right. split; [|exists e; auto]. destruct r1 as [[|]|]; cbn [snd]; auto.
  Qed.
  Lemma drain_P n : forall s, P s -> P (snd (drain fuel n s)).
  Proof.
    induction n as [|n IH]; intros s Hs; [exact Hs|]. cbn [drain]. apply (Pread (Some BUFF_SIZE)) in Hs.
    destruct (rs_read rops (Some BUFF_SIZE) s) as [[[|]|] ?]; cbn [snd] in *; auto.
  Qed.

  Lemma end_P a : itP a -> itP (snd (read_to_end fuel a)).
  Proof.
    intros H. pose proof H as (rc & Hr & HP & Hc). unfold read_to_end. rewrite Hr. destruct (it_member a); [exact H|].
    pose proof (drain_P fuel _ HP) as Hd. destruct (drain fuel fuel (rc_stream rc)) as [[x|e] st]; cbn [snd] in *; [|now apply it_rstream_P].
    pose proof (it_rstream_P st a H Hd) as H1.
    destruct (consume_loop fuel fuel true 0 0 (it_reader (it_set_rstream st a))) as [[[[nl sz] er]|e] r]; cbn [snd]; [|now apply it_reader_P].
    destruct (it_reader_P r _ H1) as (rc' & E1 & E2). exists rc'. split; [exact E1|exact E2].
  Qed.
  Lemma end_two a b : itR a b -> two E itR itP (read_to_end fuel a) (read_to_end fuel b).
  Proof.
    intros H. pose proof H as (H1 & H2 & H3 & H4 & H5 & H6 & H7 & H8 & H9 & HO). unfold read_to_end. unfold orecR in HO.
    destruct (it_record a) as [ra|] eqn:Ea, (it_record b) as [rb|] eqn:Eb; try contradiction; [|left; now split].
    rewrite <- H4. destruct (it_member a) eqn:Em; [left; now split|].
    destruct HO as (_ & HR & Ca & _).
    destruct (drain_two fuel _ _ HR) as [[D1 D2]|[D1 (e & D2 & D3)]];
      destruct (drain fuel fuel (rc_stream ra)) as [r1 t1], (drain fuel fuel (rc_stream rb)) as [r2 t2]; cbn [fst snd] in *; subst r2.
    - pose proof (it_rstream_R t1 t2 a b H D2) as HI. destruct r1 as [x|e]; [|left; now split].
      assert (Er : it_reader (it_set_rstream t1 a) = it_reader (it_set_rstream t2 b)) by apply HI. rewrite <- Er.
      destruct (consume_loop fuel fuel true 0 0 (it_reader (it_set_rstream t1 a))) as [[[[nl sz] er]|e] r]; [|left; split; [reflexivity|now apply it_reader_R]].
      pose proof (it_reader_R r _ _ HI) as (G1 & G2 & G3 & G4 & G5 & G6 & G7 & G8 & G9 & G). left. cbn [fst snd] in *. split; [reflexivity|].
      unfold itR. cbn. cbn in G2, G3, G6, G7, G8, G9, G. rewrite G2, G6. repeat split; assumption.
    - right. split; [|exists e; auto].
      assert (HPa : itP (it_set_rstream t1 a)).
      { unfold itP, it_set_rstream. cbn. rewrite Ea. eexists. split; [reflexivity|]. split; [exact D1|exact Ca]. }
      destruct r1 as [x|e1]; cbn [snd]; [|exact HPa].
      destruct (consume_loop fuel fuel true 0 0 (it_reader (it_set_rstream t1 a))) as [[[[nl sz] er]|e1] r]; cbn [snd]; [|now apply it_reader_P].
      destruct (it_reader_P r _ HPa) as (rc' & E1 & E2). exists rc'. split; [exact E1|exact E2].
  Qed.
  Lemma info_P a : itP a -> itP (snd (get_offset_length fuel a)).
  Proof. intros H. apply end_P in H. unfold get_offset_length. destruct (read_to_end fuel a) as [[]]; exact H. Qed.
  Lemma info_two a b : itR a b -> two E itR itP (get_offset_length fuel a) (get_offset_length fuel b).
  Proof.
    intros H. unfold get_offset_length. destruct (end_two a b H) as [[D1 D2]|[D1 (e & D2 & D3)]];
      destruct (read_to_end fuel a) as [r1 t1], (read_to_end fuel b) as [r2 t2]; cbn [fst snd] in *; subst r2.
    - left. destruct r1; cbn; split; auto. f_equal. apply D2.
    - right. split; [destruct r1; exact D1|exists e; auto].
  Qed.

  Lemma uop_P u a : itP a -> itP (snd (user_op fuel u a)).
  Proof.
    intros H. destruct u as [n|n|]; cbn [user_op].
    - destruct H as (rc & Hr & HP). rewrite Hr. pose proof (Pread n _ (proj1 HP)) as X. destruct (rs_read rops n (rc_stream rc)) as [x st]. cbn [snd] in *.
      apply it_rstream_P; [|exact X]. exists rc. split; assumption.
    - destruct H as (rc & Hr & HP). rewrite Hr. pose proof (Pline n _ (proj1 HP)) as X. destruct (rs_readline rops n (rc_stream rc)) as [x st]. cbn [snd] in *.
      apply it_rstream_P; [|exact X]. exists rc. split; assumption.
    - apply info_P in H. destruct (get_offset_length fuel a) as [[]]; exact H.
  Qed.
  Lemma uop_two u a b : itR a b -> two E itR itP (user_op fuel u a) (user_op fuel u b).
  Proof.
    intros H. pose proof H as (H1 & H2 & H3 & H4 & H5 & H6 & H7 & H8 & H9 & HO). unfold orecR in HO.
    assert (G : forall op : option Z -> rst -> res bytes * rst, (forall n s1 s2, R s1 s2 -> two E R P (op n s1) (op n s2)) -> forall n,
      two E itR itP (match it_record a with None => (Ok [], a) | Some rc => let (x, st) := op n (rc_stream rc) in (x, it_set_rstream st a) end)
                    (match it_record b with None => (Ok [], b) | Some rc => let (x, st) := op n (rc_stream rc) in (x, it_set_rstream st b) end)).
    { intros op Hop n. destruct (it_record a) as [ra|] eqn:Ea, (it_record b) as [rb|] eqn:Eb; try contradiction; [|left; now split].
      destruct HO as (_ & HR & Ca & _).
      destruct (Hop n _ _ HR) as [[D1 D2]|[D1 (e & D2 & D3)]]; destruct (op n (rc_stream ra)) as [r1 t1], (op n (rc_stream rb)) as [r2 t2]; cbn [fst snd] in *; subst r2.
      - left. split; [reflexivity|]. now apply it_rstream_R.
      - right. split; [|exists e; auto]. unfold itP, it_set_rstream. cbn. rewrite Ea. eexists. split; [reflexivity|]. split; [exact D1|exact Ca]. }
    destruct u as [n|n|]; cbn [user_op]; [apply G, Hread|apply G, Hline|].
    destruct (info_two a b H) as [[D1 D2]|[D1 (e & D2 & D3)]];
      destruct (get_offset_length fuel a) as [r1 t1], (get_offset_length fuel b) as [r2 t2]; cbn [fst snd] in *; subst r2.
    - left. destruct r1; now split.
    - right. split; [destruct r1; exact D1|exists e; auto].
  Qed.
  Lemma uops_P us : forall a, itP a -> itP (snd (user_ops fuel us a)).
  Proof.
    induction us as [|u us IH]; intros a H; [exact H|]. cbn [user_ops]. apply (uop_P u) in H. destruct (user_op fuel u a) as [x a1]. cbn [snd] in H.
    apply IH in H. destruct (user_ops fuel us a1). exact H.
  Qed.
  Lemma uops_two us : forall a b, itR a b ->
    (fst (user_ops fuel us a) = fst (user_ops fuel us b) /\ itR (snd (user_ops fuel us a)) (snd (user_ops fuel us b)))
    \/ (itP (snd (user_ops fuel us a)) /\ exists e, E e /\ In (Err e) (fst (user_ops fuel us b))).
  Proof.
    induction us as [|u us IH]; intros a b H; [left; now split|]. cbn [user_ops].
    destruct (uop_two u a b H) as [[D1 D2]|[D1 (e & D2 & D3)]]; destruct (user_op fuel u a) as [r1 t1], (user_op fuel u b) as [r2 t2]; cbn [fst snd] in *; subst r2.
    - specialize (IH t1 t2 D2). destruct (user_ops fuel us t1) as [xs1 a1], (user_ops fuel us t2) as [xs2 a2]. cbn [fst snd] in *.
      destruct IH as [[-> I2]|[I1 (e & I2 & I3)]]; [left; now split|right]. split; [exact I1|]. exists e. split; [exact I2|now right].
    - right. apply (uops_P us) in D1. destruct (user_ops fuel us t1) as [xs1 a1], (user_ops fuel us t2) as [xs2 a2]. cbn [fst snd] in *.
      split; [exact D1|]. exists e. split; [exact D2|now left].
  Qed.

  Lemma end_ok (it i2 : iter) u : read_to_end fuel it = (Ok u, i2) -> ~ pend i2.
  Proof.
    unfold read_to_end, pend. destruct (it_record it) eqn:Er; [|intros [= _ <-]; tauto].
    destruct (it_member it) eqn:Em; [intros [= _ <-] [_ X]; congruence|].
    destruct (drain fuel fuel _) as [[x|e] st]; [|discriminate]. destruct (consume_loop fuel fuel true 0 0 _) as [[[[nl sz] er]|e] rr]; [|discriminate].
    intros [= _ <-] [_ X]. discriminate X.
  Qed.
  Lemma info_ok (it i2 : iter) u : get_offset_length fuel it = (Ok u, i2) -> ~ pend i2.
  Proof. unfold get_offset_length. destruct (read_to_end fuel it) as [[v|] i3] eqn:Er; [|discriminate]. intros [= _ <-]. now apply (end_ok it _ v). Qed.

  (** after a record: trouble only if its end was not reached before *)
  Lemma after_two a b : itR a b ->
    (fst (after_record fuel a) = fst (after_record fuel b) /\ itR (snd (after_record fuel a)) (snd (after_record fuel b))
     /\ (forall v, fst (after_record fuel a) = Ok v -> ~ pend (snd (after_record fuel a))))
    \/ (pend a /\ exists e, E e /\ fst (after_record fuel b) = Err e).
  Proof.
    intros H. unfold after_record.
    assert (HPend : ~ pend a -> two E itR (fun _ => False) (read_to_end fuel a) (read_to_end fuel b)).
    { intros Hn. left. pose proof H as (H1 & H2 & H3 & H4 & H5 & H6 & H7 & H8 & H9 & HO). unfold read_to_end, orecR, pend in *. rewrite <- H4.
      destruct (it_record a), (it_record b); try contradiction; [|now split]. destruct (it_member a); [now split|]. destruct Hn. now split. }
    assert (HD : pend a \/ ~ pend a).
    { unfold pend. destruct (it_record a), (it_member a); [right|left|right|right]; try tauto; try (intros [_ X]; discriminate X). split; [discriminate|reflexivity]. }
    assert (HT : (fst (read_to_end fuel a) = fst (read_to_end fuel b) /\ itR (snd (read_to_end fuel a)) (snd (read_to_end fuel b)))
       \/ (pend a /\ exists e, E e /\ fst (read_to_end fuel b) = Err e)).
    { destruct HD as [HD|HD]; [destruct (end_two a b H) as [X|[_ X]]; [now left|right; now split]|].
      destruct (HPend HD) as [X|[[] _]]. now left. }
    destruct (read_to_end fuel a) as [r1 t1] eqn:E1, (read_to_end fuel b) as [r2 t2] eqn:E2. cbn [fst snd] in HT.
    destruct HT as [[D1 D2]|(HQ & e & D2 & D3)]; subst r2; [left|right; split; [exact HQ|exists e; auto]].
    destruct r1 as [u|e]; [|split; [reflexivity|split; [exact D2|discriminate]]].
    pose proof (end_ok a t1 u E1) as Hn.
    pose proof D2 as (H1 & H2 & H3 & H4 & H5 & H6 & H7 & H8 & H9 & HO). rewrite <- H1. destruct (has_dec (it_reader t1)).
    - destruct (read_next_member (it_reader t1)) as [more r]. pose proof (it_reader_R r _ _ D2) as G.
      assert (Hn' : ~ pend (it_set_reader r t1)).
      { unfold pend, it_set_reader in *. cbn. destruct (it_record t1); [|tauto]. intros [_ X]. apply Hn. split; [discriminate|exact X]. }
      pose proof G as (_ & _ & _ & _ & _ & _ & _ & _ & G9 & _).
      destruct more; [split; [reflexivity|split; [exact G|intros v _; exact Hn']]|]. rewrite <- G9.
      destruct (it_empty (it_set_reader r t1)); [split; [reflexivity|split; [exact G|intros v _; exact Hn']]|].
      split; [reflexivity|]. split; [|intros v _; exact Hn'].
      destruct G as (G1 & G2 & G3 & G4 & G5 & G6 & G7 & G8 & G10 & GO). unfold itR, set_raise. cbn in *. repeat split; assumption.
    - rewrite <- H9. destruct (it_empty t1); (split; [reflexivity|split; [exact D2|intros v _; exact Hn]]).
  Qed.

  Definition nextR (x y : res (option rcd) * iter) (pending : Prop) : Prop :=
    (match fst x, fst y with Ok (Some a), Ok (Some b) => T a b /\ it_record (snd x) <> None /\ itR (snd x) (snd y)
                           | Ok None, Ok None => True | Err e, Err e' => e = e' | _, _ => False end)
    \/ ((exists e, E e /\ fst y = Err e)
        /\ (pending \/ L \/ match fst x with Ok (Some a) => itP (snd x) | Ok None => False | Err _ => True end)).

  Lemma next_mono x y (p q : Prop) : (p -> q) -> nextR x y p -> nextR x y q.
  Proof. unfold nextR. tauto. Qed.
  Lemma loop_two n : forall a b, itR a b -> nextR (iter_loop fuel he o1 n a) (iter_loop fuel he o2 n b) (pend a).
  Proof.
    induction n as [|n IH]; intros a b H; [left; reflexivity|]. cbn [iter_loop].
    pose proof H as (H1 & H2 & H3 & H4 & H5 & H6 & H7 & H8 & H9 & HO).
    unfold next_record. rewrite <- H5, <- H3, <- H1, <- Ha2w.
    set (sl := match it_next_line a with Some l => Some (HBytes l) | None => None end).
    pose proof (Hparse sl (it_known a) (it_reader a)) as HP. cbn zeta in HP.
    destruct (parse_record_stream rops fuel he o1 sl (it_known a) (it_reader a)) as [r1 t1],
             (parse_record_stream rops fuel he o2 sl (it_known a) (it_reader a)) as [r2 t2]. cbn [fst snd] in HP.
    destruct HP as [[<- HP]|[(e & He & ->) HP]].
    - destruct r1 as [ra|e], r2 as [rb|e2]; try contradiction; [|subst e2].
      + cbn [it_raise_gz]. rewrite <- H8. destruct (it_raise_gz a); [left; reflexivity|]. left. cbn [fst snd]. split; [apply HP|].
        split; [discriminate|]. unfold itR, set_phase. cbn. assert (Hf : rc_format ra = rc_format rb) by apply Tfmt, HP.
        rewrite Hf. repeat split; try assumption; apply HP.
      + pose proof (it_reader_R t1 _ _ H) as G.
        destruct e; try (left; reflexivity).
        assert (G' : itR (set_empty true (it_set_reader t1 a)) (set_empty true (it_set_reader t1 b))).
        { destruct G as (G1 & G2 & G3 & G4 & G5 & G6 & G7 & G8 & G9 & GO). unfold itR, set_empty. cbn in *. repeat split; assumption. }
        assert (Hp : pend (set_empty true (it_set_reader t1 a)) -> pend a).
        { unfold pend, set_empty, it_set_reader. cbn. destruct (it_record a); [|tauto]. intros [_ X]. split; [discriminate|exact X]. }
        destruct (after_two _ _ G') as [(D1 & D2 & D3)|(D1 & e & D2 & D3)].
        * destruct (after_record fuel (set_empty true (it_set_reader t1 a))) as [x1 u1],
                   (after_record fuel (set_empty true (it_set_reader t1 b))) as [x2 u2]. cbn [fst snd] in *. subst x2.
          destruct x1 as [[|]|e]; [|left; exact I|destruct e; left; reflexivity].
          eapply next_mono; [|apply (IH u1 u2 D2)]. intros X. destruct (D3 _ eq_refl X).
        * right. destruct (after_record fuel (set_empty true (it_set_reader t1 b))) as [x2 u2]. cbn [fst] in D3. subst x2.
          split; [exists e; split; [exact D2|destruct e; reflexivity]|]. left. now apply Hp.
    - right. split; [exists e; split; [exact He|]; destruct e; try reflexivity; contradiction|].
      destruct r1 as [ra|e1]; [|destruct e1; try (right; right; exact I); right; left; exact HP].
      right; right. cbn [it_raise_gz]. destruct (it_raise_gz a); [exact I|]. cbn [fst snd]. exists ra. split; [reflexivity|exact HP].
  Qed.
  Lemma next_two a b : itR a b -> nextR (iter_next fuel he o1 a) (iter_next fuel he o2 b) (pend a).
  Proof.
    intros H. pose proof H as (H1 & H2 & H3 & H4 & H5 & H6 & H7 & H8 & H9 & HO). unfold iter_next. rewrite <- H7.
    destruct (it_phase a); [now apply loop_two| |left; exact I].
    destruct (after_two a b H) as [(D1 & D2 & D3)|(D1 & e & D2 & D3)].
    - destruct (after_record fuel a) as [x1 u1], (after_record fuel b) as [x2 u2]. cbn [fst snd] in *. subst x2.
      destruct x1 as [[|]|e]; [|left; exact I|left; reflexivity].
      eapply next_mono; [|apply (loop_two fuel u1 u2 D2)]. intros X. destruct (D3 _ eq_refl X).
    - right. destruct (after_record fuel b) as [x2 u2]. cbn [fst] in D3. subst x2. split; [exists e; now split|now left].
  Qed.

  (** what is the matter in the first run at [j] *)
  Definition cause (os : list (@obs zl)) (en : ending) (j : nat) : Prop :=
    (exists ob, nth_error os j = Some ob /\ W (ob_passed ob)) \/ (exists e i, (i <= j)%nat /\ raises_at e os en i) \/ L.
  Lemma run_two n : forall prog k a b, itR a b ->
    let x := run_iter fuel he o1 n prog k a in let y := run_iter fuel he o2 n prog k b in
    exists j, Forall2 (obs_rel T V) (firstn j (fst x)) (firstn j (fst y))
      /\ ((j = List.length (fst x) /\ j = List.length (fst y) /\ snd x = snd y)
          \/ (exists e, E e /\ raises_at e (fst y) (snd y) j) /\ (cause (fst x) (snd x) j \/ j = O /\ pend a)).
  Proof.
    induction n as [|n IH]; intros prog k a b H.
    - exists O. cbn. split; [constructor|left; auto].
    - cbn [run_iter]. cbn zeta.
      assert (KP : forall c, itP c -> let '(xs, c1) := user_ops fuel (prog k) c in let '(info, c2) := get_offset_length fuel c1 in W (it_passed c2)).
      { intros c Hc. apply (uops_P (prog k)) in Hc. destruct (user_ops fuel (prog k) c) as [xs c1]. cbn [snd] in Hc. apply info_P in Hc.
        destruct (get_offset_length fuel c1) as [i c2]. now apply it_passed_P. }
      destruct (next_two a b H) as [HN|[(e & He & HN) HC]].
      + destruct (iter_next fuel he o1 a) as [r1 a1], (iter_next fuel he o2 b) as [r2 b1]. cbn [fst snd] in HN.
        destruct r1 as [[ra|]|e], r2 as [[rb|]|e2]; try contradiction;
          [|exists O; cbn; split; [constructor|left; auto]|subst e2; exists O; cbn; split; [constructor|left; auto]].
        destruct HN as (Hs & Hn & HI).
        destruct (uops_two (prog k) a1 b1 HI) as [[D1 D2]|[D1 (e & D2 & D3)]].
        * destruct (user_ops fuel (prog k) a1) as [xs a2] eqn:Eu, (user_ops fuel (prog k) b1) as [xs2 b2]. cbn [fst snd] in *. subst xs2.
          assert (Hn2 : it_record a2 <> None).
          { clear - Eu Hn. revert xs a2 a1 Hn Eu. induction (prog k) as [|u us IH]; cbn [user_ops]; intros xs a2 a1 Hn Eu; [injection Eu as _ <-; exact Hn|].
            destruct (user_op fuel u a1) as [x a3] eqn:E1. destruct (user_ops fuel us a3) as [ys a4] eqn:E2. injection Eu as _ <-.
            apply (IH ys a4 a3); [|exact E2]. clear - Hn E1.
            assert (G : forall s (it : iter), it_record it <> None -> it_record (it_set_rstream s it) <> None) by (intros s it; cbn; destruct (it_record it); [discriminate|tauto]).
            assert (G' : forall s (it : iter), it_record it <> None -> it_record (it_set_reader s it) <> None) by (intros s it; cbn; destruct (it_record it); [discriminate|tauto]).
            destruct u as [n|n|]; cbn [user_op] in E1.
            - destruct (it_record a1) eqn:Er; [|tauto]. destruct (rs_read _ _ _). injection E1 as _ <-. apply G. rewrite Er. discriminate.
            - destruct (it_record a1) eqn:Er; [|tauto]. destruct (rs_readline _ _ _). injection E1 as _ <-. apply G. rewrite Er. discriminate.
            - unfold get_offset_length, read_to_end in E1. destruct (it_record a1) eqn:Er; [|tauto]. rewrite <- Er in Hn.
              destruct (it_member a1); [injection E1 as _ <-; exact Hn|]. destruct (drain _ _ _) as [[|] ?]; [|injection E1 as _ <-; now apply G].
              destruct (consume_loop _ _ _ _ _ _) as [[[[nl sz] er]|] r9]; injection E1 as _ <-; [|apply G', G, Hn].
              cbn. rewrite Er. discriminate. }
          pose proof (info_two a2 b2 D2) as HI2.
          destruct (get_offset_length fuel a2) as [i1 a3] eqn:Ei, (get_offset_length fuel b2) as [i2 b3] eqn:Ei2.
          destruct HI2 as [[F1 F2]|[F1 (e & F2 & F3)]]; cbn [fst snd] in *.
          -- subst i2. destruct (IH prog (S k) a3 b3 F2) as (j & J1 & J2). cbn zeta in J1, J2.
             destruct (run_iter fuel he o1 n prog (S k) a3) as [os1 en1], (run_iter fuel he o2 n prog (S k) b3) as [os2 en2]. cbn [fst snd] in *.
             assert (Hn3 : it_record a3 <> None).
             { clear - Ei Hn2. unfold get_offset_length, read_to_end in Ei. destruct (it_record a2) eqn:Er; [|tauto].
               destruct (it_member a2); [injection Ei as _ <-; rewrite Er; discriminate|]. destruct (drain _ _ _) as [[|] ?].
               - destruct (consume_loop _ _ _ _ _ _) as [[[[nl sz] er]|] rr]; injection Ei as _ <-; cbn; rewrite Er; discriminate.
               - injection Ei as _ <-. cbn. rewrite Er. discriminate. }
             exists (S j). split; [cbn [firstn]; constructor; [|exact J1]|].
             ++ split; [exact Hs|]. split; [reflexivity|]. split; [reflexivity|]. cbn [ob_passed]. now apply it_passed_R.
             ++ destruct J2 as [(J2 & J3 & J4)|[(e & He & J2) J3]]; [left; cbn [List.length]; auto|right]. split.
                ** exists e. split; [exact He|]. destruct J2 as [[J4 J5]|(ob & J4 & J5)]; [left; cbn [List.length]; auto|right; exists ob; now split].
                ** left. unfold cause in *. destruct J3 as [[J3|[(e' & i & Hi & J3)|J3]]|[-> J3]].
                   --- left. exact J3.
                   --- right; left. exists e', (S i). split; [lia|]. destruct J3 as [[J4 J5]|(ob & J4 & J5)]; [left; cbn [List.length]; auto|right; exists ob; now split].
                   --- right; right. exact J3.
                   --- right; left. destruct i1 as [v|e1]; [destruct (info_ok a2 a3 v Ei J3)|]. exists e1, O. split; [lia|].
                       right. eexists. split; [reflexivity|]. right. reflexivity.
          -- subst i2. exists O. destruct (run_iter fuel he o1 n prog (S k) a3) as [os1 en1], (run_iter fuel he o2 n prog (S k) b3) as [os2 en2]. cbn [fst snd firstn].
             split; [constructor|right]. split; [exists e; split; [exact F2|]; right; eexists; split; [reflexivity|]; now right|].
             left. left. eexists. split; [reflexivity|]. cbn [ob_passed]. now apply it_passed_P.
        * specialize (info_P _ D1). destruct (user_ops fuel (prog k) a1) as [xs a2], (user_ops fuel (prog k) b1) as [xs2 b2]. cbn [fst snd] in *.
          intros HQ. destruct (get_offset_length fuel a2) as [i1 a3], (get_offset_length fuel b2) as [i2 b3]. cbn [snd] in HQ.
          destruct (run_iter fuel he o1 n prog (S k) a3) as [os1 en1], (run_iter fuel he o2 n prog (S k) b3) as [os2 en2]. cbn [fst snd firstn].
          exists O. split; [constructor|right]. split; [exists e; split; [exact D2|]; right; eexists; split; [reflexivity|]; left; exact D3|].
          left. left. eexists. split; [reflexivity|]. cbn [ob_passed]. now apply it_passed_P.
      + exists O. destruct (iter_next fuel he o1 a) as [r1 a1], (iter_next fuel he o2 b) as [r2 b1]. cbn [fst snd] in *. subst r2.
        split; [constructor|right]. split; [exists e; split; [exact He|]; left; now split|].
        destruct HC as [HC|[HC|HC]]; [right; now split|left; right; right; exact HC|left].
        destruct r1 as [[ra|]|e1]; [|contradiction|].
        * specialize (KP a1 HC). destruct (user_ops fuel (prog k) a1) as [xs a2]. destruct (get_offset_length fuel a2) as [i1 a3].
          destruct (run_iter fuel he o1 n prog (S k) a3) as [os1 en1]. left. eexists. split; [reflexivity|exact KP].
        * right; left. exists e1, O. split; [lia|]. left. now split.
  Qed.
End Two.
