(** * TermIter: iterating over any file ends *)
From Coq Require Import List ZArith NArith Bool String Lia Wellfounded.
From Coq Require Import ZifyBool ZifyNat ZifyN.
From Verif Require Import PyBase Facts Headers Streams Loader Iterator TermSpec TermProofs TermLoad.
Import ListNotations.
Open Scope Z_scope.

Section Iter.
  Context {zl : zenv} (he : henv) (o : lopts).
  Notation rdr := (breader zl raw).
  Notation it_t := (@iter zl).

  Lemma rops_tell f (s : rdr) : o_tell (rops_f f) s = o_tell (rops_f O) s.
  Proof. reflexivity. Qed.

  Definition olen (x : option bytes) : nat := match x with Some l => List.length l | None => O end.

  Lemma consume_conv first size errs (r : rdr) : Ir r ->
    exists x r', conv2 (fun n f => @consume_loop zl f n first size errs r) (Ok x, r') /\ Ir r' /\
      mle (madd (mr r') (olen (fst (fst x)))) (mr r) /\ fst (fst x) <> Some [].
  Proof.
    remember (mr r) as k eqn:Hk. revert first size errs r Hk.
    induction k as [k IH] using (well_founded_induction mlt_wf). intros first size errs r Hk HI. subst k.
    destruct (g_line _ _ _ _ (@rops_good zl) None r HI) as ([x r1] & [N HN] & H1 & H2 & _ & H4). cbn [fst snd] in *.
    destruct x as [line|e]; [|contradiction].
    destruct line as [|c line].
    { exists (None, size, errs), r1. cbn [fst olen]. split.
      - exists (Datatypes.S N). intros [|n] f Hn Hf; [lia|]. cbn [consume_loop].
        specialize (HN f ltac:(lia)). unfold rops_f in HN. now rewrite HN.
      - split; [exact H1|]. split; [ms_lia|discriminate]. }
    set (l := c :: line) in *.
    assert (Hs : forall n f, (N <= f)%nat -> @consume_loop zl f (Datatypes.S n) first size errs r =
      let blank := is_nil (rstripp is_bspace l) in
      if blank || first then @consume_loop zl f n false (size + lenZ l) (if blank then errs else errs + 1) r1
      else (Ok (Some l, size, errs), r1)).
    { intros n f Hf. cbn [consume_loop]. specialize (HN f Hf). unfold rops_f in HN. rewrite HN. reflexivity. }
    cbn zeta in Hs.
    destruct (is_nil (rstripp is_bspace l) || first) eqn:Eb.
    2:{ exists (Some l, size, errs), r1. cbn [fst olen]. split.
        - exists (Datatypes.S N). intros [|n] f Hn Hf; [lia|]. apply Hs. lia.
        - split; [exact H1|]. split; [exact H4|discriminate]. }
    assert (Hlt : mlt (mr r1) (mr r)) by (subst l; ms_lia).
    destruct (IH _ Hlt false (size + lenZ l) (if is_nil (rstripp is_bspace l) then errs else errs + 1) r1 eq_refl H1)
      as (x & r' & [M HM] & I' & M' & X').
    exists x, r'. split; [|split; [exact I'|split; [ms_lia|exact X']]].
    exists (Datatypes.S (Nat.max N M)). intros [|n] f Hn Hf; [lia|]. rewrite Hs by lia. apply HM; lia.
  Qed.

  Notation rc_okr := (rc_ok (@Ir zl) o).

  Lemma drain_conv (st : rstream rdr) : Irs Ir st ->
    exists x st', conv2 (fun n f => @drain zl f n st) (x, st') /\ keeps (Irs Ir) (mrs mr) Ers st st' /\
      match x with Ok _ => True | Err e => Ers st e end.
  Proof.
    remember (mrs mr st) as k eqn:Hk. revert st Hk.
    induction k as [k IH] using (well_founded_induction mlt_wf). intros st Hk HI. subst k.
    pose proof (rs_good _ _ _ (@rops_good zl)) as GR.
    destruct (g_read _ _ _ _ GR (Some BUFF_SIZE) st HI) as ([x s1] & [N HN] & H1 & H2 & H3 & H4). cbn [fst snd rs_ops o_read] in *.
    assert (Hs : forall n f, (N <= f)%nat -> @drain zl f (Datatypes.S n) st =
      match x with
      | Err e => (Err e, s1)
      | Ok [] => (Ok tt, s1)
      | Ok _ => @drain zl f n s1
      end).
    { intros n f Hf. cbn [drain]. specialize (HN f Hf). unfold rops_f in HN. rewrite HN.
      destruct x as [[|? ?]|?]; reflexivity. }
    assert (K : keeps (Irs Ir) (mrs mr) Ers st s1) by now split.
    destruct x as [[|c b]|e].
    - exists (Ok tt), s1. split; [|split; [exact K|exact Logic.I]].
      exists (Datatypes.S N). intros [|n] f Hn Hf; [lia|]. apply Hs. lia.
    - assert (Hlt : mlt (mrs mr s1) (mrs mr st)) by ms_lia.
      destruct (IH _ Hlt s1 eq_refl H1) as (y & st' & [M HM] & K' & X').
      exists y, st'. split; [|split; [exact (keeps_trans _ _ _ _ _ _ K K')|]].
      + exists (Datatypes.S (Nat.max N M)). intros [|n] f Hn Hf; [lia|]. rewrite Hs by lia. apply HM; lia.
      + destruct y; [exact Logic.I|auto].
    - exists (Err e), s1. split; [|split; [exact K|exact H4]].
      exists (Datatypes.S N). intros [|n] f Hn Hf; [lia|]. apply Hs. lia.
  Qed.

  (** ** The iterator *)
  Definition settled (it : it_t) : Prop := it_record it = None \/ it_member it <> None.
  Definition eff_nl (it : it_t) : nat :=
    match it_record it, it_member it with
    | Some _, None => O
    | _, _ => olen (it_next_line it)
    end.
  Definition mi (it : it_t) : ms := madd (mr (it_reader it)) (eff_nl it).
  Definition Ii (it : it_t) : Prop :=
    Ir (it_reader it) /\ it_next_line it <> Some [] /\
    match it_record it with
    | None => True
    | Some rc => rs_base (rc_stream rc) = it_reader it /\ rc_okr (rc_stream rc)
    end.

  Lemma rs_base_set (r : rdr) st : rs_base (rs_set_base r st) = r.
  Proof. now destruct st. Qed.
  Lemma rc_ok_set r st : Ir r -> rc_okr st -> rc_okr (rs_set_base r st).
  Proof.
    intros Hr [[H1 H2] H3]. split.
    - split; [now rewrite rs_base_set|]. destruct st; exact H2.
    - intros e He. apply H3. destruct st; exact He.
  Qed.

  Lemma set_reader_ok r it : Ii it -> Ir r -> mle (mr r) (mr (it_reader it)) ->
    Ii (it_set_reader r it) /\ mle (mi (it_set_reader r it)) (mi it) /\
    it_phase (it_set_reader r it) = it_phase it /\ it_empty (it_set_reader r it) = it_empty it /\
    (settled it -> settled (it_set_reader r it)) /\ it_reader (it_set_reader r it) = r /\
    eff_nl (it_set_reader r it) = eff_nl it.
  Proof.
    intros (H1 & H2 & H3) Hr Hm. unfold Ii, mi, eff_nl, settled.
    cbn [it_set_reader it_reader it_next_line it_record it_member it_phase it_empty].
    assert (He : eff_nl (it_set_reader r it) = eff_nl it).
    { unfold eff_nl. cbn [it_set_reader it_next_line it_record it_member]. now destruct (it_record it). }
    split; [split; [exact Hr|split; [exact H2|]]|].
    { destruct (it_record it) as [rc|]; [|exact Logic.I]. cbn [rc_set_stream rc_stream].
      split; [apply rs_base_set|now apply rc_ok_set]. }
    split; [destruct (it_record it); ms_lia|]. split; [reflexivity|]. split; [reflexivity|].
    split; [|split; [reflexivity|now destruct (it_record it)]].
    destruct (it_record it); [|now left]. intros [H|H]; [discriminate|now right].
  Qed.

  Lemma set_rstream_ok st it rc : Ii it -> it_record it = Some rc ->
    keeps (Irs Ir) (mrs mr) Ers (rc_stream rc) st ->
    Ii (it_set_rstream st it) /\ mle (mi (it_set_rstream st it)) (mi it) /\
    it_phase (it_set_rstream st it) = it_phase it /\ it_empty (it_set_rstream st it) = it_empty it /\
    (settled it -> settled (it_set_rstream st it)).
  Proof.
    intros (H1 & H2 & H3) Hrc (K1 & K2 & K3). rewrite Hrc in H3. destruct H3 as [H3 [H4 H5]].
    unfold mrs in K2. rewrite H3 in K2.
    unfold Ii, mi, eff_nl, settled. cbn [it_set_rstream it_reader it_next_line it_record it_member it_phase it_empty].
    rewrite Hrc. cbn [rc_set_stream rc_stream].
    split; [split; [exact (proj1 K1)|split; [exact H2|split; [reflexivity|split; [exact K1|]]]]|].
    { intros e He. apply H5. now apply K3. }
    split; [destruct (it_member it); ms_lia|]. split; [reflexivity|]. split; [reflexivity|].
    intros [H|H]; [discriminate|now right].
  Qed.

  Lemma rte_conv it : Ii it ->
    exists x it', conv (fun f => @read_to_end zl f it) (x, it') /\ Ii it' /\ mle (mi it') (mi it) /\
      it_phase it' = it_phase it /\ it_empty it' = it_empty it /\ (settled it -> x = Ok tt /\ it' = it) /\
      match x with Ok _ => settled it' | Err e => opt_exn o e end.
  Proof.
    intros HI. unfold read_to_end.
    destruct (it_record it) as [rc|] eqn:Er.
    2:{ exists (Ok tt), it. split; [apply conv_const|]. split; [exact HI|]. split; [apply mle_refl|].
        split; [reflexivity|]. split; [reflexivity|]. split; [now split|]. now left. }
    destruct (it_member it) as [mi0|] eqn:Em.
    { exists (Ok tt), it. split; [apply conv_const|]. split; [exact HI|]. split; [apply mle_refl|].
      split; [reflexivity|]. split; [reflexivity|]. split; [now split|]. right. congruence. }
    assert (Hns : ~ settled it) by (intros [H|H]; congruence).
    pose proof HI as (_ & _ & H3). rewrite Er in H3. destruct H3 as (H3 & H4 & H5).
    destruct (drain_conv (rc_stream rc) H4) as (x & st & C1 & K1 & X1). apply conv2_diag in C1. destruct C1 as [N HN].
    destruct (set_rstream_ok st it rc HI Er K1) as (A1 & A2 & A3 & A4 & A5).
    destruct x as [[]|e].
    2:{ exists (Err e), (it_set_rstream st it). split; [exists N; intros f Hf; now rewrite HN|].
        split; [exact A1|]. split; [exact A2|]. split; [exact A3|]. split; [exact A4|].
        split; [intros H; contradiction|]. apply H5. exact X1. }
    set (it1 := it_set_rstream st it) in *.
    destruct (consume_conv true 0 0 (it_reader it1) (proj1 A1)) as ([[nl size] errs] & r & C2 & I2 & M2 & Z2).
    apply conv2_diag in C2. destruct C2 as [M HM]. cbn [fst] in *.
    assert (M2' : mle (mr r) (mr (it_reader it1))) by ms_lia.
    destruct (set_reader_ok r it1 A1 I2 M2') as (B1 & B2 & B3 & B4 & B5 & B6 & B7).
    eexists (Ok tt), _. split.
    { exists (Nat.max N M). intros f Hf. rewrite HN by lia. fold it1. rewrite HM by lia. reflexivity. }
    assert (E1 : eff_nl it1 = O).
    { unfold eff_nl, it1. cbn [it_set_rstream it_record it_member]. now rewrite Er, Em. }
    unfold Ii, mi, settled, eff_nl.
    cbn [it_reader it_next_line it_record it_member it_phase it_empty].
    destruct B1 as (B1a & B1b & B1c).
    split; [split; [exact B1a|split; [exact Z2|exact B1c]]|].
    split. { unfold mi in A2. rewrite E1 in A2. unfold eff_nl in A2. rewrite B6.
      destruct (it_record (it_set_reader r it1)); unfold mi in *; ms_lia. }
    split; [congruence|]. split; [congruence|]. split; [intros H; contradiction|]. right. discriminate.
  Qed.

  Lemma next_conv it : Ii it -> settled it ->
    exists x it', conv (fun f => @next_record zl f he o it) (x, it') /\ Ii it' /\ mle (mi it') (mi it) /\
      it_phase it' = it_phase it /\ it_empty it' = it_empty it /\
      match x with Ok _ => mlt (mi it') (mi it) | Err e => settled it' /\ rec_exn o e end.
  Proof.
    intros HI Hs. unfold next_record.
    set (sl := match it_next_line it with Some l => Some (HBytes l) | None => None end).
    destruct (record_conv _ _ _ he (@rops_good zl) rops_tell o sl (it_known it) (it_reader it) (proj1 HI))
      as ([x r] & [N HN] & K & H). cbn [fst snd] in *.
    destruct K as (K1 & K2 & _).
    assert (E1 : eff_nl it = olen (it_next_line it)).
    { unfold eff_nl. destruct (it_record it) eqn:E1; [|reflexivity]. destruct (it_member it) eqn:E2; [reflexivity|].
      destruct Hs as [Hs|Hs]; congruence. }
    destruct x as [rc|e].
    - eexists (Ok rc), _. split; [exists N; intros f Hf; specialize (HN f Hf); unfold rops_f in HN; rewrite HN; reflexivity|].
      destruct H as (H1 & H2 & H3).
      assert (Hlt : mlt (mr r) (mi it)).
      { unfold mi. rewrite E1. subst sl. pose proof (proj1 (proj2 HI)) as Hn.
        destruct (it_next_line it) as [[|c l]|]; [exfalso; now apply Hn| |specialize (H1 eq_refl)]; cbn [olen]; ms_lia. }
      unfold Ii. unfold mi at 1 3. unfold eff_nl. cbn [it_reader it_next_line it_record it_member it_phase it_empty].
      split; [split; [exact K1|split; [apply HI|split; [exact H2|exact H3]]]|].
      split; [ms_lia|]. split; [reflexivity|]. split; [reflexivity|]. ms_lia.
    - exists (Err e), (it_set_reader r it).
      split; [exists N; intros f Hf; specialize (HN f Hf); unfold rops_f in HN; now rewrite HN|].
      destruct (set_reader_ok r it HI K1 K2) as (B1 & B2 & B3 & B4 & B5 & _).
      split; [exact B1|]. split; [exact B2|]. split; [exact B3|]. split; [exact B4|]. split; [now apply B5|exact H].
  Qed.

  Lemma after_conv it : Ii it ->
    exists x it', conv (fun f => @after_record zl f it) (x, it') /\ Ii it' /\ mle (mi it') (mi it) /\
      match x with
      | Ok b => settled it' /\ (it_empty it = true -> it_empty it' = true /\ (b = true -> mlt (mi it') (mi it)))
      | Err e => opt_exn o e
      end.
  Proof.
    intros HI. unfold after_record.
    destruct (rte_conv it HI) as (x & it1 & [N HN] & A1 & A2 & A3 & A4 & A5 & A6).
    destruct x as [[]|e].
    2:{ exists (Err e), it1. split; [exists N; intros f Hf; now rewrite HN|]. split; [exact A1|]. now split. }
    destruct (has_dec (it_reader it1)) eqn:Ed.
    2:{ destruct (it_empty it1) eqn:Ee.
        - exists (Ok false), it1. split; [exists N; intros f Hf; rewrite HN, Ed, Ee by lia; reflexivity|].
          split; [exact A1|]. split; [exact A2|]. split; [exact A6|]. intros He. split; [exact Ee|discriminate].
        - exists (Ok true), it1. split; [exists N; intros f Hf; rewrite HN, Ed, Ee by lia; reflexivity|].
          split; [exact A1|]. split; [exact A2|]. split; [exact A6|]. intros He. congruence. }
    destruct (read_next_member (it_reader it1)) as [more r] eqn:Em.
    destruct (read_next_member_mr _ _ _ (proj1 A1) Em) as (R1 & R2 & R3 & R4).
    destruct (set_reader_ok r it1 A1 R1 R2) as (B1 & B2 & B3 & B4 & B5 & B6 & B7).
    destruct more.
    { exists (Ok true), (it_set_reader r it1).
      split; [exists N; intros f Hf; rewrite HN, Ed, Em by lia; reflexivity|].
      split; [exact B1|]. split; [ms_lia|]. split; [now apply B5|]. intros He. split; [congruence|]. intros _.
      specialize (R3 eq_refl). assert (mlt (mi (it_set_reader r it1)) (mi it1)).
      { unfold mi. rewrite B6, B7. ms_lia. } ms_lia. }
    destruct (it_empty (it_set_reader r it1)) eqn:Ee.
    { exists (Ok false), (it_set_reader r it1).
      split; [exists N; intros f Hf; rewrite HN, Ed, Em, Ee by lia; reflexivity|].
      split; [exact B1|]. split; [ms_lia|]. split; [now apply B5|]. intros He. split; [exact Ee|discriminate]. }
    exists (Ok true), (set_raise true (it_set_reader r it1)).
    split; [exists N; intros f Hf; rewrite HN, Ed, Em, Ee by lia; reflexivity|].
    split; [exact B1|]. split; [change (mi (set_raise true (it_set_reader r it1))) with (mi (it_set_reader r it1)); ms_lia|].
    split; [now apply B5|]. intros He. congruence.
  Qed.

  (** what may leave next() *)
  Definition iter_exn (e : exn) : Prop :=
    e = ArchiveLoadFailed \/ opt_exn o e \/
    (lo_norec o = false /\ (e = AttributeErr \/ (lo_verify o = true /\ exists l, e = ParserExn l))).

  Lemma opt_not_eof e : opt_exn o e -> e <> EOFError.
  Proof. intros [_ [[-> _]| ->]]; discriminate. Qed.
  Lemma rec_iter_exn e : rec_exn o e -> e <> EOFError -> iter_exn e.
  Proof.
    intros [[H|H]|[H|[H1 H2]]] Hn.
    - contradiction.
    - now left.
    - right. now left.
    - right. right. split; [exact H1|]. destruct H2 as [H2|[H2|H2]]; [contradiction|now left|now right].
  Qed.

  Definition result_ok (it : it_t) (x : res (option (record rdr))) (it' : it_t) : Prop :=
    match x with
    | Ok (Some _) => Ii it' /\ mlt (mi it') (mi it) /\ it_phase it' = PYield
    | Ok None => True
    | Err e => iter_exn e
    end.

  Lemma loop_conv it : Ii it -> settled it ->
    exists x it', conv2 (fun n f => @iter_loop zl f he o n it) (x, it') /\ result_ok it x it'.
  Proof.
    remember (mi it) as k eqn:Hk. revert it Hk.
    induction k as [k IH] using (well_founded_induction mlt_wf). intros it Hk HI Hs. subst k.
    destruct (next_conv it HI Hs) as (x & it1 & [N HN] & A1 & A2 & A3 & A4 & A5).
    destruct x as [rc|e].
    { destruct (it_raise_gz it1) eqn:Eg.
      - exists (Err ArchiveLoadFailed), (set_phase PDone it1). split; [|now left].
        exists (Datatypes.S N). intros [|n] f Hn Hf; [lia|]. cbn [iter_loop]. rewrite HN, Eg by lia. reflexivity.
      - exists (Ok (Some rc)), (set_phase PYield it1). split.
        + exists (Datatypes.S N). intros [|n] f Hn Hf; [lia|]. cbn [iter_loop]. rewrite HN, Eg by lia. reflexivity.
        + split; [exact A1|]. split; [exact A5|reflexivity]. }
    destruct A5 as [S1 X1].
    assert (Dec : e = EOFError \/ e <> EOFError) by (destruct e; (now left) || (right; discriminate)).
    destruct Dec as [-> | Hne].
    2:{ exists (Err e), (set_phase PDone it1). split; [|now apply rec_iter_exn].
        exists (Datatypes.S N). intros [|n] f Hn Hf; [lia|]. cbn [iter_loop]. rewrite HN by lia.
        destruct e; try reflexivity. contradiction. }
    destruct (after_conv (set_empty true it1) A1) as (y & it2 & [M HM] & B1 & B2 & B3).
    change (mi (set_empty true it1)) with (mi it1) in *.
    assert (St : forall n f, (Nat.max N M <= f)%nat -> @iter_loop zl f he o (Datatypes.S n) it =
      match y with
      | Err e => (Err e, set_phase PDone it2)
      | Ok true => @iter_loop zl f he o n it2
      | Ok false => (Ok None, close_iter it2)
      end).
    { intros n f Hf. cbn [iter_loop]. rewrite HN, HM by lia. destruct y as [[|]|[]]; reflexivity. }
    destruct y as [[|]|e].
    - destruct B3 as [S2 B3]. destruct (B3 eq_refl) as [_ B4]. specialize (B4 eq_refl).
      assert (Hlt : mlt (mi it2) (mi it)) by ms_lia.
      destruct (IH _ Hlt it2 eq_refl B1 S2) as (x & it' & [P HP] & H).
      exists x, it'. split.
      + exists (Datatypes.S (Nat.max (Nat.max N M) P)). intros [|n] f Hn Hf; [lia|]. rewrite St by lia. apply HP; lia.
      + destruct x as [[rc|]|e]; try exact H. destruct H as (C1 & C2 & C3). split; [exact C1|]. split; [ms_lia|exact C3].
    - exists (Ok None), (close_iter it2). split; [|exact Logic.I].
      exists (Datatypes.S (Nat.max N M)). intros [|n] f Hn Hf; [lia|]. apply St. lia.
    - exists (Err e), (set_phase PDone it2). split; [|right; now left].
      exists (Datatypes.S (Nat.max N M)). intros [|n] f Hn Hf; [lia|]. apply St. lia.
  Qed.

  Definition Ip (it : it_t) : Prop := Ii it /\ (it_phase it = PStart -> settled it).

  Lemma iter_next_conv it : Ip it ->
    exists x it', conv (fun f => @iter_next zl f he o it) (x, it') /\ result_ok it x it'.
  Proof.
    intros [HI Hp]. unfold iter_next. destruct (it_phase it) eqn:Ep.
    - destruct (loop_conv it HI (Hp eq_refl)) as (x & it' & C & H). exists x, it'.
      split; [exact (conv2_diag _ _ C)|exact H].
    - destruct (after_conv it HI) as (y & it2 & [M HM] & B1 & B2 & B3).
      destruct y as [[|]|e].
      + destruct B3 as [S2 _]. destruct (loop_conv it2 B1 S2) as (x & it' & C & H). apply conv2_diag in C.
        destruct C as [P HP]. exists x, it'. split.
        * exists (Nat.max M P). intros f Hf. rewrite HM by lia. apply HP. lia.
        * destruct x as [[rc|]|e]; try exact H. destruct H as (C1 & C2 & C3). split; [exact C1|]. split; [ms_lia|exact C3].
      + exists (Ok None), (close_iter it2). split; [|exact Logic.I]. exists M. intros f Hf. now rewrite HM.
      + exists (Err e), (set_phase PDone it2). split; [|right; now left]. exists M. intros f Hf. now rewrite HM.
    - exists (Ok None), it. split; [apply conv_const|exact Logic.I].
  Qed.

  (** ** The consumer *)
  Definition read_ok (x : res bytes) : Prop := match x with Ok _ => True | Err e => opt_exn o e end.

  Lemma user_op_conv u it : Ii it ->
    exists x it', conv (fun f => @user_op zl f u it) (x, it') /\ Ii it' /\ mle (mi it') (mi it) /\
      it_phase it' = it_phase it /\ read_ok x.
  Proof.
    intros HI. pose proof (rs_good _ _ _ (@rops_good zl)) as GR. destruct u as [n|n|]; cbn [user_op].
    1,2: destruct (it_record it) as [rc|] eqn:Er;
      [|exists (Ok []), it; (split; [apply conv_const|]); (split; [exact HI|]); (split; [apply mle_refl|]); now split];
      pose proof HI as (_ & _ & H3); rewrite Er in H3; destruct H3 as (H3 & H4 & H5).
    - destruct (g_read _ _ _ _ GR n _ H4) as ([x st] & [N HN] & K1 & K2 & K3 & K4). cbn [fst snd rs_ops o_read] in *.
      destruct (set_rstream_ok st it rc HI Er (conj K1 (conj K2 K3))) as (A1 & A2 & A3 & _).
      exists x, (it_set_rstream st it). split.
      { exists N. intros f Hf. specialize (HN f Hf). unfold rops_f in HN. now rewrite HN. }
      split; [exact A1|]. split; [exact A2|]. split; [exact A3|]. destruct x; [exact Logic.I|now apply H5].
    - destruct (g_line _ _ _ _ GR n _ H4) as ([x st] & [N HN] & K1 & K2 & K3 & K4). cbn [fst snd rs_ops o_readline] in *.
      destruct (set_rstream_ok st it rc HI Er (conj K1 (conj K2 K3))) as (A1 & A2 & A3 & _).
      exists x, (it_set_rstream st it). split.
      { exists N. intros f Hf. specialize (HN f Hf). unfold rops_f in HN. now rewrite HN. }
      split; [exact A1|]. split; [exact A2|]. split; [exact A3|]. destruct x; [exact Logic.I|now apply H5].
    - destruct (rte_conv it HI) as (x & it1 & [N HN] & A1 & A2 & A3 & A4 & A5 & A6).
      exists (match x with Ok _ => Ok [] | Err e => Err e end), it1. split.
      { exists N. intros f Hf. unfold get_offset_length. rewrite HN by lia. now destruct x. }
      split; [exact A1|]. split; [exact A2|]. split; [exact A3|]. destruct x; [exact Logic.I|exact A6].
  Qed.

  Lemma user_ops_conv us it : Ii it ->
    exists xs it', conv (fun f => @user_ops zl f us it) (xs, it') /\ Ii it' /\ mle (mi it') (mi it) /\
      it_phase it' = it_phase it /\ Forall read_ok xs.
  Proof.
    revert it. induction us as [|u us IH]; intros it HI.
    { exists [], it. split; [now exists O|]. split; [exact HI|]. split; [apply mle_refl|]. split; [reflexivity|constructor]. }
    destruct (user_op_conv u it HI) as (x & it1 & [N HN] & A1 & A2 & A3 & A4).
    destruct (IH it1 A1) as (xs & it2 & [M HM] & B1 & B2 & B3 & B4).
    exists (x :: xs), it2. split.
    { exists (Nat.max N M). intros f Hf. cbn [user_ops]. rewrite HN, HM by lia. reflexivity. }
    split; [exact B1|]. split; [ms_lia|]. split; [congruence|now constructor].
  Qed.

  Lemma consumer_conv prog k it : Ip it ->
    exists os en, conv2 (fun n f => @consumer zl f he o n prog k it) (os, en) /\
      Forall (fun x => Forall read_ok (snd x)) os /\ match en with EndStop => True | EndExn e => iter_exn e end.
  Proof.
    remember (mi it) as j eqn:Hj. revert k it Hj.
    induction j as [j IH] using (well_founded_induction mlt_wf). intros k it Hj HI. subst j.
    destruct (iter_next_conv it HI) as (x & it1 & [N HN] & H).
    destruct x as [[rc|]|e].
    - destruct H as (H1 & H2 & H3).
      destruct (user_ops_conv (prog k) it1 H1) as (xs & it2 & [M HM] & A1 & A2 & A3 & A4).
      assert (Hlt : mlt (mi it2) (mi it)) by ms_lia.
      destruct (IH _ Hlt (Datatypes.S k) it2 eq_refl) as (os & en & [Q HQ] & C1 & C2).
      { split; [exact A1|]. intros Hp. congruence. }
      exists ((rc, xs) :: os), en. split; [|split; [|exact C2]].
      + exists (Datatypes.S (Nat.max (Nat.max N M) Q)). intros [|n] f Hn Hf; [lia|]. cbn [consumer].
        rewrite HN, HM by lia. rewrite HQ by lia. reflexivity.
      + constructor; [exact A4|exact C1].
    - exists [], EndStop. split; [|split; [constructor|exact Logic.I]].
      exists (Datatypes.S N). intros [|n] f Hn Hf; [lia|]. cbn [consumer]. rewrite HN by lia. reflexivity.
    - exists [], (EndExn e). split; [|split; [constructor|exact H]].
      exists (Datatypes.S N). intros [|n] f Hn Hf; [lia|]. cbn [consumer]. rewrite HN by lia. reflexivity.
  Qed.

  Lemma new_ok data sched block known : Ip (iter_new (raw_open data sched) block known).
  Proof.
    split; [|intros _; now left]. split; [split; [reflexivity|discriminate]|]. split; [discriminate|exact Logic.I].
  Qed.
End Iter.
