(** * IndepIter: the run of the iterator does not depend on what the consumer reads *)
From Coq Require Import List ZArith NArith Bool String Lia Wellfounded.
From Coq Require Import ZifyBool ZifyNat ZifyN.
From Verif Require Import PyBase Facts Headers Streams Loader Iterator TermProofs TermSpec TermLoad TermIter AdvProofs KeepProofs IndepProofs.
Import ListNotations.
Open Scope Z_scope.

Section Indep.
  Context {zl : zenv} (he : henv) (o : lopts).
  Notation rdr := (breader zl raw).
  Notation it_t := (@iter zl).

  Lemma fin_okst (st F : rstream rdr) x b' : fin st F -> went (rs_base st) x (lim_of st) b' -> okst st x.
  Proof.
    intros HF (b1 & A & W & _). destruct HF as [X bX AX LX OX EX|X be bX AX EX UX FX].
    - rewrite LX in W. cbn [within] in W. destruct (adv_det _ _ _ _ _ A AX W) as (z & -> & _).
      destruct z as [|c z]; [now rewrite app_nil_r in OX|]. apply okst_under. rewrite LX. cbn [under].
      rewrite lenZ_app, lenZ_cons. pose proof (lenZ_nonneg z). lia.
    - apply okst_under. destruct (lim_of st) as [j|] eqn:Ej; [|exact Logic.I]. cbn [under] in *.
      destruct (Z_le_gt_dec (lenZ x) (lenZ X)) as [Q|Q]; [lia|].
      destruct (adv_det _ _ _ _ _ AX A ltac:(lia)) as (z & -> & Az).
      destruct (eof_adv _ _ _ _ EX Az) as [-> _]. rewrite app_nil_r in *. lia.
  Qed.

  Lemma fin_uniq (st F1 F2 : rstream rdr) : fin st F1 -> fin st F2 -> F1 = F2.
  Proof.
    assert (G : forall X bX Y be, adv (rs_base st) X bX -> lim_of st = Some (lenZ X) ->
                adv (rs_base st) Y be -> under Y (lim_of st) -> forall b1, eofP be b1 -> False).
    { intros X bX Y be AX LX AY UY b1 EY. rewrite LX in UY. cbn [under] in UY.
      destruct (adv_det _ _ _ _ _ AY AX ltac:(lia)) as (z & -> & Az).
      destruct (eof_adv _ _ _ _ EY Az) as [-> _]. rewrite app_nil_r in UY. lia. }
    intros [X bX AX LX OX ->|X be bX AX EX UX ->] [Y bY AY LY OY ->|Y bf bY AY EY UY ->].
    - rewrite LX in LY. injection LY as LY.
      destruct (adv_det _ _ _ _ _ AX AY ltac:(lia)) as (z & -> & Az).
      rewrite lenZ_app in LY. assert (z = []) as -> by (apply lenZ_0; lia). rewrite app_nil_r.
      now inversion Az.
    - exfalso. exact (G X bX Y bf AX LX AY UY _ EY).
    - exfalso. exact (G Y bY X be AY LY AX UX _ EX).
    - destruct (Z_le_gt_dec (lenZ X) (lenZ Y)) as [Q|Q].
      + destruct (adv_det _ _ _ _ _ AX AY Q) as (z & -> & Az). destruct (eof_adv _ _ _ _ EX Az) as [-> ->].
        rewrite app_nil_r. now rewrite (fills_fun _ _ _ (proj1 EX) (proj1 EY)).
      + destruct (adv_det _ _ _ _ _ AY AX ltac:(lia)) as (z & -> & Az). destruct (eof_adv _ _ _ _ EY Az) as [-> ->].
        rewrite app_nil_r. now rewrite (fills_fun _ _ _ (proj1 EX) (proj1 EY)).
  Qed.

  Lemma drain_fin (st F : rstream rdr) : Is st -> fin st F -> conv2 (fun n f => @drain zl f n st) (Ok tt, F).
  Proof.
    intros HI HF. destruct (drain_tot st HI) as [(F' & H1 & _ & H2)|(e & st' & _ & H)]; [|destruct (H F HF)].
    now rewrite (fin_uniq _ _ _ HF H1).
  Qed.

  (** the bytes the record's stream has to give *)
  Definition pay (st : rstream rdr) (X : bytes) : Prop :=
    exists b1, adv (rs_base st) X b1 /\
      (lim_of st = Some (lenZ X) \/ (under X (lim_of st) /\ exists b2, eofP b1 b2)).

  Lemma pay_step (st : rstream rdr) x b' X : Is st -> went (rs_base st) x (lim_of st) b' -> pay st X ->
    exists w, X = x ++ w /\ pay (aft st x b') w.
  Proof.
    intros [HI _] (b1 & A & W & C) (bX & AX & H). pose proof (adv_Ia _ _ _ HI A) as I1.
    assert (Hl : lenZ x <= lenZ X).
    { destruct H as [L|[U (b2 & E)]]; [rewrite L in W; exact W|].
      destruct (Z_le_gt_dec (lenZ x) (lenZ X)) as [Q|Q]; [exact Q|].
      destruct (adv_det _ _ _ _ _ AX A ltac:(lia)) as (z & -> & Az).
      destruct (eof_adv _ _ _ _ E Az) as [-> _]. rewrite app_nil_r in Q. lia. }
    destruct (adv_det _ _ _ _ _ A AX Hl) as (w & -> & Aw). exists w. split; [reflexivity|].
    unfold pay. rewrite aft_base, aft_lim. destruct C as [->|[C1 C2]].
    - exists bX. split; [exact Aw|]. destruct H as [L|[U E]].
      + left. rewrite L. f_equal. rewrite lenZ_app. lia.
      + right. split; [|exact E]. destruct (lim_of st); [|exact Logic.I]. cbn [under] in *. rewrite lenZ_app in U. lia.
    - destruct (eof_adv _ _ _ _ C1 Aw) as [-> ->]. exists b'. split; [apply adv_nil|]. right.
      rewrite app_nil_r in *. split; [|exists b'; exact (eof_again _ _ I1 C1)].
      destruct (lim_of st); [|exact Logic.I]. cbn [under] in *. rewrite lenZ_nil. lia.
  Qed.

  Lemma pay_ex (st : rstream rdr) F : fin st F -> exists X, pay st X.
  Proof.
    intros [X bX AX LX OX _|X be bX AX EX UX _]; exists X; eexists; (split; [exact AX|]); [now left|right].
    split; [exact UX|now exists bX].
  Qed.

  (** read() of the whole record gives all of it *)
  Lemma pay_read (st : rstream rdr) x b' X : Is st -> pay st X -> went (rs_base st) x (lim_of st) b' ->
    (exists b1, adv (rs_base st) x b1 /\ (lim_of st = Some (lenZ x) \/ (under x (lim_of st) /\ eofP b1 b'))) -> x = X.
  Proof.
    intros HI HX HW (b1 & A & D). destruct (pay_step st x b' X HI HW HX) as (w & -> & bw & Aw & _).
    rewrite aft_base in Aw. destruct D as [L|[U E]].
    - destruct HX as (bX & AX & [L2|[U2 _]]).
      + rewrite L in L2. injection L2 as L2. rewrite lenZ_app in L2.
        assert (w = []) as -> by (apply lenZ_0; lia). now rewrite app_nil_r.
      + exfalso. rewrite L in U2. cbn [under] in U2. rewrite lenZ_app in U2. pose proof (lenZ_nonneg w). lia.
    - destruct (eof_adv _ _ _ _ (eof_again _ _ (adv_Ia _ _ _ (proj1 HI) A) E) Aw) as [-> _]. now rewrite app_nil_r.
  Qed.

  (** a stream that has been read to its end *)
  Definition over (st : rstream rdr) : Prop := lim_of st = Some 0 \/ eofP (rs_base st) (rs_base st).

  Lemma over_went st x b' : over st -> went (rs_base st) x (lim_of st) b' -> x = [] /\ aft st x b' = st.
  Proof.
    intros H (b1 & A & W & C). assert (x = [] /\ b' = rs_base st) as [-> ->].
    { destruct H as [L|E].
      - rewrite L in W, C. cbn [within under] in *. assert (x = []) as -> by (apply lenZ_0; pose proof (lenZ_nonneg x); lia).
        inversion A; subst. destruct C as [->|[_ C]]; [now split|]. rewrite lenZ_nil in C. lia.
      - destruct (eof_adv _ _ _ _ E A) as [-> ->]. split; [reflexivity|]. destruct C as [->|[[C _] _]]; [reflexivity|].
        exact (fills_fun _ _ _ C (proj1 E)). }
    split; [reflexivity|]. rewrite aft_nil. apply set_base_same.
  Qed.

  Lemma fin_over (st F : rstream rdr) : Is st -> fin st F ->
    lim_of F = Some 0 \/ eofP (rs_base F) (rs_base F).
  Proof.
    intros [HI _] [X bX AX LX OX ->|X be bX AX EX UX ->].
    - left. rewrite aft_lim, LX. f_equal. lia.
    - right. rewrite aft_base. exact (eof_again _ _ (adv_Ia _ _ _ HI AX) EX).
  Qed.

  (** blank lines at the end: nothing happens *)
  Lemma consume_end (r : rdr) : Ia r -> eofP r r -> conv2 (fun n f => @consume_loop zl f n true 0 0 r) (Ok (None, 0, 0), r).
  Proof.
    intros HI HE. destruct (rops_line_went None r HI Logic.I) as (x & b' & [N HN] & (b1 & A & _ & C)).
    destruct (eof_adv _ _ _ _ HE A) as [-> ->].
    assert (b' = r) as ->.
    { destruct C as [->|[[C _] _]]; [reflexivity|]. exact (fills_fun _ _ _ C (proj1 HE)). }
    exists (Datatypes.S N). intros [|n] f Hn Hf; [lia|]. cbn [consume_loop]. specialize (HN f ltac:(lia)).
    unfold rops_f in HN. now rewrite HN.
  Qed.

  (** ** The iterator *)
  Definition J (it : it_t) : Prop :=
    Ii o it /\ br_all (it_reader it) = false /\
    match it_record it with Some rc => lims (rc_stream rc) | None => True end.

  Lemma J_Is it rc : J it -> it_record it = Some rc -> Is (rc_stream rc) /\ rs_base (rc_stream rc) = it_reader it.
  Proof.
    intros ((H1 & H2 & H3) & H4 & H5) E. rewrite E in *. destruct H3 as [H3 _]. split; [|exact H3].
    split; [|exact H5]. split; [now rewrite H3|]. now rewrite H3.
  Qed.

  Lemma set_rstream_twice st1 st2 (it : it_t) : it_set_rstream st2 (it_set_rstream st1 it) = it_set_rstream st2 it.
  Proof. unfold it_set_rstream. cbn. now destruct (it_record it). Qed.
  Lemma set_rstream_same (it : it_t) rc : it_record it = Some rc -> rs_base (rc_stream rc) = it_reader it ->
    it_set_rstream (rc_stream rc) it = it.
  Proof. intros E Hb. unfold it_set_rstream. rewrite E, Hb. destruct it, rc. cbn in *. now subst. Qed.

  (** the rest of read_to_end, once the record is drained *)
  Definition finish (it1 : it_t) (nl : option bytes) (size errs : Z) (r : rdr) : it_t :=
    let it := it_set_reader r it1 in
    let off := rw_pos (br_stream r) - rem_length r in
    let off := match nl with Some l => off - lenZ l | None => off end in
    let len := off - it_offset it in
    let len := if has_dec r then len else len - size in
    mk_iter (it_reader it) off (it_known it) (Some (it_offset it, len)) nl (it_err_count it + errs)
            (it_record it) (it_phase it) (it_raise_gz it) (it_empty it).

  Lemma rte_eq f (it : it_t) rc : it_record it = Some rc -> it_member it = None ->
    @read_to_end zl f it =
    match drain f f (rc_stream rc) with
    | (Err e, st) => (Err e, it_set_rstream st it)
    | (Ok _, st) =>
        match consume_loop f f true 0 0 (it_reader (it_set_rstream st it)) with
        | (Err e, r) => (Err e, it_set_reader r (it_set_rstream st it))
        | (Ok (nl, size, errs), r) => (Ok tt, finish (it_set_rstream st it) nl size errs r)
        end
    end.
  Proof. intros E1 E2. unfold read_to_end. rewrite E1, E2. reflexivity. Qed.

  (** [E] is where the iterator is after this record, however it was read *)
  Definition ends_at (it : it_t) (rc : record rdr) (E : it_t) : Prop :=
    exists F nl size errs r, fin (rc_stream rc) F /\ Is F /\
      conv2 (fun n f => @consume_loop zl f n true 0 0 (rs_base F)) (Ok (nl, size, errs), r) /\
      E = finish (it_set_rstream F it) nl size errs r.

  Lemma rte_ends it rc x E : J it -> it_record it = Some rc -> it_member it = None ->
    conv (fun f => @read_to_end zl f it) (Ok x, E) -> ends_at it rc E.
  Proof.
    intros HJ E1 E2 HC. destruct (J_Is it rc HJ E1) as [HI Hb].
    destruct (drain_tot (rc_stream rc) HI) as [(F & HF & IF & C1)|(e & st' & C1 & _)]; apply conv2_diag in C1; destruct C1 as [N HN].
    2:{ exfalso. assert (C : conv (fun f => @read_to_end zl f it) (Err e, it_set_rstream st' it)).
        { exists N. intros f Hf. rewrite (rte_eq f it rc E1 E2), HN by exact Hf. reflexivity. }
        pose proof (conv_uniq _ _ _ HC C). discriminate. }
    destruct (consume_conv true 0 0 (rs_base F) (proj1 (proj1 IF))) as ([[nl size] errs] & r & C2 & _).
    exists F, nl, size, errs, r. split; [exact HF|]. split; [exact IF|]. split; [exact C2|].
    apply conv2_diag in C2. destruct C2 as [M HM].
    assert (C : conv (fun f => @read_to_end zl f it) (Ok tt, finish (it_set_rstream F it) nl size errs r)).
    { exists (Nat.max N M). intros f Hf. rewrite (rte_eq f it rc E1 E2), HN by lia.
      change (it_reader (it_set_rstream F it)) with (rs_base F). now rewrite HM by lia. }
    pose proof (conv_uniq _ _ _ HC C) as Q. now injection Q.
  Qed.

  Lemma ends_rte it rc E st : it_record it = Some rc -> it_member it = None ->
    Is st -> (forall F, fin (rc_stream rc) F -> fin st F) -> ends_at it rc E ->
    conv (fun f => @read_to_end zl f (it_set_rstream st it)) (Ok tt, E).
  Proof.
    intros E1 E2 HI Hst (F & nl & size & errs & r & HF & IF & C2 & ->).
    pose proof (drain_fin st F HI (Hst F HF)) as C1. apply conv2_diag in C1, C2. destruct C1 as [N HN], C2 as [M HM].
    exists (Nat.max N M). intros f Hf.
    rewrite (rte_eq f (it_set_rstream st it) (rc_set_stream st rc)); [|cbn [it_set_rstream it_record]; now rewrite E1|exact E2].
    cbn [rc_set_stream rc_stream]. rewrite HN, set_rstream_twice by lia.
    change (it_reader (it_set_rstream F it)) with (rs_base F). now rewrite HM by lia.
  Qed.

  Lemma ends_over it rc E : J it -> it_record it = Some rc -> ends_at it rc E ->
    exists st, it_record E = Some (rc_set_stream st rc) /\ it_member E <> None /\ it_set_rstream st E = E /\ over st /\ Is st.
  Proof.
    intros HJ E1 (F & nl & size & errs & r & HF & IF & C2 & ->).
    destruct (J_Is it rc HJ E1) as [HI Hb].
    assert (Ir' : Ia r).
    { destruct IF as [IF _]. destruct (consume_conv true 0 0 (rs_base F) (proj1 IF)) as (x & r' & C & I' & _).
      pose proof (conv2_uniq _ _ _ C2 C) as Q. injection Q as _ ->. split; [exact I'|].
      clear - C IF. destruct C as [N HN]. specialize (HN N N (le_n _) (le_n _)).
      assert (G : forall n first size errs (b : rdr), plain b -> plain (snd (@consume_loop zl N n first size errs b))).
      { induction n as [|n IH]; intros first size errs b Hp; [exact Hp|]. cbn [consume_loop].
        pose proof (readline_plain N None b Hp) as H1. cbn [rops br_ops o_readline].
        destruct (br_readline raw_ops N None b) as [[[|c l]|e] b']; try exact H1.
        destruct (is_nil (rstripp is_bspace (c :: l)) || first); [now apply IH|exact H1]. }
      specialize (G N true 0 0 (rs_base F) (conj (proj1 (proj1 IF)) (proj2 IF))). rewrite HN in G. exact (proj2 G). }
    exists (rs_set_base r F).
    split; [unfold finish; cbn; now rewrite E1|]. split; [discriminate|].
    split; [unfold finish, it_set_rstream; cbn; rewrite E1; cbn; now rewrite rs_base_set|].
    split.
    - destruct (fin_over _ _ HI HF) as [L|HE].
      + left. now rewrite lim_of_set.
      + right. rewrite rs_base_set.
        pose proof (conv2_uniq _ _ _ C2 (consume_end _ (proj1 IF) HE)) as Q. injection Q as _ _ _ ->. exact HE.
    - split; [now rewrite rs_base_set|]. destruct IF as [_ IF]. destruct F; exact IF.
  Qed.

  (** ** What the consumer does *)
  Definition sensible_op (u : uop) : Prop :=
    match u with URead n | UReadline n => sensible n | UInfo => True end.

  (** the consumer's position, having read [y] of the content [X]: still in the record, or behind it *)
  Definition at_rec (it : it_t) (rc : record rdr) (E : it_t) (X : bytes) (y : bytes) (it' : it_t) : Prop :=
    (exists st w, it' = it_set_rstream st it /\ Is st /\ (forall F, fin (rc_stream rc) F -> fin st F) /\
                  X = y ++ w /\ pay st w) \/
    (it' = E /\ exists w, X = y ++ w).

  Lemma ends_fin it rc E : ends_at it rc E -> exists F, fin (rc_stream rc) F.
  Proof. intros (F & ? & ? & ? & ? & H & _). now exists F. Qed.

  Lemma user_op_at it rc E X u y it' : J it -> it_record it = Some rc -> it_member it = None -> ends_at it rc E ->
    sensible_op u -> at_rec it rc E X y it' ->
    exists x it2, conv (fun f => @user_op zl f u it') (Ok x, it2) /\ at_rec it rc E X (y ++ x) it2.
  Proof.
    intros HJ E1 E2 HE Hu [(st & w & -> & HI & Hst & HX & Hw)|[-> [w HX]]].
    - destruct (ends_fin it rc E HE) as [F0 HF0].
      assert (G : forall x b', went (rs_base st) x (lim_of st) b' -> okst st x ->
                at_rec it rc E X (y ++ x) (it_set_rstream (aft st x b') it)).
      { intros x b' W O. left. destruct (pay_step st x b' w HI W Hw) as (w' & -> & Hw').
        exists (aft st x b'), w'. split; [reflexivity|]. split; [exact (went_Is _ _ _ HI W)|]. split.
        - intros F HF. apply (fin_step st x b' F HI W O). now apply Hst.
        - split; [now rewrite <- app_assoc|exact Hw']. }
      destruct u as [n|n|]; cbn [user_op].
      + destruct (rs_read_went n st HI Hu) as (x & b' & r & [N HN] & W & [R1 R2] & _).
        pose proof (fin_okst _ _ _ _ (Hst F0 HF0) W) as O. rewrite (R1 O) in HN.
        exists x, (it_set_rstream (aft st x b') it). split; [|now apply G].
        exists N. intros f Hf. cbn [it_set_rstream it_record]. rewrite E1. cbn [rc_set_stream rc_stream].
        rewrite HN by exact Hf. f_equal. apply (set_rstream_twice st _ it).
      + destruct (rs_line_went n st HI Hu) as (x & b' & r & [N HN] & W & [R1 R2]).
        pose proof (fin_okst _ _ _ _ (Hst F0 HF0) W) as O. rewrite (R1 O) in HN.
        exists x, (it_set_rstream (aft st x b') it). split; [|now apply G].
        exists N. intros f Hf. cbn [it_set_rstream it_record]. rewrite E1. cbn [rc_set_stream rc_stream].
        rewrite HN by exact Hf. f_equal. apply (set_rstream_twice st _ it).
      + pose proof (ends_rte it rc E st E1 E2 HI Hst HE) as [N HN].
        exists [], E. split; [|right; split; [reflexivity|]; exists w; now rewrite app_nil_r].
        exists N. intros f Hf. unfold get_offset_length. now rewrite HN.
    - assert (G : at_rec it rc E X (y ++ []) E) by (right; split; [reflexivity|]; exists w; now rewrite app_nil_r).
      destruct (ends_over it rc E HJ E1 HE) as (st & S1 & S2 & S3 & S4 & S5).
      destruct u as [n|n|]; cbn [user_op].
      + destruct (rs_read_went n st S5 Hu) as (x & b' & r & [N HN] & W & [R1 R2] & _).
        destruct (over_went _ _ _ S4 W) as [-> Ea]. rewrite Ea in HN.
        rewrite (R1 ltac:(destruct st; cbn [okst]; auto)) in HN.
        exists [], E. split; [|exact G]. exists N. intros f Hf. rewrite S1. cbn [rc_set_stream rc_stream].
        rewrite HN by exact Hf. now rewrite S3.
      + destruct (rs_line_went n st S5 Hu) as (x & b' & r & [N HN] & W & [R1 R2]).
        destruct (over_went _ _ _ S4 W) as [-> Ea]. rewrite Ea in HN.
        rewrite (R1 ltac:(destruct st; cbn [okst]; auto)) in HN.
        exists [], E. split; [|exact G]. exists N. intros f Hf. rewrite S1. cbn [rc_set_stream rc_stream].
        rewrite HN by exact Hf. now rewrite S3.
      + exists [], E. split; [|exact G]. exists O. intros f _. unfold get_offset_length, read_to_end. rewrite S1.
        now destruct (it_member E).
  Qed.

  Lemma user_ops_at it rc E X us y it' : J it -> it_record it = Some rc -> it_member it = None -> ends_at it rc E ->
    Forall sensible_op us -> at_rec it rc E X y it' ->
    exists xs it2, conv (fun f => @user_ops zl f us it') (map Ok xs, it2) /\ at_rec it rc E X (y ++ List.concat xs) it2.
  Proof.
    intros HJ E1 E2 HE Hu. revert y it'. induction Hu as [|u us Hu Hus IH]; intros y it' Hit.
    { exists [], it'. split; [now exists O|]. cbn [List.concat]. now rewrite app_nil_r. }
    destruct (user_op_at it rc E X u y it' HJ E1 E2 HE Hu Hit) as (x & it1 & [N HN] & H1).
    destruct (IH _ it1 H1) as (xs & it2 & [M HM] & H2).
    exists (x :: xs), it2. split; [|cbn [List.concat]; now rewrite app_assoc].
    exists (Nat.max N M). intros f Hf. cbn [user_ops]. rewrite HN, HM by lia. reflexivity.
  Qed.

  (** one read() gets everything *)
  Lemma user_all it rc E X : J it -> it_record it = Some rc -> it_member it = None -> ends_at it rc E ->
    pay (rc_stream rc) X ->
    exists it2, conv (fun f => @user_ops zl f [URead None] it) ([Ok X], it2).
  Proof.
    intros HJ E1 E2 HE HX. destruct (J_Is it rc HJ E1) as [HI Hb]. destruct (ends_fin it rc E HE) as [F0 HF0].
    destruct (rs_read_went None (rc_stream rc) HI Logic.I) as (x & b' & r & [N HN] & W & [R1 R2] & _ & Hall).
    pose proof (fin_okst _ _ _ _ HF0 W) as O. rewrite (R1 O) in HN.
    pose proof (pay_read _ _ _ _ HI HX W (Hall eq_refl)) as ->.
    eexists. exists N. intros f Hf. cbn [user_ops user_op]. rewrite E1, HN by exact Hf. reflexivity.
  Qed.

  Lemma info_at it rc E X y it' : J it -> it_record it = Some rc -> it_member it = None -> ends_at it rc E ->
    at_rec it rc E X y it' -> conv (fun f => @read_to_end zl f it') (Ok tt, E).
  Proof.
    intros HJ E1 E2 HE [(st & w & -> & HI & Hst & _)|[-> _]].
    - now apply ends_rte with rc.
    - destruct (ends_over it rc E HJ E1 HE) as (st & S1 & S2 & _).
      exists O. intros f _. unfold read_to_end. rewrite S1. now destruct (it_member E).
  Qed.

  (** ** The iterator keeps to these states *)
  Definition K (it : it_t) : Prop :=
    plain (it_reader it) /\ match it_record it with Some rc => lims (rc_stream rc) | None => True end.

  Lemma lims_set b (st : rstream rdr) : lims st -> lims (rs_set_base b st).
  Proof. now destruct st. Qed.
  Lemma K_set_reader r it : K it -> plain r -> K (it_set_reader r it).
  Proof.
    intros [H1 H2] Hr. split; [exact Hr|]. cbn [it_set_reader it_record]. destruct (it_record it) as [rc|]; [|exact Logic.I].
    cbn [rc_set_stream rc_stream]. now apply lims_set.
  Qed.

  Lemma next_keep f it : K it ->
    K (snd (@next_record zl f he o it)) /\
    match fst (@next_record zl f he o it) with
    | Ok rc => it_record (snd (@next_record zl f he o it)) = Some rc /\ it_member (snd (@next_record zl f he o it)) = None
    | Err _ => settled it -> settled (snd (@next_record zl f he o it))
    end.
  Proof.
    intros HK. unfold next_record.
    pose proof (record_keep f he o (match it_next_line it with Some l => Some (HBytes l) | None => None end)
                  (it_known it) (it_reader it) (proj1 HK)) as H. cbn zeta in H.
    destruct (parse_record_stream _ _ _ _ _ _ _) as [[rc|e] r]; cbn [fst snd] in *.
    - destruct H as [H1 H2]. split; [split; [exact H1|exact (proj2 H2)]|]. now split.
    - split; [apply K_set_reader; [exact HK|apply H]|]. unfold settled. cbn [it_set_reader it_record it_member].
      intros [->|Q]; [now left|now right].
  Qed.

  Lemma after_keep f it : K it -> settled it ->
    K (snd (@after_record zl f it)) /\ settled (snd (@after_record zl f it)) /\
    it_empty (snd (@after_record zl f it)) = it_empty it.
  Proof.
    intros HK Hs. unfold after_record.
    assert (R : @read_to_end zl f it = (Ok tt, it)).
    { unfold read_to_end. destruct (it_record it) eqn:Er; [|reflexivity]. destruct (it_member it) eqn:Em; [reflexivity|].
      destruct Hs; congruence. }
    rewrite R. destruct (has_dec (it_reader it)).
    - pose proof (next_member_plain (it_reader it) (proj1 HK)) as Hp.
      destruct (read_next_member (it_reader it)) as [more r]. cbn [snd] in Hp.
      assert (HK' : K (it_set_reader r it)) by (now apply K_set_reader).
      assert (Hs' : settled (it_set_reader r it)).
      { unfold settled in *. cbn [it_set_reader it_record it_member]. destruct Hs as [->|Q]; [now left|now right]. }
      destruct more; [now split|]. destruct (it_empty (it_set_reader r it)) eqn:Ee; (split; [exact HK'|split; [exact Hs'|reflexivity]]).
    - destruct (it_empty it) eqn:Ee; cbn [snd]; (split; [exact HK|split; [exact Hs|exact Ee]]).
  Qed.

  Lemma loop_keep f n it x it' : K it -> settled it -> @iter_loop zl f he o n it = (Ok (Some x), it') ->
    K it' /\ it_record it' = Some x /\ it_member it' = None.
  Proof.
    revert it. induction n as [|n IH]; intros it HK Hs H; [discriminate|]. cbn [iter_loop] in H.
    pose proof (next_keep f it HK) as H1. destruct (@next_record zl f he o it) as [[rc|e] it1]; cbn [fst snd] in *.
    - destruct (it_raise_gz it1); [discriminate|]. injection H as <- <-. destruct H1 as [H1 [H2 H3]].
      split; [exact H1|]. now split.
    - destruct e; try discriminate. destruct H1 as [H1 H2]. specialize (H2 Hs).
      destruct (after_keep f (set_empty true it1) H1 H2) as (A1 & A2 & _).
      destruct (@after_record zl f (set_empty true it1)) as [[[|]|e] it2]; cbn [snd] in *; try discriminate.
      + now apply IH with it2.
      + destruct e; discriminate.
  Qed.

  Lemma next_iter_keep f it x it' : K it -> settled it -> @iter_next zl f he o it = (Ok (Some x), it') ->
    K it' /\ it_record it' = Some x /\ it_member it' = None.
  Proof.
    intros HK Hs H. unfold iter_next in H. destruct (it_phase it).
    - now apply loop_keep with f f it.
    - destruct (after_keep f it HK Hs) as (A1 & A2 & _).
      destruct (@after_record zl f it) as [[[|]|e] it2]; cbn [snd] in *; try discriminate.
      now apply loop_keep with f f it2.
    - discriminate.
  Qed.

  (** ** Complete runs *)
  (** one record, in the run of a consumer that only asks for the offsets and of another one *)
  Definition same_rec (prog : list uop) (a : @obs zl) (X : bytes) (c : @obs zl) : Prop :=
    ob_record a = ob_record c /\ ob_info a = ob_info c /\ ob_passed a = ob_passed c /\
    exists xs w, ob_reads c = map Ok xs /\ X = List.concat xs ++ w /\ (prog = [URead None] -> ob_reads c = [Ok X]).

  Inductive same_run (prog : nat -> list uop) : nat -> list (@obs zl) -> list bytes -> list (@obs zl) -> Prop :=
  | same_nil k : same_run prog k [] [] []
  | same_cons k a X c oa Xs oc : same_rec (prog k) a X c -> same_run prog (Datatypes.S k) oa Xs oc ->
      same_run prog k (a :: oa) (X :: Xs) (c :: oc).

  Definition quiet (ob : @obs zl) : Prop := exists i, ob_info ob = Ok i.
  Definition nothing : nat -> list uop := fun _ => [].

  Lemma run_conv prog k it : Ip o it ->
    exists os en, conv2 (fun n f => @run_iter zl f he o n prog k it) (os, en) /\
      Forall (fun ob => (forall e, ob_info ob = Err e -> opt_exn o e) /\ Forall (read_ok o) (ob_reads ob)) os /\
      match en with EndStop => True | EndExn e => iter_exn o e end.
  Proof.
    remember (mi it) as j eqn:Hj. revert k it Hj.
    induction j as [j IH] using (well_founded_induction mlt_wf). intros k it Hj HI. subst j.
    destruct (iter_next_conv he o it HI) as (x & it1 & [N HN] & H).
    destruct x as [[rc|]|e].
    - destruct H as (H1 & H2 & H3).
      destruct (user_ops_conv o (prog k) it1 H1) as (xs & it2 & [M HM] & A1 & A2 & A3 & A4).
      destruct (rte_conv o it2 A1) as (y & E & [P HP] & B1 & B2 & B3 & _ & _ & B4).
      assert (Hlt : mlt (mi E) (mi it)) by ms_lia.
      destruct (IH _ Hlt (Datatypes.S k) E eq_refl) as (os & en & [Q HQ] & D1 & D2).
      { split; [exact B1|]. intros Hp. congruence. }
      exists (mk_obs rc xs (match y with Ok _ => Ok (it_member E) | Err e => Err e end) (it_passed E) :: os), en. split.
      { exists (Datatypes.S (Nat.max (Nat.max N M) (Nat.max P Q))). intros [|n] f Hn Hf; [lia|].
        cbn [run_iter]. rewrite HN, HM by lia. unfold get_offset_length. rewrite HP by lia.
        destruct y; rewrite HQ by lia; reflexivity. }
      split; [|exact D2]. constructor; [|exact D1]. cbn [ob_info ob_reads]. split; [|exact A4].
      destruct y; [discriminate|]. intros e' He. injection He as <-. exact B4.
    - exists [], EndStop. split; [|split; [constructor|exact Logic.I]]. exists (Datatypes.S N). intros [|n] f Hn Hf; [lia|]. cbn [run_iter]. rewrite HN by lia. reflexivity.
    - exists [], (EndExn e). split; [|split; [constructor|exact H]].
      exists (Datatypes.S N). intros [|n] f Hn Hf; [lia|]. cbn [run_iter]. rewrite HN by lia. reflexivity.
  Qed.

  (** the same for a consumer that never asks for the offsets *)
  Lemma after_rte f it it' x : @read_to_end zl f it = (x, it') ->
    match x with Ok _ => settled it' -> @after_record zl f it' = @after_record zl f it | Err _ => True end.
  Proof.
    intros H. destruct x as [u|e]; [|exact Logic.I]. intros Hs. unfold after_record. rewrite H.
    assert (R : @read_to_end zl f it' = (Ok tt, it')).
    { unfold read_to_end. destruct (it_record it') eqn:Er; [|reflexivity]. destruct (it_member it') eqn:Em; [reflexivity|].
      destruct Hs; congruence. }
    now rewrite R.
  Qed.
  Definition same_next (it' it : it_t) : Prop := exists N, forall f, (N <= f)%nat -> @iter_next zl f he o it' = @iter_next zl f he o it.

  Lemma rte_same_next it' it : conv (fun f => @read_to_end zl f it') (Ok tt, it) -> settled it ->
    it_phase it' = PYield -> it_phase it = PYield -> same_next it' it.
  Proof.
    intros [N HN] Hs P1 P2. exists N. intros f Hf. unfold iter_next. rewrite P1, P2.
    pose proof (after_rte f it' it (Ok tt) (HN f Hf) Hs) as Q. now rewrite Q.
  Qed.

  Definition seen (ob : @obs zl) : record rdr * list (res bytes) := (ob_record ob, ob_reads ob).

  Lemma runs k it : J it -> settled it ->
    exists os en, conv2 (fun n f => @run_iter zl f he o n nothing k it) (os, en) /\
      (lo_check o = KFalse -> Forall quiet os) /\
      (Forall quiet os -> exists Xs, forall prog, (forall j, Forall sensible_op (prog j)) ->
        exists oc, conv2 (fun n f => @run_iter zl f he o n prog k it) (oc, en) /\ same_run prog k os Xs oc /\
          (forall it', same_next it' it -> conv2 (fun n f => @consumer zl f he o n prog k it') (map seen oc, en))).
  Proof.
    remember (mi it) as j eqn:Hj. revert k it Hj.
    induction j as [j IH] using (well_founded_induction mlt_wf). intros k it Hj HJ Hs. subst j.
    destruct (iter_next_conv he o it) as (x & it1 & [N HN] & H); [split; [apply HJ|intros _; exact Hs]|].
    destruct x as [[rc|]|e].
    2:{ exists [], EndStop. split; [|split; [constructor|]].
        - exists (Datatypes.S N). intros [|n] f Hn Hf; [lia|]. cbn [run_iter]. rewrite HN by lia. reflexivity.
        - intros _. exists []. intros prog _. exists []. split; [|split; [constructor|]].
          + exists (Datatypes.S N). intros [|n] f Hn Hf; [lia|]. cbn [run_iter]. rewrite HN by lia. reflexivity.
          + intros it' [N' HN']. exists (Datatypes.S (Nat.max N N')). intros [|n] f Hn Hf; [lia|]. cbn [consumer].
            rewrite HN', HN by lia. reflexivity. }
    2:{ exists [], (EndExn e). split; [|split; [constructor|]].
        - exists (Datatypes.S N). intros [|n] f Hn Hf; [lia|]. cbn [run_iter]. rewrite HN by lia. reflexivity.
        - intros _. exists []. intros prog _. exists []. split; [|split; [constructor|]].
          + exists (Datatypes.S N). intros [|n] f Hn Hf; [lia|]. cbn [run_iter]. rewrite HN by lia. reflexivity.
          + intros it' [N' HN']. exists (Datatypes.S (Nat.max N N')). intros [|n] f Hn Hf; [lia|]. cbn [consumer].
            rewrite HN', HN by lia. reflexivity. }
    destruct H as (I1 & M1 & P1).
    assert (K1 : K it1 /\ it_record it1 = Some rc /\ it_member it1 = None).
    { apply (next_iter_keep N it rc it1); [|exact Hs|now apply HN]. destruct HJ as (Q1 & Q2 & Q3).
      split; [|exact Q3]. split; [exact (proj1 (proj1 Q1))|exact Q2]. }
    destruct K1 as (K1 & E1 & E2).
    assert (J1 : J it1) by (split; [exact I1|]; split; [exact (proj2 (proj1 K1))|exact (proj2 K1)]).
    destruct (rte_conv o it1 I1) as (y & E & [M HM] & A1 & A2 & A3 & A4 & A5 & A6).
    destruct y as [u|e].
    2:{ (* the end of the record raises *)
        destruct (run_conv nothing (Datatypes.S k) E) as (os & en & [Q HQ] & _); [split; [exact A1|intros Hp; congruence]|].
        exists (mk_obs rc [] (Err e) (it_passed E) :: os), en. split; [|split].
        - exists (Datatypes.S (Nat.max (Nat.max N M) Q)). intros [|n] f Hn Hf; [lia|].
          cbn [run_iter nothing user_ops]. rewrite HN by lia. unfold get_offset_length. rewrite HM, HQ by lia. reflexivity.
        - intros Hc. destruct A6 as [A6 _]. rewrite Hc in A6. discriminate.
        - intros Hq. inversion Hq as [|a l [i Hi] _]. discriminate. }
    assert (HE : ends_at it1 rc E) by (apply (rte_ends it1 rc u E J1 E1 E2); exists M; exact HM).
    destruct (ends_over it1 rc E J1 E1 HE) as (st & S1 & S2 & S3 & S4 & S5).
    assert (JE : J E).
    { split; [exact A1|]. rewrite S1. destruct A1 as (_ & _ & A1). rewrite S1 in A1. destruct A1 as [A1 _].
      cbn [rc_set_stream rc_stream] in *. split; [rewrite <- A1; exact (proj2 (proj1 S5))|exact (proj2 S5)]. }
    assert (Hlt : mlt (mi E) (mi it)) by ms_lia.
    destruct (IH _ Hlt (Datatypes.S k) E eq_refl JE (or_intror S2)) as (os & en & [Q HQ] & C1 & C2).
    exists (mk_obs rc [] (Ok (it_member E)) (it_passed E) :: os), en. split; [|split].
    - exists (Datatypes.S (Nat.max (Nat.max N M) Q)). intros [|n] f Hn Hf; [lia|].
      cbn [run_iter nothing user_ops]. rewrite HN by lia. unfold get_offset_length. rewrite HM, HQ by lia. reflexivity.
    - intros Hc. constructor; [now eexists|now apply C1].
    - intros Hq. inversion Hq as [|a l _ Hq']. subst. destruct (C2 Hq') as [Xs HXs].
      destruct (ends_fin it1 rc E HE) as [F HF]. destruct (pay_ex _ _ HF) as [X HX].
      exists (X :: Xs). intros prog Hprog. destruct (HXs prog Hprog) as (oc & [P HP] & HS & HC).
      destruct (J_Is it1 rc J1 E1) as [I1' Hb1].
      assert (A0 : at_rec it1 rc E X [] it1).
      { left. exists (rc_stream rc), X. split; [symmetry; now apply set_rstream_same|]. split; [exact I1'|].
        split; [auto|]. now split. }
      destruct (user_ops_at it1 rc E X (prog k) [] it1 J1 E1 E2 HE (Hprog k) A0) as (xs & it2 & [R HR] & A2').
      pose proof (info_at it1 rc E X _ it2 J1 E1 E2 HE A2') as [T HT].
      exists (mk_obs rc (map Ok xs) (Ok (it_member E)) (it_passed E) :: oc). split; [|split].
      + exists (Datatypes.S (Nat.max (Nat.max N R) (Nat.max T P))). intros [|n] f Hn Hf; [lia|].
        cbn [run_iter]. rewrite HN, HR by lia. unfold get_offset_length. rewrite HT, HP by lia. reflexivity.
      + constructor; [|exact HS]. split; [reflexivity|]. split; [reflexivity|]. split; [reflexivity|].
        assert (W : exists w, X = List.concat xs ++ w) by (destruct A2' as [(st' & w & _ & _ & _ & W & _)|[_ [w W]]]; now exists w).
        destruct W as [w W]. exists xs, w. split; [reflexivity|]. split; [exact W|]. cbn [ob_reads]. intros Hu.
        destruct (user_all it1 rc E X J1 E1 E2 HE HX) as [it3 C3]. rewrite Hu in HR.
        assert (C4 : conv (fun f => @user_ops zl f [URead None] it1) (map Ok xs, it2)) by (exists R; exact HR).
        pose proof (conv_uniq _ _ _ C3 C4) as Q'. now injection Q'.
      + intros it' [N' HN']. destruct (HC it2) as [P' HP'].
        { apply rte_same_next; [exists T; exact HT|exact (or_intror S2)| |congruence].
          destruct A2' as [(st' & w & -> & _)|[-> _]]; [exact P1|congruence]. }
        exists (Datatypes.S (Nat.max (Nat.max N R) (Nat.max N' P'))). intros [|n] f Hn Hf; [lia|].
        cbn [consumer map seen ob_record ob_reads]. rewrite HN', HN, HR by lia. rewrite HP' by lia. reflexivity.
  Qed.

End Indep.
