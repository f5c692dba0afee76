(** * IndepProofs: what the consumer reads of a record does not change where the record ends *)
From Coq Require Import List ZArith NArith Bool String Lia Wellfounded.
From Coq Require Import ZifyBool ZifyNat ZifyN.
From Verif Require Import PyBase Facts Headers Streams Loader Iterator TermProofs TermLoad TermIter AdvProofs KeepProofs.
Import ListNotations.
Open Scope Z_scope.

Section Stream.
  Context {zl : zenv}.
  Notation rdr := (breader zl raw).

  (** ** The record's stream after [x] was taken from it *)
  Definition upd (d : digr rdr) (x : bytes) (b : rdr) : res bytes * digr rdr :=
    let l := dr_lim d in let i := lm_stream l in
    dig_update x (mk_lim (mk_lim b (lm_limit i - lenZ x) (lm_orig i)) (lm_limit l - lenZ x) (lm_orig l)) d.

  Definition aft (st : rstream rdr) (x : bytes) (b : rdr) : rstream rdr :=
    match st with
    | RSbase _ => RSbase b
    | RSlim l => RSlim (mk_lim b (lm_limit l - lenZ x) (lm_orig l))
    | RSdig d => if is_nil x then rs_set_base b (RSdig d) else RSdig (snd (upd d x b))
    end.

  Definition lim_of (st : rstream rdr) : option Z :=
    match st with
    | RSbase _ => None
    | RSlim l => Some (lm_limit l)
    | RSdig d => Some (lm_limit (dr_lim d))
    end.

  (** the digest comparison at the end of the block raises nothing *)
  Definition okst (st : rstream rdr) (x : bytes) : Prop :=
    match st with
    | RSdig d => x = [] \/ forall b, fst (upd d x b) = Ok x
    | _ => True
    end.

  Definition Is (st : rstream rdr) : Prop := Ia (rs_base st) /\ lims st.

  Lemma aft_base (st : rstream rdr) x b : rs_base (aft st x b) = b.
  Proof.
    destruct st as [s|l|d]; cbn [aft]; try reflexivity. destruct (is_nil x); [reflexivity|].
    cbn [rs_base]. unfold upd. now rewrite dig_update_lim.
  Qed.
  Lemma aft_lim (st : rstream rdr) x b : lim_of (aft st x b) = match lim_of st with Some k => Some (k - lenZ x) | None => None end.
  Proof.
    destruct st as [s|l|d]; cbn [aft lim_of]; try reflexivity. destruct x as [|c x]; cbn [is_nil].
    - cbn [rs_set_base lim_of dr_lim lm_limit]. now rewrite lenZ_nil, Z.sub_0_r.
    - cbn [lim_of]. unfold upd. rewrite dig_update_lim. reflexivity.
  Qed.
  Lemma aft_lims (st : rstream rdr) x b : lims st -> within x (lim_of st) -> lims (aft st x b).
  Proof.
    destruct st as [s|l|d]; cbn [aft lims lim_of within lm_limit]; intros H Hw; [exact H|lia|].
    destruct x as [|c x]; cbn [is_nil].
    - exact H.
    - cbn [lims]. unfold upd. rewrite dig_update_lim. cbn [lm_stream lm_limit]. lia.
  Qed.

  Lemma set_base_same (st : rstream rdr) : rs_set_base (rs_base st) st = st.
  Proof. destruct st as [s|[s k o]|[[[s i io] k o] c p q po pn bo]]; reflexivity. Qed.
  Lemma aft_nil (st : rstream rdr) b : aft st [] b = rs_set_base b st.
  Proof. destruct st as [s|l|d]; cbn [aft is_nil rs_set_base]; try reflexivity. now rewrite lenZ_nil, Z.sub_0_r. Qed.
  Lemma set_base_twice b1 b2 (st : rstream rdr) : rs_set_base b2 (rs_set_base b1 st) = rs_set_base b2 st.
  Proof. destruct st as [s|l|d]; reflexivity. Qed.
  Lemma aft_set_base b x b1 (st : rstream rdr) : aft (rs_set_base b st) x b1 = aft st x b1.
  Proof. destruct st as [s|l|d]; reflexivity. Qed.
  Lemma lim_of_set b (st : rstream rdr) : lim_of (rs_set_base b st) = lim_of st.
  Proof. now destruct st. Qed.
  Lemma okst_set b x (st : rstream rdr) : okst (rs_set_base b st) x = okst st x.
  Proof. now destruct st. Qed.

  Lemma dgst_nil (g : dgst) : dgst_update [] g = g.
  Proof. destruct g. unfold dgst_update. cbn. now rewrite app_nil_r. Qed.
  Lemma dgst_twice x y (g : dgst) : dgst_update y (dgst_update x g) = dgst_update (x ++ y) g.
  Proof. destruct g. unfold dgst_update. cbn. now rewrite app_assoc. Qed.
  Lemma odgst_nil (g : option dgst) : option_map (dgst_update []) g = g.
  Proof. destruct g as [g|]; cbn; [now rewrite dgst_nil|reflexivity]. Qed.
  Lemma odgst_twice x y (g : option dgst) :
    option_map (dgst_update y) (option_map (dgst_update x) g) = option_map (dgst_update (x ++ y)) g.
  Proof. destruct g as [g|]; cbn; [now rewrite dgst_twice|reflexivity]. Qed.

  (** below the limit nothing is compared *)
  Lemma upd_below (d : digr rdr) x b : lm_limit (dr_lim d) - lenZ x <> 0 ->
    upd d x b =
    (Ok x, mk_dig (mk_lim (mk_lim b (lm_limit (lm_stream (dr_lim d)) - lenZ x) (lm_orig (lm_stream (dr_lim d))))
                     (lm_limit (dr_lim d) - lenZ x) (lm_orig (dr_lim d)))
             (dr_chk d) (dr_pdig d) (dr_bdig d)
             (if dr_pon d then option_map (dgst_update x) (dr_pobj d) else dr_pobj d) (dr_pon d)
             (option_map (dgst_update x) (dr_bobj d))).
  Proof.
    intros H. unfold upd, dig_update. cbn [lm_limit].
    replace (lm_limit (dr_lim d) - lenZ x =? 0) with false by lia. reflexivity.
  Qed.

  Lemma upd_nil (d : digr rdr) b : lm_limit (dr_lim d) <> 0 ->
    (let (r, d') := upd d [] b in (r, RSdig d')) = (Ok [], rs_set_base b (RSdig d)).
  Proof.
    intros H. rewrite upd_below by (rewrite lenZ_nil; lia). cbn [rs_set_base]. rewrite lenZ_nil, !Z.sub_0_r, !odgst_nil.
    now destruct (dr_pon d).
  Qed.

  (** two pieces are as good as one *)
  Lemma upd_comp (d : digr rdr) x y b1 b2 : lm_limit (dr_lim d) - lenZ x <> 0 ->
    snd (upd (snd (upd d x b1)) y b2) = snd (upd d (x ++ y) b2) /\
    (fst (upd d (x ++ y) b2) = Ok (x ++ y) <-> fst (upd (snd (upd d x b1)) y b2) = Ok y).
  Proof.
    intros H. rewrite (upd_below d x b1 H). cbn [snd]. unfold upd at 1 3 4, upd, dig_update.
    cbn [dr_lim lm_stream lm_limit lm_orig dr_chk dr_pdig dr_bdig dr_pobj dr_pon dr_bobj].
    rewrite lenZ_app. replace (lm_limit (dr_lim d) - lenZ x - lenZ y) with (lm_limit (dr_lim d) - (lenZ x + lenZ y)) by lia.
    replace (lm_limit (lm_stream (dr_lim d)) - lenZ x - lenZ y) with (lm_limit (lm_stream (dr_lim d)) - (lenZ x + lenZ y)) by lia.
    rewrite odgst_twice.
    replace (if dr_pon d
             then option_map (dgst_update y) (if dr_pon d then option_map (dgst_update x) (dr_pobj d) else dr_pobj d)
             else if dr_pon d then option_map (dgst_update x) (dr_pobj d) else dr_pobj d)
      with (if dr_pon d then option_map (dgst_update (x ++ y)) (dr_pobj d) else dr_pobj d)
      by (destruct (dr_pon d); [now rewrite odgst_twice|reflexivity]).
    destruct (lm_limit (dr_lim d) - (lenZ x + lenZ y) =? 0).
    2:{ cbn [fst snd]. split; [reflexivity|]. now split. }
    destruct (check_one PBlockFailed _ _ _) as [[u|e] c]; [|cbn [fst snd]; split; [reflexivity|]; split; discriminate].
    destruct (check_one PPayloadFailed _ _ _) as [[u'|e] c']; cbn [fst snd]; (split; [reflexivity|]); split;
      (discriminate || reflexivity).
  Qed.

  Lemma upd_base (d : digr rdr) x b1 b2 :
    rs_set_base b2 (RSdig (snd (upd d x b1))) = RSdig (snd (upd d x b2)).
  Proof.
    unfold upd, dig_update. cbn [lm_limit]. destruct (lm_limit (dr_lim d) - lenZ x =? 0); [|reflexivity].
    cbn [dr_chk dr_bdig dr_bobj dr_pdig dr_pdigester dr_pon dr_pobj].
    destruct (check_one PBlockFailed _ _ _) as [[u|e] c]; [|reflexivity].
    unfold dr_pdigester. cbn [dr_pon dr_pobj].
    destruct (check_one PPayloadFailed _ _ _) as [[u'|e] c']; reflexivity.
  Qed.
  Lemma upd_fst (d : digr rdr) x b1 b2 : fst (upd d x b1) = fst (upd d x b2).
  Proof.
    unfold upd, dig_update. cbn [lm_limit]. destruct (lm_limit (dr_lim d) - lenZ x =? 0); [|reflexivity].
    cbn [dr_chk dr_bdig dr_bobj dr_pdig dr_pdigester dr_pon dr_pobj].
    destruct (check_one PBlockFailed _ _ _) as [[u|e] c]; [|reflexivity].
    unfold dr_pdigester. cbn [dr_pon dr_pobj].
    destruct (check_one PPayloadFailed _ _ _) as [[u'|e] c']; reflexivity.
  Qed.

  Lemma aft_comp (st : rstream rdr) x y b1 b2 : y = [] \/ under x (lim_of st) ->
    aft (aft st x b1) y b2 = aft st (x ++ y) b2.
  Proof.
    intros H. destruct y as [|c y].
    { rewrite app_nil_r, aft_nil. destruct st as [s|l|d]; try reflexivity. cbn [aft].
      destruct (is_nil x); [apply set_base_twice|apply upd_base]. }
    destruct H as [H|H]; [discriminate|].
    destruct st as [s|l|d]; [reflexivity| |].
    - cbn [aft lm_limit lm_orig]. rewrite lenZ_app, Z.sub_add_distr. reflexivity.
    - cbn [lim_of under] in H. cbn [aft]. destruct x as [|c' x]; [reflexivity|]. cbn [is_nil aft app].
      change (c' :: x ++ c :: y) with ((c' :: x) ++ c :: y).
      now rewrite (proj1 (upd_comp d (c' :: x) (c :: y) b1 b2 ltac:(lia))).
  Qed.
  Lemma okst_comp (st : rstream rdr) x y b1 : y <> [] -> under x (lim_of st) ->
    (okst st (x ++ y) <-> okst (aft st x b1) y).
  Proof.
    intros Hy H. destruct st as [s|l|d]; [reflexivity|reflexivity|].
    cbn [lim_of under] in H. cbn [aft]. destruct x as [|c x]; [reflexivity|]. cbn [is_nil okst].
    split; intros [Q|Q]; try contradiction; try discriminate; right; intros b.
    - apply (proj2 (upd_comp d (c :: x) y b1 b ltac:(lia))). apply Q.
    - apply (proj2 (upd_comp d (c :: x) y b1 b ltac:(lia))). apply Q.
  Qed.
  Lemma okst_under (st : rstream rdr) x : under x (lim_of st) -> okst st x.
  Proof.
    destruct st as [s|l|d]; [exact (fun _ => Logic.I)|exact (fun _ => Logic.I)|].
    cbn [lim_of under okst]. intros H. right. intros b. rewrite upd_below by lia. reflexivity.
  Qed.

  (** ** Where the record's stream ends up *)
  Inductive fin (st F : rstream rdr) : Prop :=
  | fin_full X b1 : adv (rs_base st) X b1 -> lim_of st = Some (lenZ X) -> okst st X -> F = aft st X b1 -> fin st F
  | fin_short X be b1 : adv (rs_base st) X be -> eofP be b1 -> under X (lim_of st) -> F = aft st X b1 -> fin st F.

  Lemma went_Ia (b : rdr) x lim b' : Ia b -> went b x lim b' -> Ia b'.
  Proof.
    intros HI (b1 & A & _ & [->|[E _]]); [exact (adv_Ia _ _ _ HI A)|].
    exact (fills_Ia _ _ (adv_Ia _ _ _ HI A) (proj1 E)).
  Qed.
  Lemma went_mr (b : rdr) x lim b' : Ia b -> went b x lim b' -> x <> [] -> mlt (mr b') (mr b).
  Proof.
    intros HI (b1 & A & _ & C) Hx. pose proof (adv_mr _ _ _ HI A) as M.
    assert (mle (mr b') (mr b1)).
    { destruct C as [->|[[E _] _]]; [apply mle_refl|].
      destruct (fills_ex b1 (adv_Ia _ _ _ HI A)) as (b2 & F2 & _ & M2). now rewrite (fills_fun _ _ _ E F2). }
    destruct x; [contradiction|]. ms_lia.
  Qed.
  Lemma went_Is (st : rstream rdr) x b' : Is st -> went (rs_base st) x (lim_of st) b' -> Is (aft st x b').
  Proof.
    intros [HI HL] HW. split; [rewrite aft_base; exact (went_Ia _ _ _ _ HI HW)|].
    apply aft_lims; [exact HL|]. destruct HW as (b1 & _ & W & _). exact W.
  Qed.

  (** a call moves the stream on, but not its end *)
  Lemma fin_step st x b' F : Is st -> went (rs_base st) x (lim_of st) b' -> okst st x ->
    (fin st F <-> fin (aft st x b') F).
  Proof.
    intros [HI HL] (b1 & A & W & C) Ho. pose proof (adv_Ia _ _ _ HI A) as I1. split.
    - intros [X bX AX LX OX EX|X be bX AX EX UX FX].
      + rewrite LX in W, C. cbn [within] in W. destruct (adv_det _ _ _ _ _ A AX W) as (z & -> & Az).
        rewrite lenZ_app in *.
        assert (b' = b1) as ->.
        { destruct C as [C|[C1 C2]]; [exact C|]. exfalso. cbn [under] in C2. destruct (eof_adv _ _ _ _ C1 Az) as [-> _].
          rewrite lenZ_nil in C2. lia. }
        assert (D : z = [] \/ under x (lim_of st)).
        { rewrite LX. cbn [under]. destruct z as [|c z]; [now left|right]. rewrite lenZ_cons. pose proof (lenZ_nonneg z). lia. }
        apply (fin_full _ _ z bX).
        * now rewrite aft_base.
        * rewrite aft_lim, LX. f_equal. lia.
        * destruct z as [|c z]; [destruct st as [s|l|d]; cbn [aft okst]; auto; destruct (is_nil x); now left|].
          apply okst_comp; [discriminate| |exact OX]. destruct D as [D|D]; [discriminate|exact D].
        * rewrite aft_comp by exact D. exact EX.
      + assert (Hl : lenZ x <= lenZ X).
        { destruct (Z_le_gt_dec (lenZ x) (lenZ X)) as [H|H]; [exact H|].
          destruct (adv_det _ _ _ _ _ AX A ltac:(lia)) as (z & -> & Az).
          destruct (eof_adv _ _ _ _ EX Az) as [-> _]. rewrite app_nil_r in H. lia. }
        destruct (adv_det _ _ _ _ _ A AX Hl) as (z & -> & Az).
        assert (D : z = [] \/ under x (lim_of st)).
        { destruct z as [|c z]; [now left|right]. destruct (lim_of st); [|exact Logic.I]. cbn [under] in *.
          rewrite lenZ_app, lenZ_cons in UX. pose proof (lenZ_nonneg z). lia. }
        assert (U : under z (lim_of (aft st x b'))).
        { rewrite aft_lim. destruct (lim_of st); [|exact Logic.I]. cbn [under] in *. rewrite lenZ_app in UX. lia. }
        destruct C as [->|[C1 C2]].
        * apply (fin_short _ _ z be bX); [now rewrite aft_base|exact EX|exact U|].
          rewrite aft_comp by exact D. exact FX.
        * destruct (eof_adv _ _ _ _ C1 Az) as [-> ->].
          pose proof (fills_fun _ _ _ (proj1 C1) (proj1 EX)) as ->.
          apply (fin_short _ _ [] bX bX); [rewrite aft_base; apply adv_nil|exact (eof_again _ _ I1 EX)|exact U|].
          rewrite aft_comp by (now left). exact FX.
    - intros [z bX AX LX OX EX|z be bX AX EX UX FX]; rewrite aft_base in AX.
      + rewrite aft_lim in LX. destruct (lim_of st) as [k|] eqn:Ek; [|discriminate]. injection LX as LX.
        assert (b' = b1) as ->.
        { destruct C as [C|[C1 C2]]; [exact C|]. exfalso. cbn [under] in C2.
          destruct (eof_adv _ _ _ _ (eof_again _ _ I1 C1) AX) as [-> _]. rewrite lenZ_nil in LX. lia. }
        apply (fin_full _ _ (x ++ z) bX).
        * exact (adv_app _ _ _ _ _ A AX).
        * rewrite Ek. f_equal. rewrite lenZ_app. lia.
        * destruct z as [|c z]; [now rewrite app_nil_r|]. apply (okst_comp st x (c :: z) b1); [discriminate| |exact OX].
          rewrite Ek. cbn [under]. rewrite lenZ_cons in LX. pose proof (lenZ_nonneg z). lia.
        * rewrite EX. apply aft_comp. rewrite Ek. cbn [under]. destruct z as [|c z]; [now left|right].
          rewrite lenZ_cons in LX. pose proof (lenZ_nonneg z). lia.
      + rewrite aft_lim in UX.
        assert (D : z = [] \/ under x (lim_of st)).
        { destruct z as [|c z]; [now left|right]. destruct (lim_of st); [|exact Logic.I]. cbn [under] in *.
          rewrite lenZ_cons in UX. pose proof (lenZ_nonneg z). lia. }
        assert (U : under (x ++ z) (lim_of st)).
        { destruct (lim_of st); [|exact Logic.I]. cbn [under] in *. rewrite lenZ_app. lia. }
        destruct C as [->|[C1 C2]].
        * apply (fin_short _ _ (x ++ z) be bX); [exact (adv_app _ _ _ _ _ A AX)|exact EX|exact U|].
          rewrite FX. now apply aft_comp.
        * destruct (eof_adv _ _ _ _ (eof_again _ _ I1 C1) AX) as [-> ->].
          pose proof (fills_fun _ _ _ (proj1 EX) (proj1 (eof_again _ _ I1 C1))) as ->.
          rewrite app_nil_r in U.
          apply (fin_short _ _ x b1 b'); [exact A|exact C1|exact U|].
          rewrite FX, aft_comp by (now left). now rewrite app_nil_r.
  Qed.

  (** ** One call on the record's stream *)
  Definition sensible (n : option Z) : Prop := match n with Some k => 0 <= k | None => True end.

  (** what a call returns: the bytes taken, or the error of the digest comparison *)
  Definition ret (st : rstream rdr) (x : bytes) (r : res bytes) : Prop :=
    (okst st x -> r = Ok x) /\ (forall y, r = Ok y -> okst st x /\ y = x).

  Lemma dig_ret (d : digr rdr) x b r d' : lm_limit (dr_lim d) <> 0 -> upd d x b = (r, d') ->
    RSdig d' = aft (RSdig d) x b /\ ret (RSdig d) x r.
  Proof.
    intros Hl E. destruct x as [|c x].
    - pose proof (upd_nil d b Hl) as H. rewrite E in H. injection H as -> ->. split; [reflexivity|].
      split; [reflexivity|]. intros y [= <-]. split; [now left|reflexivity].
    - cbn [aft is_nil]. rewrite E. split; [reflexivity|]. cbn [okst]. split.
      + intros [Q|Q]; [discriminate|]. specialize (Q b). rewrite E in Q. exact Q.
      + intros y ->.
        assert (y = c :: x) as ->.
        { unfold upd, dig_update in E. cbn [lm_limit] in E.
          destruct (lm_limit (dr_lim d) - lenZ (c :: x) =? 0); [|injection E; congruence].
          destruct (check_one PBlockFailed _ _ _) as [[u|e] c1]; [|discriminate].
          destruct (check_one PPayloadFailed _ _ _) as [[u'|e] c2]; [|discriminate]. injection E; congruence. }
        split; [|reflexivity]. right. intros b'. rewrite (upd_fst d _ b' b), E. reflexivity.
  Qed.

  Section Op.
    Context (op : forall T, sops T -> option Z -> T -> res bytes * T).
    Context (opl : sops rdr -> option Z -> limr rdr -> res bytes * limr rdr).
    Hypothesis Hopl : forall ops n l, opl ops n l =
      (let k := lim_len n l in
       if k =? 0 then (Ok [], l)
       else match op rdr ops (Some k) (lm_stream l) with
            | (Ok b, s') => (Ok b, lim_update b s' l)
            | (Err e, s') => (Err e, mk_lim s' (lm_limit l) (lm_orig l))
            end).
    Hypothesis Hlim : forall ops, op (limr rdr) (lim_ops ops) = opl ops.
    Context (Q : option Z -> bytes -> rdr -> rdr -> Prop).
    Hypothesis Hbase : forall n b, Ia b -> sensible n ->
      exists x b', conv (fun f => op rdr (rops_f f) n b) (Ok x, b') /\ went b x n b' /\ Q n x b b'.

    Lemma lim_went n (l : limr rdr) : Ia (lm_stream l) -> 0 <= lm_limit l -> sensible n ->
      exists x b', conv (fun f => opl (rops_f f) n l) (Ok x, mk_lim b' (lm_limit l - lenZ x) (lm_orig l)) /\
        went (lm_stream l) x (Some (lm_limit l)) b' /\ went (lm_stream l) x (Some (lim_len n l)) b' /\
        (lim_len n l = 0 \/ Q (Some (lim_len n l)) x (lm_stream l) b').
    Proof.
      intros HI HL Hn. assert (Hk : 0 <= lim_len n l <= lm_limit l) by (destruct n; cbn [lim_len sensible] in *; lia).
      destruct (lim_len n l =? 0) eqn:E0.
      - exists [], (lm_stream l). split.
        + exists O. intros f _. rewrite Hopl. cbn zeta. rewrite E0, lenZ_nil, Z.sub_0_r. now destruct l.
        + assert (forall m, 0 <= m -> went (lm_stream l) [] (Some m) (lm_stream l)).
          { intros m Hm. exists (lm_stream l). split; [apply adv_nil|]. split; [exact Hm|now left]. }
          split; [now apply H|]. split; [apply H; lia|left; lia].
      - destruct (Hbase (Some (lim_len n l)) (lm_stream l) HI) as (x & b' & [N HN] & W & HQ); [cbn; lia|].
        exists x, b'. split.
        + exists N. intros f Hf. rewrite Hopl. cbn zeta. rewrite E0, HN by exact Hf. reflexivity.
        + split; [|split; [exact W|right; exact HQ]]. destruct W as (b1 & A & W & C). exists b1. split; [exact A|].
          cbn [within under] in *. split; [lia|]. destruct C as [C|[C1 C2]]; [now left|right]. split; [exact C1|lia].
    Qed.

    Definition rs_op (ops : sops rdr) (n : option Z) (st : rstream rdr) : res bytes * rstream rdr :=
      match st with
      | RSbase s => let (x, s') := op rdr ops n s in (x, RSbase s')
      | RSlim l => let (x, l') := opl ops n l in (x, RSlim l')
      | RSdig d => let (x, d') := dig_rd ops (fun o => op (limr rdr) o) n d in (x, RSdig d')
      end.

    Lemma rs_op_went n st : Is st -> sensible n ->
      exists x b' r, conv (fun f => rs_op (rops_f f) n st) (r, aft st x b') /\
        went (rs_base st) x (lim_of st) b' /\ ret st x r /\
        (lim_of st = Some 0 \/ n = Some 0 \/
         Q (match lim_of st with Some k => Some (match n with Some j => Z.min j k | None => k end) | None => n end)
           x (rs_base st) b').
    Proof.
      intros [HI HL] Hn. destruct st as [b|l|d]; cbn [rs_base lims lim_of rs_op] in *.
      - destruct (Hbase n b HI Hn) as (x & b' & [N HN] & (b1 & A & W & C) & HQ). exists x, b', (Ok x). split.
        + exists N. intros f Hf. now rewrite HN.
        + split; [|split; [split; [reflexivity|intros y [= <-]; now split]|right; right; exact HQ]].
          exists b1. split; [exact A|]. split; [exact Logic.I|]. destruct C as [C|[C1 C2]]; [now left|right; now split].
      - destruct (lim_went n l HI HL Hn) as (x & b' & [N HN] & W & _ & HQ). exists x, b', (Ok x). split.
        + exists N. intros f Hf. now rewrite HN.
        + split; [exact W|]. split; [split; [reflexivity|intros y [= <-]; now split]|].
          destruct HQ as [HQ|HQ]; [|right; right; exact HQ]. destruct n as [j|]; cbn [lim_len sensible] in *; [|left; f_equal; lia].
          destruct (Z.eq_dec j 0) as [->|]; [right; now left|left; f_equal; lia].
      - destruct HL as [HL HE]. unfold dig_rd. cbn zeta.
        assert (Hk : 0 <= lim_len n (dr_lim d) <= lm_limit (dr_lim d)) by (destruct n; cbn [lim_len sensible] in *; lia).
        destruct (lim_len n (dr_lim d) =? 0) eqn:E0.
        + exists [], (lm_stream (lm_stream (dr_lim d))), (Ok []). split.
          * exists O. intros f _. cbn [aft is_nil]. change (lm_stream (lm_stream (dr_lim d))) with (rs_base (RSdig d)).
            now rewrite set_base_same.
          * split; [eexists; split; [apply adv_nil|]; split; [exact HL|now left]|].
            split; [split; [reflexivity|intros y [= <-]; split; [now left|reflexivity]]|].
            destruct n as [j|]; cbn [lim_len sensible] in *; [|left; f_equal; lia].
            destruct (Z.eq_dec j 0) as [->|]; [right; now left|left; f_equal; lia].
        + destruct (lim_went (Some (lim_len n (dr_lim d))) (lm_stream (dr_lim d)) HI) as (x & b' & [N HN] & W & W2 & HQ);
            [lia|cbn; lia|].
          assert (El : lim_len (Some (lim_len n (dr_lim d))) (lm_stream (dr_lim d)) = lim_len n (dr_lim d)).
          { cbn [lim_len]. lia. }
          destruct (upd d x b') as [r d'] eqn:Eu.
          destruct (dig_ret d x b' r d' ltac:(lia) Eu) as [Ea Er].
          exists x, b', r. split.
          * exists N. intros f Hf. rewrite Hlim, HN by exact Hf. rewrite <- Ea. unfold lim_update.
            unfold upd in Eu. cbn zeta in Eu. rewrite Eu. reflexivity.
          * split; [rewrite <- HE; exact W|]. split; [exact Er|]. right. right.
            rewrite El in HQ. destruct HQ as [HQ|HQ]; [lia|]. exact HQ.
    Qed.
  End Op.

  Definition exactly (n : option Z) (x : bytes) (b b' : rdr) : Prop :=
    exists b1, adv b x b1 /\ ((b' = b1 /\ n = Some (lenZ x)) \/ (eofP b1 b' /\ under x n)).

  Lemma read_base n (b : rdr) : Ia b -> sensible n ->
    exists x b', conv (fun f => o_read (@rops_f zl f) n b) (Ok x, b') /\ went b x n b' /\ exactly n x b b'.
  Proof.
    intros HI Hn. destruct (rops_read_went n b HI) as (x & b' & C & b1 & A & W1 & W2). exists x, b'.
    split; [exact C|]. split.
    - exists b1. split; [exact A|]. destruct n as [k|]; cbn [sensible within under] in *.
      + split; [lia|]. destruct W2 as [[-> _]|W2]; [now left|now right].
      + split; [exact Logic.I|]. destruct W2 as [[-> _]|W2]; [now left|now right].
    - exists b1. split; [exact A|]. destruct W2 as [(-> & k & -> & Hk)|[W2 W3]].
      + left. split; [reflexivity|]. cbn [sensible] in Hn. f_equal. lia.
      + right. split; [exact W2|exact W3].
  Qed.

  Lemma rs_read_went n st : Is st -> sensible n ->
    exists x b' r, conv (fun f => rs_read (@rops zl f) n st) (r, aft st x b') /\
      went (rs_base st) x (lim_of st) b' /\ ret st x r /\
      (x = [] -> n <> Some 0 -> lim_of st = Some 0 \/ eofP (rs_base st) b') /\
      (n = None -> exists b1, adv (rs_base st) x b1 /\
        (lim_of st = Some (lenZ x) \/ (under x (lim_of st) /\ eofP b1 b'))).
  Proof.
    intros HI Hn.
    destruct (rs_op_went (@o_read) (@lim_read rdr) ltac:(reflexivity) ltac:(reflexivity)
                exactly read_base n st HI Hn)
      as (x & b' & r & C & W & R & H).
    exists x, b', r. split; [|split; [exact W|split; [exact R|split]]].
    - destruct C as [N HN]. exists N. intros f Hf. specialize (HN f Hf). unfold rops_f in HN.
      rewrite <- HN. destruct st; reflexivity.
    - intros -> Hz. destruct H as [H|[H|(b1 & A & H)]]; [now left|contradiction|].
      inversion A; subst. destruct H as [[_ H]|[H _]]; [|now right]. rewrite lenZ_nil in H.
      destruct (lim_of st) as [k|] eqn:Ek; [|contradiction]. left. f_equal.
      injection H as H. destruct n as [j|]; [|exact H]. destruct HI as [_ HL].
      assert (0 <= k) by (destruct st; cbn [lims lim_of] in *; [discriminate| |]; injection Ek as <-; lia).
      cbn [sensible] in Hn. assert (j <> 0) by congruence. lia.
    - intros ->. destruct H as [H|[H|(b1 & A & H)]]; [|discriminate|].
      + destruct W as (b1 & A & W & _). exists b1. split; [exact A|]. left. rewrite H in *. cbn [within] in W.
        f_equal. pose proof (lenZ_nonneg x). lia.
      + exists b1. split; [exact A|]. destruct (lim_of st) as [k|] eqn:Ek; cbn [under].
        * destruct H as [[_ H]|[H1 H2]]; [now left|right]. now split.
        * destruct H as [[_ H]|[H1 H2]]; [discriminate|right]. now split.
  Qed.

  Lemma rs_line_went n st : Is st -> sensible n ->
    exists x b' r, conv (fun f => rs_readline (@rops zl f) n st) (r, aft st x b') /\
      went (rs_base st) x (lim_of st) b' /\ ret st x r.
  Proof.
    intros HI Hn.
    assert (B : forall n b, Ia b -> sensible n ->
      exists x b', conv (fun f => o_readline (@rops_f zl f) n b) (Ok x, b') /\ went b x n b' /\ True).
    { intros m b Hb Hm. destruct (rops_line_went m b Hb Hm) as (x & b' & C & W). exists x, b'. now repeat split. }
    destruct (rs_op_went (@o_readline) (@lim_readline rdr) ltac:(reflexivity) ltac:(reflexivity)
                (fun n x b b' => True) B n st HI Hn)
      as (x & b' & r & C & W & R & _).
    exists x, b', r. split; [|split; [exact W|exact R]].
    destruct C as [N HN]. exists N. intros f Hf. specialize (HN f Hf). unfold rops_f in HN.
    rewrite <- HN. destruct st; reflexivity.
  Qed.

  (** ** Draining *)
  Lemma drain_tot st : Is st ->
    (exists F, fin st F /\ Is F /\ conv2 (fun n f => @drain zl f n st) (Ok tt, F)) \/
    (exists e st', conv2 (fun n f => @drain zl f n st) (Err e, st') /\ forall F, ~ fin st F).
  Proof.
    remember (mr (rs_base st)) as k eqn:Hk. revert st Hk.
    induction k as [k IH] using (well_founded_induction mlt_wf). intros st Hk HI. subst k.
    destruct (rs_read_went (Some BUFF_SIZE) st HI) as (x & b' & r & [N HN] & W & [R1 R2] & H & _); [cbn; unfold BUFF_SIZE; lia|].
    assert (Hs : forall n f, (N <= f)%nat -> @drain zl f (Datatypes.S n) st =
      match r with
      | Err e => (Err e, aft st x b')
      | Ok [] => (Ok tt, aft st x b')
      | Ok _ => @drain zl f n (aft st x b')
      end).
    { intros n f Hf. cbn [drain]. rewrite HN by exact Hf. destruct r as [[|? ?]|?]; reflexivity. }
    destruct r as [y|e].
    2:{ right. exists e, (aft st x b'). split.
        - exists (Datatypes.S N). intros [|n] f Hn Hf; [lia|]. apply Hs. lia.
        - intros F HF. assert (O : okst st x); [|specialize (R1 O); discriminate].
          destruct W as (b1 & A & W & _). destruct HF as [X bX AX LX OX EX|X be bX AX EX UX FX].
          + rewrite LX in W. cbn [within] in W. destruct (adv_det _ _ _ _ _ A AX W) as (z & -> & _).
            destruct z as [|c z]; [now rewrite app_nil_r in OX|]. apply okst_under. rewrite LX. cbn [under].
            rewrite lenZ_app, lenZ_cons. pose proof (lenZ_nonneg z). lia.
          + apply okst_under. destruct (lim_of st) as [j|] eqn:Ej; [|exact Logic.I]. cbn [under] in *.
            destruct (Z_le_gt_dec (lenZ x) (lenZ X)) as [Q|Q]; [lia|].
            destruct (adv_det _ _ _ _ _ AX A ltac:(lia)) as (z & -> & Az).
            destruct (eof_adv _ _ _ _ EX Az) as [-> _]. rewrite app_nil_r in *. lia. }
    destruct (R2 y eq_refl) as [O ->].
    pose proof (went_Is _ _ _ HI W) as I1.
    destruct x as [|c x].
    { left. exists (aft st [] b'). split; [|split; [exact I1|exists (Datatypes.S N); intros [|n] f Hn Hf; [lia|]; apply Hs; lia]].
      destruct (H eq_refl ltac:(discriminate)) as [L|E].
      - apply (fin_full _ _ [] b'); [|exact L|exact O|reflexivity].
        destruct W as (b1 & A & _ & C). inversion A; subst. destruct C as [->|[_ U]]; [apply adv_nil|].
        rewrite L in U. cbn [under] in U. rewrite lenZ_nil in U. lia.
      - destruct W as (b1 & A & W' & C). inversion A; subst.
        destruct (lim_of st) as [j|] eqn:Ej.
        + destruct (Z.eq_dec j 0) as [->|Hj].
          * apply (fin_full _ _ [] b'); [|exact Ej|exact O|reflexivity].
            destruct C as [->|[_ U]]; [apply adv_nil|]. cbn [under] in U. rewrite lenZ_nil in U. lia.
          * apply (fin_short _ _ [] (rs_base st) b'); [apply adv_nil|exact E| |reflexivity]. rewrite Ej. cbn [under within] in *.
            rewrite lenZ_nil in *. lia.
        + apply (fin_short _ _ [] (rs_base st) b'); [apply adv_nil|exact E| |reflexivity]. now rewrite Ej. }
    assert (Hlt : mlt (mr (rs_base (aft st (c :: x) b'))) (mr (rs_base st))).
    { rewrite aft_base. apply (went_mr _ _ _ _ (proj1 HI) W). discriminate. }
    destruct (IH _ Hlt (aft st (c :: x) b') eq_refl I1) as [(F & HF & HF2 & [M HM])|(e & st' & [M HM] & HF)].
    - left. exists F. split; [now apply (fin_step st (c :: x) b' F HI W O)|]. split; [exact HF2|].
      exists (Datatypes.S (Nat.max N M)). intros [|n] f Hn Hf; [lia|]. rewrite Hs by lia. apply HM; lia.
    - right. exists e, st'. split.
      + exists (Datatypes.S (Nat.max N M)). intros [|n] f Hn Hf; [lia|]. rewrite Hs by lia. apply HM; lia.
      + intros F HF'. apply (HF F). now apply (fin_step st (c :: x) b' F HI W O).
  Qed.
End Stream.
