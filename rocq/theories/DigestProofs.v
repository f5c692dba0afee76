(** * DigestProofs: DigestVerifyingReader *)
From Coq Require Import String List ZArith NArith Bool Lia.
From Coq Require Import ZifyBool ZifyNat ZifyN.
From Verif Require Import PyBase Codecs Facts Streams StreamSpec StreamProofs CallProofs CodecProofs DigestSpec.
Import ListNotations.
Open Scope Z_scope.

(** ** comparing one digest *)
Lemma split1_digest d algo value : is_digest d algo value -> split1 58%N d = Some (algo, value).
Proof.
  intros [-> Hn]. revert Hn. induction algo as [|c t IH]; intros Hn; cbn [app split1].
  - reflexivity.
  - destruct (N.eqb c 58) eqn:E; [exfalso; apply Hn; left; lia|]. rewrite IH; [reflexivity|]. intros H. apply Hn. now right.
Qed.
Lemma split1_nocolon d : ~ In 58%N d -> split1 58%N d = None.
Proof.
  induction d as [|c t IH]; intros Hn; cbn [split1]; [reflexivity|].
  destruct (N.eqb c 58) eqn:E; [exfalso; apply Hn; left; lia|]. rewrite IH; [reflexivity|]. intros H. apply Hn. now right.
Qed.
Lemma is_digest_ne a v : is_digest [] a v -> False.
Proof. intros [E _]. destruct a; discriminate. Qed.

Lemma lower_len (v : str) : lenZ (lower v) = lenZ v.
Proof. unfold lower, lenZ. now rewrite map_length. Qed.

Lemma to_b32_ok h v n : (16 <= n)%nat -> List.length h = n -> bytes_ok h -> encodes h v ->
  forall len, len = 8 * ((Z.of_nat n + 4) / 5) -> to_b32 len v = Ok (b32encode h).
Proof.
  intros Hn Hl Hb He len ->. unfold to_b32. destruct He as [->|[[H17 E]|[url ->]]].
  - unfold lenZ. rewrite b32encode_len, Hl, Z.eqb_refl. reflexivity.
  - assert (lenZ v = 2 * Z.of_nat n) as Ev. { rewrite <- lower_len, E. unfold lenZ. rewrite b16encode_len, Hl. lia. }
    rewrite Ev. replace (2 * Z.of_nat n =? 8 * ((Z.of_nat n + 4) / 5)) with false by (symmetry; HeaderProofs.divmod).
    replace (8 * ((Z.of_nat n + 4) / 5) <? 2 * Z.of_nat n) with true by (symmetry; HeaderProofs.divmod).
    now rewrite (b16_wrapper_ok h v Hb E).
  - unfold lenZ. rewrite b64encode_len, Hl.
    assert (4 * ((Z.of_nat n + 2) / 3) < 8 * ((Z.of_nat n + 4) / 5)) by HeaderProofs.divmod.
    replace (4 * ((Z.of_nat n + 2) / 3) =? 8 * ((Z.of_nat n + 4) / 5)) with false by lia.
    replace (8 * ((Z.of_nat n + 4) / 5) <? 4 * ((Z.of_nat n + 2) / 3)) with false by lia.
    now rewrite (b64_wrapper_ok url h Hb).
Qed.

Lemma compare_ok name f acc d algo value h : hash_ok f -> is_digest d algo value -> encodes h value ->
  List.length h = List.length (f acc) -> bytes_ok h ->
  compare_digest (Some (mk_dgst name f acc)) (Some d) = Ok (Some (leqb h (f acc))).
Proof.
  intros (n & Hn & Hf) Hd He Hl Hb. unfold compare_digest. destruct d as [|x t]; [now apply is_digest_ne in Hd|].
  unfold parse_digest. rewrite (split1_digest _ _ _ Hd).
  destruct (Hf acc) as [Hlf Hbf]. rewrite Hlf in Hl.
  unfold dgst_b32. cbn [dg_fun dg_acc].
  rewrite (to_b32_ok h value n Hn Hl Hb He) by (unfold lenZ; now rewrite b32encode_len, Hlf).
  f_equal. f_equal. destruct (leqb h (f acc)) eqn:E.
  - apply leqb_eq in E. rewrite E. apply leqb_refl.
  - apply not_true_is_false. intros E'. apply leqb_eq in E'.
    symmetry in E'. apply b32encode_inj in E'; [|assumption|assumption|congruence]. subst h. rewrite leqb_refl in E. discriminate.
Qed.

(** the two ways in which a digest header acts: at construction and at the end *)
Inductive acts (he : henv) (data : bytes) (d : option str) : verdict -> Prop :=
| A_none : (d = None \/ d = Some []) -> acts he data d VNone
| A_early : (forall p c, mk_digester he p d c = match chk_problem p c with (Ok _, c') => (Ok None, c') | (Err e, c') => (Err e, c') end) -> acts he data d VBad
| A_late name f b : (forall p c, mk_digester he p d c = (Ok (Some (mk_dgst name f [])), c)) ->
    compare_digest (Some (mk_dgst name f data)) d = Ok (Some b) -> acts he data d (if b then VGood else VBad).

Lemma judged_acts he data d v : henv_ok he -> judged he data d v -> acts he data d v.
Proof.
  intros Hhe H. destruct H as [| |d Hd Hn|d algo value Hd Hu|d algo value f Hd Hf He|d algo value f h Hd Hf He Hl Hb Hne].
  - constructor; auto.
  - constructor; auto.
  - apply A_early. intros p c. destruct d as [|x t]; [congruence|]. unfold mk_digester, parse_digest. now rewrite split1_nocolon.
  - apply A_early. intros p c. destruct d as [|x t]; [now apply is_digest_ne in Hd|]. unfold mk_digester, parse_digest.
    rewrite (split1_digest _ _ _ Hd). unfold dgst_new. now rewrite Hu.
  - apply (A_late he data (Some d) algo f true).
    + intros p c. destruct d as [|x t]; [now apply is_digest_ne in Hd|]. unfold mk_digester, parse_digest.
      rewrite (split1_digest _ _ _ Hd). unfold dgst_new. now rewrite Hf.
    + pose proof (Hhe _ _ Hf) as Hok. pose proof Hok as (n & Hn & Hx).
      rewrite (compare_ok algo f data d algo value (f data) Hok Hd He eq_refl); [|apply Hx]. now rewrite leqb_refl.
  - apply (A_late he data (Some d) algo f false).
    + intros p c. destruct d as [|x t]; [now apply is_digest_ne in Hd|]. unfold mk_digester, parse_digest.
      rewrite (split1_digest _ _ _ Hd). unfold dgst_new. now rewrite Hf.
    + pose proof (Hhe _ _ Hf) as Hok.
      rewrite (compare_ok algo f data d algo value h Hok Hd He Hl); [|exact Hb].
      destruct (leqb h (f data)) eqn:E; [apply leqb_eq in E; congruence|reflexivity].
Qed.

(** ** one call *)
Section Rd.
  Context {S : Type} (ops : sops S) (R : S -> bytes -> Prop) (tail : bytes).
  Hypothesis HD : delivers ops R.
  Hypothesis HL : line_prefix ops R.

  Definition DRl (l : limr (limr S)) (rest : bytes) : Prop :=
    lim_R R tail (lm_stream l) rest /\ lm_limit l = lm_limit (lm_stream l).

  Lemma dig_step k d rest : DRl (dr_lim d) rest -> nonneg (call_arg k) ->
    do_call (dig_ops ops) k d = (Ok [], d)
    \/ exists out rest' l', rest = out ++ rest' /\ do_call (dig_ops ops) k d = dig_update out l' d
       /\ DRl l' rest' /\ lm_limit l' = lm_limit (dr_lim d) - lenZ out /\ lm_limit (dr_lim d) <> 0.
  Proof.
    intros [HR Hlim] Hk. pose proof HR as (_ & Hle & _). pose proof (lenZ_nonneg rest) as H0.
    assert (Hn : 0 <= lim_len (call_arg k) (dr_lim d) <= lm_limit (dr_lim d)).
    { unfold lim_len. destruct (call_arg k); cbn in Hk; lia. }
    set (n := lim_len (call_arg k) (dr_lim d)) in *.
    destruct (Z.eq_dec n 0) as [E0|E0].
    { left. destruct k as [m|m]; cbn [do_call dig_ops o_read o_readline call_arg] in *; unfold dig_read, dig_readline, dig_rd; fold n; now rewrite E0. }
    right. assert (Hin : lim_len (Some n) (lm_stream (dr_lim d)) = n) by (unfold lim_len; lia).
    destruct k as [m|m]; cbn [do_call dig_ops o_read o_readline call_arg] in *; unfold dig_read, dig_readline, dig_rd; fold n.
    - destruct (lim_delivers ops R tail HD _ rest n HR ltac:(lia)) as (out & rest' & s' & E & HR' & -> & Hl & Hnil).
      cbn [lim_ops o_read] in E. replace (n =? 0) with false by lia. cbn [lim_ops o_read]. rewrite E.
      exists out, rest', (lim_update out s' (dr_lim d)). split; [reflexivity|]. split; [reflexivity|].
      unfold DRl, lim_update. cbn [lm_stream lm_limit]. repeat split; try (exact HR' || apply HR'); try lia.
      unfold lim_read in E. rewrite Hin in E. replace (n =? 0) with false in E by lia.
      destruct (o_read ops (Some n) (lm_stream (lm_stream (dr_lim d)))) as [[b|e] s1]; [|discriminate].
      injection E as <- <-. unfold lim_update. cbn [lm_limit]. lia.
    - destruct (lim_line_prefix ops R tail HL _ rest n HR ltac:(lia)) as (out & rest' & s' & E & HR' & -> & Hl & Hnil & _).
      cbn [lim_ops o_readline] in E. replace (n =? 0) with false by lia. cbn [lim_ops o_readline]. rewrite E.
      exists out, rest', (lim_update out s' (dr_lim d)). split; [reflexivity|]. split; [reflexivity|].
      unfold DRl, lim_update. cbn [lm_stream lm_limit]. repeat split; try (exact HR' || apply HR'); try lia.
      unfold lim_readline in E. rewrite Hin in E. replace (n =? 0) with false in E by lia.
      destruct (o_readline ops (Some n) (lm_stream (lm_stream (dr_lim d)))) as [[b|e] s1]; [|discriminate].
      injection E as <- <-. unfold lim_update. cbn [lm_limit]. lia.
  Qed.

  (** ** runs without errors.  [c] is the content, [L] the limit *)
  Context (c : bytes) (pd bd : option str) (P0 B0 : option dgst) (c0 cB : checker) (cP : bytes -> checker) (bb : bool) (bp : bytes -> bool).
  Definition upd (a : bytes) (g : option dgst) : option dgst := option_map (dgst_update a) g.
  Lemma upd_app a b g : upd b (upd a g) = upd (a ++ b) g.
  Proof. destruct g; [|reflexivity]. cbn. unfold dgst_update. cbn. now rewrite app_assoc. Qed.
  Lemma upd_nil g : upd [] g = g.
  Proof. destruct g as [[n f a]|]; [|reflexivity]. cbn. unfold dgst_update. cbn. now rewrite app_nil_r. Qed.

  Hypothesis HB : check_one PBlockFailed (upd c B0) bd c0 = (Ok bb, cB).
  Hypothesis HBP : forall p, check_one PPayloadFailed (upd p P0) pd cB = (Ok (bp p), cP p).

  Definition J1 (d : digr S) (a : bytes) : Prop :=
    dr_pdig d = pd /\ dr_bdig d = bd /\ dr_bobj d = upd a B0 /\ dr_pobj d = P0 /\ dr_pon d = false
    /\ dr_chk d = if lm_limit (dr_lim d) =? 0 then cB else c0.
  Definition J2 (d : digr S) (a p : bytes) : Prop :=
    (lm_limit (dr_lim d) <> 0 ->
     dr_pdig d = pd /\ dr_bdig d = bd /\ dr_bobj d = upd a B0 /\ dr_pobj d = upd p P0 /\ dr_pon d = true /\ dr_chk d = c0)
    /\ (lm_limit (dr_lim d) = 0 -> dr_chk d = cP p).

  Lemma DRl_0 l rest : DRl l rest -> lm_limit l = 0 -> rest = [].
  Proof. intros [H1 H2] E. apply (lim_R_limit0 R tail _ _ H1). congruence. Qed.

  Lemma J1_call k d a rest : c = a ++ rest -> DRl (dr_lim d) rest -> J1 d a -> nonneg (call_arg k) ->
    exists out rest' d', do_call (dig_ops ops) k d = (Ok out, d') /\ rest = out ++ rest' /\ DRl (dr_lim d') rest'
      /\ J1 d' (a ++ out) /\ lm_limit (dr_lim d') = lm_limit (dr_lim d) - lenZ out.
  Proof.
    intros Ec HR HJ Hk. destruct (dig_step k d rest HR Hk) as [E|(out & rest' & l' & Er & E & HR' & El & Hne)].
    { exists [], rest, d. rewrite app_nil_r, E. rewrite lenZ_nil. repeat (split; [solve [auto; apply HR]|]). lia. }
    destruct HJ as (J_1 & J_2 & J_3 & J_4 & J_5 & J_6).
    unfold dig_update in E. rewrite J_1, J_2, J_3, J_4, J_5, J_6 in E.
    replace (lm_limit (dr_lim d) =? 0) with false in E by lia. change (option_map (dgst_update out)) with (upd out) in E.
    cbn [dr_bobj dr_bdig dr_chk dr_pdig dr_pobj dr_pon dr_pdigester] in E. rewrite upd_app in E.
    destruct (lm_limit l' =? 0) eqn:E0.
    - assert (rest' = []) as -> by (apply (DRl_0 l'); [assumption|lia]). rewrite app_nil_r in Er. subst out.
      rewrite <- Ec, HB in E. unfold dr_pdigester in E. cbn [dr_pon] in E.
      cbn [check_one compare_digest] in E. unfold check_one, compare_digest in E.
      exists rest, [], (dr_set_chk cB (mk_dig l' c0 pd bd P0 false (upd c B0))).
      split; [exact E|]. split; [now rewrite app_nil_r|]. split; [exact HR'|]. split; [|exact El].
      unfold J1, dr_set_chk. cbn. rewrite E0, <- Ec. auto 10.
    - exists out, rest', (mk_dig l' c0 pd bd P0 false (upd (a ++ out) B0)).
      split; [exact E|]. split; [exact Er|]. split; [exact HR'|]. split; [|exact El].
      unfold J1. cbn. rewrite E0. auto 10.
  Qed.

  Lemma J2_call k d a p rest : c = a ++ rest -> DRl (dr_lim d) rest -> J2 d a p -> nonneg (call_arg k) ->
    exists out rest' d', do_call (dig_ops ops) k d = (Ok out, d') /\ rest = out ++ rest' /\ DRl (dr_lim d') rest'
      /\ J2 d' (a ++ out) (p ++ out) /\ lm_limit (dr_lim d') = lm_limit (dr_lim d) - lenZ out.
  Proof.
    intros Ec HR HJ Hk. destruct (dig_step k d rest HR Hk) as [E|(out & rest' & l' & Er & E & HR' & El & Hne)].
    { exists [], rest, d. rewrite !app_nil_r, E. rewrite lenZ_nil. repeat (split; [solve [auto; apply HR]|]). lia. }
    destruct HJ as [HJ _]. destruct (HJ Hne) as (J_1 & J_2 & J_3 & J_4 & J_5 & J_6).
    unfold dig_update in E. rewrite J_1, J_2, J_3, J_4, J_5, J_6 in E.
    change (option_map (dgst_update out)) with (upd out) in E.
    cbn [dr_bobj dr_bdig dr_chk dr_pdig dr_pobj dr_pon dr_pdigester] in E. rewrite !upd_app in E.
    destruct (lm_limit l' =? 0) eqn:E0.
    - assert (rest' = []) as -> by (apply (DRl_0 l'); [assumption|lia]). rewrite app_nil_r in Er. subst out.
      rewrite <- Ec, HB in E. unfold dr_pdigester in E. cbn [dr_pon dr_pobj] in E. rewrite HBP in E.
      eexists rest, [], _. split; [exact E|]. split; [now rewrite app_nil_r|]. split; [exact HR'|]. split; [|exact El].
      unfold J2, dr_set_chk. cbn. split; [lia|reflexivity].
    - eexists out, rest', _. split; [exact E|]. split; [exact Er|]. split; [exact HR'|]. split; [|exact El].
      unfold J2. cbn. split; [auto 10|lia].
  Qed.

  Lemma all_ok_cons b t r : all_ok t = Ok r -> all_ok (Ok b :: t) = Ok (b ++ r).
  Proof. intros E. cbn. now rewrite E. Qed.

  Lemma J1_run cs : nonneg_calls cs -> forall d a rest, c = a ++ rest -> DRl (dr_lim d) rest -> J1 d a ->
    exists out rest' d' rs, run_calls (dig_ops ops) cs d = (rs, d') /\ all_ok rs = Ok out /\ rest = out ++ rest' /\ DRl (dr_lim d') rest'
      /\ J1 d' (a ++ out) /\ lm_limit (dr_lim d') = lm_limit (dr_lim d) - lenZ out.
  Proof.
    intros Hcs. induction Hcs as [|k cs Hk _ IH]; intros d a rest Ec HR HJ.
    - exists [], rest, d, []. rewrite app_nil_r, lenZ_nil. cbn. repeat (split; [solve [auto; apply HR]|]). lia.
    - destruct (J1_call k d a rest Ec HR HJ Hk) as (o1 & r1 & d1 & E1 & -> & HR1 & HJ1 & El1).
      destruct (IH d1 (a ++ o1) r1) as (o2 & r2 & d2 & rs & E2 & Ea & -> & HR2 & HJ2 & El2); [now rewrite <- app_assoc|assumption|assumption|].
      cbn [run_calls]. rewrite E1, E2. exists (o1 ++ o2), r2, d2, (Ok o1 :: rs). split; [reflexivity|]. split; [now apply all_ok_cons|].
      split; [now rewrite app_assoc|]. split; [assumption|]. rewrite app_assoc. split; [assumption|]. rewrite lenZ_app. lia.
  Qed.
  Lemma J2_run cs : nonneg_calls cs -> forall d a p rest, c = a ++ rest -> DRl (dr_lim d) rest -> J2 d a p ->
    exists out rest' d' rs, run_calls (dig_ops ops) cs d = (rs, d') /\ all_ok rs = Ok out /\ rest = out ++ rest' /\ DRl (dr_lim d') rest'
      /\ J2 d' (a ++ out) (p ++ out) /\ lm_limit (dr_lim d') = lm_limit (dr_lim d) - lenZ out.
  Proof.
    intros Hcs. induction Hcs as [|k cs Hk _ IH]; intros d a p rest Ec HR HJ.
    - exists [], rest, d, []. rewrite !app_nil_r, lenZ_nil. cbn. repeat (split; [solve [auto; apply HR]|]). lia.
    - destruct (J2_call k d a p rest Ec HR HJ Hk) as (o1 & r1 & d1 & E1 & -> & HR1 & HJ1 & El1).
      destruct (IH d1 (a ++ o1) (p ++ o1) r1) as (o2 & r2 & d2 & rs & E2 & Ea & -> & HR2 & HJ2 & El2); [now rewrite <- app_assoc|assumption|assumption|].
      cbn [run_calls]. rewrite E1, E2. exists (o1 ++ o2), r2, d2, (Ok o1 :: rs). split; [reflexivity|]. split; [now apply all_ok_cons|].
      split; [now rewrite app_assoc|]. split; [assumption|]. rewrite !app_assoc. split; [assumption|]. rewrite lenZ_app. lia.
  Qed.

  Lemma begin_ok d a rest : DRl (dr_lim d) rest -> J1 d a ->
    exists d', begin_payload d = (Ok tt, d') /\ dr_lim d' = dr_lim d /\ J2 d' a [].
  Proof.
    intros HR (J_1 & J_2 & J_3 & J_4 & J_5 & J_6). unfold begin_payload. cbn [dr_set_pon dr_lim dr_pobj dr_pdig dr_chk].
    destruct (lm_limit (dr_lim d) =? 0) eqn:E0.
    - rewrite J_1, J_4, J_6. pose proof (HBP []) as H. rewrite upd_nil in H. rewrite H. destruct (bp []).
      + eexists. split; [reflexivity|]. split; [reflexivity|]. unfold J2. cbn. split; [lia|reflexivity].
      + eexists. split; [reflexivity|]. split; [reflexivity|]. unfold J2. cbn. split; [lia|reflexivity].
    - eexists. split; [reflexivity|]. split; [reflexivity|]. unfold J2. cbn. rewrite upd_nil. split; [auto 10|lia].
  Qed.
End Rd.

(** ** verdicts *)
Definition join (x : option bool) (v : verdict) : option bool :=
  match v with
  | VBad => Some false
  | VGood => match x with Some false => Some false | _ => Some true end
  | VNone => x
  end.

Lemma problem_ok p ck : dc_kind ck <> KRaise ->
  exists ck', chk_problem p ck = (Ok tt, ck') /\ dc_passed ck' = Some false /\ dc_kind ck' = dc_kind ck.
Proof. intros H. unfold chk_problem. destruct (dc_kind ck) eqn:E; try congruence; eexists; cbn; auto. Qed.

Lemma digester_acts he p d c : henv_ok he -> dc_kind c <> KRaise -> judgeable he d ->
  exists g c' (early : bool), mk_digester he p d c = (Ok g, c') /\ dc_kind c' = dc_kind c
  /\ dc_passed c' = (if early then Some false else dc_passed c)
  /\ forall data v, judged he data d v ->
     (early = true -> v = VBad)
     /\ forall q ck, dc_kind ck <> KRaise -> exists b ck', check_one q (upd data g) d ck = (Ok b, ck') /\ dc_kind ck' = dc_kind ck
        /\ dc_passed ck' = if early then dc_passed ck else join (dc_passed ck) v.
Proof.
  intros Hhe Hk Hj. destruct (Hj []) as (v0 & H0). apply (judged_acts _ _ _ _ Hhe) in H0.
  destruct H0 as [Hd|He|name f b He Hc].
  - exists None, c, false. split; [unfold mk_digester; destruct Hd as [->| ->]; reflexivity|]. repeat split; auto; [discriminate|].
    intros q ck Hq. exists false, ck. split; [unfold check_one, compare_digest; destruct Hd as [->| ->]; reflexivity|].
    split; [reflexivity|]. apply (judged_acts _ _ _ _ Hhe) in H. destruct H as [Hd'|He'|name' f' b' He' Hc'].
    + reflexivity.
    + exfalso. destruct Hd as [->| ->]; specialize (He' p c); unfold mk_digester in He';
        destruct (problem_ok p c Hk) as (c' & E & Ep & _); rewrite E in He'; injection He' as <-;
        specialize (Hj data) as _; 
        (destruct (problem_ok p (mk_chk [] None (dc_kind c)) Hk) as (c2 & E2 & Ep2 & _)); cbn in E2; unfold chk_problem in E; 
        apply (f_equal (fun x => List.length (dc_problems (snd x)))) in E; cbn in E; rewrite app_length in E || idtac;
        destruct (dc_kind c); cbn in E; try rewrite app_length in E; cbn in E; lia.
    + exfalso. destruct Hd as [->| ->]; specialize (He' p c); discriminate He'.
  - destruct (problem_ok p c Hk) as (c' & E & Ep & Ek). exists None, c', true. rewrite He, E. repeat split; auto.
    + intros _. apply (judged_acts _ _ _ _ Hhe) in H. destruct H as [Hd'|He'|name' f' b' He' Hc']; [|reflexivity|].
      * exfalso. specialize (He p c). rewrite E in He. destruct Hd' as [->| ->]; cbn in He; injection He as <-;
        unfold chk_problem in E; apply (f_equal (fun x => List.length (dc_problems (snd x)))) in E;
        destruct (dc_kind c); cbn in E; try rewrite app_length in E; cbn in E; lia.
      * exfalso. specialize (He p c). rewrite E, He' in He. discriminate.
    + intros q ck Hq. exists false, ck. cbn. repeat split; auto.
  - exists (Some (mk_dgst name f [])), c, false. rewrite He. repeat split; auto; [discriminate|].
    intros q ck Hq. apply (judged_acts _ _ _ _ Hhe) in H. destruct H as [Hd'|He'|name' f' b' He' Hc'].
    + exfalso. specialize (He p c). destruct Hd' as [->| ->]; discriminate He.
    + exfalso. specialize (He' p c). rewrite He in He'. destruct (problem_ok p c Hk) as (c' & E & _). rewrite E in He'. discriminate.
    + pose proof (He p c) as E1. rewrite He' in E1. injection E1 as -> ->. cbn [upd option_map]. unfold dgst_update. cbn [dg_name dg_fun dg_acc app].
      unfold check_one. rewrite Hc'. destruct b'.
      * exists false, (chk_pass ck). split; [reflexivity|]. unfold chk_pass. destruct (dc_passed ck) as [[|]|] eqn:Ep; cbn; rewrite ?Ep; auto.
      * destruct (problem_ok q ck Hq) as (ck' & E & Ep & Ek). rewrite E. exists true, ck'. cbn. auto.
Qed.

Theorem session_main {S} (ops : sops S) R (HD : delivers ops R) (HL : line_prefix ops R) he k rt pd bd seg s c tail L cs1 cs2 :
  henv_ok he -> k <> KRaise -> judgeable he (eff_block rt bd) -> judgeable he (eff_payload rt seg pd) ->
  R s (c ++ tail) -> 0 < L -> lenZ c <= L -> (tail <> [] -> L = lenZ c) -> nonneg_calls cs1 -> nonneg_calls cs2 ->
  exists h p rest chk, session ops he k rt pd bd seg s L cs1 cs2 = Finished h p chk /\ c = h ++ p ++ rest
    /\ forall vb vp, judged he c (eff_block rt bd) vb -> judged he p (eff_payload rt seg pd) vp ->
       (lenZ (h ++ p) = L -> dc_passed chk = combine vb vp) /\ (lenZ (h ++ p) <> L -> dc_passed chk <> Some true).
Proof.
  intros Hhe Hk Hjb Hjp HR HL0 HcL Htl Hc1 Hc2.
  destruct (digester_acts he PUnknownBlock (eff_block rt bd) (chk_new k) Hhe Hk Hjb) as (B0 & c1 & eb & Eb & Kb & Pb & Ab).
  destruct (digester_acts he PUnknownPayload (eff_payload rt seg pd) c1 Hhe ltac:(rewrite Kb; exact Hk) Hjp) as (P0 & c2 & ep & Ep & Kp & Pp & Ap).
  assert (En : dig_new he (lim_new s L) L (chk_new k) rt pd bd seg
     = Ok (mk_dig (lim_new (lim_new s L) L) c2 (eff_payload rt seg pd) (eff_block rt bd) P0 false B0)).
  { assert (Ebd : (if match rt with Some t => leqb t (lit "revisit") | None => false end then None else bd) = eff_block rt bd)
      by (unfold eff_block; destruct rt; [destruct (leqb _ _)|]; reflexivity).
    assert (Epd : (match seg with Some _ => None | None => if match rt with Some t => leqb t (lit "revisit") | None => false end then None else pd end) = eff_payload rt seg pd)
      by (unfold eff_payload, eff_block; destruct seg; [reflexivity|]; destruct rt; [destruct (leqb _ _)|]; reflexivity).
    unfold dig_new. cbv zeta. rewrite Ebd, Epd, Eb, Ep. reflexivity. }
  destruct (Hjb c) as (vb & Jb). destruct (Ab _ _ Jb) as [Veb Cb].
  destruct (Cb PBlockFailed c2 ltac:(rewrite Kp, Kb; exact Hk)) as (bb & cB & EB & KB & PB).
  set (bp := fun p => match fst (check_one PPayloadFailed (upd p P0) (eff_payload rt seg pd) cB) with Ok b => b | _ => false end).
  set (cP := fun p => snd (check_one PPayloadFailed (upd p P0) (eff_payload rt seg pd) cB)).
  assert (HBP : forall p, check_one PPayloadFailed (upd p P0) (eff_payload rt seg pd) cB = (Ok (bp p), cP p)).
  { intros p. destruct (Hjp p) as (vp & Jp). destruct (Ap _ _ Jp) as [_ Cp].
    destruct (Cp PPayloadFailed cB ltac:(rewrite KB, Kp, Kb; exact Hk)) as (b & ck & E & _). unfold bp, cP. rewrite E. reflexivity. }
  assert (HJ : J1 (eff_payload rt seg pd) (eff_block rt bd) P0 B0 c2 cB (mk_dig (lim_new (lim_new s L) L) c2 (eff_payload rt seg pd) (eff_block rt bd) P0 false B0) []).
  { unfold J1. cbn. rewrite upd_nil. replace (L =? 0) with false by lia. auto 10. }
  assert (HDR : DRl R tail (dr_lim (mk_dig (lim_new (lim_new s L) L) c2 (eff_payload rt seg pd) (eff_block rt bd) P0 false B0)) c).
  { split; [|reflexivity]. cbn. split; [exact HR|]. cbn. auto. }
  destruct (J1_run ops R tail HD HL c (eff_payload rt seg pd) (eff_block rt bd) P0 B0 c2 cB cP bb bp EB HBP cs1 Hc1 _ [] c eq_refl HDR HJ)
    as (h & r1 & d1 & rs1 & E1 & Ea1 & Ec & HR1 & HJ1 & El1).
  destruct (begin_ok R tail (eff_payload rt seg pd) (eff_block rt bd) P0 B0 c2 cB cP bp HBP d1 _ r1 HR1 HJ1) as (d2 & Ebeg & Elim & HJ2).
  rewrite <- Elim in HR1.
  assert (Ec' : c = ([] ++ h) ++ r1) by exact Ec.
  destruct (J2_run ops R tail HD HL c (eff_payload rt seg pd) (eff_block rt bd) P0 B0 c2 cB cP bb bp EB HBP cs2 Hc2 d2 _ [] r1 Ec' HR1 HJ2)
    as (p & r2 & d3 & rs2 & E2 & Ea2 & -> & HR2 & HJ3 & El2).
  exists h, p, r2, (dr_chk d3). split.
  { unfold session. rewrite En, E1, Ea1, Ebeg, E2, Ea2. reflexivity. }
  split; [exact Ec|]. cbn [dr_lim lim_new lm_limit] in El1. rewrite Elim in El2. rewrite El1 in El2.
  intros vb' vp Jb' Jp. destruct (Ab _ _ Jb') as [Veb' Cb']. destruct (Ap _ _ Jp) as [Vep Cp].
  destruct (Cb' PBlockFailed c2 ltac:(rewrite Kp, Kb; exact Hk)) as (bb' & cB' & EB' & _ & PB'). rewrite EB in EB'. injection EB' as <- <-.
  destruct (Cp PPayloadFailed cB ltac:(rewrite KB, Kp, Kb; exact Hk)) as (bp' & cP' & EP & _ & PP).
  rewrite HBP in EP. injection EP as _ EP. rewrite lenZ_app in *.
  destruct HJ3 as [HJn HJe]. split; intros HLe.
  - rewrite HJe by lia. cbn [app]. rewrite EP, PP, PB', Pp, Pb. cbn [chk_new dc_passed].
    destruct eb; [rewrite Veb' by reflexivity; destruct ep; [rewrite Vep by reflexivity; reflexivity|destruct vp; reflexivity]|].
    destruct ep; [rewrite Vep by reflexivity; destruct vb'; reflexivity|destruct vb', vp; reflexivity].
  - destruct (HJn ltac:(lia)) as (_ & _ & _ & _ & _ & ->). rewrite Pp, Pb. cbn. destruct ep, eb; discriminate.
Qed.

Lemma judged_fun he data d v v' : henv_ok he -> judged he data d v -> judged he data d v' -> v = v'.
Proof.
  intros Hh H1 H2.
  apply (judged_acts he data d v Hh) in H1. apply (judged_acts he data d v' Hh) in H2.
  assert (N : (d = None \/ d = Some []) -> forall p c, mk_digester he p d c = (Ok None, c)) by (intros [-> | ->] p c; reflexivity).
  destruct H1 as [H1|H1|n1 f1 b1 H1 C1]; destruct H2 as [H2|H2|n2 f2 b2 H2 C2]; try reflexivity.
  - specialize (N H1 PBlockFailed (chk_new KTrue)). rewrite H2 in N. discriminate.
  - specialize (N H1 PBlockFailed (chk_new KTrue)). rewrite H2 in N. discriminate.
  - specialize (N H2 PBlockFailed (chk_new KTrue)). rewrite H1 in N. discriminate.
  - pose proof (H2 PBlockFailed (chk_new KTrue)) as X. rewrite H1 in X. discriminate.
  - specialize (N H2 PBlockFailed (chk_new KTrue)). rewrite H1 in N. discriminate.
  - pose proof (H1 PBlockFailed (chk_new KTrue)) as X. rewrite H2 in X. discriminate.
  - pose proof (H1 PBlockFailed (chk_new KTrue)) as X. rewrite H2 in X. injection X as -> ->. rewrite C1 in C2. now injection C2 as ->.
Qed.

(** a digest that is absent or right: its digester never reports anything *)
Lemma digester_fine he p d data v : henv_ok he -> judged he data d v -> v <> VBad ->
  exists g, (forall c, mk_digester he p d c = (Ok g, c))
    /\ forall q ck, check_one q (upd data g) d ck = (Ok false, match v with VGood => chk_pass ck | _ => ck end).
Proof.
  intros Hhe H Hv. apply (judged_acts _ _ _ _ Hhe) in H. destruct H as [Hd|He|name f b He Hc]; [|congruence|].
  - exists None. split; [intros c; unfold mk_digester; destruct Hd as [->| ->]; reflexivity|].
    intros q ck. unfold check_one, compare_digest. destruct Hd as [->| ->]; reflexivity.
  - destruct b; [|congruence]. exists (Some (mk_dgst name f [])). split; [intros c; apply He|].
    intros q ck. cbn [upd option_map]. unfold dgst_update. cbn [dg_name dg_fun dg_acc app]. unfold check_one. rewrite Hc. reflexivity.
Qed.

(** ** raise mode *)
Definition chk_sim (c c' : checker) : Prop :=
  dc_passed c = dc_passed c' /\ dc_passed c <> Some false /\ dc_kind c <> KRaise /\ dc_kind c' = KRaise.

Lemma check_one_false p g d c : dc_passed c = Some false -> dc_passed (snd (check_one p g d c)) = Some false.
Proof.
  intros H. unfold check_one. destruct (compare_digest g d) as [[[|]|]|e]; cbn; auto.
  - unfold chk_pass. now rewrite H.
  - unfold chk_problem. destruct (dc_kind c); cbn; auto.
Qed.
Lemma check_one_sim p g d c c' : chk_sim c c' ->
  (dc_passed (snd (check_one p g d c)) = Some false /\ fst (check_one p g d c) = Ok true /\ fst (check_one p g d c') = Err ArchiveLoadFailed)
  \/ (fst (check_one p g d c) = fst (check_one p g d c') /\ chk_sim (snd (check_one p g d c)) (snd (check_one p g d c'))).
Proof.
  intros (H1 & H2 & H3 & H4). unfold check_one. destruct (compare_digest g d) as [[[|]|]|e].
  - right. split; [reflexivity|]. unfold chk_pass, chk_sim. rewrite <- H1. destruct (dc_passed c) as [[|]|] eqn:E; cbn; repeat split; auto; try congruence; discriminate.
  - left. unfold chk_problem. rewrite H4. destruct (dc_kind c); try congruence; cbn; auto.
  - right. unfold chk_sim. auto 10.
  - right. unfold chk_sim. auto 10.
Qed.

Section Raise.
  Context {S : Type} (ops : sops S).
  Definition dig_sim (d d' : digr S) : Prop :=
    dr_lim d = dr_lim d' /\ dr_pdig d = dr_pdig d' /\ dr_bdig d = dr_bdig d' /\ dr_pobj d = dr_pobj d' /\ dr_pon d = dr_pon d'
    /\ dr_bobj d = dr_bobj d' /\ chk_sim (dr_chk d) (dr_chk d').
  Definition agree {A} (x y : res A * digr S) : Prop :=
    (dc_passed (dr_chk (snd x)) = Some false /\ fst y = Err ArchiveLoadFailed) \/ (fst x = fst y /\ dig_sim (snd x) (snd y)).

  Lemma dig_update_sim b l d d' : dig_sim d d' -> agree (dig_update b l d) (dig_update b l d').
  Proof.
    intros (E1 & E2 & E3 & E4 & E5 & E6 & HC). unfold dig_update. rewrite <- E2, <- E3, <- E4, <- E5, <- E6.
    destruct (lm_limit l =? 0).
    2:{ right. split; [reflexivity|]. unfold dig_sim. cbn. auto 10. }
    cbn [dr_bobj dr_bdig dr_chk dr_pdig]. unfold dr_pdigester. cbn [dr_pon dr_pobj].
    set (bo := option_map (dgst_update b) (dr_bobj d)). set (po := if dr_pon d then option_map (dgst_update b) (dr_pobj d) else dr_pobj d).
    destruct (check_one_sim PBlockFailed bo (dr_bdig d) _ _ HC) as [(H1 & H2 & H3)|(H1 & H2)].
    - left. destruct (check_one PBlockFailed bo (dr_bdig d) (dr_chk d)) as [r c1]. cbn in H1, H2. subst r.
      destruct (check_one PBlockFailed bo (dr_bdig d) (dr_chk d')) as [r' c1']. cbn in H3. subst r'.
      pose proof (check_one_false PPayloadFailed (if dr_pon d then po else None) (dr_pdig d) c1 H1) as H4.
      destruct (check_one PPayloadFailed (if dr_pon d then po else None) (dr_pdig d) c1) as [[?|?] c2]; cbn in *; auto.
    - destruct (check_one PBlockFailed bo (dr_bdig d) (dr_chk d)) as [r c1].
      destruct (check_one PBlockFailed bo (dr_bdig d) (dr_chk d')) as [r' c1']. cbn in H1, H2. subst r'.
      destruct r as [b1|e].
      + destruct (check_one_sim PPayloadFailed (if dr_pon d then po else None) (dr_pdig d) _ _ H2) as [(H3 & H4 & H5)|(H3 & H4)].
        * left. destruct (check_one PPayloadFailed (if dr_pon d then po else None) (dr_pdig d) c1) as [r c2]. cbn in H3, H4. subst r.
          destruct (check_one PPayloadFailed (if dr_pon d then po else None) (dr_pdig d) c1') as [r' c2']. cbn in H5. subst r'. cbn. auto.
        * right. destruct (check_one PPayloadFailed (if dr_pon d then po else None) (dr_pdig d) c1) as [r c2].
          destruct (check_one PPayloadFailed (if dr_pon d then po else None) (dr_pdig d) c1') as [r' c2']. cbn in H3, H4. subst r'.
          destruct r; cbn; split; auto; unfold dig_sim; cbn; auto 10.
      + right. cbn. split; auto. unfold dig_sim. cbn. auto 10.
  Qed.

  Lemma do_call_sim k d d' : dig_sim d d' -> agree (do_call (dig_ops ops) k d) (do_call (dig_ops ops) k d').
  Proof.
    intros H. pose proof H as (E1 & E2 & E3 & E4 & E5 & E6 & HC).
    assert (forall op n, agree (dig_rd ops op n d) (dig_rd ops op n d')) as HH.
    { intros op n. unfold dig_rd. rewrite <- E1. destruct (lim_len n (dr_lim d) =? 0); [right; auto|].
      destruct (op (lim_ops ops) (Some (lim_len n (dr_lim d))) (lm_stream (dr_lim d))) as [[b|e] s'].
      - now apply dig_update_sim.
      - right. split; [reflexivity|]. unfold dig_sim. cbn. auto 10. }
    destruct k; apply HH.
  Qed.
  Lemma dig_update_false b l (d : digr S) : dc_passed (dr_chk d) = Some false -> dc_passed (dr_chk (snd (dig_update b l d))) = Some false.
  Proof.
    intros H. unfold dig_update. destruct (lm_limit l =? 0); [|exact H]. cbn [dr_bobj dr_bdig dr_chk dr_pdig]. unfold dr_pdigester. cbn [dr_pon dr_pobj].
    match goal with |- context [check_one PBlockFailed ?g ?x ?c] => pose proof (check_one_false PBlockFailed g x c H) as H1; destruct (check_one PBlockFailed g x c) as [[?|?] c1] end; [|exact H1].
    match goal with |- context [check_one PPayloadFailed ?g ?x ?c] => pose proof (check_one_false PPayloadFailed g x c H1) as H2; destruct (check_one PPayloadFailed g x c) as [[?|?] c2] end; exact H2.
  Qed.
  Lemma do_call_false k d : dc_passed (dr_chk d) = Some false -> dc_passed (dr_chk (snd (do_call (dig_ops ops) k d))) = Some false.
  Proof.
    intros H. assert (forall op n, dc_passed (dr_chk (snd (dig_rd ops op n d))) = Some false) as HH.
    { intros op n. unfold dig_rd. destruct (lim_len n (dr_lim d) =? 0); [exact H|].
      destruct (op (lim_ops ops) (Some (lim_len n (dr_lim d))) (lm_stream (dr_lim d))) as [[b|e] s']; [now apply dig_update_false|exact H]. }
    destruct k; apply HH.
  Qed.
  Lemma run_false cs : forall d, dc_passed (dr_chk d) = Some false -> dc_passed (dr_chk (snd (run_calls (dig_ops ops) cs d))) = Some false.
  Proof.
    induction cs as [|k cs IH]; intros d H; [exact H|]. cbn [run_calls]. pose proof (do_call_false k d H) as H1.
    destruct (do_call (dig_ops ops) k d) as [[b|e] d1]; [|exact H1]. specialize (IH d1 H1). destruct (run_calls (dig_ops ops) cs d1). exact IH.
  Qed.
  Lemma begin_false (d : digr S) : dc_passed (dr_chk d) = Some false -> dc_passed (dr_chk (snd (begin_payload d))) = Some false.
  Proof.
    intros H. unfold begin_payload. cbn [dr_set_pon dr_lim dr_pobj dr_pdig dr_chk]. destruct (lm_limit (dr_lim d) =? 0); [|exact H].
    pose proof (check_one_false PPayloadFailed (dr_pobj d) (dr_pdig d) _ H) as H1.
    destruct (check_one PPayloadFailed (dr_pobj d) (dr_pdig d) (dr_chk d)) as [[[|]|?] c1]; exact H1.
  Qed.
  Lemma begin_sim d d' : dig_sim d d' -> agree (begin_payload d) (begin_payload d').
  Proof.
    intros H. pose proof H as (E1 & E2 & E3 & E4 & E5 & E6 & HC). unfold begin_payload. cbn [dr_set_pon dr_lim dr_pobj dr_pdig dr_chk].
    rewrite <- E1, <- E2, <- E4. destruct (lm_limit (dr_lim d) =? 0).
    2:{ right. split; [reflexivity|]. unfold dig_sim. cbn. auto 10. }
    destruct (check_one_sim PPayloadFailed (dr_pobj d) (dr_pdig d) _ _ HC) as [(H1 & H2 & H3)|(H1 & H2)].
    - left. destruct (check_one PPayloadFailed (dr_pobj d) (dr_pdig d) (dr_chk d)) as [r c1]. cbn in H1, H2. subst r.
      destruct (check_one PPayloadFailed (dr_pobj d) (dr_pdig d) (dr_chk d')) as [r' c1']. cbn in H3. subst r'. cbn. auto.
    - right. destruct (check_one PPayloadFailed (dr_pobj d) (dr_pdig d) (dr_chk d)) as [r c1].
      destruct (check_one PPayloadFailed (dr_pobj d) (dr_pdig d) (dr_chk d')) as [r' c1']. cbn in H1, H2. subst r'.
      destruct r as [[|]|]; cbn; split; auto; unfold dig_sim; cbn; auto 10.
  Qed.
  (** results of a run: equal and similar, or failed and raised *)
  Lemma run_sim cs : forall d d', dig_sim d d' ->
    (dc_passed (dr_chk (snd (run_calls (dig_ops ops) cs d))) = Some false /\ all_ok (fst (run_calls (dig_ops ops) cs d')) = Err ArchiveLoadFailed)
    \/ (fst (run_calls (dig_ops ops) cs d) = fst (run_calls (dig_ops ops) cs d') /\ dig_sim (snd (run_calls (dig_ops ops) cs d)) (snd (run_calls (dig_ops ops) cs d'))).
  Proof.
    induction cs as [|k cs IH]; intros d d' H; [right; split; [reflexivity|exact H]|]. cbn [run_calls].
    pose proof (do_call_sim k d d' H) as HA. pose proof (do_call_false k d) as HF.
    destruct (do_call (dig_ops ops) k d) as [r d1]. destruct (do_call (dig_ops ops) k d') as [r' d1']. destruct HA as [[H1 H2]|[H1 H2]]; cbn in H1, H2; subst r'.
    - left. split.
      + destruct r; [|exact H1]. pose proof (run_false cs d1 H1) as H2. destruct (run_calls (dig_ops ops) cs d1). exact H2.
      + reflexivity.
    - destruct r as [b|e]; [|right; auto]. specialize (IH d1 d1' H2).
      destruct (run_calls (dig_ops ops) cs d1) as [l s]. destruct (run_calls (dig_ops ops) cs d1') as [l' s']. cbn in *.
      destruct IH as [[H3 H4]|[H3 H4]]; [left; rewrite H4; auto|right; subst; auto].
  Qed.
  Lemma mk_digester_sim he p d c c' : chk_sim c c' ->
    (dc_passed (snd (mk_digester he p d c)) = Some false /\ fst (mk_digester he p d c) = Ok None /\ fst (mk_digester he p d c') = Err ArchiveLoadFailed)
    \/ (exists g, fst (mk_digester he p d c) = Ok g /\ fst (mk_digester he p d c') = Ok g /\ chk_sim (snd (mk_digester he p d c)) (snd (mk_digester he p d c'))).
  Proof.
    intros H. pose proof H as (H1 & H2 & H3 & H4).
    assert (HP : dc_passed (snd (match chk_problem p c with (Ok _, x) => (Ok (None : option dgst), x) | (Err e, x) => (Err e, x) end)) = Some false
      /\ fst (match chk_problem p c with (Ok _, x) => (Ok (None : option dgst), x) | (Err e, x) => (Err e, x) end) = Ok None
      /\ fst (match chk_problem p c' with (Ok _, x) => (Ok (None : option dgst), x) | (Err e, x) => (Err e, x) end) = Err ArchiveLoadFailed).
    { unfold chk_problem. rewrite H4. destruct (dc_kind c); try congruence; cbn; auto. }
    unfold mk_digester. destruct d as [[|x t]|]; [right; exists None; repeat split; auto; apply H| |right; exists None; repeat split; auto; apply H].
    destruct (parse_digest (x :: t)) as [[a v]|]; [|now left].
    destruct (dgst_new he a) as [g|]; [|now left]. right. exists (Some g). auto.
  Qed.
  Lemma mk_digester_false he p d c : dc_kind c <> KRaise -> dc_passed c = Some false ->
    exists g, fst (mk_digester he p d c) = Ok g /\ dc_passed (snd (mk_digester he p d c)) = Some false.
  Proof.
    intros Hk H.
    assert (HP : exists g, fst (match chk_problem p c with (Ok _, x) => (Ok (None : option dgst), x) | (Err e, x) => (Err e, x) end) = Ok g
      /\ dc_passed (snd (match chk_problem p c with (Ok _, x) => (Ok (None : option dgst), x) | (Err e, x) => (Err e, x) end)) = Some false).
    { unfold chk_problem. destruct (dc_kind c); try congruence; cbn; eauto. }
    unfold mk_digester. destruct d as [[|x t]|]; [exists None; split; [reflexivity|exact H]| |exists None; split; [reflexivity|exact H]].
    destruct (parse_digest (x :: t)) as [[a v]|]; [|assumption].
    destruct (dgst_new he a) as [g|]; [|assumption]. exists (Some g). auto.
  Qed.

  Lemma session_raise he k rt pd bd seg (s : S) L cs1 cs2 : k <> KRaise ->
    match session ops he k rt pd bd seg s L cs1 cs2 with
    | Finished h p c =>
        (dc_passed c = Some false -> session ops he KRaise rt pd bd seg s L cs1 cs2 = Raised ArchiveLoadFailed)
        /\ (dc_passed c <> Some false -> exists c', session ops he KRaise rt pd bd seg s L cs1 cs2 = Finished h p c' /\ dc_passed c' = dc_passed c)
    | Raised e => session ops he KRaise rt pd bd seg s L cs1 cs2 = Raised e \/ session ops he KRaise rt pd bd seg s L cs1 cs2 = Raised ArchiveLoadFailed
    end.
  Proof.
    intros Hk. unfold session, dig_new.
    set (bde := if match rt with Some t => leqb t (lit "revisit") | None => false end then None else bd).
    set (pde := match seg with Some _ => None | None => if match rt with Some t => leqb t (lit "revisit") | None => false end then None else pd end).
    assert (H0 : chk_sim (chk_new k) (chk_new KRaise)) by (unfold chk_sim, chk_new; cbn; repeat split; auto; discriminate).
    cbv zeta.
    assert (HF : forall d : digr S, dc_passed (dr_chk d) = Some false ->
      match (let (rs1, d1) := run_calls (dig_ops ops) cs1 d in
        match all_ok rs1 with Ok h => match begin_payload d1 with (Ok _, d2) => let (rs2, d3) := run_calls (dig_ops ops) cs2 d2 in
            match all_ok rs2 with Ok p => Finished h p (dr_chk d3) | Err e => Raised e end | (Err e, _) => Raised e end | Err e => Raised e end)
      with Finished _ _ c => dc_passed c = Some false | Raised _ => True end).
    { intros d H. pose proof (run_false cs1 d H) as H1. destruct (run_calls (dig_ops ops) cs1 d) as [rs1 d1]. cbn in H1.
      destruct (all_ok rs1); [|exact I]. pose proof (begin_false d1 H1) as H2. destruct (begin_payload d1) as [[?|?] d2]; [|exact I]. cbn in H2.
      pose proof (run_false cs2 d2 H2) as H3. destruct (run_calls (dig_ops ops) cs2 d2) as [rs2 d3]. cbn in H3. destruct (all_ok rs2); [exact H3|exact I]. }
    assert (HF' : forall (o : outcome) X, match o with Finished _ _ c => dc_passed c = Some false | Raised _ => True end -> X = Raised ArchiveLoadFailed ->
       match o with Finished h p c => (dc_passed c = Some false -> X = Raised ArchiveLoadFailed) /\ (dc_passed c <> Some false -> exists c', X = Finished h p c' /\ dc_passed c' = dc_passed c)
       | Raised e => X = Raised e \/ X = Raised ArchiveLoadFailed end).
    { intros o X H E. destruct o; [split; [auto|congruence]|auto]. }
    destruct (mk_digester_sim he PUnknownBlock bde _ _ H0) as [(H1 & H2 & H3)|(g & H1 & H2 & H3)].
    - destruct (mk_digester he PUnknownBlock bde (chk_new k)) as [r c1] eqn:E1. cbn in H1, H2. subst r.
      destruct (mk_digester he PUnknownBlock bde (chk_new KRaise)) as [r' c1']. cbn in H3. subst r'.
      assert (Hk1 : dc_kind c1 <> KRaise).
      { unfold mk_digester, chk_problem in E1. destruct bde as [[|x t]|]; try (injection E1 as <-; exact Hk).
        destruct (parse_digest (x :: t)) as [[a v]|]; [destruct (dgst_new he a); [discriminate|]|]; cbn in E1; destruct k; try congruence; injection E1 as <-; cbn; congruence. }
      destruct (mk_digester_false he PUnknownPayload pde c1 Hk1 H1) as (g & H4 & H5).
      destruct (mk_digester he PUnknownPayload pde c1) as [r c2]. cbn in H4, H5. subst r.
      apply HF'; [|reflexivity]. apply (HF (mk_dig (lim_new (lim_new s L) L) c2 pde bde g false None)). exact H5.
    - destruct (mk_digester he PUnknownBlock bde (chk_new k)) as [r c1]. cbn in H1. subst r.
      destruct (mk_digester he PUnknownBlock bde (chk_new KRaise)) as [r' c1']. cbn in H2, H3. subst r'.
      destruct (mk_digester_sim he PUnknownPayload pde _ _ H3) as [(H4 & H5 & H6)|(g2 & H4 & H5 & H6)].
      { destruct (mk_digester he PUnknownPayload pde c1) as [r c2]. cbn in H4, H5. subst r.
        destruct (mk_digester he PUnknownPayload pde c1') as [r' c2']. cbn in H6. subst r'.
        apply HF'; [|reflexivity]. apply (HF (mk_dig (lim_new (lim_new s L) L) c2 pde bde None false g)). exact H4. }
      destruct (mk_digester he PUnknownPayload pde c1) as [r c2]. cbn in H4. subst r.
      destruct (mk_digester he PUnknownPayload pde c1') as [r' c2']. cbn in H5, H6. subst r'.
      set (d := mk_dig (lim_new (lim_new s L) L) c2 pde bde g2 false g). set (d' := mk_dig (lim_new (lim_new s L) L) c2' pde bde g2 false g).
      assert (HS : dig_sim d d') by (unfold dig_sim; cbn; auto 10).
      pose proof (run_sim cs1 d d' HS) as H7. destruct (run_calls (dig_ops ops) cs1 d) as [rs1 d1]. destruct (run_calls (dig_ops ops) cs1 d') as [rs1' d1']. cbn in H7.
      destruct H7 as [[H7 H8]|[H7 H8]].
      { rewrite H8. apply HF'; [|reflexivity]. destruct (all_ok rs1); [|exact I]. pose proof (begin_false d1 H7) as H9.
        destruct (begin_payload d1) as [[?|?] d2]; [|exact I]. cbn in H9. pose proof (run_false cs2 d2 H9) as H10.
        destruct (run_calls (dig_ops ops) cs2 d2) as [rs2 d3]. destruct (all_ok rs2); [exact H10|exact I]. }
      subst rs1'. destruct (all_ok rs1) as [h|e]; [|left; reflexivity].
      destruct (begin_sim d1 d1' H8) as [[H9 H10]|[H9 H10]].
      { destruct (begin_payload d1') as [r' d2']. cbn in H10. subst r'. apply HF'; [|reflexivity].
        destruct (begin_payload d1) as [[?|?] d2]; [|exact I]. cbn in H9. pose proof (run_false cs2 d2 H9) as H11.
        destruct (run_calls (dig_ops ops) cs2 d2) as [rs2 d3]. destruct (all_ok rs2); [exact H11|exact I]. }
      destruct (begin_payload d1) as [r d2]. destruct (begin_payload d1') as [r' d2']. cbn in H9, H10. subst r'. destruct r as [?|e]; [|left; reflexivity].
      pose proof (run_sim cs2 d2 d2' H10) as H11. destruct (run_calls (dig_ops ops) cs2 d2) as [rs2 d3]. destruct (run_calls (dig_ops ops) cs2 d2') as [rs2' d3']. cbn in H11.
      destruct H11 as [[H11 H12]|[H11 H12]].
      { rewrite H12. apply HF'; [|reflexivity]. destruct (all_ok rs2); [exact H11|exact I]. }
      subst rs2'. destruct (all_ok rs2) as [p|e]; [|left; reflexivity].
      destruct H12 as (_ & _ & _ & _ & _ & _ & Hc1 & Hc2 & _ & _). split; [congruence|]. intros _. exists (dr_chk d3'). auto.
  Qed.
End Raise.

(** ** which exceptions can occur *)
Definition parsed (g : option dgst) (d : option str) : Prop :=
  match g, d with Some _, Some x => parse_digest x <> None | _, _ => True end.

Lemma check_one_err p g d c : dc_kind c <> KRaise -> parsed g d ->
  dc_kind (snd (check_one p g d c)) <> KRaise /\ (forall e, fst (check_one p g d c) = Err e -> e = BinasciiErr).
Proof.
  intros Hk Hp. unfold check_one. destruct (compare_digest g d) as [[[|]|]|e] eqn:E; cbn.
  - split; [|discriminate]. unfold chk_pass. destruct (dc_passed c) as [[|]|]; exact Hk.
  - destruct (problem_ok p c Hk) as (c' & E' & _ & Ek). rewrite E'. cbn. split; [now rewrite Ek|discriminate].
  - split; [exact Hk|discriminate].
  - split; [exact Hk|]. intros e' [= <-]. unfold compare_digest in E. destruct g as [g|]; [|discriminate]. destruct d as [[|x t]|]; try discriminate.
    cbn [parsed] in Hp. destruct (parse_digest (x :: t)) as [[a v]|]; [|congruence]. unfold to_b32 in E.
    destruct (lenZ v =? _); [discriminate|]. destruct (_ <? lenZ v); [destruct (b16_wrapper v)|destruct (b64_wrapper v)]; (discriminate E || (injection E as <-; reflexivity)).
Qed.

Section Errs.
  Context {S : Type} (ops : sops S) (R : S -> bytes -> Prop) (tail : bytes).
  Hypothesis HD : delivers ops R.
  Hypothesis HL : line_prefix ops R.
  Definition WI (d : digr S) : Prop :=
    dc_kind (dr_chk d) <> KRaise /\ parsed (dr_bobj d) (dr_bdig d) /\ parsed (dr_pobj d) (dr_pdig d).
  Lemma parsed_upd a g d : parsed g d -> parsed (option_map (dgst_update a) g) d.
  Proof. destruct g; auto. Qed.

  Lemma update_err b l d : WI d -> WI (snd (dig_update b l d)) /\ dr_lim (snd (dig_update b l d)) = l
    /\ (forall e, fst (dig_update b l d) = Err e -> e = BinasciiErr) /\ (forall x, fst (dig_update b l d) = Ok x -> x = b).
  Proof.
    intros (H1 & H2 & H3). unfold dig_update. set (bo := option_map (dgst_update b) (dr_bobj d)).
    set (po := if dr_pon d then option_map (dgst_update b) (dr_pobj d) else dr_pobj d).
    assert (Hb : parsed bo (dr_bdig d)) by now apply parsed_upd.
    assert (Hp : parsed po (dr_pdig d)) by (unfold po; destruct (dr_pon d); [now apply parsed_upd|assumption]).
    destruct (lm_limit l =? 0).
    2:{ cbn. split; [unfold WI; cbn; auto|]. split; [reflexivity|]. split; [discriminate|]. congruence. }
    cbn [dr_bobj dr_bdig dr_chk dr_pdig]. unfold dr_pdigester. cbn [dr_pon dr_pobj].
    destruct (check_one_err PBlockFailed bo (dr_bdig d) (dr_chk d) H1 Hb) as [H4 H5].
    destruct (check_one PBlockFailed bo (dr_bdig d) (dr_chk d)) as [[?|e] c1]; cbn in H4, H5.
    2:{ cbn. split; [unfold WI; cbn; auto|]. split; [reflexivity|]. split; [|discriminate]. intros ? [= <-]. now apply H5. }
    assert (Hp' : parsed (if dr_pon d then po else None) (dr_pdig d)) by (destruct (dr_pon d); [assumption|exact I]).
    destruct (check_one_err PPayloadFailed _ (dr_pdig d) c1 H4 Hp') as [H6 H7].
    destruct (check_one PPayloadFailed (if dr_pon d then po else None) (dr_pdig d) c1) as [[?|e] c2]; cbn in H6, H7.
    - cbn. split; [unfold WI; cbn; auto|]. split; [reflexivity|]. split; [discriminate|congruence].
    - cbn. split; [unfold WI; cbn; auto|]. split; [reflexivity|]. split; [|discriminate]. intros ? [= <-]. now apply H7.
  Qed.
  Lemma run_err cs : nonneg_calls cs -> forall d rest, DRl R tail (dr_lim d) rest -> WI d ->
    match all_ok (fst (run_calls (dig_ops ops) cs d)) with
    | Err e => e = BinasciiErr
    | Ok out => exists rest', rest = out ++ rest' /\ DRl R tail (dr_lim (snd (run_calls (dig_ops ops) cs d))) rest' /\ WI (snd (run_calls (dig_ops ops) cs d))
    end.
  Proof.
    intros Hcs. induction Hcs as [|k cs Hk _ IH]; intros d rest HR HW; [exists rest; auto|]. cbn [run_calls].
    destruct (dig_step ops R tail HD HL k d rest HR Hk) as [E|(out & rest' & l' & -> & E & HR' & El & Hne)]; rewrite E.
    - specialize (IH d rest HR HW). destruct (run_calls (dig_ops ops) cs d) as [l s]. cbn in *. destruct (all_ok l); exact IH.
    - destruct (update_err out l' d HW) as (HW' & Hlim & He & Ho). destruct (dig_update out l' d) as [[b|e] d1]; cbn in HW', Hlim, He, Ho.
      + rewrite (Ho b eq_refl) in *. rewrite <- Hlim in HR'. specialize (IH d1 rest' HR' HW'). destruct (run_calls (dig_ops ops) cs d1) as [l s]. cbn in *.
        destruct (all_ok l); [|exact IH]. destruct IH as (r2 & -> & H1 & H2). exists r2. rewrite app_assoc. auto.
      + cbn. now apply He.
  Qed.
  Lemma begin_err d : WI d -> WI (snd (begin_payload d)) /\ dr_lim (snd (begin_payload d)) = dr_lim d /\ (forall e, fst (begin_payload d) = Err e -> e = BinasciiErr).
  Proof.
    intros (H1 & H2 & H3). unfold begin_payload. cbn [dr_set_pon dr_lim dr_pobj dr_pdig dr_chk].
    destruct (lm_limit (dr_lim d) =? 0).
    2:{ cbn. split; [unfold WI; cbn; auto|]. split; [reflexivity|discriminate]. }
    destruct (check_one_err PPayloadFailed _ (dr_pdig d) _ H1 H3) as [H6 H7].
    destruct (check_one PPayloadFailed (dr_pobj d) (dr_pdig d) (dr_chk d)) as [[[|]|e] c2]; cbn in H6, H7.
    - cbn. split; [unfold WI; cbn; auto|]. split; [reflexivity|discriminate].
    - cbn. split; [unfold WI; cbn; auto|]. split; [reflexivity|discriminate].
    - cbn. split; [unfold WI; cbn; auto|]. split; [reflexivity|]. intros ? [= <-]. now apply H7.
  Qed.
  Lemma mk_digester_err he p d c : dc_kind c <> KRaise ->
    exists g c', mk_digester he p d c = (Ok g, c') /\ dc_kind c' <> KRaise /\ parsed g d.
  Proof.
    intros Hk. destruct (problem_ok p c Hk) as (c' & E & _ & Ek).
    unfold mk_digester. destruct d as [[|x t]|]; [exists None, c; cbn; auto| |exists None, c; cbn; auto].
    destruct (parse_digest (x :: t)) as [[a v]|] eqn:Ep.
    - destruct (dgst_new he a) as [g|]; [exists (Some g), c; cbn [parsed]; rewrite Ep; repeat split; auto; discriminate|].
      rewrite E. exists None, c'. repeat split. now rewrite Ek.
    - rewrite E. exists None, c'. repeat split. now rewrite Ek.
  Qed.
  Lemma session_err he k rt pd bd seg s c L cs1 cs2 : k <> KRaise ->
    R s (c ++ tail) -> lenZ c <= L -> (tail <> [] -> L = lenZ c) -> nonneg_calls cs1 -> nonneg_calls cs2 ->
    match session ops he k rt pd bd seg s L cs1 cs2 with
    | Finished h p _ => exists rest, c = h ++ p ++ rest
    | Raised e => e = BinasciiErr
    end.
  Proof.
    intros Hk HR HcL Htl Hc1 Hc2. unfold session, dig_new. cbv zeta.
    set (bde := if match rt with Some t => leqb t (lit "revisit") | None => false end then None else bd).
    set (pde := match seg with Some _ => None | None => if match rt with Some t => leqb t (lit "revisit") | None => false end then None else pd end).
    destruct (mk_digester_err he PUnknownBlock bde (chk_new k) Hk) as (g1 & c1 & E1 & K1 & P1). rewrite E1.
    destruct (mk_digester_err he PUnknownPayload pde c1 K1) as (g2 & c2 & E2 & K2 & P2). rewrite E2.
    set (d := mk_dig (lim_new (lim_new s L) L) c2 pde bde g2 false g1).
    assert (HW : WI d) by (unfold WI; cbn; auto).
    assert (HDR : DRl R tail (dr_lim d) c). { split; [|reflexivity]. cbn. split; [exact HR|]. cbn. auto. }
    pose proof (run_err cs1 Hc1 d c HDR HW) as H1. destruct (run_calls (dig_ops ops) cs1 d) as [rs1 d1]. cbn in H1.
    destruct (all_ok rs1) as [h|e]; [|exact H1]. destruct H1 as (r1 & -> & HR1 & HW1).
    destruct (begin_err d1 HW1) as (HW2 & Hlim & He). destruct (begin_payload d1) as [[?|e] d2]; cbn in HW2, Hlim, He; [|now apply He].
    rewrite <- Hlim in HR1. pose proof (run_err cs2 Hc2 d2 r1 HR1 HW2) as H2. destruct (run_calls (dig_ops ops) cs2 d2) as [rs2 d3]. cbn in H2.
    destruct (all_ok rs2) as [p|e]; [|exact H2]. destruct H2 as (r2 & -> & _). exists r2. reflexivity.
  Qed.
End Errs.
