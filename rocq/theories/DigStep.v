(** * DigStep: one call on a DigestVerifyingReader against the LimitReader it wraps, and the
    verdict about a record that has been read completely *)
From Coq Require Import String List ZArith NArith Bool Lia.
From Coq Require Import ZifyBool ZifyNat ZifyN.
From Verif Require Import PyBase Facts Streams StreamSpec StreamProofs DigestSpec DigestProofs.
Import ListNotations.
Open Scope Z_scope.

Section Step.
  Context {S : Type} (ops : sops S).

  Lemma dig_read_exact n d out l2 : lm_limit (dr_lim d) = lm_limit (lm_stream (dr_lim d)) -> 0 <= lm_limit (dr_lim d) -> nonneg n ->
    lim_read ops n (lm_stream (dr_lim d)) = (Ok out, l2) ->
    (dig_read ops n d = (Ok [], d) /\ out = [] /\ l2 = lm_stream (dr_lim d))
    \/ (lm_limit (dr_lim d) <> 0
        /\ dig_read ops n d = dig_update out (mk_lim l2 (lm_limit (dr_lim d) - lenZ out) (lm_orig (dr_lim d))) d).
  Proof.
    intros Hl H0 Hn E. unfold dig_read, dig_rd. set (k := lim_len n (dr_lim d)).
    assert (Ek : lim_len n (lm_stream (dr_lim d)) = k) by (unfold k, lim_len; now rewrite Hl).
    unfold lim_read in E. rewrite Ek in E. destruct (k =? 0) eqn:E0.
    - left. injection E as <- <-. auto.
    - right. split; [unfold k, lim_len in E0; destruct n; cbn in Hn; lia|].
      cbn [lim_ops o_read]. unfold lim_read.
      assert (lim_len (Some k) (lm_stream (dr_lim d)) = k) as -> by (unfold k, lim_len in *; destruct n; cbn in Hn; lia).
      rewrite E0. destruct (o_read ops (Some k) (lm_stream (lm_stream (dr_lim d)))) as [[b|e] s']; [|discriminate].
      injection E as -> <-. reflexivity.
  Qed.

  Lemma dig_readline_exact n d out l2 : lm_limit (dr_lim d) = lm_limit (lm_stream (dr_lim d)) -> 0 <= lm_limit (dr_lim d) -> nonneg n ->
    lim_readline ops n (lm_stream (dr_lim d)) = (Ok out, l2) ->
    (dig_readline ops n d = (Ok [], d) /\ out = [] /\ l2 = lm_stream (dr_lim d))
    \/ (lm_limit (dr_lim d) <> 0
        /\ dig_readline ops n d = dig_update out (mk_lim l2 (lm_limit (dr_lim d) - lenZ out) (lm_orig (dr_lim d))) d).
  Proof.
    intros Hl H0 Hn E. unfold dig_readline, dig_rd. set (k := lim_len n (dr_lim d)).
    assert (Ek : lim_len n (lm_stream (dr_lim d)) = k) by (unfold k, lim_len; now rewrite Hl).
    unfold lim_readline in E. rewrite Ek in E. destruct (k =? 0) eqn:E0.
    - left. injection E as <- <-. auto.
    - right. split; [unfold k, lim_len in E0; destruct n; cbn in Hn; lia|].
      cbn [lim_ops o_readline]. unfold lim_readline.
      assert (lim_len (Some k) (lm_stream (dr_lim d)) = k) as -> by (unfold k, lim_len in *; destruct n; cbn in Hn; lia).
      rewrite E0. destruct (o_readline ops (Some k) (lm_stream (lm_stream (dr_lim d)))) as [[b|e] s']; [|discriminate].
      injection E as -> <-. reflexivity.
  Qed.

  (** the digests of one record: block [cc], digest objects, checker before, after the
      block's comparison and after the payload's *)
  Record dsetup := mk_setup {
    ds_block : bytes; ds_pd : option str; ds_bd : option str; ds_P : option dgst; ds_B : option dgst;
    ds_c0 : checker; ds_cB : checker; ds_cP : bytes -> checker; ds_bb : bool; ds_bp : bytes -> bool }.
  Definition setup_ok (u : dsetup) (p : bytes) : Prop :=
    (ds_block u <> [] -> check_one PBlockFailed (upd (ds_block u) (ds_B u)) (ds_bd u) (ds_c0 u) = (Ok (ds_bb u), ds_cB u))
    /\ (ds_block u = [] -> ds_cB u = ds_c0 u)
    /\ check_one PPayloadFailed (upd p (ds_P u)) (ds_pd u) (ds_cB u) = (Ok (ds_bp u p), ds_cP u p).

  (** while the HTTP headers are read, with [c] left *)
  Definition K1 (u : dsetup) (d : digr S) (c : bytes) : Prop :=
    exists a, ds_block u = a ++ c /\ J1 (ds_pd u) (ds_bd u) (ds_P u) (ds_B u) (ds_c0 u) (ds_cB u) d a.
  (** in the payload, with [c] left *)
  Definition K2 (u : dsetup) (payload : bytes) (d : digr S) (c : bytes) : Prop :=
    exists a p, ds_block u = a ++ c /\ payload = p ++ c
      /\ J2 (ds_pd u) (ds_bd u) (ds_P u) (ds_B u) (ds_c0 u) (ds_cP u) d a p.

  Lemma K1_upd u pay d out rest l' : setup_ok u pay -> K1 u d (out ++ rest) -> lm_limit (dr_lim d) <> 0 ->
    lm_limit (dr_lim d) = lenZ (out ++ rest) -> lm_limit l' = lenZ rest ->
    exists d', dig_update out l' d = (Ok out, d') /\ dr_lim d' = l' /\ K1 u d' rest.
  Proof.
    intros (HB & _ & HBP) (a & Ec & (J_1 & J_2 & J_3 & J_4 & J_5 & J_6)) Hne Hl El.
    unfold dig_update. rewrite J_1, J_2, J_3, J_4, J_5, J_6.
    replace (lm_limit (dr_lim d) =? 0) with false by lia. change (option_map (dgst_update out)) with (upd out).
    cbn [dr_bobj dr_bdig dr_chk dr_pdig dr_pobj dr_pon dr_pdigester]. rewrite upd_app.
    destruct (lm_limit l' =? 0) eqn:E0.
    - assert (rest = []) as -> by (apply lenZ_0; lia). rewrite app_nil_r in *. rewrite <- Ec, HB.
      2: { intros E. rewrite E in Ec. symmetry in Ec. apply app_eq_nil in Ec as [_ ->]. cbn in Hl. lia. }
      unfold dr_pdigester. cbn [dr_pon]. unfold check_one, compare_digest.
      eexists. split; [reflexivity|]. split; [reflexivity|]. exists (ds_block u). rewrite app_nil_r. split; [reflexivity|].
      unfold J1, dr_set_chk. cbn. rewrite E0. auto 10.
    - eexists. split; [reflexivity|]. split; [reflexivity|]. exists (a ++ out). rewrite <- app_assoc. split; [exact Ec|].
      unfold J1. cbn. rewrite E0. auto 10.
  Qed.

  Lemma K2_upd u payload d out rest l' : setup_ok u payload -> K2 u payload d (out ++ rest) -> lm_limit (dr_lim d) <> 0 ->
    lm_limit (dr_lim d) = lenZ (out ++ rest) -> lm_limit l' = lenZ rest ->
    exists d', dig_update out l' d = (Ok out, d') /\ dr_lim d' = l' /\ K2 u payload d' rest.
  Proof.
    intros (HB & _ & HBP) (a & p & Ec & Ep & (HJ & _)) Hne Hl El. destruct (HJ Hne) as (J_1 & J_2 & J_3 & J_4 & J_5 & J_6).
    unfold dig_update. rewrite J_1, J_2, J_3, J_4, J_5, J_6.
    change (option_map (dgst_update out)) with (upd out).
    cbn [dr_bobj dr_bdig dr_chk dr_pdig dr_pobj dr_pon dr_pdigester]. rewrite !upd_app.
    destruct (lm_limit l' =? 0) eqn:E0.
    - assert (rest = []) as -> by (apply lenZ_0; lia). rewrite app_nil_r in *. rewrite <- Ec, HB.
      2: { intros E. rewrite E in Ec. symmetry in Ec. apply app_eq_nil in Ec as [_ ->]. cbn in Hl. lia. }
      unfold dr_pdigester. cbn [dr_pon dr_pobj]. rewrite <- Ep, HBP.
      eexists. split; [reflexivity|]. split; [reflexivity|]. exists (ds_block u), payload. rewrite !app_nil_r.
      split; [reflexivity|]. split; [reflexivity|]. unfold J2, dr_set_chk. cbn. split; [lia|reflexivity].
    - eexists. split; [reflexivity|]. split; [reflexivity|]. exists (a ++ out), (p ++ out). rewrite <- !app_assoc.
      split; [exact Ec|]. split; [exact Ep|]. unfold J2. cbn. split; [auto 10|lia].
  Qed.

  Lemma K1_begin u d c : setup_ok u c -> K1 u d c -> lm_limit (dr_lim d) = lenZ c ->
    exists d', begin_payload d = (Ok tt, d') /\ dr_lim d' = dr_lim d /\ K2 u c d' c.
  Proof.
    intros (_ & _ & HBP) (a & Ec & (J_1 & J_2 & J_3 & J_4 & J_5 & J_6)) El.
    unfold begin_payload. cbn [dr_set_pon dr_lim dr_pobj dr_pdig dr_chk].
    assert (G : forall d', dr_lim d' = dr_lim d -> J2 (ds_pd u) (ds_bd u) (ds_P u) (ds_B u) (ds_c0 u) (ds_cP u) d' a [] -> K2 u c d' c).
    { intros d' _ HJ. exists a, []. auto. }
    destruct (lm_limit (dr_lim d) =? 0) eqn:E0.
    - rewrite J_1, J_4, J_6. assert (c = []) as Hc by (apply lenZ_0; lia). subst c. pose proof HBP as H. rewrite upd_nil in H. rewrite H. destruct (ds_bp u []).
      + eexists. split; [reflexivity|]. split; [reflexivity|]. apply G; [reflexivity|]. unfold J2. cbn. split; [lia|reflexivity].
      + eexists. split; [reflexivity|]. split; [reflexivity|]. apply G; [reflexivity|]. unfold J2. cbn. split; [lia|reflexivity].
    - eexists. split; [reflexivity|]. split; [reflexivity|]. apply G; [reflexivity|]. unfold J2. cbn. rewrite upd_nil. split; [auto 10|lia].
  Qed.

  Lemma K2_end u payload d : K2 u payload d [] -> lm_limit (dr_lim d) = 0 -> dr_chk d = ds_cP u payload.
  Proof. intros (a & p & _ & -> & _ & HJ) E. rewrite app_nil_r. now apply HJ. Qed.

  (** the reader made for a record, and its verdict once everything has been read *)
  Lemma dig_start_judged he k rt pd bd seg block payload l : henv_ok he -> k <> KRaise ->
    judgeable he (eff_block rt bd) -> judgeable he (eff_payload rt seg pd) ->
    exists d u, dig_new he l (lenZ block) (chk_new k) rt pd bd seg = Ok d /\ dr_lim d = lim_new l (lenZ block)
      /\ ds_block u = block /\ setup_ok u payload /\ K1 u d block
      /\ forall vb vp, judged he block (eff_block rt bd) vb -> judged he payload (eff_payload rt seg pd) vp ->
         (block <> [] -> dc_passed (ds_cP u payload) = combine vb vp)
         /\ (block = [] -> vb <> VBad -> (dc_passed (ds_cP u payload) = Some false <-> vp = VBad)).
  Proof.
    intros Hhe Hk Hjb Hjp.
    destruct (digester_acts he PUnknownBlock (eff_block rt bd) (chk_new k) Hhe Hk Hjb) as (B0 & c1 & eb & Eb & Kb & Pb & Ab).
    destruct (digester_acts he PUnknownPayload (eff_payload rt seg pd) c1 Hhe ltac:(rewrite Kb; exact Hk) Hjp) as (P0 & c2 & ep & Ep & Kp & Pp & Ap).
    assert (En : dig_new he l (lenZ block) (chk_new k) rt pd bd seg
       = Ok (mk_dig (lim_new l (lenZ block)) c2 (eff_payload rt seg pd) (eff_block rt bd) P0 false B0)).
    { assert (Ebd : (if match rt with Some t => leqb t (lit "revisit") | None => false end then None else bd) = eff_block rt bd)
        by (unfold eff_block; destruct rt; [destruct (leqb _ _)|]; reflexivity).
      assert (Epd : (match seg with Some _ => None | None => if match rt with Some t => leqb t (lit "revisit") | None => false end then None else pd end) = eff_payload rt seg pd)
        by (unfold eff_payload, eff_block; destruct seg; [reflexivity|]; destruct rt; [destruct (leqb _ _)|]; reflexivity).
      unfold dig_new. cbv zeta. rewrite Ebd, Epd, Eb, Ep. reflexivity. }
    destruct (Hjb block) as (vb & Jb). destruct (Ab _ _ Jb) as [Veb Cb].
    destruct (Cb PBlockFailed c2 ltac:(rewrite Kp, Kb; exact Hk)) as (bb & cB0 & EB & KB & PB).
    set (cB := if is_nil block then c2 else cB0).
    assert (KB' : dc_kind cB <> KRaise) by (unfold cB; destruct (is_nil block); rewrite ?KB, Kp, Kb; exact Hk).
    set (bp := fun p => match fst (check_one PPayloadFailed (upd p P0) (eff_payload rt seg pd) cB) with Ok b => b | _ => false end).
    set (cP := fun p => snd (check_one PPayloadFailed (upd p P0) (eff_payload rt seg pd) cB)).
    assert (HBP : forall p, check_one PPayloadFailed (upd p P0) (eff_payload rt seg pd) cB = (Ok (bp p), cP p)).
    { intros p. destruct (Hjp p) as (vp & Jp). destruct (Ap _ _ Jp) as [_ Cp].
      destruct (Cp PPayloadFailed cB KB') as (b & ck & E & _). unfold bp, cP. rewrite E. reflexivity. }
    exists (mk_dig (lim_new l (lenZ block)) c2 (eff_payload rt seg pd) (eff_block rt bd) P0 false B0).
    exists (mk_setup block (eff_payload rt seg pd) (eff_block rt bd) P0 B0 c2 cB cP bb bp).
    split; [exact En|]. split; [reflexivity|]. split; [reflexivity|]. split; [|split].
    - split; [|split]; cbn.
      + intros Hne. unfold cB. destruct block; [contradiction|exact EB].
      + intros ->. reflexivity.
      + exact (HBP payload).
    - exists []. split; [reflexivity|]. unfold J1. cbn. rewrite upd_nil. repeat split.
      destruct (lenZ block =? 0) eqn:E0; [|reflexivity]. assert (block = []) as Hb by (apply lenZ_0; lia). unfold cB. now rewrite Hb.
    - intros vb' vp Jb' Jp. cbn [ds_cP]. destruct (Ab _ _ Jb') as [Veb' Cb']. destruct (Ap _ _ Jp) as [Vep Cp].
      destruct (Cp PPayloadFailed cB KB') as (bp' & cP' & EP & _ & PP). rewrite HBP in EP. injection EP as _ EP. rewrite EP, PP. split.
      + intros Hne. destruct (Cb' PBlockFailed c2 ltac:(rewrite Kp, Kb; exact Hk)) as (bb' & cB' & EB' & _ & PB'). rewrite EB in EB'. injection EB' as <- <-.
        unfold cB. destruct block; [contradiction|]. cbn [is_nil]. rewrite PB', Pp, Pb. cbn [chk_new dc_passed].
        destruct eb; [rewrite Veb' by reflexivity; destruct ep; [rewrite Vep by reflexivity; reflexivity|destruct vp; reflexivity]|].
        destruct ep; [rewrite Vep by reflexivity; destruct vb'; reflexivity|destruct vb', vp; reflexivity].
      + intros -> Hvb. unfold cB. cbn [is_nil]. rewrite Pp, Pb. cbn [chk_new dc_passed].
        destruct eb; [exfalso; apply Hvb; now apply Veb'|].
        destruct ep; [rewrite Vep by reflexivity; split; reflexivity|destruct vp; split; cbn; congruence].
  Qed.

  (** the same in any mode, if no digest is wrong *)
  Lemma dig_start_fine he k rt pd bd seg block payload l vb vp : henv_ok he ->
    judged he block (eff_block rt bd) vb -> judged he payload (eff_payload rt seg pd) vp -> vb <> VBad -> vp <> VBad ->
    exists d u, dig_new he l (lenZ block) (chk_new k) rt pd bd seg = Ok d /\ dr_lim d = lim_new l (lenZ block)
      /\ ds_block u = block /\ setup_ok u payload /\ K1 u d block
      /\ forall vb vp, judged he block (eff_block rt bd) vb -> judged he payload (eff_payload rt seg pd) vp ->
         (block <> [] -> dc_passed (ds_cP u payload) = combine vb vp)
         /\ (block = [] -> vb <> VBad -> (dc_passed (ds_cP u payload) = Some false <-> vp = VBad)).
  Proof.
    intros Hhe Jb Jp Hb Hp.
    destruct (digester_fine he PUnknownBlock (eff_block rt bd) block vb Hhe Jb Hb) as (B0 & Eb & Cb).
    destruct (digester_fine he PUnknownPayload (eff_payload rt seg pd) payload vp Hhe Jp Hp) as (P0 & Ep & Cp).
    assert (En : dig_new he l (lenZ block) (chk_new k) rt pd bd seg
       = Ok (mk_dig (lim_new l (lenZ block)) (chk_new k) (eff_payload rt seg pd) (eff_block rt bd) P0 false B0)).
    { assert (Ebd : (if match rt with Some t => leqb t (lit "revisit") | None => false end then None else bd) = eff_block rt bd)
        by (unfold eff_block; destruct rt; [destruct (leqb _ _)|]; reflexivity).
      assert (Epd : (match seg with Some _ => None | None => if match rt with Some t => leqb t (lit "revisit") | None => false end then None else pd end) = eff_payload rt seg pd)
        by (unfold eff_payload, eff_block; destruct seg; [reflexivity|]; destruct rt; [destruct (leqb _ _)|]; reflexivity).
      unfold dig_new. cbv zeta. rewrite Ebd, Epd, Eb, Ep. reflexivity. }
    set (c := chk_new k) in *.
    set (cB := if is_nil block then c else match vb with VGood => chk_pass c | _ => c end).
    set (cP := match vp with VGood => chk_pass cB | _ => cB end).
    exists (mk_dig (lim_new l (lenZ block)) c (eff_payload rt seg pd) (eff_block rt bd) P0 false B0).
    exists (mk_setup block (eff_payload rt seg pd) (eff_block rt bd) P0 B0 c cB (fun _ => cP) false (fun _ => false)).
    split; [exact En|]. split; [reflexivity|]. split; [reflexivity|]. split; [|split].
    - split; [|split]; cbn.
      + intros Hne. rewrite Cb. unfold cB. destruct block; [contradiction|reflexivity].
      + intros ->. reflexivity.
      + rewrite Cp. reflexivity.
    - exists []. split; [reflexivity|]. unfold J1. cbn. rewrite upd_nil. repeat split.
      destruct (lenZ block =? 0) eqn:E0; [|reflexivity]. assert (block = []) as Hn by (apply lenZ_0; lia). unfold cB. now rewrite Hn.
    - intros vb' vp' Jb' Jp'. rewrite <- (judged_fun he _ _ _ _ Hhe Jb Jb'), <- (judged_fun he _ _ _ _ Hhe Jp Jp'). cbn [ds_cP]. split.
      + intros Hne. unfold cP, cB. destruct block; [contradiction|]. cbn [is_nil]. unfold c. destruct vb, vp; try congruence; reflexivity.
      + intros -> _. unfold cP, cB, c. cbn [is_nil]. destruct vp; try congruence; cbn; split; discriminate.
  Qed.

  Lemma dig_start he k rt pd bd seg block payload l : henv_ok he ->
    (k <> KRaise /\ judgeable he (eff_block rt bd) /\ judgeable he (eff_payload rt seg pd)
     \/ exists vb vp, judged he block (eff_block rt bd) vb /\ judged he payload (eff_payload rt seg pd) vp /\ vb <> VBad /\ vp <> VBad) ->
    exists d u, dig_new he l (lenZ block) (chk_new k) rt pd bd seg = Ok d /\ dr_lim d = lim_new l (lenZ block)
      /\ ds_block u = block /\ setup_ok u payload /\ K1 u d block
      /\ forall vb vp, judged he block (eff_block rt bd) vb -> judged he payload (eff_payload rt seg pd) vp ->
         (block <> [] -> dc_passed (ds_cP u payload) = combine vb vp)
         /\ (block = [] -> vb <> VBad -> (dc_passed (ds_cP u payload) = Some false <-> vp = VBad)).
  Proof.
    intros Hhe [(Hk & H1 & H2)|(vb & vp & H1 & H2 & H3 & H4)].
    - now apply dig_start_judged.
    - now apply (dig_start_fine he k rt pd bd seg block payload l vb vp).
  Qed.
End Step.
