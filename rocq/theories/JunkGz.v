(** * JunkGz: archives with one gzip member per record, with a line that is not blank after
    the record (archiveiterator.py:155-193) *)
From Coq Require Import String List ZArith NArith Bool Lia.
From Coq Require Import ZifyBool ZifyNat ZifyN.
From Verif Require Import PyBase Facts Utf8 Headers Streams StreamSpec StreamProofs BufProofs FillProofs CallProofs
  HeaderSpec HeaderProofs Thm_Headers Loader Iterator SimProofs WriterSpec WriterProofs IterSpec IterProofs GzProofs JunkProofs.
Import ListNotations.
Open Scope Z_scope.

Definition gz_item_ok {zl} fuel he o (M : Z) K (x : item zl) : Prop :=
  (forall L, 0 <= L -> loadable fuel he o (mk_rlim M L) K (i_core x) (i_payload x) (i_V x) (i_P x)) /\ loose (i_tail x).

Section Gz.
  Context {zl : zenv} (fuel : nat) (he : henv) (o : lopts) (M T block : Z) (R : raw -> bytes -> Prop) (K : option fmt -> Prop).
  Notation rdr := (breader zl raw).
  Notation rops := (rops (zl:=zl) fuel).
  Notation iter := (@iter zl).
  Notation good_core := (good_core (zl:=zl) K).
  Hypothesis HD : delivers raw_ops R.
  Hypothesis HRr : forall s c, R s c -> raw_R T fuel s c.
  Hypothesis HM : 0 <= M.
  Let Hfuel : forall s c, R s c -> (List.length c + 3 <= fuel)%nat.
  Proof. intros s c H. now apply (raw_R_fuel T fuel s), HRr. Qed.

  Notation rl L := (mk_rlim M L).
  Definition gzQ (L : Z) (after : bytes) (b : rdr) (c : bytes) : Prop :=
    BI (zl:=zl) raw_ops fuel R (rl L) true true after b c /\ br_block b = block.

  Lemma gzQ_ok L after : fill_ok raw_ops fuel (rl L) (gzQ L after).
  Proof.
    pose proof (BI_fill_ok (zl:=zl) raw_ops fuel R HD Hfuel (rl L) true true after) as FO. split.
    - intros b c (HB & Hb). destruct (fo_fill _ _ _ _ FO b c HB) as (b' & E & HB' & X). exists b'. split; [exact E|].
      split; [|exact X]. split; [exact HB'|]. destruct HB as (? & ? & _ & _ & _ & [Hall Hck _] & _).
      now rewrite (fill_block fuel b b' _ Hck E Hall).
    - intros b c (HB & _). exact (fo_buff _ _ _ _ FO b c HB).
    - intros b c n (HB & Hb) Hn. split; [now apply (fo_take _ _ _ _ FO)|exact Hb].
    - intros b c (HB & _). exact (fo_empty _ _ _ _ FO b c HB).
    - intros b c (HB & _). exact (fo_fuel _ _ _ _ FO b c HB).
  Qed.
  Let HL L after : exact_full_line rops (gzQ L after). Proof. exact (br_full_line raw_ops fuel (rl L) _ (gzQ_ok L after)). Qed.
  Let HE L after : exact_read rops (gzQ L after). Proof. exact (br_exact_read raw_ops fuel (rl L) _ (gzQ_ok L after)). Qed.
  Let HX L after : forall s c k, gzQ L after s c -> 0 < k -> lenZ (takeZ k (take_line c)) <= rM (rl L) ->
    lenZ (takeZ k (take_line c)) <= lenZ c - rL (rl L) ->
    exists s', o_readline rops (Some k) s = (Ok (takeZ k (take_line c)), s') /\ gzQ L after s' (dropZ (lenZ (takeZ k (take_line c))) c).
  Proof. intros s c k. exact (br_readline_exact raw_ops fuel (rl L) _ (gzQ_ok L after) s c k). Qed.
  Let HF L after : forall s c, gzQ L after s c -> (List.length c + 3 <= fuel)%nat. Proof. exact (fo_fuel _ _ _ _ (gzQ_ok L after)). Qed.
  Lemma gz_reader L after : reader_ok fuel (rl L) (gzQ L after).
  Proof. split; [exact (HL L after)|]. split; [exact (HE L after)|]. split; [exact (HX L after)|exact (HF L after)]. Qed.

  (** at the end of a member the position is that of the next one *)
  Definition ended (after : bytes) (b : rdr) : Prop :=
    (exists L, gzQ L after b []) /\ at_end R after b /\ has_dec b = true.

  Lemma ended_pos after b : ended after b -> rw_pos (br_stream b) - rem_length b = T - lenZ after.
  Proof.
    intros (_ & (Hb & c' & HR & -> & _) & _). apply HRr in HR as (_ & Hp & _). unfold rem_length, buff_data in *.
    destruct (br_buff b); subst; rewrite lenZ_app; cbn; lia.
  Qed.

  Lemma readline_end L after b : gzQ L after b [] -> exists b', o_readline rops None b = (Ok [], b') /\ ended after b'.
  Proof.
    intros (HB & Hb). destruct (BI_fill (zl:=zl) raw_ops fuel R HD Hfuel _ _ _ _ _ _ HB) as (b' & E & HB' & _ & He & _).
    pose proof (fo_empty _ _ _ _ (BI_fill_ok (zl:=zl) raw_ops fuel R HD Hfuel (rl L) true true after) b' [] HB') as Hem.
    assert (Hbe : buff_empty b' = true).
    { apply buff_empty_data. destruct HB' as (? & ? & _ & _ & Ec & _). symmetry in Ec. now apply app_eq_nil in Ec. }
    exists b'. split.
    - unfold rops, o_readline, br_ops, br_readline. rewrite E, Hem, Hbe. reflexivity.
    - destruct (He Hbe) as (_ & c' & X). split; [|split].
      + exists L. split; [exact HB'|]. destruct HB as (? & ? & _ & _ & _ & [Hall Hck _] & _). now rewrite (fill_block fuel b b' _ Hck E Hall).
      + split; [now apply buff_empty_data|]. exists c'. exact X.
      + destruct HB' as (c1 & p1 & HR1 & Hsrc & _ & Hst0 & _ & Hg & _). unfold has_dec. destruct Hsrc as [Hst|(_ & Hi & Hn)].
        * unfold steady in Hst. destruct (br_dec b'); [reflexivity|]. now destruct Hst.
        * destruct (startd b' ++ c1) eqn:Es.
          -- destruct (Hn eq_refl) as (_ & _ & _ & t & ->). reflexivity.
          -- exfalso. assert (exists d, first_block raw_ops b' d) as (d & Hd).
             { unfold first_block. destruct (startd b') as [|s0 st] eqn:E0; [|eauto]. cbn [app] in Es. rewrite Es in HR1.
               destruct (HD _ _ _ HR1 (st_block _ Hst0)) as (d & rest & s2 & E2 & _ & _ & _ & Hne).
               exists d, s2. split; [exact E2|]. intros ->. now specialize (Hne eq_refl). }
             destruct (Hi d Hd) as (t & _ & Et & _ & _ & [(-> & _)|(Hf & _)]); [|discriminate].
             rewrite (Hg eq_refl) in Et. discriminate.
  Qed.

  Lemma consume_gz L after n : forall first size errs r c, gzQ L after r c -> (List.length c < n)%nat ->
    exists nl sz er c' r', consume_loop fuel n first size errs r = (Ok (nl, sz, er), r')
      /\ skip_blank n first size errs c = (nl, sz, er, c') /\ (exists L', gzQ L' after r' c') /\ (nl = None -> ended after r').
  Proof.
    induction n as [|n IH]; intros first size errs r c HQ Hn; [lia|]. cbn [consume_loop skip_blank].
    pose proof (take_line_nil c) as Hnil. pose proof (take_drop_line c) as Hs.
    destruct (take_line c) as [|x line] eqn:E.
    - assert (c = []) as -> by now apply Hnil. destruct (readline_end L after r HQ) as (r' & -> & He).
      exists None, size, errs, [], r'. split; [reflexivity|]. split; [reflexivity|]. split; [apply He|intros _; exact He].
    - destruct (HL L after r c HQ) as (r' & -> & HQ'). rewrite E.
      destruct (is_nil (rstripp is_bspace (x :: line)) || first) eqn:Eb.
      + apply IH; [assumption|]. rewrite <- Hs in Hn. rewrite app_length in Hn. cbn [List.length] in Hn. lia.
      + eexists _, _, _, _, r'. split; [reflexivity|]. split; [reflexivity|]. split; [exists L; exact HQ'|discriminate].
  Qed.

  (** between two members *)
  Definition gz_ready (after : bytes) (it : iter) : Prop :=
    dead it /\ it_phase it = PYield /\ it_next_line it = None /\ ended after (it_reader it)
    /\ it_offset it = T - lenZ after /\ good_core it.

  Lemma skip_all_blank : forall n first size errs tl nl sz er c', forallb is_bspace tl = true ->
    skip_blank n first size errs tl = (nl, sz, er, c') -> nl = None.
  Proof using. clear.
    induction n as [|n IH]; intros first size errs tl nl sz er c' Hb; cbn [skip_blank]; [now intros [= <- _ _ _]|].
    rewrite <- (take_drop_line tl), forallb_app, andb_true_iff in Hb. destruct Hb as [H1 H2].
    destruct (take_line tl) as [|x l] eqn:E; [now intros [= <- _ _ _]|].
    rewrite (rstripp_all is_bspace _ H1). cbn [is_nil orb]. intros H. exact (IH _ _ _ _ _ _ _ _ H2 H).
  Qed.

  Lemma skip_loose n size errs tl nl sz er c' : loose tl ->
    skip_blank n true size errs tl = (nl, sz, er, c') -> nl = None.
  Proof using. clear.
    unfold loose. intros Hb. destruct n as [|n]; cbn [skip_blank]; [now intros [= <- _ _ _]|].
    destruct (take_line tl) as [|x l] eqn:E; [now intros [= <- _ _ _]|]. rewrite orb_true_r. intros H. exact (skip_all_blank _ _ _ _ _ _ _ _ _ Hb H).
  Qed.

  Lemma gz_rte V L after it off c tl : live (gzQ L after) V tl c it -> loose tl ->
    (it_phase it = PYield /\ it_offset it = off /\ good_core it) ->
    exists it', read_to_end fuel it = (Ok tt, it')
      /\ (it_member it' = Some (off, T - lenZ after - off) /\ holds V it' /\ gz_ready after it') /\ dead it'.
  Proof.
    intros (rc & Er & HR & Ed & Em) Hbl (Hp & Ho & Hg). pose proof (rec_len fuel (gzQ L after) (HF L after) V _ rc c HR) as Hfu.
    rewrite app_length in Hfu.
    unfold read_to_end. rewrite Er, Em.
    destruct (drain_rec fuel (gzQ L after) (rl L) (HL L after) (HE L after) (HX L after) (HF L after) HM V tl fuel rc c HR) as (l' & -> & E0 & HQ & HV). { lia. }
    unfold it_set_rstream at 1. cbn [it_reader rs_base].
    destruct (consume_gz L after fuel true 0 0 (rs_base l') _ HQ) as (nl & sz & er & c' & r' & -> & Hsk & HQ' & Hend). { lia. }
    assert (nl = None) by exact (skip_loose _ _ _ _ _ _ _ _ Hbl Hsk).
    subst nl. specialize (Hend eq_refl). pose proof (ended_pos after r' Hend) as Hpos.
    eexists. split; [reflexivity|].
    match goal with |- context [mk_iter ?a ?b ?k ?m ?n ?e ?rr ?p ?rg ?em] => set (it' := mk_iter a b k m n e rr p rg em) end.
    assert (Dd : dead it' /\ holds V it').
    { unfold it', it_set_reader, it_set_rstream. cbn. rewrite Er. split.
      - eexists. cbn. split; [reflexivity|]. split; [destruct l'; exact E0|]. split; [destruct l'; reflexivity|discriminate].
      - eexists. cbn. split; [reflexivity|]. unfold rc_checker in *. cbn [rc_stream rc_set_stream rc_chk] in *. destruct l'; exact HV. }
    destruct Dd as [Dd Hho].
    split; [|exact Dd]. split.
    - unfold it', it_set_reader, it_set_rstream. cbn [it_member it_offset]. destruct Hend as (_ & _ & Hh). rewrite Hh, Ho. do 2 f_equal. lia.
    - split; [exact Hho|]. split; [exact Dd|]. unfold it', it_set_reader, it_set_rstream. cbn. split; [exact Hp|]. split; [reflexivity|]. split; [exact Hend|].
      split; [exact Hpos|]. exact Hg.
  Qed.

  (** at the beginning of a member *)
  Definition gz_start (L : Z) (after c : bytes) (it : iter) : Prop :=
    gzQ L after (it_reader it) c /\ it_next_line it = None /\ good_core it.

  Lemma gz_one L after prog k it it2 (x : item zl) :
    iter_next fuel he o it = iter_loop fuel he o fuel it2 ->
    gz_start L after (i_text x) it2 -> gz_item_ok fuel he o M K x ->
    0 <= L <= lenZ (i_payload x) + lenZ (i_tail x) -> L = 0 \/ no_lines (prog k) ->
    nonneg_ops (prog k) -> user_lines M (prog k) (i_payload x) ->
    exists ob it', (forall n, run_iter fuel he o (Datatypes.S n) prog k it
        = (let (os, en) := run_iter fuel he o n prog (Datatypes.S k) it' in (ob :: os, en)))
      /\ item_seen (prog k) x (it_offset it2) (T - lenZ after - it_offset it2) ob
      /\ gz_ready after it'.
  Proof.
    intros Hnext (HQ & Hnl & Hg) (HP & Hbl) HLr HLu Hn Hu. pose proof (HF L after _ _ HQ) as Hfu.
    assert (Hat : at_line fuel (gzQ L after) (it_next_line it2) (it_reader it2) (i_core x ++ i_tail x)).
    { split; [exact Hfu|]. rewrite Hnl. exact HQ. }
    destruct (loop_record fuel he o (gzQ L after) (rl L) K (gz_reader L after) it2 (i_core x) _ (i_payload x) (i_V x) (i_P x) ltac:(lia) Hg Hat (HP L ltac:(lia)) (proj2 HLr))
      as (rc & it1 & E & Hl & Hg1 & Ho1 & Hp1 & F).
    destruct (user_run fuel (gzQ L after) (rl L) (HL L after) (HE L after) (HX L after) (HF L after) HM (i_V x)
                (fun it => it_member it = Some (it_offset it1, T - lenZ after - it_offset it1) /\ holds (i_V x) it /\ gz_ready after it)
                (fun i => it_phase i = PYield /\ it_offset i = it_offset it1 /\ good_core i) (i_tail x)) with (us := prog k) (it := it1) (c := i_payload x)
      as (i2 & E2 & i3 & E3 & (Em3 & (rc3 & Er3 & Hv3) & Hres) & Hd3).
    { intros a b (H1 & H2 & H3) Hab. pose proof (good_core_same K a b H3 Hab) as H4. destruct Hab as (?&?&?&?&?&?&?).
      split; [congruence|]. split; [congruence|exact H4]. }
    { intros i c Hli Hci. destruct (gz_rte (i_V x) L after i (it_offset it1) c _ Hli Hbl Hci) as (i' & X1 & X2 & X3). exists i'. auto. }
    { exact Hl. } { auto. } { exact Hn. } { exact Hu. } { destruct HLu as [->|HLu]; [left; apply lenZ_nonneg|now right]. }
    exists (mk_obs rc (map Ok (mem_user (prog k) (i_payload x))) (Ok (Some (it_offset it2, T - lenZ after - it_offset it2))) (dc_passed (rc_checker rc3))), i3.
    split; [|split; [|exact Hres]].
    - intros n. cbn [run_iter]. rewrite Hnext, E, E2, E3, Em3, Ho1. unfold it_passed. rewrite Er3. reflexivity.
    - unfold item_seen. cbn. split; [exact F|]. split; [reflexivity|]. split; [reflexivity|]. exists (rc_checker rc3). auto.
  Qed.

  (** moving to the next member *)
  Lemma gz_step L m after out it : gz_ready (m ++ after) it -> m <> [] -> is_member zl m out ->
    part_ok raw_ops R (rl L) (zinit zl Gzip) block (m ++ after) out after -> (List.length out + 3 <= fuel)%nat ->
    exists it2, iter_next fuel he o it = iter_loop fuel he o fuel it2 /\ gz_start L after out it2 /\ it_offset it2 = it_offset it.
  Proof.
    intros (Hd & Hp & Hnl & ((L0 & HB & Hbl) & Hend & Hh) & Ho & Hg) Hm Hz Hfit Hl.
    pose proof (zfeed_app_done zl m _ after _ _ Hz) as Hz'. cbn [app] in Hz'.
    destruct (next_member_part (zl:=zl) raw_ops fuel R (rl L0) (rl L) true (m ++ after) (it_reader it) out (DDone after) HB Hend) as (b' & E & HB' & Hb').
    { destruct m; [contradiction|discriminate]. } { exact Hz'. }
    { rewrite Hbl. exact Hfit. }
    { exact Hl. }
    exists (it_set_reader b' it). split; [|split].
    - unfold iter_next. rewrite Hp. unfold after_record. rewrite (dead_rte fuel it Hd), Hh, E. reflexivity.
    - split; [|split; [exact Hnl|exact Hg]]. split; [exact HB'|]. cbn. congruence.
    - reflexivity.
  Qed.

  Definition fits_in (us : list uop) (x : item zl) (m : bytes) : Prop :=
    M <= 1 \/ (exact_read raw_ops R /\ gz_fits1 block us x m).
  Lemma fits_part us x m after : fits_in us x m -> exists L, part_ok raw_ops R (rl L) (zinit zl Gzip) block (m ++ after) (i_text x) after
    /\ 0 <= L <= lenZ (i_payload x) + lenZ (i_tail x) /\ (L = 0 \/ no_lines us).
  Proof using. clear.
    pose proof (lenZ_nonneg (i_payload x)) as H0. pose proof (lenZ_nonneg (i_tail x)) as H1.
    intros [Hm|(He & [Hs|(Hu & o0 & f & Ez & Hl)])].
    - exists 0. split; [split; [apply Z.le_refl|now left]|]. split; [lia|now left].
    - exists 0. split; [split; [apply Z.le_refl|right; split; [exact He|left; rewrite lenZ_app; lia]]|]. split; [lia|now left].
    - destruct (Z.le_gt_cases (lenZ m) block) as [Hs|Hs].
      + exists 0. split; [split; [apply Z.le_refl|right; split; [exact He|left; rewrite lenZ_app; lia]]|]. split; [lia|now left].
      + exists (Z.max 0 (lenZ (i_text x) - lenZ o0)). cbn [rL rM]. split; [split; [cbn; lia|right; split; [exact He|right; right]]|split; [lia|now right]].
        exists o0, f. rewrite takeZ_app_le by lia. split; [exact Ez|]. cbn [rL]. lia.
  Qed.

  Lemma gz_end n prog k it : gz_ready [] it -> run_iter fuel he o (Datatypes.S n) prog k it = ([], EndStop).
  Proof.
    intros (Hd & Hp & Hnl & ((L0 & HB & Hbl) & Hend & Hh) & Ho & (G1 & G2 & G3)). cbn [run_iter].
    pose proof (next_member_iff (zl:=zl) R [] (it_reader it) Hend) as Hnm. cbn [is_nil negb] in Hnm.
    assert (Hread : exists r, read_next_member (it_reader it) = (false, r) /\ r = it_reader it).
    { unfold read_next_member in *. destruct (br_dec (it_reader it)) as [[?|[|? ?]|]|]; cbn in Hnm; try discriminate; eauto. }
    destruct Hread as (r & Er & ->).
    assert (Hset : it_set_reader (it_reader it) it = it) by (destruct Hd as (rc & E1 & _ & E3 & _); now apply (set_reader_same it rc)).
    unfold iter_next. rewrite Hp. unfold after_record at 1. rewrite (dead_rte fuel it Hd), Hh, Er, Hset, G3.
    pose proof (HF L0 [] _ _ (conj HB Hbl)) as Hfu. cbn in Hfu.
    replace (iter_loop fuel he o fuel (set_raise true it)) with (iter_loop fuel he o (Datatypes.S (pred fuel)) (set_raise true it)) by (f_equal; lia).
    cbn [iter_loop]. unfold next_record, set_raise. cbn [it_next_line it_known it_reader]. rewrite Hnl.
    destruct (readline_end L0 [] (it_reader it) (conj HB Hbl)) as (r' & E & (HQ' & Hend' & Hh')).
    assert (P : parse_record_stream rops fuel he o None (it_known it) (it_reader it) = (Err EOFError, r')).
    { unfold parse_record_stream, detect_type, parse, arc_parse. rewrite E. cbn. destruct (it_known it) as [[|]|]; reflexivity. }
    rewrite P. unfold after_record, read_to_end, set_empty, it_set_reader. cbn [it_record it_member it_reader it_empty].
    destruct Hd as (rc & -> & _ & _ & Hm). cbn [it_record]. destruct (it_member it); [|contradiction]. cbn [it_reader it_empty]. rewrite Hh'.
    pose proof (next_member_iff (zl:=zl) R [] r' Hend') as Hnm'. cbn [is_nil negb] in Hnm'.
    destruct (read_next_member r') as [b r2]. cbn [fst] in Hnm'. subst b. reflexivity.
  Qed.

  (** the list *)
  Definition gz_good (us : list uop) (x : item zl) (m : bytes) : Prop :=
    gz_item_ok fuel he o M K x /\ is_member zl m (i_text x) /\ nonneg_ops us /\ user_lines M us (i_payload x).
  Lemma gz_run prog : forall ms k,
    (forall i e m, nth_error ms i = Some (e, m) -> gz_good (prog (k + i)%nat) e m) ->
    (forall i e m, nth_error ms i = Some (e, m) -> fits_in (prog (k + i)%nat) e m) ->
    (forall i e m, nth_error ms i = Some (e, m) -> enough fuel (i_text e)) ->
    forall it more, gz_ready (gz_bytes ms ++ more) it ->
    exists obs it', (forall n, run_iter fuel he o (List.length ms + n) prog k it
        = (let (os, en) := run_iter fuel he o n prog (k + List.length ms) it' in (obs ++ os, en)))
      /\ List.length obs = List.length ms
      /\ (forall i e m ob, nth_error ms i = Some (e, m) -> nth_error obs i = Some ob ->
           item_seen (prog (k + i)%nat) e (it_offset it + gz_pos i ms) (lenZ m) ob)
      /\ gz_ready more it'.
  Proof.
    induction ms as [|[e m] ms IH]; intros k Hgood Hfit Hfu it more Hr.
    - exists [], it. split; [intros n; cbn; rewrite Nat.add_0_r; destruct (run_iter fuel he o n prog k it); reflexivity|].
      split; [reflexivity|]. split; [intros [|i] ? ? ? Hi; discriminate|exact Hr].
    - destruct (Hgood 0%nat e m eq_refl) as (Hok & Hz & He). rewrite Nat.add_0_r in He. destruct He as (Hnn & Hu).
      unfold gz_bytes in *. cbn [map snd concat] in *. rewrite <- app_assoc in Hr.
      assert (Hm : m <> []) by (intros ->; discriminate).
      pose proof (Hfit 0%nat e m eq_refl) as Hf0. rewrite Nat.add_0_r in Hf0.
      destruct (fits_part (prog k) e m (concat (map snd ms) ++ more) Hf0) as (L & Hpart & HLr & HLu).
      destruct (gz_step L m _ (i_text e) it Hr Hm Hz Hpart) as (it2 & En & Hst & Eo).
      { exact (Hfu 0%nat e m eq_refl). }
      destruct (gz_one L _ prog k it it2 e En Hst Hok HLr HLu Hnn Hu) as (ob & it' & E & Hob & Hr').
      destruct (IH (Datatypes.S k)) with (it := it') (more := more) as (obs & it'' & E2 & Hlen & Hobs & Hr2); auto.
      { intros i e' m' Hi. replace (Datatypes.S k + i)%nat with (k + Datatypes.S i)%nat by lia. now apply Hgood. }
      { intros i e' m' Hi. replace (Datatypes.S k + i)%nat with (k + Datatypes.S i)%nat by lia. now apply Hfit. }
      { intros i e' m' Hi. exact (Hfu (Datatypes.S i) e' m' Hi). }
      assert (Ho' : it_offset it' = it_offset it + lenZ m).
      { destruct Hr' as (_ & _ & _ & _ & -> & _), Hr as (_ & _ & _ & _ & -> & _). rewrite !lenZ_app. lia. }
      exists (ob :: obs), it''. split; [|split; [|split; [|exact Hr2]]].
      + intros n. cbn [List.length plus]. rewrite E, E2. replace (k + Datatypes.S (List.length ms))%nat with (Datatypes.S k + List.length ms)%nat by lia.
        destruct (run_iter fuel he o n prog _ it''); reflexivity.
      + cbn. now rewrite Hlen.
      + intros [|i] e' m' ob' Hi Hi'; cbn [nth_error] in Hi, Hi'.
        * injection Hi as <- <-. injection Hi' as <-. rewrite Nat.add_0_r. unfold gz_pos, gz_bytes. cbn. rewrite Z.add_0_r.
          replace (lenZ m) with (T - lenZ (concat (map snd ms) ++ more) - it_offset it2); [rewrite <- Eo; exact Hob|].
          rewrite Eo. destruct Hr as (_ & _ & _ & _ & -> & _). rewrite !lenZ_app. lia.
        * pose proof (Hobs i e' m' ob' Hi Hi') as X. replace (k + Datatypes.S i)%nat with (Datatypes.S k + i)%nat by lia.
          replace (it_offset it + gz_pos (Datatypes.S i) ((e, m) :: ms)) with (it_offset it' + gz_pos i ms); [exact X|].
          rewrite Ho'. unfold gz_pos, gz_bytes. cbn [firstn map snd concat]. rewrite lenZ_app. lia.
  Qed.

  (** from the beginning of the first member *)
  Lemma gz_first L prog : forall e m ms more it,
    (forall i e' m', nth_error ((e, m) :: ms) i = Some (e', m') -> gz_good (prog i) e' m') ->
    (forall i e' m', nth_error ms i = Some (e', m') -> fits_in (prog (Datatypes.S i)) e' m') ->
    (forall i e' m', nth_error ms i = Some (e', m') -> enough fuel (i_text e')) ->
    0 <= L <= lenZ (i_payload e) + lenZ (i_tail e) -> L = 0 \/ no_lines (prog 0%nat) ->
    gz_start L (gz_bytes ms ++ more) (i_text e) it -> it_phase it = PStart -> it_offset it = T - lenZ (m ++ gz_bytes ms ++ more) ->
    exists obs it', (forall n, run_iter fuel he o (Datatypes.S (List.length ms) + n) prog 0 it
        = (let (os, en) := run_iter fuel he o n prog (Datatypes.S (List.length ms)) it' in (obs ++ os, en)))
      /\ List.length obs = Datatypes.S (List.length ms)
      /\ (forall i e' m' ob, nth_error ((e, m) :: ms) i = Some (e', m') -> nth_error obs i = Some ob ->
           item_seen (prog i) e' (it_offset it + gz_pos i ((e, m) :: ms)) (lenZ m') ob)
      /\ gz_ready more it'.
  Proof.
    intros e m ms more it Hgood Hfit Hfu HLr HLu Hst Hp Ho.
    destruct (Hgood 0%nat e m eq_refl) as (Hok & Hz & Hnn & Hu).
    destruct (gz_one L _ prog 0%nat it it e ltac:(unfold iter_next; now rewrite Hp) Hst Hok HLr HLu Hnn Hu) as (ob & it' & E & Hob & Hr').
    destruct (gz_run prog ms 1%nat) with (it := it') (more := more) as (obs & it'' & E2 & Hlen & Hobs & Hr2);
      [intros i e' m' Hi; exact (Hgood (Datatypes.S i) e' m' Hi)|exact Hfit|exact Hfu|exact Hr'|].
    assert (Ho' : it_offset it' = it_offset it + lenZ m).
    { destruct Hr' as (_ & _ & _ & _ & -> & _). rewrite Ho, !lenZ_app. lia. }
    exists (ob :: obs), it''. split; [|split; [|split; [|exact Hr2]]].
    - intros n. cbn [plus]. rewrite E, E2. cbn [plus]. destruct (run_iter fuel he o n prog _ it''); reflexivity.
    - cbn. now rewrite Hlen.
    - intros [|i] e' m' ob' Hi Hi'; cbn [nth_error] in Hi, Hi'.
      + injection Hi as <- <-. injection Hi' as <-. unfold gz_pos, gz_bytes. cbn. rewrite Z.add_0_r.
        replace (lenZ m) with (T - lenZ (gz_bytes ms ++ more) - it_offset it); [exact Hob|]. rewrite Ho, !lenZ_app. lia.
      + pose proof (Hobs i e' m' ob' Hi Hi') as X.
        replace (it_offset it + gz_pos (Datatypes.S i) ((e, m) :: ms)) with (it_offset it' + gz_pos i ms); [exact X|].
        rewrite Ho'. unfold gz_pos, gz_bytes. cbn [firstn map snd concat]. rewrite lenZ_app. lia.
  Qed.
End Gz.

Lemma gz_items {zl : zenv} fuel he o M K prog p (ms : list (item zl * bytes)) sched block known n :
  ms <> [] -> gz_fits M block sched prog ms -> 0 < block -> 0 <= M ->
  enough fuel (gz_bytes ms) -> (forall e m, In (e, m) ms -> enough fuel (i_text e)) ->
  (forall i e m, nth_error ms i = Some (e, m) -> gz_good fuel he o M K (prog i) e m) ->
  K known -> (List.length ms < n)%nat ->
  exists obs, run_iter (zl:=zl) fuel he o n prog 0 (iter_new (mk_raw (gz_bytes ms) p sched) block known) = (obs, EndStop)
    /\ List.length obs = List.length ms
    /\ forall i e m ob, nth_error ms i = Some (e, m) -> nth_error obs i = Some ob ->
         item_seen (prog i) e (p + gz_pos i ms) (lenZ m) ob.
Proof.
  intros Hne Hfit Hb HM Hfu Hfe Hgood Hk Hn.
  set (data := gz_bytes ms) in *. set (f := mk_raw data p sched). set (T := p + lenZ data).
  assert (G : exists R : raw -> bytes -> Prop, delivers raw_ops R /\ R f data /\ (forall s c, R s c -> raw_R T fuel s c)
    /\ (forall i e m, nth_error ms i = Some (e, m) -> fits_in M block R (prog i) e m)).
  { assert (Hraw : raw_R T fuel f data) by (unfold raw_R, f, T; cbn; repeat split; exact Hfu).
    destruct Hfit as [Hfit|[-> Hfit]].
    - exists (raw_R T fuel). split; [apply raw_delivers|]. split; [exact Hraw|]. split; [auto|]. intros. now left.
    - exists (raw_RX T fuel). split; [apply raw_deliversX|]. split; [split; [exact Hraw|reflexivity]|].
      split; [now intros s c [H _]|]. intros i e m Hi. right. split; [apply raw_exact_read|exact (Hfit i e m Hi)]. }
  destruct G as (R & HD & HR & HRr & Hfull).
  assert (exists m, n = (List.length ms + Datatypes.S m)%nat) as (n' & ->) by (exists (n - List.length ms - 1)%nat; lia).
  destruct ms as [|[e m] ms]; [contradiction|].
  - destruct (fits_part M block R (prog 0%nat) e m (gz_bytes ms) (Hfull 0%nat e m eq_refl)) as (L & Hpart & HLr & HLu).
    destruct (gz_first (zl:=zl) fuel he o M T block R K HD HRr HM L prog e m ms [] (iter_new f block known) Hgood) as (obs & it' & E & Hl & Hob & Hr).
    + intros i e' m' Hi. exact (Hfull (Datatypes.S i) e' m' Hi).
    + intros i e' m' Hi. apply (Hfe e' m'). right. exact (nth_error_In _ _ Hi).
    + exact HLr.
    + exact HLu.
    + rewrite app_nil_r. destruct (Hgood 0%nat e m eq_refl) as (_ & Hz & _). split; [|now repeat split].
      split; [|reflexivity]. pose proof (zfeed_app_done zl m _ (gz_bytes ms) _ _ Hz) as Hz'. cbn [app] in Hz'.
      refine (BI_member_part (zl:=zl) raw_ops fuel R (mk_rlim M L) Gzip f data block None (i_text e) (DDone (gz_bytes ms)) HR Hb _ _ _).
      * exact Hz'.
      * exact Hpart.
      * exact (Hfe e m (or_introl eq_refl)).
    + reflexivity.
    + rewrite app_nil_r. unfold T, f. cbn. unfold data, gz_bytes. cbn. lia.
    + exists obs. change (List.length ((e, m) :: ms)) with (Datatypes.S (List.length ms)). rewrite E.
      rewrite (gz_end (zl:=zl) fuel he o M T block R K HD HRr) by exact Hr. rewrite app_nil_r. split; [reflexivity|]. split; [exact Hl|exact Hob].
Qed.
