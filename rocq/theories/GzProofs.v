(** * GzProofs: iteration over archives with one gzip member per record *)
From Coq Require Import String List ZArith NArith Bool Lia.
From Coq Require Import ZifyBool ZifyNat ZifyN.
From Verif Require Import PyBase Facts Utf8 Headers Streams StreamSpec StreamProofs BufProofs FillProofs CallProofs
  HeaderSpec HeaderProofs Thm_Headers Loader Iterator SimProofs WriterSpec WriterProofs IterSpec IterProofs.
Import ListNotations.
Open Scope Z_scope.

Lemma fill_block {zl : zenv} fuel (b b' : breader zl raw) x : base_mode b -> fillbuff raw_ops fuel b = (x, b') -> br_all b = false ->
  br_block b' = br_block b.
Proof.
  intros Hm E Ha. unfold fillbuff in E.
  assert (match br_ck b with Some c => if ck_not c then fill_base raw_ops fuel b else chunk_fill raw_ops fuel fuel b
          | None => fill_base raw_ops fuel b end = fill_base raw_ops fuel b) as E0.
  { unfold base_mode in Hm. destruct (br_ck b) as [k|]; [now rewrite Hm|reflexivity]. }
  rewrite E0 in E. clear E0.
  assert (P : forall d (x : breader zl raw), br_block (process_read d x) = br_block x).
  { intros d y. unfold process_read. destruct (is_nil d); [reflexivity|].
    destruct (decompress d y) as [out z] eqn:Ed. cbn. unfold decompress in Ed.
    destruct (br_dec y) as [dd|]; [|now injection Ed as _ <-].
    destruct (is_nil d); [now injection Ed as _ <-|].
    destruct (dobj_decompress zl dd d) as [[o1|] d1]; [now injection Ed as _ <-|].
    destruct (br_nblk y =? 0); [|now injection Ed as _ <-].
    destruct (br_dtype y) as [[| |]|]; try now injection Ed as _ <-.
    destruct (dobj_decompress zl (DActive (zinit zl DeflateAlt)) d) as [[o2|] d2]; now injection Ed as _ <-. }
  assert (L : forall n d (x y : breader zl raw) r, fill_loop raw_ops n d x = (r, y) -> br_block y = br_block x).
  { induction n as [|n IH]; intros d x0 y r; cbn [fill_loop]; [intros H; now injection H as _ <-|].
    destruct (fill_cond d x0); [|intros H; now injection H as _ <-].
    destruct (o_read raw_ops _ _) as [[d'|e] s']; [|intros H; now injection H as _ <-].
    intros H. apply IH in H. rewrite H, P. reflexivity. }
  unfold fill_base, br_empty in E. rewrite Ha in E. destruct (buff_empty b); cbn [negb] in E; [|now injection E as _ <-].
  destruct (0 <? rem_length b); [now injection E as _ <-|].
  destruct (br_start b) as [[|d0 d]|].
  - destruct (o_read raw_ops _ _) as [[d|e] s']; [|now injection E as _ <-]. apply L in E. rewrite E, P. reflexivity.
  - apply L in E. rewrite E, P. reflexivity.
  - destruct (o_read raw_ops _ _) as [[d|e] s']; [|now injection E as _ <-]. apply L in E. rewrite E, P. reflexivity.
Qed.

(** members and the records in them *)
(** member [m] of [x] fits in a block, or its first block holds everything before the
    payload, and the consumer does not use readline *)
Definition gz_fits1 {zl} (block : Z) (us : list uop) (x : item zl) (m : bytes) : Prop :=
  lenZ m <= block
  \/ (no_lines us /\ exists o f, zfeed zl (zinit zl Gzip) (takeZ block m) = Some (o, f)
        /\ lenZ (i_text x) - lenZ (i_payload x) - lenZ (i_tail x) <= lenZ o).
Definition gz_bytes {X} (ms : list (X * bytes)) : bytes := concat (map snd ms).
Definition gz_pos {X} (i : nat) (ms : list (X * bytes)) : Z := lenZ (gz_bytes (firstn i ms)).
Definition gz_item_ok {zl} fuel he o (M : Z) K (x : item zl) : Prop :=
  (forall L, 0 <= L -> loadable fuel he o (mk_rlim M L) K (i_core x) (i_payload x) (i_V x) (i_P x)) /\ forallb is_bspace (i_tail x) = true.

Section Gz.
  Context {zl : zenv} (fuel : nat) (he : henv) (o : lopts) (M T block : Z) (R : raw -> bytes -> Prop) (K : option fmt -> Prop).
  Notation rdr := (breader zl raw).
  Notation rops := (rops (zl:=zl) fuel).
  Notation iter := (@iter zl).
  Notation good_core := (good_core (zl:=zl) K).
  Hypothesis HD : delivers raw_ops R.
  Hypothesis HRr : forall s c, R s c -> raw_R T fuel s c.
  Hypothesis HM : 0 <= M.
  Let Hfuel : forall s c, R s c -> (List.length c + 3 <= fuel)%nat.
  Proof. intros s c H. now apply (raw_R_fuel T fuel s), HRr. Qed.

  Notation rl L := (mk_rlim M L).
  Definition gzQ (L : Z) (after : bytes) (b : rdr) (c : bytes) : Prop :=
    BI (zl:=zl) raw_ops fuel R (rl L) true true after b c /\ br_block b = block.

  Lemma gzQ_ok L after : fill_ok raw_ops fuel (rl L) (gzQ L after).
  Proof.
    pose proof (BI_fill_ok (zl:=zl) raw_ops fuel R HD Hfuel (rl L) true true after) as FO. split.
    - intros b c (HB & Hb). destruct (fo_fill _ _ _ _ FO b c HB) as (b' & E & HB' & X). exists b'. split; [exact E|].
      split; [|exact X]. split; [exact HB'|]. destruct HB as (? & ? & _ & _ & _ & [Hall Hck _] & _).
      now rewrite (fill_block fuel b b' _ Hck E Hall).
    - intros b c (HB & _). exact (fo_buff _ _ _ _ FO b c HB).
    - intros b c n (HB & Hb) Hn. split; [now apply (fo_take _ _ _ _ FO)|exact Hb].
    - intros b c (HB & _). exact (fo_empty _ _ _ _ FO b c HB).
    - intros b c (HB & _). exact (fo_fuel _ _ _ _ FO b c HB).
  Qed.
  Let HL L after : exact_full_line rops (gzQ L after). Proof. exact (br_full_line raw_ops fuel (rl L) _ (gzQ_ok L after)). Qed.
  Let HE L after : exact_read rops (gzQ L after). Proof. exact (br_exact_read raw_ops fuel (rl L) _ (gzQ_ok L after)). Qed.
  Let HX L after : forall s c k, gzQ L after s c -> 0 < k -> lenZ (takeZ k (take_line c)) <= rM (rl L) ->
    lenZ (takeZ k (take_line c)) <= lenZ c - rL (rl L) ->
    exists s', o_readline rops (Some k) s = (Ok (takeZ k (take_line c)), s') /\ gzQ L after s' (dropZ (lenZ (takeZ k (take_line c))) c).
  Proof. intros s c k. exact (br_readline_exact raw_ops fuel (rl L) _ (gzQ_ok L after) s c k). Qed.
  Let HF L after : forall s c, gzQ L after s c -> (List.length c + 3 <= fuel)%nat. Proof. exact (fo_fuel _ _ _ _ (gzQ_ok L after)). Qed.
  Lemma gz_reader L after : reader_ok fuel (rl L) (gzQ L after).
  Proof. split; [exact (HL L after)|]. split; [exact (HE L after)|]. split; [exact (HX L after)|exact (HF L after)]. Qed.

  (** at the end of a member the position is that of the next one *)
  Definition ended (after : bytes) (b : rdr) : Prop :=
    (exists L, gzQ L after b []) /\ at_end R after b /\ has_dec b = true.

  Lemma ended_pos after b : ended after b -> rw_pos (br_stream b) - rem_length b = T - lenZ after.
  Proof.
    intros (_ & (Hb & c' & HR & -> & _) & _). apply HRr in HR as (_ & Hp & _). unfold rem_length, buff_data in *.
    destruct (br_buff b); subst; rewrite lenZ_app; cbn; lia.
  Qed.

  Lemma readline_end L after b : gzQ L after b [] -> exists b', o_readline rops None b = (Ok [], b') /\ ended after b'.
  Proof.
    intros (HB & Hb). destruct (BI_fill (zl:=zl) raw_ops fuel R HD Hfuel _ _ _ _ _ _ HB) as (b' & E & HB' & _ & He & _).
    pose proof (fo_empty _ _ _ _ (BI_fill_ok (zl:=zl) raw_ops fuel R HD Hfuel (rl L) true true after) b' [] HB') as Hem.
    assert (Hbe : buff_empty b' = true).
    { apply buff_empty_data. destruct HB' as (? & ? & _ & _ & Ec & _). symmetry in Ec. now apply app_eq_nil in Ec. }
    exists b'. split.
    - unfold rops, o_readline, br_ops, br_readline. rewrite E, Hem, Hbe. reflexivity.
    - destruct (He Hbe) as (_ & c' & X). split; [|split].
      + exists L. split; [exact HB'|]. destruct HB as (? & ? & _ & _ & _ & [Hall Hck _] & _). now rewrite (fill_block fuel b b' _ Hck E Hall).
      + split; [now apply buff_empty_data|]. exists c'. exact X.
      + destruct HB' as (c1 & p1 & HR1 & Hsrc & _ & Hst0 & _ & Hg & _). unfold has_dec. destruct Hsrc as [Hst|(_ & Hi & Hn)].
        * unfold steady in Hst. destruct (br_dec b'); [reflexivity|]. now destruct Hst.
        * destruct (startd b' ++ c1) eqn:Es.
          -- destruct (Hn eq_refl) as (_ & _ & _ & t & ->). reflexivity.
          -- exfalso. assert (exists d, first_block raw_ops b' d) as (d & Hd).
             { unfold first_block. destruct (startd b') as [|s0 st] eqn:E0; [|eauto]. cbn [app] in Es. rewrite Es in HR1.
               destruct (HD _ _ _ HR1 (st_block _ Hst0)) as (d & rest & s2 & E2 & _ & _ & _ & Hne).
               exists d, s2. split; [exact E2|]. intros ->. now specialize (Hne eq_refl). }
             destruct (Hi d Hd) as (t & _ & Et & _ & _ & [(-> & _)|(Hf & _)]); [|discriminate].
             rewrite (Hg eq_refl) in Et. discriminate.
  Qed.

  Lemma consume_gz L after n : forall first size errs r c, gzQ L after r c -> (List.length c < n)%nat ->
    exists nl sz er c' r', consume_loop fuel n first size errs r = (Ok (nl, sz, er), r')
      /\ skip_blank n first size errs c = (nl, sz, er, c') /\ (exists L', gzQ L' after r' c') /\ (nl = None -> ended after r').
  Proof.
    induction n as [|n IH]; intros first size errs r c HQ Hn; [lia|]. cbn [consume_loop skip_blank].
    pose proof (take_line_nil c) as Hnil. pose proof (take_drop_line c) as Hs.
    destruct (take_line c) as [|x line] eqn:E.
    - assert (c = []) as -> by now apply Hnil. destruct (readline_end L after r HQ) as (r' & -> & He).
      exists None, size, errs, [], r'. split; [reflexivity|]. split; [reflexivity|]. split; [apply He|intros _; exact He].
    - destruct (HL L after r c HQ) as (r' & -> & HQ'). rewrite E.
      destruct (is_nil (rstripp is_bspace (x :: line)) || first) eqn:Eb.
      + apply IH; [assumption|]. rewrite <- Hs in Hn. rewrite app_length in Hn. cbn [List.length] in Hn. lia.
      + eexists _, _, _, _, r'. split; [reflexivity|]. split; [reflexivity|]. split; [exists L; exact HQ'|discriminate].
  Qed.

  (** between two members *)
  Definition gz_ready (after : bytes) (it : iter) : Prop :=
    dead it /\ it_phase it = PYield /\ it_next_line it = None /\ ended after (it_reader it)
    /\ it_offset it = T - lenZ after /\ good_core it.

  Lemma skip_all_blank : forall n first size errs tl nl sz er c', forallb is_bspace tl = true ->
    skip_blank n first size errs tl = (nl, sz, er, c') -> nl = None.
  Proof using. clear.
    induction n as [|n IH]; intros first size errs tl nl sz er c' Hb; cbn [skip_blank]; [now intros [= <- _ _ _]|].
    rewrite <- (take_drop_line tl), forallb_app, andb_true_iff in Hb. destruct Hb as [H1 H2].
    destruct (take_line tl) as [|x l] eqn:E; [now intros [= <- _ _ _]|].
    rewrite (rstripp_all is_bspace _ H1). cbn [is_nil orb]. intros H. exact (IH _ _ _ _ _ _ _ _ H2 H).
  Qed.

  Lemma gz_rte V L after it off c tl : live (gzQ L after) V tl c it -> forallb is_bspace tl = true ->
    (it_phase it = PYield /\ it_offset it = off /\ good_core it) ->
    exists it', read_to_end fuel it = (Ok tt, it')
      /\ (it_member it' = Some (off, T - lenZ after - off) /\ holds V it' /\ gz_ready after it') /\ dead it'.
  Proof.
    intros (rc & Er & HR & Ed & Em) Hbl (Hp & Ho & Hg). pose proof (rec_len fuel (gzQ L after) (HF L after) V _ rc c HR) as Hfu.
    rewrite app_length in Hfu.
    unfold read_to_end. rewrite Er, Em.
    destruct (drain_rec fuel (gzQ L after) (rl L) (HL L after) (HE L after) (HX L after) (HF L after) HM V tl fuel rc c HR) as (l' & -> & E0 & HQ & HV). { lia. }
    unfold it_set_rstream at 1. cbn [it_reader rs_base].
    destruct (consume_gz L after fuel true 0 0 (rs_base l') _ HQ) as (nl & sz & er & c' & r' & -> & Hsk & HQ' & Hend). { lia. }
    assert (nl = None) by exact (skip_all_blank _ _ _ _ _ _ _ _ _ Hbl Hsk).
    subst nl. specialize (Hend eq_refl). pose proof (ended_pos after r' Hend) as Hpos.
    eexists. split; [reflexivity|].
    match goal with |- context [mk_iter ?a ?b ?k ?m ?n ?e ?rr ?p ?rg ?em] => set (it' := mk_iter a b k m n e rr p rg em) end.
    assert (Dd : dead it' /\ holds V it').
    { unfold it', it_set_reader, it_set_rstream. cbn. rewrite Er. split.
      - eexists. cbn. split; [reflexivity|]. split; [destruct l'; exact E0|]. split; [destruct l'; reflexivity|discriminate].
      - eexists. cbn. split; [reflexivity|]. unfold rc_checker in *. cbn [rc_stream rc_set_stream rc_chk] in *. destruct l'; exact HV. }
    destruct Dd as [Dd Hho].
    split; [|exact Dd]. split.
    - unfold it', it_set_reader, it_set_rstream. cbn [it_member it_offset]. destruct Hend as (_ & _ & Hh). rewrite Hh, Ho. do 2 f_equal. lia.
    - split; [exact Hho|]. split; [exact Dd|]. unfold it', it_set_reader, it_set_rstream. cbn. split; [exact Hp|]. split; [reflexivity|]. split; [exact Hend|].
      split; [exact Hpos|]. exact Hg.
  Qed.

  (** at the beginning of a member *)
  Definition gz_start (L : Z) (after c : bytes) (it : iter) : Prop :=
    gzQ L after (it_reader it) c /\ it_next_line it = None /\ good_core it.

  Lemma gz_one L after prog k it it2 (x : item zl) :
    iter_next fuel he o it = iter_loop fuel he o fuel it2 ->
    gz_start L after (i_text x) it2 -> gz_item_ok fuel he o M K x ->
    0 <= L <= lenZ (i_payload x) + lenZ (i_tail x) -> L = 0 \/ no_lines (prog k) ->
    nonneg_ops (prog k) -> user_lines M (prog k) (i_payload x) ->
    exists ob it', (forall n, run_iter fuel he o (Datatypes.S n) prog k it
        = (let (os, en) := run_iter fuel he o n prog (Datatypes.S k) it' in (ob :: os, en)))
      /\ item_seen (prog k) x (it_offset it2) (T - lenZ after - it_offset it2) ob
      /\ gz_ready after it'.
  Proof.
    intros Hnext (HQ & Hnl & Hg) (HP & Hbl) HLr HLu Hn Hu. pose proof (HF L after _ _ HQ) as Hfu.
    assert (Hat : at_line fuel (gzQ L after) (it_next_line it2) (it_reader it2) (i_core x ++ i_tail x)).
    { split; [exact Hfu|]. rewrite Hnl. exact HQ. }
    destruct (loop_record fuel he o (gzQ L after) (rl L) K (gz_reader L after) it2 (i_core x) _ (i_payload x) (i_V x) (i_P x) ltac:(lia) Hg Hat (HP L ltac:(lia)) (proj2 HLr))
      as (rc & it1 & E & Hl & Hg1 & Ho1 & Hp1 & F).
    destruct (user_run fuel (gzQ L after) (rl L) (HL L after) (HE L after) (HX L after) (HF L after) HM (i_V x)
                (fun it => it_member it = Some (it_offset it1, T - lenZ after - it_offset it1) /\ holds (i_V x) it /\ gz_ready after it)
                (fun i => it_phase i = PYield /\ it_offset i = it_offset it1 /\ good_core i) (i_tail x)) with (us := prog k) (it := it1) (c := i_payload x)
      as (i2 & E2 & i3 & E3 & (Em3 & (rc3 & Er3 & Hv3) & Hres) & Hd3).
    { intros a b (H1 & H2 & H3) Hab. pose proof (good_core_same K a b H3 Hab) as H4. destruct Hab as (?&?&?&?&?&?&?).
      split; [congruence|]. split; [congruence|exact H4]. }
    { intros i c Hli Hci. destruct (gz_rte (i_V x) L after i (it_offset it1) c _ Hli Hbl Hci) as (i' & X1 & X2 & X3). exists i'. auto. }
    { exact Hl. } { auto. } { exact Hn. } { exact Hu. } { destruct HLu as [->|HLu]; [left; apply lenZ_nonneg|now right]. }
    exists (mk_obs rc (map Ok (mem_user (prog k) (i_payload x))) (Ok (Some (it_offset it2, T - lenZ after - it_offset it2))) (dc_passed (rc_checker rc3))), i3.
    split; [|split; [|exact Hres]].
    - intros n. cbn [run_iter]. rewrite Hnext, E, E2, E3, Em3, Ho1. unfold it_passed. rewrite Er3. reflexivity.
    - unfold item_seen. cbn. split; [exact F|]. split; [reflexivity|]. split; [reflexivity|]. exists (rc_checker rc3). auto.
  Qed.

  (** moving to the next member *)
  Lemma gz_step L m after out it : gz_ready (m ++ after) it -> m <> [] -> is_member zl m out ->
    part_ok raw_ops R (rl L) (zinit zl Gzip) block (m ++ after) out after -> (List.length out + 3 <= fuel)%nat ->
    exists it2, iter_next fuel he o it = iter_loop fuel he o fuel it2 /\ gz_start L after out it2 /\ it_offset it2 = it_offset it.
  Proof.
    intros (Hd & Hp & Hnl & ((L0 & HB & Hbl) & Hend & Hh) & Ho & Hg) Hm Hz Hfit Hl.
    pose proof (zfeed_app_done zl m _ after _ _ Hz) as Hz'. cbn [app] in Hz'.
    destruct (next_member_part (zl:=zl) raw_ops fuel R (rl L0) (rl L) true (m ++ after) (it_reader it) out (DDone after) HB Hend) as (b' & E & HB' & Hb').
    { destruct m; [contradiction|discriminate]. } { exact Hz'. }
    { rewrite Hbl. exact Hfit. }
    { exact Hl. }
    exists (it_set_reader b' it). split; [|split].
    - unfold iter_next. rewrite Hp. unfold after_record. rewrite (dead_rte fuel it Hd), Hh, E. reflexivity.
    - split; [|split; [exact Hnl|exact Hg]]. split; [exact HB'|]. cbn. congruence.
    - reflexivity.
  Qed.

  Definition fits_in (us : list uop) (x : item zl) (m : bytes) : Prop :=
    M <= 1 \/ (exact_read raw_ops R /\ gz_fits1 block us x m).
  Lemma fits_part us x m after : fits_in us x m -> exists L, part_ok raw_ops R (rl L) (zinit zl Gzip) block (m ++ after) (i_text x) after
    /\ 0 <= L <= lenZ (i_payload x) + lenZ (i_tail x) /\ (L = 0 \/ no_lines us).
  Proof using. clear.
    pose proof (lenZ_nonneg (i_payload x)) as H0. pose proof (lenZ_nonneg (i_tail x)) as H1.
    intros [Hm|(He & [Hs|(Hu & o0 & f & Ez & Hl)])].
    - exists 0. split; [split; [apply Z.le_refl|now left]|]. split; [lia|now left].
    - exists 0. split; [split; [apply Z.le_refl|right; split; [exact He|left; rewrite lenZ_app; lia]]|]. split; [lia|now left].
    - destruct (Z.le_gt_cases (lenZ m) block) as [Hs|Hs].
      + exists 0. split; [split; [apply Z.le_refl|right; split; [exact He|left; rewrite lenZ_app; lia]]|]. split; [lia|now left].
      + exists (Z.max 0 (lenZ (i_text x) - lenZ o0)). cbn [rL rM]. split; [split; [cbn; lia|right; split; [exact He|right; right]]|split; [lia|now right]].
        exists o0, f. rewrite takeZ_app_le by lia. split; [exact Ez|]. cbn [rL]. lia.
  Qed.

  Lemma gz_end n prog k it : gz_ready [] it -> run_iter fuel he o (Datatypes.S n) prog k it = ([], EndStop).
  Proof.
    intros (Hd & Hp & Hnl & ((L0 & HB & Hbl) & Hend & Hh) & Ho & (G1 & G2 & G3)). cbn [run_iter].
    pose proof (next_member_iff (zl:=zl) R [] (it_reader it) Hend) as Hnm. cbn [is_nil negb] in Hnm.
    assert (Hread : exists r, read_next_member (it_reader it) = (false, r) /\ r = it_reader it).
    { unfold read_next_member in *. destruct (br_dec (it_reader it)) as [[?|[|? ?]|]|]; cbn in Hnm; try discriminate; eauto. }
    destruct Hread as (r & Er & ->).
    assert (Hset : it_set_reader (it_reader it) it = it) by (destruct Hd as (rc & E1 & _ & E3 & _); now apply (set_reader_same it rc)).
    unfold iter_next. rewrite Hp. unfold after_record at 1. rewrite (dead_rte fuel it Hd), Hh, Er, Hset, G3.
    pose proof (HF L0 [] _ _ (conj HB Hbl)) as Hfu. cbn in Hfu.
    replace (iter_loop fuel he o fuel (set_raise true it)) with (iter_loop fuel he o (Datatypes.S (pred fuel)) (set_raise true it)) by (f_equal; lia).
    cbn [iter_loop]. unfold next_record, set_raise. cbn [it_next_line it_known it_reader]. rewrite Hnl.
    destruct (readline_end L0 [] (it_reader it) (conj HB Hbl)) as (r' & E & (HQ' & Hend' & Hh')).
    assert (P : parse_record_stream rops fuel he o None (it_known it) (it_reader it) = (Err EOFError, r')).
    { unfold parse_record_stream, detect_type, parse, arc_parse. rewrite E. cbn. destruct (it_known it) as [[|]|]; reflexivity. }
    rewrite P. unfold after_record, read_to_end, set_empty, it_set_reader. cbn [it_record it_member it_reader it_empty].
    destruct Hd as (rc & -> & _ & _ & Hm). cbn [it_record]. destruct (it_member it); [|contradiction]. cbn [it_reader it_empty]. rewrite Hh'.
    pose proof (next_member_iff (zl:=zl) R [] r' Hend') as Hnm'. cbn [is_nil negb] in Hnm'.
    destruct (read_next_member r') as [b r2]. cbn [fst] in Hnm'. subst b. reflexivity.
  Qed.

  (** the list *)
  Definition gz_good (us : list uop) (x : item zl) (m : bytes) : Prop :=
    gz_item_ok fuel he o M K x /\ is_member zl m (i_text x) /\ nonneg_ops us /\ user_lines M us (i_payload x).
  Lemma gz_run prog : forall ms k,
    (forall i e m, nth_error ms i = Some (e, m) -> gz_good (prog (k + i)%nat) e m) ->
    (forall i e m, nth_error ms i = Some (e, m) -> fits_in (prog (k + i)%nat) e m) ->
    (forall i e m, nth_error ms i = Some (e, m) -> enough fuel (i_text e)) ->
    forall it more, gz_ready (gz_bytes ms ++ more) it ->
    exists obs it', (forall n, run_iter fuel he o (List.length ms + n) prog k it
        = (let (os, en) := run_iter fuel he o n prog (k + List.length ms) it' in (obs ++ os, en)))
      /\ List.length obs = List.length ms
      /\ (forall i e m ob, nth_error ms i = Some (e, m) -> nth_error obs i = Some ob ->
           item_seen (prog (k + i)%nat) e (it_offset it + gz_pos i ms) (lenZ m) ob)
      /\ gz_ready more it'.
  Proof.
    induction ms as [|[e m] ms IH]; intros k Hgood Hfit Hfu it more Hr.
    - exists [], it. split; [intros n; cbn; rewrite Nat.add_0_r; destruct (run_iter fuel he o n prog k it); reflexivity|].
      split; [reflexivity|]. split; [intros [|i] ? ? ? Hi; discriminate|exact Hr].
    - destruct (Hgood 0%nat e m eq_refl) as (Hok & Hz & He). rewrite Nat.add_0_r in He. destruct He as (Hnn & Hu).
      unfold gz_bytes in *. cbn [map snd concat] in *. rewrite <- app_assoc in Hr.
      assert (Hm : m <> []) by (intros ->; discriminate).
      pose proof (Hfit 0%nat e m eq_refl) as Hf0. rewrite Nat.add_0_r in Hf0.
      destruct (fits_part (prog k) e m (concat (map snd ms) ++ more) Hf0) as (L & Hpart & HLr & HLu).
      destruct (gz_step L m _ (i_text e) it Hr Hm Hz Hpart) as (it2 & En & Hst & Eo).
      { exact (Hfu 0%nat e m eq_refl). }
      destruct (gz_one L _ prog k it it2 e En Hst Hok HLr HLu Hnn Hu) as (ob & it' & E & Hob & Hr').
      destruct (IH (Datatypes.S k)) with (it := it') (more := more) as (obs & it'' & E2 & Hlen & Hobs & Hr2); auto.
      { intros i e' m' Hi. replace (Datatypes.S k + i)%nat with (k + Datatypes.S i)%nat by lia. now apply Hgood. }
      { intros i e' m' Hi. replace (Datatypes.S k + i)%nat with (k + Datatypes.S i)%nat by lia. now apply Hfit. }
      { intros i e' m' Hi. exact (Hfu (Datatypes.S i) e' m' Hi). }
      assert (Ho' : it_offset it' = it_offset it + lenZ m).
      { destruct Hr' as (_ & _ & _ & _ & -> & _), Hr as (_ & _ & _ & _ & -> & _). rewrite !lenZ_app. lia. }
      exists (ob :: obs), it''. split; [|split; [|split; [|exact Hr2]]].
      + intros n. cbn [List.length plus]. rewrite E, E2. replace (k + Datatypes.S (List.length ms))%nat with (Datatypes.S k + List.length ms)%nat by lia.
        destruct (run_iter fuel he o n prog _ it''); reflexivity.
      + cbn. now rewrite Hlen.
      + intros [|i] e' m' ob' Hi Hi'; cbn [nth_error] in Hi, Hi'.
        * injection Hi as <- <-. injection Hi' as <-. rewrite Nat.add_0_r. unfold gz_pos, gz_bytes. cbn. rewrite Z.add_0_r.
          replace (lenZ m) with (T - lenZ (concat (map snd ms) ++ more) - it_offset it2); [rewrite <- Eo; exact Hob|].
          rewrite Eo. destruct Hr as (_ & _ & _ & _ & -> & _). rewrite !lenZ_app. lia.
        * pose proof (Hobs i e' m' ob' Hi Hi') as X. replace (k + Datatypes.S i)%nat with (Datatypes.S k + i)%nat by lia.
          replace (it_offset it + gz_pos (Datatypes.S i) ((e, m) :: ms)) with (it_offset it' + gz_pos i ms); [exact X|].
          rewrite Ho'. unfold gz_pos, gz_bytes. cbn [firstn map snd concat]. rewrite lenZ_app. lia.
  Qed.

  (** from the beginning of the first member *)
  Lemma gz_first L prog : forall e m ms more it,
    (forall i e' m', nth_error ((e, m) :: ms) i = Some (e', m') -> gz_good (prog i) e' m') ->
    (forall i e' m', nth_error ms i = Some (e', m') -> fits_in (prog (Datatypes.S i)) e' m') ->
    (forall i e' m', nth_error ms i = Some (e', m') -> enough fuel (i_text e')) ->
    0 <= L <= lenZ (i_payload e) + lenZ (i_tail e) -> L = 0 \/ no_lines (prog 0%nat) ->
    gz_start L (gz_bytes ms ++ more) (i_text e) it -> it_phase it = PStart -> it_offset it = T - lenZ (m ++ gz_bytes ms ++ more) ->
    exists obs it', (forall n, run_iter fuel he o (Datatypes.S (List.length ms) + n) prog 0 it
        = (let (os, en) := run_iter fuel he o n prog (Datatypes.S (List.length ms)) it' in (obs ++ os, en)))
      /\ List.length obs = Datatypes.S (List.length ms)
      /\ (forall i e' m' ob, nth_error ((e, m) :: ms) i = Some (e', m') -> nth_error obs i = Some ob ->
           item_seen (prog i) e' (it_offset it + gz_pos i ((e, m) :: ms)) (lenZ m') ob)
      /\ gz_ready more it'.
  Proof.
    intros e m ms more it Hgood Hfit Hfu HLr HLu Hst Hp Ho.
    destruct (Hgood 0%nat e m eq_refl) as (Hok & Hz & Hnn & Hu).
    destruct (gz_one L _ prog 0%nat it it e ltac:(unfold iter_next; now rewrite Hp) Hst Hok HLr HLu Hnn Hu) as (ob & it' & E & Hob & Hr').
    destruct (gz_run prog ms 1%nat) with (it := it') (more := more) as (obs & it'' & E2 & Hlen & Hobs & Hr2);
      [intros i e' m' Hi; exact (Hgood (Datatypes.S i) e' m' Hi)|exact Hfit|exact Hfu|exact Hr'|].
    assert (Ho' : it_offset it' = it_offset it + lenZ m).
    { destruct Hr' as (_ & _ & _ & _ & -> & _). rewrite Ho, !lenZ_app. lia. }
    exists (ob :: obs), it''. split; [|split; [|split; [|exact Hr2]]].
    - intros n. cbn [plus]. rewrite E, E2. cbn [plus]. destruct (run_iter fuel he o n prog _ it''); reflexivity.
    - cbn. now rewrite Hlen.
    - intros [|i] e' m' ob' Hi Hi'; cbn [nth_error] in Hi, Hi'.
      + injection Hi as <- <-. injection Hi' as <-. unfold gz_pos, gz_bytes. cbn. rewrite Z.add_0_r.
        replace (lenZ m) with (T - lenZ (gz_bytes ms ++ more) - it_offset it); [exact Hob|]. rewrite Ho, !lenZ_app. lia.
      + pose proof (Hobs i e' m' ob' Hi Hi') as X.
        replace (it_offset it + gz_pos (Datatypes.S i) ((e, m) :: ms)) with (it_offset it' + gz_pos i ms); [exact X|].
        rewrite Ho'. unfold gz_pos, gz_bytes. cbn [firstn map snd concat]. rewrite lenZ_app. lia.
  Qed.
  (** ** several records in the last member *)
  Lemma gzQ_dec L after b c : gzQ L after b c -> has_dec b = true.
  Proof.
    intros ((c1 & p1 & HR1 & Hsrc & _ & Hst0 & _ & Hg & _) & _). unfold has_dec. destruct Hsrc as [Hst|(_ & Hi & Hn)].
    - unfold steady in Hst. destruct (br_dec b); [reflexivity|]. now destruct Hst.
    - destruct (startd b ++ c1) eqn:Es.
      + destruct (Hn eq_refl) as (_ & _ & _ & t & ->). reflexivity.
      + assert (exists d, first_block raw_ops b d) as (d & Hd).
        { unfold first_block. destruct (startd b) as [|s0 st] eqn:E0; [|eauto]. cbn [app] in Es. rewrite Es in HR1.
          destruct (HD _ _ _ HR1 (st_block _ Hst0)) as (d & rest & s2 & E2 & _ & _ & _ & Hne).
          exists d, s2. split; [exact E2|]. intros ->. now specialize (Hne eq_refl). }
        destruct (Hi d Hd) as (t & -> & _). reflexivity.
  Qed.

  Lemma gzQ_no_next L b c : gzQ L [] b c -> read_next_member b = (false, b).
  Proof.
    intros ((c1 & p1 & HR1 & Hsrc & _ & Hst0 & _ & Hg & _) & _). unfold read_next_member. destruct Hsrc as [Hst|(_ & Hi & Hn)].
    - unfold steady in Hst. destruct (br_dec b) as [[?|[|x u]|]|]; try reflexivity. destruct Hst as (_ & _ & _ & H). discriminate.
    - destruct (startd b ++ c1) eqn:Es.
      + destruct (Hn eq_refl) as (_ & _ & _ & t & ->). reflexivity.
      + assert (exists d, first_block raw_ops b d) as (d & Hd).
        { unfold first_block. destruct (startd b) as [|s0 st] eqn:E0; [|eauto]. cbn [app] in Es. rewrite Es in HR1.
          destruct (HD _ _ _ HR1 (st_block _ Hst0)) as (d & rest & s2 & E2 & _ & _ & _ & Hne).
          exists d, s2. split; [exact E2|]. intros ->. now specialize (Hne eq_refl). }
        destruct (Hi d Hd) as (t & -> & _). reflexivity.
  Qed.

  (** in the middle of the last member *)
  Definition gz_inside (more : bytes) (it : iter) : Prop :=
    dead it /\ it_phase it = PYield /\ at_line fuel (gzQ 0 []) (it_next_line it) (it_reader it) more /\ good_core it.

  Lemma gz_rte_more V it tl more c off : live (gzQ 0 []) V (tl ++ more) c it -> blank_tail tl -> starts_text more ->
    (it_phase it = PYield /\ it_offset it = off /\ good_core it) ->
    exists it', read_to_end fuel it = (Ok tt, it') /\ ((exists len, it_member it' = Some (off, len)) /\ holds V it' /\ gz_inside more it') /\ dead it'.
  Proof.
    intros (rc & Er & HR & Ed & Em) Hbl Hst (Hp & Ho & Hg). pose proof (rec_len fuel (gzQ 0 []) (HF 0 []) V _ rc c HR) as Hfu.
    rewrite !app_length in Hfu.
    unfold read_to_end. rewrite Er, Em.
    destruct (drain_rec fuel (gzQ 0 []) (rl 0) (HL 0 []) (HE 0 []) (HX 0 []) (HF 0 []) HM V _ fuel rc c HR) as (l' & -> & E0 & HQ & HV). { lia. }
    unfold it_set_rstream at 1. cbn [it_reader rs_base].
    destruct (consume_ok fuel (gzQ 0 []) (rl 0) (HL 0 []) (HE 0 []) (HX 0 []) (HF 0 []) HM fuel true 0 0 (rs_base l') _ HQ) as (nl & sz & er & c' & r' & -> & Hsk & HQ').
    { rewrite app_length. lia. }
    assert (Hmore : more = (match nl with Some l => l | None => [] end) ++ c').
    { symmetry. apply (skipped_blank fuel tl); [exists nl, sz, er, c'; split; [exact Hsk|reflexivity]|exact Hbl|exact Hst|rewrite app_length; lia]. }
    destruct (skip_blank_len fuel true 0 0 _ nl sz er c' Hsk) as [Hlen Hnl]. { rewrite app_length. lia. }
    eexists. split; [reflexivity|].
    match goal with |- context [mk_iter ?a ?b ?k ?m ?n ?e ?rr ?p ?rg ?em] => set (it' := mk_iter a b k m n e rr p rg em) end.
    assert (Dd : dead it' /\ holds V it').
    { unfold it', it_set_reader, it_set_rstream. cbn. rewrite Er. split.
      - eexists. cbn. split; [reflexivity|]. split; [destruct l'; exact E0|]. split; [destruct l'; reflexivity|discriminate].
      - eexists. cbn. split; [reflexivity|]. unfold rc_checker in *. cbn [rc_stream rc_set_stream rc_chk] in *. destruct l'; exact HV. }
    destruct Dd as [Dd Hho].
    split; [|exact Dd]. split.
    - unfold it', it_set_reader, it_set_rstream. cbn [it_member it_offset]. rewrite Ho. eauto.
    - split; [exact Hho|]. split; [exact Dd|]. unfold it', it_set_reader, it_set_rstream. cbn [it_phase it_next_line it_reader]. split; [exact Hp|]. split.
      + split; [lia|]. destruct nl as [x|]; [|rewrite Hmore; exact HQ']. destruct Hnl as (c2 & Hne & -> & -> & _).
        rewrite take_drop_line in Hmore. rewrite Hmore. split; [exact Hne|]. split; [reflexivity|exact HQ'].
      + exact Hg.
  Qed.

  Lemma gz_multi prog k it it2 (x x2 : item zl) rest2 n :
    iter_next fuel he o it = iter_loop fuel he o fuel it2 ->
    gz_start 0 [] (i_text x ++ i_core x2 ++ rest2) it2 ->
    item_ok fuel he o M K x -> blank_tail (i_tail x) -> item_ok fuel he o M K x2 ->
    nonneg_ops (prog k) -> user_lines M (prog k) (i_payload x) ->
    exists ob len, run_iter fuel he o (Datatypes.S (Datatypes.S n)) prog k it = ([ob], EndExn ArchiveLoadFailed)
      /\ item_seen (prog k) x (it_offset it2) len ob.
  Proof.
    intros Hnext (HQ & Hnl & Hg) (HP & _) Hbl (HP2 & _ & Hst & _) Hn Hu. pose proof (HF 0 [] _ _ HQ) as Hfu. specialize (Hst rest2).
    unfold i_text in HQ. rewrite <- app_assoc in HQ.
    assert (Hat : at_line fuel (gzQ 0 []) (it_next_line it2) (it_reader it2) (i_core x ++ i_tail x ++ i_core x2 ++ rest2)).
    { split; [exact (HF 0 [] _ _ HQ)|]. rewrite Hnl. exact HQ. }
    destruct (loop_record fuel he o (gzQ 0 []) (rl 0) K (gz_reader 0 []) it2 (i_core x) _ (i_payload x) (i_V x) (i_P x) ltac:(lia) Hg Hat HP ltac:(cbn [rL]; pose proof (lenZ_nonneg (i_payload x)); match goal with |- _ <= _ + lenZ ?t => pose proof (lenZ_nonneg t) end; lia))
      as (rc & it1 & E & Hl & Hg1 & Ho1 & Hp1 & F).
    destruct (user_run fuel (gzQ 0 []) (rl 0) (HL 0 []) (HE 0 []) (HX 0 []) (HF 0 []) HM (i_V x)
                (fun it => (exists len, it_member it = Some (it_offset it1, len)) /\ holds (i_V x) it /\ gz_inside (i_core x2 ++ rest2) it)
                (fun i => it_phase i = PYield /\ it_offset i = it_offset it1 /\ good_core i) (i_tail x ++ i_core x2 ++ rest2)) with (us := prog k) (it := it1) (c := i_payload x)
      as (i2 & E2 & i3 & E3 & ((len & Em3) & (rc3 & Er3 & Hv3) & Hres) & Hd3).
    { intros a b (H1 & H2 & H3) Hab. pose proof (good_core_same K a b H3 Hab) as H4. destruct Hab as (?&?&?&?&?&?&?).
      split; [congruence|]. split; [congruence|exact H4]. }
    { intros i c Hli Hci. destruct (gz_rte_more (i_V x) i _ _ c (it_offset it1) Hli Hbl Hst Hci) as (i' & X1 & X2 & X3). exists i'. auto. }
    { exact Hl. } { auto. } { exact Hn. } { exact Hu. } { left. apply lenZ_nonneg. }
    exists (mk_obs rc (map Ok (mem_user (prog k) (i_payload x))) (Ok (Some (it_offset it2, len))) (dc_passed (rc_checker rc3))), len. split.
    2: { unfold item_seen. cbn. split; [exact F|]. split; [reflexivity|]. split; [reflexivity|]. exists (rc_checker rc3). auto. }
    cbn [run_iter]. rewrite Hnext, E, E2, E3, Em3, Ho1. replace (it_passed i3) with (dc_passed (rc_checker rc3)) by (unfold it_passed; now rewrite Er3).
    destruct Hres as (Hd & Hp & Hat3 & (G1 & G2 & G3)).
    assert (X : iter_next fuel he o i3 = (fst (iter_next fuel he o i3), snd (iter_next fuel he o i3))) by apply surjective_pairing.
    assert (Y : fst (iter_next fuel he o i3) = Err ArchiveLoadFailed).
    { clear X. unfold iter_next. rewrite Hp. unfold after_record at 1. rewrite (dead_rte fuel i3 Hd).
      assert (exists c3, gzQ 0 [] (it_reader i3) c3) as (c3 & Hq3).
      { destruct Hat3 as (_ & Hat3). destruct (it_next_line i3); [destruct Hat3 as (_ & _ & H3)|]; eauto. }
      rewrite (gzQ_dec 0 [] _ c3 Hq3), (gzQ_no_next 0 _ c3 Hq3).
      assert (Hset : it_set_reader (it_reader i3) i3 = i3) by (destruct Hd as (rc4 & E31 & _ & E33 & _); now apply (set_reader_same i3 rc4)).
      rewrite Hset, G3.
      destruct (HP2 (gzQ 0 []) (gz_reader 0 []) _ _ rest2 (it_known i3) G1 Hat3 ltac:(cbn [rL rl0]; pose proof (lenZ_nonneg (i_payload x2)); pose proof (lenZ_nonneg rest2); lia)) as (rc2 & Ep & _).
      replace (iter_loop fuel he o fuel (set_raise true i3)) with (iter_loop fuel he o (Datatypes.S (pred fuel)) (set_raise true i3)) by (f_equal; lia).
      cbn [iter_loop]. unfold next_record, set_raise. cbn [it_next_line it_known it_reader]. rewrite Ep. reflexivity. }
    rewrite X, Y. reflexivity.
  Qed.
End Gz.

(** a complete iteration *)
Definition gz_fits {zl} (M block : Z) (sched : list Z) (prog : nat -> list uop) (ms : list (item zl * bytes)) : Prop :=
  M <= 1 \/ (sched = [] /\ forall i e m, nth_error ms i = Some (e, m) -> gz_fits1 block (prog i) e m).
Lemma gz_items {zl : zenv} fuel he o M K prog p (ms : list (item zl * bytes)) sched block known n :
  ms <> [] -> gz_fits M block sched prog ms -> 0 < block -> 0 <= M ->
  enough fuel (gz_bytes ms) -> (forall e m, In (e, m) ms -> enough fuel (i_text e)) ->
  (forall i e m, nth_error ms i = Some (e, m) -> gz_good fuel he o M K (prog i) e m) ->
  K known -> (List.length ms < n)%nat ->
  exists obs, run_iter (zl:=zl) fuel he o n prog 0 (iter_new (mk_raw (gz_bytes ms) p sched) block known) = (obs, EndStop)
    /\ List.length obs = List.length ms
    /\ forall i e m ob, nth_error ms i = Some (e, m) -> nth_error obs i = Some ob ->
         item_seen (prog i) e (p + gz_pos i ms) (lenZ m) ob.
Proof.
  intros Hne Hfit Hb HM Hfu Hfe Hgood Hk Hn.
  set (data := gz_bytes ms) in *. set (f := mk_raw data p sched). set (T := p + lenZ data).
  assert (G : exists R : raw -> bytes -> Prop, delivers raw_ops R /\ R f data /\ (forall s c, R s c -> raw_R T fuel s c)
    /\ (forall i e m, nth_error ms i = Some (e, m) -> fits_in M block R (prog i) e m)).
  { assert (Hraw : raw_R T fuel f data) by (unfold raw_R, f, T; cbn; repeat split; exact Hfu).
    destruct Hfit as [Hfit|[-> Hfit]].
    - exists (raw_R T fuel). split; [apply raw_delivers|]. split; [exact Hraw|]. split; [auto|]. intros. now left.
    - exists (raw_RX T fuel). split; [apply raw_deliversX|]. split; [split; [exact Hraw|reflexivity]|].
      split; [now intros s c [H _]|]. intros i e m Hi. right. split; [apply raw_exact_read|exact (Hfit i e m Hi)]. }
  destruct G as (R & HD & HR & HRr & Hfull).
  assert (exists m, n = (List.length ms + Datatypes.S m)%nat) as (n' & ->) by (exists (n - List.length ms - 1)%nat; lia).
  destruct ms as [|[e m] ms]; [contradiction|].
  - destruct (fits_part M block R (prog 0%nat) e m (gz_bytes ms) (Hfull 0%nat e m eq_refl)) as (L & Hpart & HLr & HLu).
    destruct (gz_first (zl:=zl) fuel he o M T block R K HD HRr HM L prog e m ms [] (iter_new f block known) Hgood) as (obs & it' & E & Hl & Hob & Hr).
    + intros i e' m' Hi. exact (Hfull (Datatypes.S i) e' m' Hi).
    + intros i e' m' Hi. apply (Hfe e' m'). right. exact (nth_error_In _ _ Hi).
    + exact HLr.
    + exact HLu.
    + rewrite app_nil_r. destruct (Hgood 0%nat e m eq_refl) as (_ & Hz & _). split; [|now repeat split].
      split; [|reflexivity]. pose proof (zfeed_app_done zl m _ (gz_bytes ms) _ _ Hz) as Hz'. cbn [app] in Hz'.
      refine (BI_member_part (zl:=zl) raw_ops fuel R (mk_rlim M L) Gzip f data block None (i_text e) (DDone (gz_bytes ms)) HR Hb _ _ _).
      * exact Hz'.
      * exact Hpart.
      * exact (Hfe e m (or_introl eq_refl)).
    + reflexivity.
    + rewrite app_nil_r. unfold T, f. cbn. unfold data, gz_bytes. cbn. lia.
    + exists obs. change (List.length ((e, m) :: ms)) with (Datatypes.S (List.length ms)). rewrite E.
      rewrite (gz_end (zl:=zl) fuel he o M T block R K HD HRr) by exact Hr. rewrite app_nil_r. split; [reflexivity|]. split; [exact Hl|exact Hob].
Qed.

(** the last member holds several records *)
Lemma gz_items_multi {zl : zenv} fuel he o M K prog p (ms : list (item zl * bytes)) m (x1 x2 : item zl) rest sched block known n :
  is_member zl m (i_text x1 ++ i_core x2 ++ rest) -> enough fuel (i_text x1 ++ i_core x2 ++ rest) ->
  (M <= 1 \/ (sched = [] /\ lenZ m <= block)) -> gz_fits M block sched prog ms -> 0 < block -> 0 <= M ->
  enough fuel (gz_bytes ms ++ m) -> (forall e m, In (e, m) ms -> enough fuel (i_text e)) ->
  (forall i e m, nth_error ms i = Some (e, m) -> gz_good fuel he o M K (prog i) e m) ->
  item_ok fuel he o M K x1 -> blank_tail (i_tail x1) -> item_ok fuel he o M K x2 ->
  nonneg_ops (prog (List.length ms)) -> user_lines M (prog (List.length ms)) (i_payload x1) ->
  K known -> (List.length ms + 1 < n)%nat ->
  exists obs ob len, run_iter (zl:=zl) fuel he o n prog 0 (iter_new (mk_raw (gz_bytes ms ++ m) p sched) block known) = (obs ++ [ob], EndExn ArchiveLoadFailed)
    /\ List.length obs = List.length ms
    /\ (forall i e m ob, nth_error ms i = Some (e, m) -> nth_error obs i = Some ob ->
         item_seen (prog i) e (p + gz_pos i ms) (lenZ m) ob)
    /\ item_seen (prog (List.length ms)) x1 (p + lenZ (gz_bytes ms)) len ob.
Proof.
  intros Hm Hfm Hfit Hfit0 Hb HM Hfu Hfe Hgood Hok1 Hbt1 Hok2 Hnn Hu Hk Hn.
  set (data := gz_bytes ms ++ m) in *. set (f := mk_raw data p sched). set (T := p + lenZ data).
  assert (G : exists R : raw -> bytes -> Prop, delivers raw_ops R /\ R f data /\ (forall s c, R s c -> raw_R T fuel s c)
    /\ (M <= 1 \/ (exact_read raw_ops R /\ lenZ m <= block))
    /\ (forall i e m, nth_error ms i = Some (e, m) -> fits_in M block R (prog i) e m)).
  { assert (Hraw : raw_R T fuel f data) by (unfold raw_R, f, T; cbn; repeat split; exact Hfu).
    destruct Hfit as [Hfit|[-> Hfit]].
    - exists (raw_R T fuel). split; [apply raw_delivers|]. split; [exact Hraw|]. split; [auto|]. split; [now left|]. intros. now left.
    - exists (raw_RX T fuel). split; [apply raw_deliversX|]. split; [split; [exact Hraw|reflexivity]|].
      split; [now intros s c [H _]|]. split; [right; split; [apply raw_exact_read|exact Hfit]|].
      intros i e m0 Hi. destruct Hfit0 as [Hfit0|[_ Hfit0]]; [now left|right]. split; [apply raw_exact_read|exact (Hfit0 i e m0 Hi)]. }
  destruct G as (R & HD & HR & HRr & Hfull & Hfull0).
  destruct ms as [|[e m0] ms].
  - destruct (gz_multi (zl:=zl) fuel he o M T block R K HD HRr HM prog 0%nat (iter_new f block known) (iter_new f block known) x1 x2 rest (n - 2) eq_refl) as (ob & len & E & Hob);
      [|assumption..|].
    { split; [|now repeat split]. split; [|reflexivity].
       refine (BI_member (zl:=zl) raw_ops fuel R M Gzip f data block None (i_text x1 ++ i_core x2 ++ rest) (DDone []) HR Hb _ _ _).
      - exact Hm.
      - destruct Hfull as [Hf|(Hx & Hf)]; [now left|right]. split; [exact Hx|]. cbn [dun app]. unfold data. cbn. change (lenZ []) with 0. lia.
      - exact Hfm. }
    exists [], ob, len. cbn [List.length] in Hn. replace n with (Datatypes.S (Datatypes.S (n - 2))) by lia. split; [exact E|]. split; [reflexivity|].
    split; [intros [|i] ? ? ? Hi; discriminate|]. unfold gz_bytes. cbn [map concat]. change (lenZ []) with 0. rewrite Z.add_0_r. exact Hob.
  - destruct (fits_part M block R (prog 0%nat) e m0 (gz_bytes ms ++ m) (Hfull0 0%nat e m0 eq_refl)) as (L & Hpart & HLr & HLu).
    destruct (gz_first (zl:=zl) fuel he o M T block R K HD HRr HM L prog e m0 ms m (iter_new f block known) Hgood) as (obs & it' & E & Hl & Hob & Hr).
    + intros i e' m' Hi. exact (Hfull0 (Datatypes.S i) e' m' Hi).
    + intros i e' m' Hi. apply (Hfe e' m'). right. exact (nth_error_In _ _ Hi).
    + exact HLr.
    + exact HLu.
    + destruct (Hgood 0%nat e m0 eq_refl) as (_ & Hz & _). split; [|now repeat split].
      split; [|reflexivity]. pose proof (zfeed_app_done zl m0 _ (gz_bytes ms ++ m) _ _ Hz) as Hz'. cbn [app] in Hz'.
      refine (BI_member_part (zl:=zl) raw_ops fuel R (mk_rlim M L) Gzip f data block None (i_text e) (DDone (gz_bytes ms ++ m)) HR Hb _ _ _).
      * unfold data, gz_bytes. cbn [map snd concat app]. rewrite <- app_assoc. exact Hz'.
      * unfold data, gz_bytes. cbn [map snd concat app]. rewrite <- app_assoc. exact Hpart.
      * exact (Hfe e m0 (or_introl eq_refl)).
    + reflexivity.
    + unfold T, f. cbn. unfold data, gz_bytes. cbn. rewrite !lenZ_app. lia.
    + assert (Hne : m <> []) by (intros ->; discriminate). rewrite <- (app_nil_r m) in Hr.
      destruct (gz_step (zl:=zl) fuel he o M T block R K 0 m [] _ it' Hr Hne Hm) as (it2 & En & Hst2 & Eo).
      { split; [apply Z.le_refl|]. destruct Hfull as [Hf|(Hx & Hf)]; [now left|right]. split; [exact Hx|left]. rewrite lenZ_app. lia. }
      { exact Hfm. }
      cbn [List.length] in Hn.
      destruct (gz_multi (zl:=zl) fuel he o M T block R K HD HRr HM prog (Datatypes.S (List.length ms)) it' it2 x1 x2 rest (n - List.length ms - 3) En Hst2) as (ob & len & E2 & Hob2);
        [assumption..|].
      pose proof (E (Datatypes.S (Datatypes.S (n - List.length ms - 3)))) as E3. change (prod (item zl) (list N)) with (prod (item zl) bytes) in E2. rewrite E2 in E3.
      replace (Datatypes.S (List.length ms) + Datatypes.S (Datatypes.S (n - List.length ms - 3)))%nat with n in E3 by lia.
      exists obs, ob, len. split; [exact E3|]. split; [exact Hl|]. split; [exact Hob|].
      cbn [List.length]. replace (p + lenZ (gz_bytes ((e, m0) :: ms))) with (it_offset it2); [exact Hob2|].
      rewrite Eo. destruct Hr as (_ & _ & _ & _ & -> & _). rewrite app_nil_r. unfold T, data. rewrite lenZ_app. lia.
Qed.

(** ** WARC members *)
Definition gz_list {zl : zenv} (he : henv) (o : lopts) (ms : list (entry * bytes)) : list (item zl * bytes) :=
  map (fun x => (entry_item he o (fst x), snd x)) ms.
Lemma gz_list_bytes {zl : zenv} he o ms : gz_bytes (gz_list (zl:=zl) he o ms) = gz_data ms.
Proof. unfold gz_bytes, gz_list, gz_data. now rewrite map_map. Qed.
Lemma gz_list_nth {zl : zenv} he o ms i x m : nth_error (gz_list (zl:=zl) he o ms) i = Some (x, m) ->
  exists e, nth_error ms i = Some (e, m) /\ x = entry_item he o e.
Proof.
  unfold gz_list. rewrite nth_error_map. destruct (nth_error ms i) as [[e m']|]; [|discriminate]. cbn. intros [= <- <-]. eauto.
Qed.
Lemma gz_list_good {zl : zenv} fuel he o M (prog : nat -> list uop) ms : 0 <= M -> lo_ensure o = false ->
  (forall i e m, nth_error ms i = Some (e, m) -> good_entry fuel he o M (prog i) e /\ is_member zl m (e_text e)) ->
  forall i x m, nth_error (gz_list (zl:=zl) he o ms) i = Some (x, m) -> gz_good fuel he o M warc_known (prog i) x m.
Proof.
  intros HM Hen Hgood i x m Hi. apply gz_list_nth in Hi as (e & Hi & ->). destruct (Hgood i e m Hi) as (Hg & Hz).
  assert (H1 : forall L, 0 <= L -> _) by (intros L HL; exact (proj1 (entry_item_ok (zl:=zl) fuel he o (mk_rlim M L) _ e HM Hen Hg))). pose proof (entry_item_text (zl:=zl) he o e (good_entry_text _ _ _ _ _ _ Hg)) as (Et & _).
  split; [split; [exact H1|reflexivity]|]. rewrite Et. split; [exact Hz|]. destruct Hg as (_ & _ & _ & _ & _ & A & B). now split.
Qed.
Lemma gz_list_seen {zl : zenv} he o (prog : nat -> list uop) p ms (obs : list (@Iterator.obs zl)) :
  (forall i x m ob, nth_error (gz_list (zl:=zl) he o ms) i = Some (x, m) -> nth_error obs i = Some ob ->
     item_seen (prog i) x (p + gz_pos i (gz_list (zl:=zl) he o ms)) (lenZ m) ob) ->
  forall i e m ob, nth_error ms i = Some (e, m) -> nth_error obs i = Some ob ->
     observed he o (e_rec e) (e_http e) (e_payload e) (p + gz_position i ms) (lenZ m) (prog i) ob.
Proof.
  intros H i e m ob Hi Hi'. assert (nth_error (gz_list (zl:=zl) he o ms) i = Some (entry_item he o e, m)) as Hi2.
  { unfold gz_list. now rewrite nth_error_map, Hi. }
  pose proof (H i _ m ob Hi2 Hi') as X. apply entry_observed. unfold gz_pos, gz_list in X. rewrite firstn_map in X. fold (gz_list (zl:=zl) he o (firstn i ms)) in X.
  rewrite gz_list_bytes in X. exact X.
Qed.
Lemma gz_list_texts {zl : zenv} fuel he o M prog ms :
  (forall i e m, nth_error ms i = Some (e, m) -> good_entry fuel he o M (prog i) e /\ is_member zl m (e_text e)) ->
  (forall e m, In (e, m) ms -> enough fuel (e_text e)) ->
  forall x m, In (x, m) (gz_list (zl:=zl) he o ms) -> enough fuel (i_text x).
Proof.
  intros Hgood Hfe x m Hin. apply In_nth_error in Hin as (i & Hi). apply gz_list_nth in Hi as (e & Hi & ->). destruct (Hgood i e m Hi) as (Hg & _).
  rewrite (proj1 (entry_item_text (zl:=zl) he o e (good_entry_text _ _ _ _ _ _ Hg))). apply (Hfe e m). exact (nth_error_In _ _ Hi).
Qed.
Lemma gz_list_fits {zl : zenv} he o M block sched prog ms :
  (forall i e m, nth_error ms i = Some (e, m) -> exists head, e_text e = head ++ w_block (e_rec e) ++ [13; 10; 13; 10]%N) ->
  gz_fit zl M block sched prog ms -> gz_fits M block sched prog (gz_list (zl:=zl) he o ms).
Proof.
  intros Ht [H|[Hs H]]; [now left|right]. split; [exact Hs|]. intros i x m Hi. apply gz_list_nth in Hi as (e & Hi & ->).
  pose proof (entry_item_text (zl:=zl) he o e (Ht i e m Hi)) as (Et & _). unfold gz_fits1. rewrite Et.
  destruct (H i e m Hi) as [H'|(Hn & o' & d & E & Hl)]; [now left|right]. split; [exact Hn|]. exists o', d. split; [exact E|]. exact Hl.
Qed.

Lemma gz_archive {zl : zenv} fuel he o M prog p ms sched block known n :
  ms <> [] -> gz_fit zl M block sched prog ms -> 0 < block -> 0 <= M ->
  enough fuel (gz_data ms) -> (forall e m, In (e, m) ms -> enough fuel (e_text e)) ->
  (forall i e m, nth_error ms i = Some (e, m) -> good_entry fuel he o M (prog i) e /\ is_member zl m (e_text e)) ->
  lo_ensure o = false -> known <> Some FArc -> (List.length ms < n)%nat ->
  exists obs, run_iter (zl:=zl) fuel he o n prog 0 (iter_new (mk_raw (gz_data ms) p sched) block known) = (obs, EndStop)
    /\ List.length obs = List.length ms
    /\ forall i e m ob, nth_error ms i = Some (e, m) -> nth_error obs i = Some ob ->
         observed he o (e_rec e) (e_http e) (e_payload e) (p + gz_position i ms) (lenZ m) (prog i) ob.
Proof.
  intros Hne Hfit Hb HM Hfu Hfe Hgood Hoff Hk Hn.
  destruct (gz_items (zl:=zl) fuel he o M warc_known prog p (gz_list he o ms) sched block known n) as (obs & E & Hl & Hob); auto.
  { destruct ms; [contradiction|discriminate]. }
  { apply gz_list_fits; [|exact Hfit]. intros i e m Hi. exact (good_entry_text _ _ _ _ _ _ (proj1 (Hgood i e m Hi))). }
  { now rewrite gz_list_bytes. }
  { exact (gz_list_texts fuel he o M prog ms Hgood Hfe). }
  { now apply gz_list_good. }
  { unfold gz_list. now rewrite map_length. }
  rewrite gz_list_bytes in E. exists obs. split; [exact E|]. split; [unfold gz_list in Hl; now rewrite map_length in Hl|]. now apply gz_list_seen.
Qed.

(** the last member holds several records *)
Lemma gz_archive_multi {zl : zenv} fuel he o M prog p (ms : list (entry * bytes)) m es sched block known n :
  (2 <= List.length es)%nat -> is_member zl m (texts es) -> enough fuel (texts es) ->
  (M <= 1 \/ (sched = [] /\ lenZ m <= block)) -> gz_fit zl M block sched prog ms -> 0 < block -> 0 <= M ->
  enough fuel (gz_data ms ++ m) -> (forall e m, In (e, m) ms -> enough fuel (e_text e)) ->
  (forall i e m, nth_error ms i = Some (e, m) -> good_entry fuel he o M (prog i) e /\ is_member zl m (e_text e)) ->
  (forall e, In e es -> good_entry fuel he o M (prog (List.length ms)) e) ->
  lo_ensure o = false -> known <> Some FArc -> (List.length ms + 1 < n)%nat ->
  exists obs ob len, run_iter (zl:=zl) fuel he o n prog 0 (iter_new (mk_raw (gz_data ms ++ m) p sched) block known) = (obs ++ [ob], EndExn ArchiveLoadFailed)
    /\ List.length obs = List.length ms
    /\ (forall i e m ob, nth_error ms i = Some (e, m) -> nth_error obs i = Some ob ->
         observed he o (e_rec e) (e_http e) (e_payload e) (p + gz_position i ms) (lenZ m) (prog i) ob)
    /\ forall e, nth_error es 0 = Some e -> observed he o (e_rec e) (e_http e) (e_payload e) (p + lenZ (gz_data ms)) len (prog (List.length ms)) ob.
Proof.
  intros Hlen Hm Hfm Hfit Hfit0 Hb HM Hfu Hfe Hgood Hmulti Hoff Hk Hn.
  destruct es as [|e1 [|e2 es]]; [cbn in Hlen; lia|cbn in Hlen; lia|].
  pose proof (Hmulti e1 (or_introl eq_refl)) as H1. pose proof (Hmulti e2 (or_intror (or_introl eq_refl))) as H2.
  destruct (entry_item_text (zl:=zl) he o e1 (good_entry_text _ _ _ _ _ _ H1)) as (Et1 & _).
  destruct (entry_item_text (zl:=zl) he o e2 (good_entry_text _ _ _ _ _ _ H2)) as (Et2 & _).
  assert (Hall : texts (e1 :: e2 :: es) = i_text (entry_item (zl:=zl) he o e1) ++ i_core (entry_item (zl:=zl) he o e2) ++ (i_tail (entry_item (zl:=zl) he o e2) ++ texts es)).
  { rewrite Et1, (app_assoc (i_core _)). fold (i_text (entry_item (zl:=zl) he o e2)). rewrite Et2. unfold texts. cbn [map concat]. reflexivity. }
  rewrite Hall in Hm, Hfm. pose proof H1 as (_ & _ & _ & _ & _ & Hnn & Hu).
  destruct (gz_items_multi (zl:=zl) fuel he o M warc_known prog p (gz_list he o ms) m _ _ _ sched block known n Hm Hfm) as (obs & ob & len & E & Hl & Hob & Hob1); auto.
  { apply gz_list_fits; [|exact Hfit0]. intros i e m' Hi. exact (good_entry_text _ _ _ _ _ _ (proj1 (Hgood i e m' Hi))). }
  { now rewrite gz_list_bytes. }
  { exact (gz_list_texts fuel he o M prog ms Hgood Hfe). }
  { now apply gz_list_good. }
  { eapply entry_item_ok; eauto. } { exists [13; 10; 13]%N. split; reflexivity. } { eapply entry_item_ok; eauto. }
  { unfold gz_list. now rewrite map_length. } { unfold gz_list. now rewrite map_length. }
  { unfold gz_list. now rewrite map_length. }
  unfold gz_list in Hl, Hob1. rewrite map_length in Hl, Hob1. fold (gz_list (zl:=zl) he o ms) in Hob1. rewrite gz_list_bytes in E, Hob1.
  exists obs, ob, len. split; [exact E|]. split; [exact Hl|]. split; [now apply gz_list_seen|]. intros e [= <-]. now apply entry_observed.
Qed.
