(** * TermTools: the command line tools come to an end on every input *)
From Coq Require Import List ZArith NArith Bool String Lia Wellfounded.
From Coq Require Import ZifyBool ZifyNat ZifyN.
From Verif Require Import PyBase Utf8 Facts Headers Streams Loader Iterator Writer Cli WriterProofs CliProofs.
From Verif Require Import TermSpec TermProofs TermLoad TermIter TermContent ReadSpec TermRead.
Import ListNotations.
Open Scope Z_scope.

Section Tools.
  Context {zl : zenv} (he : henv).
  Notation rdr := (breader zl raw).
  Notation it_t := (@iter zl).
  Notation CS := (cstream zl rdr).
  Notation Ir' := (Irs (@Ir zl)).
  Notation mr' := (mrs (@mr zl)).
  Notation Er' := (@Ers rdr).

  (** ** Copying streams *)
  Lemma read_entire_c (c : CS) : Ic c ->
    exists x c', conv2 (fun k f => @read_entire zl f k c) (x, c') /\
      Ic c' /\ keeps Ir' mr' Er' (cs_raw c) (cs_raw c') /\ match x with Ok _ => True | Err e => Er' (cs_raw c) e end.
  Proof.
    remember (mc c) as k eqn:Hk. revert c Hk.
    induction k as [k IH] using (well_founded_induction lt3_wf). intros c Hk HI. subst k.
    destruct (cs_read_c (Some 1048576) c HI) as (x & c1 & [N HN] & H1 & H2 & H3 & H4).
    assert (St : forall k f, (N <= f)%nat -> @read_entire zl f (Datatypes.S k) c
                 = match x with Err e => (Err e, c1) | Ok [] => (Ok tt, c1) | Ok b => read_entire f k c1 end).
    { intros k f Hf. cbn [read_entire]. rewrite HN by lia. now destruct x as [[|? ?]|?]. }
    destruct x as [[|b0 b]|e].
    - exists (Ok tt), c1. split; [|now split]. exists (Datatypes.S N). intros [|k] f Hn Hf; [lia|]. rewrite St by lia. reflexivity.
    - specialize (H4 ltac:(discriminate)).
      destruct (IH _ H4 c1 eq_refl H1) as (x & c' & [M HM] & J1 & J2 & J3).
      exists x, c'. split.
      { exists (Datatypes.S (Nat.max N M)). intros [|k] f Hn Hf; [lia|]. rewrite St by lia. apply HM; lia. }
      split; [exact J1|]. split; [exact (keeps_trans _ _ _ _ _ _ H3 J2)|]. destruct x; [exact Logic.I|]. now apply H3.
    - exists (Err e), c1. split; [|now split]. exists (Datatypes.S N). intros [|k] f Hn Hf; [lia|]. rewrite St by lia. reflexivity.
  Qed.

  Lemma copy_content_c (c : CS) : Ic c ->
    exists x ws, conv2 (fun k f => @copy_content zl f k c) (x, ws) /\ match x with Ok _ => True | Err e => Er' (cs_raw c) e end.
  Proof.
    remember (mc c) as k eqn:Hk. revert c Hk.
    induction k as [k IH] using (well_founded_induction lt3_wf). intros c Hk HI. subst k.
    destruct (cs_read_c (Some READ_SIZE) c HI) as (x & c1 & [N HN] & H1 & H2 & H3 & H4).
    assert (St : forall k f, (N <= f)%nat -> @copy_content zl f (Datatypes.S k) c
                 = match x with Err e => (Err e, []) | Ok [] => (Ok tt, []) | Ok b => let (x, ws) := copy_content f k c1 in (x, b :: ws) end).
    { intros k f Hf. cbn [copy_content]. rewrite HN by lia. now destruct x as [[|? ?]|?]. }
    destruct x as [[|b0 b]|e].
    - exists (Ok tt), []. split; [|exact Logic.I]. exists (Datatypes.S N). intros [|k] f Hn Hf; [lia|]. rewrite St by lia. reflexivity.
    - specialize (H4 ltac:(discriminate)).
      destruct (IH _ H4 c1 eq_refl H1) as (x & ws & [M HM] & J).
      exists x, ((b0 :: b) :: ws). split.
      { exists (Datatypes.S (Nat.max N M)). intros [|k] f Hn Hf; [lia|]. rewrite St by lia. rewrite HM by lia. reflexivity. }
      destruct x; [exact Logic.I|]. now apply H3.
    - exists (Err e), []. split; [|exact H4]. exists (Datatypes.S N). intros [|k] f Hn Hf; [lia|]. rewrite St by lia. reflexivity.
  Qed.

  Lemma rs_read_c n (st : rstream rdr) : Ir' st ->
    exists x st', conv (fun f => rs_read (@rops zl f) n st) (x, st') /\ keeps Ir' mr' Er' st st' /\
      match x with Ok d => d <> [] -> mlt (mr' st') (mr' st) | Err e => Er' st e end.
  Proof.
    intros HI. destruct (g_read _ _ _ _ gr n st HI) as ([x st'] & C & H1 & H2 & H3 & H4). cbn [fst snd] in *.
    exists x, st'. split; [exact C|]. split; [now split|]. destruct x as [d|e]; [|exact H4].
    intros Hd. destruct d; [contradiction|]. cbn [List.length] in H4. ms_lia.
  Qed.

  Lemma copy_raw_c (st : rstream rdr) : Ir' st ->
    exists x ws, conv2 (fun k f => @copy_raw zl f k st) (x, ws) /\ match x with Ok _ => True | Err e => Er' st e end.
  Proof.
    remember (mr' st) as k eqn:Hk. revert st Hk.
    induction k as [k IH] using (well_founded_induction mlt_wf). intros st Hk HI. subst k.
    destruct (rs_read_c (Some READ_SIZE) st HI) as (x & st1 & [N HN] & H3 & H4).
    assert (St : forall k f, (N <= f)%nat -> @copy_raw zl f (Datatypes.S k) st
                 = match x with Err e => (Err e, []) | Ok [] => (Ok tt, []) | Ok b => let (x, ws) := copy_raw f k st1 in (x, b :: ws) end).
    { intros k f Hf. cbn [copy_raw]. rewrite HN by lia. now destruct x as [[|? ?]|?]. }
    destruct x as [[|b0 b]|e].
    - exists (Ok tt), []. split; [|exact Logic.I]. exists (Datatypes.S N). intros [|k] f Hn Hf; [lia|]. rewrite St by lia. reflexivity.
    - specialize (H4 ltac:(discriminate)).
      destruct (IH _ H4 st1 eq_refl (proj1 H3)) as (x & ws & [M HM] & J).
      exists x, ((b0 :: b) :: ws). split.
      { exists (Datatypes.S (Nat.max N M)). intros [|k] f Hn Hf; [lia|]. rewrite St by lia. rewrite HM by lia. reflexivity. }
      destruct x; [exact Logic.I|]. now apply H3.
    - exists (Err e), []. split; [|exact H4]. exists (Datatypes.S N). intros [|k] f Hn Hf; [lia|]. rewrite St by lia. reflexivity.
  Qed.

  Lemma collect_c (st : rstream rdr) : Ir' st ->
    exists x st', conv2 (fun k f => @collect zl f k st) (x, st') /\ keeps Ir' mr' Er' st st' /\
      match x with Ok _ => True | Err e => Er' st e end.
  Proof.
    remember (mr' st) as k eqn:Hk. revert st Hk.
    induction k as [k IH] using (well_founded_induction mlt_wf). intros st Hk HI. subst k.
    destruct (rs_read_c (Some BUFF_SIZE) st HI) as (x & st1 & [N HN] & H3 & H4).
    assert (St : forall k f, (N <= f)%nat -> @collect zl f (Datatypes.S k) st
                 = match x with Err e => (Err e, st1) | Ok [] => (Ok [], st1)
                   | Ok b => match collect f k st1 with (Ok l, s2) => (Ok (b ++ l), s2) | (Err e, s2) => (Err e, s2) end end).
    { intros k f Hf. cbn [collect]. rewrite HN by lia. now destruct x as [[|? ?]|?]. }
    destruct x as [[|b0 b]|e].
    - exists (Ok []), st1. split; [|now split]. exists (Datatypes.S N). intros [|k] f Hn Hf; [lia|]. rewrite St by lia. reflexivity.
    - specialize (H4 ltac:(discriminate)).
      destruct (IH _ H4 st1 eq_refl (proj1 H3)) as (x & st2 & [M HM] & J1 & J2).
      exists (match x with Ok l => Ok ((b0 :: b) ++ l) | Err e => Err e end), st2. split.
      { exists (Datatypes.S (Nat.max N M)). intros [|k] f Hn Hf; [lia|]. rewrite St by lia. rewrite HM by lia. now destruct x. }
      split; [exact (keeps_trans _ _ _ _ _ _ H3 J1)|]. destruct x; [exact Logic.I|]. now apply H3.
    - exists (Err e), st1. split; [|now split]. exists (Datatypes.S N). intros [|k] f Hn Hf; [lia|]. rewrite St by lia. reflexivity.
  Qed.

  (** ** Asking for the offset *)
  Lemma rte_record f (it : it_t) x it' : read_to_end f it = (x, it') -> it_record it <> None -> it_record it' <> None.
  Proof.
    unfold read_to_end. destruct (it_record it) as [rc|] eqn:Er; [|contradiction]. intros H _.
    destruct (it_member it); [injection H as _ <-; congruence|].
    destruct (drain f f (rc_stream rc)) as [[u|e] st]; [|injection H as _ <-; cbn [it_set_rstream it_record]; rewrite Er; discriminate].
    destruct (consume_loop _ _ _ _ _ _) as [[[[nl size] errs]|e] r2]; injection H as _ <-;
      cbn [it_set_reader it_set_rstream it_record]; rewrite Er; discriminate.
  Qed.

  Lemma info_c o (it : it_t) : Ii o it -> it_record it <> None ->
    exists x it', conv (fun f => @get_offset_length zl f it) (x, it') /\ Ii o it' /\ mle (mi it') (mi it) /\
      it_phase it' = it_phase it /\ it_record it' <> None /\
      match x with Ok i => i <> None | Err e => opt_exn o e end.
  Proof.
    intros HI Hr. destruct (rte_conv o it HI) as (x & it1 & [N HN] & A1 & A2 & A3 & A4 & A5 & A6).
    assert (Hr1 : it_record it1 <> None) by (eapply rte_record; [exact (HN N (Nat.le_refl _))|exact Hr]).
    exists (match x with Ok _ => Ok (it_member it1) | Err e => Err e end), it1.
    split. { exists N. intros f Hf. unfold get_offset_length. rewrite HN by lia. now destruct x. }
    split; [exact A1|]. split; [exact A2|]. split; [exact A3|]. split; [exact Hr1|].
    destruct x as [[]|e]; [|exact A6]. destruct A6 as [H|H]; [contradiction|exact H].
  Qed.

  (** ** index *)
  Lemma get_field_c o filename name (it : it_t) : Ii o it -> it_record it <> None ->
    exists x it', conv (fun f => @get_field zl f filename name it) (x, it') /\ Ii o it' /\ mle (mi it') (mi it) /\
      it_phase it' = it_phase it /\ it_record it' <> None /\
      match x with Ok _ => True | Err e => opt_exn o e end.
  Proof.
    intros HI Hr. unfold get_field. destruct (it_record it) as [rc|] eqn:Er; [|contradiction].
    assert (Hr' : it_record it <> None) by congruence.
    assert (Hk : forall r, exists x it', conv (fun _ : nat => (Ok r, it)) (x, it') /\ Ii o it' /\ mle (mi it') (mi it) /\
      it_phase it' = it_phase it /\ it_record it' <> None /\ match x : res (option str) with Ok _ => True | Err e => opt_exn o e end).
    { intros r. exists (Ok r), it. split; [apply conv_const|]. split; [exact HI|]. split; [apply mle_refl|]. now repeat split. }
    destruct (leqb name (lit "offset")); [|destruct (leqb name (lit "length"))].
    1,2: destruct (info_c o it HI Hr') as (x & it1 & [N HN] & A1 & A2 & A3 & A4 & A5);
         destruct x as [[[off len]|]|e]; [|contradiction|];
         [eexists (Ok _), it1|exists (Err e), it1];
         (split; [exists N; intros f Hf; now rewrite HN|]); (split; [exact A1|]); (split; [exact A2|]); (split; [exact A3|]);
         (split; [exact A4|]); first [exact Logic.I|exact A5].
    destruct (leqb name (lit "filename")); [apply Hk|]. destruct (leqb name (lit "http:status")); [apply Hk|].
    destruct (is_http_field name); apply Hk.
  Qed.

  Lemma index_fields_c o filename fields : forall d (it : it_t), Ii o it -> it_record it <> None ->
    exists x it', conv (fun f => @index_fields zl f filename fields d it) (x, it') /\ Ii o it' /\ mle (mi it') (mi it) /\
      it_phase it' = it_phase it /\ match x with Ok _ => True | Err e => opt_exn o e end.
  Proof.
    induction fields as [|g fields IH]; intros d it HI Hr.
    { exists (Ok d), it. split; [now exists O|]. split; [exact HI|]. split; [apply mle_refl|]. now split. }
    destruct (get_field_c o filename g it HI Hr) as (x & it1 & [N HN] & A1 & A2 & A3 & A4 & A5).
    destruct x as [v|e].
    - destruct (IH (match v with Some v => od_set g v d | None => d end) it1 A1 A4) as (y & it2 & [M HM] & B1 & B2 & B3 & B4).
      exists y, it2. split.
      { exists (Nat.max N M). intros f Hf. cbn [index_fields]. rewrite HN by lia. destruct v; apply HM; lia. }
      split; [exact B1|]. split; [ms_lia|]. split; [congruence|exact B4].
    - exists (Err e), it1. split.
      { exists N. intros f Hf. cbn [index_fields]. rewrite HN by lia. reflexivity. }
      split; [exact A1|]. split; [exact A2|]. now split.
  Qed.

  Lemma iter_next_c o (it : it_t) : Ip o it ->
    exists x it', conv (fun f => @iter_next zl f he o it) (x, it') /\
      match x with
      | Ok (Some rc) => Ii o it' /\ mlt (mi it') (mi it) /\ it_phase it' = PYield /\ it_record it' = Some rc
      | Ok None => True
      | Err e => iter_exn o e
      end.
  Proof.
    intros HI. destruct (iter_next_conv he o it HI) as (x & it1 & [N HN] & H). exists x, it1. split; [now exists N|].
    destruct x as [[rc|]|e]; [|exact Logic.I|exact H]. destruct H as (H1 & H2 & H3).
    split; [exact H1|]. split; [exact H2|]. split; [exact H3|]. eapply iter_next_some. exact (HN N (Nat.le_refl _)).
  Qed.

  Lemma index_loop_c o filename fields (it : it_t) : Ip o it ->
    exists ds en, conv2 (fun n f => @index_loop zl f he n o filename fields it) (ds, en) /\
      match en with EndStop => True | EndExn e => iter_exn o e end.
  Proof.
    remember (mi it) as j eqn:Hj. revert it Hj.
    induction j as [j IH] using (well_founded_induction mlt_wf). intros it Hj HI. subst j.
    destruct (iter_next_c o it HI) as (x & it1 & [N HN] & H).
    destruct x as [[rc|]|e].
    - destruct H as (H1 & H2 & H3 & H4).
      destruct (index_fields_c o filename fields [] it1 H1 ltac:(congruence)) as (y & it2 & [M HM] & A1 & A2 & A3 & A4).
      destruct y as [d|e].
      + assert (Hlt : mlt (mi it2) (mi it)) by ms_lia.
        destruct (IH _ Hlt it2 eq_refl) as (ds & en & [Q HQ] & C).
        { split; [exact A1|]. intros Hp. congruence. }
        exists (d :: ds), en. split; [|exact C].
        exists (Datatypes.S (Nat.max (Nat.max N M) Q)). intros [|n] f Hn Hf; [lia|]. cbn [index_loop].
        rewrite HN, HM by lia. rewrite HQ by lia. reflexivity.
      + exists [], (EndExn e). split; [|right; now left].
        exists (Datatypes.S (Nat.max N M)). intros [|n] f Hn Hf; [lia|]. cbn [index_loop]. rewrite HN, HM by lia. reflexivity.
    - exists [], EndStop. split; [|exact Logic.I].
      exists (Datatypes.S N). intros [|n] f Hn Hf; [lia|]. cbn [index_loop]. rewrite HN by lia. reflexivity.
    - exists [], (EndExn e). split; [|exact H].
      exists (Datatypes.S N). intros [|n] f Hn Hf; [lia|]. cbn [index_loop]. rewrite HN by lia. reflexivity.
  Qed.

  (** a file opened anywhere *)
  Lemma new_raw_ok o (r : raw) block known : Ip o (@iter_new zl r block known).
  Proof.
    split; [|intros _; now left]. split; [split; [reflexivity|discriminate]|]. split; [discriminate|exact Logic.I].
  Qed.

  Lemma index_all_c verify uuid fields : forall files,
    exists ds en, conv2 (fun n f => @index_all zl f he n verify uuid fields files) (ds, en) /\
      match en with EndStop => True | EndExn e => iter_exn (index_opts fields verify uuid) e end.
  Proof.
    induction files as [|[name r] files IH].
    { exists [], EndStop. split; [now exists O|exact Logic.I]. }
    destruct (index_loop_c (index_opts fields verify uuid) name fields (iter_new r BUFF_SIZE None)
                (new_raw_ok _ _ _ _)) as (ds & en & [N HN] & X).
    destruct IH as (ds' & en' & [M HM] & X').
    destruct en as [|e].
    - exists (ds ++ ds'), en'. split; [|exact X']. exists (Nat.max N M). intros n f Hn Hf. cbn [index_all].
      unfold index_file. rewrite HN, HM by lia. reflexivity.
    - exists ds, (EndExn e). split; [|exact X]. exists N. intros n f Hn Hf. cbn [index_all]. unfold index_file.
      rewrite HN by lia. reflexivity.
  Qed.

  (** ** check *)
  Lemma check_loop_c o verbose name printed ev (it : it_t) : Ip o it ->
    exists x ev' ms, conv2 (fun n f => @check_loop zl f he n o verbose name printed ev it) (x, ev', ms) /\
      match x with Ok _ => True | Err e => iter_exn o e end.
  Proof.
    remember (mi it) as j eqn:Hj. revert printed ev it Hj.
    induction j as [j IH] using (well_founded_induction mlt_wf). intros printed ev it Hj HI. subst j.
    destruct (iter_next_c o it HI) as (x & it1 & [N HN] & H).
    destruct x as [[rc|]|e].
    2:{ exists (Ok tt), ev, []. split; [|exact Logic.I].
        exists (Datatypes.S N). intros [|n] f Hn Hf; [lia|]. cbn [check_loop]. rewrite HN by lia. reflexivity. }
    2:{ exists (Err e), ev, []. split; [|exact H].
        exists (Datatypes.S N). intros [|n] f Hn Hf; [lia|]. cbn [check_loop]. rewrite HN by lia. reflexivity. }
    destruct H as (H1 & H2 & H3 & H4).
    pose proof H1 as (_ & _ & R). rewrite H4 in R. destruct R as (R1 & R2 & R3).
    destruct (content_stream_ok (zl:=zl) (rc_http rc) (rc_stream rc) R2) as [C1 C2].
    destruct (read_entire_c _ C1) as (y & c & Cv & J1 & J2 & J3). rewrite C2 in J2, J3.
    apply conv2_diag in Cv. destruct Cv as [M HM].
    destruct y as [[]|e].
    2:{ exists (Err e), ev, []. split; [|right; left; now apply R3].
        exists (Datatypes.S (Nat.max N M)). intros [|n] f Hn Hf; [lia|]. cbn [check_loop].
        rewrite HN by lia. cbn zeta. rewrite HM by lia. reflexivity. }
    destruct (set_rstream_ok o (cs_raw c) it1 rc H1 H4 J2) as (A1 & A2 & A3 & A4 & A5).
    assert (Hr : it_record (it_set_rstream (cs_raw c) it1) <> None).
    { cbn [it_set_rstream it_record]. rewrite H4. discriminate. }
    destruct (info_c o _ A1 Hr) as (i & it3 & [P HP] & B1 & B2 & B3 & B4 & B5).
    destruct i as [info|e].
    2:{ exists (Err e), ev, []. split; [|right; now left].
        exists (Datatypes.S (Nat.max (Nat.max N M) P)). intros [|n] f Hn Hf; [lia|]. cbn [check_loop].
        rewrite HN by lia. cbn zeta. rewrite HM by lia. cbn zeta. rewrite HP by lia. reflexivity. }
    assert (Hlt : mlt (mi it3) (mi it)) by ms_lia.
    assert (Hp : Ip o it3).
    { split; [exact B1|]. intros Hp. congruence. }
    pose (h := rc_headers rc).
    pose (chk := match it_record it3 with Some rc => rc_checker rc | None => rc_chk rc end).
    pose (failed := match dc_passed chk with Some false => true | _ => false end).
    pose (ms0 := match check_text verbose (dc_passed chk)
                        (truthy (get_header (lit "WARC-Payload-Digest") h) || truthy (get_header (lit "WARC-Block-Digest") h))
                        (get_header (lit "WARC-Type") h), (if failed then dc_problems chk else []) with
                 | None, [] => []
                 | t, out => (if printed then [] else [MFile name])
                          ++ [MRecord (match info with Some (off, _) => off | None => 0 end) (get_header (lit "WARC-Record-ID") h) (get_header (lit "WARC-Type") h)]
                          ++ (match t with Some t => [MText t] | None => [] end) ++ map MProblem out
                 end).
    destruct (IH _ Hlt (printed || negb (is_nil ms0)) (if failed then 1 else ev) it3 eq_refl Hp) as (x & ev' & ms & [Q HQ] & X).
    exists x, ev', (ms0 ++ ms). split; [|exact X].
    exists (Datatypes.S (Nat.max (Nat.max (Nat.max N M) P) Q)). intros [|n] f Hn Hf; [lia|]. cbn [check_loop].
    rewrite HN by lia. cbn zeta. rewrite HM by lia. cbn zeta. rewrite HP by lia. cbn zeta.
    specialize (HQ n f ltac:(lia) ltac:(lia)). unfold ms0, failed, chk, h in *.
    destruct (check_text _ _ _ _); destruct (match dc_passed _ with Some false => true | _ => false end) in HQ |- *;
      try destruct (dc_problems _); rewrite HQ; reflexivity.
  Qed.

  Lemma check_all_c verbose uuid : forall files ev,
    exists x ms, conv2 (fun n f => @check_all zl f he n verbose uuid ev files) (x, ms) /\
      match x with Ok _ => True | Err e => iter_exn (check_opts uuid) e /\ e <> ArchiveLoadFailed end.
  Proof.
    induction files as [|[name r] files IH]; intros ev.
    { exists (Ok ev), []. split; [now exists O|exact Logic.I]. }
    destruct (check_loop_c (check_opts uuid) verbose name false ev (iter_new r BUFF_SIZE None)
                (new_raw_ok _ _ _ _)) as (x & ev' & ms & [N HN] & X).
    destruct x as [[]|e].
    - destruct (IH ev') as (x' & ms' & [M HM] & X'). exists x', (ms ++ ms'). split; [|exact X'].
      exists (Nat.max N M). intros n f Hn Hf. cbn [check_all]. rewrite HN, HM by lia. reflexivity.
    - destruct (match e with ArchiveLoadFailed => true | _ => false end) eqn:Ea.
      + destruct e; try discriminate Ea. destruct (IH 1) as (x' & ms' & [M HM] & X').
        exists x', (ms ++ [MFile name; MFailed] ++ ms'). split; [|exact X'].
        exists (Nat.max N M). intros n f Hn Hf. cbn [check_all]. rewrite HN, HM by lia. reflexivity.
      + exists (Err e), ms. split; [|split; [exact X|destruct e; congruence]].
        exists N. intros n f Hn Hf. cbn [check_all]. rewrite HN by lia. now destruct e.
  Qed.

  (** ** extract *)
  Definition extract_exn (o : lopts) (e : exn) : Prop := iter_exn o e \/ e = UnicodeErr.
  Lemma extract_c uuid p h (r : raw) :
    exists x ws, conv (fun f => @extract zl f he uuid p h r) (x, ws) /\
      match x with XExn e => extract_exn (extract_opts uuid) e | _ => True end.
  Proof.
    unfold extract.
    destruct (iter_next_c (extract_opts uuid) (iter_new r BUFF_SIZE None) (new_raw_ok _ _ _ _)) as (x & it1 & [N HN] & H).
    destruct x as [[rc|]|e].
    2:{ exists XStop, []. split; [exists N; intros f Hf; now rewrite HN|exact Logic.I]. }
    2:{ exists (XExn e), []. split; [exists N; intros f Hf; now rewrite HN|now left]. }
    destruct H as (H1 & H2 & H3 & H4).
    pose proof H1 as (_ & _ & R). rewrite H4 in R. destruct R as (R1 & R2 & R3).
    destruct p.
    { destruct (content_stream_ok (zl:=zl) (rc_http rc) (rc_stream rc) R2) as [C1 C2].
      destruct (copy_content_c _ C1) as (y & ws & Cv & J). rewrite C2 in J. apply conv2_diag in Cv. destruct Cv as [M HM].
      exists (xend y), ws. split; [exists (Nat.max N M); intros f Hf; rewrite HN, HM by lia; reflexivity|].
      destruct y as [[]|e]; [exact Logic.I|]. left. right. left. now apply R3. }
    destruct (to_bytes None (rc_headers rc)) as [hb|e] eqn:Eh.
    2:{ exists (XExn e), []. split; [exists N; intros f Hf; rewrite HN, Eh by lia; reflexivity|].
        right. unfold to_bytes in Eh. destruct (Utf8.utf8_encode _); congruence. }
    destruct (match rc_http rc with
              | Some h => if sah_bool h then match to_bytes None h with Ok b => Ok [b] | Err e => Err e end else Ok []
              | None => Ok [] end) as [w1|e] eqn:Ew.
    2:{ exists (XExn e), [hb]. split; [exists N; intros f Hf; rewrite HN, Eh, Ew by lia; reflexivity|].
        right. destruct (rc_http rc) as [s|]; [|discriminate]. destruct (sah_bool s); [|discriminate].
        unfold to_bytes in Ew. destruct (Utf8.utf8_encode _); congruence. }
    destruct h.
    { exists XOk, (hb :: w1). split; [exists N; intros f Hf; rewrite HN, Eh, Ew by lia; reflexivity|exact Logic.I]. }
    destruct (copy_raw_c _ R2) as (y & ws & Cv & J). apply conv2_diag in Cv. destruct Cv as [M HM].
    exists (xend y), (hb :: w1 ++ ws). split; [exists (Nat.max N M); intros f Hf; rewrite HN, Eh, Ew, HM by lia; reflexivity|].
    destruct y as [[]|e]; [exact Logic.I|]. left. right. left. now apply R3.
  Qed.

  (** ** Writing a record *)
  Lemma iter_stream_mono n : forall n' p bufs p', (n <= n')%nat -> iter_stream n p = (Ok bufs, p') -> iter_stream n' p = (Ok bufs, p').
  Proof.
    induction n as [|n IH]; intros [|n'] p bufs p' Hn H; try discriminate; [lia|]. cbn [iter_stream] in *.
    destruct (ps_read (Some BUFF_SIZE) p) as [[[|c b]|e] p1]; try exact H.
    destruct (iter_stream n p1) as [[l|e] p2] eqn:E; [|discriminate].
    rewrite (IH n' _ _ _ ltac:(lia) E). exact H.
  Qed.
  Lemma iter_stream_c p : ps_ok p -> exists bufs p', conv (fun f => iter_stream f p) (Ok bufs, p') /\ ps_ok p'.
  Proof.
    intros Hp. destruct (iter_stream_ok (Datatypes.S (List.length (ps_rest p))) p Hp ltac:(lia)) as (bufs & p' & E & _ & _ & H & _).
    exists bufs, p'. split; [|exact H]. exists (Datatypes.S (List.length (ps_rest p))). intros f Hf. eapply iter_stream_mono; [exact Hf|exact E].
  Qed.

  Lemma buffer_exn f h e h' : compute_headers_buffer f h = (Err e, h') -> e = UnicodeErr.
  Proof.
    unfold compute_headers_buffer, to_ascii_bytes. destruct (ascii_encode (to_str f h)); [discriminate|].
    destruct (ascii_encode _); [discriminate|]. congruence.
  Qed.
  Lemma block_prefix_ok f b r x r' : block_prefix f b r = (x, r') ->
    wr_stream r' = wr_stream r /\ match x with Ok _ => True | Err e => e = UnicodeErr end.
  Proof.
    unfold block_prefix. destruct (wr_http r) as [h|]; [|intros [= <- <-]; now split].
    destruct (b && sah_bool h); [|intros [= <- <-]; now split].
    assert (Hc : (let (r0, h') := compute_headers_buffer f h in
       match r0 with Ok _ => (Ok (match sh_buff h' with Some b => b | None => [] end), w_set_http (Some h') r)
                   | Err e => (Err e, w_set_http (Some h') r) end) = (x, r') ->
       wr_stream r' = wr_stream r /\ match x with Ok _ => True | Err e => e = UnicodeErr end).
    { destruct (compute_headers_buffer f h) as [[?|e] h'] eqn:E; intros [= <- <-]; split; try reflexivity.
      exact (buffer_exn _ _ _ _ E). }
    destruct (sh_buff h) as [[|c b0]|]; try exact Hc. intros [= <- <-]. now split.
  Qed.

  Lemma ensure_c sha1 f b p r : ps_ok (wr_stream r) ->
    exists x r', conv (fun fu => ensure_digest fu sha1 f b p r) (x, r') /\
      match x with Ok _ => ps_ok (wr_stream r') | Err e => e = UnicodeErr end.
  Proof.
    intros Hp. unfold ensure_digest.
    set (b' := b && _). set (p' := p && _). set (hl := match wr_length r with Some _ => true | None => false end).
    destruct (negb b' && negb p' && hl); [exists (Ok tt), r; split; [apply conv_const|exact Hp]|].
    destruct (block_prefix f b' r) as [x r1] eqn:E1. destruct (block_prefix_ok _ _ _ _ _ E1) as [S1 X1].
    destruct x as [pre|e]; [|exists (Err e), r1; split; [apply conv_const|exact X1]].
    rewrite <- S1 in Hp. destruct (iter_stream_c _ Hp) as (bufs & q & [N HN] & Hq).
    eexists (Ok tt), _. split; [exists N; intros fu Hf; rewrite HN by lia; reflexivity|].
    cbn zeta. unfold ps_ok in *. rewrite <- S1.
    destruct (negb (hl && py_seek (wr_stream r1))); destruct p'; destruct b'; cbn [w_set_headers w_set_stream w_set_orig w_set_plen wr_stream py_pos bytesio]; lia.
  Qed.

  Definition wpost {A B} (x : res unit * A * B) : Prop := match fst (fst x) with Ok _ => True | Err e => e = UnicodeErr end.
  Lemma write_plain_c sha1 f r : ps_ok (wr_stream r) ->
    exists y, conv (fun fu => write_plain fu sha1 f r) y /\ wpost y.
  Proof.
    intros Hp. unfold write_plain.
    assert (H1 : exists x1 r1, (match wr_http r with
      | Some h => if sah_bool h then let (x, h') := compute_headers_buffer f h in (x, w_set_http (Some h') r) else (Ok tt, r)
      | None => (Ok tt, r) end) = (x1, r1) /\ wr_stream r1 = wr_stream r /\ match x1 with Ok _ => True | Err e => e = UnicodeErr end).
    { destruct (wr_http r) as [h|]; [|exists (Ok tt), r; now repeat split].
      destruct (sah_bool h); [|exists (Ok tt), r; now repeat split].
      destruct (compute_headers_buffer f h) as [x h'] eqn:E. exists x, (w_set_http (Some h') r).
      split; [reflexivity|]. split; [reflexivity|]. destruct x; [exact Logic.I|]. exact (buffer_exn _ _ _ _ E). }
    destruct H1 as (x1 & r1 & -> & S1 & X1). destruct x1 as [[]|e]; [|exists (Err e, [], r1); split; [apply conv_const|exact X1]].
    rewrite <- S1 in Hp. clear S1 X1 r. rename r1 into r.
    assert (H2 : exists x2 r2, conv (fun fu => match wr_length r with
          | None => match ensure_digest fu sha1 f true true (strip_for_unknown r) with
                    | (Ok _, r) => (Ok tt, w_set_length (wr_plen r) r)
                    | (Err e, r) => (Err e, r) end
          | Some _ => ensure_digest fu sha1 f true true r end) (x2, r2) /\
          match x2 with Ok _ => ps_ok (wr_stream r2) | Err e => e = UnicodeErr end).
    { destruct (wr_length r); [exact (ensure_c sha1 f true true r Hp)|].
      destruct (ensure_c sha1 f true true (strip_for_unknown r) Hp) as (x & r' & [N HN] & X).
      destruct x as [u|e]; [exists (Ok tt), (w_set_length (wr_plen r') r')|exists (Err e), r'];
        (split; [exists N; intros fu Hf; now rewrite HN|exact X]). }
    destruct H2 as (x2 & r2 & [N HN] & X2).
    destruct x2 as [u|e]; [|exists (Err e, [], r2); split; [exists N; intros fu Hf; rewrite HN by lia; reflexivity|exact X2]].
    set (ra := match wr_ctype r2 with Some c => w_set_headers (replace_header_ (lit "Content-Type") c (wr_headers r2)) r2 | None => r2 end).
    assert (Sa : wr_stream ra = wr_stream r2) by (subst ra; now destruct (wr_ctype r2)).
    set (hb := match wr_http ra with Some h => if sah_bool h then Some (match sh_buff h with Some b => b | None => [] end) else None | None => None end).
    set (rb := match hb with
                     | Some b => if 0 <=? opt_plen (wr_plen ra) then
                           w_set_length (Some (lenZ b + (if otype_is (wr_type ra) "revisit" then 0 else opt_plen (wr_plen ra)))) ra
                         else ra
                     | None => ra end).
    assert (Sb : wr_stream rb = wr_stream r2).
    { rewrite <- Sa. subst rb. destruct hb; [|reflexivity]. now destruct (0 <=? opt_plen (wr_plen ra)). }
    set (rd := w_set_headers (replace_header_ (lit "Content-Length") (len_str (wr_length rb)) (wr_headers rb)) rb).
    assert (Sd : wr_stream rd = wr_stream r2) by exact Sb.
    destruct (to_bytes None (wr_headers rd)) as [hbytes|e] eqn:Et.
    2:{ exists (Err e, [], rd). split; [exists N; intros fu Hf; rewrite HN by lia; cbn zeta; fold ra hb rb rd; rewrite Et; reflexivity|].
        unfold to_bytes in Et. unfold wpost. cbn [fst]. destruct (Utf8.utf8_encode _); congruence. }
    set (w1 := hbytes :: match hb with Some b => [b] | None => [] end).
    destruct (otype_is (wr_type ra) "revisit") eqn:Eo.
    { exists (Ok tt, w1 ++ [crlf ++ crlf], rd). split; [|exact Logic.I].
      exists N. intros fu Hf. rewrite HN by lia. cbn zeta. fold ra. fold hb. rewrite Eo. fold rb. fold rd. rewrite Et. reflexivity. }
    rewrite <- Sd in X2. destruct (iter_stream_c _ X2) as (bufs & q & [M HM] & Hq).
    eexists. split; [|shelve].
    exists (Nat.max N M). intros fu Hf. rewrite HN by lia. cbn zeta. fold ra. fold hb. rewrite Eo. fold rb. fold rd. rewrite Et.
    rewrite HM by lia. reflexivity.
    Unshelve. exact Logic.I.
  Qed.

  Lemma write_record_c sha1 k wo r : ps_ok (wr_stream r) ->
    exists y, conv (fun fu => write_record fu sha1 k wo r) y /\ wpost y.
  Proof.
    intros Hp. destruct (write_plain_c sha1 (wo_filter wo) r Hp) as ([[x ws] r'] & [N HN] & X).
    eexists. split; [exists N; intros fu Hf; unfold write_record; rewrite HN by lia; reflexivity|exact X].
  Qed.

  (** ** recompress *)
  Definition copy_exn (o : lopts) (e : exn) : Prop := iter_exn o e \/ e = UnicodeErr.
  Lemma copy_records_c sha1 k wo o (it : it_t) : Ip o it ->
    exists c ws e, conv2 (fun n f => @copy_records zl f he n sha1 k wo o it) (c, ws, e) /\
      match e with None => True | Some e => copy_exn o e end.
  Proof.
    remember (mi it) as j eqn:Hj. revert it Hj.
    induction j as [j IH] using (well_founded_induction mlt_wf). intros it Hj HI. subst j.
    destruct (iter_next_c o it HI) as (x & it1 & [N HN] & H).
    destruct x as [[rc|]|e].
    2:{ exists O, [], None. split; [|exact Logic.I].
        exists (Datatypes.S N). intros [|n] f Hn Hf; [lia|]. cbn [copy_records]. rewrite HN by lia. reflexivity. }
    2:{ exists O, [], (Some e). split; [|now left].
        exists (Datatypes.S N). intros [|n] f Hn Hf; [lia|]. cbn [copy_records]. rewrite HN by lia. reflexivity. }
    destruct H as (H1 & H2 & H3 & H4).
    pose proof H1 as (_ & _ & R). rewrite H4 in R. destruct R as (R1 & R2 & R3).
    destruct (collect_c _ R2) as (y & st & Cv & J1 & J2). apply conv2_diag in Cv. destruct Cv as [M HM].
    destruct y as [content|e].
    2:{ exists O, [], (Some e). split; [|left; right; left; now apply R3].
        exists (Datatypes.S (Nat.max N M)). intros [|n] f Hn Hf; [lia|]. cbn [copy_records]. rewrite HN, HM by lia. reflexivity. }
    destruct (write_record_c sha1 k wo (read_wrec rc content)) as ([[w ws] r'] & [P HP] & X); [unfold ps_ok; cbn; lia|].
    unfold wpost in X. cbn [fst] in X. destruct w as [u|e].
    2:{ exists O, ws, (Some e). split; [|now right].
        exists (Datatypes.S (Nat.max (Nat.max N M) P)). intros [|n] f Hn Hf; [lia|]. cbn [copy_records]. rewrite HN, HM, HP by lia. reflexivity. }
    destruct (set_rstream_ok o st it1 rc H1 H4 J1) as (A1 & A2 & A3 & A4 & A5).
    assert (Hlt : mlt (mi (it_set_rstream st it1)) (mi it)) by ms_lia.
    destruct (IH _ Hlt _ eq_refl) as (c & ws' & e & [Q HQ] & XQ).
    { split; [exact A1|]. intros Hp. congruence. }
    exists (Datatypes.S c), (ws ++ ws'), e. split; [|exact XQ].
    exists (Datatypes.S (Nat.max (Nat.max (Nat.max N M) P) Q)). intros [|n] f Hn Hf; [lia|]. cbn [copy_records].
    rewrite HN, HM, HP by lia. rewrite HQ by lia. reflexivity.
  Qed.

  Lemma copyfileobj_c size (b : rdr) : Ir b ->
    exists d, conv2 (fun n f => @copyfileobj zl f n size b) (Ok d).
  Proof.
    remember (mr b) as j eqn:Hj. revert b Hj.
    induction j as [j IH] using (well_founded_induction mlt_wf). intros b Hj HI. subst j.
    destruct (g_read _ _ _ _ (@rops_good zl) (Some size) b HI) as ([x b1] & [N HN] & H1 & H2 & H3 & H4). cbn [fst snd] in *.
    destruct x as [[|c d]|e]; [| |contradiction].
    - exists []. exists (Datatypes.S N). intros [|n] f Hn Hf; [lia|]. cbn [copyfileobj].
      specialize (HN f ltac:(lia)). unfold rops_f in HN. cbn [rops br_ops o_read] in HN. now rewrite HN.
    - assert (Hlt : mlt (mr b1) (mr b)) by (cbn [List.length] in H4; ms_lia).
      destruct (IH _ Hlt b1 eq_refl H1) as (d' & [M HM]).
      exists ((c :: d) ++ d'). exists (Datatypes.S (Nat.max N M)). intros [|n] f Hn Hf; [lia|]. cbn [copyfileobj].
      specialize (HN f ltac:(lia)). unfold rops_f in HN. cbn [rops br_ops o_read] in HN. rewrite HN. rewrite HM by lia. reflexivity.
  Qed.

  Lemma load_c sha1 k uuid (r : raw) :
    exists c ws e, conv2 (fun n f => @load_and_write zl f he n sha1 k uuid r) (c, ws, e) /\
      match e with None => True | Some e => copy_exn (recompress_opts uuid) e end.
  Proof. unfold load_and_write. apply copy_records_c, new_raw_ok. Qed.

  Lemma copy_not_fuel o e : copy_exn o e -> e <> OutOfFuel.
  Proof.
    intros [[->|[[_ [[-> _]| ->]]|[_ [->|[_ [l ->]]]]]]| ->]; discriminate.
  Qed.

  Lemma recompress_c sha1 k uuid size data :
    exists x, conv2 (fun n f => @recompress zl f he n sha1 k uuid size data) x /\
      match x with RcOk _ _ _ => True | RcFailed e => copy_exn (recompress_opts uuid) e end.
  Proof.
    unfold recompress. destruct (load_c sha1 k uuid (raw_open data [])) as (c & ws & e & [N HN] & X).
    destruct e as [e|].
    2:{ exists (RcOk c false (List.concat ws)). split; [|exact Logic.I]. exists N. intros n f Hn Hf. now rewrite HN. }
    pose proof (copy_not_fuel _ _ X) as Hne.
    destruct (copyfileobj_c size (dbr_new (raw_open data []) BUFF_SIZE None true)) as (d & [M HM]).
    { split; [reflexivity|discriminate]. }
    destruct (load_c sha1 k uuid (raw_open d [])) as (c' & ws' & e' & [P HP] & X').
    exists (match e' with None => RcOk c' true (List.concat ws') | Some e => RcFailed e end). split.
    - exists (Nat.max (Nat.max N M) P). intros n f Hn Hf. rewrite HN by lia. unfold decompress_and_recompress.
      rewrite HM, HP by lia. destruct e; try contradiction; destruct e'; reflexivity.
    - destruct e' as [e'|]; [exact X'|exact Logic.I].
  Qed.
End Tools.
