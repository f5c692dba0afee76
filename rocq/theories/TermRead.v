(** * TermRead: consumers that read record contents come to an end *)
From Coq Require Import List ZArith NArith Bool String Lia Wellfounded.
From Coq Require Import ZifyBool ZifyNat ZifyN.
From Verif Require Import PyBase Facts Headers Streams Loader Iterator TermSpec TermProofs TermLoad TermIter TermContent ReadSpec.
Import ListNotations.
Open Scope Z_scope.

Section Read.
  Context {zl : zenv} (he : henv) (o : lopts).
  Notation rdr := (breader zl raw).
  Notation it_t := (@iter zl).
  Notation CS := (cstream zl rdr).

  Notation Ir' := (Irs (@Ir zl)).
  Notation mr' := (mrs (@mr zl)).
  Notation Er' := (@Ers rdr).
  Lemma gr : good Ir' mr' Er' (fun f => rs_ops (rops_f f)).
  Proof. apply rs_good, rops_good. Qed.
  Lemma Er_nc : forall (s : rstream rdr) d, ~ Er' s (ChunkedExn d).
  Proof. intros [s|l|x] d; cbn [Ers]; [tauto|tauto|]. unfold chk_exn. intuition discriminate. Qed.

  Definition Ic (c : CS) : Prop := match c with CSraw r => Ir' r | CSbuf b => Ib Ir' b end.
  Definition mc (c : CS) : m3 := match c with CSraw r => (mr' r, O) | CSbuf b => mb mr' b end.
  Definition cpost (c : CS) (x : res bytes) (c' : CS) : Prop :=
    Ic c' /\ le3 (mc c') (mc c) /\ keeps Ir' mr' Er' (cs_raw c) (cs_raw c') /\
    match x with
    | Ok d => d <> [] -> lt3 (mc c') (mc c)
    | Err e => Er' (cs_raw c) e
    end.

  Lemma call_cpost b x b' : Ib Ir' b -> call_post Ir' mr' Er' b [] x b' -> cpost (CSbuf b) x (CSbuf b').
  Proof.
    intros HI ((K1 & K2 & K3) & X). split; [exact K1|]. split; [exact K2|]. split.
    - split; [exact (proj1 K1)|]. split; [|exact K3]. cbn [cs_raw]. unfold mb in K2. m3_lia.
    - destruct x as [d|e]; [|exact X]. destruct X as (out & -> & H). exact H.
  Qed.
  Lemma ends_cpost r y : ends_with Ir' mr' Er' r y -> cpost (CSraw r) (fst y) (CSraw (snd y)).
  Proof.
    intros (H1 & H2 & H3 & H4). split; [exact H1|]. split; [right; split; [exact H2|apply Nat.le_refl]|].
    split; [now split|]. destruct (fst y) as [d|e]; [|exact H4]. intros Hd. left. cbn [mc fst].
    destruct d; [contradiction|]. cbn [List.length] in H4. m3_lia.
  Qed.

  Lemma cs_read_c n c : Ic c -> exists x c', conv (fun f => cs_read (@rops zl f) f n c) (x, c') /\ cpost c x c'.
  Proof.
    intros HI. destruct c as [r|b]; cbn [cs_read].
    - destruct (g_read _ _ _ _ gr n r HI) as ([x r'] & [N HN] & H).
      exists x, (CSraw r'). split; [|exact (ends_cpost _ _ H)].
      exists N. intros f Hf. specialize (HN f Hf). unfold rops_f in HN. cbn [rs_ops o_read] in HN. now rewrite HN.
    - destruct (br_read_c _ _ _ _ gr Er_nc n b HI) as (x & b' & [N HN] & H).
      exists x, (CSbuf b'). split; [|now apply call_cpost].
      exists N. intros f Hf. specialize (HN f Hf). unfold rops_f in HN. now rewrite HN.
  Qed.
  Lemma cs_readline_c n c : Ic c -> exists x c', conv (fun f => cs_readline (@rops zl f) f n c) (x, c') /\ cpost c x c'.
  Proof.
    intros HI. destruct c as [r|b]; cbn [cs_readline].
    - destruct (g_line _ _ _ _ gr n r HI) as ([x r'] & [N HN] & H).
      exists x, (CSraw r'). split; [|exact (ends_cpost _ _ H)].
      exists N. intros f Hf. specialize (HN f Hf). unfold rops_f in HN. cbn [rs_ops o_readline] in HN. now rewrite HN.
    - destruct (br_readline_c _ _ _ _ gr Er_nc n b HI) as (x & b' & [N HN] & H).
      exists x, (CSbuf b'). split; [|now apply call_cpost].
      exists N. intros f Hf. specialize (HN f Hf). unfold rops_f in HN. now rewrite HN.
  Qed.

  Definition cpost' (c : CS) (x : res bytes) (c' : CS) : Prop :=
    Ic c' /\ keeps Ir' mr' Er' (cs_raw c) (cs_raw c') /\ match x with Ok _ => True | Err e => Er' (cs_raw c) e end.
  Lemma cpost_weak c x c' : cpost c x c' -> cpost' c x c'.
  Proof. intros (H1 & _ & H2 & H3). split; [exact H1|]. split; [exact H2|]. now destruct x. Qed.

  Lemma drain_content_c n acc c : Ic c ->
    exists x c', conv2 (fun k f => drain_content f k n acc c) (x, c') /\ cpost' c x c'.
  Proof.
    remember (mc c) as k eqn:Hk. revert c acc Hk.
    induction k as [k IH] using (well_founded_induction lt3_wf). intros c acc Hk HI. subst k.
    destruct (cs_read_c (Some n) c HI) as (x & c1 & [N HN] & H1 & H2 & H3 & H4).
    assert (St : forall k f, (N <= f)%nat -> drain_content f (Datatypes.S k) n acc c
                 = match x with Err e => (Err e, c1) | Ok [] => (Ok acc, c1) | Ok b => drain_content f k n (acc ++ b) c1 end).
    { intros k f Hf. cbn [drain_content]. rewrite HN by lia. now destruct x as [[|? ?]|?]. }
    destruct x as [[|b0 b]|e].
    - exists (Ok acc), c1. split; [|now split]. exists (Datatypes.S N). intros [|k] f Hn Hf; [lia|]. rewrite St by lia. reflexivity.
    - specialize (H4 ltac:(discriminate)).
      destruct (IH _ H4 c1 (acc ++ b0 :: b) eq_refl H1) as (x & c' & [M HM] & J1 & J2 & J3).
      exists x, c'. split.
      { exists (Datatypes.S (Nat.max N M)). intros [|k] f Hn Hf; [lia|]. rewrite St by lia. apply HM; lia. }
      split; [exact J1|]. split; [exact (keeps_trans _ _ _ _ _ _ H3 J2)|]. destruct x; [exact Logic.I|]. now apply H3.
    - exists (Err e), c1. split; [|now split]. exists (Datatypes.S N). intros [|k] f Hn Hf; [lia|]. rewrite St by lia. reflexivity.
  Qed.

  Lemma content_op_c x c : Ic c -> exists y c', conv (fun f => content_op f x c) (y, c') /\ cpost' c y c'.
  Proof.
    intros HI. destruct x as [n|n|n]; cbn [content_op].
    - destruct (cs_read_c n c HI) as (y & c' & C & P). exists y, c'. split; [exact C|now apply cpost_weak].
    - destruct (cs_readline_c n c HI) as (y & c' & C & P). exists y, c'. split; [exact C|now apply cpost_weak].
    - destruct (drain_content_c n [] c HI) as (y & c' & C & P). exists y, c'. split; [exact (conv2_diag _ _ C)|exact P].
  Qed.

  Lemma content_ops_c xs c : Ic c -> exists ys c', conv (fun f => content_ops f xs c) (ys, c') /\
    Ic c' /\ keeps Ir' mr' Er' (cs_raw c) (cs_raw c') /\
    Forall (fun y => match y with Ok _ => True | Err e => Er' (cs_raw c) e end) ys.
  Proof.
    revert c. induction xs as [|x xs IH]; intros c HI.
    { exists [], c. split; [now exists O|]. split; [exact HI|]. split; [|constructor].
      apply keeps_refl. destruct c; [exact HI|exact (proj1 HI)]. }
    destruct (content_op_c x c HI) as (y & c1 & [N HN] & H1 & H2 & H3).
    destruct (IH c1 H1) as (ys & c2 & [M HM] & J1 & J2 & J3).
    exists (y :: ys), c2. split.
    { exists (Nat.max N M). intros f Hf. cbn [content_ops]. rewrite HN, HM by lia. reflexivity. }
    split; [exact J1|]. split; [exact (keeps_trans _ _ _ _ _ _ H2 J2)|]. constructor; [exact H3|].
    eapply Forall_impl; [|exact J3]. intros [?|e]; [auto|]. apply H2.
  Qed.

  Lemma content_stream_ok http st : Ir' st ->
    Ic (content_stream http st) /\ cs_raw (content_stream (zl:=zl) http st) = st.
  Proof.
    intros HI. unfold content_stream. destruct http as [h|]; [|now split]. destruct (sah_bool h); [|now split].
    destruct (is_chunked h).
    - split; [|reflexivity]. split; [exact HI|]. now split.
    - destruct (content_encoding h); [|now split]. split; [|reflexivity]. split; [exact HI|]. now split.
  Qed.

  Notation Iit := (Ii (zl:=zl) o).
  Lemma do_act_c a it : Iit it ->
    exists xs it', conv (fun f => do_act f a it) (xs, it') /\ Iit it' /\ mle (mi it') (mi it) /\
      it_phase it' = it_phase it /\ Forall (read_ok o) xs.
  Proof.
    intros HI. destruct a as [u|cs]; cbn [do_act].
    - destruct (user_op_conv o u it HI) as (x & it' & [N HN] & A1 & A2 & A3 & A4).
      exists [x], it'. split; [exists N; intros f Hf; now rewrite HN|].
      split; [exact A1|]. split; [exact A2|]. split; [exact A3|now constructor].
    - destruct (it_record it) as [rc|] eqn:Er.
      2:{ exists [], it. split; [apply conv_const|]. split; [exact HI|]. split; [apply mle_refl|]. split; [reflexivity|constructor]. }
      pose proof HI as (_ & _ & H3). rewrite Er in H3. destruct H3 as (H3 & H4 & H5).
      destruct (content_stream_ok (rc_http rc) (rc_stream rc) H4) as [C1 C2].
      destruct (content_ops_c cs _ C1) as (ys & c' & [N HN] & J1 & J2 & J3). rewrite C2 in J2, J3.
      destruct (set_rstream_ok o (cs_raw c') it rc HI Er J2) as (A1 & A2 & A3 & _).
      exists ys, (it_set_rstream (cs_raw c') it). split; [exists N; intros f Hf; now rewrite HN|].
      split; [exact A1|]. split; [exact A2|]. split; [exact A3|].
      eapply Forall_impl; [|exact J3]. intros [?|e] He; [exact Logic.I|]. now apply H5.
  Qed.

  Lemma do_acts_c l it : Iit it ->
    exists xs it', conv (fun f => do_acts f l it) (xs, it') /\ Iit it' /\ mle (mi it') (mi it) /\
      it_phase it' = it_phase it /\ Forall (read_ok o) xs.
  Proof.
    revert it. induction l as [|a l IH]; intros it HI.
    { exists [], it. split; [now exists O|]. split; [exact HI|]. split; [apply mle_refl|]. split; [reflexivity|constructor]. }
    destruct (do_act_c a it HI) as (xs & it1 & [N HN] & A1 & A2 & A3 & A4).
    destruct (IH it1 A1) as (ys & it2 & [M HM] & B1 & B2 & B3 & B4).
    exists (xs ++ ys), it2. split.
    { exists (Nat.max N M). intros f Hf. cbn [do_acts]. rewrite HN, HM by lia. reflexivity. }
    split; [exact B1|]. split; [ms_lia|]. split; [congruence|now apply Forall_app].
  Qed.

  Lemma reading_conv prog k it : Ip (zl:=zl) o it ->
    exists os en, conv2 (fun n f => reading f he o n prog k it) (os, en) /\
      Forall (fun x => Forall (read_ok o) (snd x)) os /\ match en with EndStop => True | EndExn e => iter_exn o e end.
  Proof.
    remember (mi it) as j eqn:Hj. revert k it Hj.
    induction j as [j IH] using (well_founded_induction mlt_wf). intros k it Hj HI. subst j.
    destruct (iter_next_conv he o it HI) as (x & it1 & [N HN] & H).
    destruct x as [[rc|]|e].
    - destruct H as (H1 & H2 & H3).
      destruct (do_acts_c (prog k) it1 H1) as (xs & it2 & [M HM] & A1 & A2 & A3 & A4).
      assert (Hlt : mlt (mi it2) (mi it)) by ms_lia.
      destruct (IH _ Hlt (Datatypes.S k) it2 eq_refl) as (os & en & [Q HQ] & C1 & C2).
      { split; [exact A1|]. intros Hp. congruence. }
      exists ((rc, xs) :: os), en. split; [|split; [|exact C2]].
      + exists (Datatypes.S (Nat.max (Nat.max N M) Q)). intros [|n] f Hn Hf; [lia|]. cbn [reading].
        rewrite HN, HM by lia. rewrite HQ by lia. reflexivity.
      + constructor; [exact A4|exact C1].
    - exists [], EndStop. split; [|split; [constructor|exact Logic.I]].
      exists (Datatypes.S N). intros [|n] f Hn Hf; [lia|]. cbn [reading]. rewrite HN by lia. reflexivity.
    - exists [], (EndExn e). split; [|split; [constructor|exact H]].
      exists (Datatypes.S N). intros [|n] f Hn Hf; [lia|]. cbn [reading]. rewrite HN by lia. reflexivity.
  Qed.
End Read.
