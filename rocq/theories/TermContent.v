(** * TermContent: reading the content of a record ends, chunked and compressed bodies included *)
From Coq Require Import List ZArith NArith Bool String Lia Wellfounded.
From Coq Require Import ZifyBool ZifyNat ZifyN.
From Verif Require Import PyBase Facts Headers Streams Loader Iterator TermSpec TermProofs TermLoad TermIter.
Import ListNotations.
Open Scope Z_scope.

(** ** The order: what is left underneath, then what is buffered *)
Definition m3 := (ms * nat)%type.
Definition le3 (x y : m3) : Prop := mlt (fst x) (fst y) \/ (mle (fst x) (fst y) /\ (snd x <= snd y)%nat).
Definition lt3 (x y : m3) : Prop := mlt (fst x) (fst y) \/ (mle (fst x) (fst y) /\ (snd x < snd y)%nat).
Ltac m3_lia := unfold le3, lt3, mle, mlt, madd in *; cbn [fst snd List.length] in *; lia.

Lemma lt3_wf : well_founded lt3.
Proof.
  intros [a c]. revert c. induction a as [a IHa] using (well_founded_induction mlt_wf).
  induction c as [c IHc] using (well_founded_induction Wf_nat.lt_wf).
  constructor. intros [a' c'] [H | [H1 H2]]; cbn [fst snd] in *.
  - now apply IHa.
  - destruct H1 as [H1|[H1 H3]].
    + apply IHa. now left.
    + destruct (PeanoNat.Nat.eq_dec (snd a') (snd a)) as [E|E].
      * replace a' with a; [now apply IHc|]. destruct a, a'. cbn [fst snd] in *. congruence.
      * apply IHa. right. split; [exact H1|lia].
Qed.

Section Content.
  Context {zl : zenv} {T : Type} (I : T -> Prop) (m : T -> ms) (E : T -> exn -> Prop) (ops : nat -> sops T).
  Hypothesis G : good I m E ops.
  (** the stream underneath does not raise ChunkedDataException *)
  Hypothesis Enc : forall s d, ~ E s (ChunkedExn d).
  Notation BR := (breader zl T).

  Definition Ib (b : BR) : Prop := I (br_stream b) /\ br_start b = None /\ br_all b = false /\ ck_raises b = false.
  Definition mb (b : BR) : m3 := (m (br_stream b), List.length (buff_data b)).
  Definition keepsB (b b' : BR) : Prop :=
    Ib b' /\ le3 (mb b') (mb b) /\ (forall e, E (br_stream b') e -> E (br_stream b) e).
  Lemma keepsB_refl b : Ib b -> keepsB b b.
  Proof. intros H. split; [exact H|]. split; [m3_lia|auto]. Qed.
  Lemma keepsB_trans a b c : keepsB a b -> keepsB b c -> keepsB a c.
  Proof. intros (A1 & A2 & A3) (B1 & B2 & B3). split; [exact B1|]. split; [m3_lia|auto]. Qed.

  Lemma decompress_same d (b : BR) : let b' := snd (decompress d b) in
    br_stream b' = br_stream b /\ br_start b' = br_start b /\ br_all b' = br_all b /\ br_ck b' = br_ck b.
  Proof.
    unfold decompress. destruct (br_dec b) as [x|]; [|cbn; auto]. destruct (is_nil d); [cbn; auto|].
    destruct (dobj_decompress zl x d) as [[o|] x']; [cbn; auto|].
    destruct (br_nblk b =? 0); [|cbn; auto]. destruct (br_dtype b) as [[| |]|]; try (cbn; auto; fail).
    destruct (dobj_decompress zl (DActive (zinit zl DeflateAlt)) d) as [[o|] x'']; cbn; auto.
  Qed.
  Lemma process_same d (b : BR) : let b' := process_read d b in
    br_stream b' = br_stream b /\ br_start b' = br_start b /\ br_all b' = br_all b /\ br_ck b' = br_ck b.
  Proof.
    unfold process_read. destruct (is_nil d); [cbn; auto|]. pose proof (decompress_same d b) as H.
    destruct (decompress d b) as [o b']. exact H.
  Qed.

  Lemma empty_same (b : BR) : Ib b -> snd (br_empty b) = b /\
    (if fst (br_empty b) then buff_data b = [] else buff_data b <> []).
  Proof.
    intros (_ & _ & H & _). unfold br_empty, buff_empty, buff_data. rewrite H.
    destruct (br_buff b) as [[|? ?]|]; cbn [fst snd]; split; try reflexivity. discriminate.
  Qed.

  (** reading a block from underneath and processing it *)
  Lemma set_proc_keeps (b : BR) d s' : Ib b -> buff_data b = [] -> I s' -> mle (madd (m s') (List.length d)) (m (br_stream b)) ->
    (forall e, E s' e -> E (br_stream b) e) ->
    keepsB b (process_read d (set_stream s' b)) /\
    br_ck (process_read d (set_stream s' b)) = br_ck b /\
    (d <> [] -> mlt (m s') (m (br_stream b))) /\ (d = [] -> buff_data (process_read d (set_stream s' b)) = []) /\
    br_stream (process_read d (set_stream s' b)) = s'.
  Proof.
    intros (I1 & I2 & I3 & I4) Hb Hs Hm He.
    destruct (process_same d (set_stream s' b)) as (P1 & P2 & P3 & P4).
    cbn [set_stream br_stream br_start br_all br_ck] in *.
    assert (Hl : d <> [] -> mlt (m s') (m (br_stream b))) by (intros Hd; destruct d; [contradiction|]; m3_lia).
    assert (Hn : d = [] -> buff_data (process_read d (set_stream s' b)) = []) by (intros ->; reflexivity).
    split; [|now repeat split].
    split; [split; [now rewrite P1|]; split; [congruence|]; split; [congruence|unfold ck_raises; now rewrite P4]|].
    rewrite P1. split; [|exact He]. unfold mb. rewrite P1, Hb.
    destruct d as [|c d]; [rewrite Hn by reflexivity; m3_lia|]. left. apply Hl. discriminate.
  Qed.

  Definition fill_post (b : BR) (x : res unit) (b' : BR) : Prop :=
    keepsB b b' /\ br_ck b' = br_ck b /\ match x with Ok _ => True | Err e => E (br_stream b) e end.

  Lemma fill_loop_c (b : BR) d : Ib b ->
    exists x b', conv2 (fun n f => @fill_loop zl T (ops f) n d b) (x, b') /\ fill_post b x b'.
  Proof.
    remember (m (br_stream b)) as k eqn:Hk. revert b d Hk.
    induction k as [k IH] using (well_founded_induction mlt_wf). intros b d Hk HI. subst k.
    destruct (fill_cond d b) eqn:Ec.
    2:{ exists (Ok tt), b. split; [|split; [now apply keepsB_refl|now split]].
        exists 1%nat. intros [|n] f Hn _; [lia|]. cbn [fill_loop]. now rewrite Ec. }
    assert (Hb : buff_data b = []).
    { unfold fill_cond, buff_empty in Ec. unfold buff_data. destruct (br_buff b) as [[|? ?]|]; try reflexivity.
      rewrite !andb_false_r in Ec. discriminate. }
    destruct (g_read _ _ _ _ G (Some (br_block b)) _ (proj1 HI)) as ([x s'] & [N HN] & H1 & H2 & H3 & H4). cbn [fst snd] in *.
    destruct x as [d'|e].
    2:{ exists (Err e), (set_stream s' b). split.
        { exists (Datatypes.S N). intros [|n] f Hn Hf; [lia|]. cbn [fill_loop]. rewrite Ec, HN by lia. reflexivity. }
        split; [|split; [reflexivity|exact H4]].
        split; [split; [exact H1|exact (proj2 HI)]|]. split; [right; split; [exact H2|unfold mb, buff_data; cbn [set_stream br_buff snd]; lia]|exact H3]. }
    destruct (set_proc_keeps b d' s' HI Hb H1 H4 H3) as (P1 & P2 & P3 & P4 & P5).
    assert (Hs : forall n f, (N <= f)%nat -> @fill_loop zl T (ops f) (Datatypes.S n) d b
                 = fill_loop (ops f) n d' (process_read d' (set_stream s' b))).
    { intros n f Hf. cbn [fill_loop]. rewrite Ec, HN by lia. reflexivity. }
    set (b1 := process_read d' (set_stream s' b)) in *. clearbody b1.
    destruct d' as [|c d'].
    { exists (Ok tt), b1. split; [|split; [exact P1|now split]].
      exists (N + 2)%nat. intros [|[|n]] f Hn Hf; try lia. rewrite Hs by lia. reflexivity. }
    assert (Hlt : mlt (m (br_stream b1)) (m (br_stream b))) by (rewrite P5; apply P3; discriminate).
    destruct (IH _ Hlt b1 (c :: d') eq_refl (proj1 P1)) as (x & b' & [M HM] & K & Q1 & Q2).
    exists x, b'. split.
    { exists (Datatypes.S (Nat.max N M)). intros [|n] f Hn Hf; [lia|]. rewrite Hs by lia. apply HM; lia. }
    split; [exact (keepsB_trans _ _ _ P1 K)|]. split; [congruence|].
    destruct x as [?|e]; [exact Logic.I|]. now apply P1.
  Qed.

  Lemma fill_base_c (b : BR) : Ib b ->
    exists x b', conv (fun f => @fill_base zl T (ops f) f b) (x, b') /\ fill_post b x b'.
  Proof.
    intros HI. unfold fill_base. destruct (br_empty b) as [e b1] eqn:Ee.
    destruct (empty_same b HI) as [E1 E2]. rewrite Ee in E1, E2. cbn [fst snd] in *. subst b1.
    destruct e; cbn [negb].
    2:{ exists (Ok tt), b. split; [apply conv_const|]. split; [now apply keepsB_refl|now split]. }
    destruct (0 <? rem_length b).
    { exists (Ok tt), b. split; [apply conv_const|]. split; [now apply keepsB_refl|now split]. }
    rewrite (proj1 (proj2 HI)).
    destruct (g_read _ _ _ _ G (Some (br_block b)) _ (proj1 HI)) as ([x s'] & [N HN] & H1 & H2 & H3 & H4). cbn [fst snd] in *.
    destruct x as [d'|e].
    2:{ exists (Err e), (set_stream s' b). split; [exists N; intros f Hf; now rewrite HN|].
        split; [|split; [reflexivity|exact H4]].
        split; [split; [exact H1|exact (proj2 HI)]|].
        split; [right; split; [exact H2|unfold mb, buff_data; cbn [set_stream br_buff snd]; lia]|exact H3]. }
    destruct (set_proc_keeps b d' s' HI E2 H1 H4 H3) as (P1 & P2 & P3 & P4 & P5).
    destruct (fill_loop_c _ d' (proj1 P1)) as (x & b' & C & K & Q1 & Q2). apply conv2_diag in C. destruct C as [M HM].
    exists x, b'. split; [exists (Nat.max N M); intros f Hf; rewrite HN by lia; apply HM; lia|].
    split; [exact (keepsB_trans _ _ _ P1 K)|]. split; [congruence|].
    destruct x as [?|e]; [exact Logic.I|]. now apply P1.
  Qed.

  (** ** Chunks *)
  Lemma chunk_loop_c size acc s : I s ->
    exists x s', conv2 (fun n f => chunk_loop (ops f) n false size acc s) (x, s') /\ keeps I m E s s' /\
      match x with
      | Ok _ => True
      | Err e => E s e
      end.
  Proof.
    remember (m s) as k eqn:Hk. revert acc s Hk.
    induction k as [k IH] using (well_founded_induction mlt_wf). intros acc s Hk HI. subst k.
    destruct (lenZ acc <? size) eqn:El.
    2:{ exists (Ok (acc, false)), s. split; [|split; [now apply keeps_refl|exact Logic.I]].
        exists 1%nat. intros [|n] f Hn _; [lia|]. cbn [chunk_loop]. now rewrite El. }
    destruct (g_read _ _ _ _ G (Some (size - lenZ acc)) s HI) as ([x s'] & [N HN] & H1 & H2 & H3 & H4). cbn [fst snd] in *.
    assert (K1 : keeps I m E s s') by now split.
    destruct x as [[|c d]|e].
    - exists (Ok (acc, true)), s'. split; [|split; [exact K1|exact Logic.I]].
      exists (Datatypes.S N). intros [|n] f Hn Hf; [lia|]. cbn [chunk_loop]. rewrite El, HN by lia. reflexivity.
    - assert (Hlt : mlt (m s') (m s)) by m3_lia.
      destruct (IH _ Hlt (acc ++ c :: d) s' eq_refl H1) as (x & s2 & [M HM] & K2 & X2).
      exists x, s2. split; [|split; [exact (keeps_trans _ _ _ _ _ _ K1 K2)|]].
      + exists (Datatypes.S (Nat.max N M)). intros [|n] f Hn Hf; [lia|]. cbn [chunk_loop]. rewrite El, HN by lia. apply HM; lia.
      + destruct x; [exact Logic.I|auto].
    - exists (Err e), s'. split; [|split; [exact K1|exact H4]].
      exists (Datatypes.S N). intros [|n] f Hn Hf; [lia|]. cbn [chunk_loop]. rewrite El, HN by lia. reflexivity.
  Qed.

  (** a step that leaves nothing buffered, or reads from underneath *)
  Definition lower (b b' : BR) : Prop :=
    Ib b' /\ mle (m (br_stream b')) (m (br_stream b)) /\ (forall e, E (br_stream b') e -> E (br_stream b) e).

  Lemma lower_proc b d s' : Ib b -> keeps I m E (br_stream b) s' -> lower b (process_read d (set_stream s' b)).
  Proof.
    intros (I1 & I2 & I3 & I4) (K1 & K2 & K3).
    destruct (process_same d (set_stream s' b)) as (P1 & P2 & P3 & P4). cbn [set_stream br_stream br_start br_all br_ck] in *.
    split; [split; [now rewrite P1|]; split; [congruence|]; split; [congruence|unfold ck_raises; now rewrite P4]|].
    rewrite P1. now split.
  Qed.
  Lemma lower_set b s' : Ib b -> keeps I m E (br_stream b) s' -> lower b (set_stream s' b).
  Proof. intros (I1 & I2 & I3 & I4) (K1 & K2 & K3). split; [now repeat split|]. now split. Qed.
  Lemma lower_ck b b' c : lower b b' -> match c with Some c => ck_raise c = false | None => True end -> lower b (set_ck c b').
  Proof.
    intros ((I1 & I2 & I3 & I4) & K) Hc. split; [|exact K]. split; [exact I1|]. split; [exact I2|]. split; [exact I3|].
    unfold ck_raises. cbn [set_ck br_ck]. now destruct c.
  Qed.
  Lemma lower_all b b' v : lower b b' -> lower b (set_all v b').
  Proof.
    intros L. apply lower_ck; [exact L|]. destruct L as ((_ & _ & _ & H) & _). unfold ck_raises in H.
    now destruct (br_ck b').
  Qed.
  Lemma lower_not b b' v : lower b b' -> lower b (set_not v b').
  Proof.
    intros L. apply lower_ck; [exact L|]. destruct L as ((_ & _ & _ & H) & _). unfold ck_raises in H.
    now destruct (br_ck b').
  Qed.
  Lemma lower_proc0 b b' d : lower b b' -> lower b (process_read d b').
  Proof.
    intros ((I1 & I2 & I3 & I4) & K).
    destruct (process_same d b') as (P1 & P2 & P3 & P4).
    split; [split; [now rewrite P1|]; split; [congruence|]; split; [congruence|unfold ck_raises; now rewrite P4]|].
    now rewrite P1.
  Qed.
  Lemma lower_trans a b c : lower a b -> lower b c -> lower a c.
  Proof. intros (A1 & A2 & A3) (B1 & B2 & B3). split; [exact B1|]. split; [m3_lia|auto]. Qed.

  Lemma try_decode_c h (b : BR) : Ib b ->
    exists x b', conv (fun f => @try_decode zl T (ops f) f h b) (x, b') /\ lower b b' /\
      match x with Ok _ => True | Err e => (exists d, e = ChunkedExn d /\ (h = [] -> d = [])) \/ (E (br_stream b) e /\ h <> []) end.
  Proof.
    intros HI. unfold try_decode.
    assert (Hh : chunk_header h <> None -> h <> []) by (intros H ->; now apply H).
    destruct (chunk_header h) as [size|].
    2:{ exists (Err (ChunkedExn [])), b. split; [apply conv_const|]. split.
        - split; [exact HI|]. split; [apply mle_refl|auto].
        - left. exists []. now split. }
    specialize (Hh ltac:(discriminate)).
    destruct (size =? 0).
    - destruct (g_read _ _ _ _ G (Some 2) _ (proj1 HI)) as ([x s'] & [N HN] & H1 & H2 & H3 & H4). cbn [fst snd] in *.
      assert (K1 : keeps I m E (br_stream b) s') by now split.
      destruct x as [d|e].
      + destruct (leqb d crlf) eqn:Ed.
        * exists (Ok tt), (process_read [] (set_all true (set_stream s' b))).
          split; [exists N; intros f Hf; rewrite HN by lia; cbn zeta; now rewrite Ed|].
          split; [|exact Logic.I]. apply lower_proc0, lower_all, lower_set; assumption.
        * exists (Err (ChunkedExn [])), (set_stream s' b).
          split; [exists N; intros f Hf; rewrite HN by lia; cbn zeta; now rewrite Ed|].
          split; [now apply lower_set|]. left. exists []. now split.
      + exists (Err e), (set_stream s' b). split; [exists N; intros f Hf; now rewrite HN|].
        split; [now apply lower_set|]. right; now split.
    - destruct HI as (I1 & I2 & I3 & I4). rewrite I4.
      assert (HI : Ib b) by now repeat split.
      destruct (chunk_loop_c size [] _ I1) as (x & s' & C & K1 & X1). apply conv2_diag in C. destruct C as [N HN].
      destruct x as [[data [|]]|e].
      + exists (Ok tt), (process_read data (set_all true (set_stream s' b))).
        split; [exists N; intros f Hf; now rewrite HN|]. split; [|exact Logic.I].
        apply lower_proc0, lower_all, lower_set; assumption.
      + destruct (g_read _ _ _ _ G (Some 2) _ (proj1 K1)) as ([x s2] & [M HM] & H1 & H2 & H3 & H4). cbn [fst snd] in *.
        assert (K2 : keeps I m E (br_stream b) s2) by (eapply keeps_trans; [exact K1|]; now split).
        destruct x as [c|e].
        * destruct (leqb c crlf) eqn:Ed.
          -- exists (Ok tt), (process_read data (set_stream s2 b)).
             split; [exists (Nat.max N M); intros f Hf; rewrite HN, HM by lia; cbn zeta; now rewrite Ed|].
             split; [|exact Logic.I]. now apply lower_proc.
          -- exists (Err (ChunkedExn data)), (set_stream s2 b).
             split; [exists (Nat.max N M); intros f Hf; rewrite HN, HM by lia; cbn zeta; now rewrite Ed|].
             split; [now apply lower_set|]. left. exists data. split; [reflexivity|]. intros; contradiction.
        * exists (Err e), (set_stream s2 b). split; [exists (Nat.max N M); intros f Hf; rewrite HN, HM by lia; reflexivity|].
          split; [now apply lower_set|]. right. split; [now apply K1|exact Hh].
      + exists (Err e), (set_stream s' b). split; [exists N; intros f Hf; now rewrite HN|].
        split; [now apply lower_set|]. right; now split.
  Qed.

  Lemma lower_keeps b b' : Ib b -> lower b b' -> mlt (m (br_stream b')) (m (br_stream b)) \/ buff_data b' = [] -> keepsB b b'.
  Proof.
    intros HI (L1 & L2 & L3) H. split; [exact L1|]. split; [|exact L3]. unfold mb.
    destruct H as [H|H]; [now left|]. right. split; [exact L2|]. rewrite H. cbn [snd List.length]. lia.
  Qed.

  Lemma chunk_fill_c (b : BR) : Ib b ->
    exists x b', conv2 (fun n f => @chunk_fill zl T (ops f) f n b) (x, b') /\ keepsB b b' /\
      match x with Ok _ => True | Err e => E (br_stream b) e end.
  Proof.
    remember (m (br_stream b)) as k eqn:Hk. revert b Hk.
    induction k as [k IH] using (well_founded_induction mlt_wf). intros b Hk HI. subst k.
    destruct (br_empty b) as [e b1] eqn:Ee.
    destruct (empty_same b HI) as [E1 E2]. rewrite Ee in E1, E2. cbn [fst snd] in *. subst b1.
    destruct (e && negb (ck_alld b) && negb (ck_notd b)) eqn:Ec.
    2:{ exists (Ok tt), b. split; [|split; [now apply keepsB_refl|exact Logic.I]].
        exists 1%nat. intros [|n] f Hn _; [lia|]. cbn [chunk_fill]. rewrite Ee, Ec. reflexivity. }
    assert (He : e = true) by (destruct e; [reflexivity|discriminate]). subst e.
    destruct (g_line _ _ _ _ G (Some 64) _ (proj1 HI)) as ([x s'] & [N HN] & H1 & H2 & H3 & H4). cbn [fst snd] in *.
    assert (K1 : keeps I m E (br_stream b) s') by now split.
    pose proof (lower_set b s' HI K1) as L1.
    destruct x as [h|e].
    2:{ exists (Err e), (set_stream s' b). split; [|split; [|exact H4]].
        - exists (Datatypes.S N). intros [|n] f Hn Hf; [lia|]. cbn [chunk_fill]. rewrite Ee, Ec, HN by lia. reflexivity.
        - apply lower_keeps; [exact HI|exact L1|]. right. exact E2. }
    assert (Hlt : h <> [] -> mlt (m s') (m (br_stream b))) by (intros Hh; destruct h; [contradiction|]; m3_lia).
    destruct (try_decode_c h (set_stream s' b) (proj1 L1)) as (y & b2 & [M HM] & L2 & X2).
    pose proof (lower_trans _ _ _ L1 L2) as L12.
    assert (Hlt2 : h <> [] -> mlt (m (br_stream b2)) (m (br_stream b))).
    { intros Hh. specialize (Hlt Hh). destruct L2 as (_ & L2 & _). cbn [set_stream br_stream] in L2. m3_lia. }
    assert (Hr : ck_raises b2 = false) by apply L2.
    destruct y as [[]|e].
    { (* a chunk: on to the next one *)
      assert (Hh : h <> []).
      { intros ->. specialize (HM (Nat.max N M) ltac:(lia)). discriminate HM. }
      destruct (IH _ (Hlt2 Hh) b2 eq_refl (proj1 L2)) as (x & b' & [P HP] & K & X).
      exists x, b'. split; [|split].
      - exists (Datatypes.S (Nat.max (Nat.max N M) P)). intros [|n] f Hn Hf; [lia|]. cbn [chunk_fill].
        rewrite Ee, Ec, HN, HM by lia. apply HP; lia.
      - eapply keepsB_trans; [|exact K]. apply lower_keeps; [exact HI|exact L12|]. left. auto.
      - destruct x; [exact Logic.I|]. now apply L12. }
    destruct X2 as [(d & -> & Hd)|[X2 Hh]].
    - (* not chunked after all *)
      set (b3 := set_not true (process_read (h ++ d) b2)).
      assert (L3 : lower b b3).
      { apply lower_not, lower_proc0. exact L12. }
      assert (K3 : keepsB b b3).
      { apply lower_keeps; [exact HI|exact L3|].
        assert (Hs : br_stream b3 = br_stream b2) by (subst b3; cbn [set_not set_ck br_stream]; apply process_same).
        destruct h as [|c h]; [right|left; rewrite Hs; apply Hlt2; discriminate].
        subst b3. rewrite Hd by reflexivity. reflexivity. }
      destruct (fill_base_c b3 (proj1 L3)) as (x & b' & [P HP] & K & _ & X).
      exists x, b'. split; [|split].
      + exists (Datatypes.S (Nat.max (Nat.max N M) P)). intros [|n] f Hn Hf; [lia|]. cbn [chunk_fill].
        rewrite Ee, Ec, HN, HM by lia. rewrite Hr. apply HP; lia.
      + exact (keepsB_trans _ _ _ K3 K).
      + destruct x; [exact Logic.I|]. now apply L3.
    - (* an error from underneath *)
      assert (X3 : E (br_stream b) e) by now apply L1.
      exists (Err e), b2. split; [|split; [|exact X3]].
      + exists (Datatypes.S (Nat.max N M)). intros [|n] f Hn Hf; [lia|]. cbn [chunk_fill].
        rewrite Ee, Ec, HN, HM by lia. destruct e; try reflexivity. exfalso. exact (Enc _ _ X3).
      + apply lower_keeps; [exact HI|exact L12|]. left. auto.
  Qed.

  Lemma fillbuff_c (b : BR) : Ib b ->
    exists x b', conv (fun f => @fillbuff zl T (ops f) f b) (x, b') /\ keepsB b b' /\
      match x with Ok _ => True | Err e => E (br_stream b) e end.
  Proof.
    intros HI. unfold fillbuff.
    assert (Hb : exists x b', conv (fun f => @fill_base zl T (ops f) f b) (x, b') /\ keepsB b b' /\
              match x with Ok _ => True | Err e => E (br_stream b) e end).
    { destruct (fill_base_c b HI) as (x & b' & C & K & _ & X). exists x, b'. now split. }
    destruct (br_ck b) as [c|]; [|exact Hb]. destruct (ck_not c); [exact Hb|].
    destruct (chunk_fill_c b HI) as (x & b' & C & K & X). apply conv2_diag in C. exists x, b'. now split.
  Qed.

  Definition call_post (b : BR) (acc : bytes) (x : res bytes) (b' : BR) : Prop :=
    keepsB b b' /\
    match x with
    | Ok d => exists out, d = acc ++ out /\ (out <> [] -> lt3 (mb b') (mb b))
    | Err e => E (br_stream b) e
    end.

  Lemma take_keeps b out rest : Ib b -> out ++ rest = buff_data b ->
    keepsB b (set_bbuff (Some rest) b) /\ (out <> [] -> lt3 (mb (set_bbuff (Some rest) b)) (mb b)).
  Proof.
    intros HI H.
    assert (Hl : List.length (buff_data b) = (List.length out + List.length rest)%nat) by (rewrite <- H; apply app_length).
    assert (M : mb (set_bbuff (Some rest) b) = (m (br_stream b), List.length rest)) by reflexivity.
    split.
    - split; [exact HI|]. split; [|auto]. rewrite M. unfold mb. right. split; [apply mle_refl|]. cbn [snd]. lia.
    - intros Ho. rewrite M. unfold mb. right. split; [apply mle_refl|]. cbn [snd]. destruct out; [contradiction|].
      cbn [List.length] in Hl. lia.
  Qed.

  Lemma read_loop_c len acc (b : BR) : Ib b ->
    exists x b', conv2 (fun n f => @read_loop zl T (ops f) f n len acc b) (x, b') /\ call_post b acc x b'.
  Proof.
    remember (mb b) as k eqn:Hk. revert b len acc Hk.
    induction k as [k IH] using (well_founded_induction lt3_wf). intros b len acc Hk HI. subst k.
    assert (Hnil : forall b', keepsB b b' -> call_post b acc (Ok acc) b').
    { intros b' K. split; [exact K|]. exists []. rewrite app_nil_r. split; [reflexivity|contradiction]. }
    destruct (match len with None => true | Some k => 0 <? k end) eqn:El.
    2:{ exists (Ok acc), b. split; [|now apply Hnil, keepsB_refl].
        exists 1%nat. intros [|n] f Hn _; [lia|]. cbn [read_loop]. now rewrite El. }
    destruct (fillbuff_c b HI) as (y & b1 & [N HN] & K1 & X1).
    destruct y as [[]|e].
    2:{ exists (Err e), b1. split; [|now split].
        exists (Datatypes.S N). intros [|n] f Hn Hf; [lia|]. cbn [read_loop]. rewrite El, HN by lia. reflexivity. }
    pose proof (proj1 K1) as I1.
    destruct (br_empty b1) as [e b2] eqn:Ee.
    destruct (empty_same b1 I1) as [E1 E2]. rewrite Ee in E1, E2. cbn [fst snd] in *. subst b2.
    destruct e.
    { exists (Ok acc), b1. split; [|now apply Hnil].
      exists (Datatypes.S N). intros [|n] f Hn Hf; [lia|]. cbn [read_loop]. rewrite El, HN, Ee by lia. reflexivity. }
    set (out := read_of len (buff_data b1)).
    assert (Hout : out ++ dropZ (lenZ out) (buff_data b1) = buff_data b1) by apply read_of_split.
    destruct (take_keeps b1 out _ I1 Hout) as [K2 L2].
    set (b3 := set_bbuff (Some (dropZ (lenZ out) (buff_data b1))) b1) in *.
    assert (Hne : out <> []) by (now apply read_of_nonempty). specialize (L2 Hne).
    pose proof (keepsB_trans _ _ _ K1 K2) as K3.
    assert (Hlt : lt3 (mb b3) (mb b)) by (destruct K1 as (_ & K1 & _); m3_lia).
    destruct (IH _ Hlt b3 (match len with Some k => Some (k - lenZ out) | None => None end) (acc ++ out) eq_refl (proj1 K2))
      as (x & b' & [M HM] & K & X).
    exists x, b'. split.
    { exists (Datatypes.S (Nat.max N M)). intros [|n] f Hn Hf; [lia|]. cbn [read_loop].
      rewrite El, HN, Ee by lia. apply HM; lia. }
    split; [exact (keepsB_trans _ _ _ K3 K)|]. destruct x as [d|e].
    - destruct X as (o & -> & Ho). exists (out ++ o). rewrite app_assoc. split; [reflexivity|]. intros _.
      destruct K as (_ & K & _). m3_lia.
    - now apply K3.
  Qed.

  Lemma line_loop_c len line (b : BR) : Ib b -> len <> Some 0 ->
    exists x b', conv2 (fun n f => @line_loop zl T (ops f) f n len line b) (x, b') /\ call_post b line x b'.
  Proof.
    remember (mb b) as k eqn:Hk. revert b len line Hk.
    induction k as [k IH] using (well_founded_induction lt3_wf). intros b len line Hk HI Hz. subst k.
    assert (Hnil : forall b', keepsB b b' -> call_post b line (Ok line) b').
    { intros b' K. split; [exact K|]. exists []. rewrite app_nil_r. split; [reflexivity|contradiction]. }
    destruct (ends_lf line) eqn:El.
    { exists (Ok line), b. split; [|now apply Hnil, keepsB_refl].
      exists 1%nat. intros [|n] f Hn _; [lia|]. cbn [line_loop]. now rewrite El. }
    destruct (match len with Some k => if k =? 0 then false else (k - lenZ line <=? 0) | None => false end) eqn:Es.
    { exists (Ok line), b. split; [|now apply Hnil, keepsB_refl].
      exists 1%nat. intros [|n] f Hn _; [lia|]. cbn [line_loop]. now rewrite El, Es. }
    set (len' := match len with Some k => if k =? 0 then Some k else Some (k - lenZ line) | None => None end).
    destruct (fillbuff_c b HI) as (y & b1 & [N HN] & K1 & X1).
    destruct y as [[]|e].
    2:{ exists (Err e), b1. split; [|now split].
        exists (Datatypes.S N). intros [|n] f Hn Hf; [lia|]. cbn [line_loop]. rewrite El, Es, HN by lia. reflexivity. }
    pose proof (proj1 K1) as I1.
    destruct (br_empty b1) as [e b2] eqn:Ee.
    destruct (empty_same b1 I1) as [E1 E2]. rewrite Ee in E1, E2. cbn [fst snd] in *. subst b2.
    destruct e.
    { exists (Ok line), b1. split; [|now apply Hnil].
      exists (Datatypes.S N). intros [|n] f Hn Hf; [lia|]. cbn [line_loop]. rewrite El, Es, HN, Ee by lia. reflexivity. }
    set (out := line_of len' (buff_data b1)).
    assert (Hout : out ++ dropZ (lenZ out) (buff_data b1) = buff_data b1) by apply line_of_split.
    destruct (take_keeps b1 out _ I1 Hout) as [K2 L2].
    set (b3 := set_bbuff (Some (dropZ (lenZ out) (buff_data b1))) b1) in *.
    assert (Hz' : len' <> Some 0).
    { subst len'. destruct len as [j|]; [|discriminate].
      destruct (j =? 0) eqn:E0; [assert (j = 0) by lia; congruence|]. intros [= H]. lia. }
    assert (Hne : out <> []).
    { apply line_of_nonempty; [exact E2|]. destruct len' as [j|]; [|reflexivity].
      destruct (j =? 0) eqn:E0; [|reflexivity]. assert (j = 0) by lia. congruence. }
    specialize (L2 Hne).
    pose proof (keepsB_trans _ _ _ K1 K2) as K3.
    assert (Hlt : lt3 (mb b3) (mb b)) by (destruct K1 as (_ & K1 & _); m3_lia).
    destruct (IH _ Hlt b3 len' (line ++ out) eq_refl (proj1 K2) Hz') as (x & b' & [M HM] & K & X).
    exists x, b'. split.
    { exists (Datatypes.S (Nat.max N M)). intros [|n] f Hn Hf; [lia|]. cbn [line_loop].
      rewrite El, Es, HN, Ee by lia. apply HM; lia. }
    split; [exact (keepsB_trans _ _ _ K3 K)|]. destruct x as [d|e].
    - destruct X as (o & -> & Ho). exists (out ++ o). rewrite app_assoc. split; [reflexivity|]. intros _.
      destruct K as (_ & K & _). m3_lia.
    - now apply K3.
  Qed.

  Lemma br_read_c len (b : BR) : Ib b ->
    exists x b', conv (fun f => @br_read zl T (ops f) f len b) (x, b') /\ call_post b [] x b'.
  Proof.
    intros HI. destruct (read_loop_c len [] b HI) as (x & b' & C & P). exists x, b'.
    split; [exact (conv2_diag _ _ C)|exact P].
  Qed.

  Lemma br_readline_c len (b : BR) : Ib b ->
    exists x b', conv (fun f => @br_readline zl T (ops f) f len b) (x, b') /\ call_post b [] x b'.
  Proof.
    intros HI. unfold br_readline.
    assert (Hnil : forall b', keepsB b b' -> call_post b [] (Ok []) b').
    { intros b' K. split; [exact K|]. exists []. split; [reflexivity|contradiction]. }
    destruct (match len with Some k => k =? 0 | None => false end) eqn:En.
    { exists (Ok []), b. split; [apply conv_const|now apply Hnil, keepsB_refl]. }
    destruct (fillbuff_c b HI) as (y & b1 & [N HN] & K1 & X1).
    destruct y as [[]|e].
    2:{ exists (Err e), b1. split; [exists N; intros f Hf; now rewrite HN|now split]. }
    pose proof (proj1 K1) as I1.
    destruct (br_empty b1) as [e b2] eqn:Ee.
    destruct (empty_same b1 I1) as [E1 E2]. rewrite Ee in E1, E2. cbn [fst snd] in *. subst b2.
    destruct e.
    { exists (Ok []), b1. split; [|now apply Hnil]. exists N. intros f Hf. rewrite HN, Ee by lia. reflexivity. }
    set (out := line_of len (buff_data b1)).
    assert (Hout : out ++ dropZ (lenZ out) (buff_data b1) = buff_data b1) by apply line_of_split.
    destruct (take_keeps b1 out _ I1 Hout) as [K2 L2].
    set (b3 := set_bbuff (Some (dropZ (lenZ out) (buff_data b1))) b1) in *.
    pose proof (keepsB_trans _ _ _ K1 K2) as K3.
    destruct (line_loop_c len out b3 (proj1 K2)) as (x & b' & [M HM] & K & X).
    { intros ->. discriminate. }
    exists x, b'. split.
    { exists (Nat.max N M). intros f Hf. rewrite HN, Ee by lia. unfold buff_line. apply HM; lia. }
    split; [exact (keepsB_trans _ _ _ K3 K)|]. destruct x as [d|e]; [|now apply K3].
    destruct X as (o & -> & Ho). exists (out ++ o). split; [reflexivity|]. intros H.
    destruct out as [|c out'] eqn:Eo; [|rewrite <- Eo in *].
    - specialize (Ho H). destruct K3 as (_ & K3 & _). m3_lia.
    - specialize (L2 ltac:(rewrite Eo; discriminate)). destruct K as (_ & K & _), K1 as (_ & K1 & _). m3_lia.
  Qed.
End Content.
