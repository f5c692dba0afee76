(** * TermProofs: every loop of the reader ends, on every input.

    A loop of the model runs on fuel.  "The Python loop ends" is stated as: from some
    amount of fuel on, the result no longer depends on the fuel, and is not the model's
    own out-of-fuel value.  The reason is a measure of the reader that no operation
    increases: the compressed bytes not yet decoded, then the decoded bytes not yet
    handed out. *)
From Coq Require Import List ZArith NArith Bool String Lia Wellfounded.
From Coq Require Import ZifyBool ZifyNat ZifyN.
From Verif Require Import PyBase Facts Utf8 Headers Streams TimeUtils Loader Iterator.
Import ListNotations.
Open Scope Z_scope.

(** ** The order *)
Definition ms := (nat * nat)%type.
Definition mle (x y : ms) : Prop :=
  (fst x < fst y \/ (fst x = fst y /\ snd x <= snd y))%nat.
Definition mlt (x y : ms) : Prop :=
  (fst x < fst y \/ (fst x = fst y /\ snd x < snd y))%nat.
Definition madd (x : ms) (n : nat) : ms := (fst x, snd x + n)%nat.

Ltac ms_lia := unfold mle, mlt, madd in *; cbn [fst snd List.length] in *; lia.

Lemma mlt_wf : well_founded mlt.
Proof.
  intros [a c]. revert c. induction a as [a IHa] using (well_founded_induction Wf_nat.lt_wf).
  induction c as [c IHc] using (well_founded_induction Wf_nat.lt_wf).
  constructor. intros [a' c'] [H | [H1 H2]]; cbn [fst snd] in *.
  - now apply IHa.
  - subst a'. now apply IHc.
Qed.

Lemma mle_refl x : mle x x. Proof. ms_lia. Qed.
Lemma mle_trans x y z : mle x y -> mle y z -> mle x z. Proof. ms_lia. Qed.

(** ** Convergence: from some fuel on, the result is fixed *)
Definition conv {A} (f : nat -> A) (r : A) : Prop := exists N, forall n, (N <= n)%nat -> f n = r.

Lemma conv_const {A} (r : A) : conv (fun _ => r) r.
Proof. now exists O. Qed.
Lemma conv_ext {A} (f g : nat -> A) r : (forall n, f n = g n) -> conv g r -> conv f r.
Proof. intros H [N HN]. exists N. intros n Hn. rewrite H. now apply HN. Qed.
Lemma conv_bind {A B} (f : nat -> A) (k : nat -> A -> B) a b :
  conv f a -> conv (fun n => k n a) b -> conv (fun n => k n (f n)) b.
Proof.
  intros [N HN] [M HM]. exists (Nat.max N M). intros n Hn.
  rewrite HN by lia. apply HM. lia.
Qed.

(** two bounds: the number of rounds of a loop, and the fuel of what it calls *)
Definition conv2 {A} (f : nat -> nat -> A) (r : A) : Prop :=
  exists N, forall n m, (N <= n)%nat -> (N <= m)%nat -> f n m = r.
Lemma conv2_const {A} (r : A) : conv2 (fun _ _ => r) r.
Proof. now exists O. Qed.
Lemma conv2_of {A} (f : nat -> A) r : conv f r -> conv2 (fun _ m => f m) r.
Proof. intros [N HN]. exists N. intros n m _ Hm. now apply HN. Qed.
Lemma conv2_diag {A} (f : nat -> nat -> A) r : conv2 f r -> conv (fun n => f n n) r.
Proof. intros [N HN]. exists N. intros n Hn. now apply HN. Qed.
Lemma conv2_S {A} (f : nat -> nat -> A) r : conv2 (fun n m => f (Datatypes.S n) m) r -> conv2 f r.
Proof.
  intros [N HN]. exists (Datatypes.S N). intros [|n] m Hn Hm; [lia|]. apply HN; lia.
Qed.
Lemma conv2_bind {A B} (f : nat -> A) (k : nat -> nat -> A -> B) a b :
  conv f a -> conv2 (fun n m => k n m a) b -> conv2 (fun n m => k n m (f m)) b.
Proof.
  intros [N HN] [M HM]. exists (Nat.max N M). intros n m Hn Hm.
  rewrite HN by lia. apply HM; lia.
Qed.
Lemma conv2_ext {A} (f g : nat -> nat -> A) r : (forall n m, f n m = g n m) -> conv2 g r -> conv2 f r.
Proof. intros H [N HN]. exists N. intros n m Hn Hm. rewrite H. now apply HN. Qed.

(** ** Streams on which every operation ends *)
Section Good.
  Context {S : Type} (I : S -> Prop) (m : S -> ms) (E : S -> exn -> Prop).

  Definition ends_with (s : S) (r : res bytes * S) : Prop :=
    I (snd r) /\ mle (m (snd r)) (m s) /\ (forall e, E (snd r) e -> E s e) /\
    match fst r with
    | Ok b => mle (madd (m (snd r)) (List.length b)) (m s)
    | Err e => E s e
    end.

  Record good (ops : nat -> sops S) : Prop := mk_good {
    g_read : forall n s, I s -> exists r, conv (fun f => o_read (ops f) n s) r /\ ends_with s r;
    g_line : forall n s, I s -> exists r, conv (fun f => o_readline (ops f) n s) r /\ ends_with s r
  }.
End Good.

(** ** The reader of ArchiveIterator: BufferedReader over the file *)
Section Reader.
  Context {zl : zenv}.
  Notation rdr := (breader zl raw).

  Definition wdec (d : option (dobj (zS zl))) : nat :=
    match d with Some (DDone (x :: u)) => 2 * List.length (x :: u) + 1 | _ => 0 end.
  Definition rlen (b : rdr) : nat := List.length (rw_rest (br_stream b)).
  Definition slen (b : rdr) : nat := match br_start b with Some d => List.length d | None => 0 end.
  Definition wt (b : rdr) : nat := (4 * rlen b + 2 * slen b + wdec (br_dec b))%nat.
  Definition mr (b : rdr) : ms := (wt b, List.length (buff_data b)).

  Definition done (b : rdr) : bool := match br_dec b with Some (DDone _) => true | _ => false end.
  Definition Ir (b : rdr) : Prop := br_ck b = None /\ (done b = true -> slen b = O).

  Lemma zfeed_len s d o t : zfeed zl s d = Some (o, DDone t) -> (List.length t < List.length d)%nat.
  Proof.
    revert s o t. induction d as [|c d IH]; intros s o t H; cbn [zfeed] in H; [discriminate|].
    destruct (zstep zl s c) as [s' out|out|]; [|injection H as _ <-; cbn [List.length]; lia|discriminate].
    destruct (zfeed zl s' d) as [[o' d']|] eqn:Ez; [|discriminate].
    injection H as _ ->. apply IH in Ez. cbn [List.length]. lia.
  Qed.

  Lemma wdec_feed s d o x : zfeed zl s d = Some (o, x) -> d <> [] ->
    (wdec (Some x) + 1 <= 2 * List.length d)%nat.
  Proof.
    intros H Hd. destruct d as [|c d]; [contradiction|].
    destruct x as [s'|[|y u]|]; cbn [wdec]; try (cbn [List.length]; lia).
    apply zfeed_len in H. lia.
  Qed.

  Lemma wdec_err d (x : dobj (zS zl)) d' : dobj_decompress zl x d = (None, d') -> wdec (Some d') = O.
  Proof.
    destruct x as [s|u|]; cbn [dobj_decompress].
    - destruct (zfeed zl s d) as [[? ?]|]; intros [= <-]. reflexivity.
    - discriminate.
    - now intros [= <-].
  Qed.
  Lemma wdec_ok d (x : dobj (zS zl)) o d' : dobj_decompress zl x d = (Some o, d') -> d <> [] ->
    (wdec (Some d') <= wdec (Some x) + 2 * List.length d + 1)%nat /\
    (match x with DDone _ => false | _ => true end = true -> (wdec (Some d') + 1 <= 2 * List.length d)%nat).
  Proof.
    intros H Hd. destruct x as [s|u|]; cbn [dobj_decompress] in H.
    - destruct (zfeed zl s d) as [[? ?]|] eqn:Ez; [injection H as <- <-|discriminate].
      pose proof (wdec_feed _ _ _ _ Ez Hd). split; lia.
    - injection H as <- <-. split; [|discriminate].
      destruct u as [|y u]; [destruct d|]; cbn [wdec List.app List.length]; rewrite ?app_length; cbn [List.length]; lia.
    - discriminate.
  Qed.

  (** one call of decompress: the decompressor's unread part *)
  Lemma decompress_wt d (b : rdr) out b' :
    decompress d b = (out, b') -> d <> [] ->
    br_stream b' = br_stream b /\ br_start b' = br_start b /\ br_ck b' = br_ck b /\ br_block b' = br_block b /\
    (wdec (br_dec b') <= wdec (br_dec b) + 2 * List.length d + 1)%nat /\
    (done b = false -> (wdec (br_dec b') + 1 <= 2 * List.length d)%nat).
  Proof.
    intros H Hd. unfold decompress in H. unfold done.
    assert (Q : (1 <= 2 * List.length d)%nat) by (destruct d; [contradiction|]; cbn [List.length]; lia).
    destruct (br_dec b) as [x|] eqn:Eb.
    2:{ injection H as <- <-. rewrite Eb. repeat split; try (cbn [wdec]; lia). }
    destruct (is_nil d) eqn:En; [destruct d; [contradiction|discriminate]|].
    destruct (dobj_decompress zl x d) as [[o|] x'] eqn:Ed.
    { injection H as <- <-. destruct (wdec_ok _ _ _ _ Ed Hd) as [W1 W2].
      cbn [set_dec br_stream br_start br_ck br_block br_dec].
      repeat split; try lia. intros Hx. apply W2. now destruct x. }
    pose proof (wdec_err _ _ _ Ed) as We.
    destruct (br_nblk b =? 0).
    2:{ injection H as <- <-. cbn [set_dec br_stream br_start br_ck br_block br_dec]. rewrite We.
        repeat split; lia. }
    assert (G : b' = set_dec None b ->
      br_stream b' = br_stream b /\ br_start b' = br_start b /\ br_ck b' = br_ck b /\ br_block b' = br_block b /\
      (wdec (br_dec b') <= wdec (Some x) + 2 * List.length d + 1)%nat /\
      (match x with DDone _ => true | _ => false end = false -> (wdec (br_dec b') + 1 <= 2 * List.length d)%nat)).
    { intros ->. cbn [set_dec br_stream br_start br_ck br_block br_dec wdec]. repeat split; lia. }
    destruct (br_dtype b) as [[| |]|]; try (injection H as _ <-; now apply G).
    destruct (dobj_decompress zl (DActive (zinit zl DeflateAlt)) d) as [[o|] x''] eqn:Ed2; injection H as _ <-.
    - destruct (wdec_ok _ _ _ _ Ed2 Hd) as [W1 W2].
      cbn [set_dec init_decomp br_stream br_start br_ck br_block br_dec]. specialize (W2 eq_refl).
      repeat split; lia.
    - cbn [set_dec init_decomp br_stream br_start br_ck br_block br_dec wdec]. repeat split; lia.
  Qed.

  Lemma process_read_wt d (b : rdr) : d <> [] ->
    br_stream (process_read d b) = br_stream b /\ br_start (process_read d b) = br_start b /\
    br_ck (process_read d b) = br_ck b /\
    (wdec (br_dec (process_read d b)) <= wdec (br_dec b) + 2 * List.length d + 1)%nat /\
    (done b = false -> (wdec (br_dec (process_read d b)) + 1 <= 2 * List.length d)%nat).
  Proof.
    intros Hd. unfold process_read. destruct (is_nil d) eqn:En; [destruct d; [contradiction|discriminate]|].
    destruct (decompress d b) as [out b'] eqn:Ed.
    destruct (decompress_wt _ _ _ _ Ed Hd) as (H1 & H2 & H3 & _ & H4 & H5).
    cbn [set_bbuff add_counts br_stream br_start br_ck br_dec]. repeat split; assumption.
  Qed.

  Lemma raw_read_len n s :
    exists d s', raw_read n s = (Ok d, s') /\
                 (List.length d + List.length (rw_rest s') = List.length (rw_rest s))%nat.
  Proof.
    assert (K : forall k (l : bytes), (List.length (takeZ k l) + List.length (dropZ k l) = List.length l)%nat)
      by (intros k l; rewrite <- app_length, takeZ_dropZ; reflexivity).
    unfold raw_read. destruct n as [k|].
    - destruct (0 <? k).
      + destruct (match rw_rest s, rw_sched s with
                  | [], sc => (k, sc) | _, [] => (k, []) | _, x :: t => (Z.min k (Z.max 1 x), t) end) as [j sc].
        eexists; eexists; (split; [reflexivity|apply K]).
      + destruct (k =? 0); eexists; eexists; (split; [reflexivity|]); cbn [List.length rw_rest]; lia.
    - eexists; eexists; (split; [reflexivity|]); cbn [List.length rw_rest]; lia.
  Qed.

  (** one block from the file: the weight falls, or the file is at its end *)
  Lemma block_wt (b : rdr) d s' :
    raw_read (Some (br_block b)) (br_stream b) = (Ok d, s') ->
    let b' := process_read d (set_stream s' b) in
    br_start b' = br_start b /\ br_ck b' = br_ck b /\ (rlen b' + List.length d = rlen b)%nat /\
    (d = [] -> wt b' = wt b /\ buff_data b' = []) /\ (d <> [] -> (wt b' < wt b)%nat).
  Proof.
    intros Hr b'. destruct (raw_read_len (Some (br_block b)) (br_stream b)) as (d0 & s0 & Hr0 & Hl).
    rewrite Hr in Hr0. injection Hr0 as <- <-. subst b'.
    destruct d as [|c d].
    - unfold process_read. cbn [is_nil]. unfold wt, rlen, slen, buff_data.
      cbn [set_bbuff set_stream br_stream br_start br_ck br_dec br_buff]. cbn [List.length] in *.
      repeat split; intros; try congruence; lia.
    - set (e := c :: d) in *. assert (He : e <> []) by discriminate. clearbody e.
      destruct (process_read_wt e (set_stream s' b) He) as (P1 & P2 & P3 & P4 & _).
      cbn [set_stream br_stream br_start br_ck br_dec] in *.
      assert (Hp : (0 < List.length e)%nat) by (destruct e; [contradiction|cbn; lia]).
      unfold wt, rlen, slen. rewrite P1, P2. cbn [set_stream br_stream br_start] in *.
      repeat split; intros; try congruence; lia.
  Qed.

  Lemma fill_loop_conv (b : rdr) d : slen b = O -> br_ck b = None ->
    exists b', conv (fun n => @fill_loop zl raw raw_ops n d b) (Ok tt, b') /\
      slen b' = O /\ br_ck b' = None /\
      (b' = b \/ mle (mr b') (mr b)).
  Proof.
    remember (rlen b) as k eqn:Hk. revert b d Hk.
    induction k as [k IH] using (well_founded_induction Wf_nat.lt_wf). intros b d Hk Hs Hc.
    destruct (fill_cond d b) eqn:Ec.
    2:{ exists b. split; [|repeat split; try assumption; now left].
        exists 1%nat. intros [|n] Hn; [lia|]. cbn [fill_loop]. now rewrite Ec. }
    destruct (raw_read_len (Some (br_block b)) (br_stream b)) as (d' & s' & Hr & _).
    assert (Hstep : forall n, @fill_loop zl raw raw_ops (Datatypes.S n) d b
                    = fill_loop raw_ops n d' (process_read d' (set_stream s' b))).
    { intros n. cbn [fill_loop]. rewrite Ec. cbn [raw_ops o_read]. now rewrite Hr. }
    destruct (block_wt _ _ _ Hr) as (B1 & B2 & B3 & B4 & B5).
    set (b1 := process_read d' (set_stream s' b)) in *. clearbody b1.
    destruct d' as [|c d'].
    { exists b1. destruct (B4 eq_refl) as [W1 W2]. split; [|repeat split].
      - exists 2%nat. intros [|[|n]] Hn; try lia. rewrite Hstep. cbn [fill_loop].
        unfold fill_cond. cbn [is_nil negb andb]. reflexivity.
      - unfold slen. now rewrite B1.
      - congruence.
      - right. unfold mr. rewrite W2, W1. ms_lia. }
    assert (Hlt : (wt b1 < wt b)%nat) by (apply B5; discriminate).
    destruct (IH (rlen b1)) with (b := b1) (d := c :: d') as (b' & C1 & C2 & C3 & C4);
      [cbn [List.length] in B3; lia|reflexivity|unfold slen; now rewrite B1|congruence|].
    exists b'. split; [|repeat split; try assumption].
    - destruct C1 as [N HN]. exists (Datatypes.S N). intros [|n] Hn; [lia|]. rewrite Hstep. apply HN. lia.
    - right. destruct C4 as [->|C4]; unfold mr in *; ms_lia.
  Qed.

  Lemma read_next_member_mr (b : rdr) more b' : Ir b -> read_next_member b = (more, b') ->
    Ir b' /\ mle (mr b') (mr b) /\ (more = true -> mlt (mr b') (mr b)) /\ (more = false -> b' = b).
  Proof.
    intros HI H. unfold read_next_member in H.
    destruct (br_dec b) as [[s|[|x u]|]|] eqn:Eb; injection H as <- <-;
      try (split; [assumption|split; [apply mle_refl|split; [discriminate|reflexivity]]]).
    destruct HI as [H1 H2].
    assert (Hs : slen b = O) by (apply H2; unfold done; now rewrite Eb).
    set (b' := init_decomp _ _).
    assert (Hl : mlt (mr b') (mr b)).
    { subst b'. unfold mr, wt, rlen, slen, buff_data. cbn [init_decomp set_start br_stream br_start br_dec br_buff].
      rewrite Eb. destruct (br_dtype b); cbn [wdec]; ms_lia. }
    repeat split; try discriminate.
    - exact H1.
    - unfold done. subst b'. cbn [init_decomp set_start br_dec]. destruct (br_dtype b); discriminate.
    - ms_lia.
    - intros _. exact Hl.
  Qed.

  Lemma br_empty_mr (b : rdr) e b' : Ir b -> br_empty b = (e, b') ->
    Ir b' /\ mle (mr b') (mr b) /\ (if e then buff_data b' = [] else b' = b /\ buff_data b <> []).
  Proof.
    intros HI H. unfold br_empty in H. unfold buff_empty in H. unfold buff_data.
    assert (G : br_buff b = None \/ br_buff b = Some [] ->
                (true, if br_all b then snd (read_next_member b) else b) = (e, b') ->
                Ir b' /\ mle (mr b') (mr b) /\ (if e then match br_buff b' with Some x => x | None => [] end = []
                   else b' = b /\ match br_buff b with Some x => x | None => [] end <> [])).
    { intros Hb [= <- <-]. destruct (br_all b).
      - destruct (read_next_member b) as [more b'] eqn:Er. cbn [snd].
        destruct (read_next_member_mr _ _ _ HI Er) as (A1 & A2 & _). split; [exact A1|]. split; [exact A2|].
        unfold read_next_member in Er. destruct (br_dec b) as [[?|[|? ?]|]|]; injection Er as <- <-;
          cbn [init_decomp set_start br_buff]; destruct Hb as [-> | ->]; reflexivity.
      - split; [assumption|]. split; [apply mle_refl|]. destruct Hb as [-> | ->]; reflexivity. }
    destruct (br_buff b) as [[|x l]|] eqn:Eb; [apply G; auto| |apply G; auto].
    injection H as <- <-. split; [assumption|]. split; [apply mle_refl|]. split; [reflexivity|discriminate].
  Qed.

  Lemma fill_base_conv (b : rdr) : Ir b ->
    exists b', conv (fun f => @fill_base zl raw raw_ops f b) (Ok tt, b') /\ Ir b' /\ mle (mr b') (mr b).
  Proof.
    intros HI. unfold fill_base. destruct (br_empty b) as [e b1] eqn:Ee.
    destruct (br_empty_mr _ _ _ HI Ee) as (I1 & M1 & E1).
    destruct e; cbn [negb].
    2:{ exists b1. split; [apply conv_const|]. now split. }
    destruct (0 <? rem_length b1) eqn:Er.
    { exists b1. split; [apply conv_const|]. now split. }
    assert (Hread : br_start b1 = None \/ br_start b1 = Some [] ->
      exists b', conv (fun f => match o_read raw_ops (Some (br_block b1)) (br_stream b1) with
          | (Ok d, s') => @fill_loop zl raw raw_ops f d (process_read d (set_stream s' b1))
          | (Err e, s') => (Err e, set_stream s' b1)
          end) (Ok tt, b') /\ Ir b' /\ mle (mr b') (mr b)).
    { intros Hst. destruct (raw_read_len (Some (br_block b1)) (br_stream b1)) as (d' & s' & Hr & _).
      destruct (block_wt _ _ _ Hr) as (B1 & B2 & B3 & B4 & B5).
      cbn [raw_ops o_read]. rewrite Hr.
      set (b2 := process_read d' (set_stream s' b1)) in *. clearbody b2.
      assert (Hs2 : slen b2 = O) by (unfold slen; rewrite B1; destruct Hst as [-> | ->]; reflexivity).
      assert (Hc2 : br_ck b2 = None) by (destruct I1; congruence).
      destruct (fill_loop_conv b2 d' Hs2 Hc2) as (b' & C1 & C2 & C3 & C4).
      exists b'. split; [exact C1|]. split; [now split|].
      assert (M2 : mle (mr b2) (mr b1)).
      { destruct d' as [|c d']; [destruct (B4 eq_refl) as [W1 W2]; unfold mr; rewrite W1, W2; ms_lia|].
        assert (wt b2 < wt b1)%nat by (apply B5; discriminate). unfold mr. ms_lia. }
      destruct C4 as [->|C4]; ms_lia. }
    destruct (br_start b1) as [[|c d]|] eqn:Est; [apply Hread; auto| |apply Hread; auto]. clear Hread.
    assert (Hd : c :: d <> []) by discriminate.
    destruct (process_read_wt (c :: d) (set_start None b1) Hd) as (P1 & P2 & P3 & _ & P5).
    set (b2 := process_read (c :: d) (set_start None b1)) in *. clearbody b2.
    destruct I1 as [I1a I1b].
    assert (Hdn : done (set_start None b1) = false).
    { unfold done in *. cbn [set_start br_dec]. destruct (br_dec b1) as [[?|?|]|]; try reflexivity.
      exfalso. specialize (I1b eq_refl). unfold slen in I1b. rewrite Est in I1b. discriminate. }
    specialize (P5 Hdn).
    assert (Hs2 : slen b2 = O) by (unfold slen; now rewrite P2).
    assert (Hc2 : br_ck b2 = None) by (rewrite P3; exact I1a).
    assert (M2 : mle (mr b2) (mr b1)).
    { unfold mr, wt. rewrite Hs2. unfold rlen. rewrite P1. cbn [set_start br_stream].
      unfold slen. rewrite Est. ms_lia. }
    destruct (fill_loop_conv b2 (c :: d) Hs2 Hc2) as (b' & C1 & C2 & C3 & C4).
    exists b'. split; [exact C1|]. split; [now split|]. destruct C4 as [->|C4]; ms_lia.
  Qed.

  Lemma fillbuff_conv (b : rdr) : Ir b ->
    exists b', conv (fun f => @fillbuff zl raw raw_ops f b) (Ok tt, b') /\ Ir b' /\ mle (mr b') (mr b).
  Proof.
    intros HI. destruct (fill_base_conv b HI) as (b' & C & R). exists b'. split; [|exact R].
    eapply conv_ext; [|exact C]. intros f. unfold fillbuff. now rewrite (proj1 HI).
  Qed.

  (** handing out buffered bytes *)
  Lemma take_mr (b : rdr) out r : Ir b -> out ++ r = buff_data b ->
    let b' := set_bbuff (Some (dropZ (lenZ out) (buff_data b))) b in
    Ir b' /\ mle (madd (mr b') (List.length out)) (mr b) /\ mle (mr b') (mr b).
  Proof.
    intros HI Ho b'. assert (Hd : dropZ (lenZ out) (buff_data b) = r) by (rewrite <- Ho; apply dropZ_app_exact).
    subst b'. rewrite Hd. assert (Hl : (List.length (buff_data b) = List.length out + List.length r)%nat)
      by (rewrite <- Ho; apply app_length).
    split; [exact HI|]. unfold mr, wt, rlen, slen. rewrite Hl.
    cbn [set_bbuff br_stream br_start br_dec]. unfold buff_data. cbn [set_bbuff br_buff].
    split; ms_lia.
  Qed.

  Lemma read_of_nonempty k l : l <> [] -> match k with None => true | Some k => 0 <? k end = true ->
    read_of k l <> [].
  Proof.
    intros Hl Hk. destruct k as [k|]; cbn [read_of]; [|exact Hl].
    replace (k <? 0) with false by lia. destruct l as [|c l]; [contradiction|]. intros H.
    assert (Hz : lenZ (takeZ k (c :: l)) = 0) by (rewrite H; reflexivity).
    rewrite lenZ_takeZ in Hz by lia. rewrite lenZ_cons in Hz. pose proof (lenZ_nonneg l). lia.
  Qed.

  Lemma read_loop_conv len acc (b : rdr) : Ir b ->
    exists x b', conv2 (fun n f => @read_loop zl raw raw_ops f n len acc b) (Ok (acc ++ x), b') /\
      Ir b' /\ mle (madd (mr b') (List.length x)) (mr b).
  Proof.
    remember (mr b) as k eqn:Hk. revert b len acc Hk.
    induction k as [k IH] using (well_founded_induction mlt_wf). intros b len acc Hk HI.
    destruct (match len with None => true | Some k => 0 <? k end) eqn:El.
    2:{ exists [], b. rewrite app_nil_r. split; [|split; [assumption|subst k; ms_lia]].
        apply conv2_S. eapply conv2_ext; [|apply conv2_const]. intros n f. cbn [read_loop]. now rewrite El. }
    destruct (fillbuff_conv b HI) as (b1 & C1 & I1 & M1).
    destruct (br_empty b1) as [e b2] eqn:Ee.
    destruct (br_empty_mr _ _ _ I1 Ee) as (I2 & M2 & E2).
    destruct e.
    { exists [], b2. rewrite app_nil_r. split; [|split; [assumption|subst k; ms_lia]].
      destruct C1 as [N HN]. exists (Datatypes.S N). intros [|n] f Hn Hf; [lia|].
      cbn [read_loop]. rewrite El, HN, Ee by lia. reflexivity. }
    destruct E2 as [-> Hb].
    set (out := read_of len (buff_data b1)).
    assert (Hout : out ++ dropZ (lenZ out) (buff_data b1) = buff_data b1) by apply read_of_split.
    destruct (take_mr b1 out _ I1 Hout) as (I3 & M3 & _).
    set (b3 := set_bbuff (Some (dropZ (lenZ out) (buff_data b1))) b1) in *.
    assert (Hne : out <> []) by (now apply read_of_nonempty).
    assert (Hp : (0 < List.length out)%nat) by (destruct out; [contradiction|cbn; lia]).
    destruct (IH (mr b3)) with (b := b3) (len := match len with Some k => Some (k - lenZ out) | None => None end)
      (acc := acc ++ out) as (x & b' & C & I' & M'); [subst k; ms_lia|reflexivity|exact I3|].
    exists (out ++ x), b'. split; [|split; [exact I'|]].
    2:{ rewrite app_length. subst k. ms_lia. }
    rewrite app_assoc. destruct C1 as [N HN], C as [M HM].
    exists (Datatypes.S (Nat.max N M)). intros [|n] f Hn Hf; [lia|].
    cbn [read_loop]. rewrite El, HN, Ee by lia. apply HM; lia.
  Qed.

  Lemma line_of_nonempty k l : l <> [] -> match k with None => true | Some k => negb (k =? 0) end = true ->
    line_of k l <> [].
  Proof.
    intros Hl Hk. assert (Ht : take_line l <> []) by (rewrite take_line_nil; exact Hl).
    destruct k as [k|]; cbn [line_of]; [|exact Ht].
    destruct (k <? 0) eqn:E0; [exact Ht|]. intros H.
    assert (Hz : lenZ (takeZ k (take_line l)) = 0) by (rewrite H; reflexivity).
    rewrite lenZ_takeZ in Hz by lia. pose proof (lenZ_pos _ Ht). lia.
  Qed.

  Lemma line_loop_conv len line (b : rdr) : Ir b -> len <> Some 0 ->
    exists x b', conv2 (fun n f => @line_loop zl raw raw_ops f n len line b) (Ok (line ++ x), b') /\
      Ir b' /\ mle (madd (mr b') (List.length x)) (mr b).
  Proof.
    remember (mr b) as k eqn:Hk. revert b len line Hk.
    induction k as [k IH] using (well_founded_induction mlt_wf). intros b len line Hk HI Hz.
    destruct (ends_lf line) eqn:El.
    { exists [], b. rewrite app_nil_r. split; [|split; [assumption|subst k; ms_lia]].
      apply conv2_S. eapply conv2_ext; [|apply conv2_const]. intros n f. cbn [line_loop]. now rewrite El. }
    destruct (match len with Some k => if k =? 0 then false else (k - lenZ line <=? 0) | None => false end) eqn:Es.
    { exists [], b. rewrite app_nil_r. split; [|split; [assumption|subst k; ms_lia]].
      apply conv2_S. eapply conv2_ext; [|apply conv2_const]. intros n f. cbn [line_loop]. now rewrite El, Es. }
    set (len' := match len with Some k => if k =? 0 then Some k else Some (k - lenZ line) | None => None end).
    destruct (fillbuff_conv b HI) as (b1 & C1 & I1 & M1).
    destruct (br_empty b1) as [e b2] eqn:Ee.
    destruct (br_empty_mr _ _ _ I1 Ee) as (I2 & M2 & E2).
    destruct e.
    { exists [], b2. rewrite app_nil_r. split; [|split; [assumption|subst k; ms_lia]].
      destruct C1 as [N HN]. exists (Datatypes.S N). intros [|n] f Hn Hf; [lia|].
      cbn [line_loop]. rewrite El, Es, HN, Ee by lia. reflexivity. }
    destruct E2 as [-> Hb].
    set (out := line_of len' (buff_data b1)).
    assert (Hout : out ++ dropZ (lenZ out) (buff_data b1) = buff_data b1) by apply line_of_split.
    destruct (take_mr b1 out _ I1 Hout) as (I3 & M3 & M3').
    set (b3 := set_bbuff (Some (dropZ (lenZ out) (buff_data b1))) b1) in *.
    assert (Hz' : len' <> Some 0).
    { subst len'. destruct len as [j|]; [|discriminate].
      destruct (j =? 0) eqn:E0; [assert (j = 0) by lia; congruence|]. intros [= H]. lia. }
    assert (Hne : out <> []).
    { apply line_of_nonempty; [exact Hb|]. destruct len' as [j|]; [|reflexivity].
      destruct (j =? 0) eqn:E0; [|reflexivity]. assert (j = 0) by lia. congruence. }
    assert (Hp : (0 < List.length out)%nat) by (destruct out; [contradiction|cbn; lia]).
    destruct (IH (mr b3)) with (b := b3) (len := len') (line := line ++ out) as (x & b' & C & I' & M');
      [subst k; ms_lia|reflexivity|exact I3|exact Hz'|].
    exists (out ++ x), b'. split; [|split; [exact I'|]].
    2:{ rewrite app_length. subst k. ms_lia. }
    rewrite app_assoc. destruct C1 as [N HN], C as [M HM].
    exists (Datatypes.S (Nat.max N M)). intros [|n] f Hn Hf; [lia|].
    cbn [line_loop]. rewrite El, Es, HN, Ee by lia. apply HM; lia.
  Qed.

  Definition rops_f (f : nat) : sops rdr := @rops zl f.
  Definition no_exn : rdr -> exn -> Prop := fun _ _ => False.

  Lemma rops_good : good Ir mr no_exn rops_f.
  Proof.
    split; intros n b HI.
    - destruct (read_loop_conv n [] b HI) as (x & b' & C & I' & M').
      exists (Ok x, b'). split; [exact (conv2_diag _ _ C)|].
      split; [exact I'|]. cbn [fst snd]. repeat split; [ms_lia|tauto|exact M'].
    - cbn [rops_f rops br_ops o_readline]. unfold rops_f, rops, br_ops, br_readline. cbn [o_readline].
      destruct (match n with Some k => k =? 0 | None => false end) eqn:En.
      { exists (Ok [], b). split; [apply conv_const|]. split; [exact HI|]. cbn [fst snd].
        repeat split; [apply mle_refl|tauto|ms_lia]. }
      destruct (fillbuff_conv b HI) as (b1 & C1 & I1 & M1).
      destruct (br_empty b1) as [e b2] eqn:Ee.
      destruct (br_empty_mr _ _ _ I1 Ee) as (I2 & M2 & E2).
      destruct e.
      { exists (Ok [], b2). split.
        - destruct C1 as [N HN]. exists N. intros f Hf. rewrite HN, Ee by lia. reflexivity.
        - split; [exact I2|]. cbn [fst snd]. repeat split; [ms_lia|tauto|ms_lia]. }
      destruct E2 as [-> Hb].
      set (out := line_of n (buff_data b1)).
      assert (Hout : out ++ dropZ (lenZ out) (buff_data b1) = buff_data b1) by apply line_of_split.
      destruct (take_mr b1 out _ I1 Hout) as (I3 & M3 & M3').
      set (b3 := set_bbuff (Some (dropZ (lenZ out) (buff_data b1))) b1) in *.
      destruct (line_loop_conv n out b3 I3) as (x & b' & C & I' & M').
      { intros ->. discriminate. }
      exists (Ok (out ++ x), b'). split.
      + destruct C1 as [N HN], C as [M HM]. exists (Nat.max N M). intros f Hf.
        rewrite HN, Ee by lia. cbn [buff_line]. unfold buff_line. apply HM; lia.
      + split; [exact I'|]. cbn [fst snd]. rewrite app_length. repeat split; [ms_lia|tauto|ms_lia].
  Qed.
End Reader.
