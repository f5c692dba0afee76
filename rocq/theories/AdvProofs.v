(** * AdvProofs: the reader as a sequence of bytes.

    Where the reader stands depends only on the bytes taken from it, not on the calls that
    took them.  [adv b x b']: taking the bytes [x] one at a time leads from [b] to [b'].
    [eofP b b']: the reader [b] has nothing more to give; trying leads to [b']. *)
From Coq Require Import List ZArith NArith Bool Lia Wellfounded.
From Coq Require Import ZifyBool ZifyNat ZifyN.
From Verif Require Import PyBase Facts Streams Iterator TermProofs.
Import ListNotations.
Open Scope Z_scope.

Lemma conv_uniq {A} (f : nat -> A) r1 r2 : conv f r1 -> conv f r2 -> r1 = r2.
Proof. intros [N HN] [M HM]. rewrite <- (HN (Nat.max N M)) by lia. apply HM. lia. Qed.
Lemma conv2_uniq {A} (f : nat -> nat -> A) r1 r2 : conv2 f r1 -> conv2 f r2 -> r1 = r2.
Proof. intros [N HN] [M HM]. rewrite <- (HN (Nat.max N M) (Nat.max N M)) by lia. apply HM; lia. Qed.

Section Adv.
  Context {zl : zenv}.
  Notation rdr := (breader zl raw).

  (** the archive iterator's reader does not run over member boundaries by itself *)
  Definition Ia (b : rdr) : Prop := Ir b /\ br_all b = false.

  Definition fills (b b1 : rdr) : Prop := conv (fun f => @fillbuff zl raw raw_ops f b) (Ok tt, b1).
  Definition eofP (b b1 : rdr) : Prop := fills b b1 /\ buff_data b1 = [].

  Inductive adv : rdr -> bytes -> rdr -> Prop :=
  | adv_nil b : adv b [] b
  | adv_step b b1 c r x b' :
      fills b b1 -> buff_data b1 = c :: r -> adv (set_bbuff (Some r) b1) x b' -> adv b (c :: x) b'.

  Lemma fills_fun b b1 b2 : fills b b1 -> fills b b2 -> b1 = b2.
  Proof. intros H1 H2. pose proof (conv_uniq _ _ _ H1 H2) as H. now injection H. Qed.

  (** ** filling *)
  Lemma br_empty_all (b : rdr) : br_all b = false -> br_empty b = (buff_empty b, b).
  Proof. intros H. unfold br_empty. rewrite H. now destruct (buff_empty b). Qed.
  Lemma buff_empty_data (b : rdr) : buff_empty b = is_nil (buff_data b).
  Proof. unfold buff_empty, buff_data. now destruct (br_buff b) as [[|? ?]|]. Qed.

  Lemma fillbuff_base f (b : rdr) : Ia b -> @fillbuff zl raw raw_ops f b = fill_base raw_ops f b.
  Proof. intros [[H _] _]. unfold fillbuff. now rewrite H. Qed.

  Lemma fill_nonempty f (b : rdr) : Ia b -> buff_data b <> [] -> @fillbuff zl raw raw_ops f b = (Ok tt, b).
  Proof.
    intros Hi Hb. rewrite fillbuff_base by exact Hi. unfold fill_base. rewrite br_empty_all by apply Hi.
    rewrite buff_empty_data. destruct (buff_data b); [contradiction|reflexivity].
  Qed.

  Lemma decompress_all d (b : rdr) : br_all (snd (decompress d b)) = br_all b.
  Proof.
    unfold decompress. destruct (br_dec b) as [x|]; [|reflexivity]. destruct (is_nil d); [reflexivity|].
    destruct (dobj_decompress zl x d) as [[o|] x']; [reflexivity|]. destruct (br_nblk b =? 0); [|reflexivity].
    destruct (br_dtype b) as [[| |]|]; try reflexivity.
    now destruct (dobj_decompress zl (DActive (zinit zl DeflateAlt)) d) as [[o|] ?].
  Qed.
  Lemma process_all d (b : rdr) : br_all (process_read d b) = br_all b.
  Proof.
    unfold process_read. destruct (is_nil d); [reflexivity|].
    pose proof (decompress_all d b). destruct (decompress d b). exact H.
  Qed.
  Lemma fill_loop_all n d (b : rdr) : br_all (snd (fill_loop raw_ops n d b)) = br_all b.
  Proof.
    revert d b. induction n as [|n IH]; intros d b; [reflexivity|]. cbn [fill_loop].
    destruct (fill_cond d b); [|reflexivity].
    destruct (o_read raw_ops (Some (br_block b)) (br_stream b)) as [[d'|e] s']; [|reflexivity].
    rewrite IH, process_all. reflexivity.
  Qed.
  Lemma fill_base_all f (b : rdr) : br_all b = false -> br_all (snd (fill_base raw_ops f b)) = false.
  Proof.
    intros H. unfold fill_base. rewrite br_empty_all by exact H.
    destruct (buff_empty b); cbn [negb]; [|exact H]. destruct (0 <? rem_length b); [exact H|].
    assert (R : br_all (snd match o_read raw_ops (Some (br_block b)) (br_stream b) with
        | (Ok d, s') => fill_loop raw_ops f d (process_read d (set_stream s' b))
        | (Err e, s') => (Err e, set_stream s' b) end) = false).
    { destruct (o_read raw_ops (Some (br_block b)) (br_stream b)) as [[d'|e] s']; [|exact H].
      rewrite fill_loop_all, process_all. exact H. }
    destruct (br_start b) as [[|c d]|]; [exact R| |exact R].
    rewrite fill_loop_all, process_all. exact H.
  Qed.

  Lemma fills_ex (b : rdr) : Ia b -> exists b1, fills b b1 /\ Ia b1 /\ mle (mr b1) (mr b).
  Proof.
    intros [HI Ha]. destruct (fillbuff_conv b HI) as (b1 & C & I1 & M1). exists b1.
    split; [exact C|]. split; [|exact M1]. split; [exact I1|].
    destruct C as [N HN]. specialize (HN N (le_n _)). rewrite fillbuff_base in HN by (now split).
    pose proof (fill_base_all N b Ha) as H. rewrite HN in H. exact H.
  Qed.
  Lemma fills_Ia b b1 : Ia b -> fills b b1 -> Ia b1.
  Proof. intros HI H. destruct (fills_ex b HI) as (b2 & H2 & I2 & _). now rewrite (fills_fun _ _ _ H H2). Qed.

  Lemma take_Ia b x : Ia b -> Ia (set_bbuff x b).
  Proof. intros H. exact H. Qed.

  (** at the end of the file a read changes nothing *)
  Lemma raw_read_end k (s : raw) d s' : o_read raw_ops (Some k) s = (Ok d, s') ->
    d = [] -> s' = s \/ (rw_rest s' = [] /\ rw_rest s = []).
  Proof.
    intros H ->. cbn [raw_ops o_read] in H. unfold raw_read in H.
    destruct (0 <? k) eqn:Ek.
    - destruct (rw_rest s) as [|c r] eqn:Er.
      + apply (f_equal snd) in H. cbn [snd] in H. subst s'. right. split; [|reflexivity].
        reflexivity.
      + exfalso. assert (G : forall m (sc : raw), 0 < m -> (Ok (takeZ m (c :: r)), sc) = (Ok [], s') -> False).
        { intros m sc Hm Q. apply (f_equal fst) in Q. cbn [fst] in Q.
          assert (Q' : takeZ m (c :: r) = []) by congruence.
          apply (f_equal lenZ) in Q'. rewrite lenZ_takeZ, lenZ_cons, lenZ_nil in Q' by lia.
          pose proof (lenZ_nonneg r). lia. }
        destruct (rw_sched s) as [|x t]; (eapply G; [|exact H]; lia).
    - destruct (k =? 0); [injection H as <-; now left|]. injection H as H <-. right. now rewrite H.
  Qed.
  Lemma raw_read_nil k (s : raw) : rw_rest s = [] -> o_read raw_ops (Some k) s = (Ok [], s).
  Proof.
    intros H. destruct s as [r p sc]. cbn [rw_rest] in H. subst r. cbn [raw_ops o_read]. unfold raw_read.
    cbn [rw_rest rw_pos rw_sched]. destruct (0 <? k).
    - cbn [takeZ dropZ]. change (lenZ []) with 0. now rewrite Z.add_0_r.
    - destruct (k =? 0); [reflexivity|]. change (lenZ []) with 0. now rewrite Z.add_0_r.
  Qed.
  Lemma raw_read_same k (s : raw) s' : o_read raw_ops (Some k) s = (Ok [], s') -> s' = s.
  Proof.
    intros H. destruct (raw_read_end _ _ _ _ H eq_refl) as [E|[_ E]]; [exact E|].
    rewrite (raw_read_nil k s E) in H. now injection H.
  Qed.

  (** states in which trying to fill does nothing *)
  Definition stuck (b : rdr) : Prop :=
    buff_data b = [] /\
    (0 < rem_length b \/
     (br_buff b = None /\ (br_start b = None \/ br_start b = Some []) /\
      o_read raw_ops (Some (br_block b)) (br_stream b) = (Ok [], br_stream b))).

  Lemma set_eta (b : rdr) : br_buff b = None -> set_bbuff None (set_stream (br_stream b) b) = b.
  Proof. destruct b. cbn. now intros ->. Qed.

  Lemma stuck_fills b : Ia b -> stuck b -> fills b b.
  Proof.
    intros HI [Hb Hs]. exists 1%nat. intros f Hf. rewrite fillbuff_base by exact HI. unfold fill_base.
    rewrite br_empty_all by apply HI. rewrite buff_empty_data, Hb. cbn [is_nil negb].
    destruct (0 <? rem_length b) eqn:Er; [reflexivity|].
    destruct Hs as [Hs|(H1 & H2 & H3)]; [lia|].
    destruct H2 as [-> | ->]; rewrite H3; unfold process_read; cbn [is_nil]; rewrite set_eta by exact H1;
      (destruct f as [|f]; [lia|]); reflexivity.
  Qed.

  (** after a fill that found nothing, the reader is stuck *)
  Definition at_end (d : bytes) (b : rdr) : Prop :=
    d = [] -> br_buff b = None /\ (br_start b = None \/ br_start b = Some []) /\
              o_read raw_ops (Some (br_block b)) (br_stream b) = (Ok [], br_stream b).

  Lemma process_block d (b : rdr) : br_block (process_read d b) = br_block b.
  Proof.
    unfold process_read. destruct (is_nil d); [reflexivity|].
    assert (H : br_block (snd (decompress d b)) = br_block b).
    { unfold decompress. destruct (br_dec b) as [x|]; [|reflexivity]. destruct (is_nil d); [reflexivity|].
      destruct (dobj_decompress zl x d) as [[o|] x']; [reflexivity|]. destruct (br_nblk b =? 0); [|reflexivity].
      destruct (br_dtype b) as [[| |]|]; try reflexivity.
      now destruct (dobj_decompress zl (DActive (zinit zl DeflateAlt)) d) as [[o|] ?]. }
    destruct (decompress d b). exact H.
  Qed.

  Lemma step_at_end (b : rdr) d s' : br_start b = None \/ br_start b = Some [] ->
    o_read raw_ops (Some (br_block b)) (br_stream b) = (Ok d, s') ->
    at_end d (process_read d (set_stream s' b)).
  Proof.
    intros Hs Hr ->. pose proof (raw_read_same _ _ _ Hr) as ->.
    unfold process_read. cbn [is_nil set_bbuff set_stream br_buff br_start br_stream br_block].
    split; [reflexivity|]. split; [exact Hs|exact Hr].
  Qed.

  Lemma loop_stuck n d (b b' : rdr) : (br_start b = None \/ br_start b = Some []) -> at_end d b ->
    (br_dec b = None -> buff_data b <> [] \/ d = []) ->
    fill_loop raw_ops n d b = (Ok tt, b') -> buff_data b' = [] -> stuck b'.
  Proof.
    revert d b. induction n as [|n IH]; intros d b Hs He Hd H Hb; [discriminate|]. cbn [fill_loop] in H.
    destruct (fill_cond d b) eqn:Ec.
    - destruct (o_read raw_ops (Some (br_block b)) (br_stream b)) as [[d'|e] s'] eqn:Er; [|discriminate].
      assert (Hs' : br_start (process_read d' (set_stream s' b)) = br_start b).
      { unfold process_read. destruct (is_nil d') eqn:En; [reflexivity|].
        destruct (process_read_wt d' (set_stream s' b)) as (_ & P & _); [now destruct d'|].
        unfold process_read in P. rewrite En in P. exact P. }
      apply (IH d' (process_read d' (set_stream s' b))); try assumption.
      + now rewrite Hs'.
      + now apply step_at_end.
      + (* the decompressor is dropped only when the data is handed on *)
        intros Hn. destruct d' as [|c d']; [now right|left].
        unfold process_read in Hn |- *. cbn [is_nil] in Hn |- *.
        unfold fill_cond in Ec. destruct (br_dec b) as [x|] eqn:Ex; [|now rewrite !andb_false_r in Ec].
        unfold decompress in Hn |- *. cbn [set_stream br_dec is_nil] in Hn |- *. rewrite Ex in Hn |- *.
        cbn [is_nil] in Hn |- *.
        destruct (dobj_decompress zl x (c :: d')) as [[o|] x'].
        { cbn in Hn. discriminate. }
        cbn [set_stream br_nblk br_dtype] in Hn |- *.
        destruct (br_nblk b =? 0); [|cbn in Hn; discriminate].
        destruct (br_dtype b) as [[| |]|]; try (cbn; discriminate).
        destruct (dobj_decompress zl (DActive (zinit zl DeflateAlt)) (c :: d')) as [[o|] ?]; cbn in Hn |- *; discriminate.
    - injection H as <-. split; [exact Hb|].
      destruct d as [|c d]; [right; now apply He|].
      unfold fill_cond in Ec. cbn [is_nil negb andb] in Ec. rewrite buff_empty_data, Hb in Ec. cbn [is_nil] in Ec.
      rewrite andb_true_r in Ec. destruct (br_dec b) as [x|] eqn:Ex.
      + left. cbn [andb] in Ec. unfold rem_length. destruct (unused b) as [|y u]; [discriminate|].
        rewrite lenZ_cons. pose proof (lenZ_nonneg u).
        destruct (br_buff b) as [z|]; [pose proof (lenZ_nonneg z)|]; lia.
      + destruct (Hd eq_refl) as [Q|Q]; [contradiction|discriminate].
  Qed.

  Lemma process_dropped d (b : rdr) : d <> [] -> br_dec (process_read d b) = None -> buff_data (process_read d b) <> [].
  Proof.
    intros Hd. unfold process_read. destruct (is_nil d) eqn:En; [destruct d; [contradiction|discriminate]|].
    unfold decompress. destruct (br_dec b) as [x|] eqn:Ex.
    2:{ intros _. unfold buff_data. cbn [set_bbuff br_buff]. exact Hd. }
    rewrite En. destruct (dobj_decompress zl x d) as [[o|] x']; [cbn; discriminate|].
    destruct (br_nblk b =? 0); [|cbn; discriminate].
    destruct (br_dtype b) as [[| |]|]; try (intros _; unfold buff_data; cbn [set_bbuff br_buff]; exact Hd).
    destruct (dobj_decompress zl (DActive (zinit zl DeflateAlt)) d) as [[o|] ?]; [cbn; discriminate|].
    intros _. unfold buff_data. cbn [set_bbuff br_buff]. exact Hd.
  Qed.

  Lemma eof_stuck b b1 : Ia b -> eofP b b1 -> stuck b1.
  Proof.
    intros HI [[N HN] Hb]. specialize (HN N (le_n _)). rewrite fillbuff_base in HN by exact HI.
    unfold fill_base in HN. rewrite br_empty_all in HN by apply HI. rewrite buff_empty_data in HN.
    destruct (is_nil (buff_data b)) eqn:En; cbn [negb] in HN.
    2:{ injection HN as <-. rewrite Hb in En. discriminate. }
    assert (Eb : buff_data b = []) by (destruct (buff_data b); [reflexivity|discriminate]).
    destruct (0 <? rem_length b) eqn:Er.
    { injection HN as <-. split; [exact Hb|]. left. lia. }
    assert (G : br_start b = None \/ br_start b = Some [] ->
      match o_read raw_ops (Some (br_block b)) (br_stream b) with
      | (Ok d, s') => fill_loop raw_ops N d (process_read d (set_stream s' b))
      | (Err e, s') => (Err e, set_stream s' b) end = (Ok tt, b1) -> stuck b1).
    { intros Hs H. destruct (o_read raw_ops (Some (br_block b)) (br_stream b)) as [[d|e] s'] eqn:Ed; [|discriminate].
      assert (Hs' : br_start (process_read d (set_stream s' b)) = br_start b).
      { destruct d as [|c d]; [reflexivity|].
        destruct (process_read_wt (c :: d) (set_stream s' b)) as (_ & P & _); [discriminate|exact P]. }
      apply (loop_stuck N d (process_read d (set_stream s' b))); try assumption.
      - now rewrite Hs'.
      - now apply step_at_end.
      - intros Hn. destruct d as [|c d]; [now right|left]. now apply process_dropped. }
    destruct (br_start b) as [[|c d]|] eqn:Es; [apply G; auto| |apply G; auto]. clear G.
    apply (loop_stuck N (c :: d) (process_read (c :: d) (set_start None b))); try assumption.
    - left. destruct (process_read_wt (c :: d) (set_start None b)) as (_ & P & _); [discriminate|exact P].
    - intros Q. discriminate.
    - intros Hn. left. apply process_dropped; [discriminate|exact Hn].
  Qed.

  (** trying again at the end changes nothing *)
  Lemma eof_again b b1 : Ia b -> eofP b b1 -> eofP b1 b1.
  Proof.
    intros HI H. split; [|apply H]. apply stuck_fills; [exact (fills_Ia _ _ HI (proj1 H))|now apply eof_stuck with b].
  Qed.

  (** ** advancing *)
  Lemma adv_Ia b x b' : Ia b -> adv b x b' -> Ia b'.
  Proof. intros HI H. induction H; [exact HI|]. apply IHadv, take_Ia. now apply fills_Ia with b. Qed.

  Lemma adv_mr b x b' : Ia b -> adv b x b' -> mle (madd (mr b') (List.length x)) (mr b).
  Proof.
    intros HI H. induction H as [b|b b1 c r x b' Hf Hb Hx IH]; [ms_lia|].
    pose proof (fills_Ia _ _ HI Hf) as I1. specialize (IH (take_Ia _ _ I1)).
    destruct (fills_ex b HI) as (b2 & F2 & _ & M2). rewrite <- (fills_fun _ _ _ Hf F2) in M2.
    assert (M3 : mle (madd (mr (set_bbuff (Some r) b1)) 1) (mr b1)).
    { unfold mr, wt, rlen, slen. rewrite Hb. unfold buff_data. cbn [set_bbuff br_stream br_start br_dec br_buff]. ms_lia. }
    ms_lia.
  Qed.

  Lemma adv_app b x b1 y b2 : adv b x b1 -> adv b1 y b2 -> adv b (x ++ y) b2.
  Proof. induction 1; intros Hy; [exact Hy|]. cbn [app]. eapply adv_step; eauto. Qed.

  Lemma adv_buf b b1 out r : out <> [] -> Ia b1 -> fills b b1 -> buff_data b1 = out ++ r ->
    adv b out (set_bbuff (Some r) b1).
  Proof.
    intros Ho HI Hf Hb. destruct out as [|c out]; [contradiction|]. clear Ho. cbn [app] in Hb.
    eapply adv_step; [exact Hf|exact Hb|]. clear Hf Hb.
    revert out. induction out as [|c' out IH]; [apply adv_nil|]. cbn [app].
    eapply adv_step with (b1 := set_bbuff (Some (c' :: out ++ r)) b1) (r := out ++ r).
    - exists O. intros f _. apply fill_nonempty; [exact HI|discriminate].
    - reflexivity.
    - exact IH.
  Qed.

  Lemma adv_det b x b1 y b2 : adv b x b1 -> adv b y b2 -> lenZ x <= lenZ y ->
    exists z, y = x ++ z /\ adv b1 z b2.
  Proof.
    intros Hx. revert y b2. induction Hx as [b|b b1 c r x b' Hf Hb Hx IH]; intros y b2 Hy Hl.
    { exists y. now split. }
    inversion Hy as [|? b3 c' r' y' ? Hf' Hb' Hy']; subst.
    { rewrite lenZ_cons, lenZ_nil in Hl. pose proof (lenZ_nonneg x). lia. }
    pose proof (fills_fun _ _ _ Hf Hf') as <-. rewrite Hb in Hb'. injection Hb' as <- <-.
    rewrite !lenZ_cons in Hl. destruct (IH _ _ Hy' ltac:(lia)) as (z & -> & Hz). exists z. now split.
  Qed.

  Lemma eof_adv b b1 x b2 : eofP b b1 -> adv b x b2 -> x = [] /\ b2 = b.
  Proof.
    intros [Hf Hb] H. inversion H as [|? b3 c r y ? Hf' Hb' _]; subst; [now split|].
    rewrite (fills_fun _ _ _ Hf Hf') in Hb. congruence.
  Qed.

  Definition under (x : bytes) (lim : option Z) : Prop := match lim with Some k => lenZ x < k | None => True end.
  Definition within (x : bytes) (lim : option Z) : Prop := match lim with Some k => lenZ x <= k | None => True end.

  (** what one call did: it took [x], and if it tried for more, it found the end
      before [lim] bytes *)
  Definition went (b : rdr) (x : bytes) (lim : option Z) (b' : rdr) : Prop :=
    exists b1, adv b x b1 /\ within x lim /\ (b' = b1 \/ (eofP b1 b' /\ under x lim)).

  Lemma read_went len acc (b : rdr) : Ia b ->
    exists x b', conv2 (fun n f => @read_loop zl raw raw_ops f n len acc b) (Ok (acc ++ x), b') /\
      exists b1, adv b x b1 /\ match len with Some k => lenZ x <= Z.max 0 k | None => True end /\
        ((b' = b1 /\ exists k, len = Some k /\ lenZ x = Z.max 0 k) \/
         (eofP b1 b' /\ match len with Some k => lenZ x < k | None => True end)).
  Proof.
    remember (mr b) as k eqn:Hk. revert b len acc Hk.
    induction k as [k IH] using (well_founded_induction mlt_wf). intros b len acc Hk HI.
    destruct (match len with None => true | Some k => 0 <? k end) eqn:El.
    2:{ destruct len as [j|]; [|discriminate]. exists [], b. rewrite app_nil_r. split.
        - apply conv2_S. eapply conv2_ext; [|apply conv2_const]. intros n f. cbn [read_loop]. now rewrite El.
        - exists b. split; [apply adv_nil|]. rewrite lenZ_nil. split; [lia|]. left. split; [reflexivity|].
          exists j. split; [reflexivity|lia]. }
    destruct (fills_ex b HI) as (b1 & C1 & I1 & M1).
    assert (Ee : br_empty b1 = (is_nil (buff_data b1), b1)).
    { rewrite br_empty_all by apply I1. now rewrite buff_empty_data. }
    destruct (buff_data b1) as [|c0 r0] eqn:Eb; cbn [is_nil] in Ee.
    { exists [], b1. rewrite app_nil_r. split.
      - destruct C1 as [N HN]. exists (Datatypes.S N). intros [|n] f Hn Hf; [lia|].
        cbn [read_loop]. rewrite El, HN, Ee by lia. reflexivity.
      - exists b. split; [apply adv_nil|]. split; [destruct len; [rewrite lenZ_nil; lia|exact Logic.I]|].
        right. split; [now split|]. destruct len; [rewrite lenZ_nil; lia|exact Logic.I]. }
    set (out := read_of len (buff_data b1)).
    assert (Hout : out ++ dropZ (lenZ out) (buff_data b1) = buff_data b1) by apply read_of_split.
    destruct (take_mr b1 out _ (proj1 I1) Hout) as (I3 & M3 & _).
    assert (Hne : out <> []) by (apply read_of_nonempty; [rewrite Eb; discriminate|exact El]).
    assert (Hp : (0 < List.length out)%nat) by (destruct out; [contradiction|cbn; lia]).
    assert (Hle : match len with Some k => lenZ out <= k | None => True end).
    { subst out. destruct len as [j|]; [|exact Logic.I]. cbn [read_of]. replace (j <? 0) with false by lia.
      rewrite lenZ_takeZ by lia. lia. }
    pose proof (adv_buf b b1 out _ Hne I1 C1 (eq_sym Hout)) as A1.
    set (b3 := set_bbuff (Some (dropZ (lenZ out) (buff_data b1))) b1) in *.
    destruct (IH (mr b3)) with (b := b3) (len := match len with Some k => Some (k - lenZ out) | None => None end)
      (acc := acc ++ out) as (x & b' & C & b4 & A2 & W1 & W2); [subst k; ms_lia|reflexivity|exact I1|].
    exists (out ++ x), b'. split.
    - rewrite app_assoc. destruct C1 as [N HN], C as [M HM].
      exists (Datatypes.S (Nat.max N M)). intros [|n] f Hn Hf; [lia|].
      cbn [read_loop]. rewrite El, HN, Ee by lia. apply HM; lia.
    - exists b4. split; [now apply adv_app with b3|]. rewrite lenZ_app.
      destruct len as [j|].
      + split; [lia|]. destruct W2 as [(-> & k' & [= <-] & W2)|[W2 W3]].
        * left. split; [reflexivity|]. exists j. split; [reflexivity|lia].
        * right. split; [exact W2|lia].
      + split; [exact Logic.I|]. destruct W2 as [(-> & k' & W2 & _)|[W2 W3]]; [discriminate|].
        right. now split.
  Qed.

  Lemma line_went len line (b : rdr) : Ia b -> (match len with Some k => 0 < k | None => True end) ->
    exists x b', conv2 (fun n f => @line_loop zl raw raw_ops f n len line b) (Ok (line ++ x), b') /\
      exists b1, adv b x b1 /\ match len with Some k => lenZ x <= Z.max 0 (k - lenZ line) | None => True end /\
        (b' = b1 \/ (eofP b1 b' /\ match len with Some k => lenZ x < k - lenZ line | None => True end)).
  Proof.
    remember (mr b) as k eqn:Hk. revert b len line Hk.
    induction k as [k IH] using (well_founded_induction mlt_wf). intros b len line Hk HI Hz.
    assert (Stay : forall (T : conv2 (fun n f => @line_loop zl raw raw_ops f n len line b) (Ok line, b)),
      exists x b', conv2 (fun n f => @line_loop zl raw raw_ops f n len line b) (Ok (line ++ x), b') /\
      exists b1, adv b x b1 /\ match len with Some k => lenZ x <= Z.max 0 (k - lenZ line) | None => True end /\
        (b' = b1 \/ (eofP b1 b' /\ match len with Some k => lenZ x < k - lenZ line | None => True end))).
    { intros T. exists [], b. rewrite app_nil_r. split; [exact T|]. exists b. split; [apply adv_nil|].
      split; [destruct len; [rewrite lenZ_nil; lia|exact Logic.I]|now left]. }
    destruct (ends_lf line) eqn:El.
    { apply Stay. apply conv2_S. eapply conv2_ext; [|apply conv2_const]. intros n f. cbn [line_loop]. now rewrite El. }
    destruct (match len with Some k => if k =? 0 then false else (k - lenZ line <=? 0) | None => false end) eqn:Es.
    { apply Stay. apply conv2_S. eapply conv2_ext; [|apply conv2_const]. intros n f. cbn [line_loop]. now rewrite El, Es. }
    clear Stay.
    set (len' := match len with Some k => if k =? 0 then Some k else Some (k - lenZ line) | None => None end).
    assert (Hlen' : len' = match len with Some k => Some (k - lenZ line) | None => None end).
    { subst len'. destruct len as [j|]; [|reflexivity]. now replace (j =? 0) with false by lia. }
    assert (Hz' : match len' with Some k => 0 < k | None => True end).
    { rewrite Hlen'. destruct len as [j|]; [|exact Logic.I]. replace (j =? 0) with false in Es by lia. lia. }
    destruct (fills_ex b HI) as (b1 & C1 & I1 & M1).
    assert (Ee : br_empty b1 = (is_nil (buff_data b1), b1)).
    { rewrite br_empty_all by apply I1. now rewrite buff_empty_data. }
    destruct (buff_data b1) as [|c0 r0] eqn:Eb; cbn [is_nil] in Ee.
    { exists [], b1. rewrite app_nil_r. split.
      - destruct C1 as [N HN]. exists (Datatypes.S N). intros [|n] f Hn Hf; [lia|].
        cbn [line_loop]. rewrite El, Es, HN, Ee by lia. reflexivity.
      - exists b. split; [apply adv_nil|]. rewrite Hlen' in Hz'.
        split; [destruct len; [rewrite lenZ_nil; lia|exact Logic.I]|].
        right. split; [now split|]. destruct len; [rewrite lenZ_nil; lia|exact Logic.I]. }
    set (out := line_of len' (buff_data b1)).
    assert (Hout : out ++ dropZ (lenZ out) (buff_data b1) = buff_data b1) by apply line_of_split.
    destruct (take_mr b1 out _ (proj1 I1) Hout) as (I3 & M3 & M3').
    assert (Hne : out <> []).
    { apply line_of_nonempty; [rewrite Eb; discriminate|]. destruct len' as [j|]; [|reflexivity]. lia. }
    assert (Hp : (0 < List.length out)%nat) by (destruct out; [contradiction|cbn; lia]).
    assert (Hle : match len' with Some k => lenZ out <= k | None => True end).
    { subst out. destruct len' as [j|]; [|exact Logic.I]. cbn [line_of]. replace (j <? 0) with false by lia.
      rewrite lenZ_takeZ by lia. lia. }
    pose proof (adv_buf b b1 out _ Hne I1 C1 (eq_sym Hout)) as A1.
    set (b3 := set_bbuff (Some (dropZ (lenZ out) (buff_data b1))) b1) in *.
    destruct (IH (mr b3)) with (b := b3) (len := len') (line := line ++ out) as (x & b' & C & b4 & A2 & W1 & W2);
      [subst k; ms_lia|reflexivity|exact I1|exact Hz'|].
    exists (out ++ x), b'. split.
    - rewrite app_assoc. destruct C1 as [N HN], C as [M HM].
      exists (Datatypes.S (Nat.max N M)). intros [|n] f Hn Hf; [lia|].
      cbn [line_loop]. rewrite El, Es, HN, Ee by lia. apply HM; lia.
    - exists b4. split; [now apply adv_app with b3|]. rewrite Hlen' in *. rewrite !lenZ_app in *.
      pose proof (lenZ_nonneg line). destruct len as [j|].
      + split; [lia|]. destruct W2 as [->|[W2 W3]]; [now left|right]. split; [exact W2|lia].
      + split; [exact Logic.I|]. destruct W2 as [->|[W2 W3]]; [now left|right]. now split.
  Qed.

  (** ** One read or readline of the reader *)
  Lemma rops_read_went n (b : rdr) : Ia b ->
    exists x b', conv (fun f => o_read (rops_f f) n b) (Ok x, b') /\
      exists b1, adv b x b1 /\ match n with Some k => lenZ x <= Z.max 0 k | None => True end /\
        ((b' = b1 /\ exists k, n = Some k /\ lenZ x = Z.max 0 k) \/
         (eofP b1 b' /\ match n with Some k => lenZ x < k | None => True end)).
  Proof.
    intros HI. destruct (read_went n [] b HI) as (x & b' & C & H). exists x, b'.
    split; [exact (conv2_diag _ _ C)|exact H].
  Qed.

  Lemma rops_line_went n (b : rdr) : Ia b -> (match n with Some k => 0 <= k | None => True end) ->
    exists x b', conv (fun f => o_readline (rops_f f) n b) (Ok x, b') /\ went b x n b'.
  Proof.
    intros HI Hn. unfold rops_f, rops, br_ops, br_readline. cbn [o_readline].
    destruct (match n with Some k => k =? 0 | None => false end) eqn:En.
    { exists [], b. split; [apply conv_const|]. exists b. split; [apply adv_nil|].
      split; [destruct n; [exact Hn|exact Logic.I]|now left]. }
    destruct (fills_ex b HI) as (b1 & C1 & I1 & M1).
    assert (Ee : br_empty b1 = (is_nil (buff_data b1), b1)).
    { rewrite br_empty_all by apply I1. now rewrite buff_empty_data. }
    destruct (buff_data b1) as [|c0 r0] eqn:Eb; cbn [is_nil] in Ee.
    { exists [], b1. split.
      - destruct C1 as [N HN]. exists N. intros f Hf. rewrite HN, Ee by lia. reflexivity.
      - exists b. split; [apply adv_nil|]. split; [destruct n; [exact Hn|exact Logic.I]|].
        right. split; [now split|]. destruct n; [cbn; lia|exact Logic.I]. }
    set (out := line_of n (buff_data b1)).
    assert (Hout : out ++ dropZ (lenZ out) (buff_data b1) = buff_data b1) by apply line_of_split.
    assert (Hne : out <> []).
    { apply line_of_nonempty; [rewrite Eb; discriminate|]. destruct n as [j|]; [|reflexivity]. lia. }
    assert (Hle : match n with Some k => lenZ out <= k | None => True end).
    { subst out. destruct n as [j|]; [|exact Logic.I]. cbn [line_of]. replace (j <? 0) with false by lia.
      rewrite lenZ_takeZ by lia. lia. }
    pose proof (adv_buf b b1 out _ Hne I1 C1 (eq_sym Hout)) as A1.
    set (b3 := set_bbuff (Some (dropZ (lenZ out) (buff_data b1))) b1) in *.
    destruct (line_went n out b3) as (x & b' & C & b4 & A2 & W1 & W2).
    { exact I1. }
    { destruct n as [j|]; [lia|exact Logic.I]. }
    exists (out ++ x), b'. split.
    - destruct C1 as [N HN], C as [M HM]. exists (Nat.max N M). intros f Hf.
      rewrite HN, Ee by lia. unfold buff_line. apply HM; lia.
    - exists b4. split; [now apply adv_app with b3|]. unfold within, under. rewrite lenZ_app.
      destruct n as [j|].
      + split; [lia|]. destruct W2 as [->|[W2 W3]]; [now left|right]. split; [exact W2|lia].
      + split; [exact Logic.I|]. destruct W2 as [->|[W2 W3]]; [now left|right]. now split.
  Qed.
End Adv.
