(** * TraceProofs: a (Buffered|Decompressing|Chunked) reader uses the stream under it only
    through read(n) with n >= 0 and readline(n) with n <= 64, whatever it does; a reader
    that is not chunked does not use readline. *)
From Coq Require Import String List ZArith NArith Bool Lia.
From Coq Require Import ZifyBool ZifyNat ZifyN.
From Verif Require Import PyBase Facts Streams StreamSpec.
Import ListNotations.
Open Scope Z_scope.

Definition ok_call (ln : bool) (c : call) : Prop :=
  match c with CRead (Some n) => 0 <= n | CLine (Some n) => ln = true /\ 0 <= n <= 64 | _ => False end.

(** perform all calls, also after one that raised *)
Fixpoint do_calls {S} (ops : sops S) (cs : list call) (s : S) : list (res bytes) * S :=
  match cs with
  | [] => ([], s)
  | c :: t => let (x, s1) := do_call ops c s in let (xs, s2) := do_calls ops t s1 in (x :: xs, s2)
  end.

Section Trace.
  Context {zl : zenv} {S : Type} (ops : sops S) (fuel : nat) (ln : bool).
  Notation BR := (breader zl S).

  Definition reach (s s' : S) (xs : list (res bytes)) : Prop :=
    exists cs, Forall (ok_call ln) cs /\ do_calls ops cs s = (xs, s').
  Lemma reach_nil s : reach s s [].
  Proof. exists []. now split. Qed.
  Lemma do_calls_app a b : forall s, do_calls ops (a ++ b) s =
    let (x, s1) := do_calls ops a s in let (y, s2) := do_calls ops b s1 in (x ++ y, s2).
  Proof.
    induction a as [|c a IH]; intros s; cbn [app do_calls]; [now destruct (do_calls ops b s)|].
    destruct (do_call ops c s) as [x s1]. rewrite IH. destruct (do_calls ops a s1) as [y s2].
    now destruct (do_calls ops b s2).
  Qed.
  Lemma reach_app s s1 s2 x y : reach s s1 x -> reach s1 s2 y -> reach s s2 (x ++ y).
  Proof.
    intros (a & A1 & A2) (b & B1 & B2). exists (a ++ b). split; [now apply Forall_app|]. now rewrite do_calls_app, A2, B2.
  Qed.
  Lemma reach_one c s x s' : ok_call ln c -> do_call ops c s = (x, s') -> reach s s' [x].
  Proof. intros H E. exists [c]. split; [now repeat constructor|]. cbn. now rewrite E. Qed.

  Definition has_ck (b : BR) : bool := match br_ck b with Some _ => true | None => false end.
  Definition keeps (b b' : BR) : Prop := br_block b' = br_block b /\ ck_raises b' = ck_raises b /\ has_ck b' = has_ck b.
  Definition good (b : BR) : Prop := 0 <= br_block b /\ (has_ck b = true -> ln = true).
  Lemma keeps_good b b' : keeps b b' -> good b -> good b'.
  Proof. intros (A & _ & B). unfold good. now rewrite A, B. Qed.
  Lemma keeps_refl b : keeps b b. Proof. now repeat split. Qed.
  Lemma keeps_trans a b c : keeps a b -> keeps b c -> keeps a c.
  Proof. unfold keeps. intuition congruence. Qed.

  Lemma next_member_keeps (b : BR) : keeps b (snd (read_next_member b)) /\ br_stream (snd (read_next_member b)) = br_stream b.
  Proof. unfold read_next_member. destruct (br_dec b) as [[s|[|]|]|]; repeat split. Qed.
  Lemma empty_keeps (b b1 : BR) e : br_empty b = (e, b1) -> keeps b b1 /\ br_stream b1 = br_stream b.
  Proof.
    unfold br_empty. destruct (buff_empty b); intros [= <- <-]; [destruct (br_all b)|]; [apply next_member_keeps|repeat split..].
  Qed.
  Lemma decompress_keeps data (b b' : BR) out : decompress data b = (out, b') -> keeps b b' /\ br_stream b' = br_stream b.
  Proof.
    unfold decompress. destruct (br_dec b) as [d|]; [|intros [= <- <-]; repeat split].
    destruct (is_nil data); [intros [= <- <-]; repeat split|].
    destruct (dobj_decompress zl d data) as [[o|] d']; [intros [= <- <-]; repeat split|].
    destruct (br_nblk b =? 0); [|intros [= <- <-]; repeat split].
    destruct (br_dtype b) as [[]|]; try (intros [= <- <-]; repeat split).
    destruct (dobj_decompress zl (DActive (zinit zl DeflateAlt)) data) as [[o|] d'']; intros [= <- <-]; repeat split.
  Qed.
  Lemma process_keeps data (b : BR) : keeps b (process_read data b) /\ br_stream (process_read data b) = br_stream b.
  Proof.
    unfold process_read. destruct (is_nil data); [repeat split|].
    destruct (decompress data b) as [out b'] eqn:E. apply decompress_keeps in E. exact E.
  Qed.

  (** [x] is the result of an operation that took [b] to [b'] *)
  Definition why {A} (b : BR) (x : res A) (xs : list (res bytes)) : Prop :=
    match x with Ok _ => True | Err e => e = OutOfFuel \/ In (Err e) xs \/ ck_raises b = true end.
  (** exceptions other than the reader's own are passed on *)
  Definition passed {A} (x : res A) (xs : list (res bytes)) : Prop :=
    forall e, In (Err e) xs -> x = Err e \/ exists d, e = ChunkedExn d.
  Definition soft (xs : list (res bytes)) : Prop := forall e, In (Err e) xs -> exists d, e = ChunkedExn d.
  Lemma soft_nil : soft []. Proof. now intros e []. Qed.
  Lemma soft_ok d : soft [Ok d]. Proof. now intros e [X|[]]. Qed.
  Lemma soft_passed {A} (x : res A) xs : soft xs -> passed x xs.
  Proof. intros H e He. right. auto. Qed.
  Lemma soft_app xs ys : soft xs -> soft ys -> soft (xs ++ ys).
  Proof. intros A B e H. apply in_app_or in H as [H|H]; auto. Qed.
  Lemma passed_app {A} (x : res A) xs ys : soft xs -> passed x ys -> passed x (xs ++ ys).
  Proof. intros B C e H. apply in_app_or in H as [H|H]; auto. Qed.
  Lemma passed_err {A} e : passed (Err e : res A) [Err e].
  Proof. intros e' [[= <-]|[]]. now left. Qed.
  Lemma passed_soft {A} (x : A) xs : passed (Ok x) xs -> soft xs.
  Proof. intros H e He. destruct (H e He) as [X|X]; [discriminate|exact X]. Qed.
  Definition traced {A} (b : BR) (x : res A) (b' : BR) : Prop :=
    keeps b b' /\ exists xs, reach (br_stream b) (br_stream b') xs /\ why b x xs /\ passed x xs.
  Lemma traced_ok {A} (b b' : BR) (x : A) : keeps b b' -> br_stream b' = br_stream b -> traced b (Ok x) b'.
  Proof. intros H E. split; [exact H|]. exists []. rewrite E. split; [apply reach_nil|]. split; [exact I|apply soft_passed, soft_nil]. Qed.
  Lemma traced_fuel {A} (b : BR) : traced b (Err OutOfFuel : res A) b.
  Proof. split; [apply keeps_refl|]. exists []. split; [apply reach_nil|]. split; [now left|apply soft_passed, soft_nil]. Qed.
  (** what was done before and raised nothing *)
  Lemma traced_pre {A} (b b1 b' : BR) (x : res A) xs : keeps b b1 -> soft xs -> reach (br_stream b) (br_stream b1) xs -> traced b1 x b' -> traced b x b'.
  Proof.
    intros K Hso Hr (K2 & ys & Hy & W & Pa). split; [now apply (keeps_trans _ b1)|]. exists (xs ++ ys). split; [now apply (reach_app _ (br_stream b1))|].
    split; [|now apply passed_app]. unfold why in *. destruct x; [exact I|]. destruct K as (_ & K & _). rewrite K in W. destruct W as [W|[W|W]]; auto. right. left. apply in_or_app. now right.
  Qed.
  Lemma traced_same {A} (b b1 b' : BR) (x : res A) : keeps b b1 -> br_stream b1 = br_stream b -> traced b1 x b' -> traced b x b'.
  Proof. intros K E. apply (traced_pre b b1 b' x [] K soft_nil). rewrite E. apply reach_nil. Qed.
  Lemma traced_bind {A B} (b b1 b' : BR) (y : A) (x : res B) : traced b (Ok y) b1 -> traced b1 x b' -> traced b x b'.
  Proof. intros (K & xs & R & _ & P) H. apply (traced_pre b b1 b' x xs); auto. now apply (passed_soft y). Qed.
  Lemma traced_err {A B} (b b' : BR) e : traced b (Err e : res A) b' -> traced b (Err e : res B) b'.
  Proof.
    intros (K & xs & R & W & P). split; [exact K|]. exists xs. split; [exact R|]. split; [exact W|].
    intros e' He. destruct (P e' He) as [X|X]; [left; congruence|now right].
  Qed.

  Lemma traced_call {A} (b b1 : BR) c e s' : ok_call ln c -> do_call ops c (br_stream b) = (Err e, s') -> b1 = set_stream s' b -> traced b (Err e : res A) b1.
  Proof.
    intros H E ->. split; [repeat split|]. exists [Err e]. split; [now apply (reach_one c)|]. split; [right; left; now left|apply passed_err].
  Qed.
  Lemma reach_call (b : BR) c x s' : ok_call ln c -> do_call ops c (br_stream b) = (x, s') -> reach (br_stream b) (br_stream (set_stream s' b)) [x].
  Proof. intros H E. now apply (reach_one c). Qed.
  Lemma set_stream_keeps s (b : BR) : keeps b (set_stream s b).
  Proof. repeat split. Qed.

  Lemma fill_loop_traced n : forall data b x b', good b -> fill_loop ops n data b = (x, b') -> traced b x b'.
  Proof.
    induction n as [|n IH]; intros data b x b' Hb H; cbn [fill_loop] in H; [injection H as <- <-; apply traced_fuel|]. assert (Hb0 := proj1 Hb).
    destruct (fill_cond data b); [|injection H as <- <-; now apply traced_ok].
    destruct (o_read ops (Some (br_block b)) (br_stream b)) as [[d|e] s'] eqn:E.
    - destruct (process_keeps d (set_stream s' b)) as [K Es].
      apply (traced_pre b (process_read d (set_stream s' b)) b' x [Ok d]).
      + now apply (keeps_trans _ (set_stream s' b)).
      + apply soft_ok.
      + rewrite Es. now apply (reach_call b (CRead (Some (br_block b)))).
      + apply (IH d); [|exact H]. exact (keeps_good _ _ K Hb).
    - injection H as <- <-. now apply (traced_call b _ (CRead (Some (br_block b))) e s').
  Qed.
  Lemma fill_base_traced b x b' : good b -> fill_base ops fuel b = (x, b') -> traced b x b'.
  Proof.
    intros Hb H. unfold fill_base in H. destruct (br_empty b) as [e b1] eqn:Ee. destruct (empty_keeps _ _ _ Ee) as [K Es].
    apply (traced_same b b1 b' x K Es). assert (Hb1 : good b1) by (exact (keeps_good _ _ K Hb)).
    assert (Hb0 := proj1 Hb1). destruct (negb e); [injection H as <- <-; now apply traced_ok|].
    destruct (0 <? rem_length b1); [injection H as <- <-; now apply traced_ok|].
    assert (G : match o_read ops (Some (br_block b1)) (br_stream b1) with
                | (Ok d, s') => fill_loop ops fuel d (process_read d (set_stream s' b1))
                | (Err e0, s') => (Err e0, set_stream s' b1)
                end = (x, b') -> traced b1 x b').
    { clear H. destruct (o_read ops (Some (br_block b1)) (br_stream b1)) as [[d|e0] s'] eqn:E; intros H.
      - destruct (process_keeps d (set_stream s' b1)) as [K1 Es1].
        apply (traced_pre b1 (process_read d (set_stream s' b1)) b' x [Ok d]).
        + now apply (keeps_trans _ (set_stream s' b1)).
        + apply soft_ok.
        + rewrite Es1. now apply (reach_call b1 (CRead (Some (br_block b1)))).
        + apply (fill_loop_traced fuel d); [|exact H]. exact (keeps_good _ _ K1 Hb1).
      - injection H as <- <-. now apply (traced_call b1 _ (CRead (Some (br_block b1))) e0 s'). }
    destruct (br_start b1) as [[|c d]|]; [now apply G| |now apply G].
    destruct (process_keeps (c :: d) (set_start None b1)) as [K1 Es1].
    apply (traced_same b1 (process_read (c :: d) (set_start None b1)) b' x); [now apply (keeps_trans _ (set_start None b1))|now rewrite Es1|].
    apply (fill_loop_traced fuel (c :: d)); [|exact H]. exact (keeps_good _ _ K1 Hb1).
  Qed.

  Lemma chunk_loop_traced n : forall rexc size acc s x s', chunk_loop ops n rexc size acc s = (x, s') ->
    exists xs, reach s s' xs /\ match x with Ok _ => True | Err e => e = OutOfFuel \/ In (Err e) xs \/ rexc = true end /\ passed x xs.
  Proof.
    induction n as [|n IH]; intros rexc size acc s x s' H; cbn [chunk_loop] in H.
    - injection H as <- <-. exists []. split; [apply reach_nil|]. split; [now left|apply soft_passed, soft_nil].
    - destruct (lenZ acc <? size) eqn:Es; [|injection H as <- <-; exists []; split; [apply reach_nil|]; split; [exact I|apply soft_passed, soft_nil]].
      destruct (o_read ops (Some (size - lenZ acc)) s) as [[d|e] s1] eqn:E.
      + pose proof (reach_one (CRead (Some (size - lenZ acc))) s _ s1 ltac:(cbn; lia) E) as R.
        destruct d as [|c d].
        * destruct rexc; injection H as <- <-; exists [Ok []]; (split; [exact R|]); (split; [|apply soft_passed, soft_ok]); [now right; right|exact I].
        * destruct (IH _ _ _ _ _ _ H) as (ys & Ry & W & P). exists ([Ok (c :: d)] ++ ys). split; [now apply (reach_app _ s1)|].
          split; [|apply passed_app; [apply soft_ok|exact P]]. destruct x; [exact I|]. destruct W as [W|[W|W]]; auto. right. left. now right.
      + injection H as <- <-. exists [Err e]. split; [|split; [right; left; now left|apply passed_err]]. apply (reach_one (CRead (Some (size - lenZ acc)))); [cbn; lia|exact E].
  Qed.

  (** _try_decode may also fail with its own exception *)
  Definition traced_ck (b : BR) (x : res unit) (b' : BR) : Prop :=
    keeps b b' /\ exists xs, reach (br_stream b) (br_stream b') xs /\ (why b x xs \/ exists d, x = Err (ChunkedExn d)) /\ passed x xs.
  Lemma traced_traced_ck b x b' : traced b x b' -> traced_ck b x b'.
  Proof. intros (K & xs & R & W & P). split; [exact K|]. exists xs. auto. Qed.

  Lemma set_ck_keeps (b : BR) v : keeps b (set_all v b) /\ keeps b (set_not v b).
  Proof. unfold keeps, set_all, set_not, ck_raises, has_ck. cbn. destruct (br_ck b); cbn; repeat split. Qed.

  Lemma try_decode_traced h b x b' : try_decode ops fuel h b = (x, b') -> traced_ck b x b'.
  Proof.
    unfold try_decode. destruct (chunk_header h) as [size|].
    2:{ intros [= <- <-]. split; [apply keeps_refl|]. exists []. split; [apply reach_nil|]. split; [right; eauto|apply soft_passed, soft_nil]. }
    assert (two : forall s x s', o_read ops (Some 2) s = (x, s') -> reach s s' [x]).
    { intros s x0 s' E. now apply (reach_one (CRead (Some 2))); [cbn; lia|]. }
    destruct (size =? 0).
    - destruct (o_read ops (Some 2) (br_stream b)) as [[d|e] s'] eqn:E.
      + destruct (leqb d crlf); intros [= <- <-].
        * destruct (process_keeps [] (set_all true (set_stream s' b))) as [K Es]. split.
          { eapply keeps_trans; [|exact K]. eapply keeps_trans; [|apply set_ck_keeps]. repeat split. }
          exists [Ok d]. split; [rewrite Es; now apply two|]. split; [now left|apply soft_passed, soft_ok].
        * split; [repeat split|]. exists [Ok d]. split; [now apply two|]. split; [right; eauto|apply soft_passed, soft_ok].
      + intros [= <- <-]. split; [repeat split|]. exists [Err e]. split; [now apply two|]. split; [|apply passed_err]. left. right. left. now left.
    - destruct (chunk_loop ops fuel (ck_raises b) size [] (br_stream b)) as [[[data [|]]|e] s'] eqn:E; destruct (chunk_loop_traced _ _ _ _ _ _ _ E) as (xs & R & W & P).
      + intros [= <- <-]. destruct (process_keeps data (set_all true (set_stream s' b))) as [K Es]. split.
        { eapply keeps_trans; [|exact K]. eapply keeps_trans; [|apply set_ck_keeps]. repeat split. }
        exists xs. split; [rewrite Es; exact R|]. split; [now left|apply soft_passed, (passed_soft _ _ P)].
      + destruct (o_read ops (Some 2) s') as [[c|e] s''] eqn:E2.
        * destruct (leqb c crlf); intros [= <- <-].
          { destruct (process_keeps data (set_stream s'' b)) as [K Es]. split; [eapply keeps_trans; [|exact K]; repeat split|].
            exists (xs ++ [Ok c]). split; [rewrite Es; apply (reach_app _ s'); [exact R|now apply two]|]. split; [now left|]. apply passed_app; [apply (passed_soft _ _ P)|apply soft_passed, soft_ok]. }
          { split; [repeat split|]. exists (xs ++ [Ok c]). split; [apply (reach_app _ s'); [exact R|now apply two]|]. split; [right; eauto|]. apply passed_app; [apply (passed_soft _ _ P)|apply soft_passed, soft_ok]. }
        * intros [= <- <-]. split; [repeat split|]. exists (xs ++ [Err e]). split; [apply (reach_app _ s'); [exact R|now apply two]|].
          split; [|apply passed_app; [apply (passed_soft _ _ P)|apply passed_err]]. left. right. left. apply in_or_app. right. now left.
      + intros [= <- <-]. split; [repeat split|]. exists xs. split; [exact R|]. split; [now left|]. intros e' He. destruct (P e' He) as [X|X]; [left; congruence|now right].
  Qed.

  Lemma chunk_fill_traced n : forall b x b', ln = true -> good b -> chunk_fill ops fuel n b = (x, b') -> traced b x b'.
  Proof.
    induction n as [|n IH]; intros b x b' Hck Hb H; cbn [chunk_fill] in H; [injection H as <- <-; apply traced_fuel|].
    destruct (br_empty b) as [e b1] eqn:Ee. destruct (empty_keeps _ _ _ Ee) as [K Es].
    apply (traced_same b b1 b' x K Es). assert (Hb1 : good b1) by (exact (keeps_good _ _ K Hb)).
    destruct (e && negb (ck_alld b1) && negb (ck_notd b1)); [|injection H as <- <-; now apply traced_ok].
    destruct (o_readline ops (Some 64) (br_stream b1)) as [[h|e1] s'] eqn:E.
    2:{ injection H as <- <-. apply (traced_call b1 _ (CLine (Some 64)) e1 s'); [split; [exact Hck|lia]|exact E|reflexivity]. }
    apply (traced_pre b1 (set_stream s' b1) b' x [Ok h]); [repeat split|apply soft_ok| |].
    { apply (reach_call b1 (CLine (Some 64))); [split; [exact Hck|lia]|exact E]. }
    set (b2 := set_stream s' b1) in *. assert (Hb2 : good b2) by exact Hb1.
    destruct (try_decode ops fuel h b2) as [y b3] eqn:Ed. destruct (try_decode_traced _ _ _ _ Ed) as (K3 & xs & R & W & P).
    assert (Hb3 : good b3) by (exact (keeps_good _ _ K3 Hb2)).
    destruct y as [u|e1].
    - apply (traced_pre b2 b3 b' x xs K3 (passed_soft _ _ P) R). now apply IH.
    - assert (G : forall e2, e1 = e2 -> (forall d, e2 <> ChunkedExn d) -> traced b2 (Err e2 : res unit) b3).
      { intros e2 <- Hn. split; [exact K3|]. exists xs. split; [exact R|]. split; [|exact P]. destruct W as [W|(d & W)]; [exact W|]. injection W as ->. now destruct (Hn d). }
      destruct e1; try (injection H as <- <-; apply G; [reflexivity|discriminate]).
      destruct (ck_raises b3) eqn:Ec.
      + injection H as <- <-. split; [exact K3|]. exists xs. split; [exact R|]. split; [|exact P]. right. right. destruct K3 as (_ & X & _). congruence.
      + match type of H with fill_base ops fuel (set_not true (process_read ?w b3)) = _ => destruct (process_keeps w b3) as [K4 Es4];
          apply (traced_pre b2 (set_not true (process_read w b3)) b' x xs) end.
        * eapply keeps_trans; [exact K3|]. eapply keeps_trans; [exact K4|apply set_ck_keeps].
        * intros e' He. destruct (P e' He) as [[= <-]|X]; eauto.
        * cbn. rewrite Es4. exact R.
        * apply fill_base_traced; [|exact H]. refine (keeps_good _ _ _ Hb3). eapply keeps_trans; [exact K4|apply set_ck_keeps].
  Qed.
  Lemma fillbuff_traced b x b' : good b -> fillbuff ops fuel b = (x, b') -> traced b x b'.
  Proof.
    unfold fillbuff. intros Hb. destruct (br_ck b) as [c|] eqn:Ec; [destruct (ck_not c)|];
      [now apply fill_base_traced|intros H; apply (chunk_fill_traced fuel); [apply (proj2 Hb); unfold has_ck; now rewrite Ec|exact Hb|exact H]|now apply fill_base_traced].
  Qed.
  Lemma traced_block {A} (b b' : BR) (x : res A) : traced b x b' -> good b -> good b'.
  Proof. intros (K & _). now apply keeps_good. Qed.

  Lemma read_loop_traced n : forall len acc b x b', good b -> read_loop ops fuel n len acc b = (x, b') -> traced b x b'.
  Proof.
    induction n as [|n IH]; intros len acc b x b' Hb H; cbn [read_loop] in H; [injection H as <- <-; apply traced_fuel|].
    destruct (match len with None => true | Some k => 0 <? k end); [|injection H as <- <-; now apply traced_ok].
    destruct (fillbuff ops fuel b) as [[u|e] b1] eqn:Ef; pose proof (fillbuff_traced _ _ _ Hb Ef) as T.
    2:{ injection H as <- <-. exact (traced_err _ _ _ T). }
    apply (traced_bind b b1 b' u x T). pose proof (traced_block _ _ _ T Hb) as Hb1.
    destruct (br_empty b1) as [e b2] eqn:Ee. destruct (empty_keeps _ _ _ Ee) as [K Es].
    apply (traced_same b1 b2 b' x K Es). assert (Hb2 : good b2) by (exact (keeps_good _ _ K Hb1)).
    destruct e; [injection H as <- <-; now apply traced_ok|].
    eapply (traced_same b2); [| |eapply IH; [|exact H]]; [repeat split|reflexivity|exact Hb2].
  Qed.
  Lemma br_read_traced len b x b' : good b -> br_read ops fuel len b = (x, b') -> traced b x b'.
  Proof. apply read_loop_traced. Qed.
End Trace.
