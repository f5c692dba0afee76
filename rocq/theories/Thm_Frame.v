(** * Thm_Frame: proofs of the theorems restated in Props_Frame.v *)
From Coq Require Import String List ZArith NArith Bool Lia.
From Verif Require Import PyBase Headers Streams Loader Iterator Writer StreamSpec WriterSpec IterSpec RoundSpec TermSpec IndepSpec FrameSpec Toy.
Import ListNotations.
Open Scope Z_scope.

From Verif Require Import HeaderSpec StreamSpec DigestSpec TermProofs TermLoad TermIter AdvProofs KeepProofs IndepProofs IndepIter FrameProofs WriterProofs RoundProofs Facts CutProofs IterProofs Thm_Indep Thm_Iter Thm_Round.

Lemma fresh_J {zl : zenv} o (r : raw) block known : J (zl:=zl) o (iter_new r block known).
Proof.
  split; [|split; [reflexivity|exact Logic.I]].
  split; [split; [reflexivity|discriminate]|]. split; [discriminate|exact Logic.I].
Qed.
Lemma eq_refl_it {zl : zenv} o (it : @iter zl) : J o it -> eq_it it it.
Proof. intros H. repeat split; try reflexivity. Qed.
Lemma two {zl : zenv} he o (r : raw) block known : lo_check o = KFalse ->
  let it := @iter_new zl r block known in
  exists osa ena osb enb,
    loop_ends he (with_norec true o) read_all it osa ena /\ loop_ends he (with_norec false o) read_all it osb enb
    /\ exists ca cb ra rb, osa = ca ++ ra /\ osb = cb ++ rb /\ Forall2 (framed o) ca cb /\ parted o ra ena rb enb.
Proof.
  intros Hc it.
  destruct (run_two he o Hc 0 it it) as (osa & ena & osb & enb & A & B & H).
  - apply (eq_refl_it (with_norec true o)), fresh_J.
  - now left.
  - now left.
  - apply fresh_J.
  - apply fresh_J.
  - exists osa, ena, osb, enb. split; [exact A|]. split; [exact B|exact H].
Qed.
Lemma joined {zl : zenv} o (osa : list (@obs zl)) ena osb enb ca cb ra rb : lo_verify o = false ->
  (forall a, In a osa -> holds_http a -> target_of a <> None /\ ob_reads a <> [Ok []]) -> ena <> EndExn ArchiveLoadFailed ->
  osa = ca ++ ra -> osb = cb ++ rb -> Forall2 (framed o) ca cb -> parted o ra ena rb enb ->
  Forall2 (framed o) osa osb /\ ena = enb.
Proof.
  intros Hv Ha He -> -> HF [(-> & -> & ->)|[(_ & -> & _)|(a & more & -> & Hh & Hp)]].
  - rewrite !app_nil_r. now split.
  - contradiction.
  - exfalso. destruct (Ha a) as [H1 H2]; [apply in_or_app; right; now left|exact Hh|].
    destruct Hp as [(_ & _ & Hp)|[(_ & Hp & _)|Hp]]; congruence.
Qed.

Lemma C85_framing_pf :
  forall (zl : zenv) (he : henv) (o : lopts) (data : bytes) (sched : list Z) (block : Z) (known : option fmt),
  lo_check o = KFalse ->
  let it := @iter_new zl (raw_open data sched) block known in
  exists osa ena osb enb,
    loop_ends he (with_norec true o) read_all it osa ena /\ loop_ends he (with_norec false o) read_all it osb enb
    /\ exists ca cb ra rb, osa = ca ++ ra /\ osb = cb ++ rb /\ Forall2 (framed o) ca cb /\ parted o ra ena rb enb.
Proof.
intros zl he o data sched block known Hc. exact (two (zl:=zl) he o (raw_open data sched) block known Hc).
Qed.

Lemma C85_complete_pf :
  forall (zl : zenv) (he : henv) (o : lopts) (data : bytes) (sched : list Z) (block : Z) (known : option fmt) osa ena,
  lo_check o = KFalse -> lo_verify o = false ->
  let it := @iter_new zl (raw_open data sched) block known in
  loop_ends he (with_norec true o) read_all it osa ena ->
  (forall a, In a osa -> holds_http a -> target_of a <> None /\ ob_reads a <> [Ok []]) -> ena <> EndExn ArchiveLoadFailed ->
  exists osb, loop_ends he (with_norec false o) read_all it osb ena /\ Forall2 (framed o) osa osb.
Proof.
intros zl he o data sched block known osa ena Hc Hv it HA Ha He.
destruct (two (zl:=zl) he o (raw_open data sched) block known Hc) as (osa' & ena' & osb & enb & A & B & ca & cb & ra & rb & E1 & E2 & HF & HP).
pose proof (conv2_uniq _ _ _ HA A) as Q. injection Q as <- <-.
destruct (joined (zl:=zl) o osa ena osb enb ca cb ra rb Hv Ha He E1 E2 HF HP) as [H1 <-]. now exists osb.
Qed.

Lemma Forall2_at {A B} (R : A -> B -> Prop) xs ys i y : Forall2 R xs ys -> nth_error ys i = Some y -> exists x, nth_error xs i = Some x /\ R x y.
Proof.
  intros H. revert i. induction H as [|a b xs ys Hab H IH]; intros [|i] E; cbn [nth_error] in *; try discriminate.
  - injection E as <-. now exists a.
  - exact (IH i E).
Qed.
Lemma Forall2_len {A B} (R : A -> B -> Prop) xs ys : Forall2 R xs ys -> List.length xs = List.length ys.
Proof. induction 1; cbn [List.length]; congruence. Qed.
Lemma http_kind t : is_http_record t = true -> exists v, t = Some v /\ In v [lit "response"; lit "request"; lit "revisit"].
Proof.
  destruct t as [v|]; [|discriminate]. unfold is_http_record. intros H. exists v. split; [reflexivity|].
  repeat (apply orb_prop in H; destruct H as [H|H]); apply leqb_eq in H; subst v; cbn [In]; auto.
Qed.
Lemma with_norec_id o : with_norec (lo_norec o) o = o.
Proof. now destruct o. Qed.
Lemma any_prog {zl : zenv} he o (r : raw) block known os en : lo_check o = KFalse ->
  loop_ends he o read_all (@iter_new zl r block known) os en ->
  forall prog, plain_prog prog -> exists oc, loop_ends he o prog (@iter_new zl r block known) oc en /\ Forall2 agree os oc.
Proof.
  intros Hc H prog Hp. set (it := iter_new _ _ _) in *.
  destruct (runs he o 0 it (fresh_J o r block known) (or_introl eq_refl)) as (os1 & en1 & C1 & Hq & HX).
  destruct (HX (Hq Hc)) as [Xs HXs].
  destruct (HXs read_all (prog_sensible _ all_plain)) as (os' & L1 & S1 & _).
  pose proof (conv2_uniq _ _ _ H L1) as Q. injection Q as <- <-.
  destruct (HXs prog (prog_sensible _ Hp)) as (oc & L2 & S2 & _). exists oc.
  split; [exact L2|]. exact (same_agree _ _ _ _ _ _ S1 S2).
Qed.
Lemma lift {zl : zenv} he o (r : raw) block known osa (R : nat -> wrc -> Z -> Z -> Prop) :
  lo_check o = KFalse -> lo_verify o = false ->
  let it := @iter_new zl r block known in
  loop_ends he (with_norec true o) read_all it osa EndStop ->
  (forall i ob, nth_error osa i = Some ob -> exists w off len, R i w off len) ->
  (forall i w off len ob, R i w off len -> nth_error osa i = Some ob ->
     http_ready w /\ observed he (with_norec true o) w None (w_block w) off len [URead None] ob) ->
  exists os, loop_ends he o read_all it os EndStop /\ List.length os = List.length osa
    /\ (forall i w off len ob, R i w off len -> nth_error os i = Some ob -> found w off len ob)
    /\ forall prog, plain_prog prog -> exists oc, loop_ends he o prog it oc EndStop /\ Forall2 agree os oc.
Proof.
  intros Hc Hv it HA Hex Hob.
  assert (exists os, loop_ends he o read_all it os EndStop /\ List.length os = List.length osa
            /\ forall i w off len ob, R i w off len -> nth_error os i = Some ob -> found w off len ob) as (os & H1 & H2 & H3).
  { destruct (lo_norec o) eqn:En; rewrite <- (with_norec_id o); rewrite En.
    - exists osa. split; [exact HA|]. split; [reflexivity|]. intros i w off len ob HR E.
      destruct (Hob i w off len ob HR E) as [_ H]. destruct H. constructor; try assumption.
      exists [], (w_block w). split; [reflexivity|]. split; [exact ob_data|]. split; [reflexivity|]. now left.
    - destruct (two (zl:=zl) he o r block known Hc) as (osa' & ena' & osb & enb & A & B & ca & cb & ra & rb & E1 & E2 & HF & HP).
      pose proof (conv2_uniq _ _ _ HA A) as Q. injection Q as <- <-.
      destruct (joined (zl:=zl) o osa EndStop osb enb ca cb ra rb Hv) as [F <-]; try assumption; [|discriminate|].
      + intros a Hin [K1 K2]. destruct (In_nth_error _ _ Hin) as [i Ei]. destruct (Hex i a Ei) as (w & off & len & HR).
        destruct (Hob i w off len a HR Ei) as [HT H]. destruct H.
        assert (w_block w <> []) as Hne. { intros Q. apply K2. rewrite ob_length, Q. reflexivity. }
        split.
        * unfold target_of. rewrite ob_format. unfold get_header. rewrite ob_headers. rewrite <- value_of_hget. apply HT; [|exact Hne].
          rewrite <- ob_type. exact (http_kind _ K1).
        * rewrite ob_data. intros Q. injection Q as Q. now apply Hne.
      + exists osb. split; [exact B|]. split; [symmetry; exact (Forall2_len _ _ _ F)|]. intros i w off len ob HR E.
        destruct (Forall2_at _ _ _ _ _ F E) as (a & Ea & HFr). destruct (Hob i w off len a HR Ea) as [_ H]. destruct H, HFr.
        destruct fr_reads as (head & body & Q1 & Q2 & Q3 & Q4).
        constructor; try congruence. exists head, body.
        assert (w_block w = head ++ body) as Qb. { rewrite Q1 in ob_data. injection ob_data as Q. now symmetry. }
        split; [exact Qb|]. split; [exact Q2|]. split; [exact Q3|].
        destruct Q4 as [Q4|(n & Q4 & Q5)]; [now left|]. right. rewrite Q5. rewrite <- fr_length, ob_length in Q4. injection Q4 as <-.
        rewrite Qb. unfold lenZ. rewrite app_length. lia. }
  exists os. split; [exact H1|]. split; [exact H2|]. split; [exact H3|]. exact (any_prog he o r block known os EndStop Hc H1).
Qed.
Definition ent (p : wrc * bytes) : entry := mk_entry (fst p) (snd p) None (w_block (fst p)).
Lemma texts_ent ws : texts (map ent ws) = List.concat (map snd ws).
Proof. unfold texts. rewrite map_map. reflexivity. Qed.
Lemma good_ent fuel he o w t : wf_record w -> text_of w t -> lo_check o = KFalse ->
  good_entry fuel he (with_norec true o) 0 [URead None] (ent (w, t)).
Proof.
  intros H1 H2 Hc. split; [exact H1|]. split; [exact H2|]. split; [now split|]. split; [discriminate|]. split; [left; exact Hc|].
  split; [constructor; [exact I|constructor]|]. constructor; [exact I|constructor].
Qed.

Lemma C36_framing_pf :
  forall (zl : zenv) he o ws sched block known k,
  gz_magic zl -> first_two block sched -> known <> Some FArc ->
  lo_check o = KFalse -> lo_verify o = false -> lo_ensure o = false ->
  (forall w t, In (w, t) ws -> wf_record w /\ text_of w t /\ http_ready w) ->
  let data := List.concat (map snd ws) in
  let off i := lenZ (List.concat (map snd (firstn i ws))) in
  let it := @iter_new zl (mk_raw (dropZ (off k) data) (off k) sched) block known in
  exists os, loop_ends he o read_all it os EndStop /\ List.length os = (List.length ws - k)%nat
    /\ (forall i w t ob, nth_error ws (k + i) = Some (w, t) -> nth_error os i = Some ob -> found w (off (k + i)%nat) (lenZ t - 4) ob)
    /\ (forall prog, plain_prog prog -> exists oc, loop_ends he o prog it oc EndStop /\ Forall2 agree os oc)
    /\ forall w t, nth_error ws k = Some (w, t) -> takeZ (lenZ t - 4) (dropZ (off k) data) ++ [13; 10; 13; 10]%N = t.
Proof.
intros zl he o ws sched block known k Hz H2 Hk Hc Hv He Hws data off it.
assert (forall i, position i (map ent ws) = off i) as Hpos.
{ intros i. unfold position. rewrite firstn_map, texts_ent. reflexivity. }
assert (forall fuel n, enough fuel data -> (List.length ws < n)%nat -> exists obs,
  run_iter fuel he (with_norec true o) n read_all 0 it = (obs, EndStop) /\ List.length obs = (List.length ws - k)%nat
  /\ (forall i w t ob, nth_error ws (k + i) = Some (w, t) -> nth_error obs i = Some ob ->
       observed he (with_norec true o) w None (w_block w) (off (k + i)%nat) (lenZ t - 4) [URead None] ob)
  /\ (forall w t, nth_error ws k = Some (w, t) -> takeZ (lenZ t - 4) (dropZ (off k) data) ++ [13; 10; 13; 10]%N = t)) as HA.
{ intros fuel n Hf Hn.
  destruct (C36_random_access_partial_pf zl fuel he (with_norec true o) 0 read_all (map ent ws) sched block known n k) as [(obs & R1 & R2 & R3) R4];
    try assumption; try reflexivity.
  - left. discriminate.
  - rewrite texts_ent. exact Hf.
  - intros i e Ei. rewrite nth_error_map in Ei. destruct (nth_error ws (k + i)) as [[w t]|] eqn:Ew; [|discriminate]. injection Ei as <-.
    destruct (Hws w t (nth_error_In _ _ Ew)) as (W1 & W2 & _). now apply good_ent.
  - now rewrite map_length.
  - rewrite map_length in R2. exists obs. split.
    + unfold it. rewrite <- (Hpos k). rewrite <- R1. unfold data. now rewrite texts_ent.
    + split; [exact R2|]. split.
      2: { intros w t Ew. rewrite Hpos in R4. rewrite texts_ent in R4. apply (R4 (ent (w, t))). rewrite nth_error_map, Ew. reflexivity. }
      intros i w t ob Ew Eo. rewrite <- Hpos.
      specialize (R3 i (ent (w, t)) ob). cbn [ent e_rec e_http e_payload e_text fst snd] in R3. apply R3; [|exact Eo].
      rewrite nth_error_map, Ew. reflexivity. }
destruct (HA (List.length data + 3)%nat (S (List.length ws)) (Nat.le_refl _) (Nat.lt_succ_diag_r _)) as (osa & _ & L0 & _ & HS).
destruct (two (zl:=zl) he o (mk_raw (dropZ (off k) data) (off k) sched) block known Hc) as (os1 & en1 & _ & _ & [N HN] & _). fold it in HN.
destruct (HA (Nat.max N (List.length data + 3)) (Nat.max N (S (List.length ws)))) as (os2 & R2 & L2 & O2 & _);
  [unfold enough; apply Nat.le_max_r|lia|].
rewrite HN in R2 by lia. injection R2 as -> ->.
destruct (lift (zl:=zl) he o (mk_raw (dropZ (off k) data) (off k) sched) block known os2
            (fun i w p l => exists t, nth_error ws (k + i) = Some (w, t) /\ p = off (k + i)%nat /\ l = lenZ t - 4) Hc Hv) as (os & A1 & A2 & A3 & A4).
- now exists N.
- intros i ob Ei. assert (i < List.length os2)%nat as Hi by (apply nth_error_Some; congruence). rewrite L2 in Hi.
  destruct (nth_error ws (k + i)) as [[w t]|] eqn:Ew; [|apply nth_error_None in Ew; lia].
  exists w, (off (k + i)%nat), (lenZ t - 4), t. now repeat split.
- intros i w p l ob (t & Ew & -> & ->) Eo. split; [|exact (O2 i w t ob Ew Eo)].
  now destruct (Hws w t (nth_error_In _ _ Ew)) as (_ & _ & W3).
- exists os. split; [exact A1|]. split; [congruence|]. split; [|split; [exact A4|exact HS]].
  intros i w t ob Ew Eo. apply (A3 i w _ _ ob); [|exact Eo]. exists t. now repeat split.
Qed.

Lemma C34_framing_pf :
  forall (zl : zenv) he o ws sched block known,
  gz_magic zl -> first_two block sched -> known <> Some FArc ->
  lo_check o = KFalse -> lo_verify o = false -> lo_ensure o = false ->
  (forall w t, In (w, t) ws -> wf_record w /\ text_of w t /\ http_ready w) ->
  let it := @iter_new zl (raw_open (List.concat (map snd ws)) sched) block known in
  exists os, loop_ends he o read_all it os EndStop /\ List.length os = List.length ws
    /\ (forall i w t ob, nth_error ws i = Some (w, t) -> nth_error os i = Some ob ->
         found w (lenZ (List.concat (map snd (firstn i ws)))) (lenZ t - 4) ob)
    /\ forall prog, plain_prog prog -> exists oc, loop_ends he o prog it oc EndStop /\ Forall2 agree os oc.
Proof.
intros zl he o ws sched block known Hz H2 Hk Hc Hv He Hws it.
destruct (C36_framing_pf zl he o ws sched block known 0 Hz H2 Hk Hc Hv He Hws) as (os & A1 & A2 & A3 & A4 & _).
rewrite dropZ_0 in A1, A4 by discriminate.
exists os. split; [exact A1|]. split; [rewrite A2; apply Nat.sub_0_r|]. split; [exact A3|exact A4].
Qed.

Lemma C36_framing_gzip_pf :
  forall (zl : zenv) he o ms sched block known k,
  (k < List.length ms)%nat -> 0 < block -> known <> Some FArc ->
  lo_check o = KFalse -> lo_verify o = false -> lo_ensure o = false ->
  (forall w t m, In (w, t, m) ms -> wf_record w /\ text_of w t /\ http_ready w /\ is_member zl m t) ->
  let data := List.concat (map snd ms) in
  let off i := lenZ (List.concat (map snd (firstn i ms))) in
  let it := @iter_new zl (mk_raw (dropZ (off k) data) (off k) sched) block known in
  exists os, loop_ends he o read_all it os EndStop /\ List.length os = (List.length ms - k)%nat
    /\ (forall i w t m ob, nth_error ms (k + i) = Some (w, t, m) -> nth_error os i = Some ob -> found w (off (k + i)%nat) (lenZ m) ob)
    /\ (forall prog, plain_prog prog -> exists oc, loop_ends he o prog it oc EndStop /\ Forall2 agree os oc)
    /\ forall w t m, nth_error ms k = Some (w, t, m) -> takeZ (lenZ m) (dropZ (off k) data) = m.
Proof.
intros zl he o ms sched block known k Hlt Hb Hk Hc Hv He Hws data off it.
set (g := fun p : wrc * bytes * bytes => (ent (fst p), snd p)).
assert (forall l, gz_data (map g l) = List.concat (map snd l)) as Hdat.
{ intros l. unfold gz_data. rewrite map_map. reflexivity. }
assert (forall i, gz_position i (map g ms) = off i) as Hpos.
{ intros i. unfold gz_position. rewrite firstn_map, Hdat. reflexivity. }
assert (exists F, forall fuel n, (F <= fuel)%nat -> (F <= n)%nat -> exists obs,
  run_iter fuel he (with_norec true o) n read_all 0 it = (obs, EndStop) /\ List.length obs = (List.length ms - k)%nat
  /\ (forall i w t m ob, nth_error ms (k + i) = Some (w, t, m) -> nth_error obs i = Some ob ->
       observed he (with_norec true o) w None (w_block w) (off (k + i)%nat) (lenZ m) [URead None] ob)
  /\ (forall w t m, nth_error ms k = Some (w, t, m) -> takeZ (lenZ m) (dropZ (off k) data) = m)) as [F HA].
{ assert (exists F, forall w t m, In (w, t, m) ms -> (List.length t + 3 <= F)%nat) as [F HF].
  { clear. induction ms as [|[[w t] m] ms [F HF]]; [now exists O|]. exists (Nat.max (List.length t + 3) F).
    intros w' t' m' [Q|Hin]; [injection Q as <- <- <-; lia|]. specialize (HF _ _ _ Hin). lia. }
  exists (Nat.max F (List.length data + 3 + List.length ms)). intros fuel n Hf Hn.
  destruct (C36_random_access_gzip_partial_pf zl fuel he (with_norec true o) 0 read_all (map g ms) sched block known n k) as [(obs & R1 & R2 & R3) R4];
    try assumption; try reflexivity.
  - now rewrite map_length.
  - left. discriminate.
  - rewrite Hdat. unfold enough. fold data. lia.
  - intros e m Hin. apply in_map_iff in Hin as ([[w t] m'] & Q & Hin). injection Q as <- <-. specialize (HF _ _ _ Hin).
    unfold enough. cbn [ent e_text fst snd]. lia.
  - intros i e m Ei. rewrite nth_error_map in Ei. destruct (nth_error ms (k + i)) as [[[w t] m']|] eqn:Ew; [|discriminate]. injection Ei as <- <-.
    destruct (Hws w t m' (nth_error_In _ _ Ew)) as (W1 & W2 & _ & W4). split; [now apply good_ent|exact W4].
  - rewrite map_length. lia.
  - rewrite map_length in R2. exists obs. split.
    + unfold it. rewrite <- (Hpos k). rewrite <- R1. unfold data. now rewrite Hdat.
    + split; [exact R2|]. split.
      2: { intros w t m Ew. rewrite Hpos, Hdat in R4. apply (R4 (ent (w, t))). rewrite nth_error_map, Ew. reflexivity. }
      intros i w t m ob Ew Eo. rewrite <- Hpos.
      specialize (R3 i (ent (w, t)) m ob). cbn [ent e_rec e_http e_payload e_text fst snd] in R3. apply R3; [|exact Eo].
      rewrite nth_error_map, Ew. reflexivity. }
destruct (two (zl:=zl) he o (mk_raw (dropZ (off k) data) (off k) sched) block known Hc) as (os1 & en1 & _ & _ & [N HN] & _). fold it in HN.
destruct (HA (Nat.max N F) (Nat.max N F)) as (os2 & R2 & L2 & O2 & HS); [lia|lia|].
rewrite HN in R2 by lia. injection R2 as -> ->.
destruct (lift (zl:=zl) he o (mk_raw (dropZ (off k) data) (off k) sched) block known os2
            (fun i w p l => exists t m, nth_error ms (k + i) = Some (w, t, m) /\ p = off (k + i)%nat /\ l = lenZ m) Hc Hv) as (os & A1 & A2 & A3 & A4).
- now exists N.
- intros i ob Ei. assert (i < List.length os2)%nat as Hi by (apply nth_error_Some; congruence). rewrite L2 in Hi.
  destruct (nth_error ms (k + i)) as [[[w t] m]|] eqn:Ew; [|apply nth_error_None in Ew; lia].
  exists w, (off (k + i)%nat), (lenZ m), t, m. now repeat split.
- intros i w p l ob (t & m & Ew & -> & ->) Eo. split; [|exact (O2 i w t m ob Ew Eo)].
  now destruct (Hws w t m (nth_error_In _ _ Ew)) as (_ & _ & W3 & _).
- exists os. split; [exact A1|]. split; [congruence|]. split; [|split; [exact A4|exact HS]].
  intros i w t m ob Ew Eo. apply (A3 i w _ _ ob); [|exact Eo]. exists t, m. now repeat split.
Qed.

Lemma C34_framing_gzip_pf :
  forall (zl : zenv) he o ms sched block known,
  ms <> [] -> 0 < block -> known <> Some FArc ->
  lo_check o = KFalse -> lo_verify o = false -> lo_ensure o = false ->
  (forall w t m, In (w, t, m) ms -> wf_record w /\ text_of w t /\ http_ready w /\ is_member zl m t) ->
  let it := @iter_new zl (raw_open (List.concat (map snd ms)) sched) block known in
  exists os, loop_ends he o read_all it os EndStop /\ List.length os = List.length ms
    /\ (forall i w t m ob, nth_error ms i = Some (w, t, m) -> nth_error os i = Some ob ->
         found w (lenZ (List.concat (map snd (firstn i ms)))) (lenZ m) ob)
    /\ forall prog, plain_prog prog -> exists oc, loop_ends he o prog it oc EndStop /\ Forall2 agree os oc.
Proof.
intros zl he o ms sched block known Hne Hb Hk Hc Hv He Hws it.
destruct (C36_framing_gzip_pf zl he o ms sched block known 0) as (os & A1 & A2 & A3 & A4 & _); try assumption.
{ destruct ms; [contradiction|apply Nat.lt_0_succ]. }
rewrite dropZ_0 in A1, A4 by discriminate.
exists os. split; [exact A1|]. split; [rewrite A2; apply Nat.sub_0_r|]. split; [exact A3|exact A4].
Qed.

(** the same for the first [m] records only *)
Lemma lift_prefix {zl : zenv} he o (r : raw) block known osa ena m (R : nat -> wrc -> Z -> Z -> Prop) :
  lo_check o = KFalse -> lo_verify o = false ->
  let it := @iter_new zl r block known in
  loop_ends he (with_norec true o) read_all it osa ena -> (m <= List.length osa)%nat ->
  (forall i, (i < m)%nat -> exists w off len, R i w off len) ->
  (forall i w off len ob, (i < m)%nat -> R i w off len -> nth_error osa i = Some ob ->
     http_ready w /\ observed he (with_norec true o) w None (w_block w) off len [URead None] ob) ->
  exists os en, loop_ends he o read_all it os en /\ (m <= List.length os)%nat
    /\ (forall i w off len ob, (i < m)%nat -> R i w off len -> nth_error os i = Some ob -> found w off len ob)
    /\ forall prog, plain_prog prog -> exists oc, loop_ends he o prog it oc en /\ Forall2 agree os oc.
Proof.
  intros Hc Hv it HA Hm Hex Hob.
  assert (exists os en, loop_ends he o read_all it os en /\ (m <= List.length os)%nat
            /\ forall i w off len ob, (i < m)%nat -> R i w off len -> nth_error os i = Some ob -> found w off len ob) as (os & en & H1 & H2 & H3).
  { destruct (lo_norec o) eqn:En; rewrite <- (with_norec_id o); rewrite En.
    - exists osa, ena. split; [exact HA|]. split; [exact Hm|]. intros i w off len ob Hi HR E.
      destruct (Hob i w off len ob Hi HR E) as [_ H]. destruct H. constructor; try assumption.
      exists [], (w_block w). split; [reflexivity|]. split; [exact ob_data|]. split; [reflexivity|]. now left.
    - destruct (two (zl:=zl) he o r block known Hc) as (osa' & ena' & osb & enb & A & B & ca & cb & ra & rb & E1 & E2 & HF & HP).
      pose proof (conv2_uniq _ _ _ HA A) as Q. injection Q as <- <-. pose proof (Forall2_len _ _ _ HF) as HL.
      assert (m <= List.length ca)%nat as Hca.
      { destruct HP as [(-> & _)|[(-> & _)|(a & more & -> & [K1 K2] & HP)]]; [now rewrite E1, app_nil_r in Hm|now rewrite E1, app_nil_r in Hm|].
        destruct (Nat.le_gt_cases m (List.length ca)) as [?|Hlt]; [assumption|exfalso].
        assert (nth_error osa (List.length ca) = Some a) as Ea.
        { rewrite E1, nth_error_app2, Nat.sub_diag by apply Nat.le_refl. reflexivity. }
        destruct (Hex _ Hlt) as (w & off & len & HR). destruct (Hob _ w off len a Hlt HR Ea) as [HT H]. destruct H.
        assert (w_block w <> []) as Hne. { intros Q. apply K2. rewrite ob_length, Q. reflexivity. }
        destruct HP as [(_ & _ & HP)|[(_ & HP & _)|HP]]; [|congruence|].
        - unfold target_of in HP. rewrite ob_format in HP. unfold get_header in HP. rewrite ob_headers in HP. rewrite <- value_of_hget in HP.
          revert HP. apply HT; [|exact Hne]. rewrite <- ob_type. exact (http_kind _ K1).
        - rewrite ob_data in HP. injection HP as Q. now apply Hne. }
      exists osb, enb. split; [exact B|]. split; [rewrite E2, app_length; lia|]. intros i w off len ob Hi HR E.
      rewrite E2, nth_error_app1 in E by lia.
      destruct (Forall2_at _ _ _ _ _ HF E) as (a & Ea & HFr).
      destruct (Hob i w off len a Hi HR) as [_ H]; [rewrite E1, nth_error_app1; [exact Ea|lia]|]. destruct H, HFr.
      destruct fr_reads as (head & body & Q1 & Q2 & Q3 & Q4).
      constructor; try congruence. exists head, body.
      assert (w_block w = head ++ body) as Qb. { rewrite Q1 in ob_data. injection ob_data as Q. now symmetry. }
      split; [exact Qb|]. split; [exact Q2|]. split; [exact Q3|].
      destruct Q4 as [Q4|(n & Q4 & Q5)]; [now left|]. right. rewrite Q5. rewrite <- fr_length, ob_length in Q4. injection Q4 as <-.
      rewrite Qb. unfold lenZ. rewrite app_length. lia. }
  exists os, en. split; [exact H1|]. split; [exact H2|]. split; [exact H3|]. exact (any_prog he o r block known os en Hc H1).
Qed.

Lemma C33_append_framing_pf :
  forall (zl : zenv) he o ws more sched block known,
  gz_magic zl -> first_two block sched -> known <> Some FArc ->
  lo_check o = KFalse -> lo_verify o = false -> lo_ensure o = false ->
  (forall w t, In (w, t) ws -> wf_record w /\ text_of w t /\ http_ready w) -> ws <> [] ->
  (forall c rest, more = c :: rest -> is_bspace c = false) ->
  let it := @iter_new zl (raw_open (List.concat (map snd ws) ++ more) sched) block known in
  exists os en, loop_ends he o read_all it os en /\ (List.length ws <= List.length os)%nat
    /\ (forall i w t ob, nth_error ws i = Some (w, t) -> nth_error os i = Some ob ->
         found w (lenZ (List.concat (map snd (firstn i ws)))) (lenZ t - 4) ob)
    /\ forall prog, plain_prog prog -> exists oc, loop_ends he o prog it oc en /\ Forall2 agree os oc.
Proof.
intros zl he o ws more sched block known Hz H2 Hk Hc Hv He Hws Hne Hmore it.
assert (IterProofs.starts_text more) as Hst.
{ destruct more as [|c rest]; [now left|right]. specialize (Hmore c rest eq_refl). intros Q. apply Facts.rstripp_nil_all in Q.
  rewrite forallb_forall in Q. enough (is_bspace c = true) by congruence. apply Q. unfold take_line. cbn. destruct (N.eqb c LF); now left. }
destruct (two (zl:=zl) he o (raw_open (List.concat (map snd ws) ++ more) sched) block known Hc) as (os1 & en1 & _ & _ & HL & _). fold it in HL.
pose proof HL as [N HN].
destruct (IterProofs.plain_archive (zl:=zl) (Nat.max N (List.length (List.concat (map snd ws) ++ more) + 3)) he (with_norec true o) 0 read_all 0 (map ent ws) more sched block known)
  as (obs & it' & E & L & O & _); try assumption; try reflexivity.
- left. discriminate.
- rewrite texts_ent. apply Nat.le_max_r.
- intros i e Ei. rewrite nth_error_map in Ei. destruct (nth_error ws i) as [[w t]|] eqn:Ew; [|discriminate]. injection Ei as <-.
  destruct (Hws w t (nth_error_In _ _ Ew)) as (W1 & W2 & _). now apply good_ent.
- intros Q. now destruct ws.
- rewrite map_length in *. rewrite texts_ent in E. specialize (E N). change (mk_raw (List.concat (map snd ws) ++ more) 0 sched) with (raw_open (List.concat (map snd ws) ++ more) sched) in E.
  fold it in E. rewrite HN in E by lia. destruct (run_iter _ _ _ N _ _ it') as [os en]. injection E as -> ->.
  destruct (lift_prefix (zl:=zl) he o (raw_open (List.concat (map snd ws) ++ more) sched) block known (obs ++ os) en (List.length ws)
     (fun i w p l => exists t, nth_error ws i = Some (w, t) /\ p = lenZ (List.concat (map snd (firstn i ws))) /\ l = lenZ t - 4) Hc Hv HL)
    as (os2 & en2 & A1 & A2 & A3 & A4).
  + rewrite app_length. lia.
  + intros i Hi. destruct (nth_error ws i) as [[w t]|] eqn:Ew; [|apply nth_error_None in Ew; lia].
    eexists w, _, _, t. now repeat split.
  + intros i w p l ob Hi (t & Ew & -> & ->) Eo. destruct (Hws w t (nth_error_In _ _ Ew)) as (_ & _ & W3). split; [exact W3|].
    rewrite nth_error_app1 in Eo by lia. specialize (O i (ent (w, t)) ob). cbn [ent e_rec e_http e_payload e_text fst snd] in O.
    replace (lenZ (List.concat (map snd (firstn i ws)))) with (0 + position i (map ent ws)).
    * apply O; [|exact Eo]. now rewrite nth_error_map, Ew.
    * unfold position. now rewrite firstn_map, texts_ent.
  + exists os2, en2. split; [exact A1|]. split; [exact A2|]. split; [|exact A4].
    intros i w t ob Ew Eo. apply (A3 i w _ _ ob); [|now exists t|exact Eo]. apply nth_error_Some. congruence.
Qed.

Lemma C37_framing_pf :
  forall (zl : zenv) he o ws sched block known k w t pre suf,
  gz_magic zl -> first_two block sched -> known <> Some FArc ->
  lo_check o = KFalse -> lo_verify o = false -> lo_ensure o = false ->
  (forall w t, In (w, t) ws -> wf_record w /\ text_of w t /\ http_ready w) ->
  let off i := lenZ (List.concat (map snd (firstn i ws))) in
  List.concat (map snd ws) = pre ++ suf -> nth_error ws k = Some (w, t) -> off k + (lenZ t - 4) <= lenZ pre ->
  let it := @iter_new zl (raw_open pre sched) block known in
  exists os en, loop_ends he o read_all it os en /\ (k < List.length os)%nat
    /\ (forall i w t ob, (i <= k)%nat -> nth_error ws i = Some (w, t) -> nth_error os i = Some ob -> found w (off i) (lenZ t - 4) ob)
    /\ forall prog, plain_prog prog -> exists oc, loop_ends he o prog it oc en /\ Forall2 agree os oc.
Proof.
intros zl he o ws sched block known k w0 t0 pre suf Hz H2 Hk Hc Hv He Hws off Epre Ek Hcut it.
assert (forall i, position i (map ent ws) = off i) as Hpos.
{ intros i. unfold position. rewrite firstn_map, texts_ent. reflexivity. }
destruct (two (zl:=zl) he o (raw_open pre sched) block known Hc) as (os1 & en1 & _ & _ & HL & _). fold it in HL.
pose proof HL as [N HN].
destruct (C37_truncated_partial_pf zl (Nat.max N (List.length (List.concat (map snd ws)) + 3)) he (with_norec true o) 0 read_all (map ent ws) sched block known
   (Nat.max N (S k)) k (ent (w0, t0)) pre suf) as (obs & os & en & E & L & O); try assumption; try reflexivity.
- left. discriminate.
- rewrite texts_ent. apply Nat.le_max_r.
- intros i e Ei. rewrite nth_error_map in Ei. destruct (nth_error ws i) as [[w t]|] eqn:Ew; [|discriminate]. injection Ei as <-.
  destruct (Hws w t (nth_error_In _ _ Ew)) as (W1 & W2 & _). now apply good_ent.
- lia.
- now rewrite texts_ent.
- now rewrite nth_error_map, Ek.
- now rewrite Hpos.
- fold it in E. rewrite HN in E by lia. injection E as -> ->.
  destruct (lift_prefix (zl:=zl) he o (raw_open pre sched) block known (obs ++ os) en (S k)
     (fun i w p l => exists t, nth_error ws i = Some (w, t) /\ p = off i /\ l = lenZ t - 4) Hc Hv HL)
    as (os2 & en2 & A1 & A2 & A3 & A4).
  + rewrite app_length. lia.
  + intros i Hi. assert (k < List.length ws)%nat by (apply nth_error_Some; congruence).
    destruct (nth_error ws i) as [[w t]|] eqn:Ew; [|apply nth_error_None in Ew; lia].
    eexists w, _, _, t. now repeat split.
  + intros i w p l ob Hi (t & Ew & -> & ->) Eo. destruct (Hws w t (nth_error_In _ _ Ew)) as (_ & _ & W3). split; [exact W3|].
    rewrite nth_error_app1 in Eo by lia. specialize (O i (ent (w, t)) ob). cbn [ent e_rec e_http e_payload e_text fst snd] in O.
    rewrite <- Hpos. apply O; [|exact Eo]. now rewrite nth_error_map, Ew.
  + exists os2, en2. split; [exact A1|]. split; [exact A2|]. split; [|exact A4].
    intros i w t ob Hi Ew Eo. apply (A3 i w _ _ ob); [lia|now exists t|exact Eo].
Qed.

Lemma C38_cut_block_partial_pf :
  forall (zl : zenv) he o ws sched block known w t b c,
gz_magic zl -> first_two block sched -> known <> Some FArc ->
lo_check o = KFalse -> lo_verify o = false -> lo_ensure o = false ->
(forall w t, In (w, t) ws -> wf_record w /\ text_of w t /\ http_ready w) ->
wf_record w -> text_of w t -> http_ready w -> w_block w = b ++ c -> c <> [] ->
((exists ty, w_value "WARC-Type" w = Some ty /\ In ty [lit "response"; lit "request"; lit "revisit"]) -> b <> []) ->
let kept := lenZ t - 4 - lenZ c in
let off i := lenZ (List.concat (map snd (firstn i ws))) in
let it := @iter_new zl (raw_open (List.concat (map snd ws) ++ takeZ kept t) sched) block known in
exists os ob, loop_ends he o read_all it (os ++ [ob]) EndStop /\ List.length os = List.length ws
  /\ (forall i w t ob, nth_error ws i = Some (w, t) -> nth_error os i = Some ob -> found w (off i) (lenZ t - 4) ob)
  /\ cut_short w b (lenZ (List.concat (map snd ws))) kept ob
  /\ (exists x n, ob_reads ob = [Ok x] /\ rc_length (ob_record ob) = Some n /\ lenZ x < n)
  /\ forall prog, plain_prog prog -> exists oc, loop_ends he o prog it oc EndStop /\ Forall2 agree (os ++ [ob]) oc.
Proof.
intros zl he o ws sched block known w t b c Hz H2 Hk Hc Hv He Hws Hwf Htx Hrd Ebl Hcne Hbne kept off it.
assert (forall i, position i (map ent ws) = off i) as Hpos.
{ intros i. unfold position. rewrite firstn_map, texts_ent. reflexivity. }
destruct Htx as (head & Ehd & Et).
assert (kept = lenZ (head ++ b)) as Ek.
{ unfold kept. rewrite Et, Ebl, !lenZ_app. change (lenZ [13; 10; 13; 10]%N) with 4. lia. }
assert (takeZ kept t = head ++ b) as Epre.
{ rewrite Ek, Et, Ebl. rewrite <- app_assoc, app_assoc. apply takeZ_app_exact. }
destruct (two (zl:=zl) he o (raw_open (List.concat (map snd ws) ++ takeZ kept t) sched) block known Hc) as (os1 & en1 & _ & _ & HL & _). fold it in HL.
pose proof HL as [N HN].
destruct (cut_archive (zl:=zl) (Nat.max N (List.length (List.concat (map snd ws) ++ head ++ b) + 3)) he (with_norec true o) (map ent ws) w head b sched block known)
  as (obs & ob & E & L & O & S1 & S2 & S3); try assumption; try reflexivity.
- rewrite texts_ent. apply Nat.le_max_r.
- intros i e Ei. rewrite nth_error_map in Ei. destruct (nth_error ws i) as [[w' t']|] eqn:Ew; [|discriminate]. injection Ei as <-.
  destruct (Hws w' t' (nth_error_In _ _ Ew)) as (W1 & W2 & _). now apply good_ent.
- rewrite Ebl, lenZ_app. pose proof (lenZ_nonneg c). lia.
- rewrite map_length, texts_ent, <- Epre in *. fold it in E. specialize (E N). rewrite HN in E by lia. injection E as -> ->.
  destruct S1 as (T1 & T2 & T3 & T4 & T5 & T6 & T7 & T8 & T9).
  assert (Hread : forall i a, nth_error obs i = Some a -> exists w t, nth_error ws i = Some (w, t) /\ observed he (with_norec true o) w None (w_block w) (off i) (lenZ t - 4) [URead None] a).
  { intros i a Ea. assert (i < List.length obs)%nat as Hi by (apply nth_error_Some; congruence). rewrite L in Hi.
    destruct (nth_error ws i) as [[w' t']|] eqn:Ew; [|apply nth_error_None in Ew; lia]. exists w', t'. split; [reflexivity|].
    rewrite <- Hpos. specialize (O i (ent (w', t')) a). cbn [ent e_rec e_http e_payload e_text fst snd] in O. apply O; [|exact Ea]. now rewrite nth_error_map, Ew. }
  assert (HX : exists osb, loop_ends he o read_all it osb EndStop /\ Forall2 (framed o) (obs ++ [ob]) osb).
  { destruct (lo_norec o) eqn:En.
    - exists (obs ++ [ob]). split; [rewrite <- (with_norec_id o), En; exact HL|].
      assert (forall l : list (@Iterator.obs zl), (forall a, In a l -> exists x, ob_reads a = [Ok x] /\ rc_plen (ob_record a) = -1) -> Forall2 (framed o) l l) as Hrefl.
      { induction l as [|a l IH]; intros H; [constructor|]. constructor; [|apply IH; intros y Hy; apply H; now right].
        destruct (H a (or_introl eq_refl)) as (x & A1 & A2). constructor; try reflexivity. exists [], x. split; [exact A1|]. split; [exact A1|]. split; [reflexivity|now left]. }
      apply Hrefl. intros a Ha. apply in_app_or in Ha as [Ha|[<-|[]]].
      + apply In_nth_error in Ha as (i & Ea). destruct (Hread i a Ea) as (w' & t' & Ew & H). destruct H. exists (w_block w'). now split.
      + exists b. now split.
    - destruct (C85_complete_pf zl he o (List.concat (map snd ws) ++ takeZ kept t) sched block known (obs ++ [ob]) EndStop Hc Hv HL) as (osb & B & HF).
      + intros a Ha [K1 K2]. apply in_app_or in Ha as [Ha|[<-|[]]].
        * apply In_nth_error in Ha as (i & Ea). destruct (Hread i a Ea) as (w' & t' & Ew & H). destruct H.
          assert (w_block w' <> []) as Hne. { intros Q. apply K2. rewrite ob_length, Q. reflexivity. }
          destruct (Hws w' t' (nth_error_In _ _ Ew)) as (_ & _ & HT). split.
          -- unfold target_of. rewrite ob_format. unfold get_header. rewrite ob_headers, <- value_of_hget. apply HT; [|exact Hne]. rewrite <- ob_type. exact (http_kind _ K1).
          -- rewrite ob_data. intros Q. injection Q as Q. now apply Hne.
        * assert (Hty : exists ty, w_value "WARC-Type" w = Some ty /\ In ty [lit "response"; lit "request"; lit "revisit"]) by (rewrite <- T2; exact (http_kind _ K1)).
          split.
          -- unfold target_of. rewrite T1. unfold get_header. rewrite T4, <- value_of_hget. apply Hrd; [exact Hty|]. rewrite Ebl. destruct b; [now apply Hbne in Hty|discriminate].
          -- rewrite S2. intros Q. injection Q as Q. now apply Hbne in Hty.
      + discriminate.
      + exists osb. split; [rewrite <- (with_norec_id o), En; exact B|exact HF]. }
  destruct HX as (osb & B & HF). apply Forall2_app_inv_l in HF as (os & l2 & F1 & F2 & ->).
  inversion F2 as [|? ob2 ? l3 Fr F3]; subst. inversion F3; subst.
  exists os, ob2. split; [exact B|]. split; [rewrite <- (Forall2_len _ _ _ F1); exact L|]. split; [|split; [|split; [|exact (any_prog he o _ block known _ EndStop Hc B)]]].
  + intros i w' t' ob' Ew Eo. destruct (Forall2_at _ _ _ _ _ F1 Eo) as (a & Ea & HFr). destruct (Hread i a Ea) as (w2 & t2 & Ew2 & H).
    rewrite Ew in Ew2. injection Ew2 as <- <-. destruct H, HFr. destruct fr_reads as (hd & body & Q1 & Q2 & Q3 & Q4).
    constructor; try congruence. exists hd, body.
    assert (w_block w' = hd ++ body) as Qb. { rewrite Q1 in ob_data. injection ob_data as Q. now symmetry. }
    split; [exact Qb|]. split; [exact Q2|]. split; [exact Q3|].
    destruct Q4 as [Q4|(n & Q4 & Q5)]; [now left|]. right. rewrite Q5. rewrite <- fr_length, ob_length in Q4. injection Q4 as <-.
    rewrite Qb, lenZ_app. lia.
  + destruct Fr. destruct fr_reads as (hd & body & Q1 & Q2 & Q3 & Q4). constructor; try congruence.
    exists hd, body. rewrite S2 in Q1. injection Q1 as Q1. split; [exact Q1|]. split; [exact Q2|]. split; [exact Q3|].
    destruct Q4 as [Q4|(n & Q4 & Q5)]; [now left|]. right. rewrite Q5. rewrite <- fr_length, T5 in Q4. now injection Q4 as <-.
  + destruct Fr. destruct fr_reads as (hd & body & Q1 & Q2 & Q3 & Q4). exists body, (lenZ (w_block w)). split; [exact Q2|]. split; [congruence|].
    rewrite S2 in Q1. injection Q1 as Q1. rewrite Ebl, Q1, !lenZ_app. pose proof (lenZ_nonneg hd). pose proof (lenZ_pos c Hcne). lia.
Qed.

Lemma C81_framing_pf :
  forall (zl : zenv) he o (xs : list (wrc * bytes * bytes)) sched block known,
  gz_magic zl -> first_two block sched -> known <> Some FArc ->
  lo_check o = KFalse -> lo_verify o = false -> lo_ensure o = false ->
  (forall w t s, In (w, t, s) xs -> wf_record w /\ text_of w t /\ http_ready w /\ forallb is_bspace s = true) ->
  (forall i x w t s, nth_error xs i = Some x -> nth_error xs (S i) = Some (w, t, s) -> exists a, snd x = a ++ [LF]) ->
  let bare (t : bytes) := takeZ (lenZ t - 4) t in
  let text (x : wrc * bytes * bytes) := bare (snd (fst x)) ++ snd x in
  let it := @iter_new zl (raw_open (List.concat (map text xs)) sched) block known in
  exists os, loop_ends he o read_all it os EndStop /\ List.length os = List.length xs
    /\ (forall i w t s ob, nth_error xs i = Some (w, t, s) -> nth_error os i = Some ob ->
         found w (lenZ (List.concat (map text (firstn i xs)))) (lenZ (bare t)) ob)
    /\ forall prog, plain_prog prog -> exists oc, loop_ends he o prog it oc EndStop /\ Forall2 agree os oc.
Proof.
intros zl he o xs sched block known Hz H2 Hk Hc Hv He Hws Hsep bare text it.
set (g := fun p : wrc * bytes * bytes => (ent (fst p), snd p)).
assert (forall l, spaced (map g l) = List.concat (map text l)) as Hsp.
{ intros l. unfold spaced. rewrite map_map. reflexivity. }
destruct (two (zl:=zl) he o (raw_open (List.concat (map text xs)) sched) block known Hc) as (os1 & en1 & _ & _ & HL & _). fold it in HL.
pose proof HL as [N HN].
destruct (C81_blank_lines_partial_pf zl (Nat.max N (List.length (List.concat (map text xs)) + 3)) he (with_norec true o) 0 read_all (map g xs) sched block known
   (Nat.max N (S (List.length xs)))) as (obs & E & L & O); try assumption; try reflexivity.
- left. discriminate.
- rewrite Hsp. apply Nat.le_max_r.
- intros i e s Ei. rewrite nth_error_map in Ei. destruct (nth_error xs i) as [[[w t] s']|] eqn:Ew; [|discriminate]. injection Ei as <- <-.
  destruct (Hws w t s' (nth_error_In _ _ Ew)) as (W1 & W2 & _). now apply good_ent.
- intros i e s Ei. rewrite nth_error_map in Ei. destruct (nth_error xs i) as [[[w t] s']|] eqn:Ew; [|discriminate]. injection Ei as <- <-.
  destruct (Hws w t s' (nth_error_In _ _ Ew)) as (_ & _ & _ & W4). split; [exact W4|]. rewrite nth_error_map.
  destruct (nth_error xs (S i)) as [[[w1 t1] s1]|] eqn:En; [|contradiction]. intros _. exact (Hsep i _ _ _ _ Ew En).
- rewrite map_length. lia.
- rewrite Hsp in E. fold it in E. rewrite HN in E by lia. injection E as -> ->. rewrite map_length in L.
  destruct (lift (zl:=zl) he o (raw_open (List.concat (map text xs)) sched) block known obs
     (fun i w p l => exists t s, nth_error xs i = Some (w, t, s) /\ p = lenZ (List.concat (map text (firstn i xs))) /\ l = lenZ (bare t)) Hc Hv HL)
    as (os & A1 & A2 & A3 & A4).
  + intros i ob Ei. assert (i < List.length obs)%nat as Hi by (apply nth_error_Some; congruence). rewrite L in Hi.
    destruct (nth_error xs i) as [[[w t] s]|] eqn:Ew; [|apply nth_error_None in Ew; lia].
    eexists w, _, _, t, s. now repeat split.
  + intros i w p l ob (t & s & Ew & -> & ->) Eo. destruct (Hws w t s (nth_error_In _ _ Ew)) as (_ & _ & W3 & _). split; [exact W3|].
    specialize (O i (ent (w, t)) s ob). cbn [ent e_rec e_http e_payload e_text fst snd] in O.
    replace (lenZ (List.concat (map text (firstn i xs)))) with (spaced_position i (map g xs)).
    * apply O; [|exact Eo]. now rewrite nth_error_map, Ew.
    * unfold spaced_position. now rewrite firstn_map, Hsp.
  + exists os. split; [exact A1|]. split; [congruence|]. split; [|exact A4].
    intros i w t s ob Ew Eo. apply (A3 i w _ _ ob); [now exists t, s|exact Eo].
Qed.

Lemma view_ready fuel verify w http payload : http_view fuel false verify w http payload -> http_ready w.
Proof.
  intros (m & E & _) (t & Et & Ht) Hne Hu. unfold load_http_headers in E. rewrite Et, Hu in E.
  assert (is_http_record (Some t) = true) as Q by (destruct Ht as [<-|[<-|[<-|[]]]]; reflexivity).
  rewrite Q in E. destruct (lenZ (w_block w)) eqn:El; cbn [negb] in E; try discriminate.
  apply Hne. destruct (w_block w); [reflexivity|discriminate].
Qed.
Definition sane (p : wrc * bytes) : Prop := wf_record (fst p) /\ text_of (fst p) (snd p) /\ http_ready (fst p).
Lemma written_one fuel sha1 c r ws r' : hash_bytes sha1 -> (exists M, readable fuel sha1 M false c r) ->
  write_plain fuel sha1 None r = (Ok tt, ws, r') -> enough fuel (List.concat ws) ->
  exists p : wrc * bytes, snd p = List.concat ws /\ written fuel sha1 r (fst p) (snd p) /\ sane p.
Proof.
  intros Hh (M & (f & Hc) & Hro & Hfc) E Hfu.
  destruct (written_full fuel sha1 toy_henv (mk_lopts false false false false KFalse (lit "u")) M f c r ws r' Hfc Hh eq_refl (conj eq_refl eq_refl) Hro Hc E Hfu)
    as (e & (V1 & V2 & _) & Et & (G1 & G2 & G3 & _) & _).
  exists (e_rec e, e_text e). split; [exact Et|]. split.
  - exists ws, r'. cbn [fst snd]. now repeat split.
  - split; [exact G1|]. split; [exact G2|]. exact (view_ready _ _ _ _ _ G3).
Qed.
Lemma written_list fuel sha1 k : hash_bytes sha1 -> forall cs rs, Forall2 (fun c r => exists M, readable fuel sha1 M false c r) cs rs ->
  forall ws, write_all fuel sha1 k plain_opts rs = (Ok tt, ws) -> enough fuel (List.concat ws) ->
  exists new : list (wrc * bytes), List.concat (map snd new) = List.concat ws /\ Forall2 (fun r p => written fuel sha1 r (fst p) (snd p)) rs new /\ Forall sane new.
Proof.
  intros Hh cs rs HF. induction HF as [|c r cs rs Hr _ IH]; intros ws Hw Hfu; cbn [write_all] in Hw.
  - injection Hw as <-. exists []. repeat split; constructor.
  - destruct (write_record fuel sha1 k plain_opts r) as [[[u|e] w1] r1] eqn:E; [|discriminate].
    destruct (write_all fuel sha1 k plain_opts rs) as [x w2]. injection Hw as -> <-. destruct u.
    apply write_record_plain in E. unfold enough in Hfu. rewrite concat_app, app_length in Hfu.
    destruct (written_one fuel sha1 c r w1 r1 Hh Hr E) as (p & Ep & Wp & Sp). { unfold enough. lia. }
    destruct (IH w2 eq_refl) as (new & En & Wn & Sn). { unfold enough. lia. }
    exists (p :: new). split; [cbn [map List.concat]; rewrite concat_app; apply f_equal2; assumption|]. split; constructor; assumption.
Qed.

Lemma C33_append_pf :
  forall (zl : zenv) fuel sha1 k he o old cs rs ws,
  gz_magic zl -> hash_bytes sha1 -> lo_check o = KFalse -> lo_verify o = false -> lo_ensure o = false ->
  (forall w t, In (w, t) old -> wf_record w /\ text_of w t /\ http_ready w) ->
  Forall2 (fun c r => exists M, readable fuel sha1 M false c r) cs rs ->
  write_all fuel sha1 k (mk_wopts (lit "WARC/1.0") None false) rs = (Ok tt, ws) -> enough fuel (List.concat ws) ->
  exists new : list (wrc * bytes), Forall2 (fun r p => written fuel sha1 r (fst p) (snd p)) rs new /\
  forall sched block known, first_two block sched -> known <> Some FArc ->
  let it := @iter_new zl (raw_open (List.concat (map snd old) ++ List.concat ws) sched) block known in
  exists os, loop_ends he o read_all it os EndStop /\ List.length os = (List.length old + List.length rs)%nat
    /\ (forall i w t ob, nth_error (old ++ new) i = Some (w, t) -> nth_error os i = Some ob ->
         found w (lenZ (List.concat (map snd (firstn i (old ++ new))))) (lenZ t - 4) ob)
    /\ forall prog, plain_prog prog -> exists oc, loop_ends he o prog it oc EndStop /\ Forall2 agree os oc.
Proof.
intros zl fuel sha1 k he o old cs rs ws Hz Hh Hc Hv He Hold HF Hw Hfu.
destruct (written_list fuel sha1 k Hh cs rs HF ws Hw Hfu) as (new & En & Wn & Sn). exists new. split; [exact Wn|].
intros sched block known H2 Hk it.
destruct (C34_framing_pf zl he o (old ++ new) sched block known Hz H2 Hk Hc Hv He) as (os & A1 & A2 & A3 & A4).
- intros w t Hin. apply in_app_or in Hin as [Hin|Hin]; [now apply Hold|]. rewrite Forall_forall in Sn. exact (Sn _ Hin).
- rewrite map_app, concat_app, En in A1, A4. rewrite app_length, <- (Forall2_len _ _ _ Wn) in A2. exists os. split; [exact A1|]. split; [exact A2|]. split; [exact A3|exact A4].
Qed.

Lemma C33_append_gzip_pf :
  forall (zl : zenv) fuel sha1 k he o old cs rs ws,
  gzip_codec zl k -> hash_bytes sha1 -> lo_check o = KFalse -> lo_verify o = false -> lo_ensure o = false ->
  (forall w t m, In (w, t, m) old -> wf_record w /\ text_of w t /\ http_ready w /\ is_member zl m t) ->
  Forall2 (fun c r => exists M, readable fuel sha1 M false c r) cs rs ->
  write_all fuel sha1 k (mk_wopts (lit "WARC/1.0") None true) rs = (Ok tt, ws) ->
  (forall r ws r', In r rs -> write_plain fuel sha1 None r = (Ok tt, ws, r') -> enough fuel (List.concat ws)) ->
  exists new : list (wrc * bytes * bytes), Forall2 (fun r x => written fuel sha1 r (fst (fst x)) (snd (fst x)) /\ written_member fuel sha1 k r (snd x)) rs new /\
  forall sched block known, 0 < block -> known <> Some FArc -> old ++ new <> [] ->
  let it := @iter_new zl (raw_open (List.concat (map snd old) ++ List.concat ws) sched) block known in
  exists os, loop_ends he o read_all it os EndStop /\ List.length os = (List.length old + List.length rs)%nat
    /\ (forall i w t m ob, nth_error (old ++ new) i = Some (w, t, m) -> nth_error os i = Some ob ->
         found w (lenZ (List.concat (map snd (firstn i (old ++ new))))) (lenZ m) ob)
    /\ forall prog, plain_prog prog -> exists oc, loop_ends he o prog it oc EndStop /\ Forall2 agree os oc.
Proof.
intros zl fuel sha1 k he o old cs rs ws Hz Hh Hc Hv He Hold HF Hw Hfu.
assert (exists new : list (wrc * bytes * bytes), List.concat (map snd new) = List.concat ws
  /\ Forall2 (fun r x => written fuel sha1 r (fst (fst x)) (snd (fst x)) /\ written_member fuel sha1 k r (snd x)) rs new
  /\ Forall (fun x => sane (fst x) /\ is_member zl (snd x) (snd (fst x))) new) as (new & En & Wn & Sn).
{ clear - HF Hw Hfu Hz Hh. revert ws Hw. induction HF as [|c r cs rs Hr _ IH]; intros ws Hw; cbn [write_all] in Hw.
  - injection Hw as <-. exists []. repeat split; constructor.
  - destruct (write_record fuel sha1 k (mk_wopts (lit "WARC/1.0") None true) r) as [[[u|e] w1] r1] eqn:E; [|discriminate].
    destruct (write_all fuel sha1 k (mk_wopts (lit "WARC/1.0") None true) rs) as [x w2]. injection Hw as -> <-. destruct u.
    destruct (write_record_gz _ _ _ _ _ _ _ E) as (w0 & E0 & Q).
    destruct (written_one fuel sha1 c r w0 r1 Hh Hr E0 (Hfu r w0 r1 (or_introl eq_refl) E0)) as (p & Ep & Wp & Sp).
    destruct (IH (fun r0 w0 r0' Hin => Hfu r0 w0 r0' (or_intror Hin)) w2 eq_refl) as (new & En & Wn & Sn).
    exists ((p, List.concat w1) :: new). split; [cbn [map List.concat snd]; rewrite concat_app; apply f_equal2; [reflexivity|assumption]|]. split; constructor; try assumption.
    + split; [exact Wp|]. now exists w1, r1.
    + split; [exact Sp|]. cbn [fst snd]. rewrite Ep, Q, gz_writes_deflated. apply Hz. }
exists new. split; [exact Wn|]. intros sched block known Hb Hk Hne it.
destruct (C34_framing_gzip_pf zl he o (old ++ new) sched block known Hne Hb Hk Hc Hv He) as (os & A1 & A2 & A3 & A4).
- intros w t m Hin. apply in_app_or in Hin as [Hin|Hin]; [now apply Hold|]. rewrite Forall_forall in Sn. destruct (Sn _ Hin) as [(S1 & S2 & S3) S4]. split; [exact S1|]. split; [exact S2|]. split; [exact S3|exact S4].
- rewrite map_app, concat_app, En in A1, A4. rewrite app_length, <- (Forall2_len _ _ _ Wn) in A2. exists os. split; [exact A1|]. split; [exact A2|]. split; [exact A3|exact A4].
Qed.
