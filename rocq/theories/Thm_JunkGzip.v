(** * Thm_JunkGzip: proofs of the theorems restated in Props_JunkGzip.v *)
From Coq Require Import String List ZArith NArith Bool Lia.
From Verif Require Import PyBase Headers Streams Loader Iterator Writer StreamSpec WriterSpec IterSpec RoundSpec TermSpec IndepSpec FrameSpec Toy.
From Verif Require Thm_Iter.
Import ListNotations.
Open Scope Z_scope.

From Coq Require Import ZifyBool ZifyNat ZifyN.
From Verif Require Import Facts HeaderProofs WriterProofs BufProofs IterProofs GzProofs JunkProofs JunkGz Thm_Iter Thm_Junk Thm_Frame.

(** a record, what follows it in its gzip member, and the member *)
Definition zx : Type := entry * bytes * bytes.
Definition zx_text (x : zx) : bytes := bare_text (fst (fst x)) ++ snd (fst x).
Definition zx_data (xs : list zx) : bytes := List.concat (map snd xs).
Definition ex_zs : list zx :=
  map (fun x => (x, toy_gz (bare_text (fst x) ++ snd x)))
    (List.combine Thm_Iter.ex_es [lit "left over, WARC/1.0" ++ [13; 10; 13; 10]%N; lit "the end"]).

Lemma C109_gzip_partial_pf :
  forall (zl : zenv) fuel he o M prog (xs : list zx) sched block known n,
  xs <> [] -> (M <= 1 \/ (sched = [] /\ forall e t m, In (e, t, m) xs -> lenZ m <= block)) -> 0 < block -> 0 <= M ->
  enough fuel (zx_data xs) -> (forall x, In x xs -> enough fuel (zx_text x)) ->
  (forall k e t m, nth_error xs k = Some (e, t, m) -> good_entry fuel he o M (prog k) e /\ stray t /\ is_member zl m (bare_text e ++ t)) ->
  lo_ensure o = false -> known <> Some FArc -> (List.length xs < n)%nat ->
  exists obs, run_iter (zl:=zl) fuel he o n prog 0 (iter_new (raw_open (zx_data xs) sched) block known) = (obs, EndStop)
    /\ List.length obs = List.length xs
    /\ forall k e t m ob, nth_error xs k = Some (e, t, m) -> nth_error obs k = Some ob ->
         observed he o (e_rec e) (e_http e) (e_payload e) (lenZ (zx_data (firstn k xs))) (lenZ m) (prog k) ob.
Proof.
intros zl fuel he o M prog xs sched block known n Hne Hfit Hb HM Hfu Hft Hgood Hoff Hk Hn.
set (it := fun x : zx => (mk_item (zl:=zl) (i_core (entry_item (zl:=zl) he o (fst (fst x)))) (snd (fst x)) (e_payload (fst (fst x)))
      (verdict_at he o (e_rec (fst (fst x))) (e_payload (fst (fst x)))) (warc_seen (e_rec (fst (fst x))) (e_http (fst (fst x))) (e_payload (fst (fst x)))), snd x)).
assert (Etx : forall l, gz_bytes (map it l) = zx_data l).
{ intros l. unfold gz_bytes, zx_data. rewrite map_map. reflexivity. }
assert (Hnth : forall i x m, nth_error (map it xs) i = Some (x, m) -> exists e t, nth_error xs i = Some (e, t, m) /\ (x, m) = it (e, t, m)).
{ intros i x m Hi. rewrite nth_error_map in Hi. destruct (nth_error xs i) as [[[e t] m']|] eqn:Ei; [|discriminate]. cbn [option_map] in Hi.
  assert (m' = m) as -> by (injection Hi as _ Q; exact Q). exists e, t. split; [reflexivity|]. now injection Hi as <-. }
destruct (JunkGz.gz_items (zl:=zl) fuel he o M warc_known prog 0 (map it xs) sched block known n) as (obs & E & Hl & Hob); auto.
{ destruct xs; [contradiction|discriminate]. }
{ destruct Hfit as [H|[Hs H]]; [now left|right]. split; [exact Hs|]. intros i x m Hi. apply Hnth in Hi as (e & t & Hi & _). left. exact (H e t m (nth_error_In _ _ Hi)). }
{ now rewrite Etx. }
{ intros x m Hin. apply In_nth_error in Hin as (i & Hi). apply Hnth in Hi as (e & t & Hi & Q). injection Q as ->. exact (Hft (e, t, m) (nth_error_In _ _ Hi)). }
{ intros i x m Hi. apply Hnth in Hi as (e & t & Hi & Q). injection Q as ->. destruct (Hgood i e t m Hi) as (Hg & Hs & Hz).
  assert (H1 : forall L, 0 <= L -> _) by (intros L HL; exact (proj1 (entry_item_ok (zl:=zl) fuel he o (mk_rlim M L) _ e HM Hoff Hg))).
  split; [split; [exact H1|exact (stray_loose _ Hs)]|]. split; [exact Hz|]. destruct Hg as (_ & _ & _ & _ & _ & A & B). now split. }
{ now rewrite map_length. }
rewrite Etx in E. rewrite map_length in Hl. exists obs. split; [exact E|]. split; [exact Hl|].
intros i e t m ob Hi Hi'. assert (nth_error (map it xs) i = Some (it (e, t, m))) as Hi2 by now rewrite nth_error_map, Hi.
pose proof (Hob i _ _ ob Hi2 Hi') as X. unfold gz_pos in X. rewrite firstn_map, Etx in X. eapply warc_observed. exact X.
Qed.

Lemma C109_framing_gzip_pf :
  forall (zl : zenv) he o (xs : list (wrc * bytes * bytes * bytes)) sched block known,
  xs <> [] -> 0 < block -> known <> Some FArc ->
  lo_check o = KFalse -> lo_verify o = false -> lo_ensure o = false ->
  let bare (t : bytes) := takeZ (lenZ t - 4) t in
  (forall w t s m, In (w, t, s, m) xs -> wf_record w /\ text_of w t /\ http_ready w /\ stray s /\ is_member zl m (bare t ++ s)) ->
  let it := @iter_new zl (raw_open (List.concat (map snd xs)) sched) block known in
  exists os, loop_ends he o read_all it os EndStop /\ List.length os = List.length xs
    /\ (forall i w t s m ob, nth_error xs i = Some (w, t, s, m) -> nth_error os i = Some ob ->
         found w (lenZ (List.concat (map snd (firstn i xs)))) (lenZ m) ob)
    /\ forall prog, plain_prog prog -> exists oc, loop_ends he o prog it oc EndStop /\ Forall2 agree os oc.
Proof.
intros zl he o xs sched block known Hne Hb Hk Hc Hv He bare Hws it.
set (g := fun p : wrc * bytes * bytes * bytes => (ent (fst (fst p)), snd (fst p), snd p)).
assert (forall l, zx_data (map g l) = List.concat (map snd l)) as Hsp.
{ intros l. unfold zx_data. rewrite map_map. reflexivity. }
destruct (two (zl:=zl) he o (raw_open (List.concat (map snd xs)) sched) block known Hc) as (os1 & en1 & _ & _ & HL & _). fold it in HL.
pose proof HL as [N HN].
assert (exists F, forall x, In x (map g xs) -> (List.length (zx_text x) + 3 <= F)%nat) as [F HF].
{ clear. induction (map g xs) as [|y l [F HF]]; [now exists O|]. exists (Nat.max (List.length (zx_text y) + 3) F).
  intros x [->|Hin]; [lia|]. specialize (HF _ Hin). lia. }
destruct (C109_gzip_partial_pf zl (Nat.max N (Nat.max F (List.length (List.concat (map snd xs)) + 3))) he (with_norec true o) 0 read_all (map g xs) sched block known
   (Nat.max N (S (List.length xs)))) as (obs & E & L & O); try assumption; try reflexivity.
- destruct xs; [contradiction|discriminate].
- left. discriminate.
- rewrite Hsp. unfold enough. lia.
- intros x Hin. specialize (HF x Hin). unfold enough. lia.
- intros i e s m Ei. rewrite nth_error_map in Ei. destruct (nth_error xs i) as [[[[w t] s'] m']|] eqn:Ew; [|discriminate]. injection Ei as <- <- <-.
  destruct (Hws w t s' m' (nth_error_In _ _ Ew)) as (W1 & W2 & _ & W4 & W5). split; [now apply good_ent|]. split; [exact W4|exact W5].
- rewrite map_length. lia.
- rewrite Hsp in E. fold it in E. rewrite HN in E by lia. injection E as -> ->. rewrite map_length in L.
  destruct (lift (zl:=zl) he o (raw_open (List.concat (map snd xs)) sched) block known obs
     (fun i w p l => exists t s m, nth_error xs i = Some (w, t, s, m) /\ p = lenZ (List.concat (map snd (firstn i xs))) /\ l = lenZ m) Hc Hv HL)
    as (os & A1 & A2 & A3 & A4).
  + intros i ob Ei. assert (i < List.length obs)%nat as Hi by (apply nth_error_Some; congruence). rewrite L in Hi.
    destruct (nth_error xs i) as [[[[w t] s] m]|] eqn:Ew; [|apply nth_error_None in Ew; lia].
    eexists w, _, _, t, s, m. now repeat split.
  + intros i w p l ob (t & s & m & Ew & -> & ->) Eo. destruct (Hws w t s m (nth_error_In _ _ Ew)) as (_ & _ & W3 & _). split; [exact W3|].
    specialize (O i (ent (w, t)) s m ob). cbn [ent e_rec e_http e_payload e_text fst snd] in O.
    replace (lenZ (List.concat (map snd (firstn i xs)))) with (lenZ (zx_data (firstn i (map g xs)))).
    * apply O; [|exact Eo]. now rewrite nth_error_map, Ew.
    * now rewrite firstn_map, Hsp.
  + exists os. split; [exact A1|]. split; [congruence|]. split; [|exact A4].
    intros i w t s m ob Ew Eo. apply (A3 i w _ _ ob); [now exists t, s, m|exact Eo].
Qed.
