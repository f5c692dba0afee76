(** * Thm_JunkFrame: proofs of the theorems restated in Props_JunkFrame.v *)
From Coq Require Import String List ZArith NArith Bool Lia.
From Verif Require Import PyBase Headers Streams Loader Iterator Writer StreamSpec WriterSpec IterSpec RoundSpec TermSpec IndepSpec FrameSpec Toy.
From Verif Require Thm_Iter.
Import ListNotations.
Open Scope Z_scope.

From Verif Require Import Facts HeaderProofs WriterProofs IterProofs Thm_Iter Thm_Junk.
From Verif Require Import Thm_Frame.

Lemma C109_framing_pf :
  forall (zl : zenv) he o (xs : list (wrc * bytes * bytes)) sched block known,
  gz_magic zl -> first_two block sched -> known <> Some FArc ->
  lo_check o = KFalse -> lo_verify o = false -> lo_ensure o = false ->
  (forall w t s, In (w, t, s) xs -> wf_record w /\ text_of w t /\ http_ready w /\ stray s) ->
  (forall i x w t s, nth_error xs i = Some x -> nth_error xs (S i) = Some (w, t, s) -> exists a, snd x = a ++ [LF]) ->
  let bare (t : bytes) := takeZ (lenZ t - 4) t in
  let text (x : wrc * bytes * bytes) := bare (snd (fst x)) ++ snd x in
  let it := @iter_new zl (raw_open (List.concat (map text xs)) sched) block known in
  exists os, loop_ends he o read_all it os EndStop /\ List.length os = List.length xs
    /\ (forall i w t s ob, nth_error xs i = Some (w, t, s) -> nth_error os i = Some ob ->
         found w (lenZ (List.concat (map text (firstn i xs)))) (lenZ (bare t)) ob)
    /\ forall prog, plain_prog prog -> exists oc, loop_ends he o prog it oc EndStop /\ Forall2 agree os oc.
Proof.
intros zl he o xs sched block known Hz H2 Hk Hc Hv He Hws Hsep bare text it.
set (g := fun p : wrc * bytes * bytes => (ent (fst p), snd p)).
assert (forall l, spaced (map g l) = List.concat (map text l)) as Hsp.
{ intros l. unfold spaced. rewrite map_map. reflexivity. }
destruct (two (zl:=zl) he o (raw_open (List.concat (map text xs)) sched) block known Hc) as (os1 & en1 & _ & _ & HL & _). fold it in HL.
pose proof HL as [N HN].
destruct (C109_stray_line_partial_pf zl (Nat.max N (List.length (List.concat (map text xs)) + 3)) he (with_norec true o) 0 read_all (map g xs) sched block known
   (Nat.max N (S (List.length xs)))) as (obs & E & L & O); try assumption; try reflexivity.
- left. discriminate.
- rewrite Hsp. apply Nat.le_max_r.
- intros i e s Ei. rewrite nth_error_map in Ei. destruct (nth_error xs i) as [[[w t] s']|] eqn:Ew; [|discriminate]. injection Ei as <- <-.
  destruct (Hws w t s' (nth_error_In _ _ Ew)) as (W1 & W2 & _). now apply good_ent.
- intros i e s Ei. rewrite nth_error_map in Ei. destruct (nth_error xs i) as [[[w t] s']|] eqn:Ew; [|discriminate]. injection Ei as <- <-.
  destruct (Hws w t s' (nth_error_In _ _ Ew)) as (_ & _ & _ & W4). split; [exact W4|]. rewrite nth_error_map.
  destruct (nth_error xs (S i)) as [[[w1 t1] s1]|] eqn:En; [|contradiction]. intros _. exact (Hsep i _ _ _ _ Ew En).
- rewrite map_length. lia.
- rewrite Hsp in E. fold it in E. rewrite HN in E by lia. injection E as -> ->. rewrite map_length in L.
  destruct (lift (zl:=zl) he o (raw_open (List.concat (map text xs)) sched) block known obs
     (fun i w p l => exists t s, nth_error xs i = Some (w, t, s) /\ p = lenZ (List.concat (map text (firstn i xs))) /\ l = lenZ (bare t)) Hc Hv HL)
    as (os & A1 & A2 & A3 & A4).
  + intros i ob Ei. assert (i < List.length obs)%nat as Hi by (apply nth_error_Some; congruence). rewrite L in Hi.
    destruct (nth_error xs i) as [[[w t] s]|] eqn:Ew; [|apply nth_error_None in Ew; lia].
    eexists w, _, _, t, s. now repeat split.
  + intros i w p l ob (t & s & Ew & -> & ->) Eo. destruct (Hws w t s (nth_error_In _ _ Ew)) as (_ & _ & W3 & _). split; [exact W3|].
    specialize (O i (ent (w, t)) s ob). cbn [ent e_rec e_http e_payload e_text fst snd] in O.
    replace (lenZ (List.concat (map text (firstn i xs)))) with (spaced_position i (map g xs)).
    * apply O; [|exact Eo]. now rewrite nth_error_map, Ew.
    * unfold spaced_position. now rewrite firstn_map, Hsp.
  + exists os. split; [exact A1|]. split; [congruence|]. split; [|exact A4].
    intros i w t s ob Ew Eo. apply (A3 i w _ _ ob); [now exists t, s|exact Eo].
Qed.
