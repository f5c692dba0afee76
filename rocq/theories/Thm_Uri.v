(** * Thm_Uri: proofs of the theorems restated in Props_Uri.v *)
From Coq Require Import String List ZArith NArith Bool Lia.
From Verif Require Import PyBase Headers HeaderSpec Streams StreamSpec Loader Iterator WriterSpec IterSpec TermSpec IndepSpec FrameSpec Toy.
Import ListNotations.
Open Scope Z_scope.

From Verif Require Import HeaderProofs WriterProofs Facts BufProofs IterProofs GzProofs AdvProofs FrameProofs Thm_Indep Thm_Frame.

(** a record as an item *)
Definition nitem {zl : zenv} he o (p : wrc * wrc * bytes) : item zl :=
  let '(_, w, t) := p in
  mk_item (takeZ (lenZ t - 4) t) [13; 10; 13; 10]%N (w_block w)
    (verdict_at he (with_norec true o) w (w_block w)) (warc_seen w None (w_block w)).
Definition readable_as (p : wrc * wrc * bytes) : Prop :=
  let '(w0, w, t) := p in wf_lines w0 /\ declares_length w0 /\ normalised w0 w /\ text_of w0 t.
Lemma length_same w0 w : normalised w0 w -> declares_length w0 -> declares_length w.
Proof.
  intros H (l & E & P). exists l. rewrite (normal_other w0 w _ H) by (intros X; apply name_eq_spec in X; vm_compute in X; discriminate).
  split; [exact E|]. destruct H as (_ & -> & _). exact P.
Qed.
Lemma nitem_core {zl : zenv} he o w0 w t head : t = head ++ w_block w0 ++ [13; 10; 13; 10]%N -> w_block w = w_block w0 ->
  i_core (nitem (zl:=zl) he o (w0, w, t)) = head ++ w_block w /\ i_text (nitem (zl:=zl) he o (w0, w, t)) = t
  /\ lenZ (i_core (nitem (zl:=zl) he o (w0, w, t))) = lenZ t - 4.
Proof.
  intros E Eb. unfold nitem, i_text. cbn [i_core i_tail]. assert (takeZ (lenZ t - 4) t = head ++ w_block w) as ->.
  { rewrite E, Eb, app_assoc. generalize (head ++ w_block w0). intros l. replace (lenZ (l ++ [13; 10; 13; 10]%N) - 4) with (lenZ l); [apply takeZ_app_exact|].
    rewrite lenZ_app. change (lenZ [13; 10; 13; 10]%N) with 4. lia. }
  split; [reflexivity|]. rewrite Eb. split; [now rewrite E, app_assoc|]. rewrite E, app_assoc, (lenZ_app (head ++ _)). change (lenZ [13; 10; 13; 10]%N) with 4. lia.
Qed.
Lemma nitem_load {zl : zenv} fuel he o (M : rlim) p : 0 <= rM M -> readable_as p -> lo_check o = KFalse -> lo_ensure o = false ->
  loadable (zl:=zl) fuel he (with_norec true o) M warc_known (i_core (nitem (zl:=zl) he o p)) (i_payload (nitem (zl:=zl) he o p))
    (i_V (nitem (zl:=zl) he o p)) (i_P (nitem (zl:=zl) he o p)).
Proof.
  destruct p as [[w0 w] t]. intros HM (H1 & H2 & H3 & (head & Eh & Et)) Hc He.
  destruct (nitem_core (zl:=zl) he o w0 w t head Et (proj1 (proj2 H3))) as (Ec & _). cbn [nitem i_payload i_V i_P i_core] in *. rewrite Ec.
  apply (warc_loadable_n fuel he (with_norec true o) M w0); try assumption; [now apply (length_same w0)|now split|discriminate|now left].
Qed.
Lemma nitem_ok {zl : zenv} fuel he o (M : rlim) p : 0 <= rM M -> readable_as p -> lo_check o = KFalse -> lo_ensure o = false ->
  item_ok (zl:=zl) fuel he (with_norec true o) M warc_known (nitem he o p).
Proof.
  intros HM Hp Hc He. split; [now apply nitem_load|]. destruct p as [[w0 w] t]. destruct Hp as (H1 & H2 & H3 & (head & Eh & Et)).
  destruct (nitem_core (zl:=zl) he o w0 w t head Et (proj1 (proj2 H3))) as (Ec & _). cbn [nitem i_core i_tail] in *. rewrite Ec.
  assert (Hh : exists t, head = 87%N :: 65%N :: t).
  { unfold Utf8.utf8_encode in Eh. destruct (forallb Utf8.is_scalar _); [|discriminate]. injection Eh as <-. unfold record_text. destruct H1 as (Hver & _).
    destruct (warc_types_in _ Hver) as [->|[->|[->| ->]]]; cbn; eauto. }
  split; [reflexivity|]. destruct Hh as (t' & ->). split.
  - intros more. right. intros Ex. apply rstripp_nil_all in Ex. rewrite forallb_forall in Ex. specialize (Ex 87%N).
    assert (is_bspace 87 = true) as Y; [apply Ex; cbn; now left|discriminate].
  - eexists _, _, _. split; [reflexivity|discriminate].
Qed.
Lemma ntext {zl : zenv} he o p : readable_as p -> i_text (nitem (zl:=zl) he o p) = snd p /\ lenZ (i_core (nitem (zl:=zl) he o p)) = lenZ (snd p) - 4.
Proof.
  destruct p as [[w0 w] t]. intros (H1 & H2 & H3 & (head & Eh & Et)). destruct (nitem_core (zl:=zl) he o w0 w t head Et (proj1 (proj2 H3))) as (_ & A & B). now split.
Qed.
Lemma ntexts {zl : zenv} he o ws : (forall p, In p ws -> readable_as p) -> i_texts (map (nitem (zl:=zl) he o) ws) = List.concat (map snd ws).
Proof.
  intros H. unfold i_texts. f_equal. rewrite map_map. apply map_ext_in. intros p Hp. now apply ntext, H.
Qed.
Lemma nseen {zl : zenv} he o w0 w t off len ob : item_seen [URead None] (nitem (zl:=zl) he o (w0, w, t)) off len ob ->
  observed he (with_norec true o) w None (w_block w) off len [URead None] ob.
Proof. intros H. eapply warc_observed. exact H. Qed.
Lemma firstn_in {A} (l : list A) i x : In x (firstn i l) -> In x l.
Proof. revert l. induction i as [|i IH]; intros [|a l]; cbn; try tauto. intros [->|H]; auto. Qed.

Lemma C92_framing_pf :
  forall (zl : zenv) he o (ws : list (wrc * wrc * bytes)) sched block known,
gz_magic zl -> first_two block sched -> known <> Some FArc ->
lo_check o = KFalse -> lo_verify o = false -> lo_ensure o = false ->
(forall w0 w t, In (w0, w, t) ws -> (wf_lines w0 /\ declares_length w0 /\ normalised w0 w /\ text_of w0 t) /\ http_ready w) ->
let it := @iter_new zl (raw_open (List.concat (map snd ws)) sched) block known in
exists os, loop_ends he o read_all it os EndStop /\ List.length os = List.length ws
  /\ (forall i w0 w t ob, nth_error ws i = Some (w0, w, t) -> nth_error os i = Some ob ->
       found w (lenZ (List.concat (map snd (firstn i ws)))) (lenZ t - 4) ob)
  /\ forall prog, plain_prog prog -> exists oc, loop_ends he o prog it oc EndStop /\ Forall2 agree os oc.
Proof.
intros zl he o ws sched block known Hz H2 Hk Hc Hv He Hws it.
assert (HR : forall p, In p ws -> readable_as p). { intros [[w0 w] t] Hin. now apply Hws. }
set (data := List.concat (map snd ws)) in *.
destruct (two (zl:=zl) he o (raw_open data sched) block known Hc) as (os1 & en1 & _ & _ & HL & _). fold it in HL. pose proof HL as [N HN].
set (fuel := Nat.max N (List.length data + 3)).
destruct (plain_items (zl:=zl) fuel he (with_norec true o) 0 warc_known read_all 0 (map (nitem he o) ws) [] sched block known) as (obs & it' & E & Hl & Hob & Hend & _); auto.
{ left. discriminate. }
{ discriminate. }
{ rewrite app_nil_r, ntexts by exact HR. unfold enough, fuel. fold data. lia. }
{ apply Forall_forall. intros x Hx. apply in_map_iff in Hx as (p & <- & Hp). apply nitem_ok; auto. discriminate. }
{ intros i x _. split; (constructor; [exact Logic.I|constructor]). }
{ clear. induction ws as [|[[w0 w] t] l IH]; [exact Logic.I|]. split; [|exact IH]. left. exists [13; 10; 13]%N. split; reflexivity. }
{ now left. }
rewrite map_length in *. rewrite app_nil_r, ntexts in E by exact HR. change (mk_raw (List.concat (map snd ws)) 0 sched) with (raw_open data sched) in E. fold it in E.
specialize (E (S N)). rewrite (Hend eq_refl), app_nil_r in E. rewrite HN in E by (unfold fuel; lia). injection E as -> ->.
destruct (lift (zl:=zl) he o (raw_open data sched) block known obs
   (fun i w p l => exists w0 t, nth_error ws i = Some (w0, w, t) /\ p = lenZ (List.concat (map snd (firstn i ws))) /\ l = lenZ t - 4) Hc Hv HL) as (os & A1 & A2 & A3 & A4).
- intros i a Ea. assert (i < List.length obs)%nat as Hi by (apply nth_error_Some; congruence).
  destruct (nth_error ws i) as [[[w0 w] t]|] eqn:Er; [|apply nth_error_None in Er; lia]. eexists w, _, _, w0, t. now repeat split.
- intros i w p l a (w0 & t & Er & -> & ->) Ea. split; [now apply (Hws w0 w t (nth_error_In _ _ Er))|].
  assert (nth_error (map (nitem (zl:=zl) he o) ws) i = Some (nitem he o (w0, w, t))) as Hi by now rewrite nth_error_map, Er.
  pose proof (Hob i _ a Hi Ea) as X. rewrite firstn_map, ntexts in X by (intros q Hq; apply HR; exact (firstn_in _ _ _ Hq)).
  rewrite (proj2 (ntext he o _ (HR _ (nth_error_In _ _ Er)))) in X. exact (nseen he o w0 w t _ _ _ X).
- exists os. split; [exact A1|]. split; [congruence|]. split; [|exact A4]. intros i w0 w t ob Er Eo. apply (A3 i w _ _ ob); [|exact Eo]. exists w0, t. now repeat split.
Qed.

Lemma C92_framing_gzip_pf :
  forall (zl : zenv) he o (ms : list (wrc * wrc * bytes * bytes)) sched block known,
ms <> [] -> 0 < block -> known <> Some FArc ->
lo_check o = KFalse -> lo_verify o = false -> lo_ensure o = false ->
(forall w0 w t m, In (w0, w, t, m) ms ->
   (wf_lines w0 /\ declares_length w0 /\ normalised w0 w /\ text_of w0 t) /\ http_ready w /\ is_member zl m t) ->
let it := @iter_new zl (raw_open (List.concat (map snd ms)) sched) block known in
exists os, loop_ends he o read_all it os EndStop /\ List.length os = List.length ms
  /\ (forall i w0 w t m ob, nth_error ms i = Some (w0, w, t, m) -> nth_error os i = Some ob ->
       found w (lenZ (List.concat (map snd (firstn i ms)))) (lenZ m) ob)
  /\ forall prog, plain_prog prog -> exists oc, loop_ends he o prog it oc EndStop /\ Forall2 agree os oc.
Proof.
intros zl he o ms sched block known Hne Hb Hk Hc Hv He Hws it.
set (data := List.concat (map snd ms)) in *.
set (g := fun p : wrc * wrc * bytes * bytes => (nitem (zl:=zl) he o (fst p), snd p)).
assert (Hdat : forall l, gz_bytes (map g l) = List.concat (map snd l)). { intros l. unfold gz_bytes. now rewrite map_map. }
assert (HR : forall p m, In (p, m) ms -> readable_as p). { intros [[w0 w] t] m Hin. now apply (Hws w0 w t m). }
assert (exists F, forall p m, In (p, m) ms -> (List.length (snd p) + 3 <= F)%nat) as [F HF].
{ clear. induction ms as [|[p m] ms [F HF]]; [now exists O|]. exists (Nat.max (List.length (snd p) + 3) F).
  intros p' m' [Q|Hin]; [injection Q as <- <-; lia|]. specialize (HF _ _ Hin). lia. }
destruct (two (zl:=zl) he o (raw_open data sched) block known Hc) as (os1 & en1 & _ & _ & HL & _). fold it in HL. pose proof HL as [N HN].
set (fuel := Nat.max N (Nat.max F (List.length data + 3))).
destruct (gz_items (zl:=zl) fuel he (with_norec true o) 0 warc_known read_all 0 (map g ms) sched block known (Nat.max N (S (List.length ms)))) as (obs & E & Hl & Hob); auto.
{ now destruct ms. }
{ left. discriminate. }
{ discriminate. }
{ rewrite Hdat. unfold enough, fuel. fold data. lia. }
{ intros x m Hin. apply in_map_iff in Hin as ([p m'] & Q & Hin). injection Q as <- <-. cbn [fst]. rewrite (proj1 (ntext he o _ (HR _ _ Hin))).
  specialize (HF _ _ Hin). unfold enough, fuel. lia. }
{ intros i x m Hi. rewrite nth_error_map in Hi. destruct (nth_error ms i) as [[p m']|] eqn:Er; [|discriminate]. injection Hi as <- <-. cbn [fst snd].
  pose proof (nth_error_In _ _ Er) as Hin. split; [split; [|now destruct p as [[w0 w] t]]|].
  - intros L HL'. apply nitem_load; auto; [discriminate|exact (HR _ _ Hin)].
  - rewrite (proj1 (ntext he o _ (HR _ _ Hin))). destruct p as [[w0 w] t]. split; [now apply (Hws w0 w t m')|].
    split; (constructor; [exact Logic.I|constructor]). }
{ rewrite map_length. lia. }
rewrite map_length, Hdat in *. change (mk_raw (List.concat (map snd ms)) 0 sched) with (raw_open data sched) in E. fold it in E.
rewrite HN in E by (unfold fuel; lia). injection E as -> ->.
destruct (lift (zl:=zl) he o (raw_open data sched) block known obs
   (fun i w p l => exists w0 t m, nth_error ms i = Some (w0, w, t, m) /\ p = lenZ (List.concat (map snd (firstn i ms))) /\ l = lenZ m) Hc Hv HL) as (os & A1 & A2 & A3 & A4).
- intros i a Ea. assert (i < List.length obs)%nat as Hi by (apply nth_error_Some; congruence).
  destruct (nth_error ms i) as [[[[w0 w] t] m]|] eqn:Er; [|apply nth_error_None in Er; lia]. eexists w, _, _, w0, t, m. now repeat split.
- intros i w p l a (w0 & t & m & Er & -> & ->) Ea. split; [now apply (Hws w0 w t m (nth_error_In _ _ Er))|].
  assert (nth_error (map g ms) i = Some (nitem he o (w0, w, t), m)) as Hi by now rewrite nth_error_map, Er.
  pose proof (Hob i _ m a Hi Ea) as X. unfold gz_pos in X. rewrite firstn_map, Hdat in X. exact (nseen he o w0 w t _ _ _ X).
- exists os. split; [exact A1|]. split; [congruence|]. split; [|exact A4]. intros i w0 w t m ob Er Eo. apply (A3 i w _ _ ob); [|exact Eo]. exists w0, t, m. now repeat split.
Qed.

Lemma C92_once_pf :
  forall u, exists v, normal_uri u v /\ (forall v', normal_uri u v' -> v' = v) /\ ~ In 32%N v
  /\ ((forall m, v <> 60%N :: m ++ [62%N]) -> normal_uri v v).
Proof.
intros u.
assert (HS : forall x, ~ In 32%N (replace_spaces x)).
{ induction x as [|c x IH]; [easy|]. unfold replace_spaces. cbn [flat_map]. fold (replace_spaces x). rewrite in_app_iff. intros [H|H]; [|now apply IH].
  destruct (N.eqb_spec c 32) as [->|Hc]; [cbn in H; intuition discriminate|]. destruct H as [H|[]]. congruence. }
assert (HB : (exists m, u = 60%N :: m ++ [62%N]) \/ forall m, u <> 60%N :: m ++ [62%N]).
{ destruct u as [|c u]; [right; discriminate|]. destruct (N.eq_dec c 60) as [->|Hc]; [|right; intros m X; injection X as X _; contradiction].
  destruct (rev u) as [|d r] eqn:Er.
  - assert (u = []) as -> by now rewrite <- (rev_involutive u), Er. right. intros m X. injection X as X. destruct m; discriminate.
  - assert (u = rev r ++ [d]) as -> by (rewrite <- (rev_involutive u), Er; reflexivity).
    destruct (N.eq_dec d 62) as [->|Hd]; [left; now exists (rev r)|]. right. intros m X. injection X as X. apply app_inj_tail in X as [_ X]. contradiction. }
assert (HV : exists v, normal_uri u v /\ ~ In 32%N v).
{ destruct HB as [(m & Em)|Hu].
  - exists (replace_spaces m). split; [left; exists m; split; [exact Em|apply replace_spaces_ok]|apply HS].
  - exists (replace_spaces u). split; [right; split; [exact Hu|apply replace_spaces_ok]|apply HS]. }
destruct HV as (v & H1 & H2). exists v. split; [exact H1|]. split; [intros v' H'; exact (normal_fun u v' v H' H1)|]. split; [exact H2|].
intros Hv. apply normal_plain. now split.
Qed.

Lemma C92_nested_refuted_pf :
  exists u v w, normal_uri u v /\ normal_uri v w /\ w <> v.
Proof.
exists (lit "<<a>>"), (lit "<a>"), (lit "a"). split; [|split; [|discriminate]].
- left. exists (lit "<a>"). split; [reflexivity|]. exact (replace_spaces_ok (lit "<a>")).
- left. exists (lit "a"). split; [reflexivity|]. exact (replace_spaces_ok (lit "a")).
Qed.

Lemma C92_twice_refuted_pf :
  exists data os, run_iter (zl:=toy_z) 400 toy_henv (mk_lopts true false false false KFalse []) 3 read_all 0 (iter_new (raw_open data []) BUFF_SIZE None) = (os, EndStop)
  /\ data = lit "WARC/1.0" ++ [13; 10]%N ++ lit "WARC-Type: resource" ++ [13; 10]%N ++ lit "WARC-Target-URI: <a>" ++ [13; 10]%N
            ++ lit "WARC-Target-URI: b" ++ [13; 10]%N ++ lit "Content-Length: 0" ++ [13; 10; 13; 10; 13; 10; 13; 10]%N
  /\ map (fun ob => sh_headers (rc_headers (ob_record ob))) os
     = [[(lit "WARC-Type", lit "resource"); (lit "WARC-Target-URI", lit "<a>"); (lit "WARC-Target-URI", lit "a"); (lit "Content-Length", lit "0")]].
Proof.
eexists (lit "WARC/1.0" ++ [13; 10]%N ++ lit "WARC-Type: resource" ++ [13; 10]%N ++ lit "WARC-Target-URI: <a>" ++ [13; 10]%N
            ++ lit "WARC-Target-URI: b" ++ [13; 10]%N ++ lit "Content-Length: 0" ++ [13; 10; 13; 10; 13; 10; 13; 10]%N), _.
split; [vm_compute; reflexivity|]. split; [reflexivity|]. vm_compute. reflexivity.
Qed.
