(** * Thm_Junk: proofs of the theorems restated in Props_Junk.v *)
From Coq Require Import String List ZArith NArith Bool Lia.
From Coq Require Import ZifyBool ZifyNat ZifyN.
From Verif Require Import PyBase Utf8 Codecs Headers HeaderSpec Streams StreamSpec DigestSpec Loader Iterator WriterSpec IterSpec ArcSpec Toy.
From Verif Require Thm_Iter Thm_Arc.
Import ListNotations.
Open Scope Z_scope.

From Verif Require Import Facts HeaderProofs WriterProofs IterProofs ArcProofs JunkProofs.

(** one line of any text, then only white space *)
Definition stray (t : bytes) : Prop :=
  ~ In LF t \/ exists line b, ~ In LF line /\ t = line ++ LF :: b /\ forallb is_bspace b = true.
Definition strays_ok (xs : list (entry * bytes)) : Prop :=
  forall i e t, nth_error xs i = Some (e, t) -> stray t /\ (nth_error xs (S i) <> None -> exists a, t = a ++ [LF]).
Definition ex_xs : list (entry * bytes) :=
  List.combine Thm_Iter.ex_es [lit "left over, WARC/1.0" ++ [13; 10; 13; 10]%N; lit "the end"].
Definition ex_two : list (entry * bytes) :=
  List.combine Thm_Iter.ex_es [lit "left" ++ [10%N] ++ lit "over" ++ [13; 10; 13; 10]%N; []].

Lemma stray_loose t : stray t -> loose t.
Proof.
  unfold loose. intros [H|(line & b & H & -> & Hb)].
  - rewrite drop_line_dropZ, (take_line_noLF t H). now rewrite dropZ_all by lia.
  - pose proof (take_drop_line (line ++ LF :: b)) as E. rewrite (take_line_LF line b H) in E.
    change (LF :: b) with ([LF] ++ b) in E at 2. rewrite app_assoc in E. apply app_inv_head in E. now rewrite E.
Qed.
Lemma item_weak {zl} fuel he o M K (x y : item zl) : item_ok fuel he o M K y ->
  i_core x = i_core y -> i_payload x = i_payload y -> i_V x = i_V y -> i_P x = i_P y -> item_okj fuel he o M K x.
Proof. intros (A & _ & B & C) E1 E2 E3 E4. unfold item_okj. rewrite E1, E2, E3, E4. auto. Qed.
Lemma arc_loose {zl : zenv} fuel he o M prog p es sched block known n :
  gz_magic zl -> first_two block sched -> reads_fit M block sched -> 0 <= M -> enough fuel (ae_texts es) ->
  (forall i e, nth_error es i = Some e -> good_aentry fuel o M (prog i) e
     /\ loose (ae_tail e) /\ ((exists a, ae_tail e = a ++ [LF]) \/ S i = List.length es)) ->
  lo_ensure o = false -> known <> Some FWarc -> (List.length es < n)%nat ->
  exists obs, run_iter (zl:=zl) fuel he o n prog 0 (iter_new (mk_raw (ae_texts es) p sched) block known) = (obs, EndStop)
    /\ List.length obs = List.length es
    /\ forall i e ob, nth_error es i = Some e -> nth_error obs i = Some ob ->
         arc_observed o (ae_rec e) (ae_http e) (ae_payload e) (p + ae_position i es) (lenZ (arc_bytes (ae_rec e))) (prog i) ob.
Proof.
  intros Hz Hb Hfit HM Hfu Hgood Hen Hk Hn. pose proof (arc_items_text (zl:=zl) o es) as Etx.
  destruct (loose_items (zl:=zl) fuel he o M arc_known prog p (map (arc_item o) es) [] sched block known) as (obs & it' & E & Hl & Hob & Hend & _); auto.
  { now rewrite Etx, app_nil_r. }
  { apply Forall_forall. intros x Hx. apply in_map_iff in Hx as (e & <- & He). apply In_nth_error in He as (i & Hi).
    destruct (Hgood i e Hi) as (Hg & _). apply (item_weak fuel he o (BufProofs.rl0 M) arc_known _ (arc_item o (mk_aentry (ae_rec e) [] (ae_http e) (ae_payload e)))); try reflexivity.
    apply (arc_item_ok fuel he o M (prog i)); auto. intros c []. }
  { intros i x Hi. rewrite nth_error_map in Hi. destruct (nth_error es i) as [e|] eqn:En; [|discriminate]. injection Hi as <-.
    destruct (Hgood i e En) as ((_ & _ & _ & A & B) & _). now split. }
  { assert (X : forall i e, nth_error es i = Some e -> loose (ae_tail e) /\ ((exists a, ae_tail e = a ++ [LF]) \/ S i = List.length es)) by (intros i e Hi; now destruct (Hgood i e Hi)).
    clear -X. induction es as [|e es IH]; [exact Logic.I|]. split.
    - destruct (X 0%nat e eq_refl) as [Hw Hl]. split; [exact Hw|]. destruct Hl as [Hl|Hl]; [now left|right]. destruct es; [now split|discriminate].
    - apply IH. intros i e' Hi. destruct (X (S i) e' Hi) as [Hw [H|H]]; (split; [exact Hw|]); [now left|right]. now injection H. }
  { now left. }
  rewrite map_length in *. rewrite Etx, app_nil_r in E. exists obs.
  assert (exists m, n = (List.length es + Datatypes.S m)%nat) as (n' & ->) by (exists (n - List.length es - 1)%nat; lia).
  rewrite E, (Hend eq_refl), app_nil_r. split; [reflexivity|]. split; [exact Hl|].
  intros i e ob Hi Hi'. assert (nth_error (map (arc_item (zl:=zl) o) es) i = Some (arc_item o e)) as Hi2 by now rewrite nth_error_map, Hi.
  pose proof (Hob i _ ob Hi2 Hi') as X. rewrite firstn_map, arc_items_text in X. apply arc_item_seen. exact X.
Qed.
Lemma loose_strays {zl : zenv} he o : forall xs : list (entry * bytes), strays_ok xs ->
  loose_ok (map (fun x => mk_item (zl:=zl) (i_core (entry_item (zl:=zl) he o (fst x))) (snd x) (e_payload (fst x))
      (verdict_at he o (e_rec (fst x)) (e_payload (fst x))) (warc_seen (e_rec (fst x)) (e_http (fst x)) (e_payload (fst x)))) xs) [].
Proof.
  induction xs as [|[e t] xs IH]; intros H; [exact Logic.I|]. cbn [map loose_ok i_tail snd]. split.
  - destruct (H O e t eq_refl) as [H1 H2]. split; [now apply stray_loose|]. destruct xs as [|y xs]; [right; split; reflexivity|left].
    destruct (H2 ltac:(discriminate)) as (a & ->). now exists a.
  - apply IH. intros i e' t' Hi. exact (H (S i) e' t' Hi).
Qed.

Lemma C109_stray_line_partial_pf :
  forall (zl : zenv) fuel he o M prog xs sched block known n,
  gz_magic zl -> first_two block sched -> reads_fit M block sched -> 0 <= M -> enough fuel (spaced xs) ->
  (forall k e t, nth_error xs k = Some (e, t) -> good_entry fuel he o M (prog k) e) -> strays_ok xs ->
  lo_ensure o = false -> known <> Some FArc -> (List.length xs < n)%nat ->
  exists obs, run_iter (zl:=zl) fuel he o n prog 0 (iter_new (raw_open (spaced xs) sched) block known) = (obs, EndStop)
    /\ List.length obs = List.length xs
    /\ forall k e t ob, nth_error xs k = Some (e, t) -> nth_error obs k = Some ob ->
         observed he o (e_rec e) (e_http e) (e_payload e) (spaced_position k xs) (lenZ (bare_text e)) (prog k) ob.
Proof.
intros zl fuel he o M prog xs sched block known n Hz Hb Hfit HM Hfu Hgood Hbl Hoff Hk Hn.
set (it := fun x : entry * bytes => mk_item (zl:=zl) (i_core (entry_item (zl:=zl) he o (fst x))) (snd x) (e_payload (fst x))
      (verdict_at he o (e_rec (fst x)) (e_payload (fst x))) (warc_seen (e_rec (fst x)) (e_http (fst x)) (e_payload (fst x)))).
assert (Etx : forall l, i_texts (map it l) = spaced l).
{ intros l. unfold i_texts, spaced. f_equal. rewrite map_map. reflexivity. }
destruct (loose_items (zl:=zl) fuel he o M warc_known prog 0 (map it xs) [] sched block known) as (obs & it' & E & Hl & Hob & Hend & _); auto.
{ now rewrite app_nil_r, Etx. }
{ apply Forall_forall. intros x Hx. apply in_map_iff in Hx as ([e t] & <- & He). apply In_nth_error in He as (i & Hi).
  destruct (entry_item_ok (zl:=zl) fuel he o (BufProofs.rl0 M) (prog i) e HM Hoff (Hgood i e t Hi)) as (A & _ & B & C).
  split; [exact A|]. split; [exact B|exact C]. }
{ intros i x Hi. rewrite nth_error_map in Hi. destruct (nth_error xs i) as [[e t]|] eqn:En; [|discriminate]. injection Hi as <-.
  destruct (Hgood i e t En) as (_ & _ & _ & _ & _ & A & B). now split. }
{ now apply loose_strays. }
{ now left. }
rewrite map_length in *. rewrite app_nil_r, Etx in E. exists obs. split; [|split; [exact Hl|]].
- replace n with (List.length xs + Datatypes.S (n - List.length xs - 1))%nat by lia. unfold raw_open. rewrite E, (Hend eq_refl). now rewrite app_nil_r.
- intros i e t ob Hi Hi'. assert (nth_error (map it xs) i = Some (it (e, t))) as Hi2 by now rewrite nth_error_map, Hi.
  pose proof (Hob i _ ob Hi2 Hi') as X. rewrite firstn_map, Etx in X. eapply warc_observed. exact X.
Qed.

Lemma C109_two_lines_refuted_pf :
  (forall k e t, nth_error ex_two k = Some (e, t) -> good_entry 300 toy_henv Thm_Iter.ex_o 200 (Thm_Iter.ex_prog k) e)
/\ exists ob, run_iter (zl:=toy_z) 300 toy_henv Thm_Iter.ex_o 3 Thm_Iter.ex_prog 0 (iter_new (raw_open (spaced ex_two) []) 200 None)
     = ([ob], EndExn ArchiveLoadFailed).
Proof.
split.
- intros [|[|i]] e t H; cbn in H; [| |destruct i; discriminate H]; injection H as <- <-; apply Thm_Iter.ex_good_pf; reflexivity.
- eexists. vm_compute. reflexivity.
Qed.

Lemma C74_lost_refuted_pf :
  forall (zl : zenv) fuel he o M prog p pre a b suf sched block known n,
  let file := pre ++ a :: b :: suf in
  let seen := pre ++ a :: suf in
  gz_magic zl -> first_two block sched -> reads_fit M block sched -> 0 <= M -> enough fuel (ae_texts file) ->
  wf_arec (ae_rec b) -> r_spec (ae_rec b) ++ r_data (ae_rec b) = [] -> ae_tail a = [] -> (ae_tail b = [] \/ white_lines (ae_tail b)) ->
  (forall i e, nth_error seen i = Some e -> good_aentry fuel o M (prog i) e) ->
  (forall e, In e pre \/ In e suf -> white_lines (ae_tail e)) ->
  lo_ensure o = false -> known <> Some FWarc -> (List.length seen < n)%nat ->
  exists obs, run_iter (zl:=zl) fuel he o n prog 0 (iter_new (mk_raw (ae_texts file) p sched) block known) = (obs, EndStop)
    /\ List.length obs = List.length seen
    /\ forall i e ob, nth_error seen i = Some e -> nth_error obs i = Some ob ->
         arc_observed o (ae_rec e) (ae_http e) (ae_payload e)
           (p + ae_position (if (i <=? List.length pre)%nat then i else S i) file) (lenZ (arc_bytes (ae_rec e))) (prog i) ob.
Proof.
intros zl fuel he o M prog p pre a b suf sched block known n file seen Hz Hb Hfit HM Hfu Hwb Hbe Hta Htb Hgood Hw Hen Hk Hn.
set (a' := mk_aentry (ae_rec a) (ae_text b) (ae_http a) (ae_payload a)).
set (es := pre ++ a' :: suf).
assert (Eb : ae_text b = r_line (ae_rec b) ++ ae_tail b) by (unfold ae_text, arc_bytes; now rewrite Hbe, app_nil_r).
assert (Ea : ae_text a' = ae_text a ++ ae_text b) by (unfold ae_text at 1 2; cbn [a' ae_rec ae_tail]; now rewrite Hta, app_nil_r).
assert (Et : ae_texts es = ae_texts file).
{ unfold es, file, ae_texts. rewrite !map_app, !concat_app. cbn [map concat]. rewrite Ea. now rewrite <- app_assoc. }
assert (Hls : forall t, white_lines t -> loose t).
{ intros t (H & c & ->). unfold loose. apply forallb_forall. intros x Hx. apply H. rewrite <- (take_drop_line (c ++ [LF])). apply in_or_app. now right. }
destruct (arc_loose (zl:=zl) fuel he o M prog p es sched block known n) as (obs & E & Hl & Hob); auto.
{ now rewrite Et. }
{ intros i e Hi. destruct (Nat.eq_dec i (List.length pre)) as [->|Hne].
  - unfold es in Hi. rewrite nth_error_app2, Nat.sub_diag in Hi by lia. injection Hi as <-.
    split; [|cbn [a' ae_tail]; split].
    + specialize (Hgood (List.length pre) a). unfold seen in Hgood. rewrite nth_error_app2, Nat.sub_diag in Hgood by lia. exact (Hgood eq_refl).
    + rewrite Eb. destruct Hwb as (_ & Hline & _). unfold loose. rewrite (proj2 (is_line_take _ (ae_tail b) Hline)).
      destruct Htb as [->|[Hwh _]]; [reflexivity|]. now apply forallb_forall.
    + left. rewrite Eb. destruct Hwb as (_ & (l & _ & ->) & _). destruct Htb as [->|[_ (c & ->)]].
      * exists l. now rewrite app_nil_r.
      * exists ((l ++ [LF]) ++ c). apply app_assoc.
  - assert (He : nth_error seen i = Some e /\ (In e pre \/ In e suf)).
    { unfold es, seen in *. destruct (Nat.lt_ge_cases i (List.length pre)) as [Hlt|Hge].
      - rewrite nth_error_app1 in * by lia. split; [exact Hi|left]. exact (nth_error_In _ _ Hi).
      - rewrite nth_error_app2 in * by lia. destruct (i - List.length pre)%nat eqn:Ej; [lia|]. cbn [nth_error] in *. split; [exact Hi|right]. exact (nth_error_In _ _ Hi). }
    destruct He as [He Hin]. split; [now apply Hgood|]. specialize (Hw e Hin). split; [now apply Hls|left]. now destruct Hw. }
{ unfold es, seen in *. rewrite app_length in *. exact Hn. }
rewrite Et in E. exists obs. split; [exact E|]. split; [rewrite Hl; unfold es, seen; now rewrite !app_length|].
intros i e ob Hi Hi'.
assert (Hp : ae_position i es = ae_position (if (i <=? List.length pre)%nat then i else S i) file).
{ unfold ae_position. f_equal. unfold es, file. destruct (i <=? List.length pre)%nat eqn:Ei.
  - rewrite !firstn_app. replace (i - List.length pre)%nat with 0%nat by lia. reflexivity.
  - rewrite !firstn_app, (firstn_all2 (n := i)), (firstn_all2 (n := S i)) by lia. destruct (i - List.length pre)%nat as [|j] eqn:Ej; [lia|]. replace (S i - List.length pre)%nat with (S (S j)) by lia.
    unfold ae_texts. rewrite !map_app, !concat_app. cbn [firstn map concat]. rewrite Ea. rewrite <- app_assoc. reflexivity. }
rewrite <- Hp. destruct (Nat.eq_dec i (List.length pre)) as [->|Hne].
- unfold seen in Hi. rewrite nth_error_app2, Nat.sub_diag in Hi by lia. injection Hi as <-.
  apply (Hob (List.length pre) a' ob); [|exact Hi']. unfold es. rewrite nth_error_app2, Nat.sub_diag by lia. reflexivity.
- apply (Hob i e ob); [|exact Hi']. unfold es, seen in *. destruct (Nat.lt_ge_cases i (List.length pre)) as [Hlt|Hge].
  + now rewrite nth_error_app1 in * by lia.
  + rewrite nth_error_app2 in * by lia. destruct (i - List.length pre)%nat eqn:Ej; [lia|]. exact Hi.
Qed.
