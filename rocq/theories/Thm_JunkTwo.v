(** * Thm_JunkTwo: proofs of the theorems restated in Props_JunkTwo.v *)
From Coq Require Import String List ZArith NArith Bool Lia.
From Coq Require Import ZifyBool ZifyNat ZifyN.
From Verif Require Import PyBase Utf8 Codecs Headers HeaderSpec Streams StreamSpec DigestSpec Loader Iterator WriterSpec IterSpec ArcSpec Toy.
From Verif Require Thm_Iter Thm_Arc Thm_Junk.
Import ListNotations.
Open Scope Z_scope.

From Verif Require Import Facts HeaderProofs WriterProofs IterProofs ArcProofs JunkProofs.

(** a line that begins neither a WARC record nor an ARC record *)
Definition foreign (line t : str) : Prop :=
  text_line line t /\ no_trail is_uspace t /\ t <> [] /\ (exists c, In c line /\ is_bspace c = false)
  /\ (forall q r, In q WARC_TYPES -> upper t <> q ++ r) /\ (count_occ N.eq_dec t 32%N < 4)%nat.
Definition ex_xs : list (entry * bytes) :=
  List.combine Thm_Iter.ex_es [[13; 10]%N; lit "left over" ++ [10%N]].

Lemma failed_some (S : Type) (ops : sops S) (R : S -> bytes -> Prop) fuel he o known s1 c0 line t :
  exact_full_line ops R -> R s1 c0 -> foreign line t -> known <> Some FArc ->
  exists s', parse_record_stream ops fuel he o (Some (HBytes line)) known s1 = (Err ArchiveLoadFailed, s').
Proof.
intros HL HR1 ((ws & Ed & Hws) & Ht & Htn & _ & Hw & Ha) Hk.
assert (Hd : decode_header line <> []) by (rewrite Ed; destruct t; [contradiction|discriminate]).
assert (Harc : forall h, decode_hline h = decode_header line ->
          exists l s', arc_parse ops (lo_a2w o) (lo_uuid o) (Some h) s1 = (Err (ParserExn l), s')).
{ intros h Eh. destruct (arc_parse_line ops R HL (lo_a2w o) (lo_uuid o) h s1 c0 HR1) as (s2 & E & _); [now rewrite Eh|].
  rewrite E, Eh, Ed, (urstrip_text t ws Ht Hws). unfold parsed.
  assert (X : List.length (rsplit 32 4 t) <> 5%nat) by (rewrite rsplit_length; lia).
  destruct (lenZ (rsplit 32 4 t) =? 5) eqn:E5; [exfalso; apply X; unfold lenZ in E5; lia|]. cbn [negb]. eauto. }
assert (Pw : parse (o_readline ops None) fuel (mk_parser WARC_TYPES true) (Some (HBytes line)) s1 = (Err (ParserExn (decode_header line)), s1)).
{ unfold parse. cbn [decode_hline p_verify p_list].
  destruct (lenZ (decode_header line) =? 0) eqn:E0; [exfalso; apply Hd, lenZ_0; lia|].
  rewrite Ed, (urstrip_text t ws Ht Hws). destruct t as [|x t]; [contradiction|]. cbn [is_nil].
  rewrite (proj2 (split_prefix_None (x :: t) WARC_TYPES)); [reflexivity|]. intros q r Hq. exact (Hw q r Hq). }
unfold parse_record_stream, detect_type. destruct known as [[|]|].
- rewrite Pw. now exists s1.
- contradiction.
- rewrite Pw. destruct (Harc (HStr (decode_header line)) eq_refl) as (l & s' & E). rewrite E. now exists s'.
Qed.
Lemma text_starts line t c : foreign line t -> take_line c = line -> starts_text c.
Proof.
intros (_ & _ & _ & (x & Hx & Hb) & _) El. right. rewrite El. intros E.
assert (G : forall l, rstripp is_bspace l = [] -> forall y, In y l -> is_bspace y = true).
{ clear. induction l as [|a l IH]; intros H y []; cbn [rstripp] in H.
  - subst. destruct (rstripp is_bspace l); [destruct (is_bspace y); [reflexivity|discriminate]|discriminate].
  - destruct (rstripp is_bspace l) eqn:E; [now apply IH|discriminate]. }
rewrite (G line E x Hx) in Hb. discriminate.
Qed.

Lemma C109_second_line_refuted_pf :
  forall (zl : zenv) fuel he o M prog xs more t sched block known n,
  gz_magic zl -> first_two block sched -> reads_fit M block sched -> 0 <= M -> enough fuel (spaced xs ++ more) -> xs <> [] ->
  (forall k e t, nth_error xs k = Some (e, t) -> good_entry fuel he o M (prog k) e /\ Thm_Junk.stray t /\ exists a, t = a ++ [LF]) ->
  foreign (take_line more) t ->
  lo_ensure o = false -> known <> Some FArc -> (List.length xs < n)%nat ->
  exists obs, run_iter (zl:=zl) fuel he o n prog 0 (iter_new (raw_open (spaced xs ++ more) sched) block known) = (obs, EndExn ArchiveLoadFailed)
    /\ List.length obs = List.length xs
    /\ forall k e t ob, nth_error xs k = Some (e, t) -> nth_error obs k = Some ob ->
         observed he o (e_rec e) (e_http e) (e_payload e) (spaced_position k xs) (lenZ (bare_text e)) (prog k) ob.
Proof.
intros zl fuel he o M prog xs more t sched block known n Hz Hb Hfit HM Hfu Hne Hall Hfo Hoff Hk Hn.
set (it := fun x : entry * bytes => mk_item (zl:=zl) (i_core (entry_item (zl:=zl) he o (fst x))) (snd x) (e_payload (fst x))
      (verdict_at he o (e_rec (fst x)) (e_payload (fst x))) (warc_seen (e_rec (fst x)) (e_http (fst x)) (e_payload (fst x)))).
assert (Etx : forall l, i_texts (map it l) = spaced l).
{ intros l. unfold i_texts, spaced. f_equal. rewrite map_map. reflexivity. }
destruct (loose_start (zl:=zl) fuel he o M warc_known prog 0 (map it xs) more sched block known)
  as (obs & it' & E & Hl & Hob & Q & T & C0 & HRd & HPos & HDec & HNext & Hr & Hc0 & Ho); auto.
{ now rewrite Etx. }
{ apply Forall_forall. intros x Hx. apply in_map_iff in Hx as ([e u] & <- & He). apply In_nth_error in He as (i & Hi).
  destruct (Hall i e u Hi) as (Hg & _).
  destruct (entry_item_ok (zl:=zl) fuel he o (BufProofs.rl0 M) (prog i) e HM Hoff Hg) as (A & _ & B & C).
  split; [exact A|]. split; [exact B|exact C]. }
{ intros i x Hi. rewrite nth_error_map in Hi. destruct (nth_error xs i) as [[e u]|] eqn:En; [|discriminate]. injection Hi as <-.
  destruct (Hall i e u En) as ((_ & _ & _ & _ & _ & A & B) & _). now split. }
{ clear - Hall. revert prog Hall. induction xs as [|[e u] xs IH]; intros prog Hall; [exact Logic.I|]. cbn [map loose_ok i_tail snd it].
  destruct (Hall O e u eq_refl) as (_ & H1 & H2). split; [split; [now apply Thm_Junk.stray_loose|now left]|].
  apply (IH (fun k => prog (S k))). intros k e' u' Hi. exact (Hall (S k) e' u' Hi). }
{ eapply text_starts; [exact Hfo|reflexivity]. }
{ intros X. destruct xs; [contradiction|discriminate]. }
rewrite map_length in *. rewrite Etx in E. exists obs. split; [|split; [exact Hl|]].
- replace n with (List.length xs + Datatypes.S (n - List.length xs - 1))%nat by lia. unfold raw_open. rewrite E.
  cbn [run_iter]. erewrite (resume_next (zl:=zl)) by eassumption.
  destruct Hr as (((Hfu' & Hat) & Hoff' & G1 & G2 & G3) & Hph). destruct HRd as (HL & _).
  assert (Hkn : it_known it' <> Some FArc) by exact G1.
  replace (iter_loop fuel he o fuel it') with (iter_loop fuel he o (Datatypes.S (pred fuel)) it') by (f_equal; lia).
  cbn [iter_loop]. unfold next_record.
  assert (P : exists s', parse_record_stream (rops fuel) fuel he o (match it_next_line it' with Some l => Some (HBytes l) | None => None end)
               (it_known it') (it_reader it') = (Err ArchiveLoadFailed, s')).
  { destruct (it_next_line it') as [l|].
    - destruct Hat as (_ & -> & HQ). exact (failed_some _ (rops fuel) Q fuel he o _ _ _ _ t HL HQ Hfo Hkn).
    - destruct Hfo as (F1 & F2 & F3 & _ & F4 & F5).
      apply (Thm_Arc.C43_load_failed_pf _ (rops fuel) Q fuel he o (it_known it') (it_reader it') more t HL Hat F1 F2 F3); auto. }
  destruct P as (s' & ->). cbn. now rewrite app_nil_r.
- intros i e u ob Hi Hi'. assert (nth_error (map it xs) i = Some (it (e, u))) as Hi2 by now rewrite nth_error_map, Hi.
  pose proof (Hob i _ ob Hi2 Hi') as X. rewrite firstn_map, Etx in X. eapply warc_observed. exact X.
Qed.

Lemma C109_arc_partial_pf :
  forall (zl : zenv) fuel he o M prog p es sched block known n,
  gz_magic zl -> first_two block sched -> reads_fit M block sched -> 0 <= M -> enough fuel (ae_texts es) ->
  (forall i e, nth_error es i = Some e -> good_aentry fuel o M (prog i) e
     /\ Thm_Junk.stray (ae_tail e) /\ ((exists a, ae_tail e = a ++ [LF]) \/ S i = List.length es)) ->
  lo_ensure o = false -> known <> Some FWarc -> (List.length es < n)%nat ->
  exists obs, run_iter (zl:=zl) fuel he o n prog 0 (iter_new (mk_raw (ae_texts es) p sched) block known) = (obs, EndStop)
    /\ List.length obs = List.length es
    /\ forall i e ob, nth_error es i = Some e -> nth_error obs i = Some ob ->
         arc_observed o (ae_rec e) (ae_http e) (ae_payload e) (p + ae_position i es) (lenZ (arc_bytes (ae_rec e))) (prog i) ob.
Proof.
intros zl fuel he o M prog p es sched block known n Hz Hb Hfit HM Hfu Hall Hen Hk Hn.
apply (Thm_Junk.arc_loose fuel he o M); auto. intros i e Hi. destruct (Hall i e Hi) as (A & B & C). split; [exact A|]. split; [now apply Thm_Junk.stray_loose|exact C].
Qed.
