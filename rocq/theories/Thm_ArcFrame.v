(** * Thm_ArcFrame: proofs of the theorems restated in Props_ArcFrame.v *)
From Coq Require Import String List ZArith NArith Bool Lia.
From Verif Require Import PyBase Headers Streams StreamSpec Loader Iterator WriterSpec IterSpec TermSpec IndepSpec FrameSpec ArcSpec Toy.
Import ListNotations.
Open Scope Z_scope.

From Verif Require Import HeaderSpec HeaderProofs Facts AdvProofs FrameProofs Thm_Indep Thm_Arc Thm_Frame.

(** the loop with parsing of HTTP headers, when nothing stands in the way (C85_complete); the
    options may also say that HTTP headers are not parsed *)
Lemma lift_framed {zl : zenv} he o data pos sched block known osa :
  lo_check o = KFalse -> lo_verify o = false ->
  let it := @iter_new zl (mk_raw data pos sched) block known in
  loop_ends he (with_norec true o) read_all it osa EndStop ->
  (forall a, In a osa -> exists x, ob_reads a = [Ok x] /\ rc_plen (ob_record a) = -1) ->
  (forall a, In a osa -> holds_http a -> target_of a <> None /\ ob_reads a <> [Ok []]) ->
  exists osb, loop_ends he o read_all it osb EndStop /\ Forall2 (framed o) osa osb.
Proof.
  intros Hc Hv it HL Hsingle Hh. destruct (lo_norec o) eqn:En.
  - exists osa. split; [rewrite <- (with_norec_id o), En; exact HL|]. clear - Hsingle.
    induction osa as [|a l IH]; [constructor|]. constructor; [|apply IH; intros y Hy; apply Hsingle; now right].
    destruct (Hsingle a (or_introl eq_refl)) as (x & A1 & A2). constructor; try reflexivity.
    exists [], x. split; [exact A1|]. split; [exact A1|]. split; [reflexivity|now left].
  - destruct (two (zl:=zl) he o (mk_raw data pos sched) block known Hc) as (osa' & ena' & osb & enb & A & B & ca & cb & ra & rb & E1 & E2 & HF & HP).
    pose proof (conv2_uniq _ _ _ HL A) as Q. injection Q as <- <-.
    destruct (joined (zl:=zl) o osa EndStop osb enb ca cb ra rb Hv) as [F <-]; try assumption; [discriminate|].
    exists osb. split; [rewrite <- (with_norec_id o), En; exact B|exact F].
Qed.

Definition aent (p : arec * bytes) : aentry := mk_aentry (fst p) (snd p) None (r_data (fst p)).
Lemma good_aent fuel o r tl : wf_arec r ->
  good_aentry fuel (with_norec true o) 0 [URead None] (aent (r, tl)).
Proof.
  intros H1. split; [exact H1|]. split; [now split|]. split; [discriminate|].
  split; (constructor; [exact Logic.I|constructor]).
Qed.
Lemma texts_aent rs : ae_texts (map aent rs) = List.concat (map (fun p => arc_bytes (fst p) ++ snd p) rs).
Proof. unfold ae_texts. rewrite map_map. reflexivity. Qed.

(** from the observations without to those with HTTP headers *)
Lemma arc_lift {zl : zenv} he o data pos sched block known osa (P : nat -> arec -> Z -> Z -> Prop) :
  lo_check o = KFalse -> lo_verify o = false ->
  let it := @iter_new zl (mk_raw data pos sched) block known in
  loop_ends he (with_norec true o) read_all it osa EndStop ->
  (forall i a, nth_error osa i = Some a -> exists r off len, P i r off len) ->
  (forall i r off len a, P i r off len -> nth_error osa i = Some a ->
     arc_observed (with_norec true o) r None (r_data r) off len [URead None] a) ->
  exists os, loop_ends he o read_all it os EndStop /\ List.length os = List.length osa
    /\ (forall i r off len ob, P i r off len -> nth_error os i = Some ob -> arc_found o r off len ob)
    /\ forall prog, plain_prog prog -> exists oc, loop_ends he o prog it oc EndStop /\ Forall2 agree os oc.
Proof.
  intros Hc Hv it HL Hex Hob.
  destruct (lift_framed (zl:=zl) he o data pos sched block known osa Hc Hv HL) as (os & B & HF).
  - intros a Ha. apply In_nth_error in Ha as (i & Ea). destruct (Hex i a Ea) as (r & off & len & HP).
    pose proof (Hob i r off len a HP Ea) as H. destruct H. exists (r_data r). now split.
  - intros a Ha [K1 K2]. apply In_nth_error in Ha as (i & Ea). destruct (Hex i a Ea) as (r & off & len & HP).
    pose proof (Hob i r off len a HP Ea) as H. destruct H. cbn [with_norec lo_a2w] in *.
    assert (r_data r <> []) as Hne. { intros Q. apply K2. rewrite ao_length, Q. reflexivity. }
    split; [|rewrite ao_data; intros Q; injection Q as Q; now apply Hne].
    assert (Hfd : ~ filedesc (r_fields r)).
    { intros Hfd. destruct (lo_a2w o) eqn:Ea2.
      - destruct (ao_warc eq_refl) as (_ & _ & X & _). rewrite (X Hfd) in K1. discriminate.
      - destruct (ao_native eq_refl) as (_ & _ & _ & X & _). rewrite (X Hfd) in K1. discriminate. }
    unfold target_of. destruct (lo_a2w o) eqn:Ea2.
    + destruct (ao_warc eq_refl) as (-> & (iso & uri & _ & X) & _). destruct X as (_ & Y). unfold get_header. rewrite (Y Hfd). discriminate.
    + destruct (ao_native eq_refl) as (-> & X & _). unfold get_header. rewrite X. discriminate.
  - exists os. split; [exact B|]. split; [symmetry; exact (Forall2_len _ _ _ HF)|]. split; [|exact (any_prog he o _ block known _ EndStop Hc B)].
    intros i r off len ob HP E. destruct (Forall2_at _ _ _ _ _ HF E) as (a & Ea & HFr). pose proof (Hob i r off len a HP Ea) as H.
    destruct H, HFr. cbn [with_norec lo_a2w lo_uuid] in *. destruct fr_reads as (hd & body & Q1 & Q2 & Q3 & Q4).
    constructor.
    + rewrite <- fr_format, <- fr_headers, <- fr_ctype, <- fr_type. exact ao_native.
    + rewrite <- fr_format, <- fr_headers, <- fr_type. exact ao_warc.
    + congruence.
    + congruence.
    + congruence.
    + exists hd, body. assert (r_data r = hd ++ body) as Qb. { rewrite Q1 in ao_data. injection ao_data as Q. now symmetry. }
      split; [exact Qb|]. split; [exact Q2|]. split; [exact Q3|].
      destruct Q4 as [Q4|(n & Q4 & Q5)]; [now left|]. right. rewrite Q5. rewrite <- fr_length, ao_length in Q4. injection Q4 as <-.
      rewrite Qb. unfold lenZ. rewrite app_length. lia.
Qed.

Lemma C75_framing_pf :
  forall (zl : zenv) he o (rs : list (arec * bytes)) sched block known,
gz_magic zl -> first_two block sched -> known <> Some FWarc ->
lo_check o = KFalse -> lo_verify o = false -> lo_ensure o = false ->
(forall i r tl, nth_error rs i = Some (r, tl) -> wf_arec r
   /\ white tl /\ (white_lines tl \/ S i = List.length rs)) ->
let data := List.concat (map (fun p => arc_bytes (fst p) ++ snd p) rs) in
let off i := lenZ (List.concat (map (fun p => arc_bytes (fst p) ++ snd p) (firstn i rs))) in
let it := @iter_new zl (raw_open data sched) block known in
exists os, loop_ends he o read_all it os EndStop /\ List.length os = List.length rs
  /\ (forall i r tl ob, nth_error rs i = Some (r, tl) -> nth_error os i = Some ob -> arc_found o r (off i) (lenZ (arc_bytes r)) ob)
  /\ forall prog, plain_prog prog -> exists oc, loop_ends he o prog it oc EndStop /\ Forall2 agree os oc.
Proof.
intros zl he o rs sched block known Hz H2 Hk Hc Hv He Hrs data off it.
destruct (two (zl:=zl) he o (raw_open data sched) block known Hc) as (os1 & en1 & _ & _ & HL & _). fold it in HL. pose proof HL as [N HN].
destruct (C75_iterate_partial_pf zl (Nat.max N (List.length data + 3)) he (with_norec true o) 0 read_all 0 (map aent rs) sched block known
   (Nat.max N (S (List.length rs)))) as (obs & E & L & O); try assumption; try reflexivity.
- left. discriminate.
- rewrite texts_aent. apply Nat.le_max_r.
- intros i e Ei. rewrite nth_error_map in Ei. destruct (nth_error rs i) as [[r tl]|] eqn:Er; [|discriminate]. injection Ei as <-.
  destruct (Hrs i r tl Er) as (W1 & W3 & W4). split; [now apply good_aent|]. rewrite map_length. now split.
- rewrite map_length. lia.
- rewrite map_length, texts_aent in *. change (mk_raw (List.concat (map (fun p => arc_bytes (fst p) ++ snd p) rs)) 0 sched) with (raw_open data sched) in E.
  fold it in E. rewrite HN in E by lia. injection E as -> ->.
  destruct (arc_lift (zl:=zl) he o data 0 sched block known obs
     (fun i r p l => exists tl, nth_error rs i = Some (r, tl) /\ p = off i /\ l = lenZ (arc_bytes r)) Hc Hv HL) as (os & A1 & A2 & A3 & A4).
  + intros i a Ea. assert (i < List.length obs)%nat as Hi by (apply nth_error_Some; congruence).
    destruct (nth_error rs i) as [[r tl]|] eqn:Er; [|apply nth_error_None in Er; lia]. eexists r, _, _, tl. now repeat split.
  + intros i r p l a (tl & Er & -> & ->) Ea. specialize (O i (aent (r, tl)) a). cbn [aent ae_rec ae_http ae_payload fst snd] in O.
    replace (off i) with (0 + ae_position i (map aent rs)); [apply O; [now rewrite nth_error_map, Er|exact Ea]|].
    unfold ae_position. rewrite firstn_map, texts_aent. reflexivity.
  + exists os. split; [exact A1|]. split; [congruence|]. split; [|exact A4]. intros i r tl ob Er Eo. apply (A3 i); [now exists tl|exact Eo].
Qed.

Lemma C75_framing_gzip_pf :
  forall (zl : zenv) he o (rs : list (arec * bytes * bytes)) sched block known,
rs <> [] -> 0 < block -> known <> Some FWarc ->
lo_check o = KFalse -> lo_verify o = false -> lo_ensure o = false ->
(forall r tl m, In (r, tl, m) rs -> wf_arec r
   /\ white tl /\ is_member zl m (arc_bytes r ++ tl)) ->
let data := List.concat (map snd rs) in
let off i := lenZ (List.concat (map snd (firstn i rs))) in
let it := @iter_new zl (raw_open data sched) block known in
exists os, loop_ends he o read_all it os EndStop /\ List.length os = List.length rs
  /\ (forall i r tl m ob, nth_error rs i = Some (r, tl, m) -> nth_error os i = Some ob -> arc_found o r (off i) (lenZ m) ob)
  /\ forall prog, plain_prog prog -> exists oc, loop_ends he o prog it oc EndStop /\ Forall2 agree os oc.
Proof.
intros zl he o rs sched block known Hne Hb Hk Hc Hv He Hrs data off it.
set (g := fun p : arec * bytes * bytes => (aent (fst p), snd p)).
assert (forall l, agz_data (map g l) = List.concat (map snd l)) as Hdat.
{ intros l. unfold agz_data. rewrite map_map. reflexivity. }
assert (exists F, forall r tl m, In (r, tl, m) rs -> (List.length (arc_bytes r ++ tl) + 3 <= F)%nat) as [F HF].
{ clear. induction rs as [|[[w t] m] ms [F HF]]; [now exists O|]. exists (Nat.max (List.length (arc_bytes w ++ t) + 3) F).
  intros w' t' m' [Q|Hin]; [injection Q as <- <- <-; lia|]. specialize (HF _ _ _ Hin). lia. }
destruct (two (zl:=zl) he o (raw_open data sched) block known Hc) as (os1 & en1 & _ & _ & HL & _). fold it in HL. pose proof HL as [N HN].
destruct (C75_gzip_partial_pf zl (Nat.max N (Nat.max F (List.length data + 3))) he (with_norec true o) 0 read_all 0 (map g rs) sched block known
   (Nat.max N (S (List.length rs)))) as (obs & E & L & O); try assumption; try reflexivity.
- now destruct rs.
- left. discriminate.
- rewrite Hdat. unfold enough. fold data. lia.
- intros e m Hin. apply in_map_iff in Hin as ([[r tl] m'] & Q & Hin). injection Q as <- <-. specialize (HF _ _ _ Hin).
  unfold enough, ae_text. cbn [aent ae_rec ae_tail fst snd]. lia.
- intros i e m Ei. rewrite nth_error_map in Ei. destruct (nth_error rs i) as [[[r tl] m']|] eqn:Er; [|discriminate]. injection Ei as <- <-.
  destruct (Hrs r tl m' (nth_error_In _ _ Er)) as (W1 & W3 & W4). split; [now apply good_aent|]. now split.
- rewrite map_length. lia.
- rewrite map_length, Hdat in *. change (mk_raw (List.concat (map snd rs)) 0 sched) with (raw_open data sched) in E.
  fold it in E. rewrite HN in E by lia. injection E as -> ->.
  destruct (arc_lift (zl:=zl) he o data 0 sched block known obs
     (fun i r p l => exists tl m, nth_error rs i = Some (r, tl, m) /\ p = off i /\ l = lenZ m) Hc Hv HL) as (os & A1 & A2 & A3 & A4).
  + intros i a Ea. assert (i < List.length obs)%nat as Hi by (apply nth_error_Some; congruence).
    destruct (nth_error rs i) as [[[r tl] m]|] eqn:Er; [|apply nth_error_None in Er; lia]. eexists r, _, _, tl, m. now repeat split.
  + intros i r p l a (tl & m & Er & -> & ->) Ea. specialize (O i (aent (r, tl)) m a). cbn [aent ae_rec ae_http ae_payload fst snd] in O.
    replace (off i) with (0 + agz_position i (map g rs)); [apply O; [now rewrite nth_error_map, Er|exact Ea]|].
    unfold agz_position. rewrite firstn_map, Hdat. reflexivity.
  + exists os. split; [exact A1|]. split; [congruence|]. split; [|exact A4]. intros i r tl m ob Er Eo. apply (A3 i); [now exists tl, m|exact Eo].
Qed.
