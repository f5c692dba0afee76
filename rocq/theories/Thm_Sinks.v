(** * Thm_Sinks: proofs of the theorems restated in Props_Sinks.v *)
From Coq Require Import String List ZArith NArith Bool.
From Verif Require Import PyBase Utf8 Codecs Headers HeaderSpec Streams StreamSpec Loader Writer WriterSpec RoundSpec Capture CaptureSpec Commands Sinks Toy CaptureToy HeaderProofs.
Import ListNotations.
Open Scope Z_scope.

From Coq Require Import Lia ZifyBool ZifyNat ZifyN.
From Verif Require Import Facts StreamProofs CaptureProofs Thm_Capture Thm_Commands.

(** the bytes that writing the record gives *)
Definition record_out (fuel : nat) (sha1 : bytes -> bytes) (k : kenv) (o : wopts) (r : wrec) : bytes :=
  concat (snd (fst (write_record fuel sha1 k o r))).
(** the records written, in order; the buffer is used without get_stream *)
Fixpoint outs_of (fuel : nat) (sha1 : bytes -> bytes) (k : kenv) (o : wopts) (xs : list bop) : bytes :=
  match xs with
  | [] => []
  | BRecord r :: t => record_out fuel sha1 k o r ++ outs_of fuel sha1 k o t
  | _ :: t => outs_of fuel sha1 k o t
  end.
Definition no_stream (x : bop) : Prop := match x with BRecord _ | BContents => True | _ => False end.
(** reads of sizes that are absent or not negative *)
Definition reads (ns : list (option Z)) : list bop := map BRead ns.
Definition size_ok (n : option Z) : Prop := match n with Some m => 0 <= m | None => True end.

Lemma taken_all (d : bytes) : takeZ (lenZ d) d = d. Proof. rewrite <- (app_nil_r d) at 2. apply takeZ_app_exact. Qed.
Lemma dropped_all (d : bytes) n : lenZ d <= n -> dropZ n d = []. Proof. apply dropZ_all. Qed.
Lemma write_end d b : tmp_write b (mk_tmp d (lenZ d)) = mk_tmp (d ++ b) (lenZ (d ++ b)).
Proof. unfold tmp_write. cbn [tmp_data tmp_pos]. rewrite taken_all, dropped_all by (pose proof (lenZ_nonneg b); lia). rewrite app_nil_r, lenZ_app. reflexivity. Qed.
Lemma writes_end : forall ws d, tmp_writes ws (mk_tmp d (lenZ d)) = mk_tmp (d ++ concat ws) (lenZ (d ++ concat ws)).
Proof. induction ws as [|b t IH]; intros d; cbn [tmp_writes concat]; [now rewrite app_nil_r|]. rewrite write_end, IH. now rewrite <- app_assoc. Qed.
Lemma contents_any f : get_contents f = (tmp_data f, f).
Proof. destruct f as [d p]. unfold get_contents, tmp_read, tmp_seek. cbn [tmp_data tmp_pos]. rewrite dropZ_0 by lia. reflexivity. Qed.
Lemma steps_app fuel sha1 k o a : forall b f, bsteps fuel sha1 k o (a ++ b) f =
  let (x, f1) := bsteps fuel sha1 k o a f in let (y, f2) := bsteps fuel sha1 k o b f1 in (x ++ y, f2).
Proof.
  induction a as [|x a IH]; intros b f; cbn [app bsteps]; [now destruct (bsteps _ _ _ _ b f)|].
  destruct (bstep _ _ _ _ x f) as [y f1]. rewrite IH. destruct (bsteps _ _ _ _ a f1) as [ys f2]. now destruct (bsteps _ _ _ _ b f2).
Qed.
Lemma steps_end fuel sha1 k o : forall xs d, Forall no_stream xs ->
  snd (bsteps fuel sha1 k o xs (mk_tmp d (lenZ d))) = mk_tmp (d ++ outs_of fuel sha1 k o xs) (lenZ (d ++ outs_of fuel sha1 k o xs)).
Proof.
  induction xs as [|x t IH]; intros d H; cbn [bsteps outs_of]; [now rewrite app_nil_r|]. inversion H as [|? ? H1 H2]; subst. destruct x as [r| | |]; try contradiction.
  - cbn [bstep]. unfold record_out. destruct (write_record fuel sha1 k o r) as [[y ws] r']. cbn [fst snd]. rewrite writes_end. specialize (IH (d ++ concat ws) H2).
    destruct (bsteps _ _ _ _ t _) as [bs f]. cbn [snd] in *. now rewrite IH, <- app_assoc.
  - cbn [bstep]. rewrite contents_any. specialize (IH d H2). destruct (bsteps _ _ _ _ t _) as [bs f]. exact IH.
Qed.

Lemma C106_contents_pf :
  forall fuel sha1 k o before after, Forall no_stream before -> Forall no_stream after ->
  exists bs1 bs2 f, bsteps fuel sha1 k o (before ++ BContents :: after) tmp_new = (bs1 ++ outs_of fuel sha1 k o before :: bs2, f)
    /\ List.length bs1 = List.length before
    /\ tmp_data f = outs_of fuel sha1 k o before ++ outs_of fuel sha1 k o after.
Proof.
intros fuel sha1 k o before after H1 H2. rewrite steps_app. pose proof (steps_end fuel sha1 k o before [] H1) as E1. change (mk_tmp [] (lenZ [])) with tmp_new in E1.
assert (L : List.length (fst (bsteps fuel sha1 k o before tmp_new)) = List.length before).
{ clear. generalize tmp_new. induction before as [|x t IH]; intros f; [reflexivity|]. cbn [bsteps]. destruct (bstep _ _ _ _ x f) as [b f1]. specialize (IH f1). destruct (bsteps _ _ _ _ t f1). cbn in *. now rewrite IH. }
destruct (bsteps fuel sha1 k o before tmp_new) as [bs1 f1]. cbn [fst snd app] in *. subst f1. cbn [bsteps bstep]. rewrite contents_any. cbn [tmp_data].
pose proof (steps_end fuel sha1 k o after (outs_of fuel sha1 k o before) H2) as E2. destruct (bsteps _ _ _ _ after _) as [bs2 f2]. cbn [snd] in E2. subst f2.
exists bs1, bs2. eexists. split; [reflexivity|]. split; [exact L|reflexivity].
Qed.

Lemma read_some n f b f' : size_ok n -> 0 <= tmp_pos f <= lenZ (tmp_data f) -> tmp_read n f = (b, f') ->
  tmp_data f' = tmp_data f /\ tmp_pos f' = tmp_pos f + lenZ b /\ takeZ (tmp_pos f') (tmp_data f) = takeZ (tmp_pos f) (tmp_data f) ++ b /\ 0 <= tmp_pos f' <= lenZ (tmp_data f')
  /\ (n = None -> tmp_pos f' = lenZ (tmp_data f)).
Proof.
  destruct f as [d p]. unfold tmp_read. cbn [tmp_data tmp_pos]. intros Hn Hp [= <- <-]. cbn [tmp_data tmp_pos].
  set (b := match n with Some m => takeZ m (dropZ p d) | None => dropZ p d end).
  assert (Hb : exists c, dropZ p d = b ++ c). { unfold b. destruct n as [m|]; [exists (dropZ m (dropZ p d)); now rewrite takeZ_dropZ|exists []; now rewrite app_nil_r]. }
  destruct Hb as [c Hc]. pose proof (takeZ_dropZ p d) as E. rewrite Hc in E.
  assert (Lp : lenZ (takeZ p d) = p) by (rewrite lenZ_takeZ by lia; lia).
  split; [reflexivity|]. split; [reflexivity|]. split; [|split].
  - rewrite <- E at 1. rewrite app_assoc. replace (p + lenZ b) with (lenZ (takeZ p d ++ b)) by (rewrite lenZ_app; lia). apply takeZ_app_exact.
  - rewrite <- E at 1. rewrite !lenZ_app, Lp. pose proof (lenZ_nonneg b). pose proof (lenZ_nonneg c). lia.
  - intros ->. assert (c = []) by (apply (f_equal (@List.length N)) in Hc; rewrite app_length in Hc; unfold b in Hc; destruct c; [reflexivity|cbn in Hc; lia]). subst c.
    apply (f_equal lenZ) in E. rewrite !lenZ_app, Lp in E. change (lenZ []) with 0 in E. lia.
Qed.

Lemma C106_stream_pf :
  forall fuel sha1 k o xs ns, Forall no_stream xs -> Forall size_ok ns ->
  exists bs0 bs f, bsteps fuel sha1 k o (xs ++ BStream :: reads ns) tmp_new = (bs0 ++ bs, f)
    /\ List.length bs0 = S (List.length xs)
    /\ (exists rest, outs_of fuel sha1 k o xs = concat bs ++ rest /\ (In None ns -> rest = []))
    /\ get_contents f = (outs_of fuel sha1 k o xs, f).
Proof.
intros fuel sha1 k o xs ns H1 H2. rewrite steps_app. pose proof (steps_end fuel sha1 k o xs [] H1) as E1. change (mk_tmp [] (lenZ [])) with tmp_new in E1.
assert (L : List.length (fst (bsteps fuel sha1 k o xs tmp_new)) = List.length xs).
{ clear. generalize tmp_new. induction xs as [|x t IH]; intros f; [reflexivity|]. cbn [bsteps]. destruct (bstep _ _ _ _ x f) as [b f1]. specialize (IH f1). destruct (bsteps _ _ _ _ t f1). cbn in *. now rewrite IH. }
destruct (bsteps fuel sha1 k o xs tmp_new) as [bs0 f1]. cbn [fst snd app] in *. subst f1. cbn [bsteps bstep]. unfold get_stream, tmp_seek. cbn [tmp_data].
set (d := outs_of fuel sha1 k o xs). clearbody d. clear H1.
assert (G : forall ns, Forall size_ok ns -> forall p, 0 <= p <= lenZ d -> exists bs q, bsteps fuel sha1 k o (reads ns) (mk_tmp d p) = (bs, mk_tmp d q)
   /\ takeZ q d = takeZ p d ++ concat bs /\ p <= q <= lenZ d /\ (In None ns -> q = lenZ d)).
{ clear. induction ns as [|n t IH]; intros HF p Hp; cbn [reads map bsteps].
  - exists [], p. cbn [concat]. rewrite app_nil_r. split; [reflexivity|]. split; [reflexivity|]. split; [lia|intros []].
  - inversion HF as [|? ? F1 F2]; subst. cbn [bstep]. destruct (tmp_read n (mk_tmp d p)) as [b f] eqn:E. destruct (read_some n (mk_tmp d p) b f F1 Hp E) as (A & B & C & D & N). cbn [tmp_data tmp_pos] in *.
    destruct f as [d' p']. cbn [tmp_data tmp_pos] in *. subst d'. destruct (IH F2 p' D) as (bs & q & E2 & T & R & NN). fold (reads t). rewrite E2. exists (b :: bs), q. split; [reflexivity|].
    split; [cbn [concat]; now rewrite T, C, app_assoc|]. split; [pose proof (lenZ_nonneg b); lia|]. intros [->|HI]; [specialize (N eq_refl); lia|auto]. }
destruct (G ns H2 0) as (bs & q & E & T & R & N); [pose proof (lenZ_nonneg d); lia|]. rewrite E. rewrite (takeZ_0 0) in T by lia. cbn [app] in T.
exists (bs0 ++ [[]]), bs, (mk_tmp d q). split; [now rewrite <- app_assoc|]. split; [rewrite app_length; cbn; lia|]. split; [|apply contents_any].
exists (dropZ q d). split; [rewrite <- T; symmetry; apply takeZ_dropZ|]. intros HI. apply dropped_all. rewrite (N HI). lia.
Qed.

Lemma C106_resume_pf :
  forall fuel sha1 k o xs after, Forall no_stream xs -> Forall no_stream after ->
  tmp_data (snd (bsteps fuel sha1 k o (xs ++ BStream :: BRead None :: after) tmp_new)) = outs_of fuel sha1 k o xs ++ outs_of fuel sha1 k o after.
Proof.
intros fuel sha1 k o xs after H1 H2. rewrite steps_app. pose proof (steps_end fuel sha1 k o xs [] H1) as E1. change (mk_tmp [] (lenZ [])) with tmp_new in E1.
destruct (bsteps fuel sha1 k o xs tmp_new) as [bs0 f1]. cbn [fst snd app] in *. subst f1. cbn [bsteps bstep]. unfold get_stream, tmp_seek, tmp_read. cbn [tmp_data tmp_pos]. rewrite dropZ_0 by lia. rewrite Z.add_0_l.
pose proof (steps_end fuel sha1 k o after (outs_of fuel sha1 k o xs) H2) as E2. destruct (bsteps _ _ _ _ after _) as [bs2 f2]. cbn [snd] in *. now rewrite E2.
Qed.

Lemma writes_over : forall ws a d, lenZ (concat ws) <= lenZ d -> tmp_writes ws (mk_tmp (a ++ d) (lenZ a)) = mk_tmp (a ++ concat ws ++ dropZ (lenZ (concat ws)) d) (lenZ (a ++ concat ws)).
Proof.
  induction ws as [|b t IH]; intros a d H; cbn [tmp_writes concat]; [cbn [app]; rewrite (dropZ_0 (lenZ (@nil N))) by (cbn; lia); now rewrite app_nil_r|].
  cbn [concat] in H. rewrite lenZ_app in H. pose proof (lenZ_nonneg b). pose proof (lenZ_nonneg (concat t)).
  unfold tmp_write. cbn [tmp_data tmp_pos]. rewrite takeZ_app_exact. replace (dropZ (lenZ a + lenZ b) (a ++ d)) with (dropZ (lenZ b) d).
  2: { pose proof (lenZ_nonneg a). rewrite Z.add_comm, <- dropZ_dropZ by lia. now rewrite dropZ_app_exact. }
  rewrite app_assoc. replace (lenZ a + lenZ b) with (lenZ (a ++ b)) by apply lenZ_app. rewrite IH.
  - rewrite <- !app_assoc. f_equal. rewrite lenZ_app. rewrite dropZ_dropZ by lia. now rewrite Z.add_comm.
  - rewrite lenZ_dropZ by lia. lia.
Qed.

Lemma C106_overwrite_refuted_pf :
  forall fuel sha1 k o xs r, Forall no_stream xs ->
  let old := outs_of fuel sha1 k o xs in let new := record_out fuel sha1 k o r in
  0 < lenZ new <= lenZ old ->
  tmp_data (snd (bsteps fuel sha1 k o (xs ++ [BStream; BRecord r]) tmp_new)) = new ++ dropZ (lenZ new) old
  /\ new ++ dropZ (lenZ new) old <> old ++ new.
Proof.
intros fuel sha1 k o xs r H1 old new HL. rewrite steps_app. pose proof (steps_end fuel sha1 k o xs [] H1) as E1. change (mk_tmp [] (lenZ [])) with tmp_new in E1.
destruct (bsteps fuel sha1 k o xs tmp_new) as [bs0 f1]. cbn [fst snd app] in *. subst f1. cbn [bsteps bstep]. unfold get_stream, tmp_seek. cbn [tmp_data].
unfold new, record_out in *. destruct (write_record fuel sha1 k o r) as [[y ws] r']. cbn [fst snd] in *. fold old. split.
- change 0 with (lenZ (@nil N)). change old with ([] ++ old) at 1. rewrite writes_over by lia. reflexivity.
- intros X. apply (f_equal lenZ) in X. rewrite !lenZ_app, lenZ_dropZ in X by lia. lia.
Qed.

Lemma run_prefix fuel sha1 k old : forall ops w1 w2 d, wd_recs w1 = wd_recs w2 -> wd_conns w1 = wd_conns w2 -> wd_local w1 = wd_local w2 -> wd_outs w1 = [old ++ d] -> wd_outs w2 = [d] ->
  exists d', fst (run fuel sha1 k ops w1) = fst (run fuel sha1 k ops w2) /\ wd_outs (snd (run fuel sha1 k ops w1)) = [old ++ d'] /\ wd_outs (snd (run fuel sha1 k ops w2)) = [d'].
Proof.
  induction ops as [|o t IH]; intros w1 w2 d R C L O1 O2; [exists d; now repeat split|]. cbn [run].
  assert (G : exists d', fst (step fuel sha1 k o w1) = fst (step fuel sha1 k o w2) /\ wd_recs (snd (step fuel sha1 k o w1)) = wd_recs (snd (step fuel sha1 k o w2))
     /\ wd_conns (snd (step fuel sha1 k o w1)) = wd_conns (snd (step fuel sha1 k o w2)) /\ wd_local (snd (step fuel sha1 k o w1)) = wd_local (snd (step fuel sha1 k o w2))
     /\ wd_outs (snd (step fuel sha1 k o w1)) = [old ++ d'] /\ wd_outs (snd (step fuel sha1 k o w2)) = [d']).
  { destruct w1 as [r1 c1 l1 o1], w2 as [r2 c2 l2 o2]. cbn [wd_recs wd_conns wd_local wd_outs] in *. subst r2 c2 l2 o1 o2.
    unfold step. destruct o; cbn [conn_of wd_recs wd_conns wd_local wd_outs fst snd]; try (exists d; now repeat split).
    all: destruct (nth_error c1 c) as [x|]; [|exists d; now repeat split].
    all: match goal with |- context [match ?M with Some _ => _ | None => _ end] => destruct M as [[j [cf r]]|] end; [|exists d; now repeat split].
    all: destruct (rstep fuel sha1 k cf _ r x) as [[y ws] [r' x']]; cbn [fst snd wd_recs wd_conns wd_local wd_outs].
    all: destruct (cf_writer cf) as [|i]; [exists (d ++ concat ws)|exists d]; cbn [nth set_nth]; rewrite ?app_assoc; destruct i || idtac; now repeat split. }
  destruct G as (d1 & A & B & D & E & F & H). destruct (step fuel sha1 k o w1) as [y1 v1], (step fuel sha1 k o w2) as [y2 v2]. cbn [fst snd] in *. subst y2.
  destruct (IH v1 v2 d1 B D E F H) as (d2 & P & Q & S). destruct (run fuel sha1 k t v1) as [z1 u1], (run fuel sha1 k t v2) as [z2 u2]. cbn [fst snd] in *. subst z2. exists d2. now repeat split.
Qed.

Lemma C107_append_pf :
  forall fuel sha1 k can_write fs fs0 name gzip opts flt ip t ops old,
  can_write name = true -> fs name = Some old -> fs0 name = None ->
  exists xs new fs' fs0',
    capture_file fuel sha1 k can_write fs name true gzip opts flt ip t ops = Some (xs, fs')
    /\ capture_file fuel sha1 k can_write fs0 name true gzip opts flt ip t ops = Some (xs, fs0')
    /\ fs0' name = Some new /\ fs' name = Some (old ++ new)
    /\ forall x, x <> name -> fs' x = fs x /\ fs0' x = fs0 x.
Proof.
intros fuel sha1 k can_write fs fs0 name gzip opts flt ip t ops old HW H H0. unfold capture_file, open_target. rewrite HW, H, H0. cbn [negb]. cbv beta iota.
set (all := Enter t _ :: ops ++ [Exit t]). destruct (run_prefix fuel sha1 k old all (mk_world [] [] [] [old]) (mk_world [] [] [] [[]]) []) as (d & A & B & C); try reflexivity; [cbn; now rewrite app_nil_r|].
destruct (run fuel sha1 k all (mk_world [] [] [] [old])) as [x1 w1], (run fuel sha1 k all (mk_world [] [] [] [[]])) as [x2 w2] eqn:R2. cbn [fst snd] in *. subst x2.
exists x1, d. do 2 eexists. split; [reflexivity|]. split; [exact (f_equal (fun z : list (res unit) * world => let (xs, w) := z in Some (xs, set_file name (nth 0 (wd_outs w) []) fs0)) R2)|]. unfold set_file. rewrite B, C. cbn [nth]. rewrite leqb_refl. split; [reflexivity|]. split; [reflexivity|]. intros x Hx.
assert (leqb x name = false) as -> by now apply leqb_neq. now split.
Qed.

Lemma C107_no_overwrite_pf :
  forall fuel sha1 k can_write fs name append gzip opts flt ip t ops,
  (forall xs fs', capture_file fuel sha1 k can_write fs name append gzip opts flt ip t ops = Some (xs, fs') ->
     forall x old, fs x = Some old -> exists new, fs' x = Some (old ++ new) /\ (x <> name \/ append = false -> new = []))
  /\ (append = false -> fs name <> None -> capture_file fuel sha1 k can_write fs name append gzip opts flt ip t ops = None).
Proof.
intros fuel sha1 k can_write fs name append gzip opts flt ip t ops. split.
- intros xs fs' H x old Hx. destruct (leqb x name) eqn:EX.
  + apply leqb_eq in EX. subst x. destruct append.
    * destruct (can_write name) eqn:HW; [|unfold capture_file, open_target in H; rewrite HW in H; discriminate].
      destruct (C107_append_pf fuel sha1 k can_write fs (fun _ => None) name gzip opts flt ip t ops old HW Hx eq_refl) as (ys & new & f1 & f2 & A & _ & _ & B & _).
      rewrite H in A. injection A as -> ->. exists new. split; [exact B|]. intros [X|X]; [now destruct X|discriminate].
    * unfold capture_file, open_target in H. rewrite Hx in H. now destruct (negb (can_write name)).
  + unfold capture_file in H. destruct (open_target can_write fs name append); [|discriminate]. destruct (run _ _ _ _ _) as [ys w]. injection H as _ <-. exists []. unfold set_file. rewrite EX, app_nil_r. split; [exact Hx|reflexivity].
- intros -> HN. unfold capture_file, open_target. destruct (fs name); [|contradiction]. now destruct (negb (can_write name)).
Qed.

Definition not_done (o : op) : Prop := match o with Done _ _ => False | _ => True end.
Lemma quiet fuel sha1 k : forall ops w, Forall not_done ops -> wd_outs (snd (run fuel sha1 k ops w)) = wd_outs w.
Proof.
  induction ops as [|o t IH]; intros w H; [reflexivity|]. inversion H as [|? ? H2 H3]; subst. cbn [run].
  assert (E : wd_outs (snd (step fuel sha1 k o w)) = wd_outs w).
  { destruct (conn_of o) as [i|] eqn:Ec; [|destruct o; try discriminate Ec; reflexivity].
    assert (X : step fuel sha1 k o w = match nth_error (wd_conns w) i with
            | None => (Ok tt, w)
            | Some c =>
                match match cn_rec c with Some j => option_map (fun x => (j, x)) (nth_error (wd_recs w) j) | None => None end with
                | None => (Ok tt, mk_world (wd_recs w) (set_nth i (plain_step o c) (wd_conns w)) (wd_local w) (wd_outs w))
                | Some (j, (cf, r)) =>
                    let '(x, ws, (r, c)) := rstep fuel sha1 k cf o r c in
                    (x, mk_world (set_nth j (cf, r) (wd_recs w)) (set_nth i c (wd_conns w)) (wd_local w)
                          (set_nth (cf_writer cf) (nth (cf_writer cf) (wd_outs w) [] ++ List.concat ws) (wd_outs w)))
                end
            end) by (destruct o; try discriminate Ec; injection Ec as ->; reflexivity).
    rewrite X. clear X. destruct (nth_error (wd_conns w) i) as [x|]; [|reflexivity].
    match goal with |- context [match ?M with Some _ => _ | None => _ end] => destruct M as [[j [cf r]]|]; [|reflexivity] end.
    assert (Y : exists y rc, rstep fuel sha1 k cf o r x = (y, [], rc)).
    { destruct o; try discriminate Ec; try (destruct H2; fail); cbn [rstep]; repeat match goal with |- context [let (_, _) := ?M in _] => destruct M as [? ?] end; do 2 eexists; reflexivity. }
    destruct Y as (y & [r2 x2] & ->). cbn [snd wd_outs concat]. apply Thm_Capture.set_same. }
  specialize (IH (snd (step fuel sha1 k o w)) H3). destruct (step fuel sha1 k o w) as [y v]. cbn [snd] in *. destruct (run fuel sha1 k t v) as [z u]. cbn [snd] in *. congruence.
Qed.
Lemma undist fuel sha1 k : forall ops w, Forall (fun o => conn_of o = Some 0%nat /\ traffic o) ops -> undisturbed fuel sha1 k 0 0 ops w.
Proof.
  induction ops as [|o t IH]; intros w H; [exact Logic.I|]. inversion H as [|? ? [H1 H2] H3]; subst. cbn [undisturbed]. split; [intros _; exact H2|]. split; [|now apply IH].
  intros i x E N. rewrite H1 in E. congruence.
Qed.
Lemma run_app_snd fuel sha1 k : forall a b w, snd (run fuel sha1 k (a ++ b) w) = snd (run fuel sha1 k b (snd (run fuel sha1 k a w))).
Proof.
  induction a as [|x a IH]; intros b w; [reflexivity|]. cbn [app run]. destruct (step fuel sha1 k x w) as [y v]. specialize (IH b v).
  destruct (run fuel sha1 k (a ++ b) v), (run fuel sha1 k a v). exact IH.
Qed.

Lemma C107_written_pf :
  forall fuel sha1 k can_write fs name append gzip opts flt ip t host port default mid st b rest verb path old,
  hash_bytes sha1 -> can_write name = true ->
  (fs name = Some old /\ append = true \/ fs name = None /\ old = []) ->
  wo_version opts <> [] -> scalar_text (wo_version opts) -> wo_filter opts = None ->
  (forall f, flt = Some f -> forall rq rs, f rq rs = (Some rq, Some rs)) ->
  scalar_text host -> Forall op_texts mid -> op_texts (Done 0 st) ->
  Forall (fun o => conn_of o = Some 0%nat /\ traffic o) mid ->
  parts 0 mid = b :: rest -> request_line b verb path -> verb <> lit "CONNECT" ->
  message (mk_parser HTTP_VERBS true) (sent 0 mid) -> message (mk_parser HTTP_TYPES true) (got 0 mid) ->
  enough fuel (sent 0 mid) -> enough fuel (got 0 mid) ->
  exists xs fs' hs1 hs2 out,
    capture_file fuel sha1 k can_write fs name append gzip opts flt ip t (Make t host port default None :: Put 0 :: mid ++ [Done 0 st]) = Some (xs, fs')
    /\ fs' name = Some (old ++ out)
    /\ two_records k (mk_wopts (wo_version opts) None (match gzip with Some false => false | _ => true end)) hs1 hs2 (got 0 mid) (sent 0 mid) out
    /\ value_of (lit "WARC-Type") hs1 = Some (lit "response") /\ value_of (lit "WARC-Type") hs2 = Some (lit "request").
Proof.
intros fuel sha1 k can_write fs name append gzip opts flt ip t host port default mid st b rest verb path old Hsha HW HO V1 V2 V3 Hflt Hh Hmid Hst Hon Hp Hq Hv M1 M2 F1 F2.
set (o := mk_wopts (wo_version opts) (wo_filter opts) (target_gzip (TName name) gzip false)).
set (cf := mk_cf flt ip 0 o). set (pre := [Enter t cf; Make t host port default None]).
set (w := snd (run fuel sha1 k pre (fresh [old]))).
assert (Ew : w = mk_world [(cf, new_recorder)] [mk_cn host port default (Some 0%nat) false None []] [(t, Some 0%nat)] [old]) by (unfold w, pre; cbn; now rewrite Nat.eqb_refl).
destruct (C55_written_partial_pf fuel sha1 k [old] pre 0 0 (mk_cn host port default (Some 0%nat) false None []) cf new_recorder mid st b rest verb path) as (x' & r' & url & hs1 & hs2 & out & A1 & A2 & A3 & A4 & A5 & A6 & A7 & _).
- exact Hsha.
- unfold pre. cbn [app]. apply Forall_cons; [split; assumption|]. apply Forall_cons; [split; [exact Hh|exact Logic.I]|]. apply Forall_cons; [exact Logic.I|exact Hmid].
- exact Hst.
- fold w. rewrite Ew. repeat split.
- now right.
- now apply undist.
- exact Hp.
- exact Hq.
- exact Hv.
- unfold accepts. cbn [cf_filter cf]. destruct flt as [f|]; [now apply Hflt|exact Logic.I].
- exact V3.
- exact M1.
- exact M2.
- exact F1.
- exact F2.
- fold w in A1, A3, A4.
  assert (Eo : wd_outs (snd (run fuel sha1 k (Put 0 :: mid) w)) = [old]). { rewrite quiet; [now rewrite Ew|]. apply Forall_cons; [exact Logic.I|]. refine (Forall_impl _ _ Hon). intros z [_ Hz]. now destruct z. }
  set (w1 := snd (run fuel sha1 k (Put 0 :: mid) w)) in *. rewrite Eo in A4. cbn [cf_writer cf] in A4.
  assert (En : nth 0 (wd_outs (snd (step fuel sha1 k (Done 0 st) w1))) [] = old ++ out). { pose proof (A4 0%nat) as G. clear -G. cbn [Nat.eqb nth_error option_map] in G. destruct (wd_outs (snd (step fuel sha1 k (Done 0 st) w1))) as [|z zs]; cbn [nth_error nth] in *; [discriminate|now injection G as ->]. }
  assert (Er : wd_outs (snd (run fuel sha1 k (Enter t cf :: (Make t host port default None :: Put 0 :: mid ++ [Done 0 st]) ++ [Exit t]) (fresh [old]))) = wd_outs (snd (step fuel sha1 k (Done 0 st) w1))).
  { change (Enter t cf :: (Make t host port default None :: Put 0 :: mid ++ [Done 0 st]) ++ [Exit t]) with (pre ++ ((Put 0 :: mid ++ [Done 0 st]) ++ [Exit t])).
    rewrite run_app_snd. fold w. change ((Put 0 :: mid ++ [Done 0 st]) ++ [Exit t]) with (((Put 0 :: mid) ++ [Done 0 st]) ++ [Exit t]). rewrite !run_app_snd. fold w1. cbn [run].
    destruct (step fuel sha1 k (Done 0 st) w1) as [y v]. reflexivity. }
  assert (EO : open_target can_write fs name append = Some old). { unfold open_target. rewrite HW. cbn [negb]. destruct HO as [[-> ->]|[-> ->]]; reflexivity. }
  unfold capture_file. rewrite EO. fold o. fold cf. change (mk_world [] [] [] [old]) with (fresh [old]).
  match goal with |- context [let (_, _) := ?M in _] => change M with (run fuel sha1 k (Enter t cf :: (Make t host port default None :: Put 0 :: mid ++ [Done 0 st]) ++ [Exit t]) (fresh [old])) end.
  destruct (run fuel sha1 k (Enter t cf :: (Make t host port default None :: Put 0 :: mid ++ [Done 0 st]) ++ [Exit t]) (fresh [old])) as [xs w2]. cbn [snd] in Er.
  exists xs. eexists. exists hs1, hs2, out. split; [reflexivity|]. unfold set_file. rewrite leqb_refl, Er, En. split; [reflexivity|]. split; [|now split].
  destruct A5 as (ws1 & ws2 & P & Q & R). exists ws1, ws2. split; [exact P|]. split; [exact Q|]. rewrite R. cbn [wo_gzip o cf_opts cf target_gzip]. now destruct gzip as [[]|].
Qed.
