(** * Thm_Link: proofs of the theorems restated in Props_Link.v *)
From Coq Require Import String List ZArith NArith Bool.
From Verif Require Import PyBase Headers Streams StreamSpec DigestSpec Loader Iterator Writer WriterSpec IterSpec RoundSpec Cli CliSpec RewriteSpec SelfSpec Toy.
Import ListNotations.
Open Scope Z_scope.

From Coq Require Import Lia ZifyBool.
From Verif Require Import Facts HeaderSpec HeaderProofs DigestProofs WriterProofs IterProofs CheckProofs RewriteProofs Thm_Buffered Thm_Cli Thm_Rewrite Thm_Enc Thm_Round Thm_Self.

(** the records of an archive as they are seen without parsing HTTP headers *)
Definition bare (e : entry) : entry := mk_entry (e_rec e) (e_text e) None (w_block (e_rec e)).
Lemma bare_good fuel he o o' M e : good_entry fuel he o M [] e -> lo_norec o' = true -> lo_check o' = KFalse -> good_entry fuel he o' M [] (bare e).
Proof.
  intros (A & B & _) H1 H2. split; [exact A|]. split; [exact B|]. unfold bare. cbn [e_http e_payload e_rec]. rewrite H1.
  split; [split; reflexivity|]. split; [discriminate|]. split; [now left|]. split; constructor.
Qed.
Lemma same_good fuel he o o' M e : good_entry fuel he o M [] e -> lo_norec o' = lo_norec o -> lo_verify o' = lo_verify o -> lo_check o' = KFalse -> good_entry fuel he o' M [] e.
Proof. intros (A & B & C & D & _ & F) H1 H2 H3. split; [exact A|]. split; [exact B|]. rewrite H1, H2. repeat (split; [assumption|]). split; [now left|exact F]. Qed.
Lemma same_archive quiet zl fuel he o o' M p sched data es : good_archive quiet zl fuel he o M p sched data es ->
  lo_norec o' = lo_norec o -> lo_verify o' = lo_verify o -> lo_check o' = KFalse -> good_archive quiet zl fuel he o' M p sched data es.
Proof.
  intros H H1 H2 H3. destruct H as [l Hz Hf Hr HM Hfu Hg|ms Hne HM Hfit Hfu Hg]; constructor; auto.
  - revert Hg. apply Forall_impl. intros e He. now apply (same_good fuel he o).
  - revert Hg. apply Forall_impl. intros x (A & B & C). split; [|now split]. now apply (same_good fuel he o).
Qed.
Lemma bare_archive quiet zl fuel he o o' M p sched data es : good_archive quiet zl fuel he o M p sched data es ->
  lo_norec o' = true -> lo_check o' = KFalse ->
  exists es', good_archive every zl fuel he o' M p sched data es' /\ Forall2 (fun x y => snd x = snd y /\ e_rec (fst x) = e_rec (fst y)) es es'.
Proof.
  intros H H2 H3. destruct H as [l Hz Hf Hr HM Hfu Hg|ms Hne HM Hfit Hfu Hg].
  - assert (Et : texts (map bare l) = texts l) by (unfold texts; rewrite map_map; reflexivity).
    exists (placed p (map bare l)). split.
    + rewrite <- Et in Hfu |- *. constructor; auto. rewrite Forall_map. revert Hg. apply Forall_impl. intros e He. now apply (bare_good fuel he o).
    + clear. revert p. induction l as [|e l IH]; intros p; [constructor|]. cbn [placed map]. constructor; [split; reflexivity|]. apply IH.
  - pose (f := fun em : entry * bytes => (bare (fst em), snd em)).
    assert (Et : gz_data (map f ms) = gz_data ms) by (unfold gz_data; rewrite map_map; reflexivity).
    exists (placed_gz p (map f ms)). split.
    + rewrite <- Et in Hfu |- *. constructor; auto.
      * now destruct ms.
      * destruct Hfit as [Hfit|[Hs Hfit]]; [now left|right]. split; [exact Hs|]. rewrite Forall_map. rewrite Forall_forall in *. intros x Hx.
        specialize (Hfit x Hx). destruct (Hg x Hx) as ((_ & (hb & _ & Etx) & Hv & _) & _ & _). unfold f. cbn [fst snd].
        destruct Hfit as [Hfit|(_ & oo & d & Hz & Hle)]; [now left|right]. split; [exact Logic.I|]. exists oo, d. split; [exact Hz|].
        unfold bare. cbn [e_text e_payload e_rec]. apply view_suffix in Hv. lia.
      * rewrite Forall_map. revert Hg. apply Forall_impl. intros x (A & B & C). unfold f. cbn [fst snd]. split; [now apply (bare_good fuel he o)|now split].
    + clear. revert p. induction ms as [|[e m] l IH]; intros p; [constructor|]. cbn [placed_gz map f fst snd]. constructor; [split; reflexivity|]. apply IH.
Qed.
Lemma fields_offset name ws ty http off len fields d : In (lit "offset") fields -> line_is name fields ws ty http off len d ->
  In (lit "offset", str_of_Z off) d /\ forall v, In (lit "offset", v) d -> v = str_of_Z off.
Proof.
  intros Hin H. unfold line_is in H. assert (Hin' : In (lit "offset") (firsts fields)).
  { clear - Hin. induction fields as [|x t IH]; [contradiction|]. cbn [firsts]. destruct (leqb (lit "offset") x) eqn:E.
    - apply leqb_eq in E. subst x. now left.
    - destruct Hin as [->|Hin]; [now rewrite leqb_refl in E|]. right. apply filter_In. split; [now apply IH|now rewrite E]. }
  assert (Val : forall x, field_is name ws ty http off len (lit "offset") x -> x = Some (str_of_Z off)).
  { clear. intros x H. remember (lit "offset") as n eqn:En. destruct H as [| | | | | | |n N1 N2]; subst; try reflexivity; try discriminate En. exfalso. apply N1. now left. }
  clear Hin. revert Hin'. induction H as [|n ns d Hn H IH|n v ns d Hn H IH]; intros Hin; [contradiction| |].
  - destruct Hin as [->|Hin]; [apply Val in Hn; discriminate|]. now apply IH.
  - split.
    + destruct Hin as [->|Hin]; [apply Val in Hn; injection Hn as ->; now left|]. right. now apply IH.
    + assert (Rest : forall v', In (lit "offset", v') d -> v' = str_of_Z off).
      { clear - H Val. induction H as [|n ns d Hn H IH|n v ns d Hn H IH]; intros v' Hv; [contradiction|now apply IH|].
        destruct Hv as [[= -> ->]|Hv]; [apply Val in Hn; now injection Hn|now apply IH]. }
      intros v' [[= -> ->]|Hv]; [apply Val in Hn; now injection Hn|now apply Rest].
Qed.
Lemma placed_nonneg quiet zl fuel he o M p sched data es : good_archive quiet zl fuel he o M p sched data es -> 0 <= p -> Forall (fun x => 0 <= fst (snd x)) es.
Proof.
  intros H. destruct H as [l _ _ _ _ _ _|ms _ _ _ _ _].
  - revert p. induction l as [|e l IH]; intros p Hp; constructor; [exact Hp|]. apply IH. pose proof (lenZ_nonneg (e_text e)). lia.
  - revert p. induction ms as [|[e m] l IH]; intros p Hp; constructor; [exact Hp|]. apply IH. pose proof (lenZ_nonneg m). lia.
Qed.
Lemma archive_every quiet zl fuel he o M p sched data es : good_archive quiet zl fuel he o M p sched data es -> good_archive every zl fuel he o M p sched data es.
Proof.
  intros H. destruct H as [l Hz Hf Hr HM Hfu Hg|ms Hne HM Hfit Hfu Hg]; constructor; auto.
  destruct Hfit as [Hfit|[Hs Hfit]]; [now left|right]. split; [exact Hs|]. revert Hfit. apply Forall_impl. intros x [H|[_ H]]; [now left|right]. split; [exact Logic.I|exact H].
Qed.
(** a file of members of [es], as an archive *)
Lemma back_archive quiet {zl : zenv} fuel he o M es ms :
  Forall (good_entry fuel he o M []) es -> compressed zl es ms -> back_fits zl fuel es ms -> Forall2 (fun e m => quiet e \/ lenZ m <= BUFF_SIZE) es ms ->
  0 <= M -> es <> [] -> exists pes, good_archive quiet zl fuel he o M 0 [] (concat ms) pes /\ map fst pes = es.
Proof.
  intros Hg Hc (F1 & F2 & F3) Hq HM Hne.
  assert (exists ems, map fst ems = es /\ map snd ems = ms /\ forall e m, In (e, m) ems -> is_member zl m (e_text e) /\ member_fit zl BUFF_SIZE (quiet e) e m) as (ems & Ee & Em & Hmem).
  { clear - Hc F3 Hq. revert F3 Hq. induction Hc as [|e m es ms H _ IH]; intros F3 Hq; [exists []; repeat split; auto; contradiction|].
    inversion F3 as [|? ? ? ? F4 F5]; subst. inversion Hq as [|? ? ? ? Q4 Q5]; subst. destruct (IH F5 Q5) as (ems & A & B & C).
    exists ((e, m) :: ems). split; [cbn; congruence|]. split; [cbn; congruence|]. intros e' m' [[= <- <-]|H']; [|auto]. split; [exact H|].
    destruct F4 as [F4|[_ F4]]; [now left|]. destruct Q4 as [Q4|Q4]; [right; now split|now left]. }
  exists (placed_gz 0 ems). split.
  - assert (concat ms = gz_data ems) as Ed by (unfold gz_data; now rewrite Em). rewrite Ed in F1 |- *. constructor; auto.
    + intros ->. cbn in Ee. congruence.
    + right. split; [reflexivity|]. apply Forall_forall. intros [e m] Hi. now apply Hmem.
    + rewrite Forall_forall in Hg, F2. apply Forall_forall. intros [e m] Hi. cbn [fst snd].
      assert (In e es) as X by (rewrite <- Ee; apply (in_map fst _ _ Hi)). split; [now apply Hg|]. split; [now apply Hmem|now apply F2].
  - rewrite <- Ee. clear. generalize 0. induction ems as [|[e m] l IH]; intros p; [reflexivity|]. cbn [placed_gz map fst]. f_equal. apply IH.
Qed.
Lemma fails_dec he e : henv_ok he -> judgeable he (block_digest (e_rec e)) -> judgeable he (payload_digest (e_rec e)) -> fails he e \/ ~ fails he e.
Proof.
  intros Hh J1 J2. unfold fails. destruct (J2 (e_payload e)) as (v2 & V2). destruct (J1 (w_block (e_rec e))) as (v1 & V1).
  assert (D2 : judged he (e_payload e) (payload_digest (e_rec e)) VBad \/ ~ judged he (e_payload e) (payload_digest (e_rec e)) VBad).
  { destruct v2; try (now left); right; intros X; pose proof (judged_fun _ _ _ _ _ Hh V2 X); discriminate. }
  assert (D1 : judged he (w_block (e_rec e)) (block_digest (e_rec e)) VBad \/ ~ judged he (w_block (e_rec e)) (block_digest (e_rec e)) VBad).
  { destruct v1; try (now left); right; intros X; pose proof (judged_fun _ _ _ _ _ Hh V1 X); discriminate. }
  destruct (w_block (e_rec e)) as [|b l]; [|assert (b :: l <> []) by discriminate; tauto]. assert (~ (@nil N <> [])) by tauto. tauto.
Qed.
Lemma settled_rewritable fuel M verify sha1 e e' : rewritten sha1 e e' -> settled e' -> rewritable fuel M verify e -> rewritable fuel M verify e'.
Proof.
  intros [R1 R2 R3 R4 R5 R6 R7] [T1 T2 _ _ _] [W1 W2 W3]. constructor.
  - pose proof (vals_occurs (lit "Content-Length") (w_headers (e_rec e'))) as X. unfold values_of in T2. fold (vals (lit "Content-Length") (w_headers (e_rec e'))) in T2.
    rewrite <- X, T2. apply le_n.
  - intros Hr. rewrite R4. apply W2. rewrite <- Hr. symmetry. apply (hk_values _ _ _ _ _ _ R2). intros [H|[H|[H|H]]]; apply name_eq_spec in H; vm_compute in H; discriminate.
  - now left.
Qed.
Lemma recompress_settled {zl : zenv} fuel he k sha1 uuid M data es n size :
  gzip_codec zl k -> hash_bytes sha1 -> good_archive every zl fuel he (recompress_opts uuid) M 0 [] data es ->
  Forall (fun x => settled (fst x) /\ rewritable fuel M false (fst x)) es -> (List.length es < n)%nat ->
  exists ms, recompress (zl:=zl) fuel he n sha1 k uuid size data = RcOk (List.length es) false (concat ms) /\ compressed zl (map fst es) ms.
Proof.
  intros Hz Hsha HG Hst Hn.
  destruct (recompress_archive fuel he k sha1 uuid M data es n size Hz Hsha HG) as (es' & ms & E & F1 & F2 & _); auto.
  { revert Hst. apply Forall_impl. intros x [_ X]. exact X. }
  exists ms. split; [exact E|]. unfold compressed in *. clear - F1 F2 Hst. revert es F1 Hst.
  induction F2 as [|e' m es' ms H _ IH]; intros es F1 Hst; inversion F1; subst; cbn [map]; constructor; inversion Hst; subst.
  - rewrite <- (re_same _ _ _ H3); [exact H|]. tauto.
  - now apply IH.
Qed.

Lemma C88_index_extract_partial_pf :
  forall (zl : zenv) fuel he M uuid name fields sched data es n,
  In (lit "offset") fields -> good_archive every zl fuel he (extract_opts uuid) M 0 sched data es -> (List.length es < n)%nat ->
  exists ds, index_file (zl:=zl) fuel he n false uuid name fields (raw_open data sched) = (ds, EndStop)
    /\ List.length ds = List.length es
    /\ forall k d, nth_error ds k = Some d ->
       exists e off len v, nth_error es k = Some (e, (off, len))
         /\ In (lit "offset", v) d /\ (forall v', In (lit "offset", v') d -> v' = v) /\ py_int v = Some off
         /\ forall wb hb, warc_text (e_rec e) wb -> http_text (e_http e) hb ->
            exists ws, extract (zl:=zl) fuel he uuid false false (seek_file data sched off) = (XOk, ws) /\ concat ws = wb ++ hb ++ e_payload e.
Proof.
intros zl fuel he M uuid name fields sched data es n Hin HG Hn.
assert (HI : exists es', good_archive every zl fuel he (index_opts fields false uuid) M 0 sched data es'
          /\ Forall2 (fun x y => snd x = snd y /\ e_rec (fst x) = e_rec (fst y)) es es').
{ destruct (record_parse fields) eqn:Er.
  - exists es. split; [apply (same_archive every zl fuel he (extract_opts uuid)); auto; unfold index_opts; cbn; now rewrite Er|].
    clear. induction es; constructor; auto.
  - apply (bare_archive every zl fuel he (extract_opts uuid)); auto. unfold index_opts. cbn. now rewrite Er. }
destruct HI as (es' & HG' & HF).
assert (Hl : List.length es = List.length es') by (clear - HF; induction HF; cbn; congruence).
destruct (index_archive fuel he M false uuid name fields sched data es' n HG' ltac:(lia)) as (ds & E & HL).
exists ds. split; [exact E|]. unfold lines_of in HL.
assert (Hl2 : List.length es' = List.length ds) by (clear - HL; induction HL; cbn; congruence). split; [congruence|].
intros k d Hd. destruct (nth_error es k) as [[e [off len]]|] eqn:Ek; [|apply nth_error_None in Ek; assert (k < List.length ds)%nat by (apply nth_error_Some; congruence); lia].
assert (Hoff : 0 <= off).
{ pose proof (placed_nonneg _ _ _ _ _ _ _ _ _ _ HG (Z.le_refl 0)) as X. rewrite Forall_forall in X. exact (X _ (nth_error_In _ _ Ek)). }
assert (HLk : exists x, nth_error es' k = Some x /\ fst (snd x) = off /\ line_is name fields (w_headers (e_rec (fst x))) (w_value "WARC-Type" (e_rec (fst x))) (e_http (fst x))
                              (fst (snd x)) (snd (snd x)) d).
{ clear - HF HL Hd Ek. revert es ds k HF HL Hd Ek. induction es' as [|y es' IH]; intros es ds k HF HL Hd Ek; inversion HF as [|x y' l l' [H1 _] H3]; subst; inversion HL as [|y'' d0 l'' ds0 H4 H5]; subst.
  - destruct k; discriminate.
  - destruct k as [|k]; cbn [nth_error] in *; [|now apply (IH l ds0 k)]. injection Hd as ->. injection Ek as ->. cbn [snd] in H1. exists y. split; [reflexivity|]. split; [now rewrite <- H1|exact H4]. }
destruct HLk as (x & Ex & Hx & HLn). rewrite Hx in HLn. destruct (fields_offset _ _ _ _ _ _ _ _ Hin HLn) as [V1 V2].
exists e, off, len, (str_of_Z off). split; [reflexivity|]. split; [exact V1|]. split; [exact V2|]. split; [now apply py_int_str|].
intros wb hb Hw Hh. exact (proj1 (C61_extract_partial_pf zl fuel he uuid M sched data es k e off len wb hb HG Ek Hw Hh)).
Qed.

Lemma C89_recompress_check_partial_pf :
  forall (zl : zenv) fuel he k sha1 uuid M data es n size,
  gzip_codec zl k -> henv_ok he -> he (lit "sha1") = Some sha1 -> 64 <= M ->
  good_archive unchunked zl fuel he (check_opts uuid) M 0 [] data es ->
  Forall (fun x => rewritable fuel M false (fst x)) es ->
  Forall (fun x => digest_stable (fst x) /\ judge_ok he (fst x)) es -> es <> [] -> (List.length es < n)%nat ->
  exists es' ms, recompress (zl:=zl) fuel he n sha1 k uuid size data = RcOk (List.length es) false (concat ms)
    /\ compressed zl es' ms
    /\ (back_fits zl fuel es' ms -> Forall2 (fun e m => unchunked e \/ lenZ m <= BUFF_SIZE) es' ms ->
        forall name name' verbose verbose' x ms1 x' ms2,
        check_all (zl:=zl) fuel he n verbose uuid 0 [(name, raw_open data [])] = (x, ms1) -> x <> Err OutOfFuel ->
        check_all (zl:=zl) fuel he n verbose' uuid 0 [(name', raw_open (concat ms) [])] = (x', ms2) -> x' <> Err OutOfFuel ->
        exists v, x = Ok v /\ x' = Ok v /\ ((exists e, In e es /\ fails he (fst e)) -> v = 1) /\ ((forall e, In e es -> ~ fails he (fst e)) -> v = 0)).
Proof.
intros zl fuel he k sha1 uuid M data es n size Hz Hh Hs HM HG Hrw Hdg Hne Hn.
assert (Hsha : hash_bytes sha1). { intros b. destruct (Hh _ _ Hs) as (m & _ & X). apply X. }
assert (HGe : good_archive every zl fuel he (check_opts uuid) M 0 [] data es) by (now apply (archive_every unchunked)).
assert (HG' : good_archive every zl fuel he (recompress_opts uuid) M 0 [] data es).
{ apply (good_archive_opts every zl fuel he (check_opts uuid)); auto. intros e _. now left. }
destruct (recompress_archive fuel he k sha1 uuid M data es n size Hz Hsha HG' Hrw Hn) as (es' & ms & E & F1 & F2 & F3).
exists es', ms. split; [exact E|]. split; [exact F2|].
assert (FF : Forall2 (fun x e' => (fails he (fst x) <-> fails he e') /\ judge_ok he e') es es').
{ clear - F1 Hdg Hh Hs. induction F1 as [|x e' es es' R _ IH]; constructor; inversion Hdg as [|? ? [A B] C]; subst; [|auto].
  split; [symmetry; now apply (fails_same he sha1)|now apply (judge_same he sha1 Hh Hs (fst x))]. }
intros Hfit Hun name name' verbose verbose' x ms1 x' ms2 E1 N1 E2 N2.
assert (Hl : List.length es = List.length es') by (clear - F1; induction F1; cbn; auto).
assert (HJ : forall e', In e' es' -> judge_ok he e').
{ clear - FF. induction FF as [|x e' es es' [_ H] _ IH]; intros y Hy; [contradiction|]. destruct Hy as [<-|Hy]; auto. }
assert (Hge : Forall (good_entry fuel he (check_opts uuid) M []) es').
{ apply F3; auto. intros e' He'. right. destruct (HJ e' He') as (A & B & _). split; [exact Hh|]. left. split; [discriminate|]. split; assumption. }
assert (Hne' : es' <> []) by (intros ->; destruct es; [contradiction|discriminate]).
destruct (back_archive unchunked fuel he (check_opts uuid) M es' ms Hge F2 Hfit Hun ltac:(lia) Hne') as (pes & HB & Hfst).
assert (Hlp : List.length pes = List.length es') by (rewrite <- Hfst; now rewrite map_length).
assert (K : forall nm vb d ps y mm, good_archive unchunked zl fuel he (check_opts uuid) M 0 [] d ps -> (List.length ps < n)%nat ->
   (forall p, In p ps -> not_vacuous he (fst p)) -> check_all (zl:=zl) fuel he n vb uuid 0 [(nm, raw_open d [])] = (y, mm) -> y <> Err OutOfFuel ->
   exists v, y = Ok v /\ ((exists p, In p ps /\ fails he (fst p)) -> v = 1) /\ ((forall p, In p ps -> ~ fails he (fst p)) -> v = 0)).
{ intros nm vb d ps y mm HA Hlen Hnv Ey Ny.
  destruct (proj2 (C63_encoded_pf zl he vb uuid [(nm, raw_open d [])]) fuel M n [ps] y mm) as (v & V1 & V2 & V3 & _); auto.
  - constructor; [exists d, []; now split|constructor].
  - intros es0 e pl [<-|[]] Hi. exact (Hnv _ Hi).
  - exists v. split; [exact V1|]. split.
    + intros ([e pl] & Hi & Hfa). apply V2. exists ps, e, pl. split; [now left|]. now split.
    + intros Hno. apply V3. intros es0 e pl [<-|[]] Hi. exact (Hno _ Hi). }
destruct (K name verbose data es x ms1 HG Hn) as (v & V1 & V2 & V3); auto.
{ intros p Hp. rewrite Forall_forall in Hdg. destruct (Hdg p Hp) as (_ & _ & _ & X). exact X. }
destruct (K name' verbose' (concat ms) pes x' ms2 HB ltac:(lia)) as (v' & V1' & V2' & V3'); auto.
{ intros p Hp. assert (In (fst p) es') as X by (rewrite <- Hfst; now apply in_map). destruct (HJ _ X) as (_ & _ & Y). exact Y. }
assert (A : (exists p, In p es /\ fails he (fst p)) -> exists p, In p pes /\ fails he (fst p)).
{ intros (p & Hp & Hf). assert (exists e', In e' es' /\ fails he e') as (e' & I1 & I2).
  { clear - FF Hp Hf. induction FF as [|x e' es es' [H _] _ IH]; [contradiction|]. destruct Hp as [<-|Hp]; [exists e'; split; [now left|now apply H]|].
    destruct (IH Hp) as (e'' & I1 & I2). exists e''. split; [now right|exact I2]. }
  rewrite <- Hfst in I1. apply in_map_iff in I1 as (q & <- & I1). now exists q. }
assert (B : (forall p, In p es -> ~ fails he (fst p)) -> forall p, In p pes -> ~ fails he (fst p)).
{ intros Hno p Hp Hf. assert (In (fst p) es') as X by (rewrite <- Hfst; now apply in_map).
  clear - FF Hno Hf X. induction FF as [|x e' es es' [H _] _ IH]; [contradiction|]. destruct X as [X|X]; [subst e'; apply (Hno x); [now left|now apply H]|].
  apply IH; [|exact X]. intros p0 Hp0. apply Hno. now right. }
assert (D : (exists p, In p es /\ fails he (fst p)) \/ (forall p, In p es -> ~ fails he (fst p))).
{ clear - Hh Hdg. induction es as [|p es IH]; [right; intros p []|]. inversion Hdg as [|? ? [_ [J1 [J2 _]]] Hdg']; subst.
  destruct (fails_dec he (fst p) Hh J1 J2) as [Hf|Hf]; [left; exists p; split; [now left|exact Hf]|].
  destruct (IH Hdg') as [(q & I1 & I2)|Hno]; [left; exists q; split; [now right|exact I2]|right]. intros q [<-|Hq]; auto. }
exists v. split; [exact V1|]. split; [|split; assumption]. rewrite V1'. f_equal. destruct D as [D|D].
- rewrite (V2 D), (V2' (A D)). reflexivity.
- rewrite (V3 D), (V3' (B D)). reflexivity.
Qed.

Lemma C90_unchanged_pf :
  forall (zl : zenv) fuel he k sha1 uuid M data es n size,
  gzip_codec zl k -> hash_bytes sha1 -> good_archive every zl fuel he (recompress_opts uuid) M 0 [] data es ->
  Forall (fun x => settled (fst x) /\ rewritable fuel M false (fst x)) es -> (List.length es < n)%nat ->
  exists ms, recompress (zl:=zl) fuel he n sha1 k uuid size data = RcOk (List.length es) false (concat ms) /\ compressed zl (map fst es) ms.
Proof.
intros zl fuel he k sha1 uuid M data es n size. exact (recompress_settled fuel he k sha1 uuid M data es n size).
Qed.

Lemma C90_again_partial_pf :
  forall (zl : zenv) fuel he k sha1 uuid M data es n size size',
  gzip_codec zl k -> hash_bytes sha1 -> 0 <= M ->
  good_archive every zl fuel he (recompress_opts uuid) M 0 [] data es ->
  Forall (fun x => rewritable fuel M false (fst x) /\ digests_given (fst x)) es -> es <> [] -> (List.length es < n)%nat ->
  exists es' ms, recompress (zl:=zl) fuel he n sha1 k uuid size data = RcOk (List.length es) false (concat ms) /\ compressed zl es' ms
    /\ (back_fits zl fuel es' ms ->
        exists ms', recompress (zl:=zl) fuel he n sha1 k uuid size' (concat ms) = RcOk (List.length es) false (concat ms') /\ compressed zl es' ms').
Proof.
intros zl fuel he k sha1 uuid M data es n size size' Hz Hsha HM HG Hrw Hne Hn.
assert (Hrw1 : Forall (fun x => rewritable fuel M false (fst x)) es) by (revert Hrw; apply Forall_impl; intros x [X _]; exact X).
destruct (recompress_archive fuel he k sha1 uuid M data es n size Hz Hsha HG Hrw1 Hn) as (es' & ms & E & F1 & F2 & F3).
exists es', ms. split; [exact E|]. split; [exact F2|]. intros Hfit.
assert (Hl : List.length es = List.length es') by (clear - F1; induction F1; cbn; auto).
assert (Hne' : es' <> []) by (intros ->; destruct es; [contradiction|discriminate]).
assert (Hge : Forall (good_entry fuel he (recompress_opts uuid) M []) es') by (apply F3; auto; intros e' _; now left).
destruct (back_archive every fuel he (recompress_opts uuid) M es' ms Hge F2 Hfit) as (pes & HB & Hfst); auto.
{ clear - F2. induction F2; constructor; auto. left. exact Logic.I. }
assert (Hlp : List.length pes = List.length es') by (rewrite <- Hfst; now rewrite map_length).
assert (Hs : Forall (fun e' => settled e' /\ rewritable fuel M false e') es').
{ clear - F1 Hrw. induction F1 as [|x e' es es' R _ IH]; constructor; inversion Hrw as [|? ? [A B] C]; subst; [|auto].
  pose proof (re_settled _ _ _ R B) as S. split; [exact S|]. now apply (settled_rewritable fuel M false sha1 (fst x)). }
rewrite <- Hfst in Hs. rewrite Forall_map in Hs.
destruct (recompress_settled fuel he k sha1 uuid M (concat ms) pes n size' Hz Hsha HB Hs ltac:(lia)) as (ms' & E' & Hc).
rewrite Hlp, <- Hl in E'. rewrite Hfst in Hc. exists ms'. now split.
Qed.

Lemma C90_empty_digest_refuted_pf :
  let data := lit "WARC/1.0" ++ crlf ++ lit "WARC-Type: warcinfo" ++ crlf ++ lit "WARC-Block-Digest: " ++ crlf ++ lit "Content-Length: 1" ++ crlf ++ crlf ++ lit "x" ++ four in
let digests d := map (fun ob : @obs toy_z => List.length (filter (fun h => leqb (fst h) (lit "WARC-Block-Digest")) (sh_headers (rc_headers (ob_record ob)))))
                     (fst (ex_run (recompress_opts (lit "u")) d)) in
exists out out', recompress (zl:=toy_z) 600 ck_henv 5 ck_hash toy_k (lit "u") 100 data = RcOk 1 false out
  /\ recompress (zl:=toy_z) 600 ck_henv 5 ck_hash toy_k (lit "u") 100 out = RcOk 1 false out'
  /\ digests data = [1%nat] /\ digests out = [2%nat] /\ digests out' = [3%nat].
Proof.
intros data digests.
set (pass := fun d => match recompress (zl:=toy_z) 600 ck_henv 5 ck_hash toy_k (lit "u") 100 d with RcOk _ _ o => o | _ => [] end).
exists (pass data), (pass (pass data)). split; [vm_compute; reflexivity|]. split; [vm_compute; reflexivity|]. split; [vm_compute; reflexivity|]. split; vm_compute; reflexivity.
Qed.

(** [p]: the bytes that write_record writes for record [r] *)
Definition written_part (fuel : nat) (sha1 : bytes -> bytes) (k : kenv) (gzip : bool) (r : wrec) (p : bytes) : Prop :=
  exists ws r', write_record fuel sha1 k (mk_wopts (lit "WARC/1.0") None gzip) r = (Ok tt, ws, r') /\ p = concat ws.
(** where the parts begin and how long they are (without the two empty lines after a record in
    an uncompressed file), as index lines *)
Fixpoint part_lines (gzip : bool) (p : Z) (parts : list bytes) : list (list (str * str)) :=
  match parts with
  | [] => []
  | x :: t => [(lit "offset", str_of_Z p); (lit "length", str_of_Z (if gzip then lenZ x else lenZ x - 4))] :: part_lines gzip (p + lenZ x) t
  end.

Lemma own_parts zl fuel sha1 k he uuid M data rs : henv_ok he -> he (lit "sha1") = Some sha1 -> 64 <= M ->
  own_file zl fuel sha1 k M BUFF_SIZE data rs ->
  exists g parts es, Forall2 (written_part fuel sha1 k g) rs parts /\ data = concat parts /\ good_archive unchunked zl fuel he (check_opts uuid) M 0 [] data es
    /\ List.length es = List.length rs /\ map (fun x => [(lit "offset", str_of_Z (fst (snd x))); (lit "length", str_of_Z (snd (snd x)))]) es = part_lines g 0 parts.
Proof.
  intros Hh Hs HM H. destruct H as [cs rs ws Hz HF Hw Hfu Hb|cs rs ms ws Hz HF Hne Hw Hms Hfu Hfp Hfit].
  - assert (X : exists parts es, Forall2 (written_part fuel sha1 k false) rs parts /\ concat ws = concat parts /\ texts es = concat ws
       /\ Forall (good_entry fuel he (check_opts uuid) M []) es /\ List.length es = List.length rs
       /\ forall p, map (fun x => [(lit "offset", str_of_Z (fst (snd x))); (lit "length", str_of_Z (snd (snd x)))]) (placed p es) = part_lines false p parts).
    { clear Hb. revert ws Hw Hfu. induction HF as [|c r cs rs Hr _ IH]; intros ws Hw Hfu; cbn [write_all] in Hw.
      - injection Hw as <-. exists [], []. repeat split; constructor.
      - destruct (write_record fuel sha1 k (mk_wopts (lit "WARC/1.0") None false) r) as [[[u|e] w1] r1] eqn:E; [|discriminate].
        destruct (write_all fuel sha1 k (mk_wopts (lit "WARC/1.0") None false) rs) as [x w2]. injection Hw as -> <-.
        rewrite concat_app in Hfu. unfold enough in Hfu. rewrite app_length in Hfu.
        assert (E' : write_plain fuel sha1 None r = (Ok tt, w1, r1)) by (destruct u; exact (write_record_plain _ _ _ _ _ _ _ E)).
        destruct (own_entry fuel sha1 he uuid M c r w1 r1 Hh Hs Hr E') as (e & Et & Hg & _); [unfold enough; lia|].
        destruct (IH w2 eq_refl) as (parts & es & I1 & I2 & I3 & I4 & I5 & I6); [unfold enough; lia|].
        exists (concat w1 :: parts), (e :: es). split; [constructor; [exists w1, r1; destruct u; now split|exact I1]|].
        split; [rewrite concat_app; cbn [concat]; now rewrite I2|]. split; [unfold texts in *; cbn [map concat]; rewrite concat_app, Et, I3; reflexivity|].
        split; [now constructor|]. split; [cbn [List.length]; now rewrite I5|]. intros p. cbn [placed map part_lines fst snd]. now rewrite Et, I6. }
    destruct X as (parts & es & I1 & I2 & I3 & I4 & I5 & I6). exists false, parts, (placed 0 es). split; [exact I1|]. split; [exact I2|].
    split; [|split; [now rewrite placed_len|apply I6]].
    rewrite <- I3 in Hfu |- *. apply GA_plain; [exact Hz|split; [unfold BUFF_SIZE; lia|exact Logic.I]|right; split; [reflexivity|exact Hb]|lia|exact Hfu|exact I4].
  - destruct (own_gz zl fuel sha1 k he uuid M BUFF_SIZE Hh Hs Hz cs rs HF ms Hms Hfp Hfit) as (ems & Es & Hf & Hg & Hfn & Hsm).
    assert (Ec : concat ws = concat ms).
    { clear - Hw Hms. revert ws Hw. induction Hms as [|r m rs ms (w & r' & E & ->) _ IH]; intros ws Hw; cbn [write_all] in Hw; [now injection Hw as <-|].
      rewrite E in Hw. destruct (write_all fuel sha1 k _ rs) as [x w2]. injection Hw as -> <-. cbn [concat]. rewrite concat_app. f_equal. now apply IH. }
    assert (Ed : concat ws = gz_data ems) by (unfold gz_data; now rewrite Es).
    exists true, ms, (placed_gz 0 ems). split; [|split; [exact Ec|split; [|split]]].
    + clear - Hms. induction Hms as [|r m rs ms (w & r' & E & ->) _ IH]; constructor; [exists w, r'; now split|exact IH].
    + rewrite Ed in Hfu |- *. apply GA_gzip; [intros ->; inversion Hsm; subst; contradiction|lia|right; split; [reflexivity|exact Hf]|exact Hfu|exact Hg].
    + rewrite placed_gz_len. clear - Hsm. induction Hsm; cbn; auto.
    + rewrite <- Es. clear. generalize 0. induction ems as [|[e m] l IH]; intros p; [reflexivity|]. cbn [placed_gz map part_lines fst snd]. now rewrite IH.
Qed.
Lemma two_fields name ws ty http off len d : line_is name [lit "offset"; lit "length"] ws ty http off len d ->
  d = [(lit "offset", str_of_Z off); (lit "length", str_of_Z len)].
Proof.
  intros H. unfold line_is in H. assert (E : firsts [lit "offset"; lit "length"] = [lit "offset"; lit "length"]) by reflexivity. rewrite E in H.
  assert (V1 : forall x, field_is name ws ty http off len (lit "offset") x -> x = Some (str_of_Z off)).
  { clear. intros x H. remember (lit "offset") as n eqn:En. destruct H as [| | | | | | |n N1 N2]; subst; try reflexivity; try discriminate En. exfalso. apply N1. now left. }
  assert (V2 : forall x, field_is name ws ty http off len (lit "length") x -> x = Some (str_of_Z len)).
  { clear. intros x H. remember (lit "length") as n eqn:En. destruct H as [| | | | | | |n N1 N2]; subst; try reflexivity; try discriminate En. exfalso. apply N1. right. now left. }
  inversion H as [|? ? ? F1 H1|? v ? d1 F1 H1]; subst; apply V1 in F1; [discriminate|]. injection F1 as ->.
  inversion H1 as [|? ? ? F2 H2|? v2 ? d2 F2 H2]; subst; apply V2 in F2; [discriminate|]. injection F2 as ->. now inversion H2.
Qed.

Lemma C91_index_own_partial_pf :
  forall (zl : zenv) fuel sha1 k he uuid M data rs name n,
  henv_ok he -> he (lit "sha1") = Some sha1 -> 64 <= M -> own_file zl fuel sha1 k M BUFF_SIZE data rs -> (List.length rs < n)%nat ->
  exists gzip parts, Forall2 (written_part fuel sha1 k gzip) rs parts /\ data = concat parts
    /\ index_file (zl:=zl) fuel he n false uuid name [lit "offset"; lit "length"] (raw_open data []) = (part_lines gzip 0 parts, EndStop).
Proof.
intros zl fuel sha1 k he uuid M data rs name n Hh Hs HM HO Hn.
destruct (own_parts zl fuel sha1 k he uuid M data rs Hh Hs HM HO) as (g & parts & es & P1 & P2 & P3 & P4 & P5).
exists g, parts. split; [exact P1|]. split; [exact P2|].
destruct (bare_archive unchunked zl fuel he (check_opts uuid) (index_opts [lit "offset"; lit "length"] false uuid) M 0 [] data es P3 eq_refl eq_refl) as (es' & HG & HF).
assert (Hl : List.length es = List.length es') by (clear - HF; induction HF; cbn; congruence).
destruct (index_archive fuel he M false uuid name [lit "offset"; lit "length"] [] data es' n HG ltac:(lia)) as (ds & E & HL).
rewrite E. f_equal. rewrite <- P5. clear - HL HF. revert ds HL.
induction HF as [|x y es es' [H1 _] _ IH]; intros ds HL; inversion HL as [|? d ? ds' H2 H3]; subst; [reflexivity|].
cbn [map]. rewrite (IH ds' H3), H1. f_equal. destruct y as [e [off len]]. cbn [fst snd] in *. exact (two_fields _ _ _ _ _ _ _ H2).
Qed.
