(** * Thm_Version: proofs of the theorems restated in Props_Version.v *)
From Coq Require Import String List ZArith NArith Bool.
From Verif Require Import PyBase Utf8 Headers HeaderSpec Streams StreamSpec Loader Iterator IterSpec ArcSpec Writer WriterSpec Cli Toy.
Import ListNotations.
Open Scope Z_scope.

From Coq Require Import Lia ZifyBool ZifyNat ZifyN.
From Verif Require Import Facts StreamProofs BufProofs FillProofs CallProofs HeaderProofs SimProofs IterProofs WriterProofs BlankProofs Thm_Headers Thm_Arc.

Ltac pick L :=
  first [ exists (firstn 0 L), (skipn 1 L); split; [reflexivity|] | exists (firstn 1 L), (skipn 2 L); split; [reflexivity|]
        | exists (firstn 2 L), (skipn 3 L); split; [reflexivity|] | exists (firstn 3 L), (skipn 4 L); split; [reflexivity|]
        | exists (firstn 4 L), (skipn 5 L); split; [reflexivity|] | exists (firstn 5 L), (skipn 6 L); split; [reflexivity|]
        | exists (firstn 6 L), (skipn 7 L); split; [reflexivity|] | exists (firstn 7 L), (skipn 8 L); split; [reflexivity|]
        | exists (firstn 8 L), (skipn 9 L); split; [reflexivity|] ].
Lemma upper_head m status q r : upper (status_text m status) = q ++ r -> exists z, upper m ++ z = q ++ r.
Proof.
  unfold upper, status_text. destruct status as [|x t]; intros H; [exists []; now rewrite app_nil_r|].
  rewrite map_app in H. now exists (map upper1 (32%N :: x :: t)).
Qed.
Ltac known L :=
  split; [reflexivity|]; pick L;
  let q := fresh "q" in let r := fresh "r" in let Hq := fresh "Hq" in let X := fresh "X" in
  intros q r Hq X; apply upper_head in X as [z X]; revert Hq X; unfold L; cbn [firstn In]; intros Hq X; decompose [or] Hq; try contradiction; subst q; vm_compute in X; discriminate X.

(** the parsers of the loader and the first words they accept *)
Definition accepted : list (parser * list str) :=
  [ (mk_parser WARC_TYPES true, [lit "WARC/1.0"; lit "WARC/1.1"; lit "WARC/0.17"; lit "WARC/0.18"]);
    (mk_parser HTTP_TYPES true, [lit "HTTP/1.0"; lit "HTTP/1.1"]);
    (mk_parser HTTP_VERBS true, [lit "GET"; lit "HEAD"; lit "POST"; lit "PUT"; lit "DELETE"; lit "CONNECT"; lit "OPTIONS"; lit "TRACE"; lit "PATCH"]) ].
(** what the builder makes of its warc_version argument *)
Definition versions : list (option str * str) :=
  [ (None, lit "WARC/1.0"); (Some [], lit "WARC/1.0"); (Some (lit "1.0"), lit "WARC/1.0"); (Some (lit "1.1"), lit "WARC/1.1");
    (Some (lit "0.17"), lit "WARC/0.17"); (Some (lit "0.18"), lit "WARC/0.18"); (Some (lit "WARC/1.0"), lit "WARC/1.0");
    (Some (lit "WARC/1.1"), lit "WARC/1.1"); (Some (lit "WARC/0.17"), lit "WARC/0.17"); (Some (lit "WARC/0.18"), lit "WARC/0.18") ].

Lemma C19_accepted_pf :
  forall fuel p protos h body sched,
  In (p, protos) accepted -> In (sh_proto h) protos ->
  line_text (sh_status h) -> no_lead is_uspace (sh_status h) -> no_trail is_uspace (sh_status h) ->
  Forall wf_header (sh_headers h) ->
  exists data, to_bytes None h = Ok data
    /\ (enough fuel (data ++ body) ->
       exists h' s', parse (o_readline raw_ops None) fuel p None (raw_open (data ++ body) sched) = (Ok h', s')
         /\ rw_rest s' = body /\ rw_pos s' = lenZ data
         /\ sh_proto h' = sh_proto h /\ sh_status h' = sh_status h /\ sh_headers h' = sh_headers h).
Proof.
intros fuel p protos h body sched Hp Hin S1 S2 S3 Hh. apply C19_file_pf.
assert (P : sh_proto h <> [] /\ line_text (sh_proto h) /\ no_trail is_uspace (sh_proto h) /\ recognises p (sh_proto h) (sh_status h)).
{ assert (G : forall w, w <> [] -> forallb (fun c => (33 <=? c) && (c <=? 90))%N w = true -> line_text w /\ no_trail is_uspace w).
  { intros w _ Hw. rewrite forallb_forall in Hw. split; [split|].
    - intros c Hc. apply Hw in Hc. cbv beta in Hc. unfold is_scalar, is_surrogate. lia.
    - intros Hc. apply Hw in Hc. vm_compute in Hc. discriminate.
    - intros c t E. assert (Hc : In c w) by (rewrite E; apply in_or_app; right; now left). apply Hw in Hc. cbv beta in Hc. unfold is_uspace. lia. }
  unfold accepted in Hp. cbn [In] in Hp. decompose [or] Hp; try contradiction;
    match goal with K : (_, _) = (p, protos) |- _ => injection K as <- <- end; cbn [In] in Hin; decompose [or] Hin; try contradiction;
    match goal with K : lit _ = sh_proto h |- _ => rewrite <- K end;
    (split; [discriminate|]; match goal with |- line_text ?w /\ _ => destruct (G w) as [G1 G2]; [discriminate|reflexivity|] end;
     split; [exact G1|]; split; [exact G2|]; unfold recognises; cbn [p_verify p_list]).
  1-4: known WARC_TYPES. 1-2: known HTTP_TYPES. all: known HTTP_VERBS. }
destruct P as (P1 & P2 & P3 & P4). repeat (split; [assumption|]). assumption.
Qed.

Lemma C96_known_partial_pf :
  forall v version hs block out rest sched fuel,
  In (v, version) versions -> is_record (parse_warc_version v) hs block out -> Forall wf_header hs ->
  enough fuel (out ++ rest) ->
  exists h s', parse (o_readline raw_ops None) fuel (mk_parser WARC_TYPES true) None (raw_open (out ++ rest) sched) = (Ok h, s')
    /\ sh_proto h = version /\ sh_status h = [] /\ sh_headers h = hs
    /\ rw_rest s' = block ++ [13; 10; 13; 10]%N ++ rest.
Proof.
intros v version hs block out rest sched fuel Hv (head & Ehead & ->) Hhs Hfu.
assert (Ev : parse_warc_version v = version /\ In version [lit "WARC/1.0"; lit "WARC/1.1"; lit "WARC/0.17"; lit "WARC/0.18"]).
{ unfold versions in Hv. cbn [In] in Hv. decompose [or] Hv; try contradiction; match goal with K : (_, _) = (v, version) |- _ => injection K as <- <- end;
    (split; [reflexivity|cbn; auto 6]). }
destruct Ev as [Ev Hin]. rewrite Ev in Ehead.
set (h := mk_sah [] hs version 0 None).
destruct (C19_accepted_pf fuel (mk_parser WARC_TYPES true) [lit "WARC/1.0"; lit "WARC/1.1"; lit "WARC/0.17"; lit "WARC/0.18"] h (block ++ [13; 10; 13; 10]%N ++ rest) sched) as (data & Ed & H).
{ left. reflexivity. }
{ exact Hin. }
{ split; [intros c []|intros []]. }
{ unfold no_lead, h. cbn [sh_status]. intros c t X. discriminate X. }
{ unfold no_trail, h. cbn [sh_status]. intros c t X. destruct t; discriminate X. }
{ exact Hhs. }
assert (Hne : version <> []).
{ intros X. clear - Hin X. rewrite X in Hin. cbn [In] in Hin. decompose [or] Hin; try contradiction; discriminate. }
pose proof (to_bytes_record h data eq_refl Hne Ed) as Er. cbn [sh_proto sh_headers h] in Er. rewrite Er in Ehead. injection Ehead as ->.
assert (Es : (head ++ block ++ [13; 10; 13; 10]%N) ++ rest = head ++ block ++ [13; 10; 13; 10]%N ++ rest) by now rewrite <- !app_assoc.
rewrite Es in *. destruct (H Hfu) as (h' & s' & E & R & _ & P1 & P2 & P3). exists h', s'. split; [exact E|]. auto.
Qed.

Lemma refused {zl : zenv} fuel he o data sched block known t prog n :
  gz_magic zl -> first_two block sched -> enough fuel data ->
  (exists a b r, data = a :: b :: r /\ (a, b) <> (31%N, 139%N)) ->
  text_line (take_line data) t -> no_trail is_uspace t -> t <> [] ->
  (known <> Some FArc -> forall q r, In q WARC_TYPES -> upper t <> q ++ r) ->
  (known <> Some FWarc -> (count_occ N.eq_dec t 32%N < 4)%nat) ->
  run_iter (zl:=zl) fuel he o (Datatypes.S n) prog 0 (iter_new (raw_open data sched) block known) = ([], EndExn ArchiveLoadFailed).
Proof.
  intros Hz [Hb Hs] Hfu Hd Ht1 Ht2 Ht3 Hw Ha. set (f := raw_open data sched). set (T := lenZ data).
  pose (R := raw_R T fuel). pose proof (raw_delivers T fuel) as HD.
  assert (HR : R f data) by (unfold R, raw_R, f, T; cbn; repeat split; exact Hfu).
  assert (Hfirst : forall x s', o_read raw_ops (Some block) f = (Ok x, s') -> data = [] \/ 2 <= lenZ x).
  { intros x s' E. right. destruct Hd as (a & b & r & Ed & _).
    unfold raw_ops, o_read, raw_read, f, raw_open in E. cbn [rw_rest rw_sched rw_pos] in E. assert (Hb1 : (0 <? block) = true) by (apply Z.ltb_lt; lia). rewrite Hb1 in E.
    rewrite Ed in E.
    assert (G : forall m, 2 <= m -> 2 <= lenZ (takeZ m (a :: b :: r))).
    { intros m Hm. rewrite lenZ_takeZ by lia. rewrite !lenZ_cons. pose proof (lenZ_nonneg r). lia. }
    destruct sched as [|k sc]; injection E as <- <-; apply G; lia. }
  pose proof (plainQ_open (zl:=zl) fuel 0 R f data block HD HR Hz Hb (or_introl Z.le_0_1) Hfu (or_intror Hd) Hfirst) as HQ.
  fold T in HQ. pose proof (plainQ_ok (zl:=zl) fuel 0 T T R HD (fun s c H => H)) as FO.
  destruct (C43_load_failed_pf _ (rops (zl:=zl) fuel) _ fuel he o known (dbr_new f block None false) data t (br_full_line raw_ops fuel _ _ FO) HQ Ht1 Ht2 Ht3 Hw Ha) as (s' & E).
  assert (Hf0 : exists f', fuel = Datatypes.S f') by (exists (pred fuel); unfold enough in Hfu; lia). destruct Hf0 as (f' & Ef).
  cbn [run_iter]. unfold iter_next, iter_new. cbn [it_phase].
  match goal with |- context[iter_loop ?a ?b ?c ?n ?i] => replace (iter_loop a b c n i) with (iter_loop a b c (Datatypes.S f') i) by now rewrite <- Ef end.
  cbn [iter_loop]. unfold next_record. cbn [it_next_line it_known it_reader]. 
  rewrite E. reflexivity.
Qed.
Lemma upper_digits q v r : forallb (fun c => (46 <=? c) && (c <=? 57))%N q = true -> upper v = q ++ r -> exists r', v = q ++ r'.
Proof.
  revert v. induction q as [|x q IH]; intros v Hq E; [now exists v|]. cbn [forallb] in Hq. apply andb_true_iff in Hq as [Hx Hq].
  destruct v as [|y v]; [discriminate|]. cbn [upper List.map app] in E. injection E as E1 E2. destruct (IH v Hq E2) as (r' & ->). exists r'.
  cbn [app]. f_equal. cbv beta in Hx. unfold upper1 in E1. destruct ((97 <=? y) && (y <=? 122))%N eqn:Ey; [exfalso|]; lia.
Qed.

Lemma C96_unknown_refuted_pf :
  forall (zl : zenv) (he : henv) (o : lopts) v hs block out rest sched bsize known fuel n prog,
  gz_magic zl -> first_two bsize sched -> enough fuel (out ++ rest) -> known <> Some FArc ->
  v <> [] -> (forall c, In c v -> is_scalar c = true /\ is_uspace c = false) ->
  (forall r, v <> lit "WARC/" ++ r) ->
  (forall q r, In q [lit "1.0"; lit "1.1"; lit "0.17"; lit "0.18"] -> v <> q ++ r) ->
  is_record (parse_warc_version (Some v)) hs block out ->
  run_iter (zl:=zl) fuel he o (S n) prog 0 (iter_new (raw_open (out ++ rest) sched) bsize known) = ([], EndExn ArchiveLoadFailed).
Proof.
intros zl he o v hs block out rest sched bsize known fuel n prog Hz Hb Hfu Hk Hv Hvt Hp Hq (head & Ehead & ->).
assert (Ev : parse_warc_version (Some v) = lit "WARC/" ++ v).
{ unfold parse_warc_version. destruct v as [|x v]; [contradiction|]. destruct (startswith (lit "WARC/") (x :: v)) eqn:Es; [|reflexivity].
  apply startswith_spec in Es as (r & Er). exfalso. now apply (Hp r). }
rewrite Ev in Ehead. set (t := lit "WARC/" ++ v) in *.
assert (Htt : forall c, In c t -> is_scalar c = true /\ is_uspace c = false).
{ intros c Hc. unfold t in Hc. apply in_app_or in Hc as [Hc|Hc]; [|now apply Hvt]. cbn in Hc. decompose [or] Hc; try contradiction; subst c; split; reflexivity. }
assert (Hs : forall c, In c t -> is_scalar c = true) by (intros c Hc; now apply Htt).
assert (Hlf : ~ In LF t) by (intros X; apply Htt in X as [_ X]; discriminate X).
assert (Eh : exists tl, head = enc (t ++ crlf) ++ tl).
{ unfold record_text in Ehead. rewrite app_assoc in Ehead. rewrite utf8_encode_app in Ehead.
  destruct (utf8_encode (t ++ [13%N; 10%N])) as [a|] eqn:Ea; [|discriminate]. unfold utf8_encode in Ea. destruct (forallb is_scalar _); [|discriminate]. injection Ea as <-.
  destruct (utf8_encode (concat _ ++ _)) as [b|]; [|discriminate]. injection Ehead as <-. now exists b. }
destruct Eh as (tl & ->).
assert (Etl : take_line (((enc (t ++ crlf) ++ tl) ++ block ++ [13; 10; 13; 10]%N) ++ rest) = enc (t ++ crlf)).
{ rewrite <- !app_assoc. apply is_line_take. exists (enc (t ++ [13%N])). split.
  - intros X. apply enc_LF in X. apply in_app_or in X as [X|[X|[]]]; [contradiction|discriminate].
  - change crlf with ([13%N] ++ [10%N]). rewrite app_assoc, enc_app. reflexivity. }
apply refused with (t := t); try assumption.
- rewrite <- !app_assoc. unfold t. rewrite <- !app_assoc, enc_app. change (enc (lit "WARC/")) with (lit "WARC/").
  exists 87%N, 65%N. eexists. split; [reflexivity|discriminate].
- rewrite Etl. exists crlf. split.
  + apply decode_enc. intros c Hc. apply in_app_or in Hc as [Hc|Hc]; [now apply Hs|]. cbn in Hc. decompose [or] Hc; try contradiction; subst c; reflexivity.
  + intros c Hc. cbn in Hc. decompose [or] Hc; try contradiction; subst c; reflexivity.
- intros c u E. apply Htt. rewrite E. apply in_or_app. right. now left.
- discriminate.
- intros _ q r Hin X. unfold t, upper in X. rewrite map_app in X. change (map upper1 (lit "WARC/")) with (lit "WARC/") in X.
  assert (Y : exists q', In q' [lit "1.0"; lit "1.1"; lit "0.17"; lit "0.18"] /\ q = lit "WARC/" ++ q').
  { unfold WARC_TYPES in Hin. cbn [In] in Hin. decompose [or] Hin; try contradiction; subst q.
    - exists (lit "1.1"). split; [cbn; auto|reflexivity].
    - exists (lit "1.0"). split; [cbn; auto|reflexivity].
    - exists (lit "0.17"). split; [cbn; auto|reflexivity].
    - exists (lit "0.18"). split; [cbn; auto|reflexivity]. }
  destruct Y as (q' & Hq' & ->). rewrite <- app_assoc in X. apply app_inv_head in X.
  destruct (upper_digits q' v r) as (r' & Er'); [|exact X|exact (Hq q' r' Hq' Er')].
  cbn [In] in Hq'. decompose [or] Hq'; try contradiction; subst q'; reflexivity.
- intros _. assert (Z : count_occ N.eq_dec t 32%N = 0%nat).
  { apply count_occ_not_In. intros X. apply Htt in X as [_ X]. discriminate X. }
  rewrite Z. repeat constructor.
Qed.

(** names separated by commas *)
Fixpoint comma_joined (fs : list str) : str :=
  match fs with [] => [] | [f] => f | f :: t => f ++ [44%N] ++ comma_joined t end.
(** a text of complete lines *)
Definition lines_text (ls : list str) : str := concat (map (fun l => l ++ [10%N]) ls).

Lemma split_step cur f t : ~ In 44%N f -> split_commas cur (f ++ 44%N :: t) = (rev cur ++ f) :: split_commas [] t.
Proof.
  revert cur. induction f as [|x f IH]; intros cur H; cbn [app split_commas].
  - now rewrite N.eqb_refl, app_nil_r.
  - destruct (x =? 44)%N eqn:E; [exfalso; apply H; left; lia|]. rewrite IH by (intros X; apply H; now right). cbn [rev]. now rewrite <- app_assoc.
Qed.
Lemma split_last cur f : ~ In 44%N f -> split_commas cur f = [rev cur ++ f].
Proof.
  revert cur. induction f as [|x f IH]; intros cur H; cbn [split_commas]; [now rewrite app_nil_r|].
  destruct (x =? 44)%N eqn:E; [exfalso; apply H; left; lia|]. rewrite IH by (intros X; apply H; now right). cbn [rev]. now rewrite <- app_assoc.
Qed.
Lemma lines_inj : forall a b, Forall (fun l => ~ In 10%N l) a -> Forall (fun l => ~ In 10%N l) b -> lines_text a = lines_text b -> a = b.
Proof.
  unfold lines_text. induction a as [|x a IH]; intros b Ha Hb E.
  - destruct b as [|y b]; [reflexivity|]. cbn [map concat] in E. destruct y; discriminate.
  - destruct b as [|y b]; [destruct x; discriminate|]. cbn [map concat] in E. inversion Ha; inversion Hb; subst.
    rewrite <- !app_assoc in E. cbn [app] in E. pose proof E as E'. apply (f_equal take_line) in E.
    rewrite !take_line_LF in E by assumption. apply app_inv_tail in E. subst y. apply app_inv_head in E'. injection E' as E'. f_equal. now apply IH.
Qed.

Lemma C60_fields_pf :
  forall fs, fs <> [] -> Forall (fun f => ~ In 44%N f) fs -> split_fields (comma_joined fs) = fs.
Proof.
intros fs Hne H. unfold split_fields. induction fs as [|f t IH]; [contradiction|]. inversion H; subst. destruct t as [|g t].
- cbn [comma_joined]. now rewrite split_last.
- change (comma_joined (f :: g :: t)) with (f ++ 44%N :: comma_joined (g :: t)). rewrite split_step by assumption. rewrite IH by (assumption || discriminate). reflexivity.
Qed.

Lemma C60_text_pf :
  forall (dumps : list (str * str) -> str) ds,
  (forall d, ~ In 10%N (dumps d)) ->
  forall ls, Forall (fun l => ~ In 10%N l) ls -> (lines_text ls = index_text dumps ds <-> ls = map dumps ds).
Proof.
intros dumps ds Hd ls Hls.
assert (E : index_text dumps ds = lines_text (map dumps ds)).
{ unfold index_text, lines_text. rewrite map_map. apply flat_map_concat_map. }
rewrite E. split; [|now intros ->]. apply lines_inj; [exact Hls|]. apply Forall_forall. intros l Hl. apply in_map_iff in Hl as (d & <- & _). apply Hd.
Qed.
