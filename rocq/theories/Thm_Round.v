(** * Thm_Round: proofs of the theorems restated in Props_Round.v *)
From Coq Require Import String List ZArith NArith Bool Lia.
From Coq Require Import ZifyBool ZifyNat ZifyN.
From Verif Require Import PyBase Utf8 Headers HeaderSpec Streams StreamSpec Loader Iterator Writer WriterSpec IterSpec RoundSpec Toy.
Import ListNotations.
Open Scope Z_scope.

From Verif Require Import Facts HeaderProofs FillProofs WriterProofs IterProofs GzProofs RoundProofs Thm_Iter.

Definition plain_opts : wopts := mk_wopts (lit "WARC/1.0") None false.
Definition gzip_opts : wopts := mk_wopts (lit "WARC/1.0") None true.
(** examples: a response with HTTP headers whose content looks like a WARC record, and a
    resource record without a URI, created with unknown length *)
Definition ex_h : sah := sah_new (lit "200 OK") [(lit "Content-Type", lit "text/plain; a: b")] (lit "HTTP/1.1").
Definition ex_c1 : creation :=
  mk_creation (lit "WARC/1.0") (lit "1234") (lit "2000-01-01T00:00:00Z") (Some (lit "http://a/")) (lit "response")
              (Some (bytesio (lit "WARC/1.0" ++ crlf ++ crlf ++ [0; 255; 10]%N))) (Some 15) [] [(lit "X-One", lit "1")] None (Some ex_h).
Definition ex_c2 : creation :=
  mk_creation (lit "WARC/1.1") (lit "5678") (lit "2000-01-01T00:00:01Z") None (lit "resource")
              (Some (bytesio (lit "hello"))) None (lit "text/plain") [] None None.
Definition ex_cs : list creation := [ex_c1; ex_c2].
Definition ex_r (c : creation) : wrec :=
  match create 600 toy_hash None c with Ok r => r | Err _ => mk_wrec None (sah_new [] [] []) (bytesio []) None None None None None end.
Definition ex_rs : list wrec := map ex_r ex_cs.

Lemma write_all_ok fuel sha1 k o rs : forall ws, write_all fuel sha1 k o rs = (Ok tt, ws) ->
  exists xs, Forall2 (fun r x => write_record fuel sha1 k o r = (Ok tt, fst x, snd x)) rs xs
    /\ concat ws = concat (map (fun x => concat (fst x)) xs).
Proof.
  induction rs as [|r rs IH]; intros ws H; cbn [write_all] in H.
  - injection H as <-. exists []. split; [constructor|reflexivity].
  - destruct (write_record fuel sha1 k o r) as [[[u|e] w1] r1] eqn:E; [|discriminate].
    destruct (write_all fuel sha1 k o rs) as [x w2]. injection H as -> <-. destruct u.
    destruct (IH w2 eq_refl) as (xs & HF & Hc). exists ((w1, r1) :: xs). split; [now constructor|].
    cbn [map concat fst]. now rewrite concat_app, Hc.
Qed.
Lemma write_all_app fuel sha1 k o a b ws : write_all fuel sha1 k o (a ++ b) = (Ok tt, ws) ->
  exists w1 w2, write_all fuel sha1 k o a = (Ok tt, w1) /\ write_all fuel sha1 k o b = (Ok tt, w2) /\ ws = w1 ++ w2.
Proof.
  revert ws. induction a as [|r a IH]; intros ws H; cbn [app write_all] in *.
  - exists [], ws. auto.
  - destruct (write_record fuel sha1 k o r) as [[[u|e] w0] r1]; [|discriminate].
    destruct (write_all fuel sha1 k o (a ++ b)) as [x w]. injection H as -> <-.
    destruct (IH w eq_refl) as (w1 & w2 & -> & -> & ->). exists (w0 ++ w1), w2. now rewrite app_assoc.
Qed.
Lemma Forall2_nth {A B} (P : A -> B -> Prop) a b : Forall2 P a b -> forall i x y, nth_error a i = Some x -> nth_error b i = Some y -> P x y.
Proof. induction 1; intros [|i] x' y' H1 H2; cbn in *; try discriminate; [congruence|eauto]. Qed.
Lemma write_record_plain fuel sha1 k v r ws r' : write_record fuel sha1 k (mk_wopts v None false) r = (Ok tt, ws, r') ->
  write_plain fuel sha1 None r = (Ok tt, ws, r').
Proof. unfold write_record. cbn. destruct (write_plain fuel sha1 None r) as [[x w] r1]. now intros [= -> <- <-]. Qed.
Lemma write_record_gz fuel sha1 k v r ws r' : write_record fuel sha1 k (mk_wopts v None true) r = (Ok tt, ws, r') ->
  exists ws0, write_plain fuel sha1 None r = (Ok tt, ws0, r') /\ ws = gz_writes k (kinit k) ws0 true.
Proof. unfold write_record. cbn. destruct (write_plain fuel sha1 None r) as [[x w] r1]. intros [= -> <- <-]. now exists w. Qed.

(** the entries of a list of written records *)
Lemma written_entries fuel sha1 k he o M : hash_bytes sha1 -> lo_norec o = false -> digests_off o -> forall cs rs, Forall2 (readable fuel sha1 M (lo_verify o)) cs rs ->
  forall ws, write_all fuel sha1 k plain_opts rs = (Ok tt, ws) -> enough fuel (concat ws) ->
  exists es, texts es = concat ws /\ List.length es = List.length rs
    /\ (forall i e, nth_error es i = Some e -> good_entry fuel he o M [URead None] e)
    /\ forall i c r e, nth_error cs i = Some c -> nth_error rs i = Some r -> nth_error es i = Some e ->
       exists ws' r', write_plain fuel sha1 None r = (Ok tt, ws', r')
         /\ forall zl off len ob, observed (zl:=zl) he o (e_rec e) (e_http e) (e_payload e) off len [URead None] ob ->
              returned c r (sh_headers (wr_headers r')) ob.
Proof.
  intros Hh Hn Ho. induction 1 as [|c r cs rs Hr _ IH]; intros ws Hw Hfu; cbn [write_all] in Hw.
  - injection Hw as <-. exists []. split; [reflexivity|]. split; [reflexivity|]. split; [intros [|i] e Hi; discriminate|]. intros [|i] ? ? ? Hi; discriminate.
  - destruct (write_record fuel sha1 k plain_opts r) as [[[u|e] w1] r1] eqn:E; [|discriminate].
    destruct (write_all fuel sha1 k plain_opts rs) as [x w2]. injection Hw as -> <-. destruct u.
    apply write_record_plain in E. unfold enough in Hfu. rewrite concat_app, app_length in Hfu.
    destruct Hr as ((f & Hc) & Hro & Hfc).
    destruct (written_entry fuel sha1 he o M f c r w1 r1 Hfc Hh Hn Ho Hro Hc E) as (e & Et & Hg & Hret). { unfold enough. lia. }
    destruct (IH w2 eq_refl) as (es & Ets & Hl & Hgs & Hrs). { unfold enough. lia. }
    exists (e :: es). split; [unfold texts in *; cbn; rewrite concat_app; congruence|]. split; [cbn; congruence|]. split.
    + intros [|i] e' Hi; cbn in Hi; [injection Hi as <-; exact Hg|eauto].
    + intros [|i] c' r' e' H1 H2 H3; cbn in H1, H2, H3.
      * injection H1 as <-. injection H2 as <-. injection H3 as <-. exists w1, r1. split; [exact E|]. intros; eapply Hret; eauto.
      * eauto.
Qed.
Lemma Forall2_nth_ex {A B} (P : A -> B -> Prop) a b : Forall2 P a b -> forall i x, nth_error a i = Some x -> exists y, nth_error b i = Some y /\ P x y.
Proof. induction 1; intros [|i] x' H1; cbn in *; try discriminate; [injection H1 as <-; eauto|eauto]. Qed.
Lemma nth_len {A B} (a : list A) (b : list B) i x : List.length b = List.length a -> nth_error a i = Some x -> exists y, nth_error b i = Some y.
Proof.
  intros Hl Hi. destruct (nth_error b i) as [y|] eqn:E; [eauto|]. apply nth_error_None in E.
  assert (i < List.length a)%nat by (apply nth_error_Some; congruence). lia.
Qed.
Lemma ex_line v : forallb is_scalar v = true -> forallb (fun c => negb (c =? 10)%N) v = true -> line_text v.
Proof.
  rewrite !forallb_forall. intros H1 H2. unfold line_text. repeat split; auto. intros H. specialize (H2 _ H). discriminate.
Qed.
Lemma ex_ascii v : forallb (fun c => (c <? 128)%N) v = true -> ascii_text v.
Proof. rewrite forallb_forall. intros H. intros c Hc. specialize (H c Hc). lia. Qed.
Lemma ex_lead v : match v with c :: _ => is_uspace c | [] => false end = false -> no_lead is_uspace v.
Proof. intros H c t ->. exact H. Qed.
Lemma ex_trail v : is_uspace (last v 65%N) = false -> no_trail is_uspace v.
Proof. intros H c t ->. now rewrite last_last in H. Qed.
Lemma ex_value v : forallb is_scalar v = true -> forallb (fun c => negb (c =? 10)%N) v = true ->
  match v with c :: _ => is_uspace c | [] => false end = false -> is_uspace (last v 65%N) = false -> wf_value v.
Proof. intros. split; [now apply ex_line|]. split; [now apply ex_lead|now apply ex_trail]. Qed.
Lemma ex_hdr' n v : forallb is_scalar n = true -> forallb (fun c => negb ((c =? 10) || (c =? 58) || is_sp_tab c)%N) n = true ->
  wf_value v -> wf_header (n, v).
Proof.
  intros H1 H2 (Hl & Hb & He). pose proof (ex_hdr n [] H1 eq_refl H2 eq_refl) as (A1 & A2 & A3 & A4 & _). unfold wf_header in *. cbn [fst snd] in *. tauto.
Qed.
Lemma toy_body_feed w zs : zfeed toy_z TB (toy_body w ++ zs) =
  match zfeed toy_z TB zs with Some (o, d) => Some (w ++ o, d) | None => None end.
Proof.
  induction w as [|x w IH]; [cbn [toy_body flat_map app]; destruct (zfeed toy_z TB zs) as [[? ?]|]; reflexivity|].
  cbn [toy_body flat_map app] in *. cbn [zfeed toy_z zstep toy_step N.eqb Pos.eqb]. fold toy_z. unfold toy_body in IH. rewrite IH. destruct (zfeed toy_z TB zs) as [[? ?]|]; reflexivity.
Qed.
Lemma toy_codec_pf : gzip_codec toy_z toy_k.
Proof.
  intros ws. unfold is_member.
  assert (T : forall ws, zfeed toy_z TB (deflated toy_k true ws) = Some (concat ws, DDone [])).
  { induction ws0 as [|w ws0 IH]; [reflexivity|]. cbn [deflated toy_k kcompress app concat fst snd]. rewrite toy_body_feed.
    fold toy_k. rewrite IH. reflexivity. }
  destruct ws as [|w ws]; [reflexivity|]. cbn [deflated toy_k kcompress kinit app concat fst snd]. fold toy_k. cbn [zfeed toy_z zinit toy_init zstep toy_step N.eqb Pos.eqb].
  fold toy_z. rewrite toy_body_feed, T. reflexivity.
Qed.
Lemma ex_created_pf : Forall2 (readable 600 toy_hash 200 false) ex_cs ex_rs.
Proof.
  constructor; [|constructor; [|constructor]].
  - split; [exists None; reflexivity|]. split; [|vm_compute; lia]. constructor.
    + split; [reflexivity|right; reflexivity].
    + split; [vm_compute; auto|vm_compute; discriminate].
    + split; [|vm_compute; lia]. constructor; [|constructor]. apply ex_hdr; reflexivity.
    + split; [apply ex_value; reflexivity|]. split; [apply ex_value; reflexivity|]. split; [apply ex_value; reflexivity|].
      split; [apply ex_line; reflexivity|]. apply (ex_value (lit "http://a/")); reflexivity.
    + split; [vm_compute; intuition discriminate|]. intros m E. vm_compute in E. discriminate.
    + intros _ _. vm_compute. discriminate.
    + intros E. vm_compute in E. discriminate.
    + cbv zeta. change (wr_http (ex_r ex_c1)) with (Some ex_h). split; [reflexivity|]. split.
      { split; [left; vm_compute; reflexivity|]. exists (lit "//a/"). left. vm_compute. reflexivity. }
      split.
      { split; [discriminate|]. split; [apply ex_line; reflexivity|]. split; [apply ex_trail; reflexivity|].
        split; [apply ex_line; reflexivity|]. split; [apply ex_lead; reflexivity|]. split; [apply ex_trail; reflexivity|].
        split; [|constructor; [|constructor]; apply ex_hdr'; [reflexivity|reflexivity|apply ex_value; reflexivity]].
        vm_compute. intuition discriminate. }
      split.
      { split; [apply ex_ascii; reflexivity|]. split; [apply ex_ascii; reflexivity|].
        constructor; [|constructor]. split; apply ex_ascii; reflexivity. }
      split; [lia|]. split; [vm_compute; discriminate|]. constructor; [|constructor]. vm_compute. discriminate.
  - split; [exists None; reflexivity|]. split; [|vm_compute; lia]. constructor.
    + split; [reflexivity|now left].
    + split; [vm_compute; auto|vm_compute; discriminate].
    + split; [|vm_compute; lia]. constructor.
    + split; [apply ex_value; reflexivity|]. split; [apply ex_value; reflexivity|]. split; [apply ex_value; reflexivity|].
      split; [apply ex_line; reflexivity|exact I].
    + vm_compute. exact I.
    + intros [H|[H|H]]; vm_compute in H; discriminate.
    + intros E. vm_compute in E. discriminate.
    + left. intros ([H|[H|H]] & _); vm_compute in H; discriminate.
Qed.
Lemma ex_written_pf : fst (write_all 600 toy_hash toy_k plain_opts ex_rs) = Ok tt
  /\ enough 600 (concat (snd (write_all 600 toy_hash toy_k plain_opts ex_rs))).
Proof. split; [vm_compute; reflexivity|]. unfold enough. vm_compute. lia. Qed.
Lemma ex_hash_pf : hash_bytes toy_hash.
Proof.
  intros b. unfold toy_hash. repeat constructor; try (apply N.mod_upper_bound; discriminate).
Qed.

Lemma C27_write_read_partial_pf :
  forall (zl : zenv) fuel sha1 k he o M cs rs ws sched block known n,
  gz_magic zl -> hash_bytes sha1 -> lo_norec o = false -> digests_off o ->
  Forall2 (readable fuel sha1 M (lo_verify o)) cs rs ->
  write_all fuel sha1 k plain_opts rs = (Ok tt, ws) ->
  enough fuel (concat ws) -> first_two block sched -> reads_fit M block sched -> 0 <= M ->
  known <> Some FArc -> (List.length rs < n)%nat ->
  exists obs, run_iter (zl:=zl) fuel he o n (fun _ => [URead None]) 0 (iter_new (raw_open (concat ws) sched) block known) = (obs, EndStop)
    /\ all_returned fuel sha1 cs rs obs.
Proof.
intros zl fuel sha1 k he o M cs rs ws sched block known n Hz Hh Hn Ho HF Hw Hfu Hf Hr HM Hk Hlen. assert (Ho2 : lo_ensure o = false) by apply Ho.
destruct (written_entries fuel sha1 k he o M Hh Hn Ho cs rs HF ws Hw Hfu) as (es & Et & Hl & Hg & Hret).
destruct (run_from (zl:=zl) fuel he o M (fun _ => [URead None]) 0 es sched block known n Hz Hf Hr HM) as (obs & E & Hlo & Hob); auto.
{ now rewrite Et. } { lia. }
rewrite Et in E. exists obs. split; [exact E|]. split; [congruence|]. intros i c r ob H1 H2 H3.
destruct (nth_len obs es i ob ltac:(congruence) H3) as (e & He).
destruct (Hret i c r e H1 H2 He) as (ws' & r' & Ew & X). exists ws', r'. split; [exact Ew|]. eapply X. exact (Hob i e ob He H3).
Qed.

Lemma C28_write_read_gzip_partial_pf :
  forall (zl : zenv) fuel sha1 k he o M cs rs ms ws sched block known n,
  gzip_codec zl k -> hash_bytes sha1 -> lo_norec o = false -> digests_off o ->
  Forall2 (readable fuel sha1 M (lo_verify o)) cs rs -> rs <> [] ->
  write_all fuel sha1 k gzip_opts rs = (Ok tt, ws) -> Forall2 (written_member fuel sha1 k) rs ms ->
  enough fuel (concat ws) ->
  (forall r ws' r', In r rs -> write_plain fuel sha1 None r = (Ok tt, ws', r') -> enough fuel (concat ws')) ->
  M <= 1 \/ (sched = [] /\ forall i c r m, nth_error cs i = Some c -> nth_error rs i = Some r -> nth_error ms i = Some m ->
                written_fit zl fuel sha1 block c r m) -> 0 < block -> 0 <= M ->
  known <> Some FArc -> (List.length rs < n)%nat ->
  concat ws = concat ms
  /\ Forall2 (fun r m => exists ws' r', write_plain fuel sha1 None r = (Ok tt, ws', r') /\ is_member zl m (concat ws')) rs ms
  /\ exists obs, run_iter (zl:=zl) fuel he o n (fun _ => [URead None]) 0 (iter_new (raw_open (concat ws) sched) block known) = (obs, EndStop)
     /\ all_returned fuel sha1 cs rs obs
     /\ forall i m ob, nth_error ms i = Some m -> nth_error obs i = Some ob ->
          ob_info ob = Ok (Some (lenZ (concat (firstn i ms)), lenZ m)).
Proof.
intros zl fuel sha1 k he o M cs rs ms ws sched block known n Hz Hh Hn Ho HF Hne Hw Hms Hfu Hfp Hfit Hb HM Hk Hlen. assert (Ho2 : lo_ensure o = false) by apply Ho.
assert (Ec : concat ws = concat ms).
{ clear - Hw Hms. revert ws Hw. induction Hms as [|r m rs ms (w & r' & E & ->) _ IH]; intros ws Hw; cbn [write_all] in Hw; [now injection Hw as <-|].
  fold gzip_opts in E. rewrite E in Hw. destruct (write_all fuel sha1 k gzip_opts rs) as [x w2]. injection Hw as -> <-. cbn [concat]. rewrite concat_app. f_equal. now apply IH. }
assert (Hmem : Forall2 (fun r m => exists ws' r', write_plain fuel sha1 None r = (Ok tt, ws', r') /\ is_member zl m (concat ws')) rs ms).
{ clear - Hms Hz. induction Hms as [|r m rs ms (w & r' & E & ->) _ IH]; constructor; [|exact IH].
  destruct (write_record_gz _ _ _ _ _ _ _ E) as (w0 & E0 & ->). exists w0, r'. split; [exact E0|]. rewrite gz_writes_deflated. apply Hz. }
split; [exact Ec|]. split; [exact Hmem|].
assert (exists ems, map snd ems = ms /\ List.length ems = List.length rs
   /\ (forall i e m, nth_error ems i = Some (e, m) -> good_entry fuel he o M [URead None] e /\ is_member zl m (e_text e) /\ enough fuel (e_text e))
   /\ forall i c r e m, nth_error cs i = Some c -> nth_error rs i = Some r -> nth_error ems i = Some (e, m) ->
       exists ws' r', write_plain fuel sha1 None r = (Ok tt, ws', r')
         /\ (e_text e = concat ws' /\ (cr_type c = lit "revisit" -> e_payload e = []) /\ (cr_type c <> lit "revisit" -> e_payload e = ps_rest (wr_stream r)))
         /\ forall off len ob, observed (zl:=zl) he o (e_rec e) (e_http e) (e_payload e) off len [URead None] ob ->
              returned c r (sh_headers (wr_headers r')) ob) as (ems & Es & Hl & Hg & Hret).
{ clear - HF Hmem Hfp Hh Hn Ho. revert ms Hmem. induction HF as [|c r cs rs Hr _ IH]; intros ms Hmem.
  - inversion Hmem; subst. exists []. split; [reflexivity|]. split; [reflexivity|]. split; [intros [|i] ? ? Hi; discriminate|intros [|i] ? ? ? ? Hi; discriminate].
  - inversion Hmem as [|? m ? ms' (w & r' & E & Hm) Hmem']; subst. destruct Hr as ((f & Hc) & Hro & Hfc).
    pose proof (Hfp r w r' (or_introl eq_refl) E) as Hfw.
    destruct (written_entry fuel sha1 he o M f c r w r' Hfc Hh Hn Ho Hro Hc E Hfw) as (e & Et & Hg & Hpl & Hret).
    destruct (IH (fun r0 w0 r0' Hin => Hfp r0 w0 r0' (or_intror Hin)) ms' Hmem') as (ems & Es & Hl & Hgs & Hrs).
    exists ((e, m) :: ems). split; [cbn; congruence|]. split; [cbn; congruence|]. split.
    + intros [|i] e' m' Hi; cbn in Hi; [injection Hi as <- <-; rewrite Et; auto|eauto].
    + intros [|i] c' r0 e' m' H1 H2 H3; cbn in H1, H2, H3; [|eauto].
      injection H1 as <-. injection H2 as <-. injection H3 as <- <-. exists w, r'. split; [exact E|]. split; [now split|]. intros; eapply Hret; eauto. }
assert (Hlc : List.length cs = List.length rs) by (clear - HF; induction HF; cbn; auto).
destruct (gz_archive (zl:=zl) fuel he o M (fun _ => [URead None]) 0 ems sched block known n) as (obs & E & Hlo & Hob); auto.
{ intros ->. destruct rs; [contradiction|discriminate]. }
{ destruct Hfit as [Hf|(Hf1 & Hf2)]; [now left|right]. split; [exact Hf1|]. intros i e m Hi.
  destruct (nth_len ems rs i _ (eq_sym Hl) Hi) as (r & Hr). destruct (nth_len rs cs i _ Hlc Hr) as (c & Hc).
  assert (Hm : nth_error ms i = Some m) by (rewrite <- Es, nth_error_map, Hi; reflexivity).
  destruct (Hret i c r e m Hc Hr Hi) as (w & r' & E & (Et & P1 & P2) & _).
  destruct (Hf2 i c r m Hc Hr Hm) as [X|(w2 & r2 & pl & od & d & E2 & Q1 & Q2 & Ez & X)]; [now left|right].
  split; [repeat constructor|]. exists od, d. split; [exact Ez|]. rewrite E in E2. injection E2 as <- <-. rewrite Et.
  replace (e_payload e) with pl; [exact X|]. destruct (leqb (cr_type c) (lit "revisit")) eqn:El; [apply leqb_eq in El; now rewrite Q1, P1|].
  apply leqb_neq in El. now rewrite Q2, P2. }
{ unfold gz_data. rewrite Es, <- Ec. exact Hfu. }
{ intros e m Hin. apply In_nth_error in Hin. destruct Hin as (i & Hi). now apply Hg in Hi. }
{ intros i e m Hi. destruct (Hg i e m Hi) as (X & Y & _). now split. }
{ lia. }
unfold gz_data in E. rewrite Es, <- Ec in E. exists obs. split; [exact E|]. split; [split; [congruence|]|].
- intros i c r ob H1 H2 H3. destruct (nth_len obs ems i ob ltac:(congruence) H3) as ([e m] & He).
  destruct (Hret i c r e m H1 H2 He) as (ws' & r' & Ew & _ & X). exists ws', r'. split; [exact Ew|]. eapply X. exact (Hob i e m ob He H3).
- intros i m ob H1 H2. destruct (nth_len obs ems i ob ltac:(congruence) H2) as ([e m'] & He).
  assert (m' = m) as ->. { rewrite <- Es in H1. rewrite (map_nth_error snd i ems He) in H1. now injection H1. }
  pose proof (Hob i e m ob He H2) as X. pose proof (ob_place _ _ _ _ _ _ _ _ _ X) as Hi. rewrite Hi. unfold gz_position, gz_data. rewrite <- Es, firstn_map. reflexivity.
Qed.

Lemma C33_concatenation_pf :
  forall fuel sha1 k o rs ws,
  write_all fuel sha1 k o rs = (Ok tt, ws) ->
  (forall a b, rs = a ++ b -> exists w1 w2, write_all fuel sha1 k o a = (Ok tt, w1) /\ write_all fuel sha1 k o b = (Ok tt, w2)
                                /\ concat ws = concat w1 ++ concat w2)
  /\ exists outs, concat ws = concat outs /\ Forall2 (fun r out => exists w r', write_record fuel sha1 k o r = (Ok tt, w, r') /\ out = concat w) rs outs.
Proof.
intros fuel sha1 k o rs ws H. split.
- intros a b ->. destruct (write_all_app _ _ _ _ _ _ _ H) as (w1 & w2 & E1 & E2 & ->). exists w1, w2. now rewrite concat_app.
- destruct (write_all_ok _ _ _ _ _ _ H) as (xs & HF & Hc). exists (map (fun x => concat (fst x)) xs). split; [exact Hc|].
  clear - HF. induction HF as [|r x rs xs E _ IH]; constructor; [|exact IH]. eauto.
Qed.

Lemma C33_append_partial_pf :
  forall (zl : zenv) fuel sha1 k he o M es cs rs ws sched block known n,
  gz_magic zl -> hash_bytes sha1 -> lo_norec o = false -> digests_off o ->
  (forall i e, nth_error es i = Some e -> good_entry fuel he o M [URead None] e) ->
  Forall2 (readable fuel sha1 M (lo_verify o)) cs rs ->
  write_all fuel sha1 k plain_opts rs = (Ok tt, ws) ->
  enough fuel (texts es ++ concat ws) -> first_two block sched -> reads_fit M block sched -> 0 <= M ->
  known <> Some FArc -> (List.length es + List.length rs < n)%nat ->
  exists old new, run_iter (zl:=zl) fuel he o n (fun _ => [URead None]) 0 (iter_new (raw_open (texts es ++ concat ws) sched) block known) = (old ++ new, EndStop)
    /\ List.length old = List.length es
    /\ (forall i e ob, nth_error es i = Some e -> nth_error old i = Some ob ->
         observed he o (e_rec e) (e_http e) (e_payload e) (position i es) (lenZ (e_text e) - 4) [URead None] ob)
    /\ all_returned fuel sha1 cs rs new.
Proof.
intros zl fuel sha1 k he o M es cs rs ws sched block known n Hz Hh Hn Ho Hold HF Hw Hfu Hf Hr HM Hk Hlen. assert (Ho2 : lo_ensure o = false) by apply Ho.
unfold enough in Hfu. rewrite app_length in Hfu.
destruct (written_entries fuel sha1 k he o M Hh Hn Ho cs rs HF ws Hw ltac:(unfold enough; lia)) as (es2 & Et & Hl & Hg & Hret).
destruct (run_from (zl:=zl) fuel he o M (fun _ => [URead None]) 0 (es ++ es2) sched block known n Hz Hf Hr HM) as (obs & E & Hlo & Hob); auto.
{ unfold enough. rewrite texts_app, Et, app_length. lia. }
{ intros i e Hi. destruct (Nat.lt_ge_cases i (List.length es)) as [Hlt|Hge].
  - rewrite nth_error_app1 in Hi by lia. eauto.
  - rewrite nth_error_app2 in Hi by lia. eauto. }
{ rewrite app_length. lia. }
rewrite texts_app, Et in E. rewrite app_length in Hlo.
exists (firstn (List.length es) obs), (skipn (List.length es) obs). rewrite firstn_skipn. split; [exact E|]. split; [rewrite firstn_length; lia|]. split; [|split].
- intros i e ob Hi Hi'. assert (Hlt : (i < List.length es)%nat) by (apply nth_error_Some; congruence).
  assert (Hio : nth_error obs i = Some ob).
  { rewrite <- (firstn_skipn (List.length es) obs). rewrite nth_error_app1 by (rewrite firstn_length; lia). exact Hi'. }
  pose proof (Hob i e ob ltac:(rewrite nth_error_app1 by lia; exact Hi) Hio) as X. unfold position in *. rewrite firstn_app in X.
  replace (i - List.length es)%nat with 0%nat in X by lia. cbn [firstn] in X. rewrite app_nil_r in X. exact X.
- rewrite skipn_length. lia.
- intros i c r ob H1 H2 H3. rewrite nth_skipn in H3.
  assert (Hlr : (i < List.length rs)%nat) by (apply nth_error_Some; congruence).
  destruct (nth_len rs es2 i r Hl H2) as (e & He).
  destruct (Hret i c r e H1 H2 He) as (ws' & r' & Ew & X). exists ws', r'. split; [exact Ew|]. eapply X.
  apply (Hob (List.length es + i)%nat e ob); [|exact H3]. rewrite nth_error_app2 by lia. replace (List.length es + i - List.length es)%nat with i by lia. exact He.
Qed.

Lemma C34_iterate_gzip_partial_pf :
  forall (zl : zenv) fuel he o M prog ms sched block known n,
  ms <> [] -> gz_fit zl M block sched prog ms -> 0 < block -> 0 <= M ->
  enough fuel (gz_data ms) -> (forall e m, In (e, m) ms -> enough fuel (e_text e)) ->
  (forall i e m, nth_error ms i = Some (e, m) -> good_entry fuel he o M (prog i) e /\ is_member zl m (e_text e)) ->
  lo_ensure o = false -> known <> Some FArc -> (List.length ms < n)%nat ->
  exists obs, run_iter (zl:=zl) fuel he o n prog 0 (iter_new (raw_open (gz_data ms) sched) block known) = (obs, EndStop)
    /\ List.length obs = List.length ms
    /\ forall i e m ob, nth_error ms i = Some (e, m) -> nth_error obs i = Some ob ->
         observed he o (e_rec e) (e_http e) (e_payload e) (gz_position i ms) (lenZ m) (prog i) ob.
Proof.
intros zl fuel he o M prog ms sched block known n. exact (gz_archive fuel he o M prog 0 ms sched block known n).
Qed.

Lemma C36_random_access_gzip_partial_pf :
  forall (zl : zenv) fuel he o M prog ms sched block known n k,
  (k < List.length ms)%nat -> gz_fit zl M block sched prog (skipn k ms) -> 0 < block -> 0 <= M ->
  enough fuel (gz_data ms) -> (forall e m, In (e, m) ms -> enough fuel (e_text e)) ->
  (forall i e m, nth_error ms (k + i) = Some (e, m) -> good_entry fuel he o M (prog i) e /\ is_member zl m (e_text e)) ->
  lo_ensure o = false -> known <> Some FArc -> (List.length ms < n)%nat ->
  let off := gz_position k ms in
  (exists obs, run_iter (zl:=zl) fuel he o n prog 0 (iter_new (mk_raw (dropZ off (gz_data ms)) off sched) block known) = (obs, EndStop)
    /\ List.length obs = (List.length ms - k)%nat
    /\ forall i e m ob, nth_error ms (k + i) = Some (e, m) -> nth_error obs i = Some ob ->
         observed he o (e_rec e) (e_http e) (e_payload e) (gz_position (k + i) ms) (lenZ m) (prog i) ob)
  /\ forall e m, nth_error ms k = Some (e, m) -> takeZ (lenZ m) (dropZ off (gz_data ms)) = m.
Proof.
intros zl fuel he o M prog ms sched block known n k Hkl Hfit Hb HM Hfu Hfe Hg Ho Hk Hn off.
assert (Hsp : forall j (l : list (entry * bytes)), gz_data l = gz_data (firstn j l) ++ gz_data (skipn j l)).
{ intros j l. unfold gz_data. rewrite <- concat_app, <- map_app, firstn_skipn. reflexivity. }
assert (Ed : dropZ off (gz_data ms) = gz_data (skipn k ms)).
{ rewrite (Hsp k ms). unfold off, gz_position. apply dropZ_app_exact. }
assert (Hin : forall x, In x (skipn k ms) -> In x ms) by (intros x Hx; rewrite <- (firstn_skipn k ms); apply in_or_app; now right).
rewrite Ed. split.
- destruct (gz_archive (zl:=zl) fuel he o M prog off (skipn k ms) sched block known n) as (obs & E & Hl & Hob); auto.
  + intros E. apply (f_equal (@List.length _)) in E. rewrite skipn_length in E. cbn in E. lia.
  + unfold enough in *. rewrite (Hsp k ms), app_length in Hfu. lia.
  + intros e m Hi. eauto.
  + intros i e m Hi. rewrite nth_skipn in Hi. auto.
  + rewrite skipn_length. lia.
  + exists obs. split; [exact E|]. split; [now rewrite Hl, skipn_length|]. intros i e m ob Hi Hi'.
    replace (gz_position (k + i) ms) with (off + gz_position i (skipn k ms)).
    * apply Hob; [now rewrite nth_skipn|exact Hi'].
    * unfold off, gz_position. rewrite firstn_add. unfold gz_data. rewrite map_app, concat_app, lenZ_app. reflexivity.
- intros e m He.
  assert (exists tl, skipn k ms = (e, m) :: tl) as (tl & ->).
  { pose proof (nth_skipn k ms 0) as Hn0. rewrite Nat.add_0_r, He in Hn0. destruct (skipn k ms) as [|x tl]; [discriminate|].
    injection Hn0 as ->. eauto. }
  unfold gz_data. cbn [map concat snd]. apply takeZ_app_exact.
Qed.

Lemma C42_multi_record_partial_pf :
  forall (zl : zenv) fuel he o M prog (ms : list (entry * bytes)) m es sched block known n,
  (2 <= List.length es)%nat -> is_member zl m (texts es) -> enough fuel (texts es) ->
  (M <= 1 \/ (sched = [] /\ lenZ m <= block)) -> gz_fit zl M block sched prog ms -> 0 < block -> 0 <= M ->
  enough fuel (gz_data ms ++ m) -> (forall e m, In (e, m) ms -> enough fuel (e_text e)) ->
  (forall i e m, nth_error ms i = Some (e, m) -> good_entry fuel he o M (prog i) e /\ is_member zl m (e_text e)) ->
  (forall e, In e es -> good_entry fuel he o M (prog (List.length ms)) e) ->
  lo_ensure o = false -> known <> Some FArc -> (List.length ms + 1 < n)%nat ->
  exists obs ob len, run_iter (zl:=zl) fuel he o n prog 0 (iter_new (raw_open (gz_data ms ++ m) sched) block known) = (obs ++ [ob], EndExn ArchiveLoadFailed)
    /\ List.length obs = List.length ms
    /\ (forall i e m ob, nth_error ms i = Some (e, m) -> nth_error obs i = Some ob ->
         observed he o (e_rec e) (e_http e) (e_payload e) (gz_position i ms) (lenZ m) (prog i) ob)
    /\ forall e, nth_error es 0 = Some e -> observed he o (e_rec e) (e_http e) (e_payload e) (lenZ (gz_data ms)) len (prog (List.length ms)) ob.
Proof.
intros zl fuel he o M prog ms m es sched block known n. exact (gz_archive_multi fuel he o M prog 0 ms m es sched block known n).
Qed.

Lemma C42_followed_refuted_pf :
  exists m1 m2 obs, m1 = toy_gz (concat (snd (write_all 600 toy_hash toy_k plain_opts ex_rs)))
  /\ m2 = toy_gz (concat (snd (write_all 600 toy_hash toy_k plain_opts [ex_r ex_c2]))) /\ lenZ m1 = 1143
  /\ run_iter (zl:=toy_z) 3000 toy_henv (mk_lopts false false false false KFalse (lit "u")) 9 (fun _ => []) 0 (iter_new (raw_open (m1 ++ m2) []) 3000 None)
     = (obs, EndExn ArchiveLoadFailed)
  /\ map (fun ob => (rc_type (ob_record ob), ob_info ob)) obs
     = [(Some (lit "response"), Ok (Some (0, 920))); (Some (lit "resource"), Ok (Some (920, 449)))].
Proof.
eexists _, _, _. split; [reflexivity|]. split; [reflexivity|]. split; [vm_compute; reflexivity|]. split; [vm_compute; reflexivity|]. vm_compute. reflexivity.
Qed.
