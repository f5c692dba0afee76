(** * ExtractProofs: lemmas about the extractor *)
From Coq Require Import String List ZArith NArith Bool Lia.
From Coq Require Import ZifyBool ZifyNat ZifyN.
From Verif Require Import PyBase Utf8 Facts Headers Streams StreamSpec HeaderSpec HeaderProofs DigestSpec Loader Iterator WriterSpec WriterProofs IterSpec IterProofs Writer Cli CliSpec CliProofs TraceProofs CheckProofs.
Import ListNotations.
Open Scope Z_scope.

(** ** seeking to a record *)
Lemma placed_skip l : forall p k e off len, nth_error (placed p l) k = Some (e, (off, len)) ->
  off = p + position k l /\ skipn k (placed p l) = placed off (skipn k l).
Proof.
  induction l as [|a l IH]; intros p k e off len H; [destruct k; discriminate|]. destruct k as [|k].
  - injection H as _ <- _. split; [unfold position, texts; cbn; lia|reflexivity].
  - cbn [placed nth_error] in H. destruct (IH _ _ _ _ _ H) as [-> E]. cbn [placed skipn]. rewrite E. split; [|reflexivity].
    unfold position, texts. cbn [firstn map concat]. rewrite lenZ_app. lia.
Qed.
Lemma placed_gz_skip l : forall p k e off len, nth_error (placed_gz p l) k = Some (e, (off, len)) ->
  off = p + gz_position k l /\ skipn k (placed_gz p l) = placed_gz off (skipn k l) /\ skipn k l <> [].
Proof.
  induction l as [|[a m] l IH]; intros p k e off len H; [destruct k; discriminate|]. destruct k as [|k].
  - injection H as _ <- _. split; [unfold gz_position, gz_data; cbn; lia|]. split; [reflexivity|discriminate].
  - cbn [placed_gz nth_error] in H. destruct (IH _ _ _ _ _ H) as (-> & E & Hn). cbn [placed_gz skipn]. rewrite E.
    split; [|split; [reflexivity|exact Hn]].
    unfold gz_position, gz_data. cbn [firstn map concat snd]. rewrite lenZ_app. lia.
Qed.
Lemma drop_texts k l : dropZ (position k l) (texts l) = texts (skipn k l).
Proof.
  unfold position. rewrite <- (firstn_skipn k l) at 2. unfold texts. rewrite map_app, concat_app. apply dropZ_app_exact.
Qed.
Lemma drop_gz k l : dropZ (gz_position k l) (gz_data l) = gz_data (skipn k l).
Proof.
  unfold gz_position. rewrite <- (firstn_skipn k l) at 2. unfold gz_data. rewrite map_app, concat_app. apply dropZ_app_exact.
Qed.
Lemma Forall_skipn {A} (P : A -> Prop) l k : Forall P l -> Forall P (skipn k l).
Proof. intros H. rewrite <- (firstn_skipn k l) in H. now apply Forall_app in H. Qed.
Lemma skip_length {A} (l : list A) k : (List.length (skipn k l) <= List.length l)%nat.
Proof. rewrite skipn_length. lia. Qed.
Lemma enough_drop fuel n (d : bytes) : enough fuel d -> enough fuel (dropZ n d).
Proof.
  assert (A : forall n, (List.length (dropZ n d) <= List.length d)%nat).
  { induction d as [|a l IH]; intros m; [apply le_n|]. cbn [dropZ]. destruct (0 <? m); [cbn [List.length]; apply le_S, IH|apply le_n]. }
  intros H. specialize (A n). unfold enough in *. lia.
Qed.

Lemma archive_seek {zl : zenv} quiet fuel he o M sched data es k e off len :
  good_archive quiet zl fuel he o M 0 sched data es -> nth_error es k = Some (e, (off, len)) ->
  good_archive quiet zl fuel he o M off sched (dropZ off data) (skipn k es) /\ hd_error (skipn k es) = Some (e, (off, len)).
Proof.
  intros HG Hk. split.
  - destruct HG as [l Hz Hf Hr HM Hfu Hg|ms Hne HM Hfit Hfu Hg].
    + destruct (placed_skip _ _ _ _ _ _ Hk) as [-> ->]. rewrite Z.add_0_l, drop_texts. constructor; auto.
      * rewrite <- drop_texts. now apply enough_drop.
      * now apply Forall_skipn.
    + destruct (placed_gz_skip _ _ _ _ _ _ Hk) as (-> & -> & Hn). rewrite Z.add_0_l, drop_gz. constructor; auto.
      * destruct Hfit as [Hfit|[-> Hfit]]; [now left|right]. split; [reflexivity|]. now apply Forall_skipn.
      * rewrite <- drop_gz. now apply enough_drop.
      * now apply Forall_skipn.
  - clear HG. revert k Hk. induction es as [|a es IH]; intros [|k] Hk; try discriminate; [exact Hk|]. cbn. now apply IH.
Qed.

(** the first record of an archive *)
Lemma first_record {zl : zenv} fuel he o M p sched data es e off len known :
  good_archive every zl fuel he o M p sched data es -> lo_ensure o = false -> known <> Some FArc -> hd_error es = Some (e, (off, len)) ->
  exists rc it0, iter_next (zl:=zl) fuel he o (iter_new (mk_raw data p sched) BUFF_SIZE known) = (Ok (Some rc), it0)
    /\ forall us, nonneg_ops us -> no_lines us ->
       exists ob it1, user_ops fuel us it0 = (map Ok (mem_user us (e_payload e)), it1) /\ ob_record ob = rc
         /\ observed (zl:=zl) he o (e_rec e) (e_http e) (e_payload e) off len us ob.
Proof.
  intros HG Ho Hk Hh. destruct es as [|x es]; [discriminate|]. injection Hh as ->.
  assert (A : forall us, nonneg_ops us -> no_lines us -> exists rc it0 it1 ob,
     iter_next (zl:=zl) fuel he o (iter_new (mk_raw data p sched) BUFF_SIZE known) = (Ok (Some rc), it0)
     /\ user_ops fuel us it0 = (map Ok (mem_user us (e_payload e)), it1) /\ ob_record ob = rc
     /\ observed (zl:=zl) he o (e_rec e) (e_http e) (e_payload e) off len us ob).
  { intros us H1 H2. destruct (archive_run every fuel he o M p sched data _ (fun _ => us) known (Datatypes.S (List.length ((e, (off, len)) :: es))) HG Ho Hk ltac:(lia)) as (obs & E & Hl & Hob).
    { intros _. split; [exact H1|]. eapply Forall_impl; [|exact H2]. intros [| |]; auto. contradiction. }
    { intros _ _ _ _ _. exact H2. }
    destruct obs as [|ob obs]; [discriminate|]. specialize (Hob O e off len ob eq_refl eq_refl).
    cbn [run_iter] in E.
    destruct (iter_next fuel he o (iter_new (mk_raw data p sched) BUFF_SIZE known)) as [[[rc|]|ex] it0]; [|discriminate|discriminate].
    destruct (user_ops fuel us it0) as [xs it1] eqn:Eu. destruct (get_offset_length fuel it1) as [info it2].
    match type of E with (let (_, _) := ?r in _) = _ => destruct r as [os en] end. injection E as <- <- ->.
    pose proof (ob_data _ _ _ _ _ _ _ _ _ Hob) as D. cbn [ob_reads] in D. subst xs.
    eexists rc, it0, it1, _. split; [reflexivity|]. split; [exact Eu|]. split; [|exact Hob]. reflexivity. }
  destruct (A [] ltac:(constructor) ltac:(constructor)) as (rc & it0 & _ & _ & E & _). exists rc, it0. split; [exact E|].
  intros us H1 H2. destruct (A us H1 H2) as (rc' & it0' & it1 & ob & E' & Hu & Hr & Hob). rewrite E in E'. injection E' as <- <-.
  exists ob, it1. auto.
Qed.

Section Copy.
  Context {zl : zenv} (fuel : nat).
  Notation rdr := (breader zl raw).
  Notation rops := (rops (zl:=zl) fuel).

  Lemma copy_raw_calls n : forall st x ws, copy_raw (zl:=zl) fuel n st = (x, ws) ->
    exists m xs st', do_calls (rs_ops rops) (repeat (CRead (Some READ_SIZE)) m) st = (xs, st')
      /\ match x with
         | Ok _ => xs = map Ok ws ++ [Ok []]
         | Err e => In (Err e) xs \/ List.length xs = n /\ ~ In (Ok []) xs
         end.
  Proof.
    induction n as [|n IH]; intros st x ws H; cbn [copy_raw] in H.
    - injection H as <- <-. exists O, [], st. split; [reflexivity|]. right. now split.
    - destruct (rs_read rops (Some READ_SIZE) st) as [[[|a d]|e] st1] eqn:E.
      + injection H as <- <-. exists 1%nat, [Ok []], st1. split; [cbn [repeat do_calls do_call rs_ops o_read]; now rewrite E|reflexivity].
      + destruct (copy_raw fuel n st1) as [y ws'] eqn:Ec. injection H as <- <-.
        destruct (IH _ _ _ Ec) as (m & xs & st' & G1 & G2). exists (Datatypes.S m), (Ok (a :: d) :: xs), st'.
        split; [cbn [repeat do_calls do_call rs_ops o_read]; now rewrite E, G1|]. destruct y; [now rewrite G2|].
        destruct G2 as [G2|[G2 G3]]; [left; now right|right]. split; [cbn; congruence|]. intros [X|X]; [discriminate|auto].
      + injection H as <- <-. exists 1%nat, [Err e], st1. split; [cbn [repeat do_calls do_call rs_ops o_read]; now rewrite E|]. left. now left.
  Qed.

  Lemma read_chunks m : forall c ws, mem_user (repeat (URead (Some READ_SIZE)) m) c = ws ++ [[]] -> concat ws = c.
  Proof.
    induction m as [|m IH]; intros c ws H; [destruct ws; discriminate|]. cbn [repeat mem_user] in H.
    pose proof (read_of_split (Some READ_SIZE) c) as Sp.
    remember (read_of (Some READ_SIZE) c) as r eqn:Hr. destruct ws as [|w ws].
    - injection H as H _. rewrite H in Hr. cbn [concat]. destruct c as [|a c]; [reflexivity|]. exfalso.
      vm_compute in Hr. discriminate.
    - cbn [app] in H. injection H as H1 H2. subst w. apply IH in H2. cbn [concat]. rewrite H2. exact Sp.
  Qed.
End Copy.

Lemma printed_bytes h b : utf8_encode (printed (sh_proto h) (sh_status h) (sh_headers h)) = Some b -> to_bytes None h = Ok b.
Proof.
  intros H. unfold to_bytes.
  assert (E : printed (sh_proto h) (sh_status h) (sh_headers h) = to_str None h ++ crlf).
  { unfold printed, to_str. rewrite <- app_assoc. f_equal.
    - unfold first_line. destruct (sh_proto h), (sh_status h); cbn [is_nil negb andb app]; try reflexivity.
      rewrite <- !app_assoc. reflexivity.
    - f_equal. unfold header_lines. rewrite flat_map_concat_map. reflexivity. }
  rewrite E, utf8_encode_app in H. destruct (utf8_encode (to_str None h)) as [t|]; [|discriminate].
  change (utf8_encode crlf) with (Some crlf) in H. injection H as <-. reflexivity.
Qed.

Lemma extract_archive {zl : zenv} fuel he uuid M sched data es k e off len wb hb :
  good_archive every zl fuel he (extract_opts uuid) M 0 sched data es -> nth_error es k = Some (e, (off, len)) ->
  warc_text (e_rec e) wb -> http_text (e_http e) hb ->
  let f := seek_file data sched off in
  (exists ws, extract (zl:=zl) fuel he uuid false false f = (XOk, ws) /\ concat ws = wb ++ hb ++ e_payload e)
  /\ (exists ws, extract (zl:=zl) fuel he uuid false true f = (XOk, ws) /\ concat ws = wb ++ hb)
  /\ (plain_content (e_http e) -> exists ws, extract (zl:=zl) fuel he uuid true false f = (XOk, ws) /\ concat ws = e_payload e).
Proof.
  intros HG Hk Hw Hh f. destruct (archive_seek _ _ _ _ _ _ _ _ _ _ _ _ HG Hk) as [HG' Hhd].
  destruct (first_record fuel he (extract_opts uuid) M off sched (dropZ off data) (skipn k es) e off len None HG' eq_refl ltac:(discriminate) Hhd) as (rc & it0 & En & Hus).
  destruct (iter_next_some fuel he _ _ rc it0 En) as (Hrec & _ & _). pose proof (next_reader fuel he _ _ rc it0 En) as Hrd.
  destruct (Hus [] ltac:(constructor) ltac:(constructor)) as (ob & it1 & _ & Er & Hob).
  assert (archive_e := archive_entry _ _ _ _ _ _ _ _ _ _ _ _ HG (nth_error_In _ _ Hk)). destruct archive_e as [Hge Hen].
  assert (HB : to_bytes None (rc_headers rc) = Ok wb).
  { unfold to_bytes. rewrite <- Er. unfold warc_text in Hw.
    assert (w_version (e_rec e) <> []) as Hv.
    { destruct Hge as ((Hv & _) & _). intros X. rewrite X in Hv. vm_compute in Hv. intuition discriminate. }
    pose proof (to_str_record (rc_headers (ob_record ob))) as T.
    rewrite (ob_status _ _ _ _ _ _ _ _ _ Hob), (ob_version _ _ _ _ _ _ _ _ _ Hob), (ob_headers _ _ _ _ _ _ _ _ _ Hob) in T.
    specialize (T eq_refl Hv). rewrite <- T, utf8_encode_app in Hw.
    destruct (utf8_encode (to_str None (rc_headers (ob_record ob)))) as [t|]; [|discriminate].
    change (utf8_encode crlf) with (Some crlf) in Hw. injection Hw as <-. reflexivity. }
  assert (HH : exists w1, (match rc_http rc with
                     | Some h => if sah_bool h then
                                   match to_bytes None h with Ok b => Ok [b] | Err e => Err e end
                                 else Ok []
                     | None => Ok []
                     end) = Ok w1 /\ concat w1 = hb).
  { rewrite <- Er, (ob_http _ _ _ _ _ _ _ _ _ Hob). unfold http_text in Hh. destruct (e_http e) as [h|]; [|exists []; now subst].
    destruct (sah_bool h); [|exists []; now subst]. rewrite (printed_bytes h hb Hh). exists [hb]. split; [reflexivity|]. cbn. now rewrite app_nil_r. }
  destruct HH as (w1 & HH & Hw1).
  assert (HC : exists ws, copy_raw fuel fuel (rc_stream rc) = (Ok tt, ws) /\ concat ws = e_payload e).
  { destruct (copy_raw fuel fuel (rc_stream rc)) as [x ws] eqn:Ec. destruct (copy_raw_calls fuel fuel _ _ _ Ec) as (m & xs & st' & G1 & G2).
    pose proof (trace_user fuel _ it0 rc xs st' Hrec Hrd G1) as Hu.
    assert (map uop_of (repeat (CRead (Some READ_SIZE)) m) = repeat (URead (Some READ_SIZE)) m) as Em by (clear; induction m as [|m IH]; cbn [repeat map uop_of]; [reflexivity|now rewrite IH]).
    rewrite Em in Hu. destruct (Hus (repeat (URead (Some READ_SIZE)) m)) as (ob' & it1' & Hu' & _).
    { clear. induction m; constructor; [vm_compute; discriminate|assumption]. }
    { clear. induction m; constructor; [exact I|assumption]. }
    rewrite Hu in Hu'. injection Hu' as -> _. destruct x as [[]|ex].
    - exists ws. split; [reflexivity|]. apply (read_chunks m). clear - G2.
      assert (A : forall l l' : list bytes, map (@Ok bytes) l = map (@Ok bytes) l' -> l = l').
      { induction l as [|a l IH]; intros [|b l0] H; try discriminate; [reflexivity|]. injection H as -> H. f_equal. auto. }
      apply A. rewrite G2. now rewrite map_app.
    - exfalso. destruct G2 as [G2|[G2 G3]].
      + apply in_map_iff in G2 as (y & Y & _). discriminate.
      + rewrite map_length in G2. pose proof (mem_user_room (repeat (URead (Some READ_SIZE)) m) (e_payload e)) as R.
        pose proof (entry_payload _ _ _ _ _ _ Hge) as HP. unfold enough in Hen. rewrite G2 in R. unfold lenZ in *.
        lapply R; [lia|]. intros X. apply G3. now apply (in_map Ok) in X. }
  destruct HC as (ws & HC & Hws).
  split; [|split].
  - exists (wb :: w1 ++ ws). unfold extract, f, seek_file. rewrite En, HB, HH, HC. split; [reflexivity|]. cbn [concat]. rewrite concat_app, Hw1, Hws. reflexivity.
  - exists (wb :: w1). unfold extract, f, seek_file. rewrite En, HB, HH. split; [reflexivity|]. cbn [concat]. rewrite Hw1. reflexivity.
  - intros Hp. exists ws. unfold extract, f, seek_file. rewrite En.
    assert (content_stream (zl:=zl) (rc_http rc) (rc_stream rc) = CSraw (rc_stream rc)) as ->.
    { rewrite <- Er at 1. rewrite (ob_http _ _ _ _ _ _ _ _ _ Hob). apply (plain_raw (zl:=zl) _ Hp). }
    assert (forall n st, copy_content (zl:=zl) fuel n (CSraw st) = copy_raw fuel n st) as Hcc.
    { clear. induction n as [|n IH]; intros st; [reflexivity|]. cbn [copy_content copy_raw cs_read].
      destruct (rs_read _ _ _) as [[[|a d]|e] st1]; try reflexivity. now rewrite IH. }
    rewrite Hcc, HC. split; [reflexivity|exact Hws].
Qed.
