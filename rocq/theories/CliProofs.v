(** * CliProofs: lemmas about the command line tools *)
From Coq Require Import String List ZArith NArith Bool Lia.
From Coq Require Import ZifyBool ZifyNat ZifyN.
From Verif Require Import PyBase Facts Headers Streams StreamSpec HeaderSpec DigestSpec Loader Iterator Writer WriterSpec WriterProofs IterSpec IterProofs GzProofs Cli CliSpec.
Import ListNotations.
Open Scope Z_scope.

(** ** facts about the iterator on arbitrary data *)
Section Any.
  Context {zl : zenv} (fuel : nat) (he : henv) (o : lopts).
  Notation rdr := (breader zl raw).
  Notation iter := (@iter zl).

  Lemma next_record_ok (it : iter) rc it' : next_record fuel he o it = (Ok rc, it') ->
    it_record it' = Some rc /\ it_member it' = None.
  Proof.
    unfold next_record. destruct (parse_record_stream _ _ _ _ _ _ _) as [[x|e] r]; [|discriminate].
    intros [= <- <-]. now split.
  Qed.
  Lemma iter_loop_some n : forall (it : iter) rc it', iter_loop fuel he o n it = (Ok (Some rc), it') ->
    it_record it' = Some rc /\ it_member it' = None /\ it_phase it' = PYield.
  Proof.
    induction n as [|n IH]; intros it rc it' H; [discriminate|]. cbn [iter_loop] in H.
    destruct (next_record fuel he o it) as [[x|e] it1] eqn:E.
    - destruct (it_raise_gz it1); [discriminate|]. injection H as <- <-. apply next_record_ok in E. cbn. tauto.
    - destruct e; try discriminate.
      destruct (after_record fuel (set_empty true it1)) as [[b|e] it2]; [|destruct e; discriminate].
      destruct b; [eauto|discriminate].
  Qed.
  Lemma iter_next_some (it : iter) rc it' : iter_next fuel he o it = (Ok (Some rc), it') ->
    it_record it' = Some rc /\ it_member it' = None /\ it_phase it' = PYield.
  Proof.
    unfold iter_next. destruct (it_phase it); [apply iter_loop_some| |discriminate].
    destruct (after_record fuel it) as [[[]|e] it1]; [apply iter_loop_some|discriminate|discriminate].
  Qed.

  (** what of a record does not change when its stream is read *)
  Definition core (rc : record rdr) := (rc_format rc, rc_type rc, rc_headers rc, rc_http rc, rc_ctype rc, rc_length rc, rc_plen rc).
  Definition icore (it : iter) := option_map core (it_record it).
  Lemma icore_rstream st (it : iter) : icore (it_set_rstream st it) = icore it.
  Proof. unfold icore, it_set_rstream. cbn. destruct (it_record it) as [[]|]; reflexivity. Qed.
  Lemma icore_reader r (it : iter) : icore (it_set_reader r it) = icore it.
  Proof. unfold icore, it_set_reader. cbn. destruct (it_record it) as [[]|]; reflexivity. Qed.

  Lemma rte_ok (it it1 : iter) : read_to_end fuel it = (Ok tt, it1) ->
    icore it1 = icore it /\ it_phase it1 = it_phase it /\ read_to_end fuel it1 = (Ok tt, it1).
  Proof.
    unfold read_to_end at 1. destruct (it_record it) as [rc|] eqn:Er.
    2:{ intros [= <-]. split; [reflexivity|]. split; [reflexivity|]. unfold read_to_end. now rewrite Er. }
    destruct (it_member it) as [m|] eqn:Em.
    { intros [= <-]. split; [reflexivity|]. split; [reflexivity|]. unfold read_to_end. now rewrite Er, Em. }
    destruct (drain fuel fuel (rc_stream rc)) as [[u|e] st]; [|discriminate].
    destruct (consume_loop fuel fuel true 0 0 (it_reader (it_set_rstream st it))) as [[[[nl size] errs]|e] r]; [|discriminate].
    intros [= <-]. split; [|split; [reflexivity|]].
    - transitivity (icore (it_set_reader r (it_set_rstream st it))); [reflexivity|]. now rewrite icore_reader, icore_rstream.
    - unfold read_to_end. cbn [it_record it_member]. cbn. now rewrite Er.
  Qed.
  Lemma info_ok (it it1 : iter) i : get_offset_length fuel it = (Ok i, it1) ->
    icore it1 = icore it /\ it_phase it1 = it_phase it /\ get_offset_length fuel it1 = (Ok i, it1)
    /\ (it_phase it = PYield -> iter_next fuel he o it1 = iter_next fuel he o it).
  Proof.
    unfold get_offset_length at 1. destruct (read_to_end fuel it) as [[[]|e] it2] eqn:E; [|discriminate].
    intros [= <- <-]. destruct (rte_ok it it2 E) as (A & B & C). split; [exact A|]. split; [exact B|]. split.
    - unfold get_offset_length. now rewrite C.
    - intros P. unfold iter_next. rewrite B, P. unfold after_record. now rewrite C, E.
  Qed.
End Any.

(** ** the index *)
Lemma is_basename_ok s : is_basename s (basename s).
Proof.
  unfold basename. assert (G : forall s cur, (forall c, In c cur -> c <> 47%N) ->
    ~ In 47%N (basename_from cur s) /\ ((~ In 47%N s /\ basename_from cur s = rev cur ++ s) \/ exists dir, s = dir ++ 47%N :: basename_from cur s)).
  { clear s. induction s as [|c s IH]; intros cur Hc; cbn [basename_from].
    - split; [|left; split; [auto|now rewrite app_nil_r]]. intros H. apply in_rev in H. exact (Hc _ H eq_refl).
    - destruct (c =? 47)%N eqn:E.
      + apply N.eqb_eq in E. subst c. destruct (IH [] ltac:(intros ? [])) as (H1 & [(H2 & H3)|(dir & H3)]).
        * split; [exact H1|]. right. exists []. cbn [rev app] in *. now rewrite H3.
        * split; [exact H1|]. right. exists (47%N :: dir). cbn [app]. now rewrite <- H3.
      + destruct (IH (c :: cur)) as (H1 & [(H2 & H3)|(dir & H3)]).
        { intros x [<-|H]; [intros ->; discriminate|auto]. }
        * split; [exact H1|]. left. split; [intros [H|H]; [subst; discriminate|auto]|]. rewrite H3. cbn [rev]. now rewrite <- app_assoc.
        * split; [exact H1|]. right. exists (c :: dir). cbn [app]. now rewrite <- H3. }
  destruct (G s [] ltac:(intros ? [])) as (H1 & [(H2 & H3)|H]); (split; [exact H1|]); [left; now rewrite H3|now right].
Qed.
Lemma first_word_ok h : first_word (sh_status h) (get_statuscode h).
Proof.
  unfold get_statuscode. destruct (split1 32%N (sh_status h)) as [[a b]|] eqn:E.
  - apply split1_spec in E as (E & H). split; [exact H|]. right. eauto.
  - apply split1_None in E. split; [exact E|now left].
Qed.
Lemma otype_is_spec t s : otype_is t s = true <-> t = Some (lit s).
Proof.
  unfold otype_is. destruct t as [t|]; [|split; discriminate]. rewrite leqb_eq. split; [intros ->; reflexivity|intros [= ->]; reflexivity].
Qed.

(** the value of a field when offset and length are known *)
Definition val {zl : zenv} (filename : str) (rc : record (breader zl raw)) (off len : Z) (name : str) : option str :=
  if leqb name (lit "offset") then Some (str_of_Z off)
  else if leqb name (lit "length") then Some (str_of_Z len)
  else if leqb name (lit "filename") then Some (basename filename)
  else if leqb name (lit "http:status") then
    match rc_http rc with
    | Some h => if (otype_is (rc_type rc) "response" || otype_is (rc_type rc) "revisit") && sah_bool h
                then Some (get_statuscode h) else None
    | None => None
    end
  else if is_http_field name then
    match rc_http rc with Some h => if sah_bool h then get_header (dropZ 5 name) h else None | None => None end
  else get_header name (rc_headers rc).

Lemma val_is {zl : zenv} filename (rc : record (breader zl raw)) off len name :
  field_is filename (sh_headers (rc_headers rc)) (rc_type rc) (rc_http rc) off len name (val filename rc off len name).
Proof.
  unfold val.
  destruct (leqb name (lit "offset")) eqn:E1; [apply leqb_eq in E1; subst; constructor|].
  destruct (leqb name (lit "length")) eqn:E2; [apply leqb_eq in E2; subst; constructor|].
  destruct (leqb name (lit "filename")) eqn:E3; [apply leqb_eq in E3; subst; constructor; apply is_basename_ok|].
  destruct (leqb name (lit "http:status")) eqn:E4.
  { apply leqb_eq in E4. subst. destruct (rc_http rc) as [h|] eqn:Eh; [|constructor; intros; discriminate].
    destruct (sah_bool h) eqn:Eb; [|rewrite andb_false_r; constructor; intros ? [= <-] ?; exfalso; congruence]. rewrite andb_true_r.
    destruct (otype_is (rc_type rc) "response" || otype_is (rc_type rc) "revisit") eqn:Et.
    - apply orb_true_iff in Et. rewrite !otype_is_spec in Et. eapply F_status; eauto. apply first_word_ok.
    - apply orb_false_iff in Et as [A B]. constructor. intros h' _ _. split; intros X; apply otype_is_spec in X; congruence. }
  destruct (is_http_field name) eqn:E5.
  - apply startswith_spec in E5 as (n & ->). apply leqb_neq in E4.
    replace (dropZ 5 (lit "http:" ++ n)) with n by (symmetry; exact (dropZ_app_exact (lit "http:") n)).
    destruct (rc_http rc) as [h|] eqn:Eh; [|apply F_no_http; [discriminate|exact E4]].
    destruct (sah_bool h) eqn:Eb; [|apply F_no_http; [intros ? [= <-]; exact Eb|exact E4]].
    unfold get_header. rewrite <- value_of_hget. now apply F_http.
  - unfold get_header. rewrite <- value_of_hget. apply F_warc.
    + apply leqb_neq in E1, E2, E3, E4. intros [H|[H|[H|[H|[]]]]]; congruence.
    + intros (h & Hh). assert (is_http_field name = true) by (apply startswith_spec; eauto). congruence.
Qed.

Section Dict.
  Context (v : str -> option str).
  Definition ent (f : str) : list (str * str) := match v f with Some x => [(f, x)] | None => [] end.
  Fixpoint od_fold (fields : list str) (d : list (str * str)) : list (str * str) :=
    match fields with
    | [] => d
    | f :: t => od_fold t (match v f with Some x => od_set f x d | None => d end)
    end.
  Definition missing (d : list (str * str)) (f : str) : bool := negb (existsb (fun p => leqb (fst p) f) d).

  Lemma od_set_in f x d : missing d f = false -> Forall (fun p => v (fst p) = Some (snd p)) d -> v f = Some x -> od_set f x d = d.
  Proof.
    unfold missing. intros H HF Hv. apply negb_false_iff in H. induction HF as [|[k y] d Hk _ IH]; [discriminate|]. cbn in *.
    destruct (leqb k f) eqn:E; [apply leqb_eq in E; congruence|]. cbn in H. now rewrite IH.
  Qed.
  Lemma od_set_new f x d : missing d f = true -> od_set f x d = d ++ [(f, x)].
  Proof.
    unfold missing. intros H. apply negb_true_iff in H. induction d as [|[k y] d IH]; [reflexivity|]. cbn in *.
    apply orb_false_iff in H as [H1 H2]. rewrite H1. now rewrite IH.
  Qed.
  Lemma flat_filter_drop p f l : ent f = [] \/ p f = false ->
    flat_map ent (filter p (filter (fun y => negb (leqb y f)) l)) = flat_map ent (filter p l).
  Proof.
    intros H. induction l as [|y l IH]; [reflexivity|]. cbn [filter]. destruct (leqb y f) eqn:E.
    - apply leqb_eq in E. subst y. cbn [negb filter]. rewrite IH. destruct (p f) eqn:Ep; [|reflexivity]. cbn [flat_map].
      destruct H as [H|H]; [now rewrite H|congruence].
    - cbn [negb filter]. destruct (p y); cbn [flat_map]; now rewrite IH.
  Qed.
  Lemma od_fold_spec fields : forall d, Forall (fun p => v (fst p) = Some (snd p)) d ->
    od_fold fields d = d ++ flat_map ent (filter (missing d) (firsts fields)).
  Proof.
    induction fields as [|f t IH]; intros d Hd; cbn [od_fold firsts]; [cbn; now rewrite app_nil_r|].
    cbn [filter]. destruct (v f) as [x|] eqn:Ev.
    - destruct (missing d f) eqn:Em.
      + rewrite (od_set_new f x d Em), IH by (apply Forall_app; split; [exact Hd|constructor; [exact Ev|constructor]]).
        cbn [flat_map]. unfold ent at 2. rewrite Ev. rewrite <- app_assoc. do 2 f_equal. f_equal.
        clear IH. induction (firsts t) as [|y l IHl]; [reflexivity|]. cbn [filter]. unfold missing at 1. rewrite existsb_app. cbn [existsb fst].
        rewrite orb_false_r. destruct (leqb y f) eqn:E.
        * apply leqb_eq in E. subst y. rewrite leqb_refl, orb_true_r. cbn [negb]. exact IHl.
        * assert (leqb f y = false) as ->. { apply leqb_neq. apply leqb_neq in E. congruence. }
          rewrite orb_false_r. cbn [negb filter]. change (negb (existsb (fun p => leqb (fst p) y) d)) with (missing d y). destruct (missing d y); [f_equal|]; exact IHl.
      + rewrite (od_set_in f x d Em Hd Ev), IH by exact Hd. rewrite flat_filter_drop; [reflexivity|now right].
    - rewrite IH by exact Hd. assert (ent f = []) as He by (unfold ent; now rewrite Ev).
      destruct (missing d f); [cbn [flat_map]; rewrite He|]; rewrite flat_filter_drop; auto.
  Qed.
  Lemma od_fold_fields (F : str -> option str -> Prop) : (forall n, F n (v n)) -> forall fields, fields_are F (firsts fields) (od_fold fields []).
  Proof.
    intros HF fields. rewrite od_fold_spec by constructor. cbn [app].
    assert (filter (missing []) (firsts fields) = firsts fields) as ->.
    { induction (firsts fields) as [|y l IH]; [reflexivity|]. cbn. now f_equal. }
    induction (firsts fields) as [|y l IH]; [constructor|]. cbn [flat_map]. unfold ent at 1. pose proof (HF y) as Hy.
    destruct (v y); [now apply FA_some|now apply FA_none].
  Qed.
End Dict.

Section Index.
  Context {zl : zenv} (fuel : nat) (he : henv).
  Notation iter := (@iter zl).

  Lemma index_fields_ok filename rc (it0 it1 : iter) off len :
    it_record it0 = Some rc -> get_offset_length fuel it0 = (Ok (Some (off, len)), it1) ->
    forall fields d it, it = it0 \/ it = it1 -> exists it',
      index_fields fuel filename fields d it = (Ok (od_fold (val filename rc off len) fields d), it') /\ (it' = it0 \/ it' = it1).
  Proof.
    intros Er E. destruct (info_ok fuel he (mk_lopts false false false false KFalse []) it0 it1 _ E) as (Hc & _ & E1 & _).
    assert (exists rc1, it_record it1 = Some rc1 /\ core rc1 = core rc) as (rc1 & Er1 & Hcore).
    { unfold icore in Hc. rewrite Er in Hc. cbn in Hc. destruct (it_record it1); [|discriminate]. injection Hc as H1 H2 H3 H4 H5 H6 H7.
      eexists. split; [reflexivity|]. unfold core. congruence. }
    assert (G : forall name it, it = it0 \/ it = it1 -> exists it', get_field fuel filename name it = (Ok (val filename rc off len name), it') /\ (it' = it0 \/ it' = it1)).
    { intros name it Hi. assert (exists r, it_record it = Some r /\ core r = core rc) as (r & Er' & Hr) by (destruct Hi as [-> | ->]; eauto).
      assert (Ei : get_offset_length fuel it = (Ok (Some (off, len)), it1)) by (destruct Hi as [-> | ->]; assumption).
      injection Hr as _ R2 R3 R4 _ _ _.
      unfold get_field, val. rewrite Er', Ei, R2, R3, R4.
      repeat match goal with |- context [if leqb name ?x then _ else _] => destruct (leqb name x); [eexists; split; [reflexivity|tauto]|] end.
      destruct (is_http_field name); eexists; (split; [reflexivity|tauto]). }
    induction fields as [|f t IH]; intros d it Hi; cbn [index_fields od_fold].
    - exists it. now split.
    - destruct (G f it Hi) as (it2 & -> & Hi2). destruct (val filename rc off len f); now apply IH.
  Qed.

  (** the index of a file for which the iterator works *)
  Lemma index_loop_ok o filename fields n : forall k it it2 obs en,
    (it2 = it \/ iter_next fuel he o it2 = iter_next fuel he o it) ->
    run_iter fuel he o n (fun _ => []) k it = (obs, en) ->
    Forall (fun ob => exists off len, ob_info ob = Ok (Some (off, len))) obs ->
    exists ds, index_loop fuel he n o filename fields it2 = (ds, en)
      /\ Forall2 (fun (ob : @Iterator.obs zl) d => exists off len, ob_info ob = Ok (Some (off, len))
           /\ line_is filename fields (sh_headers (rc_headers (ob_record ob))) (rc_type (ob_record ob)) (rc_http (ob_record ob)) off len d) obs ds.
  Proof.
    induction n as [|n IH]; intros k it it2 obs en Hn Hr HF.
    - injection Hr as <- <-. exists []. split; [reflexivity|constructor].
    - cbn [run_iter] in Hr. cbn [index_loop].
      assert (iter_next fuel he o it2 = iter_next fuel he o it) as -> by (destruct Hn as [->|]; auto).
      destruct (iter_next fuel he o it) as [[[rc|]|e] it0] eqn:E;
        [|injection Hr as <- <-; exists []; split; [reflexivity|constructor]..].
      cbn [user_ops] in Hr. destruct (get_offset_length fuel it0) as [info it1] eqn:Ei.
      destruct (run_iter fuel he o n (fun _ => []) (Datatypes.S k) it1) as [os en'] eqn:Er. injection Hr as <- <-.
      inversion HF as [|? ? (off & len & Hinfo) HF']; subst. cbn [ob_info] in Hinfo. subst info.
      destruct (iter_next_some fuel he o it rc it0 E) as (Hrec & _ & Hph).
      destruct (index_fields_ok filename rc it0 it1 off len Hrec Ei fields [] it0 (or_introl eq_refl)) as (it3 & -> & Hi3).
      destruct (info_ok fuel he o it0 it1 _ Ei) as (_ & _ & _ & Hnext).
      destruct (IH (Datatypes.S k) it1 it3 os en') as (ds & -> & HF2); auto.
      { destruct Hi3 as [-> | ->]; [right; symmetry; now apply Hnext|now left]. }
      eexists. split; [reflexivity|]. constructor; [|exact HF2].
      exists off, len. split; [reflexivity|]. cbn [ob_record]. apply od_fold_fields. intros name. apply val_is.
  Qed.
End Index.

(** ** archives in both forms *)
Lemma good_entry_reads fuel he o M e us : good_entry fuel he o M [] e -> nonneg_ops us -> limited_lines M us ->
  good_entry fuel he o M us e.
Proof. intros (A & B & C & D & E & _ & _) Hn Hr. repeat (split; [assumption|]). eapply Forall_impl; [|exact Hr]. intros [n|n|] H; auto. Qed.

Lemma placed_nth p l : forall i e, nth_error l i = Some e -> nth_error (placed p l) i = Some (e, (p + position i l, lenZ (e_text e) - 4)).
Proof.
  revert p. induction l as [|x l IH]; intros p [|i] e H; cbn in *; try discriminate.
  - injection H as ->. unfold position, texts. cbn. now rewrite Z.add_0_r.
  - rewrite (IH _ _ _ H). unfold position, texts. cbn. rewrite lenZ_app, Z.add_assoc. reflexivity.
Qed.
Lemma placed_gz_nth p l : forall i e m, nth_error l i = Some (e, m) -> nth_error (placed_gz p l) i = Some (e, (p + gz_position i l, lenZ m)).
Proof.
  revert p. induction l as [|[x y] l IH]; intros p [|i] e m H; cbn in *; try discriminate.
  - injection H as -> ->. unfold gz_position, gz_data. cbn. now rewrite Z.add_0_r.
  - rewrite (IH _ _ _ _ H). unfold gz_position, gz_data. cbn. rewrite lenZ_app, Z.add_assoc. reflexivity.
Qed.
Lemma placed_length p l : List.length (placed p l) = List.length l.
Proof. revert p. induction l; intros p; cbn; auto. Qed.
Lemma placed_gz_length p l : List.length (placed_gz p l) = List.length l.
Proof. revert p. induction l as [|[? ?] l IH]; intros p; cbn; auto. Qed.

Lemma archive_run {zl : zenv} quiet fuel he o M p sched data es prog known n :
  good_archive quiet zl fuel he o M p sched data es -> lo_ensure o = false -> known <> Some FArc -> (List.length es < n)%nat ->
  (forall i, nonneg_ops (prog i) /\ limited_lines M (prog i)) ->
  (forall i e pl, nth_error es i = Some (e, pl) -> quiet e -> no_lines (prog i)) ->
  exists obs, run_iter (zl:=zl) fuel he o n prog 0 (iter_new (mk_raw data p sched) BUFF_SIZE known) = (obs, EndStop)
    /\ List.length obs = List.length es
    /\ forall i e off len ob, nth_error es i = Some (e, (off, len)) -> nth_error obs i = Some ob ->
         observed he o (e_rec e) (e_http e) (e_payload e) off len (prog i) ob.
Proof.
  intros HG Ho Hk Hn Hp Hq. destruct HG as [l Hz Hf Hr HM Hfu Hg|ms Hne HM Hfit Hfu Hg].
  - destruct (plain_archive (zl:=zl) fuel he o M prog p l [] sched BUFF_SIZE known Hz Hf Hr HM) as (obs & it' & E & Hl & Hob & Hend & _); auto.
    { now rewrite app_nil_r. }
    { intros i e Hi. destruct (Hp i). apply good_entry_reads; auto. rewrite Forall_forall in Hg. apply Hg. eapply nth_error_In; eauto. }
    { now left. }
    rewrite app_nil_r in E. exists obs. rewrite placed_length in *. split; [|split; [exact Hl|]].
    + assert (exists m, n = (List.length l + Datatypes.S m)%nat) as (m & ->) by (exists (n - List.length l - 1)%nat; lia).
      rewrite E, (Hend eq_refl). now rewrite app_nil_r.
    + intros i e off len ob Hi Hi'. destruct (nth_error l i) as [e'|] eqn:El.
      * pose proof (placed_nth p l i e' El) as X. rewrite Hi in X. injection X as -> -> ->. now apply Hob.
      * apply nth_error_None in El. assert (i < List.length (placed p l))%nat by (apply nth_error_Some; congruence).
        rewrite placed_length in *. lia.
  - rewrite placed_gz_length in *. rewrite Forall_forall in Hg.
    destruct (gz_archive (zl:=zl) fuel he o M prog p ms sched BUFF_SIZE known n) as (obs & E & Hl & Hob); auto.
    { destruct Hfit as [Hfit|[Hs Hfit]]; [now left|right]. split; [exact Hs|]. rewrite Forall_forall in Hfit. intros i e m Hi.
      destruct (Hfit _ (nth_error_In _ _ Hi)) as [X|(X & Y)]; [now left|right]. split; [|exact Y].
      exact (Hq i e _ (placed_gz_nth p ms i e m Hi) X). }
    { reflexivity. }
    { intros e m Hi. destruct (Hg _ Hi) as (_ & _ & X). exact X. }
    { intros i e m Hi. destruct (Hg (e, m) (nth_error_In _ _ Hi)) as (X & Y & _). split; [|exact Y]. destruct (Hp i). now apply good_entry_reads. }
    exists obs. split; [exact E|]. split; [exact Hl|]. intros i e off len ob Hi Hi'. destruct (nth_error ms i) as [[e' m]|] eqn:El.
    + pose proof (placed_gz_nth p ms i e' m El) as X. rewrite Hi in X. injection X as -> -> ->. now apply (Hob i e' m).
    + apply nth_error_None in El. assert (i < List.length (placed_gz p ms))%nat by (apply nth_error_Some; congruence).
      rewrite placed_gz_length in *. lia.
Qed.
