(** * CheckModes: iterations that differ in check_digests only *)
From Coq Require Import String List ZArith NArith Bool Lia.
From Coq Require Import ZifyBool ZifyNat ZifyN.
From Verif Require Import PyBase Codecs Headers Streams StreamSpec DigestSpec DigestProofs Loader Iterator KeepProofs IterSpec TermLoad Cli CliSpec ReportSpec ModeSpec TwoRuns.
Import ListNotations.
Open Scope Z_scope.

(** ** parse_record_stream, from what the streams do *)
Section ParseGen.
  Context {zl : zenv} (fuel : nat) (he : henv) (o : lopts) (k1 k2 : ckind).
  Notation rdr := (breader zl raw).
  Notation rst := (rstream rdr).
  Notation rops := (rops (zl:=zl) fuel).
  Context (E : exn -> Prop) (R : rst -> rst -> Prop) (P : rst -> Prop).
  Definition the_stream (k : ckind) (t : option str) (h : sah) (length : option Z) (s : rdr) : res rst :=
    match length with
    | Some n => if ckind_bool k then wrap_digest he (lim_new s n) t h (chk_new k) n else Ok (RSlim (lim_new s n))
    | None => Ok (RSbase s)
    end.
  Definition begin_rs (st : rst) : res unit * rst :=
    match st with RSdig d => let (x, d') := begin_payload d in (x, RSdig d') | _ => (Ok tt, st) end.
  Hypothesis HE : ~ E EOFError.
  Hypothesis Hnew : forall t h len s,
    match the_stream k1 t h len s, the_stream k2 t h len s with
    | Ok a, Ok b => R a b
    | Ok a, Err e => P a /\ E e
    | Err _, _ => False
    end.
  Hypothesis Hline : forall s1 s2, R s1 s2 -> two E R P (rs_readline rops None s1) (rs_readline rops None s2).
  Hypothesis Pline : forall s, P s -> P (snd (rs_readline rops None s)).
  Hypothesis Hbegin : forall s1 s2, R s1 s2 -> two E R P (begin_rs s1) (begin_rs s2).
  Hypothesis Pbegin : forall s, P s -> P (snd (begin_rs s)).
  Hypothesis Rbase : forall s1 s2, R s1 s2 -> rs_base s1 = rs_base s2.
  Hypothesis Rtell : forall s1 s2, R s1 s2 -> rs_tell rops s1 = rs_tell rops s2.

  Lemma begin_eof st : fst (begin_rs st) <> Err EOFError.
  Proof using.
    clear. destruct st; cbn; try discriminate. unfold begin_payload. cbn zeta. destruct (lm_limit _ =? 0); [|discriminate].
    unfold check_one. destruct (compare_digest _ _) as [[[|]|]|e] eqn:Ec; cbn; try discriminate.
    - unfold chk_problem. destruct (dc_kind _); discriminate.
    - unfold compare_digest in Ec. destruct (dr_pobj _); [|discriminate]. destruct (dr_pdig _) as [[|]|]; try discriminate.
      destruct (parse_digest _) as [[? v]|]; [|injection Ec as <-; discriminate]. unfold to_b32 in Ec.
      destruct (lenZ v =? _); [discriminate|]. destruct (_ <? lenZ v).
      + destruct (b16_wrapper v); [discriminate|]. injection Ec as <-. discriminate.
      + destruct (b64_wrapper v); [discriminate|]. injection Ec as <-. discriminate.
  Qed.

  Lemma parse_gen sl known s :
    let x := parse_record_stream rops fuel he (with_check k1 o) sl known s in let y := parse_record_stream rops fuel he (with_check k2 o) sl known s in
    (snd x = snd y /\ match fst x, fst y with Ok a, Ok b => recR R same_record a b | Err e, Err e' => e = e' | _, _ => False end)
    \/ ((exists e, E e /\ fst y = Err e) /\ match fst x with Ok a => recP P a | Err EOFError => lo_norec o = false | Err _ => True end).
  Proof.
    unfold parse_record_stream, with_check. cbn [lo_a2w lo_uuid lo_check lo_norec lo_verify lo_ensure].
    destruct (detect_type rops fuel (lo_a2w o) (lo_uuid o) sl known s) as [[[arc h]|e] s1]; [|left; now split].
    destruct (if arc && negb (lo_a2w o) then _ else _) as [[[[[t uri] h'] len] ct] sub]. cbn zeta.
    set (L := eff_length len sub).
    pose proof (Hnew t h' L s1) as H. unfold the_stream in H.
    destruct (match L with Some n => if ckind_bool k1 then _ else _ | None => Ok (RSbase s1) end) as [a|e1]; [|contradiction].
    set (fmt := if arc && negb (lo_a2w o) then FArc else FWarc).
    (* the first run, once its stream satisfies P *)
    assert (KP : forall a, P a -> forall http plen c, dc_passed c = None ->
        match fst (let '(r2, st) := begin_rs a in match r2 with Err e => (Err e, rs_base st)
              | Ok _ => (Ok (mk_rec fmt t h' st http ct L plen c), rs_base st) end) with Ok a => recP P a | Err EOFError => False | Err _ => True end).
    { intros a0 Ha http plen c Hc. pose proof (Pbegin a0 Ha) as X. pose proof (begin_eof a0) as Y. destruct (begin_rs a0) as [[u|e] st]; cbn in *; [now split|].
      destruct e; auto. }
    assert (KA : forall a, P a ->
      match fst (let start := rs_tell rops a in
        let '(r, st) := if lo_norec o then (Ok None, a) else load_http_headers (rs_ops rops) fuel (lo_verify o) t uri L a in
        match r with Err e => (Err e, rs_base st)
        | Ok http =>
           let plen := match L with Some n => if negb (lo_norec o) && negb (n =? 0) && osah_bool http then n - (rs_tell rops st - start) else -1 | None => -1 end in
           let http := if negb (osah_bool http) && lo_ensure o then Some (default_http_headers L ct) else http in
           let '(r2, st) := begin_rs st in match r2 with Err e => (Err e, rs_base st)
              | Ok _ => (Ok (mk_rec fmt t h' st http ct L plen (chk_new k1)), rs_base st) end end)
      with Ok a => recP P a | Err EOFError => lo_norec o = false | Err _ => True end).
    { intros a0 Ha. cbn zeta. destruct (lo_norec o) eqn:En.
      - specialize (KP a0 Ha (if negb (osah_bool None) && lo_ensure o then Some (default_http_headers L ct) else None) (match L with Some _ => -1 | None => -1 end) (chk_new k1) eq_refl).
        cbn [negb andb]. destruct (begin_rs a0) as [[u|e] st]; cbn in *; [split; apply KP|]. destruct e; auto; contradiction.
      - pose proof (http_keep (rs_ops rops) fuel P (lo_verify o) t uri L a0 Pline Ha) as Hk.
        destruct (load_http_headers (rs_ops rops) fuel (lo_verify o) t uri L a0) as [[http|e] st]; [|destruct e; cbn; auto].
        cbn [snd] in Hk. pose proof (KP st Hk (if negb (osah_bool http) && lo_ensure o then Some (default_http_headers L ct) else http)
          (match L with Some n => if negb false && negb (n =? 0) && osah_bool http then n - (rs_tell rops st - rs_tell rops a0) else -1 | None => -1 end) (chk_new k1) eq_refl) as X.
        destruct (begin_rs st) as [[u|e] st2]; cbn in *; [split; apply X|]. destruct e; try contradiction; auto. }
    assert (HB : forall (st : rst) (f : res unit * rst -> res (record rdr) * rdr),
       (let '(r2, st2) := match st with RSdig d => let (x, d') := begin_payload d in (x, RSdig d') | _ => (Ok tt, st) end in f (r2, st2)) = let '(r2, st2) := begin_rs st in f (r2, st2))
      by (intros; reflexivity).
    destruct (match L with Some n => if ckind_bool k2 then _ else _ | None => Ok (RSbase s1) end) as [b|e2].
    2:{ right. destruct H as [H1 H2]. split; [exists e2; now split|]. exact (KA a H1). }
    fold (begin_rs) in *.
    rewrite <- (Rtell a b H).
    destruct (lo_norec o) eqn:En.
    - cbn [negb andb]. destruct (Hbegin a b H) as [[B1 B2]|[B1 (e & B2 & B3)]].
      + left. fold (begin_rs a). fold (begin_rs b). destruct (begin_rs a) as [r1 u1], (begin_rs b) as [r2 u2]. cbn [fst snd] in *. subst r2.
        destruct r1 as [u|e]; cbn [fst snd]; (split; [now apply Rbase|]); [|reflexivity]. repeat split; exact B2.
      + right. fold (begin_rs a). fold (begin_rs b). pose proof (begin_eof a) as Y. destruct (begin_rs a) as [r1 u1], (begin_rs b) as [r2 u2]. cbn [fst snd] in *. subst r2.
        split; [exists e; now split|]. destruct r1 as [u|e1]; cbn; [now split|]. destruct e1; auto; now destruct Y.
    - destruct (http_two E (rs_ops rops) R P fuel (lo_verify o) t uri L a b HE Hline Pline H) as [[D1 D2]|[D1 (e & D2 & D3)]].
      + destruct (load_http_headers (rs_ops rops) fuel (lo_verify o) t uri L a) as [r1 u1], (load_http_headers (rs_ops rops) fuel (lo_verify o) t uri L b) as [r2 u2].
        cbn [fst snd] in *. subst r2. destruct r1 as [http|e]; [|left; split; [now apply Rbase|reflexivity]].
        rewrite <- (Rtell u1 u2 D2). fold (begin_rs u1). fold (begin_rs u2).
        destruct (Hbegin u1 u2 D2) as [[B1 B2]|[B1 (e & B2 & B3)]].
        * left. destruct (begin_rs u1) as [r1 v1], (begin_rs u2) as [r2 v2]. cbn [fst snd] in *. subst r2.
          destruct r1 as [u|e]; cbn [fst snd]; (split; [now apply Rbase|]); [|reflexivity]. repeat split; exact B2.
        * right. destruct (begin_rs u1) as [r1 v1], (begin_rs u2) as [r2 v2]. cbn [fst snd] in *. subst r2.
          split; [exists e; now split|]. destruct r1 as [u|e1]; cbn; [now split|]. destruct e1; auto; try contradiction; reflexivity.
      + right. split; [exists e; split; [exact D2|]|].
        * destruct (load_http_headers (rs_ops rops) fuel (lo_verify o) t uri L b) as [r2 u2]. cbn [fst] in D3. now subst r2.
        * destruct (load_http_headers (rs_ops rops) fuel (lo_verify o) t uri L a) as [[http|e1] u1]; [|destruct e1; cbn; auto]. cbn [snd] in D1.
          pose proof (KP u1 D1 (if negb (osah_bool http) && lo_ensure o then Some (default_http_headers L ct) else http)
            (match L with Some n => if negb false && negb (n =? 0) && osah_bool http then n - (rs_tell rops u1 - rs_tell rops a) else -1 | None => -1 end) (chk_new k1) eq_refl) as X.
          fold (begin_rs u1). destruct (begin_rs u1) as [[u|e1] st2]; cbn in *; [split; apply X|]. destruct e1; auto; try contradiction; reflexivity.
  Qed.
End ParseGen.

(** ** 'raise' against True or 'log' *)
Section Raise2.
  Context {zl : zenv} (fuel : nat) (he : henv) (o : lopts) (k : ckind).
  Notation rdr := (breader zl raw).
  Notation rst := (rstream rdr).
  Notation rops := (rops (zl:=zl) fuel).
  Hypothesis Hk : k = KTrue \/ k = KLog.
  Definition rrel (a b : rst) : Prop :=
    match a, b with
    | RSbase s, RSbase t => s = t
    | RSlim l, RSlim m => l = m
    | RSdig d, RSdig e => dig_sim d e
    | _, _ => False
    end.
  Definition rbad (a : rst) : Prop := passed_of a = Some false.
  Definition ralf (e : exn) : Prop := e = ArchiveLoadFailed.

  Lemma agree_two {A} (x y : res A * digr rdr) : agree x y ->
    two ralf rrel rbad (let (r, d) := x in (r, RSdig d)) (let (r, d) := y in (r, RSdig d)).
  Proof. destruct x as [r d], y as [r' d']. intros [[H1 H2]|[H1 H2]]; cbn in *; [right|left]; split; auto. exists ArchiveLoadFailed. now split. Qed.
  Lemma r_read n a b : rrel a b -> two ralf rrel rbad (rs_read rops n a) (rs_read rops n b).
  Proof.
    destruct a as [s|l|d], b as [s'|l'|d']; cbn [rrel]; try contradiction; intros H; [subst s'; left|subst l'; left|].
    - cbn [rs_read]. destruct (o_read rops n s). now split.
    - cbn [rs_read]. destruct (lim_read rops n l). now split.
    - apply agree_two. exact (do_call_sim rops (CRead n) d d' H).
  Qed.
  Lemma r_line n a b : rrel a b -> two ralf rrel rbad (rs_readline rops n a) (rs_readline rops n b).
  Proof.
    destruct a as [s|l|d], b as [s'|l'|d']; cbn [rrel]; try contradiction; intros H; [subst s'; left|subst l'; left|].
    - cbn [rs_readline]. destruct (o_readline rops n s). now split.
    - cbn [rs_readline]. destruct (lim_readline rops n l). now split.
    - apply agree_two. exact (do_call_sim rops (CLine n) d d' H).
  Qed.
  Lemma b_read n a : rbad a -> rbad (snd (rs_read rops n a)).
  Proof.
    unfold rbad. destruct a as [s|l|d]; cbn; try discriminate. intros H. pose proof (do_call_false rops (CRead n) d H) as X. cbn in X.
    destruct (dig_read rops n d). exact X.
  Qed.
  Lemma b_line n a : rbad a -> rbad (snd (rs_readline rops n a)).
  Proof.
    unfold rbad. destruct a as [s|l|d]; cbn; try discriminate. intros H. pose proof (do_call_false rops (CLine n) d H) as X. cbn in X.
    destruct (dig_readline rops n d). exact X.
  Qed.
  Lemma r_begin a b : rrel a b -> two ralf rrel rbad (begin_rs a) (begin_rs b).
  Proof.
    destruct a as [s|l|d], b as [s'|l'|d']; cbn [rrel]; try contradiction; intros H; [subst s'; left|subst l'; left|]; try (now split).
    apply agree_two. exact (begin_sim d d' H).
  Qed.
  Lemma b_begin (a : rst) : rbad a -> rbad (snd (begin_rs a)).
  Proof. unfold rbad. destruct a as [s|l|d]; cbn; try discriminate. intros H. apply begin_false in H. destruct (begin_payload d). exact H. Qed.
  Lemma r_new t h len (s : rdr) :
    match the_stream he k t h len s, the_stream he KRaise t h len s with
    | Ok a, Ok b => rrel a b
    | Ok a, Err e => rbad a /\ ralf e
    | Err _, _ => False
    end.
  Proof.
    unfold the_stream. destruct len as [n|]; [|reflexivity].
    replace (ckind_bool k) with true by (destruct Hk as [-> | ->]; reflexivity). cbn [ckind_bool]. unfold wrap_digest.
    destruct (negb (truthy _) && negb (truthy _)); [reflexivity|]. unfold dig_new. cbn zeta.
    set (bd := if match t with Some t => leqb t (lit "revisit") | None => false end then None else get_header (lit "WARC-Block-Digest") h).
    set (pd := match get_header (lit "WARC-Segment-Number") h with Some _ => None | None => _ end).
    assert (HC : chk_sim (chk_new k) (chk_new KRaise)) by (repeat split; cbn; try discriminate; destruct Hk as [-> | ->]; discriminate).
    assert (Kk : dc_kind (chk_new k) <> KRaise) by apply HC.
    destruct (mk_digester_sim he PUnknownBlock bd _ _ HC) as [(H1 & H2 & H3)|(g & H1 & H2 & H3)].
    - pose proof (proj1 (mk_digester_exn he PUnknownBlock bd (chk_new k))) as Hkk.
      destruct (mk_digester he PUnknownBlock bd (chk_new k)) as [r1 c1], (mk_digester he PUnknownBlock bd (chk_new KRaise)) as [r2 c2]. cbn [fst snd] in *. subst r1 r2.
      rewrite <- Hkk in Kk. destruct (mk_digester_false he PUnknownPayload pd c1 Kk H1) as (g & G1 & G2).
      destruct (mk_digester he PUnknownPayload pd c1) as [r3 c3]. cbn [fst snd] in *. subst r3. split; [exact G2|reflexivity].
    - destruct (mk_digester he PUnknownBlock bd (chk_new k)) as [r1 c1], (mk_digester he PUnknownBlock bd (chk_new KRaise)) as [r2 c2]. cbn [fst snd] in *. subst r1 r2.
      destruct (mk_digester_sim he PUnknownPayload pd _ _ H3) as [(G1 & G2 & G3)|(g' & G1 & G2 & G3)];
        destruct (mk_digester he PUnknownPayload pd c1) as [r1 c3], (mk_digester he PUnknownPayload pd c2) as [r2 c4]; cbn [fst snd] in *; subst r1 r2.
      + split; [exact G1|reflexivity].
      + cbn. repeat split; auto; apply G3.
  Qed.
  Lemma r_base a b : rrel a b -> rs_base a = rs_base b.
  Proof. destruct a as [s|l|d], b as [s'|l'|d']; cbn; try contradiction; intros H; try congruence. destruct H as (H & _). now rewrite H. Qed.
  Lemma r_tell a b : rrel a b -> rs_tell rops a = rs_tell rops b.
  Proof. destruct a as [s|l|d], b as [s'|l'|d']; cbn [rs_tell rrel]; try contradiction; intros H; try congruence. destruct H as (H & _). unfold dig_tell. now rewrite H. Qed.
  Lemma r_set (s : rdr) a b : rrel a b -> rrel (rs_set_base s a) (rs_set_base s b).
  Proof.
    destruct a as [s1|l|d], b as [s'|l'|d']; cbn [rrel rs_set_base]; try contradiction; intros H; try congruence.
    destruct H as (E1 & E2 & E3 & E4 & E5 & E6 & HC). unfold dig_sim. cbn. rewrite E1. auto 10.
  Qed.

  Lemma raise_run n prog j0 file block known :
    let x := run_iter fuel he (with_check k o) n prog j0 (iter_new (zl:=zl) file block known) in
    let y := run_iter fuel he (with_check KRaise o) n prog j0 (iter_new (zl:=zl) file block known) in
    exists j, Forall2 (same_obs (fun a b => a = b /\ a <> Some false)) (firstn j (fst x)) (firstn j (fst y))
      /\ ((j = List.length (fst x) /\ j = List.length (fst y) /\ snd x = snd y)
          \/ (exists e, ralf e /\ raises_at e (fst y) (snd y) j) /\ cause (fun a => a = Some false) (lo_norec o = false) (fst x) (snd x) j).
  Proof.
    cbn zeta.
    destruct (run_two fuel he (with_check k o) (with_check KRaise o) ralf rrel rbad (fun a b => a = b /\ a <> Some false) (fun a => a = Some false) (lo_norec o = false) same_record)
      with (n := n) (prog := prog) (k := j0) (a := iter_new (zl:=zl) file block known) (b := iter_new (zl:=zl) file block known) as (j & J1 & J2).
    - exact r_read.
    - exact r_line.
    - exact b_read.
    - exact b_line.
    - intros b s. unfold rbad. now destruct s.
    - exact r_base.
    - exact r_set.
    - intros a b. destruct a as [s|l|d], b as [s'|l'|d']; cbn; try contradiction; intros H; try (split; [reflexivity|discriminate]).
      destruct H as (_ & _ & _ & _ & _ & _ & HC). split; apply HC.
    - intros s H. exact H.
    - intros sl kn s. apply parse_gen.
      + discriminate.
      + exact r_new.
      + exact (r_line None).
      + exact (b_line None).
      + exact r_begin.
      + exact b_begin.
      + exact r_base.
      + exact r_tell.
    - discriminate.
    - reflexivity.
    - intros a b s t H. exact H.
    - intros a b H. apply H.
    - repeat split.
    - exists j. split; [exact J1|]. destruct J2 as [J2|[J2 J3]]; [now left|right]. split; [exact J2|].
      destruct J3 as [J3|[_ [J3 _]]]; [exact J3|]. now destruct J3.
  Qed.
End Raise2.

(** ** any kind of checking against none *)
Section Off.
  Context {zl : zenv} (fuel : nat) (he : henv) (o : lopts) (k : ckind).
  Notation rdr := (breader zl raw).
  Notation rst := (rstream rdr).
  Notation rops := (rops (zl:=zl) fuel).
  Definition over (d : digr rdr) (l : limr rdr) : Prop :=
    lm_stream (dr_lim d) = l /\ lm_limit (dr_lim d) = lm_limit l /\ lm_orig (dr_lim d) = lm_orig l /\ dig_ok d /\ dr_kind d = k.
  Definition orel (a b : rst) : Prop :=
    match a, b with
    | RSbase s, RSbase t => s = t
    | RSlim l, RSlim m => l = m
    | RSlim l, RSdig d => over d l
    | _, _ => False
    end.
  Definition any (_ : rst) : Prop := True.


  Lemma upd_over b (t : rdr) d l : over d l ->
    two (chk_exn k) orel any (Ok b, RSlim (lim_update b t l))
      (let (x, d') := dig_update b (lim_update b (lim_update b t l) (dr_lim d)) d in (x, RSdig d')).
  Proof using.
    intros (H1 & H2 & H3 & H4 & H5). destruct (dig_update_exn b (lim_update b (lim_update b t l) (dr_lim d)) d H4) as (U1 & U2 & U3 & U4).
    destruct (dig_update b (lim_update b (lim_update b t l) (dr_lim d)) d) as [[x|e] d']; cbn [fst snd] in *.
    - left. subst x. split; [reflexivity|]. cbn [snd orel]. split; [rewrite U3; reflexivity|]. split; [rewrite U3; cbn; lia|].
      split; [rewrite U3; cbn; lia|]. split; [exact U1|congruence].
    - right. split; [exact Logic.I|]. exists e. split; [congruence|reflexivity].
  Qed.
  Lemma off_read n a b : orel a b -> two (chk_exn k) orel any (rs_read rops n a) (rs_read rops n b).
  Proof using.
    destruct a as [s|l|d], b as [s'|l'|d']; cbn [orel]; try contradiction; intros H; [subst s'; left|subst l'; left|].
    - cbn [rs_read]. destruct (o_read rops n s). now split.
    - cbn [rs_read]. destruct (lim_read rops n l). now split.
    - pose proof H as (H1 & H2 & H3 & H4 & H5). cbn [rs_read]. unfold dig_read, dig_rd, lim_read.
      assert (El : lim_len n (dr_lim d') = lim_len n l) by (unfold lim_len; rewrite H2; reflexivity).
      rewrite El. destruct (lim_len n l =? 0) eqn:E0; [left; now split|]. rewrite H1. cbn [lim_ops o_read]. unfold lim_read.
      assert (Em : lim_len (Some (lim_len n l)) l = lim_len n l) by (unfold lim_len; destruct n; lia). rewrite Em, E0.
      destruct (o_read rops (Some (lim_len n l)) (lm_stream l)) as [[b|e] t]; [now apply upd_over|].
      left. split; [reflexivity|]. cbn. repeat split; auto; apply H4.
  Qed.
  Lemma off_line n a b : orel a b -> two (chk_exn k) orel any (rs_readline rops n a) (rs_readline rops n b).
  Proof using.
    destruct a as [s|l|d], b as [s'|l'|d']; cbn [orel]; try contradiction; intros H; [subst s'; left|subst l'; left|].
    - cbn [rs_readline]. destruct (o_readline rops n s). now split.
    - cbn [rs_readline]. destruct (lim_readline rops n l). now split.
    - pose proof H as (H1 & H2 & H3 & H4 & H5). cbn [rs_readline]. unfold dig_readline, dig_rd, lim_readline.
      assert (El : lim_len n (dr_lim d') = lim_len n l) by (unfold lim_len; rewrite H2; reflexivity).
      rewrite El. destruct (lim_len n l =? 0) eqn:E0; [left; now split|]. rewrite H1. cbn [lim_ops o_readline]. unfold lim_readline.
      assert (Em : lim_len (Some (lim_len n l)) l = lim_len n l) by (unfold lim_len; destruct n; lia). rewrite Em, E0.
      destruct (o_readline rops (Some (lim_len n l)) (lm_stream l)) as [[b|e] t]; [now apply upd_over|].
      left. split; [reflexivity|]. cbn. repeat split; auto; apply H4.
  Qed.
  Lemma off_begin a b : orel a b -> two (chk_exn k) orel any (begin_rs a) (begin_rs b).
  Proof using.
    destruct a as [s|l|d], b as [s'|l'|d']; cbn [orel]; try contradiction; intros H; [left; now split|left; now split|].
    pose proof H as (H1 & H2 & H3 & H4 & H5). cbn [begin_rs].
    destruct (begin_payload_exn (fun _ => True) d' (conj I H4)) as (B1 & B2 & B3 & B4).
    destruct (begin_payload d') as [[u|e] d2]; cbn [fst snd] in *.
    - left. destruct u. split; [reflexivity|]. cbn. unfold over. rewrite B2. repeat split; auto; try apply B1. congruence.
    - right. split; [exact I|]. exists e. split; [congruence|reflexivity].
  Qed.
  Lemma off_new t h len (s : rdr) :
    match the_stream he KFalse t h len s, the_stream he k t h len s with
    | Ok a, Ok b => orel a b
    | Ok a, Err e => any a /\ chk_exn k e
    | Err _, _ => False
    end.
  Proof using.
    unfold the_stream. destruct len as [n|]; [|reflexivity]. cbn [ckind_bool]. destruct (ckind_bool k); [|reflexivity].
    unfold wrap_digest. destruct (negb (truthy _) && negb (truthy _)); [reflexivity|].
    pose proof (dig_new_exn (fun _ : rdr => True) he (lim_new s n) n (chk_new k) t (get_header (lit "WARC-Payload-Digest") h)
                  (get_header (lit "WARC-Block-Digest") h) (get_header (lit "WARC-Segment-Number") h) I) as H.
    destruct (dig_new he (lim_new s n) n (chk_new k) t _ _ _) as [d|e] eqn:Ed.
    - destruct H as ((_ & H1) & H2 & H3). cbn. unfold over.
      assert (El : dr_lim d = lim_new (lim_new s n) n).
      { clear - Ed. unfold dig_new in Ed. destruct (mk_digester he PUnknownBlock _ _) as [[bo|] c1]; [|discriminate].
        destruct (mk_digester he PUnknownPayload _ c1) as [[po|] c2]; [|discriminate]. injection Ed as <-. reflexivity. }
      rewrite El. repeat split; auto; apply H1.
    - split; [exact I|]. left. exact H.
  Qed.
  Lemma off_base a b : orel a b -> rs_base a = rs_base b.
  Proof using. destruct a as [s|l|d], b as [s'|l'|d']; cbn; try contradiction; intros H; try congruence. destruct H as (H & _). now rewrite H. Qed.
  Lemma off_tell a b : orel a b -> rs_tell rops a = rs_tell rops b.
  Proof using.
    destruct a as [s|l|d], b as [s'|l'|d']; cbn [rs_tell orel]; try contradiction; intros H; try congruence.
    destruct H as (_ & H1 & H2 & _). unfold dig_tell, lim_tell. congruence.
  Qed.
  Lemma off_set (s : rdr) a b : orel a b -> orel (rs_set_base s a) (rs_set_base s b).
  Proof using.
    destruct a as [s1|l|d], b as [s'|l'|d']; cbn [orel rs_set_base]; try contradiction; intros H; try congruence.
    destruct H as (H1 & H2 & H3 & H4 & H5). unfold over. cbn. rewrite H1. repeat split; auto; apply H4.
  Qed.

  Lemma off_run n prog j0 file block known :
    let x := run_iter fuel he (with_check KFalse o) n prog j0 (iter_new (zl:=zl) file block known) in
    let y := run_iter fuel he (with_check k o) n prog j0 (iter_new (zl:=zl) file block known) in
    exists j, Forall2 (same_obs (fun _ _ => True)) (firstn j (fst x)) (firstn j (fst y))
      /\ ((j = List.length (fst x) /\ j = List.length (fst y) /\ snd x = snd y)
          \/ (exists e, chk_exn k e /\ raises_at e (fst y) (snd y) j)).
  Proof using.
    cbn zeta.
    destruct (run_two fuel he (with_check KFalse o) (with_check k o) (chk_exn k) orel any (fun _ _ => True) (fun _ => True) True same_record)
      with (n := n) (prog := prog) (k := j0) (a := iter_new (zl:=zl) file block known) (b := iter_new (zl:=zl) file block known) as (j & J1 & J2).
    - exact off_read.
    - exact off_line.
    - intros; exact I.
    - intros; exact I.
    - intros; exact I.
    - exact off_base.
    - exact off_set.
    - intros; exact I.
    - intros; exact I.
    - intros sl kn s. destruct (parse_gen fuel he o KFalse k (chk_exn k) orel any) with (sl := sl) (known := kn) (s := s) as [X|[X Y]].
      + intros [[X _]|X]; discriminate.
      + exact off_new.
      + exact (off_line None).
      + intros; exact I.
      + exact off_begin.
      + intros; exact I.
      + exact off_base.
      + exact off_tell.
      + left. exact X.
      + right. split; [exact X|]. destruct (fst (parse_record_stream rops fuel he (with_check KFalse o) sl kn s)) as [a|e]; [exact Y|]. destruct e; exact I.
    - intros [[X _]|X]; discriminate.
    - reflexivity.
    - intros a b s t H. exact H.
    - intros a b H. apply H.
    - repeat split.
    - exists j. split; [exact J1|]. destruct J2 as [J2|[J2 _]]; [now left|now right].
  Qed.
End Off.

(** ** True against 'log' *)
Definition quiet (k : ckind) : Prop := k = KTrue \/ k = KLog.
Section Log.
  Context {zl : zenv} (fuel : nat) (he : henv) (o : lopts).
  Notation rdr := (breader zl raw).
  Notation rst := (rstream rdr).
  Notation rops := (rops (zl:=zl) fuel).
  Definition ceq (c c' : checker) : Prop := dc_problems c = dc_problems c' /\ dc_passed c = dc_passed c' /\ quiet (dc_kind c) /\ quiet (dc_kind c').
  Definition deq (d d' : digr rdr) : Prop :=
    dr_lim d = dr_lim d' /\ dr_pdig d = dr_pdig d' /\ dr_bdig d = dr_bdig d' /\ dr_pobj d = dr_pobj d' /\ dr_pon d = dr_pon d'
    /\ dr_bobj d = dr_bobj d' /\ ceq (dr_chk d) (dr_chk d').
  Definition lrel (a b : rst) : Prop :=
    match a, b with
    | RSbase s, RSbase t => s = t
    | RSlim l, RSlim m => l = m
    | RSdig d, RSdig e => deq d e
    | _, _ => False
    end.
  Definition never (_ : exn) : Prop := False.
  Definition nowhere (_ : rst) : Prop := False.
  Definition both {A} (x y : res A * digr rdr) : Prop := fst x = fst y /\ deq (snd x) (snd y).

  Lemma both_two {A} (x y : res A * digr rdr) : both x y ->
    two never lrel nowhere (let (r, d) := x in (r, RSdig d)) (let (r, d) := y in (r, RSdig d)).
  Proof. destruct x as [r d], y as [r' d']. intros [H1 H2]. left. now split. Qed.
  Lemma problem_eq p c c' : ceq c c' -> fst (chk_problem p c) = Ok tt /\ fst (chk_problem p c') = Ok tt /\ ceq (snd (chk_problem p c)) (snd (chk_problem p c')).
  Proof.
    intros (H1 & H2 & H3 & H4). unfold chk_problem, ceq. rewrite <- H1.
    destruct H3 as [E1|E1], H4 as [E2|E2]; rewrite E1, E2; cbn; unfold quiet; auto 10.
  Qed.
  Lemma check_eq p g d c c' : ceq c c' -> fst (check_one p g d c) = fst (check_one p g d c') /\ ceq (snd (check_one p g d c)) (snd (check_one p g d c')).
  Proof.
    intros H. unfold check_one. destruct (compare_digest g d) as [[[|]|]|e]; auto.
    - split; [reflexivity|]. destruct H as (H1 & H2 & H3 & H4). unfold chk_pass, ceq. cbn [snd]. rewrite <- H2.
      destruct (dc_passed c) as [[|]|] eqn:Ep; cbn; rewrite ?Ep; auto 10.
    - destruct (problem_eq p c c' H) as (H1 & H2 & H3). destruct (chk_problem p c) as [r1 c1], (chk_problem p c') as [r2 c2]. cbn [fst snd] in *. subst. now split.
  Qed.
  Lemma upd_eq b l d d' : deq d d' -> both (dig_update b l d) (dig_update b l d').
  Proof.
    intros (E1 & E2 & E3 & E4 & E5 & E6 & HC). unfold dig_update. rewrite <- E2, <- E3, <- E4, <- E5, <- E6.
    destruct (lm_limit l =? 0).
    2:{ split; [reflexivity|]. unfold deq. cbn. auto 10. }
    cbn [dr_bobj dr_bdig dr_chk dr_pdig]. unfold dr_pdigester. cbn [dr_pon dr_pobj].
    set (bo := option_map (dgst_update b) (dr_bobj d)). set (po := if dr_pon d then option_map (dgst_update b) (dr_pobj d) else dr_pobj d).
    destruct (check_eq PBlockFailed bo (dr_bdig d) _ _ HC) as [H1 H2].
    destruct (check_one PBlockFailed bo (dr_bdig d) (dr_chk d)) as [r c1], (check_one PBlockFailed bo (dr_bdig d) (dr_chk d')) as [r' c1']. cbn [fst snd] in *. subst r'.
    destruct r as [x|e].
    - destruct (check_eq PPayloadFailed (if dr_pon d then po else None) (dr_pdig d) _ _ H2) as [H3 H4].
      destruct (check_one PPayloadFailed (if dr_pon d then po else None) (dr_pdig d) c1) as [r c2], (check_one PPayloadFailed (if dr_pon d then po else None) (dr_pdig d) c1') as [r' c2'].
      cbn [fst snd] in *. subst r'. destruct r; split; auto; unfold deq; cbn; auto 10.
    - split; auto. unfold deq. cbn. auto 10.
  Qed.
  Lemma rd_eq op n d d' : deq d d' -> both (dig_rd rops op n d) (dig_rd rops op n d').
  Proof.
    intros H. pose proof H as (E1 & E2 & E3 & E4 & E5 & E6 & HC). unfold dig_rd. rewrite <- E1. destruct (lim_len n (dr_lim d) =? 0); [now split|].
    destruct (op (lim_ops rops) (Some (lim_len n (dr_lim d))) (lm_stream (dr_lim d))) as [[b|e] s'].
    - now apply upd_eq.
    - split; [reflexivity|]. unfold deq. cbn. auto 10.
  Qed.
  Lemma begin_eq d d' : deq d d' -> both (begin_payload d) (begin_payload d').
  Proof.
    intros (E1 & E2 & E3 & E4 & E5 & E6 & HC). unfold begin_payload. cbn [dr_set_pon dr_lim dr_pobj dr_pdig dr_chk].
    rewrite <- E1, <- E2, <- E4. destruct (lm_limit (dr_lim d) =? 0).
    2:{ split; [reflexivity|]. unfold deq. cbn. auto 10. }
    destruct (check_eq PPayloadFailed (dr_pobj d) (dr_pdig d) _ _ HC) as [H1 H2].
    destruct (check_one PPayloadFailed (dr_pobj d) (dr_pdig d) (dr_chk d)) as [r c1], (check_one PPayloadFailed (dr_pobj d) (dr_pdig d) (dr_chk d')) as [r' c1']. cbn [fst snd] in *. subst r'.
    destruct r as [[|]|]; split; auto; unfold deq; cbn; auto 10.
  Qed.
  Lemma l_read n a b : lrel a b -> two never lrel nowhere (rs_read rops n a) (rs_read rops n b).
  Proof.
    destruct a as [s|l|d], b as [s'|l'|d']; cbn [lrel]; try contradiction; intros H; [subst s'; left|subst l'; left|].
    - cbn [rs_read]. destruct (o_read rops n s). now split.
    - cbn [rs_read]. destruct (lim_read rops n l). now split.
    - apply both_two. now apply rd_eq.
  Qed.
  Lemma l_line n a b : lrel a b -> two never lrel nowhere (rs_readline rops n a) (rs_readline rops n b).
  Proof.
    destruct a as [s|l|d], b as [s'|l'|d']; cbn [lrel]; try contradiction; intros H; [subst s'; left|subst l'; left|].
    - cbn [rs_readline]. destruct (o_readline rops n s). now split.
    - cbn [rs_readline]. destruct (lim_readline rops n l). now split.
    - apply both_two. now apply rd_eq.
  Qed.
  Lemma l_begin a b : lrel a b -> two never lrel nowhere (begin_rs a) (begin_rs b).
  Proof.
    destruct a as [s|l|d], b as [s'|l'|d']; cbn [lrel]; try contradiction; intros H; [subst s'; left|subst l'; left|]; try (now split).
    apply both_two. now apply begin_eq.
  Qed.
  Lemma mkd_eq p d c c' : ceq c c' -> fst (mk_digester he p d c) = fst (mk_digester he p d c') /\ (exists g, fst (mk_digester he p d c) = Ok g) /\ ceq (snd (mk_digester he p d c)) (snd (mk_digester he p d c')).
  Proof.
    intros H. destruct (problem_eq p c c' H) as (H1 & H2 & H3). unfold mk_digester.
    destruct d as [[|x t]|]; [split; [reflexivity|split; [eexists; reflexivity|exact H]]| |split; [reflexivity|split; [eexists; reflexivity|exact H]]].
    destruct (chk_problem p c) as [r1 c1], (chk_problem p c') as [r2 c2]. cbn [fst snd] in *. subst.
    destruct (parse_digest (x :: t)) as [[a v]|]; [destruct (dgst_new he a)|]; (split; [reflexivity|split; [eexists; reflexivity|assumption]]).
  Qed.
  Lemma l_new k t h len (s : rdr) : quiet k ->
    match the_stream he KTrue t h len s, the_stream he k t h len s with
    | Ok a, Ok b => lrel a b
    | Ok a, Err e => nowhere a /\ never e
    | Err _, _ => False
    end.
  Proof.
    intros Hk. unfold the_stream. destruct len as [n|]; [|reflexivity].
    replace (ckind_bool k) with true by (destruct Hk as [-> | ->]; reflexivity). cbn [ckind_bool]. unfold wrap_digest.
    destruct (negb (truthy _) && negb (truthy _)); [reflexivity|]. unfold dig_new. cbn zeta.
    set (bd := if match t with Some t => leqb t (lit "revisit") | None => false end then None else get_header (lit "WARC-Block-Digest") h).
    set (pd := match get_header (lit "WARC-Segment-Number") h with Some _ => None | None => _ end).
    assert (HC : ceq (chk_new KTrue) (chk_new k)) by (repeat split; [now left|exact Hk]).
    destruct (mkd_eq PUnknownBlock bd _ _ HC) as (H1 & (g & H2) & H3).
    destruct (mk_digester he PUnknownBlock bd (chk_new KTrue)) as [r1 c1], (mk_digester he PUnknownBlock bd (chk_new k)) as [r2 c2]. cbn [fst snd] in *. subst.
    destruct (mkd_eq PUnknownPayload pd _ _ H3) as (G1 & (g' & G2) & G3).
    destruct (mk_digester he PUnknownPayload pd c1) as [r1 c3], (mk_digester he PUnknownPayload pd c2) as [r2 c4]. cbn [fst snd] in *. subst.
    cbn. repeat split; auto; apply G3.
  Qed.
  Lemma l_base a b : lrel a b -> rs_base a = rs_base b.
  Proof. destruct a as [s|l|d], b as [s'|l'|d']; cbn; try contradiction; intros H; try congruence. destruct H as (H & _). now rewrite H. Qed.
  Lemma l_tell a b : lrel a b -> rs_tell rops a = rs_tell rops b.
  Proof. destruct a as [s|l|d], b as [s'|l'|d']; cbn [rs_tell lrel]; try contradiction; intros H; try congruence. destruct H as (H & _). unfold dig_tell. now rewrite H. Qed.
  Lemma l_set (s : rdr) a b : lrel a b -> lrel (rs_set_base s a) (rs_set_base s b).
  Proof.
    destruct a as [s1|l|d], b as [s'|l'|d']; cbn [lrel rs_set_base]; try contradiction; intros H; try congruence.
    destruct H as (E1 & E2 & E3 & E4 & E5 & E6 & HC). unfold deq. cbn. rewrite E1. auto 10.
  Qed.
  Lemma log_run k n prog j0 file block known : quiet k ->
    let x := run_iter fuel he (with_check KTrue o) n prog j0 (iter_new (zl:=zl) file block known) in
    let y := run_iter fuel he (with_check k o) n prog j0 (iter_new (zl:=zl) file block known) in
    Forall2 (same_obs eq) (fst x) (fst y) /\ snd x = snd y.
  Proof.
    intros Hk. cbn zeta.
    destruct (run_two fuel he (with_check KTrue o) (with_check k o) never lrel nowhere eq (fun _ => True) False same_record)
      with (n := n) (prog := prog) (k := j0) (a := iter_new (zl:=zl) file block known) (b := iter_new (zl:=zl) file block known) as (j & J1 & J2).
    - exact l_read.
    - exact l_line.
    - intros ? ? [].
    - intros ? ? [].
    - intros ? ? [].
    - exact l_base.
    - exact l_set.
    - intros a b. destruct a as [s|l|d], b as [s'|l'|d']; cbn; try contradiction; intros H; try reflexivity.
      destruct H as (_ & _ & _ & _ & _ & _ & HC). apply HC.
    - intros ? [].
    - intros sl kn s. destruct (parse_gen fuel he o KTrue k never lrel nowhere) with (sl := sl) (known := kn) (s := s) as [X|[(e & [] & _) _]].
      + intros [].
      + intros; now apply l_new.
      + exact (l_line None).
      + intros ? [].
      + exact l_begin.
      + intros ? [].
      + exact l_base.
      + exact l_tell.
      + left. exact X.
    - intros [].
    - reflexivity.
    - intros a b s t H. exact H.
    - intros a b H. apply H.
    - repeat split.
    - destruct J2 as [(J2 & J3 & J4)|[(e & [] & _) _]]. split; [|exact J4].
      rewrite J2 in J1 at 1. rewrite J3 in J1. now rewrite !firstn_all in J1.
  Qed.
End Log.
