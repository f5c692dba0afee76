(** * CheckProofs: lemmas about the checker *)
From Coq Require Import String List ZArith NArith Bool Lia Permutation.
From Coq Require Import ZifyBool ZifyNat ZifyN.
From Verif Require Import PyBase Facts Headers Streams StreamSpec HeaderSpec DigestSpec Loader Iterator WriterSpec WriterProofs SimProofs IterSpec IterProofs Cli CliSpec CliProofs TraceProofs ReportSpec ReportProofs.
Import ListNotations.
Open Scope Z_scope.

Lemma parse_base {S} (ops : sops S) fuel he o sl known s rc r :
  parse_record_stream ops fuel he o sl known s = (Ok rc, r) -> r = rs_base (rc_stream rc).
Proof.
  unfold parse_record_stream. intros H. cbv zeta in H.
  repeat (match type of H with (match ?x with _ => _ end) = _ => destruct x end; try discriminate).
  now injection H as <- <-.
Qed.

Section Check.
  Context {zl : zenv} (fuel : nat) (he : henv).
  Notation rdr := (breader zl raw).
  Notation iter := (@iter zl).
  Notation rops := (rops (zl:=zl) fuel).

  Lemma next_reader o (it : iter) rc it' : iter_next fuel he o it = (Ok (Some rc), it') -> it_reader it' = rs_base (rc_stream rc).
  Proof.
    assert (N : forall (it : iter) rc it', next_record fuel he o it = (Ok rc, it') -> it_reader it' = rs_base (rc_stream rc)).
    { clear. intros it rc it'. unfold next_record. destruct (parse_record_stream _ _ _ _ _ _ _) as [[x|e] r] eqn:E; [|discriminate].
      intros [= <- <-]. cbn. now apply parse_base in E. }
    assert (L : forall n (it : iter) rc it', iter_loop fuel he o n it = (Ok (Some rc), it') -> it_reader it' = rs_base (rc_stream rc)).
    { induction n as [|n IH]; intros it0 rc0 it0' H; [discriminate|]. cbn [iter_loop] in H.
      destruct (next_record fuel he o it0) as [[x|e] it1] eqn:E.
      - destruct (it_raise_gz it1); [discriminate|]. injection H as <- <-. apply N in E. exact E.
      - destruct e; try discriminate.
        destruct (after_record fuel (set_empty true it1)) as [[b|e] it2]; [|destruct e; discriminate].
        destruct b; [eauto|discriminate]. }
    unfold iter_next. destruct (it_phase it); [apply L| |discriminate].
    destruct (after_record fuel it) as [[[]|e] it1]; [apply L|discriminate|discriminate].
  Qed.

  (** a trace of calls on the record's stream as a consumer's program *)
  Definition uop_of (c : call) : uop := match c with CRead n => URead n | CLine n => UReadline n end.
  Lemma rstream_twice a b (it : iter) rc : it_record it = Some rc -> it_set_rstream b (it_set_rstream a it) = it_set_rstream b it.
  Proof. intros E. unfold it_set_rstream. cbn. rewrite E. reflexivity. Qed.
  Lemma trace_user cs : forall (it : iter) rc xs st, it_record it = Some rc -> it_reader it = rs_base (rc_stream rc) ->
    do_calls (rs_ops rops) cs (rc_stream rc) = (xs, st) -> user_ops fuel (map uop_of cs) it = (xs, it_set_rstream st it).
  Proof.
    induction cs as [|c cs IH]; intros it rc xs st Er Ed H; cbn [do_calls] in H.
    - injection H as <- <-. cbn. now rewrite (set_same it rc Er Ed).
    - destruct (do_call (rs_ops rops) c (rc_stream rc)) as [x st1] eqn:E. destruct (do_calls (rs_ops rops) cs st1) as [ys st2] eqn:E2.
      injection H as <- <-. cbn [map user_ops].
      assert (user_op fuel (uop_of c) it = (x, it_set_rstream st1 it)) as ->.
      { destruct c; cbn [uop_of user_op do_call rs_ops o_read o_readline] in *; rewrite Er, E; reflexivity. }
      rewrite (IH (it_set_rstream st1 it) (rc_set_stream st1 rc) ys st2).
      + now rewrite (rstream_twice _ _ it rc Er).
      + unfold it_set_rstream. cbn. now rewrite Er.
      + reflexivity.
      + exact E2.
  Qed.
  Lemma ok_calls_user ln cs : Forall (ok_call ln) cs -> nonneg_ops (map uop_of cs) /\ limited_lines 64 (map uop_of cs).
  Proof.
    induction 1 as [|c cs H _ [IH1 IH2]]; [split; constructor|]. split; constructor; auto; destruct c as [[n|]|[n|]]; cbn in *; try contradiction; auto; try lia.
    exists n. split; [reflexivity|lia].
  Qed.
  Lemma ok_calls_quiet cs : Forall (ok_call false) cs -> no_lines (map uop_of cs).
  Proof.
    induction 1 as [|c cs H _ IH]; constructor; [|exact IH]. destruct c as [|[n|]]; [exact I| |contradiction]. destruct H. discriminate.
  Qed.

  (** reading a content stream to its end *)
  Definition cs_fine (ln : bool) (c : cstream zl rdr) : Prop :=
    match c with CSraw _ => True | CSbuf b => good ln b /\ ck_raises b = false end.
  Definition http_lines (http : option sah) : bool := match http with Some h => is_chunked h | None => false end.
  Lemma content_fine http st : cs_fine (http_lines http) (content_stream (zl:=zl) http st).
  Proof.
    unfold content_stream. destruct http as [h|]; [|exact I]. destruct (sah_bool h); [|exact I].
    assert (0 <= BUFF_SIZE) by (vm_compute; discriminate).
    cbn [http_lines]. destruct (is_chunked h); [now repeat split|]. destruct (content_encoding h); [now repeat split|exact I].
  Qed.
  Lemma content_raw http st : cs_raw (content_stream (zl:=zl) (S:=rdr) http st) = st.
  Proof.
    unfold content_stream. destruct http as [h|]; [|reflexivity]. destruct (sah_bool h); [|reflexivity].
    destruct (is_chunked h); [reflexivity|]. destruct (content_encoding h); reflexivity.
  Qed.
  Lemma cs_read_traced ln B c x c' : 0 <= B -> cs_fine ln c -> cs_read rops fuel (Some B) c = (x, c') ->
    cs_fine ln c' /\ exists cs xs, Forall (ok_call ln) cs /\ do_calls (rs_ops rops) cs (cs_raw c) = (xs, cs_raw c')
      /\ match x with Ok _ => soft xs | Err e => e = OutOfFuel \/ In (Err e) xs end.
  Proof.
    destruct c as [st|b]; intros HB Hf H; cbn [cs_read] in H.
    - destruct (rs_read rops (Some B) st) as [y st'] eqn:E. injection H as <- <-. split; [exact I|].
      exists [CRead (Some B)], [y]. split; [repeat constructor; exact HB|]. split; [cbn; now rewrite E|].
      destruct y; [apply soft_ok|right; now left].
    - destruct (br_read (rs_ops rops) fuel (Some B) b) as [y b'] eqn:E. injection H as <- <-. destruct Hf as [Hb Hc].
      destruct (br_read_traced _ _ ln _ _ _ _ Hb E) as (K & xs & (cs & H1 & H2) & W & P). assert (K2 := proj1 (proj2 K)).
      split; [split; [exact (keeps_good _ _ _ K Hb)|congruence]|]. exists cs, xs. split; [exact H1|]. split; [exact H2|].
      destruct y; [exact (passed_soft _ _ P)|]. destruct W as [W|[W|W]]; auto. congruence.
  Qed.
  Lemma do_calls_length {S} (ops : sops S) cs : forall s xs s', do_calls ops cs s = (xs, s') -> List.length xs = List.length cs.
  Proof.
    induction cs as [|c cs IH]; intros s xs s' H; cbn in H; [now injection H as <- <-|].
    destruct (do_call ops c s) as [x s1]. destruct (do_calls ops cs s1) as [ys s2] eqn:E. injection H as <- <-. cbn. f_equal. eauto.
  Qed.
  Lemma read_entire_traced ln n : forall c x c', cs_fine ln c -> read_entire fuel n c = (x, c') ->
    exists cs xs, Forall (ok_call ln) cs /\ do_calls (rs_ops rops) cs (cs_raw c) = (xs, cs_raw c')
      /\ match x with Ok _ => soft xs | Err e => e = OutOfFuel \/ In (Err e) xs end.
  Proof.
    induction n as [|n IH]; intros c x c' Hf H; cbn [read_entire] in H.
    - injection H as <- <-. exists [], []. repeat split; auto.
    - destruct (cs_read rops fuel (Some 1048576) c) as [y c1] eqn:E.
      destruct (cs_read_traced ln 1048576 c y c1 ltac:(lia) Hf E) as (Hf1 & cs & xs & H1 & H2 & H3).
      destruct y as [[|a d]|e].
      + injection H as <- <-. exists cs, xs. repeat split; auto.
      + destruct (IH c1 x c' Hf1 H) as (cs' & xs' & G1 & G2 & G3).
        exists (cs ++ cs'), (xs ++ xs'). split; [now apply Forall_app|]. split; [now rewrite do_calls_app, H2, G2|].
        destruct x; [now apply soft_app|]. destruct G3; [now left|right]. apply in_or_app. now right.
      + injection H as <- <-. exists cs, xs. auto.
  Qed.
  Lemma read_entire_raw ln n : forall st x c', read_entire fuel n (CSraw st) = (x, c') ->
    exists cs xs, Forall (ok_call ln) cs /\ do_calls (rs_ops rops) cs st = (xs, cs_raw c')
      /\ match x with Ok _ => soft xs | Err e => In (Err e) xs \/ e = OutOfFuel /\ List.length xs = n /\ ~ In (Ok []) xs end.
  Proof.
    induction n as [|n IH]; intros st x c' H; cbn [read_entire] in H.
    - injection H as <- <-. exists [], []. repeat split; auto.
    - cbn [cs_read] in H. destruct (rs_read rops (Some 1048576) st) as [y st1] eqn:E.
      assert (F1 : ok_call ln (CRead (Some 1048576))) by (cbn; lia).
      destruct y as [[|a d]|e].
      + injection H as <- <-. exists [CRead (Some 1048576)], [Ok []]. split; [now repeat constructor|]. split; [|apply soft_ok]. cbn. now rewrite E.
      + destruct (IH st1 x c' H) as (cs & xs & G1 & G2 & G3). exists (CRead (Some 1048576) :: cs), (Ok (a :: d) :: xs).
        split; [now constructor|]. split; [cbn; now rewrite E, G2|]. destruct x; [apply (soft_app [_]); [apply soft_ok|exact G3]|].
        destruct G3 as [G3|(G3 & G4 & G5)]; [left; now right|right]. split; [exact G3|]. split; [cbn; congruence|].
        intros [X|X]; [discriminate|auto].
      + injection H as <- <-. exists [CRead (Some 1048576)], [Err e]. split; [now repeat constructor|]. split; [cbn; now rewrite E|].
        left. now left.
  Qed.

  Definition bad_ob (ob : @obs zl) : bool := match ob_passed ob with Some false => true | _ => false end.
  (** all reads and the end of the record worked *)
  Definition calm (ob : @obs zl) : Prop := soft (ob_reads ob) /\ exists i, ob_info ob = Ok i.
  Definition raw_content (http : option sah) : Prop :=
    forall st, content_stream (zl:=zl) (S:=rdr) http st = CSraw st.

  (** the file name is printed before the first message *)
  Definition headed (printed : bool) (name : str) (l : list message) : list message :=
    match l with [] => [] | _ => if printed then l else MFile name :: l end.
  Definition says (verbose printed : bool) (name : str) (os : list (@obs zl)) (ms : list message) : Prop :=
    exists mss, Forall2 (record_report verbose) os mss /\ ms = headed printed name (List.concat mss).
  Lemma raises_at_raises e (os : list (@obs zl)) en j : raises_at e os en j -> raises e os en.
  Proof. intros [[_ H]|(ob & H & H')]; [now left|right]. exists ob. split; [now apply nth_error_In in H|exact H']. Qed.
  Lemma says_cons verbose printed name ob os (m ms : list message) : record_report verbose ob m ->
    says verbose (printed || negb (is_nil (headed printed name m))) name os ms -> says verbose printed name (ob :: os) (headed printed name m ++ ms).
  Proof.
    intros Hm (mss & HF & ->). exists (m :: mss). split; [now constructor|]. cbn [List.concat].
    destruct m as [|x m]; [cbn [headed app is_nil negb]; now rewrite orb_false_r|].
    destruct printed; destruct (List.concat mss); cbn; rewrite ?app_nil_r; reflexivity.
  Qed.
  Lemma present_spec hs : truthy (hget (lit "WARC-Payload-Digest") hs) || truthy (hget (lit "WARC-Block-Digest") hs) = true <-> has_digest hs.
  Proof.
    unfold has_digest. rewrite orb_true_iff. split.
    - intros [H|H]; [exists (lit "WARC-Payload-Digest")|exists (lit "WARC-Block-Digest")]; rewrite value_of_hget;
        destruct (hget _ hs) as [[|x v]|]; try discriminate H; exists (x :: v); (split; [auto|split; [reflexivity|discriminate]]).
    - intros (n & v & [-> | ->] & H & Hv); rewrite value_of_hget in H; rewrite H; [left|right]; destruct v; auto; contradiction.
  Qed.
  Lemma report_of verbose (ob : @obs zl) ck off len : told ck -> ob_passed ob = dc_passed ck -> ob_info ob = Ok (Some (off, len)) \/ (ob_info ob = Ok None /\ off = 0) ->
    let h := rc_headers (ob_record ob) in
    let present := truthy (get_header (lit "WARC-Payload-Digest") h) || truthy (get_header (lit "WARC-Block-Digest") h) in
    let ty := get_header (lit "WARC-Type") h in
    let out := if (match dc_passed ck with Some false => true | _ => false end) then dc_problems ck else [] in
    record_report verbose ob
      match check_text verbose (dc_passed ck) present ty, out with
      | None, [] => []
      | _, _ => [MRecord off (get_header (lit "WARC-Record-ID") h) ty]
                ++ (match check_text verbose (dc_passed ck) present ty with Some t => [MText t] | None => [] end) ++ map MProblem out
      end.
  Proof.
    intros Ht Hp Hi. cbv zeta. unfold get_header.
    set (hs := sh_headers (rc_headers (ob_record ob))).
    assert (EL : MRecord off (hget (lit "WARC-Record-ID") hs) (hget (lit "WARC-Type") hs) = record_line ob).
    { unfold record_line. fold hs. rewrite !value_of_hget. destruct Hi as [->|[-> ->]]; reflexivity. }
    rewrite EL. destruct (dc_passed ck) as [[|]|] eqn:Ep; cbn [check_text].
    - destruct verbose; cbn [app map]; [now apply R_pass|apply R_silent; congruence].
    - specialize (Ht Ep). destruct (dc_problems ck) as [|p ps]; [contradiction|]. cbn [app]. now apply (R_bad _ _ (p :: ps)).
    - destruct verbose; cbn [app map]; [|apply R_silent; congruence]. apply R_none; [congruence|reflexivity|]. fold hs.
      destruct (truthy _ || truthy _) eqn:Et.
      + apply present_spec in Et. unfold otype_is. cbn [andb]. destruct (hget (lit "WARC-Type") hs) as [t|] eqn:Ety.
        * destruct (leqb t (lit "revisit")) eqn:El.
          -- apply leqb_eq in El. subst t. apply U_revisit; [exact Et|]. rewrite value_of_hget. exact Ety.
          -- apply U_other; [exact Et|]. rewrite value_of_hget, Ety. intros [= ->]. now rewrite leqb_refl in El.
        * apply U_other; [exact Et|]. rewrite value_of_hget, Ety. discriminate.
      + cbn [andb]. apply U_none. rewrite <- present_spec. congruence.
  Qed.

  Lemma check_loop_ok o n : forall verbose name printed ev k it x ev' ms,
    check_loop fuel he n o verbose name printed ev it = (x, ev', ms) ->
    exists prog, (forall i, nonneg_ops (prog i) /\ limited_lines 64 (prog i))
      /\ (forall prog' j obs en ob, (forall i, (k <= i < k + j)%nat -> prog' i = prog i) -> run_iter fuel he o n prog' k it = (obs, en) ->
           nth_error obs j = Some ob -> http_lines (rc_http (ob_record ob)) = false -> no_lines (prog (k + j)%nat))
      /\ forall obs en, run_iter fuel he o n prog k it = (obs, en) ->
         (x = Ok tt /\ en = EndStop /\ ev' = (if existsb bad_ob obs then 1 else ev) /\ Forall calm obs /\ says verbose printed name obs ms)
         \/ (exists e j, x = Err e /\ raises_at e obs en j /\ says verbose printed name (firstn j obs) ms)
         \/ (x = Err OutOfFuel
             /\ exists ob, In ob obs /\ (raw_content (rc_http (ob_record ob)) -> List.length (ob_reads ob) = fuel /\ ~ In (Ok []) (ob_reads ob))).
  Proof.
    induction n as [|n IH]; intros verbose name printed ev k it x ev' ms H.
    - injection H as <- <- <-. exists (fun _ => []). split; [split; constructor|]. split; [intros; constructor|]. intros obs en [= <- <-]. right. left. exists OutOfFuel, O. split; [reflexivity|]. split; [now left|]. exists []. now split; [constructor|].
    - cbn [check_loop] in H. destruct (iter_next fuel he o it) as [[[rc|]|e] it0] eqn:En.
      2:{ injection H as <- <- <-. exists (fun _ => []). split; [split; constructor|]. split; [intros; constructor|]. cbn [run_iter]. rewrite En.
          intros obs en [= <- <-]. left. repeat split; [constructor|]. exists []. now split; [constructor|]. }
      2:{ injection H as <- <- <-. exists (fun _ => []). split; [split; constructor|]. split; [intros; constructor|]. cbn [run_iter]. rewrite En.
          intros obs en [= <- <-]. right. left. exists e, O. split; [reflexivity|]. split; [now left|]. exists []. now split; [constructor|]. }
      destruct (iter_next_some fuel he o it rc it0 En) as (Hrec & Hmem & Hph). pose proof (next_reader o it rc it0 En) as Hrd.
      destruct (read_entire fuel fuel (content_stream (rc_http rc) (rc_stream rc))) as [y c] eqn:Er.
      assert (exists cs xs, Forall (ok_call (http_lines (rc_http rc))) cs /\ do_calls (rs_ops rops) cs (rc_stream rc) = (xs, cs_raw c)
         /\ match y with Ok _ => soft xs | Err e => In (Err e) xs \/ e = OutOfFuel /\ (raw_content (rc_http rc) -> List.length xs = fuel /\ ~ In (Ok []) xs) end) as (cs & xs & C1 & C2 & C3).
      { destruct (content_stream (rc_http rc) (rc_stream rc)) as [st|b] eqn:Ec.
        - assert (st = rc_stream rc) as -> by (pose proof (content_raw (rc_http rc) (rc_stream rc)) as X; rewrite Ec in X; exact X).
          destruct (read_entire_raw (http_lines (rc_http rc)) _ _ _ _ Er) as (cs & xs & A & B & C). exists cs, xs. split; [exact A|]. split; [exact B|].
          destruct y; [exact C|]. destruct C as [C|(C & C')]; [now left|right]. split; [exact C|]. intros _. exact C'.
        - pose proof (content_fine (rc_http rc) (rc_stream rc)) as Hf. rewrite Ec in Hf.
          destruct (read_entire_traced _ _ _ _ _ Hf Er) as (cs & xs & A & B & C). exists cs, xs. split; [exact A|]. split.
          + rewrite <- B. f_equal. pose proof (content_raw (rc_http rc) (rc_stream rc)) as X. rewrite Ec in X. now symmetry.
          + destruct y; [exact C|]. destruct C as [C|C]; [right|now left]. split; [exact C|]. intros Hr. rewrite Hr in Ec. discriminate. }
      pose proof (trace_user cs it0 rc xs _ Hrec Hrd C2) as Hu. destruct (ok_calls_user _ cs C1) as [N1 N2].
      set (it1 := it_set_rstream (cs_raw c) it0) in *.
      (* a program that begins like this *)
      assert (P : forall p' obs en, (forall i, nonneg_ops (p' i) /\ limited_lines 64 (p' i)) ->
        let prog := fun i => if Nat.eqb i k then map uop_of cs else p' i in
        (forall i, nonneg_ops (prog i) /\ limited_lines 64 (prog i))
        /\ (run_iter fuel he o (Datatypes.S n) prog k it = (obs, en) ->
            exists ob os, obs = ob :: os /\ ob_record ob = rc /\ ob_reads ob = xs /\ ob_info ob = fst (get_offset_length fuel it1)
              /\ ob_passed ob = it_passed (snd (get_offset_length fuel it1))
              /\ run_iter fuel he o n p' (Datatypes.S k) (snd (get_offset_length fuel it1)) = (os, en))).
      { intros p' obs en Hp' prog. split; [intros i; unfold prog; destruct (Nat.eqb i k); auto|].
        cbn [run_iter]. rewrite En. unfold prog at 1. rewrite Nat.eqb_refl, Hu.
        destruct (get_offset_length fuel it1) as [info it2]. 
        assert (forall m j (i2 : iter), (k < j)%nat -> run_iter fuel he o m prog j i2 = run_iter fuel he o m p' j i2) as Hext.
        { induction m as [|m IHm]; intros j i2 Hj; [reflexivity|]. cbn [run_iter].
          destruct (iter_next fuel he o i2) as [[[r|]|e] i3]; try reflexivity.
          assert (prog j = p' j) as -> by (unfold prog; replace (Nat.eqb j k) with false; [reflexivity|symmetry; apply Nat.eqb_neq; lia]).
          destruct (user_ops fuel (p' j) i3) as [zs i4]. destruct (get_offset_length fuel i4) as [inf i5]. now rewrite IHm by lia. }
        rewrite Hext by lia. destruct (run_iter fuel he o n p' (Datatypes.S k) it2) as [os en'] eqn:Erun. intros [= <- ->].
        exists (mk_obs rc xs info (it_passed it2)), os. cbn [fst snd]. repeat split. exact Erun. }
      (* readline is used only for chunked content *)
      assert (PQ : forall p' : nat -> list uop, (forall prog' j obs en ob, (forall i, (Datatypes.S k <= i < Datatypes.S k + j)%nat -> prog' i = p' i) ->
          run_iter fuel he o n prog' (Datatypes.S k) (snd (get_offset_length fuel it1)) = (obs, en) ->
          nth_error obs j = Some ob -> http_lines (rc_http (ob_record ob)) = false -> no_lines (p' (Datatypes.S k + j)%nat)) ->
        let prog := fun i => if Nat.eqb i k then map uop_of cs else p' i in
        forall prog' j obs en ob, (forall i, (k <= i < k + j)%nat -> prog' i = prog i) -> run_iter fuel he o (Datatypes.S n) prog' k it = (obs, en) ->
          nth_error obs j = Some ob -> http_lines (rc_http (ob_record ob)) = false -> no_lines (prog (k + j)%nat)).
      { intros p' Hp' prog prog' j obs en ob Hpr Hrun Hj Hq. cbn [run_iter] in Hrun. rewrite En in Hrun.
        destruct j as [|j].
        - destruct (user_ops fuel (prog' k) it0) as [zs i4]. destruct (get_offset_length fuel i4) as [inf i5].
          destruct (run_iter fuel he o n prog' (Datatypes.S k) i5) as [os en']. injection Hrun as <- <-. injection Hj as <-.
          cbn [ob_record] in Hq. rewrite Hq in C1. unfold prog. rewrite Nat.add_0_r, Nat.eqb_refl. now apply ok_calls_quiet.
        - assert (prog' k = map uop_of cs) as Ek by (rewrite Hpr by lia; unfold prog; now rewrite Nat.eqb_refl).
          rewrite Ek, Hu in Hrun. destruct (get_offset_length fuel it1) as [inf i5]. cbn [snd] in Hp'.
          destruct (run_iter fuel he o n prog' (Datatypes.S k) i5) as [os en'] eqn:Erun. injection Hrun as <- <-. cbn [nth_error] in Hj.
          unfold prog. replace (Nat.eqb (k + Datatypes.S j) k) with false by (symmetry; apply Nat.eqb_neq; lia).
          replace (k + Datatypes.S j)%nat with (Datatypes.S k + j)%nat by lia. apply (Hp' prog' j os en' ob); auto.
          intros i Hi. rewrite Hpr by lia. unfold prog. now replace (Nat.eqb i k) with false by (symmetry; apply Nat.eqb_neq; lia). }
      assert (P0 : forall i : nat, nonneg_ops (@nil uop) /\ limited_lines 64 (@nil uop)) by (split; constructor).
      destruct y as [u|e].
      2:{ injection H as <- <- <-. exists (fun i => if Nat.eqb i k then map uop_of cs else []).
          split; [apply (P (fun _ => []) [] EndStop P0)|]. split; [apply (PQ (fun _ => [])); intros; constructor|]. intros obs en Hrun.
          destruct (proj2 (P (fun _ => []) obs en P0) Hrun) as (ob & os & -> & B1 & B2 & _). subst.
          right. destruct C3 as [C3|(-> & C3)].
          - left. exists e, O. split; [reflexivity|]. split; [right; exists ob; split; [reflexivity|now left]|]. exists []. now split; [constructor|].
          - right. split; [reflexivity|]. exists ob. split; [now left|exact C3]. }
      destruct (get_offset_length fuel it1) as [[info|e] it2] eqn:Ei.
      2:{ injection H as <- <- <-. exists (fun i => if Nat.eqb i k then map uop_of cs else []).
          split; [apply (P (fun _ => []) [] EndStop P0)|]. split; [apply (PQ (fun _ => [])); intros; constructor|]. intros obs en Hrun.
          destruct (proj2 (P (fun _ => []) obs en P0) Hrun) as (ob & os & -> & B1 & B2 & B3 & _). subst.
          right. left. exists e, O. split; [reflexivity|]. split; [right; exists ob; split; [reflexivity|now right]|]. exists []. now split; [constructor|]. }
      destruct (info_ok fuel he o it1 it2 _ Ei) as (Hcore & _ & _ & _).
      assert (exists rc2, it_record it2 = Some rc2) as (rc2 & Hrc2).
      { unfold icore in Hcore. unfold it1, it_set_rstream in Hcore. cbn [it_record] in Hcore. rewrite Hrec in Hcore.
        destruct (it_record it2); [eauto|discriminate]. }
      assert (Htold : told (rc_checker rc2)).
      { assert (T1 : told_it it1).
        { apply told_rstream; [unfold told_it; rewrite Hrec; exact (told_next fuel he o it rc it0 En)|].
          apply (told_calls rops cs _ _ _ C2). exact (proj2 (told_next fuel he o it rc it0 En)). }
        pose proof (told_info fuel it1 T1) as T2. rewrite Ei in T2. unfold told_it in T2. cbn [snd] in T2. rewrite Hrc2 in T2. now apply told_rec_checker. }
      cbn iota in H. rewrite Hrc2 in H. cbv zeta in H.
      match type of H with context [check_loop fuel he n o verbose name (printed || negb (is_nil ?m0)) ?v it2] => set (MS := m0) in H end.
      match type of H with context [check_loop fuel he n o verbose name ?p ?v it2] => destruct (check_loop fuel he n o verbose name p v it2) as [[x2 ev2] ms2] eqn:Ec;
        destruct (IH verbose name p v (Datatypes.S k) it2 x2 ev2 ms2 Ec) as (p' & Hp' & Hpq & Hrest) end.
      injection H as <- <- <-.
      exists (fun i => if Nat.eqb i k then map uop_of cs else p' i). split; [apply (P p' [] EndStop Hp')|]. split; [apply (PQ p'); cbn [snd]; exact Hpq|]. intros obs en Hrun.
      destruct (proj2 (P p' obs en Hp') Hrun) as (ob & os & -> & B1 & B2 & B3 & B4 & B5). subst.
      cbn [fst snd] in *. assert (Hbad : bad_ob ob = match dc_passed (rc_checker rc2) with Some false => true | _ => false end).
      { unfold bad_ob. rewrite B4. unfold it_passed. now rewrite Hrc2. }
      assert (HM : exists m, record_report verbose ob m /\ MS = headed printed name m).
      { assert (Hi : exists off len, (ob_info ob = Ok (Some (off, len)) \/ (ob_info ob = Ok None /\ off = 0)) /\ match info with Some (off, _) => off | None => 0 end = off).
        { rewrite B3. destruct info as [[a b]|]; [exists a, b|exists 0, 0]; auto. }
        destruct Hi as (off & len & Hi & Eo).
        pose proof (report_of verbose ob (rc_checker rc2) off len Htold ltac:(rewrite B4; unfold it_passed; now rewrite Hrc2) Hi) as R. cbv zeta in R.
        eexists. split; [exact R|]. unfold MS. rewrite Eo.
        destruct (check_text _ _ _ _); destruct (if (match dc_passed (rc_checker rc2) with Some false => true | _ => false end) then dc_problems (rc_checker rc2) else []);
          destruct printed; reflexivity. }
      destruct HM as (m & HM1 & HM2). rewrite HM2 in *. clearbody MS.
      destruct (Hrest os en B5) as [(-> & -> & -> & Hc & Hs)|[(e & j & -> & He & Hs)|(-> & ob' & I1 & I2)]].
      + left. split; [reflexivity|]. split; [reflexivity|]. split; [|split].
        * cbn [existsb]. rewrite <- Hbad. destruct (bad_ob ob); cbn [orb]; destruct (existsb bad_ob os); reflexivity.
        * constructor; [|exact Hc]. split; [exact C3|eauto].
        * exact (says_cons verbose printed name ob os m ms2 HM1 Hs).
      + right. left. exists e, (Datatypes.S j). split; [reflexivity|]. split.
        * destruct He as [[-> He]|He]; [now left|now right].
        * cbn [firstn]. exact (says_cons verbose printed name ob _ m ms2 HM1 Hs).
      + right. right. split; [reflexivity|]. exists ob'. split; [now right|exact I2].
  Qed.
End Check.

(** ** archives of well-formed records *)
Lemma view_suffix fuel norec verify w http payload : http_view fuel norec verify w http payload -> lenZ payload <= lenZ (w_block w).
Proof.
  unfold http_view. destruct norec; [intros (_ & ->); lia|]. intros (m & E & ->).
  set (Q := fun a b : raw => a = b /\ lenZ (rw_rest a) <= lenZ (w_block w)).
  destruct (load_http_sim2 raw_ops raw_ops Q Q
              fuel verify (w_value "WARC-Type" w) (w_value "WARC-Target-URI" w) (Some (lenZ (w_block w)))
              (raw_open (w_block w) []) (raw_open (w_block w) [])) as [_ H].
  - auto.
  - intros a b (<- & H). left. cbn [raw_ops o_readline]. unfold raw_readline. eexists _, _, _. split; [reflexivity|]. split; [reflexivity|].
    assert (Q (snd (raw_readline None a)) (snd (raw_readline None a))).
    { split; [reflexivity|]. unfold raw_readline. cbn [snd rw_rest].
      pose proof (line_of_split None (rw_rest a)) as X. apply (f_equal lenZ) in X. rewrite lenZ_app in X. pose proof (lenZ_nonneg (line_of None (rw_rest a))). lia. }
    split; [assumption|intros _; assumption].
  - split; [reflexivity|]. apply Z.le_refl.
  - rewrite E in H. apply H.
Qed.

Lemma mem_user_room us : forall c, ~ In [] (mem_user us c) -> Z.of_nat (List.length (mem_user us c)) <= lenZ c.
Proof.
  assert (A : forall x c us, x ++ dropZ (lenZ x) c = c -> (forall c, ~ In [] (mem_user us c) -> Z.of_nat (List.length (mem_user us c)) <= lenZ c) ->
            ~ In [] (x :: mem_user us (dropZ (lenZ x) c)) -> Z.of_nat (List.length (x :: mem_user us (dropZ (lenZ x) c))) <= lenZ c).
  { intros x c us0 E IH Hi. specialize (IH (dropZ (lenZ x) c) (fun X => Hi (or_intror X))).
    assert (lenZ x + lenZ (dropZ (lenZ x) c) = lenZ c) by (rewrite <- lenZ_app; now rewrite E). assert (0 < lenZ x) by (apply lenZ_pos; intros ->; apply Hi; now left).
    clear E Hi. change (Z.of_nat (1 + List.length (mem_user us0 (dropZ (lenZ x) c))) <= lenZ c). lia. }
  induction us as [|u us IH]; intros c Hi; cbn [mem_user]; [apply lenZ_nonneg|]. cbn [mem_user] in Hi. destruct u as [n|n|].
  - apply A; auto. apply read_of_split.
  - apply A; auto. apply line_of_split.
  - exfalso. apply Hi. now left.
Qed.

Lemma plain_raw {zl : zenv} http : plain_content http -> raw_content (zl:=zl) http.
Proof.
  intros H st. unfold content_stream. destruct http as [h|]; [|reflexivity]. destruct (sah_bool h); [|reflexivity].
  destruct (H h eq_refl) as [H1 H2]. rewrite value_of_hget in H1, H2. unfold is_chunked, content_encoding, get_header in *.
  destruct (hget (lit "transfer-encoding") (sh_headers h)) as [v|]; [|now rewrite H2].
  destruct (leqb v (lit "chunked")) eqn:E; [|now rewrite H2]. apply leqb_eq in E. now rewrite E in H1.
Qed.

Lemma archive_entry {zl : zenv} quiet fuel he o M p sched data es e off len :
  good_archive quiet zl fuel he o M p sched data es -> In (e, (off, len)) es ->
  good_entry fuel he o M [] e /\ enough fuel (e_text e).
Proof.
  intros HG Hi. destruct HG as [l Hz Hf Hr HM Hfu Hg|ms Hne HM Hfit Hfu Hg].
  - assert (In e l) as He.
    { clear - Hi. revert p Hi. induction l as [|a l IH]; intros p Hi; [contradiction|]. cbn in Hi. destruct Hi as [[= -> _ _]|Hi]; [now left|right; eauto]. }
    split; [rewrite Forall_forall in Hg; auto|]. unfold enough, texts in *. apply in_split in He as (l1 & l2 & ->).
    rewrite map_app, concat_app in Hfu. cbn [map concat] in Hfu. rewrite !app_length in Hfu. lia.
  - assert (exists m, In (e, m) ms) as (m & He).
    { clear - Hi. revert p Hi. induction ms as [|[a m] l IH]; intros p Hi; [contradiction|]. cbn in Hi. destruct Hi as [[= -> _ _]|Hi]; [exists m; now left|].
      destruct (IH _ Hi) as (m' & X). exists m'. now right. }
    rewrite Forall_forall in Hg. destruct (Hg _ He) as (A & _ & B). now split.
Qed.

Lemma entry_payload fuel he o M us e : good_entry fuel he o M us e -> lenZ (e_payload e) <= lenZ (e_text e).
Proof.
  intros (_ & (hb & _ & ->) & Hv & _). apply view_suffix in Hv. rewrite !lenZ_app. pose proof (lenZ_nonneg hb).
  pose proof (lenZ_nonneg [13; 10; 13; 10]%N). lia.
Qed.

Lemma bad_fails_opts {zl : zenv} fuel he o M e off len us us' (ob : @obs zl) : lo_check o <> KFalse ->
  good_entry fuel he o M us' e -> not_vacuous he e ->
  observed he o (e_rec e) (e_http e) (e_payload e) off len us ob ->
  bad_ob ob = true <-> fails he e.
Proof.
  intros Hc (_ & _ & _ & _ & [X|(Hh & HD)] & _) Hv Ho; [contradiction|].
  destruct (ob_verdict _ _ _ _ _ _ _ _ _ Ho) as [_ V]. specialize (V Hc).
  assert (exists vb vp, judged he (w_block (e_rec e)) (block_digest (e_rec e)) vb /\ judged he (e_payload e) (payload_digest (e_rec e)) vp) as (vb & vp & Jb & Jp).
  { destruct HD as [(_ & Hb & Hp)|(vb & vp & Jb & Jp & _)]; [|eauto].
    destruct (Hb (w_block (e_rec e))) as (vb & Jb). destruct (Hp (e_payload e)) as (vp & Jp). eauto. }
  unfold bad_ob, fails, not_vacuous in *. destruct (w_block (e_rec e)) as [|x l] eqn:Eb.
  - assert (vb <> VBad) as Nb by (intros ->; now apply (Hv eq_refl)).
    split.
    + intros H. right. destruct (proj2 (V vb vp Jb Jp) eq_refl Nb) as [V1 _]. destruct (ob_passed ob) as [[]|]; try discriminate.
      rewrite <- (V1 eq_refl). exact Jp.
    + intros [[H _]|H]; [congruence|]. now rewrite (proj2 (proj2 (V vb VBad Jb H) eq_refl Nb) eq_refl).
  - assert (x :: l <> []) as Hne by discriminate. split.
    + intros H. rewrite (proj1 (V vb vp Jb Jp) Hne) in H. destruct vb, vp; cbn in H; try discriminate; auto.
    + intros [[_ H]|H].
      * rewrite (proj1 (V VBad vp H Jp) Hne). now destruct vp.
      * rewrite (proj1 (V vb VBad Jb H) Hne). now destruct vb.
Qed.
Lemma bad_fails {zl : zenv} fuel he uuid M e off len us (ob : @obs zl) :
  good_entry fuel he (check_opts uuid) M [] e -> not_vacuous he e ->
  observed he (check_opts uuid) (e_rec e) (e_http e) (e_payload e) off len us ob ->
  bad_ob ob = true <-> fails he e.
Proof. apply bad_fails_opts. discriminate. Qed.

Lemma limited_le a b us : a <= b -> limited_lines a us -> limited_lines b us.
Proof.
  intros H. unfold limited_lines. induction 1 as [|u us Hu _ IH]; constructor; [|exact IH].
  destruct u; auto. destruct Hu as (k & -> & Hk). exists k. split; [reflexivity|lia].
Qed.

Lemma Forall2_nth {A B} (P : A -> B -> Prop) l1 : forall l2, List.length l1 = List.length l2 ->
  (forall i a b, nth_error l1 i = Some a -> nth_error l2 i = Some b -> P a b) -> Forall2 P l1 l2.
Proof.
  induction l1 as [|x l1 IH]; intros [|y l2] Hl H; try discriminate; constructor.
  - now apply (H O).
  - apply IH; [now injection Hl|]. intros i a b Ha Hb. now apply (H (Datatypes.S i)).
Qed.

Lemma check_archive {zl : zenv} fuel he uuid M sched data es n verbose name ev x ev' ms :
  good_archive unchunked zl fuel he (check_opts uuid) M 0 sched data es -> 64 <= M -> (List.length es < n)%nat ->
  (forall e pl, In (e, pl) es -> not_vacuous he e) ->
  check_loop (zl:=zl) fuel he n (check_opts uuid) verbose name false ev (iter_new (mk_raw data 0 sched) BUFF_SIZE None) = (x, ev', ms) ->
  (x = Ok tt /\ ((exists e pl, In (e, pl) es /\ fails he e) -> ev' = 1)
             /\ ((forall e pl, In (e, pl) es -> ~ fails he e) -> ev' = ev)
             /\ (ev' = 1 \/ ev' = ev)
             /\ exists obs : list (@Iterator.obs zl), Forall2 (fun ob ep => exists us, nonneg_ops us /\ observed he (check_opts uuid) (e_rec (fst ep)) (e_http (fst ep)) (e_payload (fst ep)) (fst (snd ep)) (snd (snd ep)) us ob) obs es
                            /\ says (zl:=zl) verbose false name obs ms)
  \/ (x = Err OutOfFuel /\ exists e pl, In (e, pl) es /\ ~ plain_content (e_http e)).
Proof.
  intros HG HM Hn Hv H.
  destruct (check_loop_ok fuel he (check_opts uuid) n verbose name false ev 0 _ x ev' ms H) as (prog & Hp & Hpq & HC).
  assert (Hquiet : forall i e pl, nth_error es i = Some (e, pl) -> unchunked e -> no_lines (prog i)).
  { intros i. induction i as [i IHi] using (well_founded_induction lt_wf). intros e pl Hi Hq.
    set (prog' := fun j => if Nat.ltb j i then prog j else []).
    destruct (archive_run unchunked fuel he (check_opts uuid) M 0 sched data es prog' None n HG eq_refl ltac:(discriminate) Hn) as (obs & E & Hl & Hob).
    { intros j. unfold prog'. destruct (Nat.ltb j i); [|split; constructor]. destruct (Hp j). split; [assumption|]. now apply (limited_le 64). }
    { intros j e' pl' Hj Hq'. unfold prog'. destruct (Nat.ltb j i) eqn:El; [|constructor]. apply Nat.ltb_lt in El. exact (IHi j El e' pl' Hj Hq'). }
    destruct (nth_error obs i) as [ob|] eqn:Ho.
    2:{ apply nth_error_None in Ho. assert (i < List.length es)%nat by (apply nth_error_Some; congruence). lia. }
    destruct pl as [off len]. pose proof (Hob i e off len ob Hi Ho) as HO.
    change i with (0 + i)%nat. apply (Hpq prog' i obs EndStop ob); [|exact E|exact Ho|].
    - intros j Hj. unfold prog'. now replace (Nat.ltb j i) with true by (symmetry; apply Nat.ltb_lt; lia).
    - rewrite (ob_http _ _ _ _ _ _ _ _ _ HO). unfold http_lines. destruct (e_http e) as [h|] eqn:Eh; [|reflexivity].
      specialize (Hq h Eh). rewrite value_of_hget in Hq. unfold is_chunked, get_header.
      destruct (hget (lit "transfer-encoding") (sh_headers h)) as [v|]; [|reflexivity].
      destruct (leqb v (lit "chunked")) eqn:Ev; [apply leqb_eq in Ev; now subst v|reflexivity]. }
  destruct (archive_run unchunked fuel he (check_opts uuid) M 0 sched data es prog None n HG eq_refl ltac:(discriminate) Hn) as (obs & E & Hl & Hob).
  { intros i. destruct (Hp i). split; [assumption|]. now apply (limited_le 64). }
  { exact Hquiet. }
  assert (F : Forall2 (fun ob ep => exists us, nonneg_ops us /\ observed he (check_opts uuid) (e_rec (fst ep)) (e_http (fst ep)) (e_payload (fst ep)) (fst (snd ep)) (snd (snd ep)) us ob) obs es).
  { apply Forall2_nth; [exact Hl|]. intros i ob [e [off len]] Hi1 Hi2. exists (prog i). split; [apply Hp|]. now apply (Hob i). }
  clear Hob. specialize (HC obs EndStop E). clear E.
  assert (FI : forall ob, In ob obs -> exists e pl, In (e, pl) es /\ exists us, nonneg_ops us /\ observed he (check_opts uuid) (e_rec e) (e_http e) (e_payload e) (fst pl) (snd pl) us ob).
  { clear - F. induction F as [|ob [e pl] obs es H F IH]; [contradiction|]. intros o [<-|Ho].
    - exists e, pl. split; [now left|exact H].
    - destruct (IH o Ho) as (e' & pl' & I1 & I2). exists e', pl'. split; [now right|exact I2]. }
  assert (FE : forall e pl, In (e, pl) es -> exists ob, In ob obs /\ exists us, nonneg_ops us /\ observed he (check_opts uuid) (e_rec e) (e_http e) (e_payload e) (fst pl) (snd pl) us ob).
  { clear - F. induction F as [|ob [e pl] obs es H F IH]; [contradiction|]. intros e' pl' [[= <- <-]|Ho].
    - exists ob. split; [now left|exact H].
    - destruct (IH e' pl' Ho) as (ob' & I1 & I2). exists ob'. split; [now right|exact I2]. }
  assert (HF : forall e, ~ raises e obs EndStop).
  { intros e [X|(ob & Ho & X)]; [discriminate|]. destruct (FI ob Ho) as (e' & pl & _ & us & _ & HO).
    rewrite (ob_data _ _ _ _ _ _ _ _ _ HO), (ob_place _ _ _ _ _ _ _ _ _ HO) in X. destruct X as [X|X]; [|discriminate].
    apply in_map_iff in X as (y & Y & _). discriminate. }
  assert (x = Ok tt /\ ev' = (if existsb bad_ob obs then 1 else ev) /\ says verbose false name obs ms \/ x = Err OutOfFuel /\ exists ob, In ob obs /\ ~ raw_content (zl:=zl) (rc_http (ob_record ob))) as HD.
  { destruct HC as [(-> & _ & -> & _ & Hs)|[(e & j & _ & X & _)|(-> & ob & Ho & HR)]]; [left; now repeat split|apply raises_at_raises in X; now destruct (HF e)|right].
    split; [reflexivity|]. exists ob. split; [exact Ho|]. intros Hraw. destruct (HR Hraw) as [HR1 HR2].
    destruct (FI ob Ho) as (e & [off len] & He & us & Hus & HO). rewrite (ob_data _ _ _ _ _ _ _ _ _ HO) in HR1, HR2.
    rewrite map_length in HR1. pose proof (mem_user_room us (e_payload e)) as R. rewrite HR1 in R.
    destruct (archive_entry _ _ _ _ _ _ _ _ _ _ _ _ HG He) as [Hge Hen]. pose proof (entry_payload _ _ _ _ _ _ Hge) as HP.
    unfold enough in Hen. unfold lenZ in *. lapply R; [lia|]. intros X. apply HR2. now apply (in_map Ok) in X. }
  destruct HD as [(-> & -> & Hs)|(-> & ob & Ho & HR)].
  - left. split; [reflexivity|]. split; [|split; [|split; [|now exists obs]]].
    + intros (e & [off len] & He & Hf). destruct (FE e (off, len) He) as (ob & Ho & us & Hus & HO).
      destruct (archive_entry _ _ _ _ _ _ _ _ _ _ _ _ HG He) as [Hge _].
      assert (existsb bad_ob obs = true) as ->; [|reflexivity]. apply existsb_exists. exists ob. split; [exact Ho|].
      apply (bad_fails fuel he uuid M e off len us ob); eauto.
    + intros Hall. assert (existsb bad_ob obs = false) as ->; [|reflexivity]. apply not_true_is_false. intros X.
      apply existsb_exists in X as (ob & Ho & Hbad). destruct (FI ob Ho) as (e & [off len] & He & us & Hus & HO).
      destruct (archive_entry _ _ _ _ _ _ _ _ _ _ _ _ HG He) as [Hge _]. apply (Hall e (off, len) He).
      apply (bad_fails fuel he uuid M e off len us ob); eauto.
    + destruct (existsb bad_ob obs); auto.
  - right. split; [reflexivity|]. destruct (FI ob Ho) as (e & pl & He & us & Hus & HO). exists e, pl. split; [exact He|].
    intros Hpl. apply HR. rewrite (ob_http _ _ _ _ _ _ _ _ _ HO). now apply plain_raw.
Qed.
