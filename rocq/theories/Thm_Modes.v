(** * Thm_Modes: proofs of the theorems restated in Props_Modes.v *)
From Coq Require Import String List ZArith NArith Bool.
From Verif Require Import PyBase Headers Streams StreamSpec DigestSpec Loader Iterator IterSpec Cli CliSpec ReportSpec ModeSpec Toy.
Import ListNotations.
Open Scope Z_scope.

From Coq Require Import Lia.
From Verif Require Import Codecs Utf8 Headers HeaderSpec WriterSpec TermLoad TwoRuns IterProofs CheckProofs CheckModes EnsureProofs Thm_Buffered Thm_Iter Thm_Cli.

Lemma C83_log_pf :
  forall (zl : zenv) fuel he o n prog file block known,
  let run k := run_iter fuel he (with_check k o) n prog 0 (iter_new (zl:=zl) file block known) in
  Forall2 (same_obs eq) (fst (run KTrue)) (fst (run KLog)) /\ snd (run KTrue) = snd (run KLog).
Proof.
intros zl fuel he o n prog file block known run. exact (log_run fuel he o KLog n prog 0 file block known (or_intror eq_refl)).
Qed.

Lemma C83_raise_pf :
  forall (zl : zenv) fuel he o k n prog file block known, k = KTrue \/ k = KLog ->
  let run k := run_iter fuel he (with_check k o) n prog 0 (iter_new (zl:=zl) file block known) in
  let (os, en) := run k in let (os', en') := run KRaise in
  exists j, Forall2 (same_obs (fun a b => a = b /\ a <> Some false)) (firstn j os) (firstn j os')
    /\ (j = List.length os /\ j = List.length os' /\ en = en'
        \/ raises_at ArchiveLoadFailed os' en' j
           /\ (lo_norec o = true -> (exists ob, nth_error os j = Some ob /\ ob_passed ob = Some false)
                                    \/ exists e i, (i <= j)%nat /\ raises_at e os en i)).
Proof.
intros zl fuel he o k n prog file block known Hk run.
pose proof (raise_run (zl:=zl) fuel he o k Hk n prog 0 file block known) as (j & J1 & J2). unfold run.
destruct (run_iter fuel he (with_check k o) n prog 0 (iter_new file block known)) as [os en].
destruct (run_iter fuel he (with_check KRaise o) n prog 0 (iter_new file block known)) as [os' en']. cbn [fst snd] in *.
exists j. split; [exact J1|]. destruct J2 as [J2|[(e & -> & J2) J3]]; [left; exact J2|right]. split; [exact J2|].
intros Hn. destruct J3 as [J3|[J3|J3]]; [now left|now right|congruence].
Qed.

Lemma C84_undisturbed_pf :
  forall (zl : zenv) fuel he o k n prog file block known,
  let run k := run_iter fuel he (with_check k o) n prog 0 (iter_new (zl:=zl) file block known) in
  let (os, en) := run KFalse in let (os', en') := run k in
  exists j, Forall2 (same_obs (fun _ _ => True)) (firstn j os) (firstn j os')
    /\ (j = List.length os /\ j = List.length os' /\ en = en'
        \/ raises_at BinasciiErr os' en' j \/ (k = KRaise /\ raises_at ArchiveLoadFailed os' en' j)).
Proof.
intros zl fuel he o k n prog file block known run.
pose proof (off_run (zl:=zl) fuel he o k n prog 0 file block known) as (j & J1 & J2). unfold run.
destruct (run_iter fuel he (with_check k o) n prog 0 (iter_new file block known)) as [os' en'].
destruct (run_iter fuel he (with_check KFalse o) n prog 0 (iter_new file block known)) as [os en]. cbn [fst snd] in *.
exists j. split; [exact J1|]. destruct J2 as [J2|(e & He & J2)]; [left; exact J2|right].
destruct He as [[-> Hk]| ->]; [right; now split|now left].
Qed.

Lemma good_raise fuel he norec verify a2w uuid M us e :
  good_entry fuel he (mk_lopts norec verify a2w false KTrue uuid) M us e -> not_vacuous he e -> ~ fails he e ->
  good_entry fuel he (mk_lopts norec verify a2w false KRaise uuid) M us e.
Proof.
  intros (A & B & C & D & E & F) Hv Hf. repeat (split; [assumption|]). split; [|exact F]. right.
  destruct E as [E|(Hh & E)]; [discriminate E|]. split; [exact Hh|]. right.
  assert (exists vb vp, judged he (w_block (e_rec e)) (block_digest (e_rec e)) vb /\ judged he (e_payload e) (payload_digest (e_rec e)) vp) as (vb & vp & Jb & Jp).
  { destruct E as [(_ & Hb & Hp)|(vb & vp & Jb & Jp & _)]; [|eauto].
    destruct (Hb (w_block (e_rec e))) as (vb & Jb). destruct (Hp (e_payload e)) as (vp & Jp). eauto. }
  exists vb, vp. split; [exact Jb|]. split; [exact Jp|]. split.
  - intros ->. destruct (w_block (e_rec e)) as [|x l] eqn:Eb; [now apply (Hv Eb)|]. apply Hf. left. rewrite Eb. split; [discriminate|exact Jb].
  - intros ->. apply Hf. now right.
Qed.
Lemma observed_quiet {zl : zenv} he o w http payload off len us (ob : @obs zl) x : observed he o w http payload off len us ob ->
  ~ (In (Err x) (ob_reads ob) \/ ob_info ob = Err x).
Proof.
  intros H [H1|H1].
  - rewrite (ob_data _ _ _ _ _ _ _ _ _ H) in H1. apply in_map_iff in H1 as (b & X & _). discriminate X.
  - rewrite (ob_place _ _ _ _ _ _ _ _ _ H) in H1. discriminate H1.
Qed.
Lemma Forall2_nth_l {A B} (P : A -> B -> Prop) l l' i a : Forall2 P l l' -> nth_error l i = Some a -> exists b, nth_error l' i = Some b /\ P a b.
Proof. intros H. revert i. induction H as [|x y l l' Hx _ IH]; intros [|i] Hi; try discriminate; cbn in *; [injection Hi as ->; eauto|auto]. Qed.
Lemma nth_firstn {A} (l : list A) : forall i j, (i < j)%nat -> nth_error (firstn j l) i = nth_error l i.
Proof. induction l as [|x l IH]; intros [|i] [|j] H; try lia; cbn; auto. apply IH. lia. Qed.
Lemma text_two w out more : wf_record w -> text_of w out -> exists a b t, out ++ more = a :: b :: t /\ (a, b) <> (31%N, 139%N).
Proof.
  intros (Hv & _) (head & He & ->). unfold utf8_encode in He. destruct (forallb is_scalar _); [|discriminate].
  injection He as <-. unfold record_text. destruct (warc_types_in _ Hv) as [->|[->|[->| ->]]]; cbn; do 3 eexists; (split; [reflexivity|discriminate]).
Qed.

Lemma C69_raise_partial_pf :
  forall (zl : zenv) fuel he norec verify a2w uuid M prog es sched block known n,
  let opts k := mk_lopts norec verify a2w false k uuid in
  let run k := run_iter fuel he (opts k) n prog 0 (iter_new (zl:=zl) (raw_open (texts es) sched) block known) in
  gz_magic zl -> first_two block sched -> reads_fit M block sched -> 0 <= M -> enough fuel (texts es) ->
  (forall i e, nth_error es i = Some e -> good_entry fuel he (opts KTrue) M (prog i) e) ->
  Forall (not_vacuous he) es -> known <> Some FArc -> (List.length es < n)%nat ->
  (Forall (fun e => ~ fails he e) es ->
     snd (run KRaise) = EndStop /\ snd (run KTrue) = EndStop /\ Forall2 (same_obs eq) (fst (run KTrue)) (fst (run KRaise)))
  /\ forall i e, nth_error es i = Some e -> fails he e -> Forall (fun e => ~ fails he e) (firstn i es) ->
       List.length (firstn i (fst (run KRaise))) = i
       /\ Forall2 (same_obs eq) (firstn i (fst (run KTrue))) (firstn i (fst (run KRaise)))
       /\ raises_at ArchiveLoadFailed (fst (run KRaise)) (snd (run KRaise)) i.
Proof.
intros zl fuel he norec verify a2w uuid M prog es sched block known n opts run Hz Hf Hr HM Hfu Hg Hnv Hk Hn.
destruct (run_from fuel he (opts KTrue) M prog 0 es sched block known n Hz Hf Hr HM Hfu Hg eq_refl Hk Hn) as (os & Et & Hlen & Hob).
change (mk_raw (texts es) 0 sched) with (raw_open (texts es) sched) in Et.
assert (H83 : let (os, en) := run KTrue in let (os', en') := run KRaise in
  exists j, Forall2 (same_obs (fun a b => a = b /\ a <> Some false)) (firstn j os) (firstn j os')
    /\ (j = List.length os /\ j = List.length os' /\ en = en'
        \/ raises_at ArchiveLoadFailed os' en' j
           /\ (norec = true -> (exists ob, nth_error os j = Some ob /\ ob_passed ob = Some false)
                                    \/ exists e i, (i <= j)%nat /\ raises_at e os en i)))
  by exact (C83_raise_pf zl fuel he (opts KTrue) KTrue n prog (raw_open (texts es) sched) block known (or_introl eq_refl)).
fold (run KTrue) in Et. rewrite Et in H83 |- *. destruct (run KRaise) as [os' en'] eqn:Er. cbn [fst snd].
destruct H83 as (j & J1 & J2).
assert (Weak : forall k, (k <= j)%nat -> Forall2 (same_obs eq) (firstn k os) (firstn k os')).
{ intros k Hkj. assert (X : forall A (l : list A), firstn k l = firstn k (firstn j l)) by (intros A l; rewrite firstn_firstn; f_equal; lia).
  rewrite (X _ os), (X _ os'). revert J1. generalize (firstn j os) (firstn j os'). clear. intros l l' H. revert k.
  induction H as [|a b l l' (A1 & A2 & A3 & A4 & A5) _ IH]; intros [|k]; cbn; constructor; auto. repeat (split; [assumption|]). assumption. }
assert (Verd : forall i e, nth_error es i = Some e -> exists ob, nth_error os i = Some ob /\ (ob_passed ob = Some false <-> fails he e)).
{ intros i e Hi. destruct (nth_error os i) as [ob|] eqn:Ho.
  - exists ob. split; [reflexivity|].
    assert (not_vacuous he e) as Hve by (rewrite Forall_forall in Hnv; apply Hnv; now apply nth_error_In with i).
    rewrite <- (bad_fails_opts fuel he (opts KTrue) M e _ _ (prog i) (prog i) ob ltac:(discriminate) (Hg i e Hi) Hve (Hob i e ob Hi Ho)).
    unfold bad_ob. destruct (ob_passed ob) as [[|]|]; split; congruence.
  - apply nth_error_None in Ho. assert (i < List.length es)%nat by (apply nth_error_Some; congruence). lia. }
assert (Pre : forall k, (k <= List.length es)%nat -> Forall (fun e => ~ fails he e) (firstn k es) ->
   exists os0 os1, os' = os0 ++ os1 /\ List.length os0 = k /\ (forall ob x, In ob os0 -> ~ (In (Err x) (ob_reads ob) \/ ob_info ob = Err x))).
{ intros k Hkl Hgood. assert (Hfl : List.length (firstn k es) = k) by (rewrite firstn_length; lia).
  assert (Esp : texts es = texts (firstn k es) ++ texts (skipn k es)) by (unfold texts; rewrite <- concat_app, <- map_app, firstn_skipn; reflexivity).
  assert (Hgr : forall i e, nth_error (firstn k es) i = Some e -> good_entry fuel he (opts KRaise) M (prog i) e).
  { intros i e Hi. assert (i < k)%nat by (rewrite <- Hfl; apply nth_error_Some; congruence). assert (Hi' := Hi). rewrite nth_firstn in Hi' by assumption.
    apply good_raise; [now apply Hg| |].
    - rewrite Forall_forall in Hnv. apply Hnv. now apply nth_error_In with i.
    - rewrite Forall_forall in Hgood. apply Hgood. now apply nth_error_In with i. }
  destruct (plain_archive (zl:=zl) fuel he (opts KRaise) M prog 0 (firstn k es) (texts (skipn k es)) sched block known Hz Hf Hr HM) as (obs & it' & E & Hlo & Hseen & _ & _); auto.
  - now rewrite <- Esp.
  - destruct (skipn k es) as [|e l] eqn:Es; [now left|]. unfold texts. cbn [map concat].
    assert (nth_error es k = Some e) as He. { rewrite <- (firstn_skipn k es), nth_error_app2 by lia. rewrite Hfl, Nat.sub_diag, Es. reflexivity. }
    destruct (Hg k e He) as (W1 & W2 & _). exact (text_starts _ _ _ W1 W2).
  - intros Hnil. destruct (skipn k es) as [|e l] eqn:Es; [now left|right]. unfold texts. cbn [map concat].
    assert (nth_error es k = Some e) as He. { rewrite <- (firstn_skipn k es), nth_error_app2 by lia. rewrite Hfl, Nat.sub_diag, Es. reflexivity. }
    destruct (Hg k e He) as (W1 & W2 & _). exact (text_two _ _ _ W1 W2).
  - specialize (E (n - k)%nat). rewrite Hfl in E. replace (k + (n - k))%nat with n in E by lia. rewrite <- Esp in E.
    change (mk_raw (texts es) 0 sched) with (raw_open (texts es) sched) in E. fold (run KRaise) in E. rewrite Er in E.
    destruct (run_iter fuel he (opts KRaise) (n - k) prog k it') as [os1 en1]. injection E as -> _. exists obs, os1. split; [reflexivity|]. split; [lia|].
    intros ob x Hin. apply In_nth_error in Hin as (i & Hi).
    assert (i < k)%nat by (rewrite <- Hfl, <- Hlo; apply nth_error_Some; congruence).
    destruct (nth_error (firstn k es) i) as [e|] eqn:He; [|apply nth_error_None in He; lia].
    exact (observed_quiet _ _ _ _ _ _ _ _ ob x (Hseen i e ob He Hi)). }
split.
- intros Hall. destruct J2 as [(J2 & J3 & J4)|[J2 _]].
  + split; [congruence|]. split; [reflexivity|]. specialize (Weak j (le_n j)). rewrite J2 in Weak at 1. rewrite J3 in Weak. now rewrite !firstn_all in Weak.
  + exfalso. assert (Hgr : forall i e, nth_error es i = Some e -> good_entry fuel he (opts KRaise) M (prog i) e).
    { intros i e Hi. rewrite Forall_forall in Hnv, Hall. apply good_raise; [now apply Hg|apply Hnv|apply Hall]; now apply nth_error_In with i. }
    destruct (run_from fuel he (opts KRaise) M prog 0 es sched block known n Hz Hf Hr HM Hfu Hgr eq_refl Hk Hn) as (os2 & E2 & Hl2 & Hob2).
    change (mk_raw (texts es) 0 sched) with (raw_open (texts es) sched) in E2. fold (run KRaise) in E2. rewrite Er in E2. injection E2 as <- ->.
    destruct J2 as [[_ J2]|(ob & J2 & J3)]; [discriminate|].
    destruct (nth_error es j) as [e|] eqn:He; [|apply nth_error_None in He; assert (j < List.length os')%nat by (apply nth_error_Some; congruence); lia].
    exact (observed_quiet _ _ _ _ _ _ _ _ ob _ (Hob2 j e ob He J2) J3).
- intros i e Hi Hfail Hpre.
  assert (Hil : (i < List.length es)%nat) by (apply nth_error_Some; congruence).
  destruct (Verd i e Hi) as (ob & Ho & Hv). apply Hv in Hfail.
  assert (Hji : (j <= i)%nat).
  { destruct (Nat.le_gt_cases j i) as [|Hgt]; [assumption|exfalso]. rewrite <- (nth_firstn os i j Hgt) in Ho.
    destruct (Forall2_nth_l _ _ _ _ _ J1 Ho) as (b & _ & _ & _ & _ & _ & X). contradiction. }
  destruct J2 as [(J2 & _)|[J2 _]]; [lia|].
  destruct (Pre i ltac:(lia) Hpre) as (os0 & os1 & -> & Hl0 & Hq).
  assert (j = i) as ->.
  { destruct J2 as [[J2 _]|(b & J2 & J3)]; [rewrite app_length in J2; lia|].
    destruct (Nat.eq_dec j i) as [|Hne]; [assumption|exfalso]. rewrite nth_error_app1 in J2 by lia. exact (Hq b ArchiveLoadFailed (nth_error_In _ _ J2) J3). }
  split; [rewrite firstn_length, app_length; lia|]. split; [apply Weak; lia|exact J2].
Qed.

Lemma raise_pre good : let es := rev (Thm_Cli.ex_es good) in
  gz_magic toy_z /\ first_two 200 [] /\ reads_fit 200 200 [] /\ enough 500 (texts es)
  /\ (forall i e, nth_error es i = Some e -> good_entry 500 ck_henv (mk_lopts false false false false KTrue (lit "u")) 200 [] e)
  /\ Forall (not_vacuous ck_henv) es.
Proof.
  cbn zeta. split; [exact toy_gz_magic_pf|]. split; [split; [lia|exact Logic.I]|]. split; [right; split; [reflexivity|lia]|].
  split; [unfold enough; destruct good; vm_compute; lia|]. split.
  - intros i e H. apply nth_error_In in H. apply in_rev in H. revert e H. apply Forall_forall. apply ex_good_pf; discriminate || reflexivity.
  - constructor; [|constructor; [|constructor]]; intros X; vm_compute in X; discriminate X.
Qed.

Lemma C87_ensure_pf :
  forall (zl : zenv) fuel he o n prog file block known,
  let run b := run_iter fuel he (with_ensure b o) n prog 0 (iter_new (zl:=zl) file block known) in
  Forall2 (obs_rel ensured eq) (fst (run false)) (fst (run true)) /\ snd (run false) = snd (run true).
Proof.
intros zl fuel he o n prog file block known run. exact (ensure_run fuel he o n prog 0 file block known).
Qed.
