(** * Thm_Iter: proofs of the theorems restated in Props_Iter.v *)
From Coq Require Import String List ZArith NArith Bool Lia.
From Coq Require Import ZifyBool ZifyNat ZifyN.
From Verif Require Import PyBase Utf8 Codecs Headers HeaderSpec Streams StreamSpec DigestSpec Loader Iterator WriterSpec IterSpec Toy.
Import ListNotations.
Open Scope Z_scope.

From Verif Require Import Facts HeaderProofs WriterProofs IterProofs BlankProofs.

(** examples: a response with HTTP headers and a resource record whose block looks like a
    WARC record *)
Definition ex_o : lopts := mk_lopts false false false false KFalse (lit "u").
Definition ex_text (w : wrc) : bytes :=
  match utf8_encode (record_text (w_version w) (w_headers w)) with
  | Some h => h ++ w_block w ++ [13; 10; 13; 10]%N
  | None => []
  end.
Definition ex_block : bytes := lit "HTTP/1.0 200 OK" ++ crlf ++ lit "A: b" ++ crlf ++ crlf.
Definition ex_w1 : wrc :=
  mk_wrc (lit "WARC/1.0") [(lit "WARC-Type", lit "response"); (lit "WARC-Target-URI", lit "http://a/"); (lit "Content-Length", lit "25")]
         ex_block.
Definition ex_w2 : wrc :=
  mk_wrc (lit "WARC/1.1") [(lit "WARC-Type", lit "resource"); (lit "Content-Length", lit "12")]
         (lit "WARC/1.0" ++ crlf ++ crlf).
Definition ex_http : sah :=
  match fst (load_http_headers raw_ops 300 false (Some (lit "response")) (Some (lit "http://a/")) (Some 25) (raw_open ex_block [])) with
  | Ok (Some h) => h
  | _ => sah_new [] [] []
  end.
Definition ex_es : list entry :=
  [mk_entry ex_w1 (ex_text ex_w1) (Some ex_http) []; mk_entry ex_w2 (ex_text ex_w2) None (w_block ex_w2)].
Definition ex_prog (k : nat) : list uop := match k with O => [] | _ => [URead (Some 3); URead None; UInfo; URead None] end.

Lemma ex_short : short_lines 200 ex_block.
Proof.
  exists ex_block, []. split; [now rewrite app_nil_r|]. split.
  - exists [lit "HTTP/1.0 200 OK" ++ crlf; lit "A: b" ++ crlf], crlf. split; [reflexivity|]. split.
    + constructor; [|constructor; [|constructor]].
      * split; [exists (lit "HTTP/1.0 200 OK" ++ [13%N]); split; [cbn; intuition discriminate|reflexivity]|].
        intros H. specialize (H 72%N). discriminate H. left. reflexivity.
      * split; [exists (lit "A: b" ++ [13%N]); split; [cbn; intuition discriminate|reflexivity]|].
        intros H. specialize (H 65%N). discriminate H. left. reflexivity.
    + left. split; [exists [13%N]; split; [cbn; intuition discriminate|reflexivity]|].
      intros c Hc. vm_compute in Hc. intuition (subst; reflexivity).
  - intros p q E. apply Z.le_trans with (lenZ ex_block); [|vm_compute; discriminate].
    rewrite E, lenZ_app. pose proof (take_drop_line q) as Ht. apply (f_equal lenZ) in Ht. rewrite lenZ_app in Ht.
    pose proof (lenZ_nonneg p). pose proof (lenZ_nonneg (drop_line q)). lia.
Qed.
Lemma ex_hdr n v : forallb is_scalar n = true -> forallb is_scalar v = true ->
  forallb (fun c => negb ((c =? 10) || (c =? 58) || is_sp_tab c)%N) n = true ->
  forallb (fun c => negb ((c =? 10) || is_uspace c)%N) v = true -> wf_header (n, v).
Proof.
  rewrite !forallb_forall. intros H1 H2 H3 H4. unfold wf_header, line_text, no_lead, no_trail. cbn [fst snd].
  repeat split; auto.
  - intros H. specialize (H3 _ H). discriminate.
  - intros H. specialize (H3 _ H). discriminate.
  - intros c t ->. specialize (H3 c (or_introl eq_refl)). destruct (is_sp_tab c); [rewrite !orb_true_r in H3; discriminate|reflexivity].
  - intros c t ->. specialize (H3 c (in_or_app t [c] c (or_intror (or_introl eq_refl)))). destruct (is_sp_tab c); [rewrite !orb_true_r in H3; discriminate|reflexivity].
  - intros H. specialize (H4 _ H). discriminate.
  - intros c t ->. specialize (H4 c (or_introl eq_refl)). destruct (is_uspace c); [rewrite !orb_true_r in H4; discriminate|reflexivity].
  - intros c t ->. specialize (H4 c (in_or_app t [c] c (or_intror (or_introl eq_refl)))). destruct (is_uspace c); [rewrite !orb_true_r in H4; discriminate|reflexivity].
Qed.
Lemma ex_good_pf : forall i e, nth_error ex_es i = Some e -> good_entry 300 toy_henv ex_o 200 (ex_prog i) e.
Proof.
  intros [|[|i]] e H; [| |destruct i; discriminate]; injection H as <-; unfold good_entry; cbn [e_rec e_text e_http e_payload].
  - split.
    { split; [cbn; auto|]. split; [repeat constructor; apply ex_hdr; reflexivity|]. split.
      - split; [cbn; intuition discriminate|]. intros m E. discriminate.
      - exists (lit "25"). split; vm_compute; reflexivity. }
    split; [eexists; split; vm_compute; reflexivity|].
    split; [eexists; split; vm_compute; reflexivity|]. split; [intros _ _; exact ex_short|].
    split; [now left|]. split; constructor.
  - split.
    { split; [cbn; auto|]. split; [repeat constructor; apply ex_hdr; reflexivity|]. split; [exact I|].
      exists (lit "12"). split; vm_compute; reflexivity. }
    split; [eexists; split; vm_compute; reflexivity|].
    split; [eexists; split; vm_compute; reflexivity|]. split.
    { intros _ H. now destruct H. }
    split; [now left|]. split; repeat constructor; discriminate.
Qed.
Lemma texts_app a b : texts (a ++ b) = texts a ++ texts b.
Proof. unfold texts. now rewrite map_app, concat_app. Qed.
Lemma texts_split k es : texts es = texts (firstn k es) ++ texts (skipn k es).
Proof. rewrite <- texts_app. now rewrite firstn_skipn. Qed.
Lemma nth_skipn {A} k : forall (l : list A) i, nth_error (skipn k l) i = nth_error l (k + i).
Proof. induction k as [|k IH]; intros l i; [reflexivity|]. destruct l as [|x l]; [destruct i; reflexivity|apply IH]. Qed.
Lemma firstn_add {A} k i : forall (l : list A), firstn (k + i) l = firstn k l ++ firstn i (skipn k l).
Proof. induction k as [|k IH]; intros l; [reflexivity|]. destruct l as [|x l]; [cbn; now rewrite firstn_nil|]. cbn. now rewrite IH. Qed.
Lemma position_add k i es : position (k + i) es = position k es + position i (skipn k es).
Proof. unfold position. rewrite firstn_add, texts_app, lenZ_app. reflexivity. Qed.
Lemma starts_nil : starts_text []. Proof. now left. Qed.
(** an environment with one hash of 20 bytes *)
Lemma ck_ready_pf : henv_ok ck_henv /\ judgeable ck_henv (Some (ck_digest (lit "other"))).
Proof.
  assert (Hh : forall x, Forall (fun b => (b < 256)%N) (ck_hash x)).
  { intros x. unfold ck_hash, toy_hash. repeat (constructor; [apply N.mod_lt; discriminate || reflexivity|]). repeat constructor; try (apply N.mod_lt; discriminate). }
  split.
  - intros a f. unfold ck_henv. destruct (leqb a (lit "sha1")); [|discriminate]. intros [= <-]. exists 20%nat. split; [lia|]. intros x. split; [reflexivity|apply Hh].
  - intros data. assert (Hd : is_digest (ck_digest (lit "other")) (lit "sha1") (b32encode (ck_hash (lit "other")))).
    { split; [reflexivity|]. intros H. repeat (destruct H as [H|H]; [discriminate|]). destruct H. }
    destruct (list_eq_dec N.eq_dec (ck_hash (lit "other")) (ck_hash data)) as [E|E].
    + exists VGood. apply (J_good _ _ _ _ _ ck_hash Hd eq_refl). left. now rewrite E.
    + exists VBad. apply (J_bad _ _ _ _ _ ck_hash (ck_hash (lit "other")) Hd eq_refl); [now left|reflexivity|apply Hh|exact E].
Qed.
Lemma nth_ext_map {A B C} (f : A -> C) (g : B -> C) : forall (a : list A) (b : list B), List.length a = List.length b ->
  (forall i x y, nth_error a i = Some x -> nth_error b i = Some y -> f x = g y) -> map f a = map g b.
Proof.
  induction a as [|x a IH]; intros [|y b] Hl H; try discriminate; [reflexivity|]. cbn. f_equal; [now apply (H 0%nat)|].
  apply IH; [now injection Hl|]. intros i. apply (H (Datatypes.S i)).
Qed.
Lemma run_from {zl : zenv} fuel he o M prog p es sched block known n :
  gz_magic zl -> first_two block sched -> reads_fit M block sched -> 0 <= M -> enough fuel (texts es) ->
  (forall i e, nth_error es i = Some e -> good_entry fuel he o M (prog i) e) ->
  lo_ensure o = false -> known <> Some FArc -> (List.length es < n)%nat ->
  exists obs, run_iter (zl:=zl) fuel he o n prog 0 (iter_new (mk_raw (texts es) p sched) block known) = (obs, EndStop)
    /\ List.length obs = List.length es
    /\ forall i e ob, nth_error es i = Some e -> nth_error obs i = Some ob ->
         observed he o (e_rec e) (e_http e) (e_payload e) (p + position i es) (lenZ (e_text e) - 4) (prog i) ob.
Proof.
  intros Hz Hf Hr HM Hfu Hg Ho Hk Hn.
  destruct (plain_archive (zl:=zl) fuel he o M prog p es [] sched block known Hz Hf Hr HM) as (obs & it' & E & Hl & Hob & Hend & _); auto.
  { now rewrite app_nil_r. } { apply starts_nil. }
  rewrite app_nil_r in E. exists obs. split; [|now split].
  assert (exists m, n = (List.length es + Datatypes.S m)%nat) as (m & ->) by (exists (n - List.length es - 1)%nat; lia).
  rewrite E, (Hend eq_refl). now rewrite app_nil_r.
Qed.

Lemma C34_iterate_partial_pf :
  forall (zl : zenv) fuel he o M prog es sched block known n,
  gz_magic zl -> first_two block sched -> reads_fit M block sched -> 0 <= M -> enough fuel (texts es) ->
  (forall k e, nth_error es k = Some e -> good_entry fuel he o M (prog k) e) ->
  lo_ensure o = false -> known <> Some FArc -> (List.length es < n)%nat ->
  exists obs, run_iter (zl:=zl) fuel he o n prog 0 (iter_new (raw_open (texts es) sched) block known) = (obs, EndStop)
    /\ List.length obs = List.length es
    /\ forall k e ob, nth_error es k = Some e -> nth_error obs k = Some ob ->
         observed he o (e_rec e) (e_http e) (e_payload e) (position k es) (lenZ (e_text e) - 4) (prog k) ob.
Proof.
intros zl fuel he o M prog es sched block known n Hz Hf Hr HM Hfu Hg Ho Hk Hn.
exact (run_from fuel he o M prog 0 es sched block known n Hz Hf Hr HM Hfu Hg Ho Hk Hn).
Qed.

Lemma C34_short_reads_refuted_pf :
  (exists obs, run_iter (zl:=toy_z) 300 toy_henv ex_o 3 (fun _ => []) 0 (iter_new (raw_open (ex_text ex_w1) []) 6 None) = (obs, EndStop)
   /\ map (fun ob => option_map (fun h => (sh_status h, sh_headers h)) (rc_http (ob_record ob))) obs = [Some (lit "200 OK", [])])
/\ (exists obs, run_iter (zl:=toy_z) 300 toy_henv ex_o 3 (fun _ => []) 0 (iter_new (raw_open (ex_text ex_w1) (repeat 5 60)) BUFF_SIZE None) = (obs, EndStop)
   /\ map (fun ob => option_map (fun h => (sh_status h, sh_headers h)) (rc_http (ob_record ob))) obs = [Some (lit "200 O", [(lit "A", lit "b")])])
/\ http_view 300 false false ex_w1 (Some ex_http) [] /\ (sh_status ex_http, sh_headers ex_http) = (lit "200 OK", [(lit "A", lit "b")]).
Proof.
split; [|split; [|split]].
- eexists. split; [vm_compute; reflexivity|]. vm_compute. reflexivity.
- eexists. split; [vm_compute; reflexivity|]. vm_compute. reflexivity.
- eexists. split; vm_compute; reflexivity.
- vm_compute. reflexivity.
Qed.

Lemma C36_random_access_partial_pf :
  forall (zl : zenv) fuel he o M prog es sched block known n k,
  gz_magic zl -> first_two block sched -> reads_fit M block sched -> 0 <= M -> enough fuel (texts es) ->
  (forall i e, nth_error es (k + i) = Some e -> good_entry fuel he o M (prog i) e) ->
  lo_ensure o = false -> known <> Some FArc -> (List.length es < n)%nat ->
  let off := position k es in
  (exists obs, run_iter (zl:=zl) fuel he o n prog 0 (iter_new (mk_raw (dropZ off (texts es)) off sched) block known) = (obs, EndStop)
    /\ List.length obs = (List.length es - k)%nat
    /\ forall i e ob, nth_error es (k + i) = Some e -> nth_error obs i = Some ob ->
         observed he o (e_rec e) (e_http e) (e_payload e) (position (k + i) es) (lenZ (e_text e) - 4) (prog i) ob)
  /\ forall e, nth_error es k = Some e -> takeZ (lenZ (e_text e) - 4) (dropZ off (texts es)) ++ [13; 10; 13; 10]%N = e_text e.
Proof.
intros zl fuel he o M prog es sched block known n k Hz Hf Hr HM Hfu Hg Ho Hk Hn off.
assert (Ed : dropZ off (texts es) = texts (skipn k es)).
{ rewrite (texts_split k es). unfold off, position. apply dropZ_app_exact. }
rewrite Ed. split.
- destruct (run_from (zl:=zl) fuel he o M prog off (skipn k es) sched block known n Hz Hf Hr HM) as (obs & E & Hl & Hob); auto.
  + unfold enough in *. rewrite (texts_split k es), app_length in Hfu. lia.
  + intros i e Hi. rewrite nth_skipn in Hi. auto.
  + rewrite skipn_length. lia.
  + exists obs. split; [exact E|]. split; [now rewrite Hl, skipn_length|]. intros i e ob Hi Hi'.
    rewrite position_add. apply Hob; [now rewrite nth_skipn|exact Hi'].
- intros e He. pose proof (Hg 0%nat e ltac:(now rewrite Nat.add_0_r)) as (_ & (head & _ & Et) & _).
  assert (exists tl, skipn k es = e :: tl) as (tl & ->).
  { pose proof (nth_skipn k es 0) as Hn0. rewrite Nat.add_0_r, He in Hn0. destruct (skipn k es) as [|x tl]; [discriminate|].
    injection Hn0 as ->. eauto. }
  assert (Ht : e_text e = (head ++ w_block (e_rec e)) ++ [13; 10; 13; 10]%N) by (rewrite Et; now rewrite <- app_assoc).
  assert (El : lenZ (e_text e) - 4 = lenZ (head ++ w_block (e_rec e))) by (rewrite Ht, lenZ_app; change (lenZ [13; 10; 13; 10]%N) with 4; lia).
  unfold texts. cbn [map concat]. rewrite takeZ_app_le by lia. rewrite El. rewrite Ht. now rewrite takeZ_app_exact.
Qed.

Lemma C69_check_partial_pf :
  forall (zl : zenv) fuel he norec verify a2w uuid chk M prog es sched block known n,
  let on := mk_lopts norec verify a2w false chk uuid in
  let off := mk_lopts norec verify a2w false KFalse uuid in
  let file := iter_new (zl:=zl) (raw_open (texts es) sched) block known in
  gz_magic zl -> first_two block sched -> reads_fit M block sched -> 0 <= M -> enough fuel (texts es) ->
  (forall k e, nth_error es k = Some e -> good_entry fuel he on M (prog k) e) ->
  chk <> KFalse -> known <> Some FArc -> (List.length es < n)%nat ->
  exists obs obs', run_iter fuel he on n prog 0 file = (obs, EndStop) /\ run_iter fuel he off n prog 0 file = (obs', EndStop)
    /\ List.length obs = List.length es
    /\ map (fun ob => (rc_type (ob_record ob), sh_headers (rc_headers (ob_record ob)), rc_http (ob_record ob), ob_reads ob, ob_info ob)) obs
       = map (fun ob => (rc_type (ob_record ob), sh_headers (rc_headers (ob_record ob)), rc_http (ob_record ob), ob_reads ob, ob_info ob)) obs'
    /\ forall k e ob vb vp, nth_error es k = Some e -> nth_error obs k = Some ob -> w_block (e_rec e) <> [] ->
         judged he (w_block (e_rec e)) (block_digest (e_rec e)) vb -> judged he (e_payload e) (payload_digest (e_rec e)) vp ->
         ob_passed ob = combine vb vp.
Proof.
intros zl fuel he norec verify a2w uuid chk M prog es sched block known n on off file Hz Hf Hr HM Hfu Hg Hc Hk Hn.
destruct (run_from (zl:=zl) fuel he on M prog 0 es sched block known n Hz Hf Hr HM Hfu Hg eq_refl Hk Hn) as (obs & E & Hl & Hob).
destruct (run_from (zl:=zl) fuel he off M prog 0 es sched block known n Hz Hf Hr HM Hfu) as (obs' & E' & Hl' & Hob'); auto.
{ intros i e Hi. destruct (Hg i e Hi) as (A & B & C & D & _ & F & G). repeat (split; [assumption|]). split; [now left|]. split; assumption. }
exists obs, obs'. split; [exact E|]. split; [exact E'|]. split; [exact Hl|]. split.
- apply nth_ext_map; [congruence|]. intros i a b Ha Hb.
  assert (exists e, nth_error es i = Some e) as (e & He).
  { destruct (nth_error es i) eqn:X; [eauto|]. apply nth_error_None in X. assert (i < List.length obs)%nat by (apply nth_error_Some; congruence). lia. }
  pose proof (Hob i e a He Ha) as X. pose proof (Hob' i e b He Hb) as Y.
  destruct X as [_ X2 _ X4 _ _ _ X8 _ X10 X11 _], Y as [_ Y2 _ Y4 _ _ _ Y8 _ Y10 Y11 _]. congruence.
- intros k e ob vb vp He Ho Hne Hb Hp. pose proof (Hob k e ob He Ho) as X. destruct (ob_verdict _ _ _ _ _ _ _ _ _ X) as (_ & V).
  exact (proj1 (V Hc vb vp Hb Hp) Hne).
Qed.

Lemma C37_truncated_partial_pf :
  forall (zl : zenv) fuel he o M prog es sched block known n k e pre suf,
  gz_magic zl -> first_two block sched -> reads_fit M block sched -> 0 <= M -> enough fuel (texts es) ->
  (forall i e, nth_error es i = Some e -> good_entry fuel he o M (prog i) e) ->
  lo_ensure o = false -> known <> Some FArc -> (k < n)%nat ->
  texts es = pre ++ suf -> nth_error es k = Some e -> position k es + (lenZ (e_text e) - 4) <= lenZ pre ->
  exists obs os en,
    run_iter (zl:=zl) fuel he o n prog 0 (iter_new (raw_open pre sched) block known) = (obs ++ os, en)
    /\ List.length obs = Datatypes.S k
    /\ forall i e ob, nth_error es i = Some e -> nth_error obs i = Some ob ->
         observed he o (e_rec e) (e_http e) (e_payload e) (position i es) (lenZ (e_text e) - 4) (prog i) ob.
Proof.
intros zl fuel he o M prog es sched block known n k e pre suf Hz Hf Hr HM Hfu Hg Ho Hk Hn Epre He Hlen.
pose proof (Hg k e He) as (Hwf & Htx & Hv & Hs & Hck & Hnn & Hu). pose proof Htx as (head & Ehd & Et).
assert (Hkl : (k < List.length es)%nat) by (apply nth_error_Some; now rewrite He).
assert (exists tl, skipn k es = e :: tl) as (tl & Esk).
{ pose proof (nth_skipn k es 0) as Hn0. rewrite Nat.add_0_r, He in Hn0. destruct (skipn k es) as [|x tl]; [discriminate|].
  injection Hn0 as ->. eauto. }
set (A := texts (firstn k es)) in *. set (B := head ++ w_block (e_rec e)).
assert (EB : e_text e = B ++ [13; 10; 13; 10]%N) by (unfold B; rewrite Et; now rewrite <- app_assoc).
assert (exists rest, pre = A ++ B ++ rest) as (rest & ->).
{ assert (E1 : texts es = (A ++ B) ++ ([13; 10; 13; 10]%N ++ texts tl)).
  { rewrite (texts_split k es), Esk. fold A. unfold texts at 1. cbn [map concat]. rewrite EB. unfold texts. now rewrite <- !app_assoc. }
  assert (Hle : lenZ (A ++ B) <= lenZ pre).
  { rewrite EB, lenZ_app in Hlen. change (lenZ [13; 10; 13; 10]%N) with 4 in Hlen. unfold position in Hlen. fold A in Hlen. rewrite lenZ_app. lia. }
  exists (dropZ (lenZ (A ++ B)) pre). rewrite app_assoc. rewrite <- (takeZ_dropZ (lenZ (A ++ B)) pre) at 1. f_equal.
  rewrite <- (takeZ_app_le _ pre suf) by assumption. rewrite <- Epre, E1. apply takeZ_app_exact. }
assert (Hfk : List.length (firstn k es) = k) by (rewrite firstn_length; lia).
assert (Hfirst : forall i, (i < k)%nat -> nth_error (firstn k es) i = nth_error es i).
{ intros i Hi. rewrite <- (firstn_skipn k es) at 2. rewrite nth_error_app1 by lia. reflexivity. }
assert (Hst : starts_text (B ++ rest)).
{ destruct Hwf as (Hv0 & _). right. unfold B. clear - Ehd Hv0. unfold utf8_encode in Ehd. destruct (forallb is_scalar _); [|discriminate].
  injection Ehd as <-. unfold record_text. intros E. apply rstripp_nil_all in E. rewrite forallb_forall in E.
  specialize (E 87%N). assert (PyBase.is_bspace 87 = true) as X; [apply E|discriminate].
  destruct (warc_types_in _ Hv0) as [->|[->|[->| ->]]]; cbn; now left. }
destruct (plain_archive (zl:=zl) fuel he o M prog 0 (firstn k es) (B ++ rest) sched block known Hz Hf Hr HM)
  as (obs & it' & E & Hl & Hob & _ & Hone); auto.
- unfold enough in *. rewrite Epre, !app_length in Hfu. fold A. rewrite !app_length. lia.
- intros i x Hi. apply Hg. rewrite <- Hfirst; [exact Hi|]. rewrite <- Hfk. apply nth_error_Some. now rewrite Hi.
- intros _. right. unfold B. clear - Ehd Hwf. destruct Hwf as (Hv0 & _). unfold utf8_encode in Ehd. destruct (forallb is_scalar _); [|discriminate].
  injection Ehd as <-. unfold record_text. destruct (warc_types_in _ Hv0) as [->|[->|[->| ->]]]; eexists _, _, _; (split; [reflexivity|discriminate]).
- fold A in E. rewrite Hfk in *. unfold B in Hone. rewrite <- app_assoc in Hone.
  destruct (Hone (e_rec e) head rest (e_http e) (e_payload e) eq_refl Hwf Ehd Hv Hs Hck Hnn Hu) as (ob & it2 & E2 & Hob2).
  assert (exists m, n = (k + Datatypes.S m)%nat) as (m & ->) by (exists (n - k - 1)%nat; lia).
  change (raw_open (A ++ B ++ rest) sched) with (mk_raw (A ++ B ++ rest) 0 sched). unfold B in *. rewrite <- app_assoc in E. rewrite <- app_assoc.
  rewrite E, E2. destruct (run_iter fuel he o m prog (Datatypes.S k) it2) as [os en].
  exists (obs ++ [ob]), os, en. split; [now rewrite <- app_assoc|]. split; [rewrite app_length; cbn; lia|].
  intros i x ob' Hi Hi'. destruct (Nat.lt_ge_cases i k) as [Hik|Hik].
  + rewrite nth_error_app1 in Hi' by lia. rewrite <- (Hfirst i Hik) in Hi. pose proof (Hob i x ob' Hi Hi') as X.
    replace (position i es) with (0 + position i (firstn k es)); [exact X|]. unfold position. rewrite firstn_firstn, Nat.min_l by lia. reflexivity.
  + rewrite nth_error_app2 in Hi' by lia. destruct (i - List.length obs)%nat as [|j] eqn:Ej; [|destruct j; discriminate].
    injection Hi' as <-. assert (i = k) as -> by lia. rewrite He in Hi. injection Hi as <-.
    replace (lenZ (e_text e) - 4) with (lenZ head + lenZ (w_block (e_rec e))); [exact Hob2|].
    rewrite EB. unfold B. rewrite !lenZ_app. change (lenZ [13; 10; 13; 10]%N) with 4. lia.
Qed.

Lemma C38_silent_cut_refuted_pf :
  exists pre suf, ex_text ex_w1 = pre ++ suf /\ lenZ pre = 81 /\ lenZ suf = 29
  /\ run_iter (zl:=toy_z) 300 toy_henv ex_o 3 (fun _ => [URead None]) 0 (iter_new (raw_open pre []) BUFF_SIZE None) = ([], EndStop).
Proof.
exists (takeZ 81 (ex_text ex_w1)), (dropZ 81 (ex_text ex_w1)). split; [symmetry; apply takeZ_dropZ|]. vm_compute. repeat split.
Qed.

Lemma C38_headers_cut_refuted_pf :
  exists pre suf, ex_text ex_w2 = pre ++ suf /\ lenZ pre = 31 /\ lenZ suf = 38
  /\ let (os, en) := run_iter (zl:=toy_z) 300 toy_henv ex_o 3 (fun _ => [URead None]) 0 (iter_new (raw_open pre []) BUFF_SIZE None) in
     map (fun ob => (rc_type (ob_record ob), rc_length (ob_record ob), ob_reads ob)) os = [(Some (lit "resource"), None, [Ok []])] /\ en = EndStop.
Proof.
exists (takeZ 31 (ex_text ex_w2)), (dropZ 31 (ex_text ex_w2)). split; [symmetry; apply takeZ_dropZ|]. vm_compute. repeat split.
Qed.

Lemma tails_spaced {zl : zenv} he o : forall xs : list (entry * bytes), blanks_ok xs ->
  tails_ok (map (fun x => mk_item (zl:=zl) (i_core (entry_item (zl:=zl) he o (fst x))) (snd x) (e_payload (fst x))
      (verdict_at he o (e_rec (fst x)) (e_payload (fst x))) (warc_seen (e_rec (fst x)) (e_http (fst x)) (e_payload (fst x)))) xs) [].
Proof.
  induction xs as [|[e t] xs IH]; intros H; [exact I|]. cbn [map tails_ok i_tail snd]. split.
  - destruct (H O e t eq_refl) as [H1 H2]. destruct xs as [|y xs]; [right; split; reflexivity|left].
    destruct (H2 ltac:(discriminate)) as (a & ->). now exists a.
  - apply IH. intros i e' t' Hi. exact (H (S i) e' t' Hi).
Qed.

Lemma C81_blank_lines_partial_pf :
  forall (zl : zenv) fuel he o M prog xs sched block known n,
  gz_magic zl -> first_two block sched -> reads_fit M block sched -> 0 <= M -> enough fuel (spaced xs) ->
  (forall k e t, nth_error xs k = Some (e, t) -> good_entry fuel he o M (prog k) e) -> blanks_ok xs ->
  lo_ensure o = false -> known <> Some FArc -> (List.length xs < n)%nat ->
  exists obs, run_iter (zl:=zl) fuel he o n prog 0 (iter_new (raw_open (spaced xs) sched) block known) = (obs, EndStop)
    /\ List.length obs = List.length xs
    /\ forall k e t ob, nth_error xs k = Some (e, t) -> nth_error obs k = Some ob ->
         observed he o (e_rec e) (e_http e) (e_payload e) (spaced_position k xs) (lenZ (bare_text e)) (prog k) ob.
Proof.
intros zl fuel he o M prog xs sched block known n Hz Hb Hfit HM Hfu Hgood Hbl Hoff Hk Hn.
set (it := fun x : entry * bytes => mk_item (zl:=zl) (i_core (entry_item (zl:=zl) he o (fst x))) (snd x) (e_payload (fst x))
      (verdict_at he o (e_rec (fst x)) (e_payload (fst x))) (warc_seen (e_rec (fst x)) (e_http (fst x)) (e_payload (fst x)))).
assert (Etx : forall l, i_texts (map it l) = spaced l).
{ intros l. unfold i_texts, spaced. f_equal. rewrite map_map. reflexivity. }
destruct (plain_items (zl:=zl) fuel he o M warc_known prog 0 (map it xs) [] sched block known) as (obs & it' & E & Hl & Hob & Hend & _); auto.
{ now rewrite app_nil_r, Etx. }
{ apply Forall_forall. intros x Hx. apply in_map_iff in Hx as ([e t] & <- & He). apply In_nth_error in He as (i & Hi).
  destruct (entry_item_ok (zl:=zl) fuel he o (BufProofs.rl0 M) (prog i) e HM Hoff (Hgood i e t Hi)) as (A & _ & B & C).
  split; [exact A|]. split; [exact (proj1 (Hbl i e t Hi))|]. split; [exact B|exact C]. }
{ intros i x Hi. rewrite nth_error_map in Hi. destruct (nth_error xs i) as [[e t]|] eqn:En; [|discriminate]. injection Hi as <-.
  destruct (Hgood i e t En) as (_ & _ & _ & _ & _ & A & B). now split. }
{ now apply tails_spaced. }
{ now left. }
rewrite map_length in *. rewrite app_nil_r, Etx in E. exists obs. split; [|split; [exact Hl|]].
- replace n with (List.length xs + Datatypes.S (n - List.length xs - 1))%nat by lia. unfold raw_open. rewrite E, (Hend eq_refl). now rewrite app_nil_r.
- intros i e t ob Hi Hi'. assert (nth_error (map it xs) i = Some (it (e, t))) as Hi2 by now rewrite nth_error_map, Hi.
  pose proof (Hob i _ ob Hi2 Hi') as X. rewrite firstn_map, Etx in X. eapply warc_observed. exact X.
Qed.

Lemma C40_leading_blank_refuted_pf :
  exists obs,
  run_iter (zl:=toy_z) 300 toy_henv ex_o 5 (fun _ => [URead None]) 0 (iter_new (raw_open (crlf ++ texts ex_es) []) BUFF_SIZE None) = (obs, EndStop)
  /\ map (fun ob => (rc_type (ob_record ob), sh_headers (rc_headers (ob_record ob)), ob_reads ob)) obs = [(None, [], [Ok (texts ex_es)])].
Proof.
eexists. split; [vm_compute; reflexivity|]. vm_compute. reflexivity.
Qed.

Lemma C40_swallowed_pf :
  forall (zl : zenv) (he : henv) (o : lopts) (blank_line rest : bytes) (sched : list Z) (block : Z) (known : option fmt) (fuel n : nat),
  gz_magic zl -> first_two block sched -> enough fuel (blank_line ++ rest) -> is_line blank_line -> forallb is_bspace blank_line = true ->
  2 <= lenZ (blank_line ++ rest) -> known <> Some FArc -> lo_ensure o = false ->
  exists ob, run_iter (zl:=zl) fuel he o (Datatypes.S (Datatypes.S n)) (fun _ => [URead None]) 0
               (iter_new (raw_open (blank_line ++ rest) sched) block known) = ([ob], EndStop)
    /\ rc_type (ob_record ob) = None /\ sh_headers (rc_headers (ob_record ob)) = [] /\ rc_http (ob_record ob) = None
    /\ ob_reads ob = [Ok rest] /\ ob_info ob = Ok (Some (0, lenZ (blank_line ++ rest))).
Proof.
intros zl he o l d sched block known fuel n Hz Hb Hf Hl Hbl H2 Hk Hen.
destruct (BlankProofs.swallow_file fuel he o l d sched block known Hz Hb Hf Hl Hbl H2 Hk Hen) as (ob & E & H).
exists ob. split; [apply E|exact H].
Qed.

Lemma C41_exceptions_refuted_pf :
  exists data,
  run_iter (zl:=toy_z) 300 toy_henv ex_o 5 (fun _ => []) 0 (iter_new (raw_open data []) BUFF_SIZE None) = ([], EndExn AttributeErr).
Proof.
exists (ex_text (mk_wrc (lit "WARC/1.0") [(lit "WARC-Type", lit "response"); (lit "Content-Length", lit "25")] ex_block)).
vm_compute. reflexivity.
Qed.
