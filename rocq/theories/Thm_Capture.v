(** * Thm_Capture: proofs of the theorems restated in Props_Capture.v *)
From Coq Require Import String List ZArith NArith Bool Lia.
From Coq Require Import ZifyBool ZifyNat ZifyN.
From Verif Require Import PyBase Utf8 Codecs Headers HeaderSpec Streams StreamSpec Loader Writer WriterSpec RoundSpec Capture CaptureSpec Toy CaptureToy.
Import ListNotations.
Open Scope Z_scope.

From Verif Require Import Facts StreamProofs HeaderProofs WriterProofs RoundProofs Thm_Writer CaptureProofs CapturePair CaptureWorld.

Lemma nth_set {A} (y : A) : forall (l : list A) n i, nth_error (set_nth n y l) i = if Nat.eqb i n then option_map (fun _ => y) (nth_error l i) else nth_error l i.
Proof. induction l as [|a l IH]; intros [|n] [|i]; cbn; try reflexivity; [now destruct (Nat.eqb i n)|apply IH]. Qed.
Lemma set_grows outs i out : grows outs (set_nth i (nth i outs [] ++ out) outs) i out.
Proof.
  intros n. rewrite nth_set. destruct (Nat.eqb n i) eqn:E; [|reflexivity]. apply Nat.eqb_eq in E. subst n.
  destruct (nth_error outs i) as [b|] eqn:Eb; [|reflexivity]. cbn. f_equal. f_equal. now apply nth_error_nth.
Qed.
Lemma set_same (outs : list bytes) i : set_nth i (nth i outs [] ++ []) outs = outs.
Proof. rewrite app_nil_r. revert i. induction outs as [|a l IH]; intros [|i]; cbn; f_equal; auto. Qed.

Lemma put_step fuel sha1 k c j x cf r w : recorded_by w c j x cf r -> recorded_by (snd (step fuel sha1 k (Put c) w)) c j x cf (start r) /\ fst (step fuel sha1 k (Put c) w) = Ok tt
  /\ wd_outs (snd (step fuel sha1 k (Put c) w)) = wd_outs w.
Proof.
  intros H. destruct (step_own fuel sha1 k (Put c) w c j x cf r H eq_refl) as (y & ws & r' & x' & E & E1 & E2 & E3).
  cbn [rstep] in E. injection E as <- <- <- <-. split; [exact E2|]. split; [exact E1|]. rewrite E3. cbn [concat]. apply set_same.
Qed.
Lemma start_on r : on (start r). Proof. now split. Qed.

(** a whole exchange: what the world looks like before done() *)
Lemma exchange_all fuel sha1 k c j x cf r w mid b t verb path :
  recorded_by w c j x cf r -> ready x -> undisturbed fuel sha1 k c j mid (snd (step fuel sha1 k (Put c) w)) ->
  parts c mid = b :: t -> request_line b verb path -> verb <> lit "CONNECT" ->
  let w1 := snd (run fuel sha1 k (Put c :: mid) w) in
  (forall i o, nth_error (Put c :: mid) i = Some o -> conn_of o = Some c -> nth_error (fst (run fuel sha1 k (Put c :: mid) w)) i = Some (Ok tt))
  /\ exists x' r', recorded_by w1 c j x' cf r' /\ on r' /\ cn_wire x' = cn_wire x ++ sent c mid /\ rd_req r' = sent c mid /\ rd_resp r' = got c mid
       /\ rd_url r' = Some (the_url r (cn_host x) (cn_port x) (cn_default x) path).
Proof.
  intros Hb Hr Hu Hp Hq Hv w1. destruct (put_step fuel sha1 k c j x cf r w Hb) as (Hb1 & E1 & _).
  destruct (exchange fuel sha1 k c j cf mid _ (start r) x Hb1 (start_on r) Hr Hu) as (r' & x' & s & A1 & A2 & A3 & A4 & A5 & A6 & A7 & A8).
  assert (L : line_ok (start r) (parts c mid)) by (right; rewrite Hp; now exists verb, path).
  destruct (A8 L) as (-> & B1 & B2 & B3 & _ & _ & B4). unfold w1. cbn [run]. destruct (step fuel sha1 k (Put c) w) as [y w0]. cbn [fst snd] in *.
  destruct (run fuel sha1 k mid w0) as [xs w2]. cbn [fst snd] in *. split.
  { intros [|i] o Hi Hc; cbn in *; [now injection Hi as <-; rewrite E1|]. now apply (B1 i o). }
  exists x', r'. split; [exact A1|]. split; [exact A2|]. split; [exact A6|]. split; [exact A5|]. split; [exact A7|].
  destruct (B4 b t verb path Hp eq_refl Hq Hv) as [_ B5]. rewrite B5. reflexivity.
Qed.

Lemma C55_exchange_partial_pf :
  forall fuel sha1 k c j x cf r w mid b t verb path,
  recorded_by w c j x cf r -> (cn_open x = true \/ cn_tunnel x = None) ->
  undisturbed fuel sha1 k c j mid (snd (step fuel sha1 k (Put c) w)) ->
  parts c mid = b :: t -> request_line b verb path -> verb <> lit "CONNECT" ->
  let (results, w1) := run fuel sha1 k (Put c :: mid) w in
  (forall i o, nth_error (Put c :: mid) i = Some o -> conn_of o = Some c -> nth_error results i = Some (Ok tt))
  /\ exists x' r', recorded_by w1 c j x' cf r' /\ cn_wire x' = cn_wire x ++ sent c mid
       /\ rd_req r' = sent c mid /\ rd_resp r' = got c mid.
Proof.
intros fuel sha1 k c j x cf r w mid b t verb path Hb Hr Hu Hp Hq Hv.
destruct (exchange_all fuel sha1 k c j x cf r w mid b t verb path Hb Hr Hu Hp Hq Hv) as (A & x' & r' & B1 & B2 & B3 & B4 & B5 & B6).
destruct (run fuel sha1 k (Put c :: mid) w) as [xs w1]. cbn [fst snd] in *. split; [exact A|]. exists x', r'. auto.
Qed.

Lemma C55_written_partial_pf :
  forall fuel sha1 k outs pre c j x cf r mid st b t verb path,
  let w := snd (run fuel sha1 k pre (fresh outs)) in
  hash_bytes sha1 -> Forall op_texts (pre ++ Put c :: mid) -> op_texts (Done c st) ->
  recorded_by w c j x cf r -> (cn_open x = true \/ cn_tunnel x = None) ->
  undisturbed fuel sha1 k c j mid (snd (step fuel sha1 k (Put c) w)) ->
  parts c mid = b :: t -> request_line b verb path -> verb <> lit "CONNECT" ->
  accepts cf -> wo_filter (cf_opts cf) = None ->
  message (mk_parser HTTP_VERBS true) (sent c mid) -> message (mk_parser HTTP_TYPES true) (got c mid) ->
  enough fuel (sent c mid) -> enough fuel (got c mid) ->
  let w1 := snd (run fuel sha1 k (Put c :: mid) w) in
  exists x' r' url hs1 hs2 out,
    recorded_by w1 c j x' cf r' /\ rd_url r' = Some url
    /\ fst (step fuel sha1 k (Done c st) w1) = Ok tt
    /\ grows (wd_outs w1) (wd_outs (snd (step fuel sha1 k (Done c st) w1))) (cf_writer cf) out
    /\ two_records k (cf_opts cf) hs1 hs2 (got c mid) (sent c mid) out
    /\ value_of (lit "WARC-Type") hs1 = Some (lit "response") /\ value_of (lit "WARC-Type") hs2 = Some (lit "request")
    /\ value_of (lit "WARC-Target-URI") hs1 = Some url /\ value_of (lit "WARC-Target-URI") hs2 = Some url
    /\ value_of (lit "WARC-Date") hs1 = Some (st_now2 st) /\ value_of (lit "WARC-Date") hs2 = Some (st_now2 st)
    /\ (exists i, value_of (lit "WARC-Record-ID") hs1 = Some i /\ value_of (lit "WARC-Concurrent-To") hs2 = Some i)
    /\ (forall n, n = lit "WARC-IP-Address" \/ n = lit "WARC-Proxy-Host" ->
          value_of n hs1 = value_of n (rd_headers r') /\ value_of n hs2 = value_of n (rd_headers r')).
Proof.
intros fuel sha1 k outs pre c j x cf r mid st b t verb path w Hsha Htx Hst Hb Hr Hu Hp Hq Hv Ha Hf M1 M2 F1 F2 w1.
destruct (exchange_all fuel sha1 k c j x cf r w mid b t verb path Hb Hr Hu Hp Hq Hv) as (_ & x' & r' & B1 & [B2 B2'] & B3 & B4 & B5 & B6).
fold w1 in B1. set (url := the_url r (cn_host x) (cn_port x) (cn_default x) path) in *.
assert (W : tx_world w1).
{ apply Forall_app in Htx as [T1 T2]. apply tx_run; [exact T2|]. apply tx_run; [exact T1|]. apply holds_fresh. }
destruct W as [W _]. destruct B1 as (Q1 & Q2 & Q3). destruct (Forall_nth _ _ _ _ W Q3) as [[V1 V2] (K1 & K2 & _)]. cbn [fst snd] in *. rewrite B6 in K2. cbn in K2.
destruct Hst as (S1 & S2 & S3 & S4).
destruct (pair_made fuel sha1 Hsha k (cf_opts cf) (st_id1 st) (st_now1 st) (st_id2 st) (st_now2 st) url (rd_headers r') (sent c mid) (got c mid)
  Hf V1 V2 (the_url_http _ _ _ _ _) K2 K1 S1 S2 S3 S4 M1 M2 F1 F2) as (rq & rs & ws & hs1 & hs2 & C1 & C2 & C3 & C4 & C5 & C6 & C7 & C8 & C9 & C10 & C11 & C12 & C13 & C14).
assert (D : done fuel sha1 k cf st r' = (Ok tt, ws, rd_close r')).
{ unfold done, create_record. rewrite B2, B2', B4, B5, B6. cbn [negb]. rewrite C1, C2.
  unfold accepts in Ha. destruct (cf_filter cf) as [f|]; [rewrite Ha|]; rewrite C3; reflexivity. }
destruct (step_own fuel sha1 k (Done c st) w1 c j x' cf r' (conj Q1 (conj Q2 Q3)) eq_refl) as (y & ws' & r2 & x2 & E & E1 & E2 & E3).
cbn [rstep] in E. rewrite D in E. injection E as <- <- <- <-.
exists x', r', url, hs1, hs2, (concat ws). split; [now repeat split|]. split; [exact B6|]. split; [exact E1|]. split; [rewrite E3; apply set_grows|].
do 7 (split; [assumption|]). split; [eexists; split; eassumption|]. intros n Hn. rewrite (value_of_hget n (rd_headers r')). now apply C14.
Qed.

Fixpoint contains (a l : bytes) : bool := startswith a l || match l with [] => false | _ :: t => contains a t end.
Lemma contains_iff a : forall l, (exists x z, l = x ++ a ++ z) <-> contains a l = true.
Proof.
  induction l as [|c l IH]; cbn [contains]; rewrite orb_true_iff, starts_iff.
  - split; [intros ([|? ?] & z & H); [left; now exists z|discriminate]|intros [[z H]|H]; [now exists [], z|discriminate]].
  - rewrite <- IH. split.
    + intros ([|y x] & z & H); [left; now exists z|right; injection H as _ H; now exists x, z].
    + intros [[z H]|(x & z & H)]; [now exists [], z|exists (c :: x), z; cbn; now rewrite H].
Qed.

Lemma C55_rewritten_refuted_pf :
  exists ops sent_bytes got_bytes out,
  sent 0 ops = sent_bytes /\ got 0 ops = got_bytes
  /\ run 300 toy_hash toy_k (ex_begin false ++ ops) (fresh [[]]) = (map (fun _ => Ok tt) (ex_begin false ++ ops), snd (run 300 toy_hash toy_k (ex_begin false ++ ops) (fresh [[]])))
  /\ wd_outs (snd (run 300 toy_hash toy_k (ex_begin false ++ ops) (fresh [[]]))) = [out]
  /\ got_bytes = lit "HTTP/1.1 200 OK" ++ crlf ++ lit "A:b" ++ crlf ++ crlf
  /\ ~ (exists a z, out = a ++ got_bytes ++ z)
  /\ (exists a z, out = a ++ (lit "HTTP/1.1 200 OK" ++ crlf ++ lit "A: b" ++ crlf ++ crlf) ++ z).
Proof.
set (got_b := lit "HTTP/1.1 200 OK" ++ crlf ++ lit "A:b" ++ crlf ++ crlf).
exists [Put 0; Send 0 None ex_req; Got 0 got_b; Done 0 ex_st], (concat ex_req), got_b.
set (w := snd (run 300 toy_hash toy_k (ex_begin false ++ [Put 0; Send 0 None ex_req; Got 0 got_b; Done 0 ex_st]) (fresh [[]]))).
exists (hd [] (wd_outs w)). split; [reflexivity|]. split; [reflexivity|]. split; [vm_compute; reflexivity|]. split; [vm_compute; reflexivity|]. split; [reflexivity|].
split.
- intros H. apply contains_iff in H. vm_compute in H. discriminate.
- apply contains_iff. vm_compute. reflexivity.
Qed.

Lemma C55_interleaved_refuted_pf :
  exists ops r, sent 0 ops = concat ex_req /\ sent 1 ops = concat ex_req
  /\ map snd (wd_recs (snd (run 300 toy_hash toy_k (ex_begin false ++ Make 0 (lit "b") 80 80 None :: ops) (fresh [[]])))) = [r]
  /\ rd_req r = concat ex_req ++ concat ex_req.
Proof.
exists [Put 0; Put 1; Send 0 None ex_req; Send 1 None ex_req]. eexists. split; [reflexivity|]. split; [reflexivity|]. split; [vm_compute; reflexivity|]. vm_compute. reflexivity.
Qed.

Lemma C55_lazy_tunnel_refuted_pf :
  exists ops r, sent 0 ops = concat ex_req /\ got 0 ops = ex_resp
  /\ fst (run 300 toy_hash toy_k (ex_tunnel ++ ops) (fresh [[]])) = map (fun _ => Ok tt) (ex_tunnel ++ ops)
  /\ map snd (wd_recs (snd (run 300 toy_hash toy_k (ex_tunnel ++ ops) (fresh [[]])))) = [r]
  /\ rd_req r = [] /\ rd_resp r = [] /\ wd_outs (snd (run 300 toy_hash toy_k (ex_tunnel ++ ops) (fresh [[]]))) = [[]].
Proof.
exists [Put 0; Send 0 None ex_req; Respond 0 None; Got 0 ex_resp; Done 0 ex_st]. eexists. split; [reflexivity|]. split; [vm_compute; reflexivity|].
split; [vm_compute; reflexivity|]. split; [vm_compute; reflexivity|]. vm_compute. auto.
Qed.

Lemma C56_exact_pf :
  forall fuel sha1 k c j x cf r w buf got,
  recorded_by w c j x cf r -> rd_started r = true -> rd_live r = true -> lenZ got <= lenZ buf ->
  exists r', recorded_by (snd (step fuel sha1 k (Into c buf got) w)) c j x cf r'
  /\ (rd_resp r' = rd_resp r ++ got <-> lenZ got = lenZ buf).
Proof.
intros fuel sha1 k c j x cf r w buf got Hb Hs Hl Hle.
destruct (step_own fuel sha1 k (Into c buf got) w c j x cf r Hb eq_refl) as (y & ws & r' & x' & E & E1 & E2 & E3).
cbn [rstep] in E. unfold write_response in E. rewrite Hs, Hl in E. injection E as _ _ <- <-. eexists. split; [exact E2|]. cbn [rd_resp rd_set_bufs]. split.
- intros H. apply app_inv_head in H. rewrite <- (app_nil_r got) in H at 3. apply app_inv_head in H. apply (f_equal lenZ) in H. change (lenZ (@nil N)) with 0 in H.
  rewrite lenZ_dropZ in H by (pose proof (lenZ_nonneg got); lia). lia.
- intros H. rewrite dropZ_all by lia. now rewrite app_nil_r.
Qed.

Lemma C56_short_refuted_pf :
  exists ops r, got 0 ops = lit "ab"
  /\ map snd (wd_recs (snd (run 300 toy_hash toy_k (ex_begin false ++ ops) (fresh [[]])))) = [r]
  /\ rd_resp r = lit "ab345".
Proof.
exists [Put 0; Into 0 (lit "12345") (lit "ab")]. eexists. split; [reflexivity|]. split; [vm_compute; reflexivity|]. vm_compute. reflexivity.
Qed.

Lemma recs_run fuel sha1 k : forall ops w, map fst (wd_recs (snd (run fuel sha1 k ops w))) = map fst (wd_recs w) ++ begun ops.
Proof.
  assert (SN : forall (l : list (config * recorder)) n cf r r', nth_error l n = Some (cf, r) -> map fst (set_nth n (cf, r') l) = map fst l).
  { induction l as [|a l IH]; intros [|n] cf r r' H; cbn in *; try discriminate; [injection H as ->; reflexivity|f_equal; eapply IH; eassumption]. }
  induction ops as [|o ops IH]; intros w; [cbn; now rewrite app_nil_r|]. cbn [run]. 
  assert (S : map fst (wd_recs (snd (step fuel sha1 k o w))) = map fst (wd_recs w) ++ match o with Enter _ cf => [cf] | _ => [] end).
  { unfold step. destruct o; try (cbn; now rewrite ?app_nil_r); [cbn; now rewrite map_app|..]; cbn [conn_of]; rewrite app_nil_r;
      (destruct (nth_error (wd_conns w) c) as [y|]; [|reflexivity]);
      (destruct (cn_rec y) as [j|]; [|reflexivity]); (destruct (nth_error (wd_recs w) j) as [[cf0 r0]|] eqn:Ej; [|reflexivity]); cbn [option_map];
      destruct (rstep _ _ _ _ _ _ _) as [[? ?] [? ?]]; cbn; eapply SN; exact Ej. }
  specialize (IH (snd (step fuel sha1 k o w))). destruct (step fuel sha1 k o w) as [y w1]. cbn [snd] in *. destruct (run fuel sha1 k ops w1) as [xs w2]. cbn [snd] in *.
  rewrite IH, S, <- app_assoc. destruct o; reflexivity.
Qed.

Lemma C57_unnested_partial_pf :
  forall fuel sha1 k outs ops t host port default tunnel,
  unnested (fun _ => 0%nat) ops ->
  let w := snd (run fuel sha1 k ops (fresh outs)) in
  exists x, nth_error (wd_conns (snd (step fuel sha1 k (Make t host port default tunnel) w))) (List.length (wd_conns w)) = Some x
  /\ cn_rec x = hd_error (active t 0 ops [])
  /\ forall n cf, cn_rec x = Some n -> nth_error (begun ops) n = Some cf -> exists r, nth_error (wd_recs w) n = Some (cf, r).
Proof.
intros fuel sha1 k outs ops t host port default tunnel Hu w. eexists. split; [cbn; rewrite nth_error_app2 by lia; rewrite Nat.sub_diag; reflexivity|]. split.
- cbn [cn_rec]. exact (local_active fuel sha1 k t ops (fresh outs) (fun _ => 0%nat) [] Hu eq_refl ltac:(cbn; lia) ltac:(cbn; lia)).
- intros n cf _ Hn. pose proof (recs_run fuel sha1 k ops (fresh outs)) as E. cbn [fresh wd_recs map app] in E. fold w in E. rewrite <- E in Hn.
  rewrite nth_error_map in Hn. destruct (nth_error (wd_recs w) n) as [[cf0 r0]|]; [|discriminate]. injection Hn as ->. now exists r0.
Qed.

Lemma C57_nested_refuted_pf :
  exists ops x, active 0 0 ops [] = [0%nat]
  /\ wd_conns (snd (run 300 toy_hash toy_k (ops ++ [Make 0 (lit "a") 80 80 None]) (fresh [[]; []]))) = [x] /\ cn_rec x = None.
Proof.
exists [Enter 0 (ex_cf false); Enter 0 (mk_cf None true 1 (ex_opts false)); Exit 0]. eexists. split; [reflexivity|]. split; [vm_compute; reflexivity|reflexivity].
Qed.

Lemma C58_direct_partial_pf :
  forall fuel sha1 k outs pre c j x cf r mid b t verb path,
  let w := snd (run fuel sha1 k pre (fresh outs)) in
  Forall no_tunnel pre -> recorded_by w c j x cf r ->
  undisturbed fuel sha1 k c j mid (snd (step fuel sha1 k (Put c) w)) ->
  parts c mid = b :: t -> request_line b verb path -> verb <> lit "CONNECT" ->
  cn_default x = 80 \/ cn_default x = 443 ->
  exists x' r' url, recorded_by (snd (run fuel sha1 k (Put c :: mid) w)) c j x' cf r' /\ rd_url r' = Some url
  /\ (absolute path -> url = path)
  /\ (~ absolute path -> url_of (cn_default x =? 443) (cn_host x) (cn_port x) path url).
Proof.
intros fuel sha1 k outs pre c j x cf r mid b t verb path w Hn Hb Hu Hp Hq Hv Hd.
assert (W : direct_world w) by (apply direct_run; [exact Hn|apply holds_fresh]). destruct W as [W1 W2].
pose proof Hb as (Q1 & Q2 & Q3). destruct (Forall_nth _ _ _ _ W1 Q3) as [_ [D1 D2]]. pose proof (Forall_nth _ _ _ _ W2 Q1) as D3. cbn [snd] in *.
destruct (exchange_all fuel sha1 k c j x cf r w mid b t verb path Hb (or_intror D3) Hu Hp Hq Hv) as (_ & x' & r' & B1 & B2 & B3 & B4 & B5 & B6).
exists x', r'. eexists. split; [exact B1|]. split; [exact B6|].
assert (A : (startswith (lit "http:") path || startswith (lit "https:") path = true) <-> absolute path).
{ unfold absolute. rewrite orb_true_iff, !starts_iff. split; [intros [[s H]|[s H]]; exists s; auto|intros [s [H|H]]; eauto]. }
unfold the_url, url_of. destruct (startswith (lit "http:") path || startswith (lit "https:") path) eqn:E.
- split; [reflexivity|]. intros X. exfalso. apply X. now apply A.
- split; [intros X; apply A in X; discriminate|]. intros _. unfold plain_url, eff_host, eff_port. rewrite D1, D2.
  destruct Hd as [-> | ->]; reflexivity.
Qed.

Lemma C58_tunnel_partial_pf :
  forall fuel sha1 k c ip j x cf r w th tp mid b t verb path,
  recorded_by w c j x cf r -> cn_tunnel x = Some (th, tp) -> th <> [] -> ~ In 32%N th -> ~ In LF th -> ~ In 58%N th -> 0 < tp ->
  let w0 := snd (step fuel sha1 k (Open c ip) w) in
  undisturbed fuel sha1 k c j mid (snd (step fuel sha1 k (Put c) w0)) ->
  parts c mid = b :: t -> request_line b verb path -> verb <> lit "CONNECT" -> ~ absolute path ->
  cn_default x = 80 \/ cn_default x = 443 ->
  fst (step fuel sha1 k (Open c ip) w) = Ok tt
  /\ exists x' r' url, recorded_by (snd (run fuel sha1 k (Put c :: mid) w0)) c j x' cf r' /\ rd_url r' = Some url
  /\ url_of (cn_default x =? 443) th tp path url
  /\ cn_wire x' = cn_wire x ++ (lit "CONNECT " ++ th ++ lit ":" ++ str_of_Z tp ++ lit " HTTP/1.0" ++ crlf ++ crlf) ++ sent c mid
  /\ rd_req r' = sent c mid /\ rd_resp r' = got c mid.
Proof.
intros fuel sha1 k c ip j x cf r w th tp mid b t verb path Hb Ht N1 N2 N3 N4 Hp w0 Hu Hps Hq Hv Habs Hd.
destruct (step_own fuel sha1 k (Open c ip) w c j x cf r Hb eq_refl) as (y & ws & r1 & x1 & E & E1 & E2 & E3). fold w0 in E2.
cbn [rstep] in E. unfold connect in E. cbn [cn_opened cn_tunnel] in E. rewrite Ht in E. cbn [cn_opened] in E.
unfold send_open in E. cbn [cn_opened cn_host cn_port cn_default] in E.
assert (LQ : request_line (connect_text (th, tp)) (lit "CONNECT") (th ++ lit ":" ++ str_of_Z tp)).
{ pose proof (str_of_Z_digits tp ltac:(lia)) as DG. rewrite forallb_forall in DG.
  split; [vm_compute; intuition discriminate|]. split; [vm_compute; intuition discriminate|].
  split. { intros H. apply in_app_or in H as [H|[H|H]]; [auto|discriminate|]. specialize (DG _ H). discriminate. }
  split. { intros H. apply in_app_or in H as [H|[H|H]]; [auto|discriminate|]. specialize (DG _ H). discriminate. }
  exists (lit "HTTP/1.0" ++ crlf ++ crlf). unfold connect_text. cbn [fst snd]. change (lit "CONNECT ") with (lit "CONNECT" ++ [32%N]). rewrite <- !app_assoc. reflexivity. }
destruct (request_split _ _ _ LQ) as (rest & S1 & S2).
unfold extract_url in E. cbn [start_tunnel rd_first] in E. rewrite S1, S2 in E. change (leqb (lit "CONNECT") (lit "CONNECT")) with true in E. cbv iota in E.
rewrite (proj2 (split1_spec 58 (th ++ lit ":" ++ str_of_Z tp) th (str_of_Z tp))) in E by (split; [reflexivity|exact N4]). rewrite py_int_str in E by lia.
unfold write_request in E. cbn [rd_started rd_set_headers rd_set_connect rd_set_first start_tunnel] in E.
injection E as <- <- Er Ex. split; [exact E1|].
assert (O1 : cn_open x1 = true) by (rewrite <- Ex; reflexivity).
assert (C1 : rd_chost r1 = Some th /\ rd_cport r1 = Some tp).
{ rewrite <- Er. match goal with |- context [set_remote_ip cf ip ?q] => destruct (set_ip_keeps cf ip q) as (_ & _ & _ & I1 & I2) end. rewrite I1, I2. now split. }
destruct (exchange_all fuel sha1 k c j x1 cf r1 w0 mid b t verb path E2 (or_introl O1) Hu Hps Hq Hv) as (_ & x' & r' & B1 & B2 & B3 & B4 & B5 & B6).
exists x', r'. eexists. split; [exact B1|]. split; [exact B6|]. destruct C1 as [C1 C2].
split.
{ unfold the_url, url_of. destruct (startswith (lit "http:") path || startswith (lit "https:") path) eqn:Ea.
  - exfalso. apply Habs. unfold absolute. rewrite orb_true_iff, !starts_iff in Ea. destruct Ea as [[s H]|[s H]]; exists s; auto.
  - unfold plain_url, eff_host, eff_port. rewrite C1, C2. destruct th as [|a th']; [contradiction|]. destruct (tp =? 0) eqn:Ez; [lia|].
    assert (Dx : cn_default x1 = cn_default x) by (rewrite <- Ex; reflexivity). rewrite Dx. destruct Hd as [-> | ->]; reflexivity. }
split; [|split; [exact B4|exact B5]]. rewrite B3, <- Ex. cbn [cn_wire cn_put]. unfold connect_text. cbn [fst snd]. now rewrite <- app_assoc.
Qed.

Lemma C58_stale_refuted_pf :
  exists ops r, map snd (wd_recs (snd (run 300 toy_hash toy_k (ex_tunnel ++ ops) (fresh [[]])))) = [r]
  /\ fst (run 300 toy_hash toy_k (ex_tunnel ++ ops) (fresh [[]])) = map (fun _ => Ok tt) (ex_tunnel ++ ops)
  /\ (exists pre, ops = pre ++ [Make 0 (lit "b") 80 80 None; Put 1; Send 1 None [lit "GET /q HTTP/1.1" ++ crlf ++ crlf]])
  /\ rd_url r = Some (lit "http://example.com:443/q").
Proof.
exists ([Open 0 None; Put 0; Send 0 None ex_req; Respond 0 None; Got 0 ex_resp; Done 0 ex_st] ++ [Make 0 (lit "b") 80 80 None; Put 1; Send 1 None [lit "GET /q HTTP/1.1" ++ crlf ++ crlf]]).
eexists. split; [vm_compute; reflexivity|]. split; [vm_compute; reflexivity|]. split; [eexists; reflexivity|]. vm_compute. reflexivity.
Qed.

Lemma C58_ipv6_refuted_pf :
  exists w, fst (step 300 toy_hash toy_k (Open 0 None) w) = Err ValueErr
  /\ w = snd (run 300 toy_hash toy_k [Enter 0 (ex_cf false); Make 0 (lit "proxy") 3128 443 (Some (lit "::1", 443))] (fresh [[]])).
Proof.
eexists. split; [|reflexivity]. vm_compute. reflexivity.
Qed.

Lemma C59_reject_pf :
  forall fuel sha1 k c j x cf r w st f,
  recorded_by w c j x cf r -> cf_filter cf = Some f ->
  (forall rq rs, create_record fuel sha1 cf r (st_id1 st) (st_now1 st) (rd_req r) (lit "request") = Ok rq ->
     create_record fuel sha1 cf r (st_id2 st) (st_now2 st) (rd_resp r) (lit "response") = Ok rs ->
     fst (f rq rs) = None \/ snd (f rq rs) = None) ->
  wd_outs (snd (step fuel sha1 k (Done c st) w)) = wd_outs w
  /\ (forall rq rs, create_record fuel sha1 cf r (st_id1 st) (st_now1 st) (rd_req r) (lit "request") = Ok rq ->
      create_record fuel sha1 cf r (st_id2 st) (st_now2 st) (rd_resp r) (lit "response") = Ok rs -> rd_live r = true ->
      fst (step fuel sha1 k (Done c st) w) = Ok tt).
Proof.
intros fuel sha1 k c j x cf r w st f Hb Ef Hf.
destruct (step_own fuel sha1 k (Done c st) w c j x cf r Hb eq_refl) as (y & ws & r1 & x1 & E & E1 & E2 & E3).
cbn [rstep] in E. rewrite E1, E3.
assert (G : ws = [] /\ (forall rq rs, create_record fuel sha1 cf r (st_id1 st) (st_now1 st) (rd_req r) (lit "request") = Ok rq ->
      create_record fuel sha1 cf r (st_id2 st) (st_now2 st) (rd_resp r) (lit "response") = Ok rs -> rd_live r = true -> y = Ok tt)).
{ unfold done in E. destruct (rd_started r); cbn [negb] in E; [|injection E as <- <- _ _; now split].
  destruct (rd_live r); cbn [negb] in E; [|injection E as <- <- _ _; now split].
  destruct (create_record _ _ _ _ _ _ (rd_req r) _) as [rq|e]; [|injection E as <- <- _ _; split; [reflexivity|discriminate]].
  destruct (create_record _ _ _ _ _ _ (rd_resp r) _) as [rs|e]; [|injection E as <- <- _ _; split; [reflexivity|discriminate]].
  rewrite Ef in E. specialize (Hf rq rs eq_refl eq_refl). destruct (f rq rs) as [[a|] [b0|]]; cbn [fst snd] in Hf; try (injection E as <- <- _ _; now split). destruct Hf; discriminate. }
destruct G as [-> G]. split; [apply set_same|exact G].
Qed.

Lemma C59_replaced_partial_pf :
  forall fuel sha1 k c j x cf r w st f rq rs req resp,
  recorded_by w c j x cf r -> rd_started r = true -> cf_filter cf = Some f ->
  create_record fuel sha1 cf r (st_id1 st) (st_now1 st) (rd_req r) (lit "request") = Ok rq ->
  create_record fuel sha1 cf r (st_id2 st) (st_now2 st) (rd_resp r) (lit "response") = Ok rs ->
  f rq rs = (Some req, Some resp) ->
  0 <= py_pos (wr_stream resp) -> (List.length (ps_rest (wr_stream resp)) + 3 <= fuel)%nat ->
  0 <= py_pos (wr_stream req) -> (List.length (ps_rest (wr_stream req)) + 3 <= fuel)%nat ->
  sh_status (wr_headers resp) = [] -> sh_proto (wr_headers resp) <> [] ->
  sh_status (wr_headers req) = [] -> sh_proto (wr_headers req) <> [] ->
  (occurs (lit "WARC-Target-URI") (sh_headers (wr_headers req)) <= 1)%nat ->
  (occurs (lit "WARC-Date") (sh_headers (wr_headers req)) <= 1)%nat ->
  occurs (lit "WARC-Concurrent-To") (sh_headers (wr_headers req)) = 0%nat ->
  fst (step fuel sha1 k (Done c st) w) = Ok tt ->
  exists ws1 ws2 hs1 hs2 b1 b2 url,
    is_record (sh_proto (wr_headers resp)) hs1 b1 (concat ws1) /\ is_record (sh_proto (wr_headers req)) hs2 b2 (concat ws2)
    /\ value_of (lit "WARC-Target-URI") hs1 = Some url /\ value_of (lit "WARC-Target-URI") hs2 = Some url
    /\ grows (wd_outs w) (wd_outs (snd (step fuel sha1 k (Done c st) w))) (cf_writer cf)
         (if wo_gzip (cf_opts cf) then deflated k (kinit k) ws1 ++ deflated k (kinit k) ws2 else concat ws1 ++ concat ws2).
Proof.
intros fuel sha1 k c j x cf r w st f rq rs req resp Hb Hs Ef C1 C2 F Q1 Q2 Q3 Q4 Q5 Q6 Q7 Q8 Q9 Q10 Q11 HO.
destruct (step_own fuel sha1 k (Done c st) w c j x cf r Hb eq_refl) as (y & ws & r1 & x1 & E & E1 & E2 & E3).
cbn [rstep] in E. rewrite E1 in HO. subst y. unfold done in E. rewrite Hs in E. cbn [negb] in E.
destruct (rd_live r); cbn [negb] in E; [|discriminate]. rewrite C1, C2, Ef, F in E.
destruct (write_pair fuel sha1 k (cf_opts cf) req resp) as [y ws'] eqn:W. injection E as -> -> _ _.
destruct (C30_pair_partial_pf fuel sha1 k (cf_opts cf) req resp ws Q1 Q2 Q3 Q4 Q5 Q6 Q7 Q8 Q9 Q10 Q11 W) as (ws1 & ws2 & hs1 & hs2 & b1 & b2 & url & date & R1 & R2 & R3 & R4 & R5 & _).
exists ws1, ws2, hs1, hs2, b1, b2, url. do 4 (split; [assumption|]). rewrite E3. exact (eq_ind (concat ws) (fun z => grows _ _ _ z) (set_grows _ _ _) _ R3).
Qed.

(** ** transparency *)
Lemma unrec_put b x : unrecorded (cn_put b x) = cn_put b (unrecorded x). Proof. reflexivity. Qed.
Lemma put_put a b x : cn_put b (cn_put a x) = cn_put (a ++ b) x.
Proof. unfold cn_put. cbn. now rewrite app_assoc. Qed.
Lemma send_open_ok b r x r' x' : send_open b (r, x) = (Ok tt, (r', x')) -> x' = cn_put b x.
Proof.
  unfold send_open. destruct (extract_url _ _ _ _ _) as [[[]|e] r1]; [|discriminate]. destruct (write_request b r1). intros E. injection E as _ _ <-. reflexivity.
Qed.
Lemma connect_ok ip cf r x r' x' : connect ip cf (r, x) = (Ok tt, (r', x')) -> unrecorded x' = plain_connect (unrecorded x).
Proof.
  unfold connect, plain_connect. cbn [cn_opened cn_tunnel unrecorded]. destruct (cn_tunnel x) as [t|] eqn:Et.
  - destruct (send_open _ _) as [[[]|e] [r1 x1]] eqn:E; [|discriminate]. intros H. injection H as _ <-. apply send_open_ok in E. rewrite E. unfold unrecorded, cn_opened, cn_put. cbn. reflexivity.
  - intros H. injection H as _ <-. unfold unrecorded, cn_opened. cbn. reflexivity.
Qed.
Lemma open_connect x : cn_open (plain_connect x) = true.
Proof. unfold plain_connect. destruct (cn_tunnel (cn_opened x)); reflexivity. Qed.
Lemma send1_ok ip cf b r x r' x' : send1 ip cf b (r, x) = (Ok tt, (r', x')) ->
  unrecorded x' = cn_put b (if cn_open x then unrecorded x else plain_connect (unrecorded x)) /\ cn_open x' = true.
Proof.
  unfold send1. destruct (cn_open x) eqn:Eo.
  - intros H. apply send_open_ok in H. subst. now split.
  - destruct (extract_url _ _ _ _ _) as [[[]|e] r1]; [|discriminate]. destruct (connect ip cf (r1, x)) as [[[]|e] [r2 x2]] eqn:E; [|discriminate].
    destruct (write_request b r2) as [y r3]. intros H. injection H as -> _ <-. apply connect_ok in E. split; [rewrite unrec_put; now rewrite E|].
    change (cn_open (unrecorded x2) = true). rewrite E. apply open_connect.
Qed.
Lemma send_ok ip cf : forall ps r x r' x', send ip cf ps (r, x) = (Ok tt, (r', x')) -> unrecorded x' = plain_send ps (unrecorded x).
Proof.
  assert (O : forall ps r x r' x', cn_open x = true -> send ip cf ps (r, x) = (Ok tt, (r', x')) -> unrecorded x' = cn_put (concat ps) (unrecorded x)).
  { induction ps as [|b t IH]; intros r x r' x' Ho H; cbn [send] in H.
    - injection H as _ <-. unfold cn_put, unrecorded. cbn. now rewrite app_nil_r.
    - destruct (send1 ip cf b (r, x)) as [[[]|e] [r1 x1]] eqn:E; [|discriminate]. apply send1_ok in E as [E1 E2]. rewrite Ho in E1.
      rewrite (IH _ _ _ _ E2 H), E1, put_put. reflexivity. }
  intros [|b t] r x r' x' H; cbn [send] in H; [injection H as _ <-; reflexivity|].
  destruct (send1 ip cf b (r, x)) as [[[]|e] [r1 x1]] eqn:E; [|discriminate]. apply send1_ok in E as [E1 E2].
  rewrite (O _ _ _ _ _ E2 H), E1, put_put. reflexivity.
Qed.
Lemma rstep_plain fuel sha1 k cf o r x ws r' x' : rstep fuel sha1 k cf o r x = (Ok tt, ws, (r', x')) -> unrecorded x' = plain_step o (unrecorded x).
Proof.
  destruct o; cbn [rstep plain_step]; intros H; try (injection H as _ _ <-; reflexivity).
  - destruct (connect ip cf (r, x)) as [y [r1 x1]] eqn:E. injection H as -> _ _ <-. now apply connect_ok in E.
  - destruct (send ip cf parts (r, x)) as [y [r1 x1]] eqn:E. injection H as -> _ _ <-. now apply send_ok in E.
  - destruct (write_response b r). injection H as _ _ _ <-. reflexivity.
  - destruct (write_response _ r). injection H as _ _ _ <-. reflexivity.
  - destruct (done _ _ _ _ _ _) as [[y w1] r1]. injection H as _ _ _ <-. reflexivity.
Qed.
Lemma plain_unrec o x : unrecorded (plain_step o x) = plain_step o (unrecorded x).
Proof.
  assert (C : forall x, unrecorded (plain_connect x) = plain_connect (unrecorded x)).
  { intros x0. unfold plain_connect. cbn [cn_opened cn_tunnel unrecorded]. destruct (cn_tunnel x0); reflexivity. }
  destruct o; cbn [plain_step]; try reflexivity; [apply C|]. unfold plain_send. destruct parts; [reflexivity|]. rewrite unrec_put. cbn [unrecorded cn_open].
  destruct (cn_open x); [reflexivity|]. now rewrite C.
Qed.
Lemma map_set_nth {A B} (f : A -> B) y : forall l n, map f (set_nth n y l) = set_nth n (f y) (map f l).
Proof. induction l as [|a l IH]; intros [|n]; cbn; f_equal; auto. Qed.

Lemma C76_transparent_pf :
  forall fuel sha1 k outs ops,
  Forall (fun x => x = Ok tt) (fst (run fuel sha1 k ops (fresh outs))) ->
  map unrecorded (wd_conns (snd (run fuel sha1 k ops (fresh outs))))
  = wd_conns (snd (run fuel sha1 k (filter not_capture ops) (fresh outs))).
Proof.
intros fuel sha1 k outs ops.
assert (G : forall ops w w0, map unrecorded (wd_conns w) = wd_conns w0 -> Forall (fun x => cn_rec x = None) (wd_conns w0) -> (forall t, local_of t (wd_local w0) = None) ->
  Forall (fun x => x = Ok tt) (fst (run fuel sha1 k ops w)) -> map unrecorded (wd_conns (snd (run fuel sha1 k ops w))) = wd_conns (snd (run fuel sha1 k (filter not_capture ops) w0))).
{ clear. induction ops as [|o ops IH]; intros w w0 Hc H0 Hl Hok; [exact Hc|]. cbn [run] in *.
  destruct (step fuel sha1 k o w) as [y w1] eqn:Es. destruct (run fuel sha1 k ops w1) as [xs w2] eqn:Er. cbn [fst snd] in *. inversion Hok as [|q l -> Hok']. subst q l || subst.
  specialize (IH w1). rewrite Er in IH. cbn [fst snd] in IH.
  assert (S : forall w0', not_capture o = true -> snd (step fuel sha1 k o w0) = w0' -> map unrecorded (wd_conns w1) = wd_conns w0' /\ Forall (fun x => cn_rec x = None) (wd_conns w0') /\ (forall t, local_of t (wd_local w0') = None)).
  { intros w0' Hnc <-.
    assert (K : forall i, conn_of o = Some i -> (match o with Enter _ _ | Exit _ | Make _ _ _ _ _ => False | _ => True end) ->
       map unrecorded (wd_conns w1) = wd_conns (snd (step fuel sha1 k o w0)) /\ Forall (fun x => cn_rec x = None) (wd_conns (snd (step fuel sha1 k o w0))) /\ (forall t, local_of t (wd_local (snd (step fuel sha1 k o w0))) = None)).
    { intros i Hi Hno.
      assert (Ew : step fuel sha1 k o w = (match nth_error (wd_conns w) i with
            | None => (Ok tt, w)
            | Some c =>
                match match cn_rec c with Some j => option_map (fun x => (j, x)) (nth_error (wd_recs w) j) | None => None end with
                | None => (Ok tt, mk_world (wd_recs w) (set_nth i (plain_step o c) (wd_conns w)) (wd_local w) (wd_outs w))
                | Some (j, (cf, r)) =>
                    let '(x, ws, (r, c)) := rstep fuel sha1 k cf o r c in
                    (x, mk_world (set_nth j (cf, r) (wd_recs w)) (set_nth i c (wd_conns w)) (wd_local w)
                          (set_nth (cf_writer cf) (nth (cf_writer cf) (wd_outs w) [] ++ List.concat ws) (wd_outs w)))
                end
            end)).
      { unfold step. destruct o; try contradiction; rewrite Hi; reflexivity. }
      assert (E0 : step fuel sha1 k o w0 = (match nth_error (wd_conns w0) i with
            | None => (Ok tt, w0)
            | Some c => (Ok tt, mk_world (wd_recs w0) (set_nth i (plain_step o c) (wd_conns w0)) (wd_local w0) (wd_outs w0)) end)).
      { unfold step. destruct o; try contradiction; rewrite Hi; (destruct (nth_error (wd_conns w0) i) as [z|] eqn:Ez; [|reflexivity]); rewrite (Forall_nth _ _ _ _ H0 Ez); reflexivity. }
      rewrite Ew in Es. rewrite E0. assert (Hn : nth_error (wd_conns w0) i = option_map unrecorded (nth_error (wd_conns w) i)) by (rewrite <- Hc; apply nth_error_map).
      rewrite Hn. destruct (nth_error (wd_conns w) i) as [z|]; cbn [option_map]; [|injection Es as <-; auto].
      assert (P : map unrecorded (wd_conns w1) = set_nth i (plain_step o (unrecorded z)) (map unrecorded (wd_conns w))).
      { destruct (match cn_rec z with Some j => option_map (fun x => (j, x)) (nth_error (wd_recs w) j) | None => None end) as [[j [cf0 r0]]|].
        - destruct (rstep fuel sha1 k cf0 o r0 z) as [[q ws] [r1 z1]] eqn:Ers. injection Es as -> <-. cbn [wd_conns]. rewrite map_set_nth. f_equal. eapply rstep_plain. exact Ers.
        - injection Es as <-. cbn [wd_conns]. rewrite map_set_nth. f_equal. apply plain_unrec. }
      cbn [snd wd_conns wd_local]. rewrite P, Hc. split; [reflexivity|]. split; [|exact Hl]. apply Forall_set_nth; [|exact H0].
      clear. destruct o; cbn [plain_step]; try reflexivity.
      - unfold plain_connect. cbn. destruct (cn_tunnel z); reflexivity.
      - unfold plain_send. destruct parts; [reflexivity|]. cbn. destruct (cn_open z); [reflexivity|]. unfold plain_connect. cbn. destruct (cn_tunnel z); reflexivity. }
    destruct o; try discriminate Hnc; try (apply (K _ eq_refl I)).
    cbn in Es. injection Es as <-. cbn. rewrite map_app, Hc. split; [f_equal; cbn; unfold unrecorded; cbn; now rewrite Hl|]. split; [|exact Hl].
    apply Forall_app. split; [exact H0|]. constructor; [apply Hl|constructor]. }
  cbn [filter]. destruct (not_capture o) eqn:En.
  - cbn [run]. destruct (S _ eq_refl eq_refl) as (A & B & C). destruct (step fuel sha1 k o w0) as [y0 w01]. cbn [snd] in *. specialize (IH w01 A B C Hok').
    destruct (run fuel sha1 k (filter not_capture ops) w01). exact IH.
  - apply IH; [|exact H0|exact Hl|exact Hok']. destruct o; try discriminate En; cbn in Es; injection Es as <-; exact Hc. }
apply G; [reflexivity|constructor|reflexivity].
Qed.
