(** * Thm_CapRaise: proofs of the theorems restated in Props_CapRaise.v *)
From Coq Require Import String List ZArith NArith Bool.
From Verif Require Import PyBase Utf8 Codecs Headers HeaderSpec Streams StreamSpec Loader Writer WriterSpec RoundSpec Capture CaptureSpec Toy CaptureToy HeaderProofs.
Import ListNotations.
Open Scope Z_scope.

From Coq Require Import Lia ZifyBool ZifyNat ZifyN.
From Verif Require Import Facts ArcProofs RoundProofs StreamProofs CaptureWorld CaptureProofs CapturePair WriterProofs Thm_Capture.

(** the verbs of HTTP in RFC 9110 and RFC 5789 *)
Definition known_verbs : list str :=
  [lit "GET"; lit "HEAD"; lit "POST"; lit "PUT"; lit "DELETE"; lit "TRACE"; lit "OPTIONS"; lit "CONNECT"; lit "PATCH"].
(** another one, in capital letters, that does not begin with one of those *)
Definition other_verb (v : str) : Prop :=
  v <> [] /\ Forall (fun c => (65 <= c <= 90)%N) v /\ forall u z, In u known_verbs -> v <> u ++ z.

Lemma capital_upper v : Forall (fun c => (65 <= c <= 90)%N) v -> forall z, upper (v ++ z) = v ++ upper z.
Proof.
  induction 1 as [|c v H _ IH]; intros z; [reflexivity|]. cbn [app]. unfold upper in *. cbn [map]. rewrite IH. f_equal. unfold upper1. destruct ((97 <=? c) && (c <=? 122))%N eqn:E; [lia|reflexivity].
Qed.
Lemma starts_inv (a : bytes) : forall l, startswith a l = true -> exists z, l = a ++ z.
Proof. induction a as [|x a IH]; intros [|y l] H; cbn in *; try discriminate; try (now eexists). apply andb_true_iff in H as [H1 H2]. apply N.eqb_eq in H1. subst y. destruct (IH l H2) as [z ->]. now exists z. Qed.
Lemma prefix_cut (c : N) : forall (u v z s : bytes), u ++ z = v ++ c :: s -> ~ In c u -> exists y, v = u ++ y.
Proof.
  induction u as [|x u IH]; intros v z s E H; [now exists v|]. destruct v as [|a v]; cbn in *; injection E as -> E; [destruct H; now left|]. destruct (IH v z s E) as [y ->]; [tauto|]. now exists y.
Qed.
Lemma no_prefix l verb z : l = verb ++ 32%N :: z -> other_verb verb -> split_prefix (urstrip l) HTTP_VERBS = None.
Proof.
  intros El (Hn & Hc & Hp). change HTTP_VERBS with known_verbs. assert (K : forall u, In u known_verbs -> ~ In 32%N u) by (intros u Hu; repeat (destruct Hu as [<-|Hu]; [vm_compute; intuition discriminate|]); contradiction).
  revert K Hp. generalize known_verbs as us. induction us as [|u us IH]; intros K Hp; [reflexivity|]. cbn [split_prefix].
  destruct (startswith u (upper (urstrip l))) eqn:E; [|apply IH; intros; [apply K; now right|apply Hp; now right]].
  exfalso. apply starts_inv in E as [y E]. destruct (urstrip_split l) as (ws & Ew & _).
  assert (U : upper l = u ++ y ++ upper ws) by (rewrite Ew at 1; unfold upper in *; rewrite map_app, E, <- app_assoc; reflexivity).
  rewrite El, (capital_upper verb Hc) in U. change (upper (32%N :: z)) with (32%N :: upper z) in U. symmetry in U. apply prefix_cut in U as [q Q]; [|apply K; now left]. apply (Hp u q); [now left|exact Q].
Qed.
Lemma parse_other {S} (rl : S -> res bytes * S) fuel s s1 l verb z : rl s = (Ok l, s1) -> ascii_text l -> l = verb ++ 32%N :: z -> other_verb verb ->
  parse rl fuel (mk_parser HTTP_VERBS true) None s = (Err (ParserExn l), s1).
Proof.
  intros Er Ha El Hv. unfold parse. rewrite Er. cbn [decode_hline]. rewrite (ascii_decode l Ha). pose proof Hv as (Hn & Hc & _).
  assert (L : lenZ l =? 0 = false). { subst l. destruct verb; [contradiction|]. rewrite <- app_comm_cons, lenZ_cons. pose proof (lenZ_nonneg (verb ++ 32%N :: z)). lia. }
  rewrite L. assert (B : is_nil (urstrip l) = false).
  { destruct (urstrip l) eqn:E; [|reflexivity]. destruct (urstrip_split l) as (ws & Ew & Hw). rewrite E in Ew. cbn [app] in Ew. subst ws. destruct verb as [|c v]; [contradiction|]. subst l.
    specialize (Hw c (or_introl eq_refl)). inversion Hc as [|? ? H1 _]; subst. exfalso. clear - Hw H1.
    assert (J : forallb (fun c => negb (is_uspace c)) (map N.of_nat (seq 65 26)) = true) by (vm_compute; reflexivity). rewrite forallb_forall in J.
    specialize (J c). rewrite Hw in J. discriminate J. apply in_map_iff. exists (N.to_nat c). split; [apply N2Nat.id|]. apply in_seq. lia. }
  rewrite B. cbn [p_verify p_list]. rewrite (no_prefix l verb z El Hv). reflexivity.
Qed.
Lemma sent_parts c : forall ops, sent c ops = concat (parts c ops).
Proof.
  unfold sent, parts. induction ops as [|o ops IH]; [reflexivity|]. cbn [map concat]. rewrite IH, concat_app. f_equal. destruct o; try reflexivity. cbn [sent1 parts1]. now destruct (Nat.eqb c0 c).
Qed.

Lemma C108_verb_refuted_pf :
  forall fuel sha1 k c j x cf r w mid st b t verb path,
  recorded_by w c j x cf r -> (cn_open x = true \/ cn_tunnel x = None) ->
  undisturbed fuel sha1 k c j mid (snd (step fuel sha1 k (Put c) w)) ->
  parts c mid = b :: t -> request_line b verb path -> other_verb verb -> ascii_text (take_line (sent c mid)) ->
  let w1 := snd (run fuel sha1 k (Put c :: mid) w) in
  (exists x' r', recorded_by w1 c j x' cf r' /\ cn_wire x' = cn_wire x ++ sent c mid /\ rd_req r' = sent c mid /\ rd_resp r' = got c mid)
  /\ fst (step fuel sha1 k (Done c st) w1) = Err (ParserExn (take_line (sent c mid)))
  /\ wd_outs (snd (step fuel sha1 k (Done c st) w1)) = wd_outs w1.
Proof.
intros fuel sha1 k c j x cf r w mid st b t verb path Hb Hr Hu Hp Hq Hv Ha w1.
assert (HC : verb <> lit "CONNECT"). { intros ->. destruct Hv as (_ & _ & H). apply (H (lit "CONNECT") []); [cbn; tauto|reflexivity]. }
destruct (exchange_all fuel sha1 k c j x cf r w mid b t verb path Hb Hr Hu Hp Hq HC) as (_ & x' & r' & B1 & [B2 B2'] & B3 & B4 & B5 & B6). fold w1 in B1.
split; [exists x', r'; exact (conj B1 (conj B3 (conj B4 B5)))|].
assert (ES : exists z, sent c mid = b ++ z). { exists (concat t). rewrite sent_parts, Hp. reflexivity. }
destruct ES as [z ES]. destruct Hq as (q1 & q2 & q3 & q4 & rest & Eb).
assert (EL : exists y, take_line (sent c mid) = verb ++ 32%N :: y).
{ rewrite ES, Eb. rewrite <- !app_assoc. cbn [app]. clear - q2. induction verb as [|a v IH]; [cbn [app take_line]; eexists; reflexivity|].
  cbn [app take_line]. destruct (a =? LF)%N eqn:E; [apply N.eqb_eq in E; subst a; destruct q2; now left|]. destruct IH as [y Hy]; [intros H; apply q2; now right|]. rewrite Hy. now exists y. }
destruct EL as [y EL].
assert (EC : create_record fuel sha1 cf r' (st_id1 st) (st_now1 st) (rd_req r') (lit "request") = Err (ParserExn (take_line (sent c mid)))).
{ unfold create_record, create_warc_record. rewrite B4, B6. cbn [osah_bool]. unfold load_http_headers.
  destruct (lenZ (sent c mid)) eqn:EZ; [exfalso|..].
  { apply lenZ_0 in EZ. rewrite EZ in EL. cbn in EL. now destruct verb. }
  all: cbn [is_http_record negb]; rewrite (the_url_http _ _ _ _ _); cbn [negb]; change (otype_is (Some (lit "request")) "request") with true; cbn iota.
  all: destruct (o_readline ps_ops None (bytesio (sent c mid))) as [rr s1] eqn:ER; assert (rr = Ok (take_line (sent c mid))) by (apply (f_equal fst) in ER; cbn [ps_ops o_readline] in ER; unfold ps_readline in ER; rewrite WriterProofs.ps_rest_bytesio in ER; cbn [fst] in ER; now rewrite <- ER).
  all: subst rr; rewrite (parse_other (o_readline ps_ops None) fuel _ s1 _ verb y ER Ha EL Hv); reflexivity. }
assert (D : done fuel sha1 k cf st r' = (Err (ParserExn (take_line (sent c mid))), [], rd_close r')) by (unfold done; rewrite B2, B2'; cbn [negb]; now rewrite EC).
destruct (step_own fuel sha1 k (Done c st) w1 c j x' cf r' B1 eq_refl) as (y' & ws' & r2 & x2 & E & E1 & E2 & E3).
cbn [rstep] in E. rewrite D in E. injection E as <- <- <- <-. split; [exact E1|]. rewrite E3. apply Thm_Capture.set_same.
Qed.

Lemma C108_exchange_partial_pf :
  forall fuel sha1 k outs pre c j x cf r mid st b t verb path,
  let w := snd (run fuel sha1 k pre (fresh outs)) in
  hash_bytes sha1 -> Forall op_texts (pre ++ Put c :: mid) -> op_texts (Done c st) ->
  recorded_by w c j x cf r -> (cn_open x = true \/ cn_tunnel x = None) ->
  undisturbed fuel sha1 k c j mid (snd (step fuel sha1 k (Put c) w)) ->
  parts c mid = b :: t -> request_line b verb path -> verb <> lit "CONNECT" ->
  accepts cf -> wo_filter (cf_opts cf) = None ->
  message (mk_parser HTTP_VERBS true) (sent c mid) -> message (mk_parser HTTP_TYPES true) (got c mid) ->
  enough fuel (sent c mid) -> enough fuel (got c mid) ->
  forall i o, nth_error (Put c :: mid ++ [Done c st]) i = Some o -> conn_of o = Some c ->
    nth_error (fst (run fuel sha1 k (Put c :: mid ++ [Done c st]) w)) i = Some (Ok tt).
Proof.
intros fuel sha1 k outs pre c j x cf r mid st b t verb path w H1 H2 H3 H4 H5 H6 H7 H8 H9 H10 H11 H12 H13 H14 H15 i o Hi Hc.
destruct (exchange_all fuel sha1 k c j x cf r w mid b t verb path H4 H5 H6 H7 H8 H9) as (A & _).
destruct (C55_written_partial_pf fuel sha1 k outs pre c j x cf r mid st b t verb path H1 H2 H3 H4 H5 H6 H7 H8 H9 H10 H11 H12 H13 H14 H15) as (x' & r' & url & hs1 & hs2 & out & _ & _ & B & _). fold w in B.
change (Put c :: mid ++ [Done c st]) with ((Put c :: mid) ++ [Done c st]) in *.
assert (R : fst (run fuel sha1 k ((Put c :: mid) ++ [Done c st]) w) = fst (run fuel sha1 k (Put c :: mid) w) ++ [fst (step fuel sha1 k (Done c st) (snd (run fuel sha1 k (Put c :: mid) w)))]).
{ clear. clearbody w. generalize (Put c :: mid) as l. intros l. revert w. induction l as [|a l IH]; intros w; cbn [app run].
  - cbn [fst snd app]. destruct (step fuel sha1 k (Done c st) w); reflexivity.
  - destruct (step fuel sha1 k a w) as [y v]. specialize (IH v). destruct (run fuel sha1 k (l ++ [Done c st]) v), (run fuel sha1 k l v). cbn [fst snd app] in *. now rewrite IH. }
assert (L : List.length (fst (run fuel sha1 k (Put c :: mid) w)) = List.length (Put c :: mid)).
{ clear. clearbody w. generalize (Put c :: mid) as l. intros l. revert w. induction l as [|a l IH]; intros w; cbn [run]; [reflexivity|]. destruct (step fuel sha1 k a w) as [y v]. specialize (IH v). destruct (run fuel sha1 k l v). cbn in *. now rewrite IH. }
rewrite R. destruct (Nat.ltb i (List.length (Put c :: mid))) eqn:E.
- apply Nat.ltb_lt in E. rewrite nth_error_app1 in * by lia. now apply (A i o).
- apply Nat.ltb_ge in E. rewrite nth_error_app2 in Hi |- * by lia. rewrite L. destruct (i - List.length (Put c :: mid))%nat as [|n]; [cbn [nth_error]; now rewrite B|]. destruct n; discriminate.
Qed.

Lemma C108_again_refuted_pf :
  forall fuel sha1 k c j x cf r w st st' b,
  recorded_by w c j x cf r -> rd_started r = true ->
  let w1 := snd (step fuel sha1 k (Done c st) w) in
  fst (step fuel sha1 k (Done c st') w1) = Err ValueErr /\ fst (step fuel sha1 k (Got c b) w1) = Err ValueErr.
Proof.
intros fuel sha1 k c j x cf r w st st' b Hb Hs w1.
destruct (step_own fuel sha1 k (Done c st) w c j x cf r Hb eq_refl) as (y & ws & r1 & x1 & E & E1 & E2 & E3). fold w1 in E2, E3.
assert (X : rd_started r1 = true /\ rd_live r1 = false).
{ cbn [rstep] in E. destruct (done fuel sha1 k cf st r) as [[y' ws'] r2] eqn:ED. injection E as _ _ <- _. unfold done in ED. rewrite Hs in ED. cbn [negb] in ED.
  destruct (rd_live r) eqn:EL; cbn [negb] in ED; [|injection ED as _ _ <-; now split].
  destruct (create_record _ _ _ r _ _ (rd_req r) _); [|injection ED as _ _ <-; now split]. destruct (create_record _ _ _ r _ _ (rd_resp r) _); [|injection ED as _ _ <-; now split].
  match type of ED with match ?M with _ => _ end = _ => destruct M as [[?|] [?|]] end; try (injection ED as _ _ <-; now split).
  destruct (write_pair fuel sha1 k (cf_opts cf) _ _). injection ED as _ _ <-. now split. }
destruct X as [X1 X2]. split.
- destruct (step_own fuel sha1 k (Done c st') w1 c j x1 cf r1 E2 eq_refl) as (y2 & ws2 & r2 & x2 & F & F1 & _). rewrite F1. cbn [rstep] in F. unfold done in F. rewrite X1, X2 in F. cbn [negb] in F. now injection F as <-.
- destruct (step_own fuel sha1 k (Got c b) w1 c j x1 cf r1 E2 eq_refl) as (y2 & ws2 & r2 & x2 & F & F1 & _). rewrite F1. cbn [rstep] in F. unfold write_response in F. rewrite X1, X2 in F. now injection F as <-.
Qed.
