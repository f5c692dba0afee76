(** * Thm_CapHdr: proofs of the theorems restated in Props_CapHdr.v *)
From Coq Require Import String List ZArith NArith Bool.
From Verif Require Import PyBase Utf8 Codecs Headers HeaderSpec Streams StreamSpec Loader Writer WriterSpec RoundSpec Capture CaptureSpec Toy CaptureToy.
Import ListNotations.
Open Scope Z_scope.

From Coq Require Import Lia ZifyBool ZifyNat ZifyN.
From Verif Require Import Facts StreamProofs HeaderProofs WriterProofs CaptureProofs CaptureWorld Thm_Capture.

(** the two headers capture_http adds *)
Definition IP : str := lit "WARC-IP-Address".
Definition PROXY : str := lit "WARC-Proxy-Host".
(** operations of a program that asks for no addresses; of one that uses no proxy: no tunnel,
    and nothing sent begins like a request for an absolute URI *)
Definition without_ip (o : op) : Prop := match o with Enter _ cf => cf_ip cf = false | _ => True end.
Definition without_proxy (o : op) : Prop :=
  match o with
  | Make _ _ _ _ tn => tn = None
  | Send _ _ parts => forall b verb rest, In b parts -> b = verb ++ 32%N :: rest -> ~ In 32%N verb ->
      verb <> lit "CONNECT" /\ (forall t, rest <> lit "http:" ++ t /\ rest <> lit "https:" ++ t)
  | _ => True
  end.

Definition two (d : list header) : Prop := NoDup (map fst d) /\ forall h, In h d -> fst h = IP \/ fst h = PROXY.
Lemma set_names n v d : forall m, In m (map fst (dict_set n v d)) -> m = n \/ In m (map fst d).
Proof. induction d as [|[a u] t IH]; intros m; cbn [dict_set map fst]; [intros [<-|[]]; now left|]. destruct (leqb a n); cbn [map fst In]; [tauto|]. intros [<-|H]; [tauto|]. destruct (IH m H); tauto. Qed.
Lemma two_set n v d : n = IP \/ n = PROXY -> two d -> two (dict_set n v d).
Proof.
  intros Hn [H1 H2]. split.
  - clear H2. induction d as [|[a u] t IH]; cbn [dict_set map fst]; [constructor; [intros []|constructor]|]. inversion H1 as [|? ? A B]; subst.
    destruct (leqb a n) eqn:E; cbn [map fst]; [now constructor|]. constructor; [|now apply IH]. intros X. apply set_names in X as [X|X]; [|contradiction]. subst a. now rewrite leqb_refl in E.
  - intros h Hh. assert (X : In (fst h) (map fst (dict_set n v d))) by now apply in_map. apply set_names in X as [->|X]; [exact Hn|]. apply in_map_iff in X as (h' & <- & X). auto.
Qed.
Lemma set_value n v d : two d -> n = IP \/ n = PROXY -> value_of n (dict_set n v d) = Some v /\ forall m, (m = IP \/ m = PROXY) -> m <> n -> value_of m (dict_set n v d) = value_of m d.
Proof.
  intros [_ H2] Hn. unfold value_of.
  assert (Q : forall a b, (a = IP \/ a = PROXY) -> (b = IP \/ b = PROXY) -> name_eq a b = leqb a b) by (intros a b [-> | ->] [-> | ->]; reflexivity).
  induction d as [|[a u] t IH]; cbn [dict_set filter fst].
  - rewrite Q, leqb_refl by assumption. split; [reflexivity|]. intros m Hm Hne. rewrite Q by assumption. destruct (leqb n m) eqn:E; [|reflexivity]. apply leqb_eq in E. congruence.
  - assert (Ha : a = IP \/ a = PROXY) by (apply (H2 (a, u)); now left). destruct (leqb a n) eqn:E; cbn [filter fst].
    + apply leqb_eq in E. subst a. rewrite Q, leqb_refl by assumption. split; [reflexivity|]. intros m Hm Hne. rewrite Q by assumption. destruct (leqb n m) eqn:E2; [|reflexivity]. apply leqb_eq in E2. congruence.
    + rewrite Q by assumption. rewrite E. destruct IH as [I1 I2]; [intros h Hh; apply H2; now right|]. split; [exact I1|]. intros m Hm Hne. destruct (name_eq a m); [reflexivity|]. now apply I2.
Qed.
Lemma value_none n d : two d -> (n = IP \/ n = PROXY) -> (value_of n d = None <-> ~ In n (map fst d)).
Proof.
  intros [_ H2] Hn. unfold value_of.
  assert (Q : forall a b, (a = IP \/ a = PROXY) -> (b = IP \/ b = PROXY) -> name_eq a b = leqb a b) by (intros a b [-> | ->] [-> | ->]; reflexivity).
  induction d as [|[a u] t IH]; cbn [filter map fst In]; [tauto|]. rewrite Q; [|apply (H2 (a, u)); now left|exact Hn].
  destruct (leqb a n) eqn:E.
  - apply leqb_eq in E. subst a. split; [discriminate|]. intros X. exfalso. apply X. now left.
  - rewrite IH by (intros h Hh; apply H2; now right). split; [|tauto]. intros X [->|Y]; [now rewrite leqb_refl in E|auto].
Qed.
Lemma ip_two cf ip r : two (rd_headers r) -> two (rd_headers (set_remote_ip cf ip r)).
Proof. intros H. unfold set_remote_ip. destruct ip as [[|a t]|]; [exact H| |exact H]. destruct (cf_ip cf); [|exact H]. cbn [rd_headers rd_set_headers]. apply two_set; [now left|exact H]. Qed.
Lemma ext_hdr (P : list header -> Prop) b h p d r :
  P (rd_headers r) -> (forall v, P (dict_set PROXY v (rd_headers r))) -> P (rd_headers (snd (extract_url b h p d r))).
Proof.
  intros H HS. unfold extract_url. destruct (rd_first r); [exact H|]. destruct (split1 32 (take_line b)) as [[v rest]|]; [|exact H].
  set (path := match split1 32 rest with Some (p0, _) => p0 | None => rest end). clearbody path.
  destruct (leqb v (lit "CONNECT")).
  - destruct (split1 58 path) as [[h' p']|]; [destruct (py_int p')|]; cbn [snd rd_headers rd_set_headers rd_set_connect rd_set_first]; auto.
  - destruct (_ || _); cbn [snd rd_headers rd_set_headers rd_set_url rd_set_first]; auto.
Qed.
Definition two_rec (r : recorder) : Prop := two (rd_headers r).
Lemma two_run fuel sha1 k ops w : holds (fun _ => True) two_rec (fun _ => True) w -> holds (fun _ => True) two_rec (fun _ => True) (snd (run fuel sha1 k ops w)).
Proof.
  intros Hw. apply holds_run with (PO := fun _ => True); try exact Hw; try (intros; exact Logic.I).
  - split; [constructor|intros h []].
  - intros cf o r x _ Hr _ _. apply rstep_keeps with (B := fun _ => True); try assumption; try (intros; exact Logic.I); try (intros; assumption).
    + intros r0 ip H _. now apply ip_two.
    + intros b r0 x0 _ H _. unfold two_rec in *. apply (ext_hdr two); [exact H|]. intros v. apply two_set; [now right|exact H].
    + intros. apply Forall_forall. auto.
  - apply Forall_forall. auto.
Qed.

Lemma C105_once_pf :
  forall fuel sha1 k ops outs cf r,
  In (cf, r) (wd_recs (snd (run fuel sha1 k ops (fresh outs)))) ->
  NoDup (map fst (rd_headers r)) /\ forall h, In h (rd_headers r) -> fst h = IP \/ fst h = PROXY.
Proof.
intros fuel sha1 k ops outs cf r Hin. destruct (two_run fuel sha1 k ops (fresh outs)) as [H _]; [split; constructor|]. rewrite Forall_forall in H. exact (proj2 (H _ Hin)).
Qed.

Lemma C105_ip_pf :
  forall fuel sha1 k ops outs c j x cf r ip,
  let w := snd (run fuel sha1 k ops (fresh outs)) in
  recorded_by w c j x cf r -> cf_ip cf = true -> ip <> [] ->
  exists r', recorded_by (snd (step fuel sha1 k (Respond c (Some ip)) w)) c j x cf r'
    /\ value_of IP (rd_headers r') = Some ip /\ value_of PROXY (rd_headers r') = value_of PROXY (rd_headers r).
Proof.
intros fuel sha1 k ops outs c j x cf r ip w Hb Hi Hne. destruct (step_own fuel sha1 k (Respond c (Some ip)) w c j x cf r Hb eq_refl) as (y & ws & r' & x' & E & E1 & E2 & E3).
cbn [rstep] in E. injection E as <- <- <- <-. eexists. split; [exact E2|]. unfold set_remote_ip. destruct ip as [|a t]; [contradiction|]. rewrite Hi. cbn [rd_headers rd_set_headers].
assert (T : two (rd_headers r)). { destruct (two_run fuel sha1 k ops (fresh outs)) as [H _]; [split; constructor|]. destruct Hb as (_ & _ & Hr). exact (proj2 (Forall_nth _ _ _ _ H Hr)). }
destruct (set_value IP (a :: t) (rd_headers r) T) as [V1 V2]; [now left|]. split; [exact V1|]. apply V2; [now right|discriminate].
Qed.

Lemma keep_run (n : str) fuel sha1 k ops w (PC : config -> Prop) (PX : conn -> Prop) (PO : op -> Prop) (B : bytes -> Prop) :
  (n = IP \/ n = PROXY) ->
  (forall t cf, PO (Enter t cf) -> PC cf) -> (forall t h p d tn j, PO (Make t h p d tn) -> PX (mk_cn h p d j false tn [])) ->
  (forall cf ip r, PC cf -> two_rec r -> ~ In n (map fst (rd_headers r)) -> ~ In n (map fst (rd_headers (set_remote_ip cf ip r)))) ->
  (forall b r x, B b -> PX x -> ~ In n (map fst (rd_headers r)) -> ~ In n (map fst (rd_headers (snd (extract_url b (cn_host x) (cn_port x) (cn_default x) r))))) ->
  (forall x, PX x -> PX (cn_opened x)) -> (forall b x, PX x -> PX (cn_put b x)) -> (forall x t, PX x -> cn_tunnel x = Some t -> B (connect_text t)) ->
  (forall c ip parts, PO (Send c ip parts) -> Forall B parts) ->
  Forall PO ops -> holds PC (fun r => two_rec r /\ ~ In n (map fst (rd_headers r))) PX w ->
  holds PC (fun r => two_rec r /\ ~ In n (map fst (rd_headers r))) PX (snd (run fuel sha1 k ops w)).
Proof.
  intros Hn Hen Hmk Hip Hex Ho Hp Ht Hs HO Hw. apply holds_run with (PO := PO); try assumption.
  - split; [|intros []]. split; [constructor|intros h []].
  - intros cf o r x Hc Hr Hx Ho'. apply rstep_keeps with (B := B); try assumption.
    + intros r0 H; exact H.
    + intros r0 H; exact H.
    + intros r0 H; exact H.
    + intros q s r0 H; exact H.
    + intros r0 ip [A1 A2] _. split; [now apply ip_two|now apply Hip].
    + intros b r0 x0 Hb [A1 A2] Hx0. split; [|now apply Hex]. unfold two_rec in *. apply (ext_hdr two); [exact A1|]. intros v. apply two_set; [now right|exact A1].
    + intros c ip ps ->. exact (Hs _ _ _ Ho').
  - intros o x Hx _. now apply plain_keeps.
Qed.

Lemma C105_no_ip_pf :
  forall fuel sha1 k ops outs cf r, Forall without_ip ops ->
  In (cf, r) (wd_recs (snd (run fuel sha1 k ops (fresh outs)))) -> value_of IP (rd_headers r) = None.
Proof.
intros fuel sha1 k ops outs cf r HO Hin.
assert (H : holds (fun cf => cf_ip cf = false) (fun r => two_rec r /\ ~ In IP (map fst (rd_headers r))) (fun _ => True) (snd (run fuel sha1 k ops (fresh outs)))).
{ apply (keep_run IP) with (PO := without_ip) (B := fun _ => True); try (intros; exact Logic.I).
  - now left.
  - intros t cf0 H. exact H.
  - intros cf0 ip r0 Hc _ H. unfold set_remote_ip. destruct ip as [[|a t]|]; [exact H| |exact H]. now rewrite Hc.
  - intros b r0 x _ _ H. apply (ext_hdr (fun d => ~ In IP (map fst d))); [exact H|]. intros v X. apply set_names in X as [X|X]; [discriminate|contradiction].
  - intros. apply Forall_forall. auto.
  - exact HO.
  - split; constructor. }
destruct H as [H _]. rewrite Forall_forall in H. destruct (H _ Hin) as (_ & T & N). cbn [snd] in *. apply (value_none IP _ T); [now left|exact N].
Qed.

Lemma C105_no_proxy_pf :
  forall fuel sha1 k ops outs cf r, Forall without_proxy ops ->
  In (cf, r) (wd_recs (snd (run fuel sha1 k ops (fresh outs)))) -> value_of PROXY (rd_headers r) = None.
Proof.
intros fuel sha1 k ops outs cf r HO Hin.
set (B := fun b : bytes => forall verb rest, b = verb ++ 32%N :: rest -> ~ In 32%N verb -> verb <> lit "CONNECT" /\ (forall t, rest <> lit "http:" ++ t /\ rest <> lit "https:" ++ t)).
assert (H : holds (fun cf => True) (fun r => two_rec r /\ ~ In PROXY (map fst (rd_headers r))) (fun x => cn_tunnel x = None) (snd (run fuel sha1 k ops (fresh outs)))).
{ apply (keep_run PROXY) with (PO := without_proxy) (B := B); try (intros; exact Logic.I).
  - now right.
  - intros t h p d tn j H. exact H.
  - intros cf0 ip r0 _ T H. unfold set_remote_ip. destruct ip as [[|a t]|]; [exact H| |exact H]. destruct (cf_ip cf0); [|exact H]. cbn [rd_headers rd_set_headers]. intros X. apply set_names in X as [X|X]; [discriminate|contradiction].
  - intros b r0 x Hb _ H. unfold extract_url. destruct (rd_first r0); [exact H|]. destruct (split1 32 (take_line b)) as [[v rest]|] eqn:E1; [|exact H].
    apply split1_spec in E1 as [E1 Hv].
    assert (Eb : b = v ++ 32%N :: (rest ++ drop_line b)) by (rewrite <- (take_drop_line b) at 1; rewrite E1, <- app_assoc; reflexivity).
    destruct (Hb _ _ Eb Hv) as [C1 C2]. rewrite (proj2 (leqb_neq _ _) C1). set (path := match split1 32 rest with Some (p0, _) => p0 | None => rest end).
    assert (Hpre : exists u, rest = path ++ u). { unfold path. destruct (split1 32 rest) as [[p0 q]|] eqn:E2; [|exists []; now rewrite app_nil_r]. apply split1_spec in E2 as [E2 _]. eauto. }
    destruct Hpre as [u Hu].
    assert (S1 : startswith (lit "http:") path = false). { destruct (startswith (lit "http:") path) eqn:E; [|reflexivity]. apply startswith_spec in E as (t & E). exfalso. destruct (C2 (t ++ u ++ drop_line b)) as [X _]. apply X. rewrite Hu, E, <- !app_assoc. reflexivity. }
    assert (S2 : startswith (lit "https:") path = false). { destruct (startswith (lit "https:") path) eqn:E; [|reflexivity]. apply startswith_spec in E as (t & E). exfalso. destruct (C2 (t ++ u ++ drop_line b)) as [_ X]. apply X. rewrite Hu, E, <- !app_assoc. reflexivity. }
    rewrite S1, S2. exact H.
  - intros x H. exact H.
  - intros b x H. exact H.
  - intros x t H E. congruence.
  - intros c ip ps H. apply Forall_forall. intros b Hb verb rest E Hv. exact (H b verb rest Hb E Hv).
  - exact HO.
  - split; constructor. }
destruct H as [H _]. rewrite Forall_forall in H. destruct (H _ Hin) as (_ & T & N). cbn [snd] in *. apply (value_none PROXY _ T); [now right|exact N].
Qed.

Lemma C105_stale_refuted_pf :
  exists ops1 ops2 r out,
  ops2 = [Make 0 (lit "b") 80 80 None; Put 1; Send 1 None [lit "GET /q HTTP/1.1" ++ crlf ++ crlf]; Respond 1 None; Got 1 (lit "HTTP/1.1 200 OK" ++ crlf ++ crlf); Done 1 ex_st]
  /\ Forall without_proxy ops2
  /\ fst (run 300 toy_hash toy_k (ops1 ++ ops2) (fresh [[]])) = map (fun _ => Ok tt) (ops1 ++ ops2)
  /\ map snd (wd_recs (snd (run 300 toy_hash toy_k (ops1 ++ ops2) (fresh [[]])))) = [r]
  /\ wd_outs (snd (run 300 toy_hash toy_k (ops1 ++ ops2) (fresh [[]]))) = [nth 0 (wd_outs (snd (run 300 toy_hash toy_k ops1 (fresh [[]])))) [] ++ out]
  /\ startswith (lit "WARC/1.0" ++ crlf ++ lit "WARC-Proxy-Host: http://proxy:8080" ++ crlf ++ lit "WARC-IP-Address: 10.0.0.1" ++ crlf) out = true
  /\ rd_url r = Some (lit "http://b/q").
Proof.
exists [Enter 0 (ex_cf false); Make 0 (lit "proxy") 8080 80 None; Put 0; Send 0 None [lit "GET http://a/p HTTP/1.1" ++ crlf ++ crlf]; Respond 0 (Some (lit "10.0.0.1")); Got 0 (lit "HTTP/1.1 200 OK" ++ crlf ++ crlf); Done 0 ex_st].
eexists _, _, _. split; [reflexivity|]. split.
{ assert (G : without_proxy (Send 1 None [lit "GET /q HTTP/1.1" ++ crlf ++ crlf])).
  { intros b verb rest [<-|[]] E Hv. pose proof (proj2 (split1_spec 32%N _ verb rest) (conj E Hv)) as X. vm_compute in X. injection X as <- <-. split; [discriminate|]. intros t. split; discriminate. }
  repeat (apply Forall_cons; [first [exact G|exact Logic.I|reflexivity]|]). apply Forall_nil. }
split; [vm_compute; reflexivity|]. split; [vm_compute; reflexivity|]. split; [vm_compute; reflexivity|]. split; vm_compute; reflexivity.
Qed.
