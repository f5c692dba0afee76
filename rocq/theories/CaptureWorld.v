(** * CaptureWorld: invariants of the world of Capture.v *)
From Coq Require Import String List ZArith NArith Bool Lia.
From Coq Require Import ZifyBool ZifyNat ZifyN.
From Verif Require Import PyBase Utf8 Facts Codecs Headers HeaderSpec HeaderProofs Streams StreamSpec StreamProofs Loader Writer WriterSpec WriterProofs
  RoundSpec RoundProofs Capture CaptureSpec CaptureProofs CapturePair.
Import ListNotations.
Open Scope Z_scope.

(** ** An invariant of recorders and connections *)
Section Inv.
  Context (fuel : nat) (sha1 : bytes -> bytes) (k : kenv).
  (** [PC] of configurations, [PR] of recorders, [PX] of connections; [PO] of operations *)
  Context (PC : config -> Prop) (PR : recorder -> Prop) (PX : conn -> Prop) (PO : op -> Prop).
  Definition holds (w : world) : Prop :=
    Forall (fun x => PC (fst x) /\ PR (snd x)) (wd_recs w) /\ Forall PX (wd_conns w).
  Hypothesis Hnew : PR new_recorder.
  Hypothesis Henter : forall t cf, PO (Enter t cf) -> PC cf.
  Hypothesis Hmake : forall t h p d tn j, PO (Make t h p d tn) -> PX (mk_cn h p d j false tn []).
  Hypothesis Hstep : forall cf o r x, PC cf -> PR r -> PX x -> PO o ->
    let '(_, _, (r', x')) := rstep fuel sha1 k cf o r x in PR r' /\ PX x'.
  Hypothesis Hplain : forall o x, PX x -> PO o -> PX (plain_step o x).

  Lemma Forall_set_nth {A} (P : A -> Prop) y : P y -> forall l n, Forall P l -> Forall P (set_nth n y l).
  Proof. intros Hy. induction l as [|a l IH]; intros [|n] H; cbn; inversion H; subst; constructor; auto. Qed.
  Lemma Forall_nth {A} (P : A -> Prop) l n y : Forall P l -> nth_error l n = Some y -> P y.
  Proof. intros H E. rewrite Forall_forall in H. apply H. eapply nth_error_In. exact E. Qed.

  Lemma holds_step o w : PO o -> holds w -> holds (snd (step fuel sha1 k o w)).
  Proof.
    intros Ho [H1 H2].
    assert (G : forall i X,
      X = (match nth_error (wd_conns w) i with
            | None => (Ok tt, w)
            | Some c =>
                match match cn_rec c with Some j => option_map (fun x => (j, x)) (nth_error (wd_recs w) j) | None => None end with
                | None => (Ok tt, mk_world (wd_recs w) (set_nth i (plain_step o c) (wd_conns w)) (wd_local w) (wd_outs w))
                | Some (j, (cf, r)) =>
                    let '(x, ws, (r, c)) := rstep fuel sha1 k cf o r c in
                    (x, mk_world (set_nth j (cf, r) (wd_recs w)) (set_nth i c (wd_conns w)) (wd_local w)
                          (set_nth (cf_writer cf) (nth (cf_writer cf) (wd_outs w) [] ++ List.concat ws) (wd_outs w)))
                end
            end) -> holds (snd X)).
    { intros i X ->. destruct (nth_error (wd_conns w) i) as [x|] eqn:Ex; [|now split].
      pose proof (Forall_nth _ _ _ _ H2 Ex) as Hx.
      assert (Np : holds (mk_world (wd_recs w) (set_nth i (plain_step o x) (wd_conns w)) (wd_local w) (wd_outs w))).
      { split; cbn; [exact H1|]. apply Forall_set_nth; [now apply Hplain|exact H2]. }
      destruct (cn_rec x) as [j|]; [|exact Np]. destruct (nth_error (wd_recs w) j) as [[cf r]|] eqn:Er; cbn [option_map]; [|exact Np].
      destruct (Forall_nth _ _ _ _ H1 Er) as [A B]. cbn in A, B. pose proof (Hstep cf o r x A B Hx Ho) as S.
      destruct (rstep fuel sha1 k cf o r x) as [[y ws] [r' x']]. destruct S as [S1 S2]. split; cbn; apply Forall_set_nth; auto. }
    unfold Capture.step. destruct o; try (apply (G _ _ eq_refl)).
    - split; cbn; [|exact H2]. apply Forall_app. split; [exact H1|]. constructor; [|constructor]. split; [eapply Henter; exact Ho|exact Hnew].
    - now split.
    - split; cbn; [exact H1|]. apply Forall_app. split; [exact H2|]. constructor; [|constructor]. eapply Hmake. exact Ho.
  Qed.
  Lemma holds_run ops : Forall PO ops -> forall w, holds w -> holds (snd (run fuel sha1 k ops w)).
  Proof.
    induction 1 as [|o ops Ho _ IH]; intros w Hw; [exact Hw|]. cbn [run]. pose proof (holds_step o w Ho Hw) as S.
    destruct (step fuel sha1 k o w) as [y w1]. specialize (IH w1 S). destruct (run fuel sha1 k ops w1). exact IH.
  Qed.
  Lemma holds_fresh outs : holds (fresh outs). Proof. split; constructor. Qed.
End Inv.

(** ** What done() does to a recorder *)
Lemma done_rd fuel sha1 k cf st r : snd (done fuel sha1 k cf st r) = r \/ snd (done fuel sha1 k cf st r) = rd_close r.
Proof.
  unfold done. destruct (negb (rd_started r)); [now left|]. destruct (negb (rd_live r)); [now left|].
  destruct (create_record _ _ _ _ _ _ _ _) as [rq|]; [|now right]. destruct (create_record _ _ _ _ _ _ _ _) as [rs|]; [|now right].
  destruct (match cf_filter cf with Some f => f rq rs | None => (Some rq, Some rs) end) as [[a|] [b|]]; try now right.
  destruct (write_pair _ _ _ _ _ _). now right.
Qed.

(** a property of recorders and connections kept by everything, if kept by the parts *)
Lemma rstep_keeps fuel sha1 k (PR : recorder -> Prop) (PX : conn -> Prop) (B : bytes -> Prop) cf o r x :
  (forall r, PR r -> PR (start r)) -> (forall r, PR r -> PR (start_tunnel r)) -> (forall r, PR r -> PR (rd_close r)) ->
  (forall q s r, PR r -> PR (rd_set_bufs q s r)) ->
  (forall r ip, PR r -> (match o with Open _ i | Respond _ i | Send _ i _ => i = ip | _ => False end) -> PR (set_remote_ip cf ip r)) ->
  (forall b r x, B b -> PR r -> PX x -> PR (snd (extract_url b (cn_host x) (cn_port x) (cn_default x) r))) ->
  (forall x, PX x -> PX (cn_opened x)) -> (forall b x, PX x -> PX (cn_put b x)) -> (forall x t, PX x -> cn_tunnel x = Some t -> B (connect_text t)) ->
  (forall c ip parts, o = Send c ip parts -> Forall B parts) -> PR r -> PX x ->
  let '(_, _, (r', x')) := rstep fuel sha1 k cf o r x in PR r' /\ PX x'.
Proof.
  intros Hst Htu Hcl Hbu Hip Hex Hop Hpu Hct Hpa Hr Hx.
  assert (WQ : forall b r, PR r -> PR (snd (write_request b r))).
  { intros b r0 H. unfold write_request. destruct (rd_started r0); [destruct (rd_live r0)|]; cbn; auto. }
  assert (WS : forall b r, PR r -> PR (snd (write_response b r))).
  { intros b r0 H. unfold write_response. destruct (rd_started r0); [destruct (rd_live r0)|]; cbn; auto. }
  assert (SO : forall b r x, B b -> PR r -> PX x -> let '(_, (r', x')) := send_open b (r, x) in PR r' /\ PX x').
  { intros b r0 x0 Hb H0 H1. unfold send_open. specialize (Hex b r0 x0 Hb H0 H1). destruct (extract_url _ _ _ _ _) as [[[]|e] r1]; [|now split].
    specialize (WQ b r1 Hex). destruct (write_request b r1). split; auto. }
  assert (CO : forall ip r x, (match o with Open _ i | Send _ i _ => i = ip | _ => False end) -> PR r -> PX x -> let '(_, (r', x')) := connect ip cf (r, x) in PR r' /\ PX x').
  { intros ip r0 x0 Ho H0 H1. unfold connect. destruct (cn_tunnel (cn_opened x0)) as [t|] eqn:Et; [|split; auto].
    specialize (SO (connect_text t) (start_tunnel r0) (cn_opened x0) (Hct _ _ H1 Et) (Htu _ H0) (Hop _ H1)).
    destruct (send_open _ _) as [[[]|e] [r1 x1]]; [|exact SO]. destruct SO as [S1 S2]. split; [|exact S2]. apply Hip; [exact S1|]. destruct o; try contradiction; exact Ho. }
  assert (S1 : forall ip b r x, (match o with Open _ i | Send _ i _ => i = ip | _ => False end) -> B b -> PR r -> PX x ->
    let '(_, (r', x')) := send1 ip cf b (r, x) in PR r' /\ PX x').
  { intros ip b r0 x0 Ho Hb H0 H1. unfold send1. destruct (cn_open x0); [now apply SO|]. specialize (Hex b r0 x0 Hb H0 H1).
    destruct (extract_url _ _ _ _ _) as [[[]|e] r1]; [|now split]. specialize (CO ip r1 x0 Ho Hex H1).
    destruct (connect ip cf (r1, x0)) as [[[]|e] [r2 x2]]; [|exact CO]. destruct CO as [C1 C2]. specialize (WQ b r2 C1). destruct (write_request b r2). split; auto. }
  assert (SE : forall ip ps r x, (match o with Open _ i | Send _ i _ => i = ip | _ => False end) -> Forall B ps -> PR r -> PX x ->
    let '(_, (r', x')) := send ip cf ps (r, x) in PR r' /\ PX x').
  { intros ip. induction ps as [|b t IH]; intros r0 x0 Ho Hb H0 H1; [now split|]. inversion Hb as [|b0 l0 Hb1 Hb2]. subst. cbn [send]. specialize (S1 ip b r0 x0 Ho Hb1 H0 H1).
    destruct (send1 ip cf b (r0, x0)) as [[[]|e] [r1 x1]]; [|exact S1]. destruct S1 as [A1 A2]. now apply IH. }
  destruct o; cbn [rstep]; try (split; auto; fail).
  - specialize (CO ip r x eq_refl Hr Hx). destruct (connect ip cf (r, x)) as [y [r1 x1]]. exact CO.
  - specialize (SE ip parts r x eq_refl (Hpa _ _ _ eq_refl) Hr Hx). destruct (send ip cf parts (r, x)) as [y [r1 x1]]. exact SE.
  - specialize (WS b r Hr). destruct (write_response b r). now split.
  - specialize (WS (b ++ dropZ (lenZ b) buf) r Hr). destruct (write_response _ r). now split.
  - pose proof (done_rd fuel sha1 k cf st r) as D. destruct (done _ _ _ _ _ _) as [[y ws] r']. cbn in D. destruct D as [-> | ->]; split; auto.
Qed.
Lemma plain_keeps (PX : conn -> Prop) o x : (forall x, PX x -> PX (cn_opened x)) -> (forall b x, PX x -> PX (cn_put b x)) -> PX x -> PX (plain_step o x).
Proof.
  intros Ho Hp Hx. assert (PC : PX (plain_connect x)). { unfold plain_connect. destruct (cn_tunnel (cn_opened x)); auto. }
  destruct o; cbn [plain_step]; auto. unfold plain_send. destruct parts as [|b t]; [exact Hx|]. apply Hp. now destruct (cn_open x).
Qed.

(** ** Texts *)
Definition otx (o : option str) : Prop := match o with Some a => scalar_text a | None => True end.
Definition tx_rec (r : recorder) : Prop := kept (rd_headers r) /\ otx (rd_url r) /\ otx (rd_chost r).
Definition tx_conn (x : conn) : Prop := scalar_text (cn_host x) /\ otx (option_map fst (cn_tunnel x)).
Definition tx_cf (cf : config) : Prop := wo_version (cf_opts cf) <> [] /\ scalar_text (wo_version (cf_opts cf)).

Lemma tx_dec n : scalar_text (str_of_Z n).
Proof.
  destruct (Z_lt_le_dec n 0) as [H|H]; [|now apply tx_value, digits_wf]. unfold str_of_Z. rewrite (proj2 (Z.ltb_lt n 0) H).
  intros c [<-|Hc]; [reflexivity|]. pose proof (digits_wf (- n) ltac:(lia)) as D. apply tx_value in D. unfold str_of_Z in D.
  destruct (- n <? 0) eqn:E; [lia|]. now apply D.
Qed.
Lemma kept_set n v d : n = lit "WARC-IP-Address" \/ n = lit "WARC-Proxy-Host" -> scalar_text v -> kept d -> kept (dict_set n v d).
Proof.
  intros Hn Hv. induction 1 as [|[m u] t [Hm Hu] Ht IH]; cbn [dict_set]; [constructor; [now split|constructor]|].
  destruct (leqb m n); constructor; try assumption; now split.
Qed.
Lemma tx_extract b h p d r : scalar_text b -> scalar_text h -> tx_rec r -> tx_rec (snd (extract_url b h p d r)).
Proof.
  intros Hb Hh (R1 & R2 & R3). unfold extract_url. destruct (rd_first r); [now split|].
  assert (L : scalar_text (take_line b)) by (intros c Hc; apply Hb; now apply In_take_line).
  destruct (split1 32 (take_line b)) as [[v rest]|] eqn:E1; [|now split].
  apply split1_spec in E1 as [E1 _]. set (path := match split1 32 rest with Some (p0, _) => p0 | None => rest end).
  assert (Hpath : scalar_text path).
  { assert (Hrest : scalar_text rest) by (intros c Hc; apply L; rewrite E1; apply in_or_app; right; now right).
    unfold path. destruct (split1 32 rest) as [[p0 q]|] eqn:E2; [|exact Hrest]. apply split1_spec in E2 as [E2 _]. intros c Hc. apply Hrest. rewrite E2. apply in_or_app. now left. }
  assert (Hw : forall a (hh : str) n, scalar_text (lit a) -> scalar_text hh -> scalar_text (lit a ++ hh ++ lit ":" ++ str_of_Z n)).
  { intros a hh n H1 H2. apply tx_app; [exact H1|]. apply tx_app; [exact H2|]. apply tx_app; [now apply tx_lit|apply tx_dec]. }
  destruct (leqb v (lit "CONNECT")).
  - destruct (split1 58 path) as [[h' p']|] eqn:E3.
    + apply split1_spec in E3 as [E3 _]. assert (Hh' : scalar_text h') by (intros c Hc; apply Hpath; rewrite E3; apply in_or_app; now left).
      destruct (py_int p'); cbn [snd].
      * split; [|now split]. apply kept_set; [now right| |exact R1]. apply Hw; [now apply tx_lit|exact Hh].
      * split; [exact R1|]. now split.
    + split; [|now split]. apply kept_set; [now right| |exact R1]. apply Hw; [now apply tx_lit|exact Hh].
  - cbn [rd_chost rd_set_first rd_cport].
    assert (He : scalar_text (match rd_chost r with Some ((_ :: _) as h0) => h0 | _ => h end)).
    { destruct (rd_chost r) as [[|y t]|]; [exact Hh|exact R3|exact Hh]. }
    destruct (_ || _).
    + split; [|split; [exact Hpath|exact R3]]. apply kept_set; [now right| |exact R1]. apply Hw; [now apply tx_lit|exact He].
    + split; [exact R1|]. split; [|exact R3]. cbn [otx rd_url rd_set_url]. apply tx_app; [destruct (d =? 443); now apply tx_lit|].
      apply tx_app; [now apply tx_lit|]. apply tx_app; [exact He|]. apply tx_app; [|exact Hpath]. match goal with |- context [if ?q then _ else _] => destruct q end; [intros c []|].
      apply tx_app; [now apply tx_lit|apply tx_dec].
Qed.
Lemma tx_ip cf ip r : otx ip -> tx_rec r -> tx_rec (set_remote_ip cf ip r).
Proof.
  intros Hi (R1 & R2 & R3). unfold set_remote_ip. destruct ip as [[|a t]|]; [now split| |now split]. destruct (cf_ip cf); [|now split].
  split; [|now split]. apply kept_set; [now left|exact Hi|exact R1].
Qed.

Definition tx_world (w : world) : Prop := holds tx_cf tx_rec tx_conn w.
Lemma tx_run fuel sha1 k ops w : Forall op_texts ops -> tx_world w -> tx_world (snd (run fuel sha1 k ops w)).
Proof.
  intros Ho. apply holds_run with (PO := op_texts); try exact Ho.
  - split; [constructor|]. now split.
  - intros t cf H. exact H.
  - intros t h p d tn j H. exact H.
  - intros cf o r x Hc Hr Hx Ho'. apply rstep_keeps with (B := scalar_text); try assumption.
    + intros r0 (R1 & R2 & R3). repeat split; try assumption.
    + intros r0 (R1 & R2 & R3). repeat split; try assumption.
    + intros r0 (R1 & R2 & R3). repeat split; try assumption.
    + intros q s r0 (R1 & R2 & R3). repeat split; try assumption.
    + intros r0 ip Hr0 Hi. apply tx_ip; [|exact Hr0]. destruct o; try contradiction; subst; cbn in Ho'; unfold otx; try exact Ho'. apply Ho'.
    + intros b r0 x0 Hb Hr0 [X1 X2]. now apply tx_extract.
    + intros x0 [X1 X2]. now split.
    + intros b x0 [X1 X2]. now split.
    + intros x0 t [X1 X2] Et. rewrite Et in X2. cbn in X2. unfold connect_text. apply tx_app; [now apply tx_lit|]. apply tx_app; [exact X2|]. apply tx_app; [now apply tx_lit|]. apply tx_app; [apply tx_dec|].
      intros c Hin. vm_compute in Hin. intuition (subst; reflexivity).
    + intros c ip ps ->. cbn in Ho'. destruct Ho' as [_ Ho']. eapply Forall_impl; [|exact Ho']. intros b Hb c0 Hc0. rewrite Forall_forall in Hb. specialize (Hb c0 Hc0). unfold is_scalar, is_surrogate. lia.
  - intros o x Hx _. apply plain_keeps; [..|exact Hx]; intros; destruct H; now split.
Qed.

(** ** No tunnels *)
Definition direct_rec (r : recorder) : Prop := rd_chost r = None /\ rd_cport r = None.
Definition direct_conn (x : conn) : Prop := cn_tunnel x = None.
Definition direct_world (w : world) : Prop := holds (fun _ => True) direct_rec direct_conn w.
Lemma direct_run fuel sha1 k ops w : Forall no_tunnel ops -> direct_world w -> direct_world (snd (run fuel sha1 k ops w)).
Proof.
  intros Ho. apply holds_run with (PO := no_tunnel); try exact Ho.
  - now split.
  - auto.
  - intros t h p d tn j H. exact H.
  - intros cf o r x Hc Hr Hx Ho'. apply rstep_keeps with (B := fun b => forall t, b <> lit "CONNECT " ++ t); try assumption.
    + intros r0 [R1 R2]. now split.
    + intros r0 [R1 R2]. now split.
    + intros r0 [R1 R2]. now split.
    + intros q s r0 [R1 R2]. now split.
    + intros r0 ip [R1 R2] _. unfold set_remote_ip. destruct ip as [[|a t]|]; [now split| |now split]. destruct (cf_ip cf); now split.
    + intros b r0 x0 Hb [R1 R2] _. unfold extract_url. destruct (rd_first r0); [now split|].
      destruct (split1 32 (take_line b)) as [[v rest]|] eqn:E1; [|now split].
      destruct (leqb v (lit "CONNECT")) eqn:Ev; [|destruct (_ || _); now split]. exfalso. apply leqb_eq in Ev. subst v.
      apply split1_spec in E1 as [E1 _]. apply (Hb (rest ++ drop_line b)). rewrite <- (take_drop_line b) at 1. rewrite E1. rewrite <- app_assoc. reflexivity.
    + auto.
    + auto.
    + intros x0 t Hx0 Et. unfold direct_conn in Hx0. congruence.
    + intros c ip ps ->. cbn in Ho'. apply Forall_forall. intros b Hb t. exact (Ho' b t Hb).
  - intros o x Hx _. apply plain_keeps; [..|exact Hx]; auto.
Qed.

(** ** The URL *)
Lemma the_url_http r h p d path : is_http_uri (the_url r h p d path) = true.
Proof.
  unfold is_http_uri, the_url. destruct (startswith (lit "http:") path || startswith (lit "https:") path) eqn:E; [exact E|].
  unfold plain_url. destruct (d =? 443); reflexivity.
Qed.

(** ** Which recorder a new connection gets *)
Lemma local_active fuel sha1 k t : forall ops w depth st,
  unnested depth ops -> local_of t (wd_local w) = hd_error st -> (List.length st <= depth t)%nat -> (depth t <= 1)%nat ->
  local_of t (wd_local (snd (run fuel sha1 k ops w))) = hd_error (active t (List.length (wd_recs w)) ops st).
Proof.
  induction ops as [|o ops IH]; intros w depth st Hu Hl Hd H1; [exact Hl|]. cbn [run].
  assert (L : forall o, (forall t' cf, o <> Enter t' cf) -> wd_local (snd (step fuel sha1 k o w)) = (match o with Exit t' => (t', None) :: wd_local w | _ => wd_local w end)
    /\ List.length (wd_recs (snd (step fuel sha1 k o w))) = List.length (wd_recs w)).
  { intros o0 Hn. unfold step. destruct o0; try (now cbn); [now destruct (Hn t0 cf)|..]; cbn [conn_of];
      (destruct (nth_error (wd_conns w) c) as [y|]; [|now cbn]);
      (destruct (match cn_rec y with Some j => option_map (fun x => (j, x)) (nth_error (wd_recs w) j) | None => None end) as [[j [cf0 r0]]|]; [|now cbn]);
      destruct (rstep _ _ _ _ _ _ _) as [[? ?] [? ?]]; cbn; now rewrite set_nth_length. }
  destruct o as [t' cf|t'|t' h p d tn|c ip|c|c ip parts|c ip|c b|c buf b|c st0]; cbn [unnested active] in *.
  { destruct Hu as [Hz Hu]. cbn [step]. match goal with |- context [run _ _ _ ops ?w1] => specialize (IH w1) end.
    destruct (run fuel sha1 k ops _) as [xs w2]. cbn [snd wd_recs] in *. rewrite app_length in IH. cbn [List.length] in IH. rewrite Nat.add_comm in IH. cbn [Nat.add] in IH.
    eapply IH; [exact Hu|..]; cbn [wd_local local_of]; destruct (Nat.eqb t' t) eqn:E; cbn; try assumption; try reflexivity.
    apply Nat.eqb_eq in E. subst t'. rewrite Hz in Hd. lia. }
  { specialize (IH (snd (step fuel sha1 k (Exit t') w)) (fun x => if Nat.eqb t' x then 0%nat else depth x) (if Nat.eqb t' t then tl st else st) Hu).
    destruct (L (Exit t')) as [L1 L2]; [discriminate|]. destruct (step fuel sha1 k (Exit t') w) as [y w1]. cbn [snd] in *.
    destruct (run fuel sha1 k ops w1) as [xs w2]. cbn [snd] in *. rewrite L2 in IH. apply IH.
    - rewrite L1. cbn [local_of]. destruct (Nat.eqb t' t) eqn:E; [|exact Hl]. destruct st as [|a [|b st]]; cbn in *; try reflexivity. lia.
    - destruct (Nat.eqb t' t); [|exact Hd]. destruct st; cbn in *; lia.
    - destruct (Nat.eqb t' t); lia. }
  all: match goal with |- context [step ?f ?s ?kk ?o ?ww] => destruct (L o) as [L1 L2]; [discriminate|]; specialize (IH (snd (step f s kk o ww)) depth st Hu); destruct (step f s kk o ww) as [y w1] end;
    cbn [snd] in *; destruct (run fuel sha1 k ops w1) as [xs w2]; cbn [snd] in *; rewrite L2 in IH; apply IH; [rewrite L1; exact Hl|exact Hd|exact H1].
Qed.
