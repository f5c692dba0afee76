(** * CaptureProofs: lemmas about Capture.v *)
From Coq Require Import String List ZArith NArith Bool Lia.
From Coq Require Import ZifyBool ZifyNat ZifyN.
From Verif Require Import PyBase Utf8 Facts Codecs Headers HeaderSpec HeaderProofs Streams StreamSpec StreamProofs Loader Writer WriterSpec WriterProofs
  RoundSpec RoundProofs Capture CaptureSpec.
Import ListNotations.
Open Scope Z_scope.

(** ** set_nth *)
Lemma set_nth_length {A} (x : A) : forall l n, List.length (set_nth n x l) = List.length l.
Proof. induction l as [|a l IH]; intros [|n]; cbn; auto. Qed.
Lemma set_nth_same {A} (x y : A) : forall l n, nth_error l n = Some y -> nth_error (set_nth n x l) n = Some x.
Proof. induction l as [|a l IH]; intros [|n]; cbn; try discriminate; auto. Qed.
Lemma set_nth_other {A} (x : A) : forall l n m, n <> m -> nth_error (set_nth n x l) m = nth_error l m.
Proof. induction l as [|a l IH]; intros [|n] [|m] H; cbn; try reflexivity; [congruence|apply IH; congruence]. Qed.
Lemma set_nth_nth {A} (d x : A) : forall l n m, nth m (set_nth n x l) d = if Nat.eqb n m && Nat.ltb n (List.length l) then x else nth m l d.
Proof.
  induction l as [|a l IH]; intros [|n] [|m]; cbn; try reflexivity; [now destruct (Nat.eqb n m)|]. rewrite IH. reflexivity.
Qed.

Lemma In_take_line c : forall b, In c (take_line b) -> In c b.
Proof. intros b H. rewrite <- (take_drop_line b). apply in_or_app. now left. Qed.

(** ** extract_url *)
Definition same_bufs (r r' : recorder) : Prop :=
  rd_req r' = rd_req r /\ rd_resp r' = rd_resp r /\ rd_live r' = rd_live r /\ rd_started r' = rd_started r.
Lemma same_bufs_refl r : same_bufs r r. Proof. repeat split. Qed.

Lemma extract_keeps b h p d r : same_bufs r (snd (extract_url b h p d r)).
Proof.
  unfold extract_url. destruct (rd_first r); [apply same_bufs_refl|]. destruct (split1 32 (take_line b)) as [[v rest]|]; [|repeat split].
  destruct (leqb v (lit "CONNECT")).
  - destruct (split1 58 _) as [[h' p']|]; [destruct (py_int p')|]; repeat split.
  - destruct (_ || _); repeat split.
Qed.
Lemma extract_first b h p d r : rd_first (snd (extract_url b h p d r)) = true.
Proof.
  unfold extract_url. destruct (rd_first r) eqn:E; [exact E|]. destruct (split1 32 (take_line b)) as [[v rest]|]; [|reflexivity].
  destruct (leqb v (lit "CONNECT")).
  - destruct (split1 58 _) as [[h' p']|]; [destruct (py_int p')|]; reflexivity.
  - destruct (_ || _); reflexivity.
Qed.
Lemma extract_again b h p d r : rd_first r = true -> extract_url b h p d r = (Ok tt, r).
Proof. intros H. unfold extract_url. now rewrite H. Qed.

(** host and port a request is for *)
Definition eff_host (r : recorder) (host : str) : str := match rd_chost r with Some ((_ :: _) as h) => h | _ => host end.
Definition eff_port (r : recorder) (port : Z) : Z := match rd_cport r with Some n => if n =? 0 then port else n | None => port end.
Definition plain_url (host : str) (port d : Z) (path : str) : str :=
  (if d =? 443 then lit "https" else lit "http") ++ lit "://" ++ host ++ (if port =? d then [] else lit ":" ++ str_of_Z port) ++ path.
Definition the_url (r : recorder) (host : str) (port d : Z) (path : str) : str :=
  if startswith (lit "http:") path || startswith (lit "https:") path then path
  else plain_url (eff_host r host) (eff_port r port) d path.

Lemma request_split b verb path : request_line b verb path ->
  exists rest, split1 32 (take_line b) = Some (verb, rest) /\ match split1 32 rest with Some (p, _) => p | None => rest end = path.
Proof.
  intros (H1 & H2 & H3 & H4 & rest & ->).
  assert (T : take_line (verb ++ [32%N] ++ path ++ [32%N] ++ rest) = verb ++ 32%N :: path ++ 32%N :: take_line rest).
  { assert (A : forall l m, ~ In LF l -> take_line (l ++ m) = l ++ take_line m).
    { induction l as [|x l IH]; intros m Hl; [reflexivity|]. cbn. destruct (N.eqb x LF) eqn:E; [exfalso; apply Hl; left; lia|]. rewrite IH by (intros X; apply Hl; now right). reflexivity. }
    rewrite A by assumption. change ([32%N] ++ path ++ [32%N] ++ rest) with (([32%N] ++ path ++ [32%N]) ++ rest) at 1 || idtac.
    rewrite (A [32%N]) by (intros [X|[]]; discriminate). rewrite A by assumption. rewrite (A [32%N]) by (intros [X|[]]; discriminate). reflexivity. }
  exists (path ++ 32%N :: take_line rest). rewrite T. split; [apply split1_spec; auto|].
  rewrite (proj2 (split1_spec 32 (path ++ 32%N :: take_line rest) path (take_line rest))); auto.
Qed.

Lemma extract_request b verb path h p d r : rd_first r = false -> request_line b verb path -> verb <> lit "CONNECT" ->
  exists r', extract_url b h p d r = (Ok tt, r') /\ rd_url r' = Some (the_url r h p d path) /\ rd_chost r' = rd_chost r /\ rd_cport r' = rd_cport r.
Proof.
  intros Hf Hr Hv. destruct (request_split b verb path Hr) as (rest & E1 & E2). unfold extract_url. rewrite Hf, E1, E2.
  destruct (leqb verb (lit "CONNECT")) eqn:E; [apply leqb_eq in E; contradiction|].
  unfold the_url. destruct (_ || _).
  - eexists. split; [reflexivity|]. repeat split.
  - eexists. split; [reflexivity|]. cbn. unfold plain_url, eff_host, eff_port. cbn. repeat split.
Qed.

(** ** One operation of the connection during an exchange *)
Lemma set_ip_keeps cf ip r : same_bufs r (set_remote_ip cf ip r) /\ rd_first (set_remote_ip cf ip r) = rd_first r
  /\ rd_url (set_remote_ip cf ip r) = rd_url r /\ rd_chost (set_remote_ip cf ip r) = rd_chost r /\ rd_cport (set_remote_ip cf ip r) = rd_cport r.
Proof. unfold set_remote_ip. destruct ip as [[|a t]|]; [repeat split| |repeat split]. destruct (cf_ip cf); repeat split. Qed.

Definition ready (x : conn) : Prop := cn_open x = true \/ cn_tunnel x = None.
Definition on (r : recorder) : Prop := rd_started r = true /\ rd_live r = true.
Definition fixed_conn (x x' : conn) : Prop :=
  cn_rec x' = cn_rec x /\ cn_host x' = cn_host x /\ cn_port x' = cn_port x /\ cn_default x' = cn_default x /\ cn_tunnel x' = cn_tunnel x.

(** one part; [first]: has no part been sent before *)
Lemma send1_on ip cf b r x : on r -> ready x ->
  exists y r' x' s, send1 ip cf b (r, x) = (y, (r', x')) /\ on r' /\ ready x' /\ fixed_conn x x'
    /\ rd_req r' = rd_req r ++ s /\ cn_wire x' = cn_wire x ++ s /\ rd_resp r' = rd_resp r
    /\ (y = Ok tt -> s = b)
    /\ (rd_first r = true -> y = Ok tt /\ rd_first r' = true /\ rd_url r' = rd_url r /\ rd_chost r' = rd_chost r /\ rd_cport r' = rd_cport r)
    /\ (forall verb path, rd_first r = false -> request_line b verb path -> verb <> lit "CONNECT" ->
        y = Ok tt /\ rd_first r' = true /\ rd_url r' = Some (the_url r (cn_host x) (cn_port x) (cn_default x) path)
        /\ rd_chost r' = rd_chost r /\ rd_cport r' = rd_cport r).
Proof.
  intros [Hs Hl] Hr.
  pose proof (extract_keeps b (cn_host x) (cn_port x) (cn_default x) r) as K. pose proof (extract_first b (cn_host x) (cn_port x) (cn_default x) r) as F.
  pose proof (extract_again b (cn_host x) (cn_port x) (cn_default x) r) as A.
  pose proof (fun verb path => extract_request b verb path (cn_host x) (cn_port x) (cn_default x) r) as U.
  destruct (extract_url b (cn_host x) (cn_port x) (cn_default x) r) as [y r1] eqn:E. cbn [snd] in K, F. destruct K as (K1 & K2 & K3 & K4).
  assert (G : forall x1, fixed_conn x x1 -> ready x1 -> cn_wire x1 = cn_wire x -> y = Ok tt ->
    exists y r' x' s, (let (z, r2) := write_request b r1 in (z, (r2, cn_put b x1))) = (y, (r', x')) /\ on r' /\ ready x' /\ fixed_conn x x'
      /\ rd_req r' = rd_req r ++ s /\ cn_wire x' = cn_wire x ++ s /\ rd_resp r' = rd_resp r
      /\ (y = Ok tt -> s = b)
      /\ (rd_first r = true -> y = Ok tt /\ rd_first r' = true /\ rd_url r' = rd_url r /\ rd_chost r' = rd_chost r /\ rd_cport r' = rd_cport r)
      /\ (forall verb path, rd_first r = false -> request_line b verb path -> verb <> lit "CONNECT" ->
          y = Ok tt /\ rd_first r' = true /\ rd_url r' = Some (the_url r (cn_host x) (cn_port x) (cn_default x) path)
          /\ rd_chost r' = rd_chost r /\ rd_cport r' = rd_cport r)).
  { intros x1 Hx1 Hr1 Hw Hy. unfold write_request. rewrite K4, Hs, K3, Hl. eexists _, _, _, b. split; [reflexivity|].
    split; [split; cbn; congruence|]. split; [exact Hr1|]. split; [exact Hx1|]. cbn. rewrite K1, K2, Hw. split; [reflexivity|]. split; [reflexivity|]. split; [reflexivity|].
    split; [reflexivity|]. split.
    - intros Hf. specialize (A Hf). injection A as _ ->. auto.
    - intros verb path Hf Hq Hv. destruct (U verb path Hf Hq Hv) as (r' & E' & E1 & E2 & E3). injection E' as _ <-. auto. }
  assert (Bad : forall e, y = Err e -> exists y0 r' x' s, (Err e, (r1, x)) = (y0, (r', x')) /\ on r' /\ ready x' /\ fixed_conn x x'
      /\ rd_req r' = rd_req r ++ s /\ cn_wire x' = cn_wire x ++ s /\ rd_resp r' = rd_resp r
      /\ (y0 = Ok tt -> s = b)
      /\ (rd_first r = true -> y0 = Ok tt /\ rd_first r' = true /\ rd_url r' = rd_url r /\ rd_chost r' = rd_chost r /\ rd_cport r' = rd_cport r)
      /\ (forall verb path, rd_first r = false -> request_line b verb path -> verb <> lit "CONNECT" ->
          y0 = Ok tt /\ rd_first r' = true /\ rd_url r' = Some (the_url r (cn_host x) (cn_port x) (cn_default x) path)
          /\ rd_chost r' = rd_chost r /\ rd_cport r' = rd_cport r)).
  { intros e ->. eexists _, _, _, []. split; [reflexivity|]. split; [split; congruence|]. split; [exact Hr|]. split; [repeat split|].
    rewrite !app_nil_r. split; [exact K1|]. split; [reflexivity|]. split; [exact K2|]. split; [discriminate|]. split.
    - intros Hf. specialize (A Hf). discriminate.
    - intros verb path Hf Hq Hv. destruct (U verb path Hf Hq Hv) as (r' & E' & _). discriminate. }
  unfold send1. destruct (cn_open x) eqn:Eo.
  - unfold send_open. rewrite E. destruct y as [[]|e]; [|now apply Bad]. apply G; trivial. repeat split.
  - rewrite E. destruct y as [[]|e]; [|now apply Bad]. unfold connect. destruct Hr as [Hr|Hr]; [congruence|]. cbn [cn_tunnel cn_opened]. rewrite Hr.
    apply G; [repeat split|left; reflexivity|reflexivity|reflexivity].
Qed.

(** the first of the parts is a request line, or some were sent before *)
Definition line_ok (r : recorder) (ps : list bytes) : Prop :=
  rd_first r = true \/ match ps with [] => True | b :: _ => exists verb path, request_line b verb path /\ verb <> lit "CONNECT" end.

Lemma send_on ip cf : forall ps r x, on r -> ready x ->
  exists y r' x' s, send ip cf ps (r, x) = (y, (r', x')) /\ on r' /\ ready x' /\ fixed_conn x x'
    /\ rd_req r' = rd_req r ++ s /\ cn_wire x' = cn_wire x ++ s /\ rd_resp r' = rd_resp r
    /\ (y = Ok tt -> s = concat ps)
    /\ (line_ok r ps -> y = Ok tt /\ rd_chost r' = rd_chost r /\ rd_cport r' = rd_cport r
        /\ (ps = [] -> rd_first r' = rd_first r /\ rd_url r' = rd_url r) /\ (rd_first r = true -> rd_first r' = true /\ rd_url r' = rd_url r)
        /\ (forall b t verb path, ps = b :: t -> rd_first r = false -> request_line b verb path -> verb <> lit "CONNECT" ->
             rd_first r' = true /\ rd_url r' = Some (the_url r (cn_host x) (cn_port x) (cn_default x) path))).
Proof.
  induction ps as [|b t IH]; intros r x Hon Hr.
  - exists (Ok tt), r, x, []. split; [reflexivity|]. rewrite !app_nil_r. do 2 (split; [assumption|]). split; [repeat split|]. do 4 (split; [reflexivity|]).
    intros _. split; [reflexivity|]. split; [reflexivity|]. split; [reflexivity|]. split; [auto|]. split; [auto|]. intros ? ? ? ? [=].
  - destruct (send1_on ip cf b r x Hon Hr) as (y & r1 & x1 & s1 & E & Hon1 & Hr1 & (X1 & X2 & X3 & X4 & X5) & Q1 & W1 & P1 & Y1 & F1 & U1).
    cbn [send]. rewrite E. destruct y as [[]|e].
    + destruct (IH r1 x1 Hon1 Hr1) as (y & r2 & x2 & s2 & E2 & Hon2 & Hr2 & (Z1 & Z2 & Z3 & Z4 & Z5) & Q2 & W2 & P2 & Y2 & U2).
      rewrite E2. exists y, r2, x2, (s1 ++ s2). split; [reflexivity|]. split; [exact Hon2|]. split; [exact Hr2|]. split; [repeat split; congruence|].
      rewrite Q2, Q1, W2, W1, P2, P1, <- !app_assoc. split; [reflexivity|]. split; [reflexivity|]. split; [reflexivity|]. split.
      { intros Hy. cbn [concat]. rewrite (Y1 eq_refl), (Y2 Hy). reflexivity. }
      intros Hlo.
      assert (S1 : rd_first r1 = true /\ rd_chost r1 = rd_chost r /\ rd_cport r1 = rd_cport r /\ (rd_first r = true -> rd_url r1 = rd_url r)
        /\ (forall verb path, rd_first r = false -> request_line b verb path -> verb <> lit "CONNECT" ->
            rd_url r1 = Some (the_url r (cn_host x) (cn_port x) (cn_default x) path))).
      { destruct (rd_first r) eqn:Ef.
        - destruct (F1 eq_refl) as (_ & A & B & C & D). split; [exact A|]. split; [exact C|]. split; [exact D|]. split; [auto|discriminate].
        - destruct Hlo as [X|X]; [congruence|]. destruct X as (verb & path & Hq & Hv). destruct (U1 verb path eq_refl Hq Hv) as (_ & A & B & C & D).
          split; [exact A|]. split; [exact C|]. split; [exact D|]. split; [discriminate|]. intros v p _ Hq' Hv'. now destruct (U1 v p eq_refl Hq' Hv') as (_ & _ & B' & _). }
      destruct S1 as (A1 & A2 & A3 & A4 & A5).
      destruct (U2 (or_introl A1)) as (B1 & B2 & B3 & _ & B4 & _). destruct (B4 A1) as [B5 B6].
      split; [exact B1|]. split; [congruence|]. split; [congruence|]. split; [discriminate|]. split; [intros Hf; split; [exact B5|rewrite B6; auto]|].
      intros b' t' verb path [= <- <-] Hf Hq Hv. split; [exact B5|]. rewrite B6. eauto.
    + exists (Err e), r1, x1, s1. split; [reflexivity|]. do 2 (split; [assumption|]). split; [repeat split; assumption|]. do 3 (split; [assumption|]). split; [discriminate|].
      intros Hlo. exfalso. destruct (rd_first r) eqn:Ef; [destruct (F1 eq_refl) as [X _]; discriminate|].
      destruct Hlo as [X|(verb & path & Hq & Hv)]; [congruence|]. destruct (U1 verb path eq_refl Hq Hv) as [Y _]. discriminate.
Qed.

(** any operation during an exchange *)
Lemma rstep_on fuel sha1 k c cf o r x : conn_of o = Some c -> traffic o -> on r -> ready x ->
  exists y r' x' s, rstep fuel sha1 k cf o r x = (y, [], (r', x')) /\ on r' /\ ready x' /\ fixed_conn x x'
    /\ rd_req r' = rd_req r ++ s /\ cn_wire x' = cn_wire x ++ s /\ rd_resp r' = rd_resp r ++ got1 c o
    /\ (y = Ok tt -> s = sent1 c o)
    /\ (line_ok r (parts1 c o) -> y = Ok tt /\ rd_chost r' = rd_chost r /\ rd_cport r' = rd_cport r
        /\ (parts1 c o = [] -> rd_first r' = rd_first r /\ rd_url r' = rd_url r) /\ (rd_first r = true -> rd_first r' = true /\ rd_url r' = rd_url r)
        /\ (forall b t verb path, parts1 c o = b :: t -> rd_first r = false -> request_line b verb path -> verb <> lit "CONNECT" ->
             rd_first r' = true /\ rd_url r' = Some (the_url r (cn_host x) (cn_port x) (cn_default x) path))).
Proof.
  intros Hc Ht Hon Hr. pose proof Hon as [Hs Hl]. destruct o; cbn in Ht; try contradiction; cbn in Hc; injection Hc as ->.
  - destruct (send_on ip cf parts r x Hon Hr) as (y & r' & x' & s & E & H1 & H2 & H3 & H4 & H5 & H6 & H7 & H8).
    exists y, r', x', s. cbn [rstep]. rewrite E. split; [reflexivity|]. cbn [sent1 got1 parts1]. rewrite Nat.eqb_refl, app_nil_r. auto 10.
  - destruct (set_ip_keeps cf ip r) as ((A1 & A2 & A3 & A4) & A5 & A6 & A7 & A8). eexists _, _, _, []. split; [reflexivity|].
    split; [split; congruence|]. split; [exact Hr|]. split; [repeat split|]. cbn [sent1 got1 parts1]. rewrite !app_nil_r. do 3 (split; [auto; fail|]). split; [reflexivity|].
    intros _. do 3 (split; [auto; fail|]). split; [auto|]. split; [|discriminate]. intros X. split; congruence.
  - cbn [rstep]. unfold write_response. rewrite Hs, Hl. eexists _, _, _, []. split; [reflexivity|]. split; [split; assumption|]. split; [exact Hr|]. split; [repeat split|].
    cbn [sent1 got1 parts1 rd_set_bufs rd_req rd_resp rd_chost rd_cport rd_first rd_url]. rewrite Nat.eqb_refl, !app_nil_r. do 4 (split; [reflexivity|]).
    intros _. split; [reflexivity|]. split; [reflexivity|]. split; [reflexivity|]. split; [auto|]. split; [auto|]. discriminate.
  - cbn [rstep]. unfold write_response. rewrite Hs, Hl. eexists _, _, _, []. split; [reflexivity|]. split; [split; assumption|]. split; [exact Hr|]. split; [repeat split|].
    cbn [sent1 got1 parts1 rd_set_bufs rd_req rd_resp rd_chost rd_cport rd_first rd_url]. rewrite Nat.eqb_refl, !app_nil_r.
    rewrite Ht, dropZ_all, app_nil_r by lia. do 4 (split; [reflexivity|]).
    intros _. split; [reflexivity|]. split; [reflexivity|]. split; [reflexivity|]. split; [auto|]. split; [auto|]. discriminate.
Qed.

(** ** The world *)
Section World.
  Context (fuel : nat) (sha1 : bytes -> bytes) (k : kenv).
  Local Notation step := (step fuel sha1 k).
  Local Notation run := (run fuel sha1 k).

  Lemma rstep_rec cf o r x : cn_rec (snd (snd (rstep fuel sha1 k cf o r x))) = cn_rec x.
  Proof.
    assert (SO : forall b r x, cn_rec (snd (snd (send_open b (r, x)))) = cn_rec x).
    { intros b r0 x0. unfold send_open. destruct (extract_url _ _ _ _ _) as [[[]|e] r1]; [|reflexivity]. now destruct (write_request b r1). }
    assert (CO : forall ip r x, cn_rec (snd (snd (connect ip cf (r, x)))) = cn_rec x).
    { intros ip r0 x0. unfold connect. destruct (cn_tunnel (cn_opened x0)); [|reflexivity]. specialize (SO (connect_text p) (start_tunnel r0) (cn_opened x0)).
      destruct (send_open _ _) as [[[]|e] [r1 x1]]; exact SO. }
    assert (S1 : forall ip b r x, cn_rec (snd (snd (send1 ip cf b (r, x)))) = cn_rec x).
    { intros ip b r0 x0. unfold send1. destruct (cn_open x0); [apply SO|]. destruct (extract_url _ _ _ _ _) as [[[]|e] r1]; [|reflexivity].
      specialize (CO ip r1 x0). destruct (connect ip cf (r1, x0)) as [[[]|e] [r2 x2]]; [|exact CO]. destruct (write_request b r2). exact CO. }
    assert (SE : forall ip ps r x, cn_rec (snd (snd (send ip cf ps (r, x)))) = cn_rec x).
    { intros ip. induction ps as [|b t IH]; intros r0 x0; [reflexivity|]. cbn [send]. specialize (S1 ip b r0 x0).
      destruct (send1 ip cf b (r0, x0)) as [[[]|e] [r1 x1]]; [|exact S1]. rewrite IH. exact S1. }
    destruct o; cbn [rstep]; try reflexivity.
    - specialize (CO ip r x). destruct (connect ip cf (r, x)). exact CO.
    - specialize (SE ip parts r x). destruct (send ip cf parts (r, x)). exact SE.
    - now destruct (write_response b r).
    - now destruct (write_response _ r).
    - destruct (done _ _ _ _ _ _) as [[y ws] r']. reflexivity.
  Qed.

  (** an operation of another connection *)
  Lemma step_foreign o w c j x cf r : recorded_by w c j x cf r ->
    conn_of o <> Some c -> (forall i y, conn_of o = Some i -> i <> c -> nth_error (wd_conns w) i = Some y -> cn_rec y <> Some j) ->
    recorded_by (snd (step o w)) c j x cf r.
  Proof.
    intros (H1 & H2 & H3) Hc Ho.
    assert (G : forall i, conn_of o = Some i -> forall X, 
      X = (match nth_error (wd_conns w) i with
            | None => (Ok tt, w)
            | Some c =>
                match match cn_rec c with Some j => option_map (fun x => (j, x)) (nth_error (wd_recs w) j) | None => None end with
                | None => (Ok tt, mk_world (wd_recs w) (set_nth i (plain_step o c) (wd_conns w)) (wd_local w) (wd_outs w))
                | Some (j, (cf, r)) =>
                    let '(x, ws, (r, c)) := rstep fuel sha1 k cf o r c in
                    (x, mk_world (set_nth j (cf, r) (wd_recs w)) (set_nth i c (wd_conns w)) (wd_local w)
                          (set_nth (cf_writer cf) (nth (cf_writer cf) (wd_outs w) [] ++ List.concat ws) (wd_outs w)))
                end
            end) -> recorded_by (snd X) c j x cf r).
    { intros i Hi X ->. assert (Hne : i <> c) by congruence. destruct (nth_error (wd_conns w) i) as [y|] eqn:Ey; [|repeat split; assumption].
      specialize (Ho i y Hi Hne Ey). destruct (cn_rec y) as [j'|] eqn:Ej.
      - destruct (nth_error (wd_recs w) j') as [[cf' r']|] eqn:Er; cbn [option_map].
        + destruct (rstep fuel sha1 k cf' o r' y) as [[z ws] [r2 y2]]. cbn. split; [cbn; now rewrite set_nth_other|]. split; [exact H2|]. cbn. rewrite set_nth_other by congruence. exact H3.
        + split; [cbn; now rewrite set_nth_other|]. now split.
      - split; [cbn; now rewrite set_nth_other|]. now split. }
    unfold Capture.step. destruct o; try (apply (G _ eq_refl _ eq_refl)).
    - split; [exact H1|]. split; [exact H2|]. cbn. rewrite nth_error_app1; [exact H3|]. apply nth_error_Some. congruence.
    - now split.
    - split; [|now split]. cbn. rewrite nth_error_app1; [exact H1|]. apply nth_error_Some. congruence.
  Qed.

  (** an operation of the connection *)
  Lemma step_own o w c j x cf r : recorded_by w c j x cf r -> conn_of o = Some c ->
    exists y ws r' x', rstep fuel sha1 k cf o r x = (y, ws, (r', x')) /\ fst (step o w) = y
      /\ recorded_by (snd (step o w)) c j x' cf r'
      /\ wd_outs (snd (step o w)) = set_nth (cf_writer cf) (nth (cf_writer cf) (wd_outs w) [] ++ concat ws) (wd_outs w).
  Proof.
    intros (H1 & H2 & H3) Hc. pose proof (rstep_rec cf o r x) as Hrec.
    destruct (rstep fuel sha1 k cf o r x) as [[y ws] [r' x']] eqn:E. exists y, ws, r', x'. split; [reflexivity|].
    assert (G : step o w = (y, mk_world (set_nth j (cf, r') (wd_recs w)) (set_nth c x' (wd_conns w)) (wd_local w)
                          (set_nth (cf_writer cf) (nth (cf_writer cf) (wd_outs w) [] ++ List.concat ws) (wd_outs w)))).
    { unfold Capture.step. destruct o; cbn in Hc; try discriminate; injection Hc as ->; cbn [conn_of]; rewrite H1, H2, H3; cbn [option_map]; rewrite E; reflexivity. }
    rewrite G. cbn. split; [reflexivity|]. split; [|reflexivity]. split; [cbn; eapply set_nth_same; eassumption|].
    split; [cbn in Hrec; congruence|]. cbn. eapply set_nth_same; eassumption.
  Qed.

  Lemma run_app a : forall b w, run (a ++ b) w = (let (xs, w1) := run a w in let (ys, w2) := run b w1 in (xs ++ ys, w2)).
  Proof.
    induction a as [|o a IH]; intros b w; [cbn; now destruct (run b w)|]. cbn [app Capture.run]. destruct (step o w) as [y w1]. rewrite IH.
    destruct (run a w1) as [xs w2]. destruct (run b w2). reflexivity.
  Qed.

  (** ** An exchange *)
  Lemma exchange c j cf : forall ops w r x,
    recorded_by w c j x cf r -> on r -> ready x -> undisturbed fuel sha1 k c j ops w ->
    exists r' x' s, recorded_by (snd (run ops w)) c j x' cf r' /\ on r' /\ ready x' /\ fixed_conn x x'
      /\ rd_req r' = rd_req r ++ s /\ cn_wire x' = cn_wire x ++ s /\ rd_resp r' = rd_resp r ++ got c ops
      /\ (line_ok r (parts c ops) ->
           s = sent c ops /\ (forall i o, nth_error ops i = Some o -> conn_of o = Some c -> nth_error (fst (run ops w)) i = Some (Ok tt))
           /\ rd_chost r' = rd_chost r /\ rd_cport r' = rd_cport r
           /\ (parts c ops = [] -> rd_first r' = rd_first r /\ rd_url r' = rd_url r) /\ (rd_first r = true -> rd_first r' = true /\ rd_url r' = rd_url r)
           /\ (forall b t verb path, parts c ops = b :: t -> rd_first r = false -> request_line b verb path -> verb <> lit "CONNECT" ->
               rd_first r' = true /\ rd_url r' = Some (the_url r (cn_host x) (cn_port x) (cn_default x) path))).
  Proof.
    induction ops as [|o ops IH]; intros w r x Hb Hon Hr Hu.
    - exists r, x, []. cbn [Capture.run snd]. split; [exact Hb|]. do 2 (split; [assumption|]). split; [repeat split|]. unfold got, sent, parts. cbn [map concat]. rewrite !app_nil_r.
      do 3 (split; [reflexivity|]). intros _. split; [reflexivity|]. split; [intros [|i] o; discriminate|]. do 2 (split; [reflexivity|]). split; [auto|]. split; [auto|discriminate].
    - destruct Hu as (Ht & Hf & Hu). cbn [Capture.run].
      assert (Dec : conn_of o = Some c \/ conn_of o <> Some c).
      { destruct (conn_of o) as [i|]; [|right; discriminate]. destruct (Nat.eq_dec i c); [left|right]; congruence. }
      destruct Dec as [Hc|Hc].
      + destruct (step_own o w c j x cf r Hb Hc) as (y & ws & r1 & x1 & E & E1 & Hb1 & _).
        destruct (rstep_on fuel sha1 k c cf o r x Hc (Ht Hc) Hon Hr) as (y' & r1' & x1' & s1 & E' & Hon1 & Hr1 & (X1 & X2 & X3 & X4 & X5) & Q1 & W1 & P1 & Y1 & L1).
        rewrite E in E'. injection E' as <- -> <- <-.
        destruct (step o w) as [z w1] eqn:Es. cbn [fst snd] in *. subst z.
        destruct (IH w1 r1 x1 Hb1 Hon1 Hr1 Hu) as (r2 & x2 & s2 & Hb2 & Hon2 & Hr2 & (Z1 & Z2 & Z3 & Z4 & Z5) & Q2 & W2 & P2 & L2).
        destruct (run ops w1) as [xs w2] eqn:Er. cbn [snd fst] in *.
        exists r2, x2, (s1 ++ s2). split; [exact Hb2|]. do 2 (split; [assumption|]). split; [repeat split; congruence|].
        unfold got, sent, parts in *. cbn [map concat]. rewrite Q2, Q1, W2, W1, P2, P1, <- !app_assoc. do 3 (split; [reflexivity|]).
        intros Hl.
        assert (Hl1 : line_ok r (parts1 c o)).
        { destruct Hl as [Hl|Hl]; [now left|]. right. destruct (parts1 c o); [exact I|exact Hl]. }
        destruct (L1 Hl1) as (A1 & A2 & A3 & A4 & A5 & A6).
        assert (Hl2 : line_ok r1 (concat (map (parts1 c) ops))).
        { destruct (parts1 c o) as [|b t] eqn:Ep.
          - destruct (A4 eq_refl) as [A4' _]. destruct Hl as [Hl|Hl]; [left; congruence|now right].
          - left. destruct (rd_first r) eqn:Ef; [now apply A5|]. destruct Hl1 as [X|(verb & path & Hq & Hv)]; [congruence|]. now destruct (A6 b t verb path eq_refl eq_refl Hq Hv). }
        destruct (L2 Hl2) as (B1 & B2 & B3 & B4 & B5 & B6 & B7).
        split; [now rewrite (Y1 A1), B1|]. split.
        { intros [|i] o' Hi Hco; cbn in *; [now injection Hi as <-; rewrite A1|]. now apply (B2 i o'). }
        split; [congruence|]. split; [congruence|]. split.
        { intros He. apply app_eq_nil in He as [He1 He2]. destruct (A4 He1) as [U1 U2]. destruct (B5 He2) as [V1 V2]. split; congruence. }
        split. { intros Hf1. destruct (A5 Hf1) as [U1 U2]. destruct (B6 U1) as [V1 V2]. split; congruence. }
        intros b t verb path He Hf1 Hq Hv. destruct (parts1 c o) as [|b1 t1] eqn:Ep.
        { destruct (A4 eq_refl) as [U1 U2]. destruct (B7 b t verb path He ltac:(congruence) Hq Hv) as [V1 V2]. split; [exact V1|].
          rewrite V2. unfold the_url, eff_host, eff_port. now rewrite A2, A3, X2, X3, X4. }
        cbn in He. injection He as -> _. destruct (A6 b t1 verb path eq_refl Hf1 Hq Hv) as [U1 U2]. destruct (B6 U1) as [V1 V2]. split; congruence.
      + pose proof (step_foreign o w c j x cf r Hb Hc Hf) as Hb1. destruct (step o w) as [z w1] eqn:Es. cbn [snd] in *.
        destruct (IH w1 r x Hb1 Hon Hr Hu) as (r2 & x2 & s2 & Hb2 & Hon2 & Hr2 & HZ & Q2 & W2 & P2 & L2).
        destruct (run ops w1) as [xs w2] eqn:Er. cbn [snd fst] in *.
        assert (N : sent1 c o = [] /\ got1 c o = [] /\ parts1 c o = []).
        { assert (X : forall i, conn_of o = Some i -> Nat.eqb i c = false) by (intros i Hi; apply Nat.eqb_neq; congruence).
          destruct o; try (repeat split; fail); cbn [sent1 got1 parts1]; cbn in X; rewrite (X _ eq_refl); repeat split. }
        destruct N as (N1 & N2 & N3). unfold got, sent, parts in *. cbn [map concat]. rewrite N1, N2, N3. cbn [app].
        exists r2, x2, s2. split; [exact Hb2|]. do 2 (split; [assumption|]). split; [exact HZ|]. do 3 (split; [assumption|]).
        intros Hl. destruct (L2 Hl) as (B1 & B2 & B3). split; [exact B1|]. split; [|exact B3].
        intros [|i] o' Hi Hco; cbn in *; [injection Hi as <-; contradiction|]. now apply (B2 i o').
  Qed.
End World.
