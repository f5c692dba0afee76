(** * Thm_StrHdr: proofs of the theorems restated in Props_StrHdr.v *)
From Coq Require Import String List ZArith NArith Bool.
From Verif Require Import PyBase Utf8 Headers HeaderSpec StrHeaders Streams StreamSpec Loader Iterator IterSpec ArcSpec Toy.
Import ListNotations.
Open Scope Z_scope.

From Coq Require Import Lia ZifyBool ZifyNat ZifyN.
From Verif Require Import Facts StreamProofs BufProofs FillProofs CallProofs HeaderProofs Thm_Headers Thm_Version.

(** the parsers of the loader and the first words they accept *)
Definition accepted : list (parser * list str) :=
  [ (mk_parser WARC_TYPES true, [lit "WARC/1.0"; lit "WARC/1.1"; lit "WARC/0.17"; lit "WARC/0.18"]);
    (mk_parser HTTP_TYPES true, [lit "HTTP/1.0"; lit "HTTP/1.1"]);
    (mk_parser HTTP_VERBS true, [lit "GET"; lit "HEAD"; lit "POST"; lit "PUT"; lit "DELETE"; lit "CONNECT"; lit "OPTIONS"; lit "TRACE"; lit "PATCH"]) ].
(** the argument holds exactly these (name, value) pairs, in this order *)
Definition pairs_of (a : harg) (ps : list (pv * pv)) : Prop :=
  match a with
  | HMap items => items = ps
  | HSeq tups => Forall2 (fun t p => t = [fst p; snd p]) tups ps
  end.
(** the text [s] is [v], or has one character for each byte of [v], of that number *)
Definition shows (v : pv) (s : str) : Prop :=
  match v with
  | PStr t => s = t
  | PBytes b => length s = length b /\ forall i, nth_error s i = nth_error b i
  end.
Definition shows_all (ps : list (pv * pv)) (hs : list header) : Prop :=
  Forall2 (fun p h => shows (fst p) (fst h) /\ shows (snd p) (snd h)) ps hs.
(** the bytes of an ASCII name or value, whichever way it was given *)
Definition raw_of (v : pv) : bytes := match v with PStr s => s | PBytes b => b end.
Definition ascii_pv (v : pv) : Prop := forall c, In c (raw_of v) -> (c < 128)%N.
Definition raw_lines (ps : list (pv * pv)) : bytes :=
  flat_map (fun p => raw_of (fst p) ++ [58; 32]%N ++ raw_of (snd p) ++ [13; 10]%N) ps.

Lemma shows_text v : shows v (to_text v).
Proof. destruct v; cbn; [reflexivity|]. unfold latin1_decode. auto. Qed.
Lemma nth_all : forall (a b : list N), length a = length b -> (forall i, nth_error a i = nth_error b i) -> a = b.
Proof.
  induction a as [|x a IH]; intros [|y b] L H; try discriminate; [reflexivity|].
  pose proof (H O) as H0. cbn in H0. injection H0 as ->. f_equal. apply IH; [now injection L|]. intros i. exact (H (S i)).
Qed.
Lemma shows_fun v s : shows v s -> s = to_text v.
Proof. destruct v; cbn; [auto|]. intros [L H]. now apply nth_all. Qed.
Lemma str_tuples_pairs : forall tups ps, Forall2 (fun t p => t = [fst p; snd p]) tups ps ->
  str_tuples tups = Ok (List.map (fun p : pv * pv => (to_text (fst p), to_text (snd p))) ps).
Proof. intros tups ps H. induction H as [|t p tups ps E _ IH]; [reflexivity|]. subst t. cbn [str_tuples]. now rewrite IH. Qed.
Lemma str_tuples_not : forall tups, (forall ps, ~ Forall2 (fun t (p : pv * pv) => t = [fst p; snd p]) tups ps) -> str_tuples tups = Err ValueErr.
Proof.
  induction tups as [|t tups IH]; intros H; [destruct (H []); constructor|].
  destruct t as [|k [|v [|w t]]]; cbn [str_tuples]; try reflexivity.
  rewrite IH; [reflexivity|]. intros ps X. apply (H ((k, v) :: ps)). constructor; [reflexivity|exact X].
Qed.
Lemma str_headers_pairs a ps : pairs_of a ps -> str_headers a = Ok (List.map (fun p : pv * pv => (to_text (fst p), to_text (snd p))) ps).
Proof.
  destruct a as [items|tups]; cbn [pairs_of str_headers]; intros H; [|now apply str_tuples_pairs]. subst items. apply str_tuples_pairs.
  induction ps as [|p ps IH]; constructor; [reflexivity|exact IH].
Qed.
Lemma shows_map ps : shows_all ps (List.map (fun p : pv * pv => (to_text (fst p), to_text (snd p))) ps).
Proof. induction ps as [|p ps IH]; constructor; [split; apply shows_text|exact IH]. Qed.
Lemma shows_all_fun ps hs : shows_all ps hs -> hs = List.map (fun p : pv * pv => (to_text (fst p), to_text (snd p))) ps.
Proof.
  intros H. induction H as [|p [n v] ps hs [H1 H2] _ IH]; [reflexivity|]. cbn [fst snd] in *. cbn [List.map].
  apply shows_fun in H1, H2. now subst.
Qed.
Lemma utf8_encode_ascii s : is_ascii s = true -> utf8_encode s = Some s.
Proof.
  unfold is_ascii, utf8_encode. intros H. rewrite forallb_forall in H.
  assert (A : forallb is_scalar s = true).
  { apply forallb_forall. intros c Hc. apply H in Hc. unfold is_scalar, is_surrogate. lia. }
  rewrite A. f_equal. clear A. induction s as [|c t IH]; [reflexivity|]. cbn [flat_map].
  rewrite IH by (intros x Hx; apply H; now right). unfold utf8_enc1. now rewrite (H c (or_introl eq_refl)).
Qed.

Lemma C100_text_pf :
  forall a ps, pairs_of a ps ->
  exists hs, str_headers a = Ok hs /\ shows_all ps hs
    /\ (forall hs', shows_all ps hs' -> hs' = hs)
    /\ str_headers (HSeq (List.map (fun h => [PStr (fst h); PStr (snd h)]) hs)) = Ok hs.
Proof.
intros a ps H. exists (List.map (fun p : pv * pv => (to_text (fst p), to_text (snd p))) ps).
split; [now apply str_headers_pairs|]. split; [apply shows_map|]. split; [intros hs'; apply shows_all_fun|].
cbn [str_headers]. clear. induction ps as [|p ps IH]; [reflexivity|]. cbn [List.map str_tuples fst snd to_text]. now rewrite IH.
Qed.

Lemma C100_error_pf :
  forall a,
  ((forall ps, ~ pairs_of a ps) <-> str_headers a = Err ValueErr)
  /\ (forall e, str_headers a = Err e -> e = ValueErr)
  /\ (forall line proto isreq e, sah_init line a proto isreq = Err e ->
        e = ValueErr /\ ((isreq = true /\ ~ In 32%N line) \/ forall ps, ~ pairs_of a ps)).
Proof.
intros a.
assert (D : (exists ps, pairs_of a ps) \/ (forall ps, ~ pairs_of a ps)).
{ destruct a as [items|tups]; cbn [pairs_of]; [left; eauto|]. induction tups as [|t tups [[ps IH]|IH]].
  - left. exists []. constructor.
  - destruct t as [|k [|v [|w t]]]; try (right; intros ps' X; inversion X; discriminate). left. exists ((k, v) :: ps). constructor; [reflexivity|exact IH].
  - right. intros ps X. inversion X; subst. eapply IH; eassumption. }
assert (N : (forall ps, ~ pairs_of a ps) -> str_headers a = Err ValueErr).
{ destruct a as [items|tups]; cbn [pairs_of str_headers]; intros H; [destruct (H items eq_refl)|now apply str_tuples_not]. }
assert (E : forall e, str_headers a = Err e -> e = ValueErr /\ forall ps, ~ pairs_of a ps).
{ intros e He. destruct D as [[ps D]|D]; [rewrite (str_headers_pairs _ _ D) in He; discriminate|]. rewrite (N D) in He. injection He as <-. auto. }
split; [split; [exact N|intros He; exact (proj2 (E _ He))]|]. split; [intros e He; exact (proj1 (E _ He))|].
intros line proto isreq e. unfold sah_init. destruct isreq.
- destruct (split1 32%N line) as [[p s]|] eqn:Es.
  + destruct (str_headers a) eqn:Eh; intros X; [discriminate|]. injection X as <-. destruct (E _ eq_refl). auto.
  + intros X. injection X as <-. split; [reflexivity|]. left. split; [reflexivity|]. clear - Es.
    revert Es. induction line as [|x t IH]; cbn [split1]; [intros _ []|]. destruct (N.eqb_spec x 32); [discriminate|].
    destruct (split1 32%N t) as [[? ?]|]; [discriminate|]. intros _ [->|Hi]; [now apply n|now apply IH].
- destruct (str_headers a) eqn:Eh; intros X; [discriminate|]. injection X as <-. destruct (E _ eq_refl). auto.
Qed.

Lemma C100_request_pf :
  forall verb rest a ps proto, pairs_of a ps -> ~ In 32%N verb ->
  (exists h, sah_init (verb ++ 32%N :: rest) a proto true = Ok h
     /\ sh_proto h = verb /\ sh_status h = rest /\ shows_all ps (sh_headers h))
  /\ (forall line, exists h, sah_init line a proto false = Ok h
     /\ sh_proto h = proto /\ sh_status h = line /\ shows_all ps (sh_headers h)).
Proof.
intros verb rest a ps proto Ha Hv. unfold sah_init. rewrite (str_headers_pairs _ _ Ha). pose proof (shows_map ps) as Hs. split.
- rewrite (proj2 (split1_spec _ _ verb rest)) by auto. eexists. split; [reflexivity|]. auto.
- intros line. eexists. split; [reflexivity|]. auto.
Qed.

Lemma C100_roundtrip_pf :
  forall fuel p protos line a ps proto body sched,
  In (p, protos) accepted -> In proto protos ->
  line_text line -> no_lead is_uspace line -> no_trail is_uspace line ->
  pairs_of a ps -> (forall hs, shows_all ps hs -> Forall wf_header hs) ->
  exists h data, sah_init line a proto false = Ok h /\ to_bytes None h = Ok data
    /\ (enough fuel (data ++ body) ->
       exists h' s', parse (o_readline raw_ops None) fuel p None (raw_open (data ++ body) sched) = (Ok h', s')
         /\ rw_rest s' = body /\ sh_proto h' = proto /\ sh_status h' = line /\ shows_all ps (sh_headers h')).
Proof.
intros fuel p protos line a ps proto body sched Hp Hin L1 L2 L3 Ha Hw.
pose proof (str_headers_pairs _ _ Ha) as E. pose proof (shows_map ps) as Hs. set (hs := List.map _ ps) in *.
set (h := sah_new line hs proto).
destruct (C19_accepted_pf fuel p protos h body sched Hp Hin L1 L2 L3 (Hw _ Hs)) as (data & Ed & H).
exists h, data. split; [unfold sah_init; now rewrite E|]. split; [exact Ed|]. intros Hf.
destruct (H Hf) as (h' & s' & H1 & H2 & _ & H3 & H4 & H5). exists h', s'. repeat (split; [assumption|]).
rewrite H5. exact Hs.
Qed.

Lemma C100_verbatim_partial_pf :
  forall line a ps proto h,
  pairs_of a ps -> Forall (fun p => ascii_pv (fst p) /\ ascii_pv (snd p)) ps ->
  sah_init line a proto false = Ok h -> is_ascii (first_line proto line) = true ->
  to_bytes None h = Ok (first_line proto line ++ raw_lines ps ++ [13; 10]%N)
  /\ fst (to_ascii_bytes None h) = Ok (first_line proto line ++ raw_lines ps ++ [13; 10]%N).
Proof.
intros line a ps proto h Ha Hs E Hl. unfold sah_init in E. rewrite (str_headers_pairs _ _ Ha) in E. injection E as <-.
assert (T : to_str None (sah_new line (List.map (fun p : pv * pv => (to_text (fst p), to_text (snd p))) ps) proto) = first_line proto line ++ raw_lines ps).
{ unfold to_str, sah_new. cbn [sh_proto sh_status sh_headers]. f_equal. clear. induction ps as [|[k v] ps IH]; [reflexivity|].
  cbn [List.map fst snd]. unfold header_lines, raw_lines in *. cbn [flat_map fst snd]. refine (f_equal2 (@app N) _ IH).
  unfold header_line. cbn [fst snd]. destruct k, v; reflexivity. }
assert (A : is_ascii (first_line proto line ++ raw_lines ps) = true).
{ unfold is_ascii in *. rewrite forallb_app, Hl. cbn [andb]. apply forallb_forall. intros c Hc. unfold raw_lines in Hc. apply in_flat_map in Hc as ([k v] & Hi & Hc).
  rewrite Forall_forall in Hs. specialize (Hs _ Hi). cbn [fst snd] in *. destruct Hs as [Hk Hv]. apply N.ltb_lt.
  apply in_app_or in Hc as [Hc|Hc]; [now apply Hk|]. cbn [app In] in Hc. destruct Hc as [<-|[<-|Hc]]; try reflexivity.
  apply in_app_or in Hc as [Hc|Hc]; [now apply Hv|]. cbn [In] in Hc. destruct Hc as [<-|[<-|[]]]; reflexivity. }
unfold to_bytes, to_ascii_bytes. rewrite T. unfold ascii_encode. rewrite A. cbn [fst].
assert (U : utf8_encode (first_line proto line ++ raw_lines ps) = Some (first_line proto line ++ raw_lines ps)).
{ apply utf8_encode_ascii. exact A. }
rewrite U. unfold crlf, CR, LF. now rewrite <- !app_assoc.
Qed.

Lemma C100_verbatim_refuted_pf :
  exists ps h, sah_init (lit "200 OK") (HMap ps) (lit "HTTP/1.1") false = Ok h
  /\ ps = [(PBytes (lit "X"), PBytes [195; 169]%N)]
  /\ to_bytes None h = Ok (first_line (lit "HTTP/1.1") (lit "200 OK") ++ lit "X: " ++ [195; 131; 194; 169]%N ++ [13; 10; 13; 10]%N)
  /\ fst (to_ascii_bytes None h) = Ok (first_line (lit "HTTP/1.1") (lit "200 OK") ++ lit "X: %C3%83%C2%A9" ++ [13; 10; 13; 10]%N).
Proof.
do 2 eexists. split; [|split; [reflexivity|]]; [reflexivity|]. split; vm_compute; reflexivity.
Qed.
