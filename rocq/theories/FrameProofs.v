(** * FrameProofs: parsing HTTP headers does not disturb iteration (C85) *)
From Coq Require Import List ZArith NArith Bool String Lia Wellfounded.
From Coq Require Import ZifyBool ZifyNat ZifyN.
From Verif Require Import PyBase Facts Headers Streams Loader Iterator TermProofs TermSpec TermLoad TermIter
  AdvProofs KeepProofs IndepProofs IndepIter IndepSpec ArcProofs FrameSpec.
Import ListNotations.
Open Scope Z_scope.

(** ** The rest of the header block, after a first line that is not empty *)
Section Tail.
  Context {S : Type} (I : S -> Prop) (m : S -> ms) (E : S -> exn -> Prop) (ops : nat -> sops S).
  Hypothesis G : good I m E ops.
  Notation rl f := (o_readline (ops f) None).

  Lemma tail_conv p h s : I s -> decode_hline h <> [] ->
    exists r, conv (fun f => parse (rl f) f p (Some h) s) r /\ keeps I m E s (snd r) /\
      match fst r with
      | Ok _ => True
      | Err e => E s e \/ (p_verify p = true /\ exists l, e = ParserExn l)
      end.
  Proof.
    intros HI Hne. unfold parse.
    destruct (lenZ (decode_hline h) =? 0) eqn:E0.
    { exfalso. apply Hne. apply lenZ_0. lia. }
    destruct (is_nil (urstrip (decode_hline h))) eqn:E1.
    { eexists (Ok _, s). split; [apply conv_const|]. split; [now apply keeps_refl|exact Logic.I]. }
    set (ps := if p_verify p then
                 match split_prefix (urstrip (decode_hline h)) (p_list p) with
                 | Some (a, b) => Some (a, Some b)
                 | None => None
                 end
               else match split1 32%N (urstrip (decode_hline h)) with
                    | Some (a, b) => Some (a, Some b)
                    | None => Some (urstrip (decode_hline h), None)
                    end).
    assert (Hps : ps = None -> p_verify p = true).
    { subst ps. destruct (p_verify p); [reflexivity|]. destruct (split1 32 _) as [[? ?]|]; discriminate. }
    destruct ps as [[proto st]|] eqn:Eps.
    2:{ exists (Err (ParserExn (decode_hline h)), s). split; [apply conv_const|].
        split; [now apply keeps_refl|]. right. split; [auto|eauto]. }
    destruct (next_line_conv I m E ops G (lenZ (decode_hline h)) s HI) as ([x s2] & [M HM] & K2 & H2). cbn [fst snd] in *.
    destruct x as [[l t]|e].
    2:{ exists (Err e, s2). split; [exists M; intros f Hf; now rewrite HM|]. split; [exact K2|now left]. }
    destruct (header_conv I m E ops G [] l t s2 (proj1 K2)) as ([y s3] & HP & K3 & H3). cbn [fst snd] in *.
    apply conv2_diag in HP. destruct HP as [P HP].
    pose proof (keeps_trans _ _ _ _ _ _ K2 K3) as K23.
    destruct y as [[hs tot]|e].
    - eexists (Ok _, s3). split.
      { exists (Nat.max M P). intros f Hf. rewrite HM, HP by lia. reflexivity. }
      split; [exact K23|exact Logic.I].
    - exists (Err e, s3). split.
      { exists (Nat.max M P). intros f Hf. rewrite HM, HP by lia. reflexivity. }
      split; [exact K23|]. left. now apply K2.
  Qed.
End Tail.

Section Frame.
  Context {zl : zenv} (he : henv) (o : lopts).
  Notation rdr := (breader zl raw).
  Notation it_t := (@iter zl).
  Hypothesis Hcheck : lo_check o = KFalse.
  Notation oA := (with_norec true o).
  Notation oB := (with_norec false o).

  (** ** One line of a record without digest checking *)
  Definition nodig (st : rstream rdr) : Prop := match st with RSdig _ => False | _ => True end.

  Lemma base_line n (b : rdr) : Ia b -> sensible n ->
    exists x b', conv (fun f => o_readline (@rops_f zl f) n b) (Ok x, b') /\ went b x n b' /\
      (x = [] -> n = Some 0 \/ eofP b b').
  Proof.
    intros HI Hn. destruct (rops_line_went n b HI Hn) as (x & b' & C & W). exists x, b'.
    split; [exact C|]. split; [exact W|]. intros ->.
    destruct (match n with Some k => k =? 0 | None => false end) eqn:En.
    { destruct n as [k|]; [|discriminate]. left. f_equal. lia. }
    right. destruct (fills_ex b HI) as (b1 & C1 & I1 & M1).
    assert (Ee : br_empty b1 = (is_nil (buff_data b1), b1)).
    { rewrite br_empty_all by apply I1. now rewrite buff_empty_data. }
    destruct (buff_data b1) as [|c0 r0] eqn:Eb; cbn [is_nil] in Ee.
    { assert (C2 : conv (fun f => o_readline (@rops_f zl f) n b) (Ok [], b1)).
      { destruct C1 as [N HN]. exists N. intros f Hf. unfold rops_f, rops, br_ops, br_readline. cbn [o_readline].
        rewrite En, HN, Ee by lia. reflexivity. }
      pose proof (conv_uniq _ _ _ C C2) as Q. injection Q as ->. split; [exact C1|exact Eb]. }
    exfalso. set (out := line_of n (buff_data b1)).
    assert (Hout : out ++ dropZ (lenZ out) (buff_data b1) = buff_data b1) by apply line_of_split.
    assert (Hne : out <> []).
    { apply line_of_nonempty; [rewrite Eb; discriminate|]. destruct n as [j|]; [|reflexivity]. cbn [sensible] in Hn. lia. }
    assert (Hp : (0 < List.length out)%nat) by (destruct out; [contradiction|cbn; lia]).
    assert (I3 : Ia (set_bbuff (Some (dropZ (lenZ out) (buff_data b1))) b1)).
    { split; [exact (proj1 (take_mr b1 out _ (proj1 I1) Hout))|apply I1]. }
    set (b3 := set_bbuff (Some (dropZ (lenZ out) (buff_data b1))) b1) in *.
    destruct (line_went n out b3 I3) as (x & b4 & C4 & _).
    { destruct n as [j|]; [cbn [sensible] in Hn; lia|exact Logic.I]. }
    assert (C2 : conv (fun f => o_readline (@rops_f zl f) n b) (Ok (out ++ x), b4)).
    { apply conv2_diag in C4. destruct C1 as [N HN], C4 as [M HM]. exists (Nat.max N M). intros f Hf.
      unfold rops_f, rops, br_ops, br_readline. cbn [o_readline]. rewrite En, HN, Ee by lia. apply HM. lia. }
    pose proof (conv_uniq _ _ _ C C2) as Q. injection Q as Q _. destruct out; [contradiction|discriminate].
  Qed.

  Lemma line_none (st : rstream rdr) : Is st -> nodig st ->
    exists x b', conv (fun f => rs_readline (@rops zl f) None st) (Ok x, aft st x b') /\
      went (rs_base st) x (lim_of st) b' /\ (x = [] -> pay st []).
  Proof.
    intros HI Hd.
    destruct (rs_op_went (@o_readline) (@lim_readline rdr) ltac:(reflexivity) ltac:(reflexivity)
                (fun n x b b' => x = [] -> n = Some 0 \/ eofP b b') base_line None st HI Logic.I)
      as (x & b' & r & C & W & [R1 _] & Q).
    assert (O : okst st x) by (destruct st; [exact Logic.I|exact Logic.I|contradiction]).
    rewrite (R1 O) in C. exists x, b'. split; [|split; [exact W|]].
    - destruct C as [N HN]. exists N. intros f Hf. specialize (HN f Hf). unfold rops_f in HN.
      rewrite <- HN. destruct st; reflexivity.
    - intros ->. exists (rs_base st). split; [apply adv_nil|]. rewrite lenZ_nil.
      destruct Q as [Q|[Q|Q]]; [now left|discriminate|]. specialize (Q eq_refl).
      destruct (lim_of st) as [k|] eqn:Ek.
      + destruct Q as [Q|Q]; [left; exact Q|]. destruct (Z.eq_dec k 0) as [->|Hk]; [now left|right].
        split; [|now exists b']. cbn [under]. destruct HI as [_ HL]. rewrite lenZ_nil.
        destruct st; cbn [lims lim_of] in *; [discriminate| |]; injection Ek as <-; lia.
      + destruct Q as [Q|Q]; [discriminate|right]. split; [exact Logic.I|now exists b'].
  Qed.

  Lemma pay_nil (st : rstream rdr) X : pay st [] -> pay st X -> X = [].
  Proof.
    intros (b1 & A & H) (bX & AX & HX). inversion A; subst. rewrite lenZ_nil in H. destruct H as [L|[U (b2 & E)]].
    - rewrite L in HX. apply lenZ_0. pose proof (lenZ_nonneg X). cbn [under] in HX.
      destruct HX as [[= HX]|[HX _]]; lia.
    - exact (proj1 (eof_adv _ _ _ _ E AX)).
  Qed.

  (** ** A record's stream after [h] was taken from it *)
  Definition shape (st0 : rstream rdr) (h : bytes) (s : rstream rdr) : Prop :=
    match st0, s with
    | RSbase _, RSbase _ => True
    | RSlim l, RSlim l' => lm_limit l' = lm_limit l - lenZ h /\ lm_orig l' = lm_orig l
    | _, _ => False
    end.
  Definition moved (st0 : rstream rdr) (h : bytes) (s : rstream rdr) : Prop :=
    Is s /\ (forall F, fin st0 F -> fin s F) /\
    (forall X, pay st0 X -> exists w, X = h ++ w /\ pay s w) /\ shape st0 h s.

  Lemma moved_refl st : Is st -> nodig st -> moved st [] st.
  Proof.
    intros HI Hd. split; [exact HI|]. split; [auto|]. split; [intros X HX; now exists X|].
    destruct st as [b|l|d]; [exact Logic.I| |contradiction]. cbn [shape]. rewrite lenZ_nil. split; [lia|reflexivity].
  Qed.
  Lemma moved_step st0 h s x b' : moved st0 h s -> went (rs_base s) x (lim_of s) b' -> moved st0 (h ++ x) (aft s x b').
  Proof.
    intros (HI & HF & HX & HS) W.
    assert (O : okst s x) by (destruct s; [exact Logic.I|exact Logic.I|destruct st0; contradiction]).
    split; [exact (went_Is _ _ _ HI W)|]. split; [|split].
    - intros F H. apply (fin_step s x b' F HI W O). now apply HF.
    - intros X H. destruct (HX X H) as (w & -> & Hw). destruct (pay_step s x b' w HI W Hw) as (w' & -> & Hw').
      exists w'. split; [now rewrite app_assoc|exact Hw'].
    - destruct st0 as [b|l|d], s as [b2|l2|d2]; try contradiction; [exact Logic.I|]. cbn [shape aft lm_limit lm_orig] in *.
      rewrite lenZ_app. split; [lia|apply HS].
  Qed.
  Lemma moved_nodig st0 h s : moved st0 h s -> nodig s.
  Proof. intros (_ & _ & _ & HS). destruct st0, s; try contradiction; exact Logic.I. Qed.

  Definition line_ops (f : nat) : sops (rstream rdr) :=
    mk_sops (fun _ s => (Ok [], s)) (fun _ s => rs_readline (@rops zl f) None s) (fun _ => 0).
  Definition Im (st0 : rstream rdr) (s : rstream rdr) : Prop := exists h, moved st0 h s.

  Lemma line_good st0 : good (Im st0) (mrs mr) (fun _ _ => False) line_ops.
  Proof.
    split; intros n s (h & H); cbn [line_ops o_read o_readline].
    - exists (Ok [], s). split; [apply conv_const|]. split; [now exists h|]. cbn [fst snd].
      repeat split; [apply mle_refl|tauto|]. cbn [List.length]. ms_lia.
    - pose proof (moved_nodig _ _ _ H) as Hd. destruct (line_none s (proj1 H) Hd) as (x & b' & C & W & _).
      assert (HIr : Irs Ir s).
      { split; [apply H|]. destruct s; [exact Logic.I|exact Logic.I|contradiction]. }
      destruct (g_line _ _ _ _ (rs_good _ _ _ (@rops_good zl)) None s HIr) as (r & C2 & E1 & E2 & E3 & E4).
      assert (C' : conv (fun f => o_readline (rs_ops (@rops_f zl f)) None s) (Ok x, aft s x b')) by exact C.
      pose proof (conv_uniq _ _ _ C2 C') as ->. cbn [fst snd] in *.
      exists (Ok x, aft s x b'). split; [exact C|]. split; [exists (h ++ x); now apply moved_step|].
      cbn [fst snd]. split; [exact E2|]. split; [tauto|exact E4].
  Qed.

  (** ** HTTP headers *)
  Lemma http_parse p st : Is st -> nodig st ->
    exists x st2 h, conv (fun f => parse (rs_readline (@rops zl f) None) f p None st) (x, st2) /\ moved st h st2 /\
      match x with
      | Ok _ => True
      | Err e => (p_verify p = true /\ exists l, e = ParserExn l) \/ (e = EOFError /\ h = [] /\ pay st [])
      end.
  Proof.
    intros HI Hd. destruct (line_none st HI Hd) as (x & b' & [N HN] & W & Hx).
    pose proof (moved_step st [] st x b' (moved_refl st HI Hd) W) as M1. cbn [app] in M1.
    destruct x as [|c x].
    - exists (Err EOFError), (aft st [] b'), []. split; [|split; [exact M1|right; split; [reflexivity|split; [reflexivity|auto]]]].
      exists N. intros f Hf. unfold parse. rewrite HN by exact Hf. reflexivity.
    - destruct (tail_conv _ _ _ _ (line_good st) p (HBytes (c :: x)) (aft st (c :: x) b')) as ([y s2] & [M HM] & K & H).
      { now exists (c :: x). }
      { cbn [decode_hline]. now apply decode_ne. }
      destruct K as [(h & Hh) _]. cbn [fst snd] in *. exists y, s2, h. split; [|split; [exact Hh|]].
      + exists (Nat.max N M). intros f Hf. specialize (HM f ltac:(lia)). cbn [line_ops o_readline] in HM.
        rewrite <- HM. unfold parse. rewrite HN by lia. reflexivity.
      + destruct y; [exact Logic.I|]. destruct H as [[]|H]. now left.
  Qed.

  Definition http_bad (t uri : option str) (len : option Z) (st : rstream rdr) (e : exn) : Prop :=
    is_http_record t = true /\ len <> Some 0 /\
    ((e = AttributeErr /\ uri = None) \/ (lo_verify o = true /\ exists l, e = ParserExn l) \/ (e = EOFError /\ pay st [])).

  Lemma http_moves t uri len st : Is st -> nodig st ->
    exists x st2 h, conv (fun f => load_http_headers (rs_ops (@rops zl f)) f (lo_verify o) t uri len st) (x, st2) /\
      moved st h st2 /\
      match x with
      | Ok None => h = []
      | Ok (Some _) => True
      | Err e => http_bad t uri len st e
      end.
  Proof.
    intros HI Hd. unfold load_http_headers.
    assert (M0 := moved_refl st HI Hd).
    destruct (match len with Some 0 => true | _ => false end) eqn:El.
    { exists (Ok None), st, []. split; [apply conv_const|]. now split. }
    assert (Hl : len <> Some 0) by (intros ->; discriminate).
    destruct (negb (is_http_record t)) eqn:Et.
    { exists (Ok None), st, []. split; [apply conv_const|]. now split. }
    apply negb_false_iff in Et.
    destruct uri as [u|].
    2:{ exists (Err AttributeErr), st, []. split; [apply conv_const|]. split; [exact M0|].
        split; [exact Et|]. split; [exact Hl|]. left. now split. }
    destruct (negb (is_http_uri u)).
    { exists (Ok None), st, []. split; [apply conv_const|]. now split. }
    destruct (otype_is t "request").
    - destruct (http_parse (mk_parser HTTP_VERBS (lo_verify o)) st HI Hd) as (x & st2 & h & [N HN] & M & H).
      destruct x as [y|e].
      + exists (Ok (Some y)), st2, h. split; [|now split]. exists N. intros f Hf. cbn [rs_ops o_readline]. now rewrite HN.
      + exists (Err e), st2, h. split; [exists N; intros f Hf; cbn [rs_ops o_readline]; now rewrite HN|].
        split; [exact M|]. split; [exact Et|]. split; [exact Hl|]. right.
        destruct H as [H|(-> & _ & H)]; [left; exact H|right; now split].
    - destruct (http_parse (mk_parser HTTP_TYPES (lo_verify o)) st HI Hd) as (x & st2 & h & [N HN] & M & H).
      destruct x as [y|e].
      + exists (Ok (Some y)), st2, h. split; [|now split]. exists N. intros f Hf. cbn [rs_ops o_readline]. now rewrite HN.
      + destruct H as [(V & l & ->)|(-> & -> & H)].
        * exists (Err (ParserExn l)), st2, h. split; [exists N; intros f Hf; cbn [rs_ops o_readline]; now rewrite HN|].
          split; [exact M|]. split; [exact Et|]. split; [exact Hl|]. right. left. split; [exact V|now exists l].
        * destruct (otype_is t "revisit") eqn:Er.
          -- exists (Ok None), st2, []. split; [exists N; intros f Hf; cbn [rs_ops o_readline]; now rewrite HN|]. now split.
          -- exists (Err EOFError), st2, []. split; [exists N; intros f Hf; cbn [rs_ops o_readline]; now rewrite HN|].
             split; [exact M|]. split; [exact Et|]. split; [exact Hl|]. right. right. now split.
  Qed.

  (** ** One record *)
  Definition same_frame (h : bytes) (ra rb : record rdr) : Prop :=
    rc_format ra = rc_format rb /\ rc_type ra = rc_type rb /\ rc_headers ra = rc_headers rb /\
    rc_ctype ra = rc_ctype rb /\ rc_length ra = rc_length rb /\
    (rc_http rb = None -> h = []) /\
    (rc_plen rb = -1 \/ exists n, rc_length rb = Some n /\ rc_plen rb = n - lenZ h).
  Definition rec_target (r : record rdr) : option str :=
    get_header (match rc_format r with FArc => lit "uri" | FWarc => lit "WARC-Target-URI" end) (rc_headers r).
  Definition rec_bad (ra : record rdr) (e : exn) : Prop :=
    is_http_record (rc_type ra) = true /\ rc_length ra <> Some 0 /\
    ((e = AttributeErr /\ rec_target ra = None) \/ (lo_verify o = true /\ exists l, e = ParserExn l) \/
     (e = EOFError /\ pay (rc_stream ra) [])).

  Lemma record_two sl known (s : rdr) : Ia s ->
    exists xa sa, conv (fun f => parse_record_stream (@rops zl f) f he oA sl known s) (xa, sa) /\
      match xa with
      | Err e => conv (fun f => parse_record_stream (@rops zl f) f he oB sl known s) (Err e, sa)
      | Ok ra => Is (rc_stream ra) /\ nodig (rc_stream ra) /\ rs_base (rc_stream ra) = sa /\
          exists xb sb h, conv (fun f => parse_record_stream (@rops zl f) f he oB sl known s) (xb, rs_base sb) /\
            moved (rc_stream ra) h sb /\
            match xb with
            | Ok rb => rc_stream rb = sb /\ same_frame h ra rb
            | Err e => rec_bad ra e
            end
      end.
  Proof.
    intros HI.
    destruct (detect_conv _ _ _ (@rops_good zl) (lo_a2w o) (lo_uuid o) sl known s (proj1 HI)) as ([x s1] & [N HN] & K1 & _).
    cbn [fst snd] in *. unfold rops_f in HN.
    assert (I1 : Ia s1).
    { split; [exact (proj1 K1)|].
      pose proof (detect_keep (@rops zl N) N plain (lo_a2w o) (lo_uuid o) sl known s
                    (fun s Hs => readline_plain N None s Hs) (conj (proj1 (proj1 HI)) (proj2 HI))) as Hk.
      rewrite HN in Hk by lia. exact (proj2 Hk). }
    destruct x as [[is_arc h0]|e].
    2:{ exists (Err e), s1. split; exists N; intros f Hf; unfold parse_record_stream; cbn [with_norec lo_a2w lo_uuid]; now rewrite HN. }
    destruct (if is_arc && negb (lo_a2w o) then
            let uri := get_header (lit "uri") h0 in
            (Some (match uri with
                   | Some u => if is_filedesc u then lit "arc_header" else lit "response"
                   | None => lit "response" end),
             uri, h0, get_header (lit "length") h0, get_header (lit "content-type") h0, sh_total h0)
          else
            let t := get_header (lit "WARC-Type") h0 in
            let (uri, h') := ensure_target_uri h0 in
            (t, uri, h', get_header (lit "Content-Length") h',
             get_header (lit "Content-Type") h', if is_arc then sh_total h' else 0))
      as [[[[[t uri] h'] length] ctype] sub_len] eqn:Et.
    cbn zeta in Et.
    assert (Huri : uri = None ->
      get_header (match (if is_arc && negb (lo_a2w o) then FArc else FWarc) with FArc => lit "uri" | FWarc => lit "WARC-Target-URI" end) h' = None).
    { intros Hu. destruct (is_arc && negb (lo_a2w o)).
      - injection Et as _ Eu Eh _ _ _. rewrite <- Eh, Eu. exact Hu.
      - unfold ensure_target_uri in Et. destruct (get_header (lit "WARC-Target-URI") h0) as [u|] eqn:Eg.
        + exfalso. destruct (startswith (lit "<") u && endswith (lit ">") u); cbv zeta beta iota in Et;
            destruct (has_char _ _); injection Et as _ Eu _ _ _ _; congruence.
        + injection Et as _ _ Eh _ _ _. rewrite <- Eh. exact Eg. }
    set (len := eff_length length sub_len).
    assert (Hlen : match len with Some n => 0 <= n | None => True end).
    { subst len. unfold eff_length. destruct length as [l|]; [|exact Logic.I]. destruct (py_int l) as [n|]; [|lia].
      destruct (n - sub_len <? 0) eqn:El; lia. }
    set (st1 := match len with Some n => RSlim (lim_new s1 n) | None => RSbase s1 end).
    assert (Est : forall c, (match len with
                  | Some n =>
                      let l := lim_new s1 n in
                      if ckind_bool (lo_check o) then wrap_digest he l t h' c n
                      else Ok (RSlim l)
                  | None => Ok (RSbase s1)
                  end) = Ok st1).
    { intros c. rewrite Hcheck. subst st1. now destruct len. }
    assert (IS : Is st1 /\ nodig st1 /\ rs_base st1 = s1).
    { subst st1. destruct len as [n|]; (split; [split; [exact I1|]|split; [exact Logic.I|reflexivity]]).
      - cbn [lims lim_new lm_limit]. exact Hlen.
      - exact Logic.I. }
    destruct IS as (IS & DS & BS).
    assert (BP : forall st, nodig st -> (match st with
                  | RSdig d => let (x, d') := begin_payload d in (x, RSdig d')
                  | _ => (Ok tt, st)
                  end) = (Ok tt, st)) by (intros [b|l|d] H; [reflexivity|reflexivity|contradiction]).
    exists (Ok (mk_rec (if is_arc && negb (lo_a2w o) then FArc else FWarc) t h' st1
                  (if negb (osah_bool None) && lo_ensure o then Some (default_http_headers len ctype) else None)
                  ctype len (match len with Some n => if false && negb (n =? 0) && osah_bool None then n - (0 - 0) else -1 | None => -1 end)
                  (chk_new (lo_check o)))), s1.
    split.
    { exists N. intros f Hf. unfold parse_record_stream. cbn [with_norec lo_a2w lo_uuid lo_check lo_norec lo_ensure].
      rewrite HN by exact Hf. cbn zeta. rewrite Et. fold len. rewrite Est. cbn zeta. cbn [negb]. cbn beta iota.
      rewrite (BP st1 DS), BS. reflexivity. }
    cbn [rc_stream]. split; [exact IS|]. split; [exact DS|]. split; [exact BS|].
    destruct (http_moves t uri len st1 IS DS) as (x & st2 & h & [M HM] & HMv & Hx).
    pose proof (moved_nodig _ _ _ HMv) as D2.
    destruct x as [http|e].
    - eexists (Ok _), st2, h. split.
      { exists (Nat.max N M). intros f Hf. unfold parse_record_stream. cbn [with_norec lo_a2w lo_uuid lo_check lo_norec lo_ensure lo_verify].
        rewrite HN by lia. cbn zeta. rewrite Et. fold len. rewrite Est. cbn zeta. rewrite HM by lia. cbn beta iota.
        rewrite (BP st2 D2).
        replace (match len with
                 | Some n => if negb false && negb (n =? 0) && osah_bool http then n - (rs_tell (@rops zl f) st2 - rs_tell (@rops zl f) st1) else -1
                 | None => -1 end)
          with (match len with
                 | Some n => if negb (n =? 0) && osah_bool http then n - lenZ h else -1
                 | None => -1 end); [reflexivity|].
        subst st1. destruct len as [n|]; [|reflexivity]. cbn [negb andb].
        destruct (negb (n =? 0) && osah_bool http); [|reflexivity].
        destruct HMv as (_ & _ & _ & HS). destruct st2 as [b|l|d]; try contradiction. cbn [shape lim_new lm_limit lm_orig] in HS.
        cbn [rs_tell]. unfold lim_tell. cbn [lim_new lm_limit lm_orig]. lia. }
      split; [exact HMv|]. cbn [rc_stream]. split; [reflexivity|]. unfold same_frame.
      cbn [rc_format rc_type rc_headers rc_ctype rc_length rc_http rc_plen].
      split; [reflexivity|]. split; [reflexivity|]. split; [reflexivity|]. split; [reflexivity|]. split; [reflexivity|]. split.
      + destruct http as [y|]; [|intros _; exact Hx]. destruct (negb _ && _); discriminate.
      + destruct len as [n|]; [|now left]. destruct (negb (n =? 0) && osah_bool http); [right|now left]. now exists n.
    - exists (Err e), st2, h. split.
      { exists (Nat.max N M). intros f Hf. unfold parse_record_stream. cbn [with_norec lo_a2w lo_uuid lo_check lo_norec lo_ensure lo_verify].
        rewrite HN by lia. cbn zeta. rewrite Et. fold len. rewrite Est. cbn zeta. rewrite HM by lia. reflexivity. }
      split; [exact HMv|]. destruct Hx as (X1 & X2 & X3). split; [exact X1|]. split; [exact X2|].
      destruct X3 as [[-> X3]|[X3|X3]]; [left|right; now left|right; now right]. split; [reflexivity|].
      unfold rec_target. cbn [rc_format rc_headers]. now apply Huri.
  Qed.

  (** ** The iterators between two records *)
  Definition eq_it (a b : it_t) : Prop :=
    it_reader a = it_reader b /\ it_offset a = it_offset b /\ it_known a = it_known b /\ it_member a = it_member b /\
    it_next_line a = it_next_line b /\ it_err_count a = it_err_count b /\ it_phase a = it_phase b /\
    it_raise_gz a = it_raise_gz b /\ it_empty a = it_empty b.

  Lemma eq_set_reader r a b : eq_it a b -> eq_it (it_set_reader r a) (it_set_reader r b).
  Proof. intros (H1 & H2 & H3 & H4 & H5 & H6 & H7 & H8 & H9). unfold eq_it, it_set_reader. cbn. repeat split; assumption. Qed.
  Lemma settled_set_reader r (a : it_t) : settled a -> settled (it_set_reader r a).
  Proof. unfold settled. cbn [it_set_reader it_record it_member]. intros [->|Q]; [now left|now right]. Qed.

  Lemma rte_settled f (a : it_t) : settled a -> @read_to_end zl f a = (Ok tt, a).
  Proof.
    intros Hs. unfold read_to_end. destruct (it_record a) eqn:Er; [|reflexivity]. destruct (it_member a) eqn:Em; [reflexivity|].
    destruct Hs; congruence.
  Qed.

  Lemma after_eq (a b : it_t) : eq_it a b -> settled a -> settled b ->
    exists x a' b', (forall f, @after_record zl f a = (Ok x, a')) /\ (forall f, @after_record zl f b = (Ok x, b')) /\
      eq_it a' b' /\ settled a' /\ settled b' /\ (it_raise_gz a = true -> it_raise_gz a' = true).
  Proof.
    intros H Ha Hb. pose proof H as (H1 & H2 & H3 & H4 & H5 & H6 & H7 & H8 & H9).
    assert (E : forall it f, settled it -> @after_record zl f it =
      if has_dec (it_reader it) then
          let (more, r) := read_next_member (it_reader it) in
          let it := it_set_reader r it in
          if more then (Ok true, it)
          else if it_empty it then (Ok false, it)
          else (Ok true, set_raise true it)
        else if it_empty it then (Ok false, it)
        else (Ok true, it)).
    { intros it f Hs. unfold after_record. now rewrite (rte_settled f it Hs). }
    assert (Ea := fun f => E a f Ha). assert (Eb := fun f => E b f Hb). rewrite <- H1 in Eb.
    destruct (has_dec (it_reader a)).
    - destruct (read_next_member (it_reader a)) as [more r]. cbn zeta in *.
      pose proof (eq_set_reader r a b H) as Q. change (it_empty (it_set_reader r b)) with (it_empty b) in Eb.
      rewrite <- H9 in Eb. change (it_empty (it_set_reader r a)) with (it_empty a) in Ea.
      destruct more; [|destruct (it_empty a)].
      1,2: eexists _, _, _; (split; [exact Ea|]); (split; [exact Eb|]); (split; [exact Q|]);
           (split; [now apply settled_set_reader|]); (split; [now apply settled_set_reader|]); exact (fun x => x).
      eexists _, _, _. split; [exact Ea|]. split; [exact Eb|].
      split; [|split; [exact (settled_set_reader r a Ha)|split; [exact (settled_set_reader r b Hb)|reflexivity]]].
      destruct Q as (Q1 & Q2 & Q3 & Q4 & Q5 & Q6 & Q7 & Q8 & Q9). unfold eq_it, set_raise in *. cbn in *. repeat split; assumption.
    - rewrite <- H9 in Eb. destruct (it_empty a); eexists _, _, _; (split; [exact Ea|]); (split; [exact Eb|]);
        (split; [exact H|]); (split; [exact Ha|]); (split; [exact Hb|]); exact (fun x => x).
  Qed.

  (** once a record after the last gzip member counts as an error, none is handed out *)
  Lemma loop_raise f ox n (it : it_t) rc it' : it_raise_gz it = true -> @iter_loop zl f he ox n it <> (Ok (Some rc), it').
  Proof.
    revert it. induction n as [|n IH]; intros it H; [discriminate|]. cbn [iter_loop]. unfold next_record.
    destruct (parse_record_stream _ _ _ _ _ _ _) as [[r|e] s].
    - cbn [it_raise_gz]. rewrite H. discriminate.
    - destruct e; try discriminate. unfold after_record, read_to_end.
      set (i0 := set_empty true (it_set_reader s it)).
      assert (H0 : it_raise_gz i0 = true) by exact H.
      assert (G : forall (x : res unit * it_t), it_raise_gz (snd x) = true ->
        match match x with
              | (Err e, i) => (Err e, i)
              | (Ok _, i) =>
                  if has_dec (it_reader i) then
                    let (more, r) := read_next_member (it_reader i) in
                    let i := it_set_reader r i in
                    if more then (Ok true, i) else if it_empty i then (Ok false, i) else (Ok true, set_raise true i)
                  else if it_empty i then (Ok false, i) else (Ok true, i)
              end with
        | (Err EOFError, it) => (Err EOFError, set_phase PDone it)
        | (Err e, it) => (Err e, set_phase PDone it)
        | (Ok true, it) => @iter_loop zl f he ox n it
        | (Ok false, it) => (Ok None, close_iter it)
        end <> (Ok (Some rc), it')).
      { intros [[u|e] i] Hi; cbn [snd] in Hi.
        - destruct (has_dec (it_reader i)).
          + destruct (read_next_member (it_reader i)) as [more r]. cbn zeta. destruct more; [now apply IH|].
            destruct (it_empty _); [discriminate|]. now apply IH.
          + destruct (it_empty i); [discriminate|now apply IH].
        - destruct e; discriminate. }
      apply G. destruct (it_record i0) as [rc0|]; [|exact H0]. destruct (it_member i0); [exact H0|].
      destruct (drain f f (rc_stream rc0)) as [[u|e] st]; [|exact H0].
      cbn zeta. destruct (consume_loop _ _ _ _ _ _) as [[[[nl size] errs]|e] r]; exact H0.
  Qed.

  (** the iterators with the record they handed out *)
  Definition handed (a b : it_t) (ra rb : record rdr) (h : bytes) : Prop :=
    it_record a = Some ra /\ it_record b = Some rb /\ it_member a = None /\ it_member b = None /\
    it_reader a = rs_base (rc_stream ra) /\ it_reader b = rs_base (rc_stream rb) /\
    it_offset a = it_offset b /\ it_known a = it_known b /\ it_next_line a = it_next_line b /\
    it_err_count a = it_err_count b /\ it_phase a = PYield /\ it_phase b = PYield /\
    it_raise_gz a = it_raise_gz b /\ it_empty a = it_empty b /\
    Is (rc_stream ra) /\ moved (rc_stream ra) h (rc_stream rb) /\ same_frame h ra rb /\ nodig (rc_stream ra).

  Inductive next_two (xa : res (option (record rdr))) (a' : it_t) : res (option (record rdr)) -> it_t -> Prop :=
  | nt_rec ra rb b' h : xa = Ok (Some ra) -> handed a' b' ra rb h -> next_two xa a' (Ok (Some rb)) b'
  | nt_stop b' : xa = Ok None -> next_two xa a' (Ok None) b'
  | nt_exn e b' : xa = Err e -> next_two xa a' (Err e) b'
  | nt_late xb b' : xa = Err ArchiveLoadFailed -> (forall rb, xb <> Ok (Some rb)) -> next_two xa a' xb b'
  | nt_bad ra e b' : xa = Ok (Some ra) -> e <> EOFError -> rec_bad ra e -> next_two xa a' (Err e) b'
  | nt_empty ra xb b' : xa = Ok (Some ra) -> rec_bad ra EOFError -> it_record a' = Some ra -> next_two xa a' xb b'.

  Lemma J_K ox (it : it_t) : J ox it -> K it.
  Proof. intros (Q1 & Q2 & Q3). split; [|exact Q3]. split; [exact (proj1 (proj1 Q1))|exact Q2]. Qed.
  Lemma J_of ox (it : it_t) : Ii ox it -> K it -> J ox it.
  Proof. intros H [[_ H2] H3]. now repeat split; try apply H. Qed.

  Lemma after_J ox (it it' : it_t) x : J ox it -> settled it -> (forall f, @after_record zl f it = (Ok x, it')) ->
    J ox it' /\ mle (mi it') (mi it) /\ (it_empty it = true -> x = true -> mlt (mi it') (mi it)).
  Proof.
    intros HJ Hs HA. destruct (after_conv ox it (proj1 HJ)) as (y & it2 & C & A1 & A2 & A3).
    assert (C2 : conv (fun f => @after_record zl f it) (Ok x, it')) by (exists O; intros f _; apply HA).
    pose proof (conv_uniq _ _ _ C C2) as Q. injection Q as -> ->.
    destruct (after_keep O it (J_K _ _ HJ) Hs) as (K1 & _). rewrite HA in K1.
    split; [now apply J_of|]. split; [exact A2|]. intros He Hx. destruct A3 as [_ A3]. destruct (A3 He) as [_ A4]. now apply A4.
  Qed.

  Lemma next_J ox (it : it_t) e s : J ox it -> settled it -> conv (fun f => @next_record zl f he ox it) (Err e, it_set_reader s it) ->
    J ox (it_set_reader s it) /\ mle (mi (it_set_reader s it)) (mi it).
  Proof.
    intros HJ Hs C. destruct (next_conv he ox it (proj1 HJ) Hs) as (y & it2 & C2 & A1 & A2 & _).
    pose proof (conv_uniq _ _ _ C C2) as Q. injection Q as <- <-.
    destruct C as [N HN]. pose proof (next_keep he ox N it (J_K _ _ HJ)) as [K1 _]. rewrite HN in K1 by lia.
    split; [now apply J_of|exact A2].
  Qed.

  Lemma loop_two a b : eq_it a b -> settled a -> settled b -> J oA a -> J oB b ->
    exists xa a' xb b', conv2 (fun n f => @iter_loop zl f he oA n a) (xa, a') /\
      conv2 (fun n f => @iter_loop zl f he oB n b) (xb, b') /\ next_two xa a' xb b'.
  Proof.
    remember (mi a) as k eqn:Hk. revert a b Hk.
    induction k as [k IH] using (well_founded_induction mlt_wf). intros a b Hk HE Sa Sb Ja Jb. subst k.
    pose proof HE as (H1 & H2 & H3 & H4 & H5 & H6 & H7 & H8 & H9).
    set (sl := match it_next_line a with Some l => Some (HBytes l) | None => None end).
    destruct (record_two sl (it_known a) (it_reader a)) as (ya & sa & CA & H).
    { split; [apply Ja|apply Ja]. }
    destruct ya as [ra|e].
    - destruct H as (HI & Hd & Hb & yb & sb & h & CB & HM & H).
      assert (LA : conv2 (fun n f => @iter_loop zl f he oA n a)
         (let it1 := mk_iter sa (it_offset a) (if lo_a2w o then it_known a else Some (rc_format ra)) None (it_next_line a)
                      (it_err_count a) (Some ra) (it_phase a) (it_raise_gz a) (it_empty a) in
          if it_raise_gz a then (Err ArchiveLoadFailed, set_phase PDone it1) else (Ok (Some ra), set_phase PYield it1))).
      { destruct CA as [N HN]. exists (Datatypes.S N). intros [|n] f Hn Hf; [lia|]. cbn [iter_loop]. unfold next_record. fold sl.
        rewrite HN by lia. cbn [it_raise_gz]. now destruct (it_raise_gz a). }
      cbn zeta in LA.
      destruct (it_raise_gz a) eqn:Eg.
      { destruct (loop_conv he oB b (proj1 Jb) Sb) as (xb & b' & LB & _).
        eexists _, _, xb, b'. split; [exact LA|]. split; [exact LB|]. apply nt_late; [reflexivity|].
        intros rb ->. destruct LB as [N HN]. apply (loop_raise N oB N b rb b'); [congruence|]. apply HN; lia. }
      destruct yb as [rb|e].
      + eexists _, _, (Ok (Some rb)), _. split; [exact LA|]. split.
        { destruct CB as [N HN]. exists (Datatypes.S N). intros [|n] f Hn Hf; [lia|]. cbn [iter_loop]. unfold next_record.
          rewrite <- H5, <- H3, <- H1. fold sl. rewrite HN by lia. cbn [it_raise_gz]. rewrite <- H8. reflexivity. }
        apply nt_rec with ra h; [reflexivity|]. destruct H as [<- HF]. unfold handed, set_phase. cbn.
        destruct HF as (F1 & HF). rewrite <- F1, H3. repeat split; try assumption; try reflexivity; try (symmetry; assumption).
        all: try apply HI; try apply HM; try apply HF.
      + destruct (loop_conv he oB b (proj1 Jb) Sb) as (xb & b' & LB & _).
        assert (De : e = EOFError \/ e <> EOFError) by (destruct e; (now left) || (right; discriminate)).
        destruct De as [-> | De].
        * eexists _, _, xb, b'. split; [exact LA|]. split; [exact LB|]. apply nt_empty with ra; [reflexivity|exact H|reflexivity].
        * eexists _, _, (Err e), (set_phase PDone (it_set_reader (rs_base sb) b)). split; [exact LA|]. split.
          { destruct CB as [N HN]. exists (Datatypes.S N). intros [|n] f Hn Hf; [lia|]. cbn [iter_loop]. unfold next_record.
            rewrite <- H5, <- H3, <- H1. fold sl. rewrite HN by lia. destruct e; try reflexivity. contradiction. }
          apply nt_bad with ra; [reflexivity|exact De|exact H].
    - rename H into CB.
      assert (NA : conv (fun f => @next_record zl f he oA a) (Err e, it_set_reader sa a)).
      { destruct CA as [N HN]. exists N. intros f Hf. unfold next_record. fold sl. now rewrite HN. }
      assert (NB : conv (fun f => @next_record zl f he oB b) (Err e, it_set_reader sa b)).
      { destruct CB as [N HN]. exists N. intros f Hf. unfold next_record. rewrite <- H5, <- H3, <- H1. fold sl. now rewrite HN. }
      assert (De : e = EOFError \/ e <> EOFError) by (destruct e; (now left) || (right; discriminate)).
      destruct De as [-> | De].
      2:{ eexists (Err e), _, (Err e), _. split; [|split; [|apply nt_exn; reflexivity]].
          - destruct NA as [N HN]. exists (Datatypes.S N). intros [|n] f Hn Hf; [lia|]. cbn [iter_loop]. rewrite HN by lia.
            destruct e; try reflexivity. contradiction.
          - destruct NB as [N HN]. exists (Datatypes.S N). intros [|n] f Hn Hf; [lia|]. cbn [iter_loop]. rewrite HN by lia.
            destruct e; try reflexivity. contradiction. }
      destruct (next_J oA a EOFError sa Ja Sa NA) as [Ja1 Ma1]. destruct (next_J oB b EOFError sa Jb Sb NB) as [Jb1 _].
      pose proof (settled_set_reader sa a Sa) as Sa1. pose proof (settled_set_reader sa b Sb) as Sb1.
      pose proof (eq_set_reader sa a b HE) as HE1.
      assert (HE2 : eq_it (set_empty true (it_set_reader sa a)) (set_empty true (it_set_reader sa b))).
      { destruct HE1 as (Q1 & Q2 & Q3 & Q4 & Q5 & Q6 & Q7 & Q8 & Q9). unfold eq_it, set_empty. cbn in *. repeat split; assumption. }
      destruct (after_eq _ _ HE2 Sa1 Sb1) as (x & a2 & b2 & EA & EB & HE3 & Sa2 & Sb2 & _).
      destruct (after_J oA (set_empty true (it_set_reader sa a)) a2 x Ja1 Sa1 EA) as (Ja2 & Ma2 & La2).
      destruct (after_J oB (set_empty true (it_set_reader sa b)) b2 x Jb1 Sb1 EB) as (Jb2 & _ & _).
      assert (StA : exists N, forall n f, (N <= f)%nat -> @iter_loop zl f he oA (Datatypes.S n) a =
                     if x then @iter_loop zl f he oA n a2 else (Ok None, close_iter a2)).
      { destruct NA as [N HN]. exists N. intros n f Hf. cbn [iter_loop]. rewrite HN, EA by lia. now destruct x. }
      assert (StB : exists N, forall n f, (N <= f)%nat -> @iter_loop zl f he oB (Datatypes.S n) b =
                     if x then @iter_loop zl f he oB n b2 else (Ok None, close_iter b2)).
      { destruct NB as [N HN]. exists N. intros n f Hf. cbn [iter_loop]. rewrite HN, EB by lia. now destruct x. }
      destruct StA as [NA' SA], StB as [NB' SB].
      destruct x.
      + specialize (La2 eq_refl eq_refl). change (mi (set_empty true (it_set_reader sa a))) with (mi (it_set_reader sa a)) in La2.
        assert (Hlt : mlt (mi a2) (mi a)) by ms_lia.
        destruct (IH _ Hlt a2 b2 eq_refl HE3 Sa2 Sb2 Ja2 Jb2) as (xa & a' & xb & b' & [P HP] & [Q HQ] & HR).
        exists xa, a', xb, b'. split; [|split; [|exact HR]].
        * exists (Datatypes.S (Nat.max NA' P)). intros [|n] f Hn Hf; [lia|]. rewrite SA by lia. apply HP; lia.
        * exists (Datatypes.S (Nat.max NB' Q)). intros [|n] f Hn Hf; [lia|]. rewrite SB by lia. apply HQ; lia.
      + eexists (Ok None), _, (Ok None), _. split; [|split; [|apply nt_stop; reflexivity]].
        * exists (Datatypes.S NA'). intros [|n] f Hn Hf; [lia|]. apply SA. lia.
        * exists (Datatypes.S NB'). intros [|n] f Hn Hf; [lia|]. apply SB. lia.
  Qed.

  Lemma iter_next_two a b : eq_it a b -> settled a -> settled b -> J oA a -> J oB b ->
    exists xa a' xb b', conv (fun f => @iter_next zl f he oA a) (xa, a') /\
      conv (fun f => @iter_next zl f he oB b) (xb, b') /\ next_two xa a' xb b'.
  Proof.
    intros HE Sa Sb Ja Jb. pose proof HE as (_ & _ & _ & _ & _ & _ & H7 & _). unfold iter_next. rewrite <- H7.
    destruct (it_phase a).
    - destruct (loop_two a b HE Sa Sb Ja Jb) as (xa & a' & xb & b' & C1 & C2 & H). exists xa, a', xb, b'.
      split; [exact (conv2_diag _ _ C1)|]. split; [exact (conv2_diag _ _ C2)|exact H].
    - destruct (after_eq _ _ HE Sa Sb) as (x & a2 & b2 & EA & EB & HE3 & Sa2 & Sb2 & _).
      destruct (after_J oA _ _ x Ja Sa EA) as (Ja2 & _ & _). destruct (after_J oB _ _ x Jb Sb EB) as (Jb2 & _ & _).
      destruct x.
      + destruct (loop_two a2 b2 HE3 Sa2 Sb2 Ja2 Jb2) as (xa & a' & xb & b' & C1 & C2 & H). apply conv2_diag in C1, C2.
        exists xa, a', xb, b'. split; [|split; [|exact H]].
        * destruct C1 as [N HN]. exists N. intros f Hf. rewrite EA. now apply HN.
        * destruct C2 as [N HN]. exists N. intros f Hf. rewrite EB. now apply HN.
      + eexists (Ok None), _, (Ok None), _. split; [|split; [|apply nt_stop; reflexivity]]; exists O; intros f _; [now rewrite EA|now rewrite EB].
    - exists (Ok None), a, (Ok None), b. split; [apply conv_const|]. split; [apply conv_const|]. now apply nt_stop.
  Qed.

  (** ** Reading a record in one piece *)
  Lemma whole ox (it : it_t) rc E X : J ox it -> it_record it = Some rc -> it_member it = None -> ends_at it rc E -> pay (rc_stream rc) X ->
    exists it2, conv (fun f => @user_ops zl f [URead None] it) ([Ok X], it2) /\ conv (fun f => @read_to_end zl f it2) (Ok tt, E).
  Proof.
    intros HJ E1 E2 HE HX. destruct (J_Is ox it rc HJ E1) as [HI Hb].
    assert (A0 : at_rec it rc E X [] it).
    { left. exists (rc_stream rc), X. split; [symmetry; now apply set_rstream_same|]. split; [exact HI|].
      split; [auto|]. now split. }
    destruct (user_ops_at ox it rc E X [URead None] [] it HJ E1 E2 HE) as (xs & it2 & C & A2); [constructor; [exact Logic.I|constructor]|exact A0|].
    destruct (user_all ox it rc E X HJ E1 E2 HE HX) as [it3 C3].
    pose proof (conv_uniq _ _ _ C C3) as Q. injection Q as Q <-. exists it2. split; [exact C3|].
    exact (info_at ox it rc E X _ it2 HJ E1 E2 HE A2).
  Qed.

  Lemma ends_J ox (it : it_t) rc E : J ox it -> it_record it = Some rc -> it_member it = None -> ends_at it rc E ->
    J ox E /\ it_phase E = it_phase it /\ settled E /\ mle (mi E) (mi it).
  Proof.
    intros HJ E1 E2 HE. destruct (J_Is ox it rc HJ E1) as [HI Hb].
    pose proof (ends_rte it rc E (rc_stream rc) E1 E2 HI (fun F H => H) HE) as C.
    rewrite (set_rstream_same it rc E1 Hb) in C.
    destruct (rte_conv ox it (proj1 HJ)) as (y & E' & C2 & A1 & A2 & A3 & _ & _ & A6).
    pose proof (conv_uniq _ _ _ C C2) as Q. injection Q as <- <-.
    destruct (ends_over ox it rc E HJ E1 HE) as (st & S1 & S2 & S3 & S4 & S5).
    split; [|split; [exact A3|split; [exact A6|exact A2]]].
    split; [exact A1|]. rewrite S1. destruct A1 as (_ & _ & A1). rewrite S1 in A1. destruct A1 as [A1 _].
    cbn [rc_set_stream rc_stream] in *. split; [rewrite <- A1; exact (proj2 (proj1 S5))|exact (proj2 S5)].
  Qed.

  Lemma next_J2 ox it rc it' : J ox it -> settled it -> conv (fun f => @iter_next zl f he ox it) (Ok (Some rc), it') ->
    J ox it' /\ mlt (mi it') (mi it) /\ it_phase it' = PYield /\ it_record it' = Some rc /\ it_member it' = None.
  Proof.
    intros HJ Hs C. destruct (iter_next_conv he ox it) as (x & it1 & C2 & H); [split; [apply HJ|intros _; exact Hs]|].
    pose proof (conv_uniq _ _ _ C C2) as Q. injection Q as <- <-. destruct H as (I1 & M1 & P1).
    destruct C as [N HN].
    destruct (next_iter_keep he ox N it rc it' (J_K _ _ HJ) Hs (HN N (le_n _))) as (K1 & E1 & E2).
    split; [now apply J_of|]. split; [exact M1|]. split; [exact P1|]. now split.
  Qed.

  (** without digest checking the end of a record raises nothing *)
  Lemma ends_ex ox (it : it_t) rc : lo_check ox = KFalse -> J ox it -> it_record it = Some rc -> it_member it = None -> exists E, ends_at it rc E.
  Proof.
    intros Hk HJ E1 E2. destruct (rte_conv ox it (proj1 HJ)) as (y & E' & C2 & _ & _ & _ & _ & _ & A6).
    destruct y as [u|e]; [|destruct A6 as [A6 _]; rewrite Hk in A6; discriminate].
    exists E'. exact (rte_ends ox it rc u E' HJ E1 E2 C2).
  Qed.

  Definition seen_at (E : it_t) (rc : record rdr) (X : bytes) : @obs zl := mk_obs rc [Ok X] (Ok (it_member E)) (it_passed E).

  Lemma step ox k it it1 rc E X os en : J ox it -> settled it ->
    conv (fun f => @iter_next zl f he ox it) (Ok (Some rc), it1) -> ends_at it1 rc E -> pay (rc_stream rc) X ->
    conv2 (fun n f => @run_iter zl f he ox n read_all (Datatypes.S k) E) (os, en) ->
    conv2 (fun n f => @run_iter zl f he ox n read_all k it) (seen_at E rc X :: os, en).
  Proof.
    intros HJ Hs C HE HX [Q HQ]. destruct (next_J2 ox it rc it1 HJ Hs C) as (J1 & _ & _ & E1 & E2).
    destruct (whole ox it1 rc E X J1 E1 E2 HE HX) as (it2 & [M HM] & [P HP]). destruct C as [N HN].
    exists (Datatypes.S (Nat.max (Nat.max N M) (Nat.max P Q))). intros [|n] f Hn Hf; [lia|].
    cbn [run_iter]. rewrite HN by lia. unfold read_all at 1. rewrite HM by lia. unfold get_offset_length. rewrite HP by lia.
    rewrite HQ by lia. reflexivity.
  Qed.

  Lemma bad_holds ra e E X : rec_bad ra e -> holds_http (seen_at E ra X).
  Proof. intros (H1 & H2 & _). now split. Qed.

  Lemma run_two k a b : eq_it a b -> settled a -> settled b -> J oA a -> J oB b ->
    exists osa ena osb enb, conv2 (fun n f => @run_iter zl f he oA n read_all k a) (osa, ena) /\
      conv2 (fun n f => @run_iter zl f he oB n read_all k b) (osb, enb) /\
      exists ca cb ra rb, osa = ca ++ ra /\ osb = cb ++ rb /\ Forall2 (framed o) ca cb /\ parted o ra ena rb enb.
  Proof.
    remember (mi a) as j eqn:Hj. revert k a b Hj.
    induction j as [j IH] using (well_founded_induction mlt_wf). intros k a b Hj HE Sa Sb Ja Jb. subst j.
    destruct (iter_next_two a b HE Sa Sb Ja Jb) as (xa & a1 & xb & b1 & CA & CB & HR).
    assert (RB : exists osb enb, conv2 (fun n f => @run_iter zl f he oB n read_all k b) (osb, enb)).
    { destruct (run_conv he oB read_all k b) as (os & en & C & _); [split; [apply Jb|intros _; exact Sb]|]. now exists os, en. }
    assert (EndA : forall x, xa = x -> (forall r, x <> Ok (Some r)) ->
      conv2 (fun n f => @run_iter zl f he oA n read_all k a) ([], match x with Err e => EndExn e | Ok _ => EndStop end)).
    { intros x -> Hx. destruct CA as [N HN]. exists (Datatypes.S N). intros [|n] f Hn Hf; [lia|]. cbn [run_iter].
      rewrite HN by lia. destruct x as [[r|]|e]; [destruct (Hx r); reflexivity|reflexivity|reflexivity]. }
    assert (EndB : forall x, xb = x -> (forall r, x <> Ok (Some r)) ->
      conv2 (fun n f => @run_iter zl f he oB n read_all k b) ([], match x with Err e => EndExn e | Ok _ => EndStop end)).
    { intros x -> Hx. destruct CB as [N HN]. exists (Datatypes.S N). intros [|n] f Hn Hf; [lia|]. cbn [run_iter].
      rewrite HN by lia. destruct x as [[r|]|e]; [destruct (Hx r); reflexivity|reflexivity|reflexivity]. }
    assert (StA : forall ra, xa = Ok (Some ra) -> exists E X, ends_at a1 ra E /\ pay (rc_stream ra) X /\ J oA E /\ settled E /\
                   it_phase E = PYield /\ mlt (mi E) (mi a)).
    { intros ra ->. destruct (next_J2 oA a ra a1 Ja Sa CA) as (J1 & M1 & P1 & E1 & E2).
      destruct (ends_ex oA a1 ra Hcheck J1 E1 E2) as [E HE1]. destruct (ends_fin _ _ _ HE1) as [F HF].
      destruct (pay_ex _ _ HF) as [X HX]. destruct (ends_J oA a1 ra E J1 E1 E2 HE1) as (JE & PE & SE & ME).
      exists E, X. split; [exact HE1|]. split; [exact HX|]. split; [exact JE|]. split; [exact SE|]. split; [congruence|ms_lia]. }
    assert (RestA : forall ra, xa = Ok (Some ra) -> exists E X os en, pay (rc_stream ra) X /\
                   conv2 (fun n f => @run_iter zl f he oA n read_all k a) (seen_at E ra X :: os, en)).
    { intros ra Hx. destruct (StA ra Hx) as (E & X & HE1 & HX & JE & SE & PE & ME). subst xa.
      destruct (run_conv he oA read_all (Datatypes.S k) E) as (os & en & C & _); [split; [apply JE|intros _; exact SE]|].
      exists E, X, os, en. split; [exact HX|]. now apply (step oA k a a1 ra E X os en Ja Sa CA HE1 HX). }
    destruct HR as [ra rb b' h Ea HH|b' Ea|e b' Ea|xb b' Ea Hn|ra e b' Ea De Hb|ra xb b' Ea Hb Er].
    - (* a record *)
      destruct (StA ra Ea) as (E & X & HE1 & HX & JE & SE & PE & ME). subst xa.
      destruct HH as (E1 & E2 & M1 & M2 & R1 & R2 & O1 & O2 & O3 & O4 & P1 & P2 & O5 & O6 & HI & HM & HF & Hd).
      destruct (next_J2 oB b rb b' Jb Sb CB) as (J2 & _ & _ & _ & _).
      destruct (proj1 (proj2 (proj2 HM)) X HX) as (w & -> & Hw).
      destruct HE1 as (F & nl & size & errs & r & HFn & IF & C2 & ->).
      assert (HE2 : ends_at b' rb (finish (it_set_rstream F b') nl size errs r)).
      { exists F, nl, size, errs, r. split; [apply (proj1 (proj2 HM)); exact HFn|]. split; [exact IF|]. now split. }
      assert (HE1 : ends_at a1 ra (finish (it_set_rstream F a1) nl size errs r)).
      { exists F, nl, size, errs, r. now repeat split; try apply IF. }
      destruct (ends_J oB b' rb _ J2 E2 M2 HE2) as (JEb & PEb & SEb & _).
      set (Ea := finish (it_set_rstream F a1) nl size errs r) in *.
      set (Eb := finish (it_set_rstream F b') nl size errs r) in *.
      assert (HEq : eq_it Ea Eb).
      { subst Ea Eb. unfold eq_it, finish, it_set_rstream, it_set_reader. cbn.
        rewrite O1, O2, O4, O5, O6, P1, P2. repeat split. }
      destruct (IH _ ME (Datatypes.S k) Ea Eb eq_refl HEq SE SEb JE JEb)
        as (osa & ena & osb & enb & CA2 & CB2 & ca & cb & la & lb & -> & -> & HFr & HP).
      exists (seen_at Ea ra (h ++ w) :: ca ++ la), ena, (seen_at Eb rb w :: cb ++ lb), enb.
      split; [now apply (step oA k a a1 ra Ea (h ++ w) _ _ Ja Sa CA HE1 HX)|].
      split; [now apply (step oB k b b' rb Eb w _ _ Jb Sb CB HE2 Hw)|].
      exists (seen_at Ea ra (h ++ w) :: ca), (seen_at Eb rb w :: cb), la, lb.
      split; [reflexivity|]. split; [reflexivity|]. split; [|exact HP]. constructor; [|exact HFr].
      destruct HF as (F1 & F2 & F3 & F4 & F5 & F6 & F7).
      split; cbn [seen_at ob_record ob_info ob_reads]; try assumption.
      + f_equal. exact (proj1 (proj2 (proj2 (proj2 HEq)))).
      + exists h, w. split; [reflexivity|]. split; [reflexivity|]. split; assumption.
    - exists [], EndStop, [], EndStop. split; [apply (EndA (Ok None) Ea); discriminate|].
      split; [apply (EndB (Ok None) eq_refl); discriminate|].
      exists [], [], [], []. split; [reflexivity|]. split; [reflexivity|]. split; [constructor|]. now left.
    - exists [], (EndExn e), [], (EndExn e). split; [apply (EndA (Err e) Ea); discriminate|].
      split; [apply (EndB (Err e) eq_refl); discriminate|].
      exists [], [], [], []. split; [reflexivity|]. split; [reflexivity|]. split; [constructor|]. now left.
    - eexists [], (EndExn ArchiveLoadFailed), [], _. split; [apply (EndA (Err ArchiveLoadFailed) Ea); discriminate|].
      split; [apply (EndB xb eq_refl); exact Hn|].
      exists [], [], [], []. split; [reflexivity|]. split; [reflexivity|]. split; [constructor|]. right. left. now repeat split.
    - destruct (RestA ra Ea) as (E & X & os & en & HX & C). exists (seen_at E ra X :: os), en, [], (EndExn e). split; [exact C|].
      split; [apply (EndB (Err e) eq_refl); discriminate|].
      exists [], [], (seen_at E ra X :: os), []. split; [reflexivity|]. split; [reflexivity|]. split; [constructor|].
      right. right. exists (seen_at E ra X), os. split; [reflexivity|]. split; [exact (bad_holds _ _ _ _ Hb)|].
      destruct Hb as (_ & _ & [[-> Hb]|[(V & l & ->)|[-> _]]]); [left|right; left|contradiction].
      + repeat split. exact Hb.
      + split; [reflexivity|]. split; [exact V|now exists l].
    - destruct (RestA ra Ea) as (E & X & os & en & HX & C). destruct RB as (osb & enb & CB2).
      exists (seen_at E ra X :: os), en, osb, enb. split; [exact C|]. split; [exact CB2|].
      exists [], [], (seen_at E ra X :: os), osb. split; [reflexivity|]. split; [reflexivity|]. split; [constructor|].
      right. right. exists (seen_at E ra X), os. split; [reflexivity|]. split; [exact (bad_holds _ _ _ _ Hb)|].
      right. right. destruct Hb as (_ & _ & [[Hb _]|[(_ & l & Hb)|[_ Hb]]]); [discriminate|discriminate|].
      cbn [seen_at ob_reads]. now rewrite (pay_nil _ _ Hb HX).
  Qed.
End Frame.
