(** * TermLoad: reading headers and loading a record ends, on every input *)
From Coq Require Import List ZArith NArith Bool String Lia Wellfounded.
From Coq Require Import ZifyBool ZifyNat ZifyN.
From Verif Require Import PyBase Facts Codecs Utf8 Headers Streams TimeUtils TimeProofs Loader Iterator TermProofs.
Import ListNotations.
Open Scope Z_scope.

(** ** Header blocks *)
Section Parse.
  Context {S : Type} (I : S -> Prop) (m : S -> ms) (E : S -> exn -> Prop) (ops : nat -> sops S).
  Hypothesis G : good I m E ops.

  Definition keeps (s s' : S) : Prop := I s' /\ mle (m s') (m s) /\ (forall e, E s' e -> E s e).
  Lemma keeps_refl s : I s -> keeps s s.
  Proof. intros H. split; [exact H|]. split; [apply mle_refl|auto]. Qed.
  Lemma keeps_trans a b c : keeps a b -> keeps b c -> keeps a c.
  Proof. intros (A1 & A2 & A3) (B1 & B2 & B3). split; [exact B1|]. split; [ms_lia|auto]. Qed.

  Notation rl f := (o_readline (ops f) None).

  Lemma line_conv s : I s -> exists r, conv (fun f => rl f s) r /\ keeps s (snd r) /\
    match fst r with Ok b => b <> [] -> mlt (m (snd r)) (m s) | Err e => E s e end.
  Proof.
    intros HI. destruct (g_line _ _ _ _ G None s HI) as (r & C & H1 & H2 & H3 & H4).
    exists r. split; [exact C|]. split; [now split|]. destruct (fst r) as [b|e]; [|exact H4].
    intros Hb. destruct b; [contradiction|]. ms_lia.
  Qed.

  Lemma next_line_conv total s : I s ->
    exists r, conv (fun f => next_line (rl f) total s) r /\ keeps s (snd r) /\
      match fst r with Ok (l, _) => l <> [] -> mlt (m (snd r)) (m s) | Err e => E s e end.
  Proof.
    intros HI. destruct (line_conv s HI) as ([x s'] & [N HN] & K & H). cbn [fst snd] in *.
    destruct x as [b|e].
    - exists (Ok (urstrip (decode_header b), total + lenZ (decode_header b)), s'). split; [|split; [exact K|]].
      + exists N. intros f Hf. unfold next_line. now rewrite HN.
      + cbn [fst snd]. intros Hl. apply H. intros ->. now apply Hl.
    - exists (Err e, s'). split; [|split; [exact K|exact H]].
      exists N. intros f Hf. unfold next_line. now rewrite HN.
  Qed.

  Lemma cont_conv v line total s : I s ->
    exists r, conv2 (fun n f => cont_loop (rl f) n v line total s) r /\ keeps s (snd r) /\
      match fst r with
      | Ok (_, l, _) => l <> [] -> (l = line /\ snd r = s) \/ mlt (m (snd r)) (m s)
      | Err e => E s e
      end.
  Proof.
    remember (m s) as k eqn:Hk. revert v line total s Hk.
    induction k as [k IH] using (well_founded_induction mlt_wf). intros v line total s Hk HI. subst k.
    destruct (negb (is_nil line) && starts_sp_tab line) eqn:Ec.
    2:{ exists (Ok (v, line, total), s). split; [|split; [now apply keeps_refl|now left]].
        exists 1%nat. intros [|n] f Hn _; [lia|]. cbn [cont_loop]. now rewrite Ec. }
    destruct (next_line_conv total s HI) as ([x s'] & [N HN] & K & H). cbn [fst snd] in *.
    destruct x as [[l t]|e].
    2:{ exists (Err e, s'). split; [|split; [exact K|exact H]].
        exists (Datatypes.S N). intros [|n] f Hn Hf; [lia|]. cbn [cont_loop]. rewrite Ec, HN by lia. reflexivity. }
    set (v' := match v with Some v => Some (v ++ line) | None => None end).
    destruct l as [|c l].
    { exists (Ok (v', [], t), s'). split; [|split; [exact K|]].
      - exists (N + 2)%nat. intros [|[|n]] f Hn Hf; try lia. cbn [cont_loop]. rewrite Ec, HN by lia. reflexivity.
      - cbn [fst]. contradiction. }
    specialize (H ltac:(discriminate)).
    destruct (IH _ H v' (c :: l) t s' eq_refl (proj1 K)) as (r & [M HM] & K2 & H2).
    exists r. split; [|split; [exact (keeps_trans _ _ _ K K2)|]].
    - exists (Datatypes.S (Nat.max N M)). intros [|n] f Hn Hf; [lia|]. cbn [cont_loop].
      rewrite Ec, HN by lia. apply HM; lia.
    - destruct (fst r) as [[[? l'] ?]|e]; [|now apply K]. intros Hl. right.
      destruct (H2 Hl) as [[_ ->]|H3]; ms_lia.
  Qed.

  Lemma header_conv acc line total s : I s ->
    exists r, conv2 (fun n f => header_loop (rl f) f n acc line total s) r /\ keeps s (snd r) /\
      match fst r with Ok _ => True | Err e => E s e end.
  Proof.
    remember (m s) as k eqn:Hk. revert acc line total s Hk.
    induction k as [k IH] using (well_founded_induction mlt_wf). intros acc line total s Hk HI. subst k.
    destruct line as [|c line].
    { exists (Ok (acc, total), s). split; [|split; [now apply keeps_refl|exact Logic.I]].
      exists 1%nat. intros [|n] f Hn _; [lia|]. reflexivity. }
    destruct (split_header (c :: line)) as [name value] eqn:Es.
    destruct (next_line_conv total s HI) as ([x s'] & [N HN] & K & H). cbn [fst snd] in *.
    destruct x as [[nl t]|e].
    2:{ exists (Err e, s'). split; [|split; [exact K|exact H]].
        exists (Datatypes.S N). intros [|n] f Hn Hf; [lia|]. cbn [header_loop is_nil]. rewrite Es, HN by lia. reflexivity. }
    destruct (cont_conv value nl t s' (proj1 K)) as ([y s2] & [M HM] & K2 & H2). cbn [fst snd] in *.
    pose proof (keeps_trans _ _ _ K K2) as K3.
    destruct y as [[[v' l'] t']|e].
    2:{ exists (Err e, s2). split; [|split; [exact K3|now apply K]].
        exists (Datatypes.S (Nat.max N M)). intros [|n] f Hn Hf; [lia|]. cbn [header_loop is_nil].
        rewrite Es, HN, HM by lia. reflexivity. }
    set (acc' := match v' with Some v => acc ++ [(name, v)] | None => acc end).
    destruct l' as [|c' l'].
    { exists (Ok (acc', t'), s2). split; [|split; [exact K3|exact Logic.I]].
      exists (Nat.max N M + 2)%nat. intros [|[|n]] f Hn Hf; try lia.
      cbn [header_loop is_nil]. rewrite Es, HN, HM by lia. reflexivity. }
    assert (Hlt : mlt (m s2) (m s)).
    { destruct (H2 ltac:(discriminate)) as [[<- ->]|H3]; [apply H; discriminate|].
      destruct K as (_ & K & _). ms_lia. }
    destruct (IH _ Hlt acc' (c' :: l') t' s2 eq_refl (proj1 K2)) as (r & [P HP] & K4 & H4).
    exists r. split; [|split; [exact (keeps_trans _ _ _ K3 K4)|]].
    - exists (Datatypes.S (Nat.max (Nat.max N M) P)). intros [|n] f Hn Hf; [lia|]. cbn [header_loop is_nil].
      rewrite Es, HN, HM by lia. cbn beta iota. apply HP; lia.
    - destruct (fst r); [exact Logic.I|now apply K3].
  Qed.

  (** the errors of the parser itself *)
  Definition parse_exn (verify : bool) (e : exn) : Prop :=
    e = EOFError \/ (verify = true /\ exists l, e = ParserExn l).

  Lemma parse_conv p full s : I s ->
    exists r, conv (fun f => parse (rl f) f p full s) r /\ keeps s (snd r) /\
      match fst r with
      | Ok _ => full = None -> mlt (m (snd r)) (m s)
      | Err e => (E s e \/ parse_exn (p_verify p) e) /\
                 ((exists l, e = ParserExn l) -> ~ E s e -> full = None -> mlt (m (snd r)) (m s))
      end.
  Proof.
    intros HI.
    (* the first line *)
    assert (F : exists h s1, conv (fun f => match full with
                    | Some h => (Ok h, s)
                    | None => match rl f s with
                              | (Ok b, s') => (Ok (HBytes b), s')
                              | (Err e, s') => (Err e, s')
                              end
                    end) (h, s1) /\ keeps s s1 /\
                match h with
                | Ok h => full = None -> decode_hline h <> [] -> mlt (m s1) (m s)
                | Err e => E s e
                end).
    { destruct full as [h|].
      - exists (Ok h), s. split; [apply conv_const|]. split; [now apply keeps_refl|discriminate].
      - destruct (line_conv s HI) as ([x s'] & [N HN] & K & H). cbn [fst snd] in *. destruct x as [b|e].
        + exists (Ok (HBytes b)), s'. split; [exists N; intros f Hf; now rewrite HN|]. split; [exact K|].
          intros _ Hd. apply H. intros ->. now apply Hd.
        + exists (Err e), s'. split; [exists N; intros f Hf; now rewrite HN|]. split; [exact K|exact H]. }
    destruct F as (h & s1 & [N HN] & K1 & H1). unfold parse.
    destruct h as [h|e].
    2:{ exists (Err e, s1). split; [exists N; intros f Hf; now rewrite HN|]. split; [exact K1|].
        cbn [fst]. split; [now left|]. intros _ Hn. contradiction. }
    destruct (lenZ (decode_hline h) =? 0) eqn:E0.
    { exists (Err EOFError, s1). split; [exists N; intros f Hf; rewrite HN by lia; now rewrite E0|].
      split; [exact K1|]. cbn [fst]. split; [right; now left|]. intros [l Hl]; discriminate. }
    assert (Hne : decode_hline h <> []) by (intros Hz; rewrite Hz in E0; discriminate).
    destruct (is_nil (urstrip (decode_hline h))) eqn:E1.
    { eexists (Ok _, s1). split; [exists N; intros f Hf; rewrite HN by lia; rewrite E0, E1; reflexivity|].
      split; [exact K1|]. cbn [fst snd]. intros Hf. now apply H1. }
    set (ps := if p_verify p then
                 match split_prefix (urstrip (decode_hline h)) (p_list p) with
                 | Some (a, b) => Some (a, Some b)
                 | None => None
                 end
               else match split1 32%N (urstrip (decode_hline h)) with
                    | Some (a, b) => Some (a, Some b)
                    | None => Some (urstrip (decode_hline h), None)
                    end).
    assert (Hps : ps = None -> p_verify p = true).
    { subst ps. destruct (p_verify p); [reflexivity|]. destruct (split1 32 _) as [[? ?]|]; discriminate. }
    destruct ps as [[proto st]|] eqn:Eps.
    2:{ exists (Err (ParserExn (decode_hline h)), s1). split; [exists N; intros f Hf; rewrite HN by lia|].
        { rewrite E0, E1. fold ps. rewrite Eps. reflexivity. }
        split; [exact K1|]. cbn [fst snd]. split; [right; right; split; [auto|eauto]|]. intros _ _ Hf. now apply H1. }
    destruct (next_line_conv (lenZ (decode_hline h)) s1 (proj1 K1)) as ([x s2] & [M HM] & K2 & H2). cbn [fst snd] in *.
    pose proof (keeps_trans _ _ _ K1 K2) as K12.
    destruct x as [[l t]|e].
    2:{ exists (Err e, s2). split.
        { exists (Nat.max N M). intros f Hf. rewrite HN by lia. rewrite E0, E1. fold ps. rewrite Eps, HM by lia. reflexivity. }
        split; [exact K12|]. cbn [fst snd]. assert (E s e) by now apply K1. split; [now left|]. intros _ Hn. contradiction. }
    destruct (header_conv [] l t s2 (proj1 K2)) as ([y s3] & HP & K3 & H3). cbn [fst snd] in *.
    apply conv2_diag in HP. destruct HP as [P HP].
    pose proof (keeps_trans _ _ _ K12 K3) as K13.
    destruct y as [[hs tot]|e].
    - eexists (Ok _, s3). split.
      { exists (Nat.max N (Nat.max M P)). intros f Hf. rewrite HN by lia. rewrite E0, E1. fold ps.
        rewrite Eps, HM, HP by lia. reflexivity. }
      split; [exact K13|]. cbn [fst snd]. intros Hf. specialize (H1 Hf Hne).
      destruct K2 as (_ & K2 & _), K3 as (_ & K3 & _). ms_lia.
    - exists (Err e, s3). split.
      { exists (Nat.max N (Nat.max M P)). intros f Hf. rewrite HN by lia. rewrite E0, E1. fold ps.
        rewrite Eps, HM, HP by lia. reflexivity. }
      split; [exact K13|]. cbn [fst snd]. assert (E s e) by now apply K12. split; [now left|]. intros _ Hn. contradiction.
  Qed.
End Parse.

(** ** The streams of records *)
Section RS.
  Context {S : Type} (I : S -> Prop) (m : S -> ms) (ops : nat -> sops S).
  Notation E := (fun (_ : S) (_ : exn) => False).
  Hypothesis G : good I m E ops.

  Notation Il := (fun l : limr S => I (lm_stream l)).
  Notation ml := (fun l : limr S => m (lm_stream l)).
  Notation El := (fun (_ : limr S) (_ : exn) => False).

  Lemma lim_good : good Il ml El (fun f => lim_ops (ops f)).
  Proof.
    split; intros n l HI; cbn [lim_ops o_read o_readline].
    - unfold lim_read. destruct (lim_len n l =? 0).
      { exists (Ok [], l). split; [apply conv_const|]. split; [exact HI|]. cbn [fst snd].
        repeat split; [apply mle_refl|tauto|ms_lia]. }
      destruct (g_read _ _ _ _ G (Some (lim_len n l)) (lm_stream l) HI) as ([x s'] & [N HN] & H1 & H2 & _ & H4).
      cbn [fst snd] in *. destruct x as [b|e]; [|contradiction].
      exists (Ok b, lim_update b s' l). split; [exists N; intros f Hf; now rewrite HN|].
      split; [exact H1|]. cbn [fst snd lim_update lm_stream]. repeat split; [exact H2|tauto|exact H4].
    - unfold lim_readline. destruct (lim_len n l =? 0).
      { exists (Ok [], l). split; [apply conv_const|]. split; [exact HI|]. cbn [fst snd].
        repeat split; [apply mle_refl|tauto|ms_lia]. }
      destruct (g_line _ _ _ _ G (Some (lim_len n l)) (lm_stream l) HI) as ([x s'] & [N HN] & H1 & H2 & _ & H4).
      cbn [fst snd] in *. destruct x as [b|e]; [|contradiction].
      exists (Ok b, lim_update b s' l). split; [exists N; intros f Hf; now rewrite HN|].
      split; [exact H1|]. cbn [fst snd lim_update lm_stream]. repeat split; [exact H2|tauto|exact H4].
  Qed.

  (** a digest reader whose digest values are of the form algorithm:value *)
  Definition parses (d : option str) : Prop := forall s, d = Some s -> parse_digest s <> None.
  Definition dig_ok (d : digr S) : Prop :=
    (dr_bobj d <> None -> parses (dr_bdig d)) /\ (dr_pobj d <> None -> parses (dr_pdig d)).

  (** what checking a digest can raise *)
  Definition chk_exn (k : ckind) (e : exn) : Prop :=
    (e = ArchiveLoadFailed /\ k = KRaise) \/ e = BinasciiErr.

  Lemma check_one_exn p g d c : (g <> None -> parses d) ->
    dc_kind (snd (check_one p g d c)) = dc_kind c /\
    match fst (check_one p g d c) with Ok _ => True | Err e => chk_exn (dc_kind c) e end.
  Proof.
    intros Hp. unfold check_one. unfold compare_digest.
    destruct g as [g|]; [|split; [reflexivity|exact Logic.I]].
    destruct d as [[|x d]|]; try (split; [reflexivity|exact Logic.I]).
    specialize (Hp ltac:(discriminate) _ eq_refl).
    destruct (parse_digest (x :: d)) as [[a v]|]; [|contradiction].
    unfold to_b32.
    assert (F : forall r : res str, (forall e, r = Err e -> e = BinasciiErr) ->
      dc_kind (snd (match match r with
                     | Err e => Err e
                     | Ok v => Ok (Some (leqb (dgst_b32 g) v))
                     end with
               | Err e => (Err e, c)
               | Ok (Some false) => match chk_problem p c with
                         | (Ok _, c') => (Ok true, c')
                         | (Err e, c') => (Err e, c')
                         end
               | Ok (Some true) => (Ok false, chk_pass c)
               | Ok None => (Ok false, c)
               end)) = dc_kind c /\
      match fst (match match r with
                     | Err e => Err e
                     | Ok v => Ok (Some (leqb (dgst_b32 g) v))
                     end with
               | Err e => (Err e, c)
               | Ok (Some false) => match chk_problem p c with
                         | (Ok _, c') => (Ok true, c')
                         | (Err e, c') => (Err e, c')
                         end
               | Ok (Some true) => (Ok false, chk_pass c)
               | Ok None => (Ok false, c)
               end) with Ok _ => True | Err e => chk_exn (dc_kind c) e end).
    { intros r Hr. destruct r as [w|e].
      - destruct (leqb (dgst_b32 g) w); cbn [fst snd].
        + split; [|exact Logic.I]. unfold chk_pass. now destruct (dc_passed c) as [[|]|].
        + unfold chk_problem. destruct (dc_kind c) eqn:Ek; cbn [fst snd dc_kind]; split;
            try exact Ek; try exact Logic.I; try reflexivity. now left.
      - cbn [fst snd]. split; [reflexivity|]. right. now apply Hr. }
    apply F. intros e. destruct (lenZ v =? lenZ (dgst_b32 g)); [discriminate|].
    destruct (lenZ (dgst_b32 g) <? lenZ v); [destruct (b16_wrapper v)|destruct (b64_wrapper v)]; congruence.
  Qed.

  Definition dr_kind (d : digr S) : ckind := dc_kind (dr_chk d).

  Lemma dig_update_exn b l d : dig_ok d ->
    let r := dig_update b l d in
    dig_ok (snd r) /\ dr_kind (snd r) = dr_kind d /\ dr_lim (snd r) = l /\
    match fst r with Ok x => x = b | Err e => chk_exn (dr_kind d) e end.
  Proof.
    intros [Hb Hp] r. subst r. unfold dig_update.
    set (pobj := if dr_pon d then option_map (dgst_update b) (dr_pobj d) else dr_pobj d).
    set (bobj := option_map (dgst_update b) (dr_bobj d)).
    assert (Hb' : bobj <> None -> parses (dr_bdig d)).
    { subst bobj. intros H. apply Hb. intros E. apply H. now rewrite E. }
    assert (Hp' : pobj <> None -> parses (dr_pdig d)).
    { subst pobj. intros H. apply Hp. intros E. apply H. rewrite E. now destruct (dr_pon d). }
    set (d1 := mk_dig l (dr_chk d) (dr_pdig d) (dr_bdig d) pobj (dr_pon d) bobj).
    assert (H1 : forall c, dig_ok (dr_set_chk c d1)) by (intros c; now split).
    destruct (lm_limit l =? 0).
    2:{ split; [exact (H1 (dr_chk d))|]. repeat split. }
    pose proof (check_one_exn PBlockFailed bobj (dr_bdig d) (dr_chk d) Hb') as [K1 X1].
    cbn [dr_bobj dr_bdig dr_chk d1]. destruct (check_one PBlockFailed bobj (dr_bdig d) (dr_chk d)) as [[x|e] c] eqn:E1;
      cbn [fst snd] in *.
    2:{ split; [apply H1|]. repeat split; [exact K1|exact X1]. }
    assert (Hp'' : dr_pdigester d1 <> None -> parses (dr_pdig d)).
    { unfold dr_pdigester. cbn [d1 dr_pon dr_pobj]. destruct (dr_pon d); [exact Hp'|congruence]. }
    pose proof (check_one_exn PPayloadFailed (dr_pdigester d1) (dr_pdig d) c Hp'') as [K2 X2].
    cbn [dr_pdig d1]. fold d1.
    destruct (check_one PPayloadFailed (dr_pdigester d1) (dr_pdig d) c) as [[y|e] c'] eqn:E2; cbn [fst snd] in *.
    - split; [apply H1|]. repeat split. unfold dr_kind. cbn [dr_set_chk dr_chk]. congruence.
    - split; [apply H1|]. repeat split; unfold dr_kind; cbn [dr_set_chk dr_chk]; [congruence|].
      rewrite <- K1. exact X2.
  Qed.

  Definition Irs (st : rstream S) : Prop :=
    I (rs_base st) /\ match st with RSdig d => dig_ok d | _ => True end.
  Definition mrs (st : rstream S) : ms := m (rs_base st).
  Definition Ers (st : rstream S) (e : exn) : Prop :=
    match st with RSdig d => chk_exn (dr_kind d) e | _ => False end.

  Lemma dig_rd_conv (op : forall T, sops T -> option Z -> T -> res bytes * T) n d :
    (forall k l, Il l -> exists r, conv (fun f => op _ (lim_ops (ops f)) k l) r /\ ends_with Il ml El l r) ->
    Irs (RSdig d) ->
    exists r, conv (fun f => dig_rd (ops f) (op (limr S)) n d) r /\
              ends_with Irs mrs Ers (RSdig d) (let (x, d') := r in (x, RSdig d')).
  Proof.
    intros Hop [HI Hd]. unfold dig_rd. cbn [rs_base] in HI.
    destruct (lim_len n (dr_lim d) =? 0).
    { exists (Ok [], d). split; [apply conv_const|]. split; [now split|]. cbn [fst snd].
      repeat split; [apply mle_refl|tauto|]. ms_lia. }
    destruct (Hop (Some (lim_len n (dr_lim d))) (lm_stream (dr_lim d)) HI) as ([x s'] & [N HN] & H1 & H2 & _ & H4).
    cbn [fst snd] in *. destruct x as [b|e]; [|contradiction].
    destruct (dig_update_exn b (lim_update b s' (dr_lim d)) d Hd) as (U1 & U2 & U3 & U4).
    exists (dig_update b (lim_update b s' (dr_lim d)) d). split; [exists N; intros f Hf; now rewrite HN|].
    destruct (dig_update b (lim_update b s' (dr_lim d)) d) as [x d'] eqn:Eu. cbn [fst snd] in *.
    split; [split; [cbn [snd rs_base]; rewrite U3; exact H1|exact U1]|]. cbn [fst snd].
    unfold mrs. cbn [rs_base]. rewrite U3. cbn [lim_update lm_stream].
    split; [exact H2|]. split; [cbn [Ers]; now rewrite U2|]. destruct x as [b'|e]; [subst b'; exact H4|exact U4].
  Qed.

  Lemma rs_good : good Irs mrs Ers (fun f => rs_ops (ops f)).
  Proof.
    split; intros n st HI; cbn [rs_ops o_read o_readline].
    - destruct st as [s|l|d]; cbn [rs_read].
      + destruct (g_read _ _ _ _ G n s (proj1 HI)) as ([x s'] & [N HN] & H1 & H2 & _ & H4). cbn [fst snd] in *.
        exists (x, RSbase s'). split; [exists N; intros f Hf; now rewrite HN|]. split; [now split|].
        repeat split; [exact H2|tauto|]. now destruct x.
      + destruct (g_read _ _ _ _ lim_good n l (proj1 HI)) as ([x s'] & [N HN] & H1 & H2 & _ & H4). cbn [fst snd lim_ops o_read] in *.
        exists (x, RSlim s'). split; [exists N; intros f Hf; now rewrite HN|]. split; [now split|].
        repeat split; [exact H2|tauto|]. now destruct x.
      + destruct (dig_rd_conv (@o_read) n d (g_read _ _ _ _ lim_good) HI) as ([x d'] & [N HN] & H).
        exists (x, RSdig d'). split; [|exact H]. exists N. intros f Hf. unfold dig_read. now rewrite HN.
    - destruct st as [s|l|d]; cbn [rs_readline].
      + destruct (g_line _ _ _ _ G n s (proj1 HI)) as ([x s'] & [N HN] & H1 & H2 & _ & H4). cbn [fst snd] in *.
        exists (x, RSbase s'). split; [exists N; intros f Hf; now rewrite HN|]. split; [now split|].
        repeat split; [exact H2|tauto|]. now destruct x.
      + destruct (g_line _ _ _ _ lim_good n l (proj1 HI)) as ([x s'] & [N HN] & H1 & H2 & _ & H4). cbn [fst snd lim_ops o_readline] in *.
        exists (x, RSlim s'). split; [exists N; intros f Hf; now rewrite HN|]. split; [now split|].
        repeat split; [exact H2|tauto|]. now destruct x.
      + destruct (dig_rd_conv (@o_readline) n d (g_line _ _ _ _ lim_good) HI) as ([x d'] & [N HN] & H).
        exists (x, RSdig d'). split; [|exact H]. exists N. intros f Hf. unfold dig_readline. now rewrite HN.
  Qed.
End RS.

(** ** Loading a record *)
Lemma timestamp_iso_total s : exists x, timestamp_to_iso_date s = Ok x.
Proof.
  destruct (to_datetime_total s) as (d & H & _). unfold timestamp_to_iso_date. rewrite H. eauto.
Qed.

Section Load.
  Context {S : Type} (I : S -> Prop) (m : S -> ms) (ops : nat -> sops S) (he : henv).
  Notation E := (fun (_ : S) (_ : exn) => False).
  Hypothesis G : good I m E ops.

  Notation keepsS := (keeps I m E).

  Definition arc_exn (e : exn) : Prop :=
    e = EOFError \/ (exists l, e = ParserExn l).

  Lemma arc2warc_total u l parts : lenZ parts = 5 -> exists hs, arc2warc_headers u l parts = Ok hs.
  Proof.
    intros H5. unfold arc2warc_headers.
    destruct parts as [|p1 [|p2 [|p3 [|p4 [|p5 [|p6 ps]]]]]]; try discriminate H5.
    - destruct (timestamp_iso_total p3) as [x ->]. eauto.
    - exfalso. rewrite !lenZ_cons in H5. pose proof (lenZ_nonneg ps). lia.
  Qed.

  Lemma arc_conv a2w uuid full s : I s ->
    exists r, conv (fun f => arc_parse (ops f) a2w uuid full s) r /\ keepsS s (snd r) /\
      match fst r with
      | Ok _ => full = None -> mlt (m (snd r)) (m s)
      | Err e => arc_exn e
      end.
  Proof.
    intros HI.
    assert (F : exists h s1, conv (fun f => match full with
                    | Some h => (Ok h, s)
                    | None => match o_readline (ops f) None s with
                              | (Ok b, s') => (Ok (HBytes b), s')
                              | (Err e, s') => (Err e, s')
                              end
                    end) (Ok h, s1) /\ keepsS s s1 /\
                (full = None -> decode_hline h <> [] -> mlt (m s1) (m s))).
    { destruct full as [h|].
      - exists h, s. split; [apply conv_const|]. split; [now apply keeps_refl|discriminate].
      - destruct (line_conv _ _ _ _ G s HI) as ([x s'] & [N HN] & K & H). cbn [fst snd] in *. destruct x as [b|e]; [|contradiction].
        exists (HBytes b), s'. split; [exists N; intros f Hf; now rewrite HN|]. split; [exact K|].
        intros _ Hd. apply H. intros ->. now apply Hd. }
    destruct F as (h & s1 & [N HN] & K1 & H1). unfold arc_parse.
    destruct (is_nil (decode_hline h)) eqn:E0.
    { exists (Err EOFError, s1). split; [exists N; intros f Hf; rewrite HN by lia; now rewrite E0|].
      split; [exact K1|]. now left. }
    assert (Hne : decode_hline h <> []) by (intros Hz; rewrite Hz in E0; discriminate).
    set (line := urstrip (decode_hline h)).
    (* the two lines of a filedesc record *)
    assert (F : exists t s2, conv (fun f => if is_filedesc line then
              match o_readline (ops f) None s1 with
              | (Err e, s2) => (Err e, s2)
              | (Ok v, s2) =>
                  match o_readline (ops f) None s2 with
                  | (Err e, s3) => (Err e, s3)
                  | (Ok sp, s3) => (Ok (lenZ (decode_header v) + lenZ (decode_header sp)), s3)
                  end
              end
            else (Ok 0, s1)) (Ok t, s2) /\ keepsS s1 s2).
    { destruct (is_filedesc line).
      - destruct (line_conv _ _ _ _ G s1 (proj1 K1)) as ([x s2] & [N2 HN2] & K2 & H2). cbn [fst snd] in *. destruct x as [v|]; [|contradiction].
        destruct (line_conv _ _ _ _ G s2 (proj1 K2)) as ([x s3] & [N3 HN3] & K3 & H3). cbn [fst snd] in *. destruct x as [w|]; [|contradiction].
        eexists _, s3. split; [exists (Nat.max N2 N3); intros f Hf; rewrite HN2, HN3 by lia; reflexivity|].
        exact (keeps_trans _ _ _ _ _ _ K2 K3).
      - exists 0, s1. split; [apply conv_const|]. apply keeps_refl. exact (proj1 K1). }
    destruct F as (t & s2 & [M HM] & K2). pose proof (keeps_trans _ _ _ _ _ _ K1 K2) as K12.
    assert (Hlt : full = None -> mlt (m s2) (m s)).
    { intros Hf. specialize (H1 Hf Hne). destruct K2 as (_ & K2 & _). ms_lia. }
    destruct (lenZ (rsplit 32%N 4 line) =? 5) eqn:E5.
    2:{ exists (Err (ParserExn []), s2). split.
        { exists (Nat.max N M). intros f Hf. rewrite HN by lia. rewrite E0. fold line. rewrite HM by lia. rewrite E5. reflexivity. }
        split; [exact K12|]. right. eauto. }
    set (hs := if a2w then arc2warc_headers uuid line (rsplit 32%N 4 line)
               else Ok (combine ARC_HEADERS (rsplit 32%N 4 line))).
    assert (Hhs : exists l, hs = Ok l).
    { subst hs. destruct a2w; [|eauto]. apply arc2warc_total. now apply Z.eqb_eq. }
    destruct Hhs as [l Eh].
    eexists (Ok _, s2). split.
    { exists (Nat.max N M). intros f Hf. rewrite HN by lia. rewrite E0. fold line. rewrite HM by lia. rewrite E5.
      cbn [negb]. fold hs. rewrite Eh. reflexivity. }
    split; [exact K12|exact Hlt].
  Qed.

  Definition det_exn (e : exn) : Prop :=
    e = EOFError \/ e = ArchiveLoadFailed.

  Lemma detect_conv a2w uuid st known s : I s ->
    exists r, conv (fun f => detect_type (ops f) f a2w uuid st known s) r /\ keepsS s (snd r) /\
      match fst r with
      | Ok _ => st = None -> mlt (m (snd r)) (m s)
      | Err e => det_exn e
      end.
  Proof.
    intros HI.
    assert (A : forall st' s', keepsS s s' -> (st = None -> st' <> None -> mlt (m s') (m s)) ->
      exists r, conv (fun f => match arc_parse (ops f) a2w uuid st' s' with
      | (Ok h, s') => (Ok (true, h), s')
      | (Err (ParserExn _), s') => (Err ArchiveLoadFailed, s')
      | (Err e, s') => (Err e, s')
      end) r /\ keepsS s (snd r) /\
      match fst r with
      | Ok _ => st = None -> mlt (m (snd r)) (m s)
      | Err e => det_exn e
      end).
    { intros st' s' K Hst. destruct (arc_conv a2w uuid st' s' (proj1 K)) as ([x s2] & [N HN] & K2 & H2). cbn [fst snd] in *.
      destruct x as [h|e].
      - exists (Ok (true, h), s2). split; [exists N; intros f Hf; now rewrite HN|].
        split; [exact (keeps_trans _ _ _ _ _ _ K K2)|]. cbn [fst snd]. intros Hs.
        destruct st' as [h'|].
        + specialize (Hst Hs ltac:(discriminate)). destruct K2 as (_ & K2 & _). ms_lia.
        + specialize (H2 eq_refl). destruct K as (_ & K & _). ms_lia.
      - exists (Err (match e with ParserExn _ => ArchiveLoadFailed | e => e end), s2).
        split; [exists N; intros f Hf; rewrite HN by lia; now destruct e|].
        split; [exact (keeps_trans _ _ _ _ _ _ K K2)|]. cbn [fst snd].
        destruct H2 as [->|[l ->]]; [now left|now right]. }
    destruct (match known with Some FArc => true | _ => false end) eqn:Ek.
    { assert (known = Some FArc) as -> by (destruct known as [[|]|]; congruence || reflexivity).
      unfold detect_type. cbn beta iota. apply A; [now apply keeps_refl|]. intros H1 H2. contradiction. }
    destruct (parse_conv _ _ _ _ G (mk_parser WARC_TYPES true) st s HI) as ([x s1] & [N HN] & K1 & H1). cbn [fst snd] in *.
    assert (D : forall f, (N <= f)%nat -> detect_type (ops f) f a2w uuid st known s =
      match x with
      | Ok h => (Ok (false, h), s1)
      | Err (ParserExn line) =>
          match known with
          | Some FWarc => (Err ArchiveLoadFailed, s1)
          | _ => match arc_parse (ops f) a2w uuid (Some (HStr line)) s1 with
                 | (Ok h, s') => (Ok (true, h), s')
                 | (Err (ParserExn _), s') => (Err ArchiveLoadFailed, s')
                 | (Err e, s') => (Err e, s')
                 end
          end
      | Err e => (Err e, s1)
      end).
    { intros f Hf. unfold detect_type. specialize (HN f Hf). cbn beta in HN. rewrite HN.
      destruct known as [[|]|]; [|discriminate|]; destruct x as [h|[]]; reflexivity. }
    destruct x as [h|e].
    { exists (Ok (false, h), s1). split; [exists N; exact D|]. split; [exact K1|exact H1]. }
    destruct H1 as [[[]|H1] H2].
    destruct H1 as [-> | [_ [l ->]]].
    { exists (Err EOFError, s1). split; [exists N; exact D|]. split; [exact K1|now left]. }
    assert (Hlt : st = None -> mlt (m s1) (m s)) by (apply H2; eauto).
    destruct (match known with Some FWarc => true | _ => false end) eqn:Ew.
    { exists (Err ArchiveLoadFailed, s1).
      assert (known = Some FWarc) as -> by (destruct known as [[|]|]; congruence || reflexivity).
      split; [exists N; exact D|]. split; [exact K1|]. now right. }
    destruct (A (Some (HStr l)) s1 K1) as (r & [M HM] & K2 & H3); [auto|].
    exists r. split; [|split; [exact K2|exact H3]].
    exists (Nat.max N M). intros f Hf. rewrite D by lia.
    destruct known as [[|]|]; [discriminate|discriminate|]. apply HM. lia.
  Qed.

  (** the errors of loading HTTP headers *)
  Definition http_exn (verify : bool) (e : exn) : Prop :=
    e = EOFError \/ e = AttributeErr \/ (verify = true /\ exists l, e = ParserExn l).

  Notation keepsR := (keeps (Irs I) (mrs m) Ers).

  Lemma http_conv verify t uri len st : Irs I st ->
    exists r, conv (fun f => load_http_headers (rs_ops (ops f)) f verify t uri len st) r /\ keepsR st (snd r) /\
      match fst r with Ok _ => True | Err e => Ers st e \/ http_exn verify e end.
  Proof.
    intros HI. unfold load_http_headers.
    destruct (match len with Some 0 => true | _ => false end).
    { exists (Ok None, st). split; [apply conv_const|]. split; [now apply keeps_refl|exact Logic.I]. }
    destruct (negb (is_http_record t)).
    { exists (Ok None, st). split; [apply conv_const|]. split; [now apply keeps_refl|exact Logic.I]. }
    destruct uri as [u|].
    2:{ exists (Err AttributeErr, st). split; [apply conv_const|]. split; [now apply keeps_refl|]. right. right. now left. }
    destruct (negb (is_http_uri u)).
    { exists (Ok None, st). split; [apply conv_const|]. split; [now apply keeps_refl|exact Logic.I]. }
    pose proof (rs_good I m ops G) as GR.
    destruct (otype_is t "request").
    - destruct (parse_conv _ _ _ _ GR (mk_parser HTTP_VERBS verify) None st HI) as ([x s1] & [N HN] & K1 & H1). cbn [fst snd] in *.
      destruct x as [h|e].
      + exists (Ok (Some h), s1). split; [exists N; intros f Hf; now rewrite HN|]. split; [exact K1|exact Logic.I].
      + exists (Err e, s1). split; [exists N; intros f Hf; now rewrite HN|]. split; [exact K1|].
        destruct H1 as [[H1|[->|[H1 H2]]] _]; [now left|right; now left|right; right; right; now split].
    - destruct (parse_conv _ _ _ _ GR (mk_parser HTTP_TYPES verify) None st HI) as ([x s1] & [N HN] & K1 & H1). cbn [fst snd] in *.
      destruct x as [h|e].
      + exists (Ok (Some h), s1). split; [exists N; intros f Hf; now rewrite HN|]. split; [exact K1|exact Logic.I].
      + exists (match e with
                | EOFError => if otype_is t "revisit" then Ok None else Err EOFError
                | e => Err e
                end, s1). split; [|split; [exact K1|]].
        * exists N. intros f Hf. rewrite HN by lia. destruct e; try reflexivity. now destruct (otype_is t "revisit").
        * cbn [fst]. destruct H1 as [[H1|[->|[H1 [l ->]]]] _].
          -- assert (Hx : e = ArchiveLoadFailed \/ e = BinasciiErr)
               by (destruct st as [?|?|d]; [contradiction|contradiction|destruct H1 as [[? _]|?]; auto]).
             destruct Hx as [-> | ->]; now left.
          -- destruct (otype_is t "revisit"); [exact Logic.I|]. right. now left.
          -- right. right. right. split; [assumption|]. now exists l.
  Qed.

  (** what checking digests may raise under these options *)
  Definition opt_exn (o : lopts) (e : exn) : Prop := ckind_bool (lo_check o) = true /\ chk_exn (lo_check o) e.
  Definition rec_exn (o : lopts) (e : exn) : Prop :=
    det_exn e \/ opt_exn o e \/ (lo_norec o = false /\ http_exn (lo_verify o) e).
  Definition rc_ok (o : lopts) (st : rstream S) : Prop := Irs I st /\ (forall e, Ers st e -> opt_exn o e).

  Lemma mk_digester_exn p d c :
    dc_kind (snd (mk_digester he p d c)) = dc_kind c /\
    match fst (mk_digester he p d c) with
    | Ok g => g <> None -> parses d
    | Err e => e = ArchiveLoadFailed /\ dc_kind c = KRaise
    end.
  Proof.
    assert (F : forall A (k : A), dc_kind (snd match chk_problem p c with
                      | (Ok _, c') => (Ok k, c')
                      | (Err e, c') => (Err e, c')
                      end) = dc_kind c /\
       match fst match chk_problem p c with
                      | (Ok _, c') => (Ok k, c')
                      | (Err e, c') => (Err e, c')
                      end with Ok g => g = k | Err e => e = ArchiveLoadFailed /\ dc_kind c = KRaise end).
    { intros A k. unfold chk_problem. destruct (dc_kind c) eqn:Ek; cbn [fst snd dc_kind]; auto. }
    unfold mk_digester. destruct d as [[|x d]|]; try (split; [reflexivity|]; cbn [fst]; contradiction).
    destruct (parse_digest (x :: d)) as [[a v]|] eqn:Ep.
    - destruct (dgst_new he a) as [g|].
      + split; [reflexivity|]. cbn [fst]. intros _ s [= <-]. congruence.
      + destruct (F _ (@None dgst)) as [F1 F2]. split; [exact F1|]. destruct (fst _); [|exact F2]. subst. contradiction.
    - destruct (F _ (@None dgst)) as [F1 F2]. split; [exact F1|]. destruct (fst _); [|exact F2]. subst. contradiction.
  Qed.

  Lemma dig_new_exn l limit c t pd bd seg : I (lm_stream l) ->
    match dig_new he l limit c t pd bd seg with
    | Ok d => Irs I (RSdig d) /\ lm_stream (lm_stream (dr_lim d)) = lm_stream l /\ dr_kind d = dc_kind c
    | Err e => e = ArchiveLoadFailed /\ dc_kind c = KRaise
    end.
  Proof.
    intros HI. unfold dig_new.
    set (bd' := if match t with Some t => leqb t (lit "revisit") | None => false end then None else bd).
    set (pd' := match seg with Some _ => None | None => if match t with Some t => leqb t (lit "revisit") | None => false end then None else pd end).
    destruct (mk_digester_exn PUnknownBlock bd' c) as [K1 H1].
    destruct (mk_digester he PUnknownBlock bd' c) as [[bo|e] c1]; cbn [fst snd] in *; [|exact H1].
    destruct (mk_digester_exn PUnknownPayload pd' c1) as [K2 H2].
    destruct (mk_digester he PUnknownPayload pd' c1) as [[po|e] c2]; cbn [fst snd] in *; [|rewrite K1 in H2; exact H2].
    cbn [dr_lim lim_new lm_stream]. split; [|split; [reflexivity|unfold dr_kind; cbn [dr_chk]; congruence]].
    split; [exact HI|]. now split.
  Qed.

  Lemma begin_payload_exn d : Irs I (RSdig d) ->
    let r := begin_payload d in
    Irs I (RSdig (snd r)) /\ dr_lim (snd r) = dr_lim d /\ dr_kind (snd r) = dr_kind d /\
    match fst r with Ok _ => True | Err e => chk_exn (dr_kind d) e end.
  Proof.
    intros [HI [Hb Hp]] r. subst r. unfold begin_payload. cbn [dr_set_pon dr_lim].
    destruct (lm_limit (dr_lim d) =? 0).
    2:{ cbn [fst snd]. repeat split; try assumption. }
    cbn [dr_set_pon dr_pobj dr_pdig dr_chk].
    destruct (check_one_exn PPayloadFailed (dr_pobj d) (dr_pdig d) (dr_chk d) Hp) as [K1 H1].
    destruct (check_one PPayloadFailed (dr_pobj d) (dr_pdig d) (dr_chk d)) as [[[|]|e] c]; cbn [fst snd] in *;
      (split; [split; [exact HI|split; assumption]|]); split; try reflexivity; split; auto.
  Qed.

  Hypothesis Htell : forall f s, o_tell (ops f) s = o_tell (ops O) s.
  Lemma tell_fuel f st : rs_tell (ops f) st = rs_tell (ops O) st.
  Proof. destruct st; [apply Htell|reflexivity|reflexivity]. Qed.

  Lemma record_conv o st known s : I s ->
    exists r, conv (fun f => parse_record_stream (ops f) f he o st known s) r /\ keepsS s (snd r) /\
      match fst r with
      | Ok rc => (st = None -> mlt (m (snd r)) (m s)) /\ rs_base (rc_stream rc) = snd r /\ rc_ok o (rc_stream rc)
      | Err e => rec_exn o e
      end.
  Proof.
    intros HI. unfold parse_record_stream.
    destruct (detect_conv (lo_a2w o) (lo_uuid o) st known s HI) as ([x s1] & [N HN] & K1 & H1). cbn [fst snd] in *.
    destruct x as [[is_arc h]|e].
    2:{ exists (Err e, s1). split; [exists N; intros f Hf; now rewrite HN|]. split; [exact K1|]. now left. }
    (* type, target, headers, length, content type *)
    destruct (if is_arc && negb (lo_a2w o) then
            let uri := get_header (lit "uri") h in
            (Some (match uri with
                   | Some u => if is_filedesc u then lit "arc_header" else lit "response"
                   | None => lit "response" end),
             uri, h, get_header (lit "length") h, get_header (lit "content-type") h, sh_total h)
          else
            let t := get_header (lit "WARC-Type") h in
            let (uri, h') := ensure_target_uri h in
            (t, uri, h', get_header (lit "Content-Length") h',
             get_header (lit "Content-Type") h', if is_arc then sh_total h' else 0))
      as [[[[[rec_type uri] h'] length] ctype] sub_len] eqn:Et.
    cbn zeta in Et.
    set (len := eff_length length sub_len).
    set (c := chk_new (lo_check o)).
    (* the stream of the record *)
    set (rst := match len with
                  | Some n =>
                      let l := lim_new s1 n in
                      if ckind_bool (lo_check o) then wrap_digest he l rec_type h' c n
                      else Ok (RSlim l)
                  | None => Ok (RSbase s1)
                  end).
    assert (Hst : match rst with
                  | Ok st1 => Irs I st1 /\ rs_base st1 = s1 /\ (forall e, Ers st1 e -> opt_exn o e)
                  | Err e => opt_exn o e
                  end).
    { subst rst. pose proof (proj1 K1) as HI1. destruct len as [n|].
      2:{ cbn [rs_base Ers]. split; [now split|]. split; [reflexivity|contradiction]. }
      cbn zeta. destruct (ckind_bool (lo_check o)) eqn:Ek.
      2:{ cbn [rs_base Ers lim_new lm_stream]. split; [now split|]. split; [reflexivity|contradiction]. }
      unfold wrap_digest. destruct (negb _ && negb _).
      { cbn [rs_base Ers lim_new lm_stream]. split; [now split|]. split; [reflexivity|contradiction]. }
      pose proof (dig_new_exn (lim_new s1 n) n c rec_type (get_header (lit "WARC-Payload-Digest") h')
        (get_header (lit "WARC-Block-Digest") h') (get_header (lit "WARC-Segment-Number") h') HI1) as Hd.
      destruct (dig_new _ _ _ _ _ _ _ _) as [d|e].
      - destruct Hd as (D1 & D2 & D3). split; [exact D1|]. split; [exact D2|]. cbn [Ers]. rewrite D3.
        intros e He. split; [exact Ek|exact He].
      - split; [exact Ek|]. left. exact Hd. }
    destruct rst as [st1|e] eqn:Est.
    2:{ exists (Err e, s1). split; [|split; [exact K1|right; now left]].
        exists N. intros f Hf. rewrite HN by lia. cbn zeta. rewrite Et. fold len. fold c. fold rst. now rewrite Est. }
    destruct Hst as (IS & BS & XS).
    (* the HTTP headers *)
    assert (HH : exists x st2, conv (fun f => if lo_norec o then (Ok None, st1)
                    else load_http_headers (rs_ops (ops f)) f (lo_verify o) rec_type uri len st1) (x, st2) /\
                 keepsR st1 st2 /\ match x with Ok _ => True | Err e => rec_exn o e end).
    { destruct (lo_norec o) eqn:En.
      - exists (Ok None), st1. split; [apply conv_const|]. split; [now apply keeps_refl|exact Logic.I].
      - destruct (http_conv (lo_verify o) rec_type uri len st1 IS) as ([x st2] & C & K & H).
        exists x, st2. split; [exact C|]. split; [exact K|]. cbn [fst snd] in H.
        destruct x as [y|e]; [exact Logic.I|].
        destruct H as [H|H]; [right; left; now apply XS|right; right; now split]. }
    destruct HH as (x & st2 & [M HM] & K2 & H2).
    assert (K12 : keepsS s (rs_base st2)).
    { destruct K1 as (A1 & A2 & _), K2 as ((B1 & _) & B2 & _). unfold mrs in B2. rewrite BS in B2.
      split; [exact B1|]. split; [ms_lia|tauto]. }
    assert (L2 : st = None -> mlt (m (rs_base st2)) (m s)).
    { intros Hs. specialize (H1 Hs). destruct K2 as (_ & B2 & _). unfold mrs in B2. rewrite BS in B2. ms_lia. }
    destruct x as [http|e].
    2:{ exists (Err e, rs_base st2). split; [|split; [exact K12|exact H2]].
        exists (Nat.max N M). intros f Hf. rewrite HN by lia. cbn zeta. rewrite Et. fold len. fold c. fold rst. rewrite Est.
        cbn zeta. rewrite HM by lia. reflexivity. }
    (* begin_payload *)
    destruct (match st2 with
                  | RSdig d => let (x, d') := begin_payload d in (x, RSdig d')
                  | _ => (Ok tt, st2)
                  end) as [x st3] eqn:Ebp.
    assert (HB : Irs I st3 /\ rs_base st3 = rs_base st2 /\ (forall e, Ers st3 e -> Ers st2 e) /\
                 match x with Ok _ => True | Err e => Ers st2 e end).
    { destruct K2 as (B1 & _). destruct st2 as [z|z|d].
      1,2: injection Ebp as <- <-; split; [exact B1|]; split; [reflexivity|]; split; [tauto|exact Logic.I].
      destruct (begin_payload_exn d B1) as (P1 & P2 & P3 & P4).
      destruct (begin_payload d) as [y d']. injection Ebp as <- <-. cbn [fst snd] in *.
      split; [exact P1|]. split; [cbn [rs_base]; now rewrite P2|]. cbn [Ers]. rewrite P3. split; [tauto|exact P4]. }
    destruct HB as (B1 & B2 & B3 & B4).
    assert (X2 : forall e, Ers st2 e -> opt_exn o e) by (intros e He; apply XS; now apply K2).
    destruct x as [[]|e].
    2:{ exists (Err e, rs_base st3). split; [|split; [cbn [snd]; now rewrite B2|right; left; now apply X2]].
        exists (Nat.max N M). intros f Hf. rewrite HN by lia. cbn zeta. rewrite Et. fold len. fold c. fold rst. rewrite Est.
        cbn zeta. rewrite HM by lia. cbn beta iota. rewrite Ebp. reflexivity. }
    eexists (Ok (mk_rec _ _ _ st3 _ _ _ (match len with
                            | Some n => if negb (lo_norec o) && negb (n =? 0) && osah_bool http
                                        then n - (rs_tell (ops O) st2 - rs_tell (ops O) st1) else -1
                            | None => -1
                            end) _), rs_base st3). split.
    { exists (Nat.max N M). intros f Hf. rewrite HN by lia. cbn zeta. rewrite Et. fold len. fold c. fold rst. rewrite Est.
      cbn zeta. rewrite HM by lia. cbn beta iota. rewrite Ebp.
      rewrite !(tell_fuel f). reflexivity. }
    cbn [fst snd rc_stream]. rewrite B2. split; [exact K12|]. split; [exact L2|]. split; [reflexivity|].
    split; [exact B1|auto].
  Qed.
End Load.
