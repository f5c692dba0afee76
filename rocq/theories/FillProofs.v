(** * FillProofs: BufferedReader._fillbuff refines "deliver this content" *)
From Coq Require Import List ZArith NArith Bool Lia.
From Coq Require Import ZifyBool ZifyNat ZifyN.
From Verif Require Import PyBase Facts Streams StreamSpec StreamProofs BufProofs.
Import ListNotations.
Open Scope Z_scope.

Definition dun {A} (d : dobj A) : bytes := match d with DDone u => u | _ => [] end.

Section Z.
  Context (zl : zenv).

  Lemma zfeed_app d : forall zs c p fin,
    zfeed zl zs (d ++ c) = Some (p, fin) ->
    (exists u, zfeed zl zs d = Some (p, DDone u) /\ fin = DDone (u ++ c)) \/
    (exists o zs' p', zfeed zl zs d = Some (o, DActive zs') /\ zfeed zl zs' c = Some (p', fin) /\ p = o ++ p').
  Proof.
    induction d as [|x d IH]; intros zs c p fin H.
    - right. cbn. exists [], zs, p. auto.
    - cbn in *. destruct (zstep zl zs x) as [zs1 o1|o1|]; [|left|discriminate].
      + destruct (zfeed zl zs1 (d ++ c)) as [[p1 f1]|] eqn:E; [|discriminate]. injection H as <- <-.
        destruct (IH _ _ _ _ E) as [(u & E1 & Ef)|(o & zs' & p' & E1 & E2 & ->)]; rewrite E1.
        * left. exists u. auto.
        * right. exists (o1 ++ o), zs', p'. rewrite app_assoc. auto.
      + injection H as <- <-. exists d. auto.
  Qed.

  Lemma zfeed_app_active d : forall zs c o zs',
    zfeed zl zs d = Some (o, DActive zs') ->
    zfeed zl zs (d ++ c) = match zfeed zl zs' c with Some (p, f) => Some (o ++ p, f) | None => None end.
  Proof.
    induction d as [|x d IH]; intros zs c o zs' H.
    - cbn in *. injection H as <- <-. destruct (zfeed zl zs c) as [[p f]|]; reflexivity.
    - cbn in *. destruct (zstep zl zs x) as [zs1 o1|o1|]; try discriminate.
      destruct (zfeed zl zs1 d) as [[p1 f1]|] eqn:E; [|discriminate]. injection H as <- ->.
      rewrite (IH _ c _ _ E). destruct (zfeed zl zs' c) as [[p f]|]; [|reflexivity]. now rewrite app_assoc.
  Qed.

  Lemma zfeed_app_done d : forall zs c o u,
    zfeed zl zs d = Some (o, DDone u) -> zfeed zl zs (d ++ c) = Some (o, DDone (u ++ c)).
  Proof.
    induction d as [|x d IH]; intros zs c o u H; [discriminate|].
    cbn in *. destruct (zstep zl zs x) as [zs1 o1|o1|]; try discriminate.
    - destruct (zfeed zl zs1 d) as [[p1 f1]|] eqn:E; [|discriminate]. injection H as <- ->.
      now rewrite (IH _ c _ _ E).
    - injection H as <- <-. reflexivity.
  Qed.

  Lemma zfeed_notbad d : forall zs o f, zfeed zl zs d = Some (o, f) -> f <> DBad.
  Proof.
    induction d as [|x d IH]; intros zs o f H; cbn in H.
    - now injection H as <- <-.
    - destruct (zstep zl zs x) as [zs1 o1|o1|]; try discriminate.
      + destruct (zfeed zl zs1 d) as [[p1 f1]|] eqn:E; [|discriminate]. injection H as <- <-. eauto.
      + now injection H as <- <-.
  Qed.

  (** the unused bytes are the tail of the input *)
  Lemma zfeed_unused d : forall zs o u, zfeed zl zs d = Some (o, DDone u) ->
    exists m, d = m ++ u /\ m <> [] /\ zfeed zl zs m = Some (o, DDone []).
  Proof.
    induction d as [|x d IH]; intros zs o u H; [discriminate|].
    cbn in H. destruct (zstep zl zs x) as [zs1 o1|o1|] eqn:Ez; try discriminate.
    - destruct (zfeed zl zs1 d) as [[p1 f1]|] eqn:E; [|discriminate]. injection H as <- ->.
      destruct (IH _ _ _ E) as (m & -> & _ & Em). exists (x :: m). repeat split; [discriminate|].
      cbn. now rewrite Ez, Em.
    - injection H as <- <-. exists [x]. repeat split; [discriminate|]. cbn. now rewrite Ez.
  Qed.
End Z.

Lemma zfeed_mono zl zs d c p f : zfeed zl zs (d ++ c) = Some (p, f) ->
  exists o f', zfeed zl zs d = Some (o, f') /\ lenZ o <= lenZ p.
Proof.
  intros H. destruct (zfeed_app zl _ _ _ _ _ H) as [(u & E & _)|(o & zs' & p' & E & _ & ->)].
  - eexists _, _. split; [exact E|lia].
  - eexists _, _. split; [exact E|]. rewrite lenZ_app. pose proof (lenZ_nonneg p'). lia.
Qed.

Lemma zfeed_None_app zl d : forall zs c, zfeed zl zs d = None -> zfeed zl zs (d ++ c) = None.
Proof.
  induction d as [|x d IH]; intros zs c H; [discriminate|].
  cbn in *. destruct (zstep zl zs x) as [zs1 o1|o1|]; try discriminate; [|reflexivity].
  destruct (zfeed zl zs1 d) as [[p1 f1]|] eqn:E; [discriminate|]. now rewrite (IH _ c E).
Qed.

Section Fill.
  Context {zl : zenv} {S : Type} (ops : sops S) (fuel : nat) (R : S -> bytes -> Prop).
  Notation BR := (breader zl S).
  Context (HD : delivers ops R) (Hfuel : forall s c, R s c -> (List.length c + 3 <= fuel)%nat).

  (** [b], with [data] still to be processed, will yield [pend]; [after] is what
      follows the compressed stream *)
  Definition steady (gz : bool) (b : BR) (data pend after : bytes) : Prop :=
    match br_dec b with
    | None => gz = false /\ pend = data /\ after = []
    | Some (DActive zs) => gz = true /\ exists fin, zfeed zl zs data = Some (pend, fin) /\ after = dun fin
    | Some (DDone u) => gz = true /\ startd b = [] /\ pend = [] /\ after = u ++ data
    | Some DBad => False
    end.

  (** nothing decompressed yet, and the first block [d] is not in the expected format *)
  Definition initial (gz : bool) (b : BR) (d data pend after : bytes) : Prop :=
    exists t, br_dec b = Some (DActive (zinit zl t)) /\ br_dtype b = Some t /\ br_nblk b = 0
      /\ zfeed zl (zinit zl t) d = None
      /\ ((t = Deflate /\ gz = true /\ exists fin, zfeed zl (zinit zl DeflateAlt) data = Some (pend, fin) /\ after = dun fin)
          \/ (gz = false /\ (t = Deflate -> zfeed zl (zinit zl DeflateAlt) d = None) /\ pend = data /\ after = [])).

  Definition first_block (b : BR) (d : bytes) : Prop :=
    match startd b with
    | [] => exists s', o_read ops (Some (br_block b)) (br_stream b) = (Ok d, s') /\ d <> []
    | x => d = x
    end.

  Definition src (gz : bool) (b : BR) (c pend after : bytes) : Prop :=
    steady gz b (startd b ++ c) pend after
    \/ (buff_data b = []
        /\ (forall d, first_block b d -> initial gz b d (startd b ++ c) pend after)
        /\ (startd b ++ c = [] -> pend = [] /\ after = [] /\ br_nblk b = 0
                                  /\ exists t, br_dec b = Some (DActive t))).

  Definition base_mode (b : BR) : Prop := match br_ck b with None => True | Some c => ck_not c = true end.

  Record statics (b : BR) : Prop := {
    st_all : br_all b = false;
    st_ck : base_mode b;
    st_block : 0 < br_block b
  }.

  (** the next block brings all of the compressed stream, or all but the last [L] bytes of
      the content [pend] *)
  Definition gz_room (L : Z) (b : BR) (c pend after : bytes) : Prop :=
    lenZ (startd b ++ c) - lenZ after <= br_block b
    \/ lenZ pend <= L
    \/ exists zs fin o f, br_dec b = Some (DActive zs) /\ zfeed zl zs (startd b ++ c) = Some (pend, fin)
         /\ zfeed zl zs (takeZ (br_block b) (startd b ++ c)) = Some (o, f) /\ lenZ pend - L <= lenZ o.

  (** [g = true]: the reader is a plain gzip reader *)
  Definition BI (M : rlim) (gz g : bool) (after : bytes) (b : BR) (content : bytes) : Prop :=
    exists c pend,
      R (br_stream b) c /\ src gz b c pend after /\ content = buff_data b ++ pend
      /\ statics b
      /\ (buff_data b <> [] -> startd b = [])
      /\ (g = true -> br_dtype b = Some Gzip)
      /\ (List.length content + 3 <= fuel)%nat
      /\ 0 <= rL M
      /\ (rM M <= 1 \/ (exact_read ops R /\
            if gz then gz_room (rL M) b c pend after else rM M <= br_block b)).

  (** same static fields *)
  Definition frame (b b' : BR) : Prop :=
    br_all b' = br_all b /\ br_ck b' = br_ck b /\ br_block b' = br_block b.

  Lemma frame_refl b : frame b b. Proof. repeat split. Qed.
  Lemma frame_trans a b c : frame a b -> frame b c -> frame a c.
  Proof. intros (?&?&?) (?&?&?). repeat split; congruence. Qed.
  Lemma statics_frame b b' : frame b b' -> statics b -> statics b'.
  Proof. intros (Ea & Ec & Eb) [Ha Hc Hb]. split; [congruence| |congruence].
         unfold base_mode in *. now rewrite Ec. Qed.

  Lemma is_nil_false' {A} (l : list A) : l <> [] -> is_nil l = false.
  Proof. destruct l; [contradiction|reflexivity]. Qed.

  (** processing the next non-empty block in a steady state *)
  Lemma process_steady gz b d c pend after :
    startd b = [] -> d <> [] -> steady gz b (d ++ c) pend after ->
    exists pend', pend = buff_data (process_read d b) ++ pend'
      /\ steady gz (process_read d b) c pend' after
      /\ startd (process_read d b) = [] /\ br_stream (process_read d b) = br_stream b
      /\ frame b (process_read d b) /\ br_dtype (process_read d b) = br_dtype b.
  Proof.
    intros Hs Hd Hst. unfold process_read. rewrite (is_nil_false' d Hd).
    unfold decompress. unfold steady in Hst. destruct (br_dec b) as [dd|] eqn:Edec.
    - rewrite (is_nil_false' d Hd). destruct dd as [zs|u|]; [| |contradiction].
      + destruct Hst as (-> & fin & Ez & ->). cbn [dobj_decompress].
        destruct (zfeed_app zl _ _ _ _ _ Ez) as [(u & E1 & ->)|(o & zs' & p' & E1 & E2 & ->)]; rewrite E1.
        * exists []. rewrite app_nil_r. split; [reflexivity|].
          split; [|repeat split; exact Hs]. unfold steady. cbn. repeat split; exact Hs.
        * exists p'. split; [reflexivity|].
          split; [|repeat split; exact Hs]. unfold steady. cbn. split; [reflexivity|].
          now exists fin.
      + destruct Hst as (-> & _ & -> & ->). cbn [dobj_decompress].
        exists []. split; [reflexivity|]. split; [|repeat split; exact Hs].
        unfold steady. cbn. rewrite <- app_assoc. repeat split; exact Hs.
    - destruct Hst as (-> & -> & ->).
      exists c. split; [reflexivity|]. split; [|repeat split; exact Hs].
      unfold steady. cbn. rewrite Edec. auto.
  Qed.

  Lemma process_initial gz b d c pend after :
    startd b = [] -> d <> [] -> initial gz b d (d ++ c) pend after ->
    exists pend', pend = buff_data (process_read d b) ++ pend'
      /\ steady gz (process_read d b) c pend' after
      /\ startd (process_read d b) = [] /\ br_stream (process_read d b) = br_stream b
      /\ frame b (process_read d b)
      /\ (br_dtype b = Some Gzip -> br_dtype (process_read d b) = Some Gzip)
      /\ (gz = false -> buff_data (process_read d b) = d).
  Proof.
    intros Hs Hd (t & Edec & Edt & Enb & Ez & Hcase). unfold process_read. rewrite (is_nil_false' d Hd).
    unfold decompress. rewrite Edec, (is_nil_false' d Hd). cbn [dobj_decompress]. rewrite Ez, Enb, Edt.
    cbn [Z.eqb].
    destruct Hcase as [(-> & -> & fin & Ea & ->)|(-> & Halt & -> & ->)].
    - cbn [dobj_decompress].
      destruct (zfeed_app zl _ _ _ _ _ Ea) as [(u & E1 & ->)|(o & zs' & p' & E1 & E2 & ->)]; rewrite E1.
      + exists []. rewrite app_nil_r. split; [reflexivity|].
        split; [|repeat split; try discriminate; exact Hs]. unfold steady. cbn. repeat split; exact Hs.
      + exists p'. split; [reflexivity|].
        split; [|repeat split; try discriminate; exact Hs]. unfold steady. cbn. split; [reflexivity|].
        now exists fin.
    - destruct t; [| specialize (Halt eq_refl); cbn [dobj_decompress]; rewrite Halt |];
      (exists c; split; [reflexivity|]; split; [|repeat split; try discriminate; try exact Hs; cbn; auto]; unfold steady; cbn; auto).
  Qed.

  (** a block that the decompressor accepts *)
  Lemma process_active (b : BR) d zs o f : startd b = [] -> d <> [] -> br_dec b = Some (DActive zs) -> zfeed zl zs d = Some (o, f) ->
    buff_data (process_read d b) = o /\ br_dec (process_read d b) = Some f.
  Proof.
    intros _ Hd Ed Ez. unfold process_read. rewrite (is_nil_false' d Hd). unfold decompress. rewrite Ed, (is_nil_false' d Hd).
    cbn [dobj_decompress]. rewrite Ez. split; reflexivity.
  Qed.

  (** ... leaves at most [L] bytes when it is a whole block *)
  Lemma room_block L (b : BR) s' d rest pend pend' after : 0 <= L ->
    startd b = [] -> d <> [] -> d = takeZ (br_block b) (d ++ rest) ->
    gz_room L b (d ++ rest) pend after -> pend = buff_data (process_read d (set_stream s' b)) ++ pend' ->
    lenZ (d ++ rest) - lenZ after <= br_block b \/ lenZ pend' <= L.
  Proof.
    intros HL Hs Hd Ed [H|[H|(zs & fin & o & f & Edec & Ez & Eo & Hl)]] Ep; rewrite ?Hs in *; cbn [app] in *.
    - now left.
    - right. rewrite Ep, lenZ_app in H. pose proof (lenZ_nonneg (buff_data (process_read d (set_stream s' b)))). lia.
    - right. rewrite <- Ed in Eo. destruct (process_active (set_stream s' b) d zs o f Hs Hd Edec Eo) as [E1 _].
      rewrite E1 in Ep. rewrite Ep, lenZ_app in Hl. lia.
  Qed.

  (** the loop of _fillbuff *)
  Lemma fill_loop_ok gz n : forall d b c pend after,
    R (br_stream b) c -> steady gz b c pend after -> startd b = [] -> statics b ->
    (d = [] -> br_buff b = None /\ pend = [] /\ (unused b = [] -> c = [])) ->
    (br_dec b = None -> buff_data b = [] -> d = []) ->
    (List.length c + 2 <= n)%nat ->
    exists b' c' pend', fill_loop ops n d b = (Ok tt, b')
      /\ (R (br_stream b') c' /\ lenZ c' <= lenZ c) /\ steady gz b' c' pend' after /\ startd b' = [] /\ frame b b'
      /\ br_dtype b' = br_dtype b
      /\ buff_data b ++ pend = buff_data b' ++ pend'
      /\ (buff_data b <> [] -> buff_data b' = buff_data b)
      /\ (buff_data b' = [] -> pend' = [] /\ after = unused b' ++ c' /\ (unused b' = [] -> c' = []))
      /\ (forall L, 0 <= L -> exact_read ops R -> gz_room L b c pend after -> gz_room L b' c' pend' after).
  Proof.
    induction n as [|n IH]; intros d b c pend after HR Hst Hs Hstat Hd0 Hplain Hn; [lia|].
    cbn [fill_loop].
    destruct (fill_cond d b) eqn:Ec.
    - unfold fill_cond in Ec. apply andb_prop in Ec as [Ec Eb]. apply andb_prop in Ec as [Ec Eu].
      apply andb_prop in Ec as [Ed Edec].
      destruct d as [|d0 dt]; [discriminate|]. apply buff_empty_data in Eb. apply is_nil_true in Eu.
      destruct (HD _ _ _ HR (st_block _ Hstat)) as (d' & rest & s' & Eread & HR' & -> & Hlen & Hnil).
      rewrite Eread. destruct d' as [|d1 d'].
      + (* end of the stream *)
        specialize (Hnil eq_refl). cbn [app] in *. subst rest.
        set (b1 := process_read [] (set_stream s' b)).
        assert (pend = [] /\ after = []) as [-> ->].
        { unfold steady in Hst. destruct (br_dec b) as [[zs|u|]|] eqn:Edec'; try discriminate; try contradiction.
          - destruct Hst as (_ & fin & Ez & ->). cbn in Ez. injection Ez as <- <-. auto.
          - destruct Hst as (_ & _ & -> & ->). unfold unused in Eu. rewrite Edec' in Eu. subst u. auto. }
        assert (Hdone : (buff_data b1 = [] -> @nil N = [] /\ @nil N = unused b1 ++ [] /\ (unused b1 = [] -> @nil N = []))).
        { intros _. repeat split. unfold b1, process_read, set_bbuff, set_stream, unused in *. cbn in *.
          rewrite app_nil_r. now rewrite Eu. }
        destruct n as [|n']; [lia|]. cbn [fill_loop]. unfold fill_cond at 1. cbn [is_nil negb andb].
        exists b1, [], []. split; [reflexivity|]. split; [split; [exact HR'|lia]|]. split.
        { unfold steady in *. cbn. exact Hst. }
        split; [exact Hs|]. split; [repeat split|]. split; [reflexivity|].
        split; [rewrite Eb; reflexivity|]. split; [rewrite Eb; congruence|]. split; [exact Hdone|].
        intros L HL _ _. right. left. exact HL.
      + set (d2 := d1 :: d') in *.
        assert (steady gz (set_stream s' b) (d2 ++ rest) pend after) as Hst2 by exact Hst.
        destruct (process_steady gz (set_stream s' b) d2 rest pend after Hs ltac:(discriminate) Hst2)
          as (pend' & Ep & Hst' & Hs' & Estr & Hfr & Edt).
        set (b1 := process_read d2 (set_stream s' b)) in *.
        assert (Hfr1 : frame b b1) by exact Hfr.
        edestruct (IH d2 b1 rest pend' after) as (b' & c' & pend'' & E1 & E2 & E3 & E4 & E5 & E6 & E7 & E8 & E9 & E10).
        * rewrite Estr. exact HR'.
        * exact Hst'.
        * exact Hs'.
        * eapply statics_frame; eassumption.
        * discriminate.
        * intros Edn Ebn. exfalso. unfold b1, process_read in Edn, Ebn. cbn [is_nil] in *.
          unfold decompress in Edn. cbn [br_dec set_stream] in Edn.
          unfold steady in Hst. destruct (br_dec b) as [[zs|u|]|] eqn:Edec'; try discriminate; try contradiction.
          cbn [is_nil d2] in Edn. destruct Hst as (_ & fin & Ez & _).
          cbn [dobj_decompress] in Edn.
          destruct (zfeed_app zl _ _ _ _ _ Ez) as [(u & E1 & _)|(o & zs' & p' & E1 & _)]; rewrite E1 in Edn; discriminate.
        * rewrite app_length in Hn. unfold d2 in Hn. cbn in Hn. lia.
        * exists b', c', pend''. split; [exact E1|]. split; [split; [exact (proj1 E2)|rewrite lenZ_app; pose proof (lenZ_nonneg d2); lia]|]. split; [exact E3|].
          split; [exact E4|]. split; [eapply frame_trans; eassumption|].
          split; [rewrite E6; exact Edt|]. split; [|split; [rewrite Eb; congruence|split; [exact E9|]]].
          { rewrite Eb. cbn [app]. now rewrite Ep. }
          intros L HL Hex Hg. apply (E10 L HL Hex).
          assert (Ed2 : d2 = takeZ (br_block b) (d2 ++ rest)).
          { destruct (Hex _ _ (br_block b) HR (st_block _ Hstat)) as (s2 & Eo2 & _). rewrite Eread in Eo2. injection Eo2 as E0 _. exact E0. }
          destruct (room_block L b s' d2 rest pend pend' after HL Hs ltac:(discriminate) Ed2 Hg Ep) as [H|H]; [left|right; now left].
          rewrite Hs'. cbn [app]. rewrite (proj2 (proj2 Hfr1)). rewrite lenZ_app in H. pose proof (lenZ_nonneg d2). lia.
    - exists b, c, pend. split; [reflexivity|]. split; [split; [exact HR|lia]|]. split; [exact Hst|].
      split; [exact Hs|]. split; [apply frame_refl|]. split; [reflexivity|]. split; [reflexivity|].
      split; [auto|]. split; [|auto]. intros Eb.
      destruct d as [|d0 dt].
      + destruct (Hd0 eq_refl) as (_ & -> & Hu). split; [reflexivity|]. split; [|exact Hu].
        unfold steady in Hst. unfold unused in *. destruct (br_dec b) as [[zs|u|]|] eqn:Edec; [| |contradiction|].
        * rewrite (Hu eq_refl) in *. destruct Hst as (_ & fin & Ez & ->). cbn in Ez. injection Ez as <-. reflexivity.
        * now destruct Hst as (_ & _ & _ & ->).
        * destruct Hst as (_ & <- & ->). reflexivity.
      + unfold fill_cond in Ec. cbn [is_nil negb andb] in Ec.
        assert (buff_empty b = true) as Ebe by now apply buff_empty_data. rewrite Ebe, andb_true_r in Ec.
        destruct (br_dec b) as [dd|] eqn:Edec.
        2:{ specialize (Hplain eq_refl Eb). discriminate. }
        cbn [andb] in Ec. apply is_nil_false in Ec. unfold steady in Hst. rewrite Edec in Hst.
        unfold unused in *. rewrite Edec in *. destruct dd as [zs|u|]; [contradiction| |contradiction].
        destruct Hst as (_ & _ & -> & ->). split; [reflexivity|]. split; [reflexivity|].
        intros ->. contradiction.
  Qed.

  Lemma steady_set_bbuff gz x b data pend after :
    steady gz (set_bbuff x b) data pend after <-> steady gz b data pend after.
  Proof. unfold steady. cbn. reflexivity. Qed.

  Lemma steady_not_done_rem gz b c pend after : steady gz b c pend after ->
    buff_data b = [] -> 0 < rem_length b -> startd b = [] /\ pend = [] /\ after = unused b ++ c /\ unused b <> [].
  Proof.
    intros Hst Eb Hr. unfold rem_length in Hr. unfold buff_data in Eb.
    assert (unused b <> []) as Hu.
    { intros E. rewrite E in Hr. destruct (br_buff b) as [x|]; [subst x|]; cbn in Hr; lia. }
    unfold unused in *. unfold steady in Hst. destruct (br_dec b) as [[zs|u|]|]; try contradiction.
    destruct Hst as (_ & ? & -> & ->). auto.
  Qed.

  (** takeZ of a block covers a member which fits in it *)
  Lemma zfeed_block zs c pend fin B : zfeed zl zs c = Some (pend, fin) ->
    0 < B -> lenZ c - lenZ (dun fin) <= B ->
    exists f', zfeed zl zs (takeZ B c) = Some (pend, f').
  Proof.
    intros Ez HB Hl. rewrite <- (takeZ_dropZ B c) in Ez.
    destruct (zfeed_app zl _ _ _ _ _ Ez) as [(u & E1 & ->)|(o & zs' & p' & E1 & E2 & ->)].
    - eauto.
    - assert (p' = []) as ->; [|rewrite app_nil_r; eauto].
      destruct (dropZ B c) as [|x t] eqn:Ed; [cbn in E2; now injection E2 as <-|].
      exfalso. destruct fin as [z|u|]; cbn [dun] in Hl.
      + assert (lenZ (dropZ B c) = 0) by (rewrite lenZ_dropZ; cbn in *; lia).
        rewrite Ed, lenZ_cons in H. pose proof (lenZ_nonneg t). lia.
      + destruct (zfeed_unused zl _ _ _ _ E2) as (m & Em & Hm & _).
        rewrite <- (takeZ_dropZ B c), lenZ_app, Ed, Em, lenZ_app in Hl.
        assert (lenZ (takeZ B c) = B).
        { rewrite lenZ_takeZ by lia. assert (0 < lenZ (dropZ B c)) by (rewrite Ed, lenZ_cons; pose proof (lenZ_nonneg t); lia).
          rewrite lenZ_dropZ in H; lia. }
        apply lenZ_pos in Hm. lia.
      + now apply (zfeed_notbad zl _ _ _ _ E2).
  Qed.

  Lemma BI_fill (M : rlim) gz g after b content : BI M gz g after b content ->
    exists b', fillbuff ops fuel b = (Ok tt, b') /\ BI M gz g after b' content /\ startd b' = []
      /\ (buff_empty b' = true -> content = [] /\ exists c', R (br_stream b') c'
            /\ after = unused b' ++ c' /\ (unused b' = [] -> c' = []))
      /\ (buff_empty b = true -> startd b = [] -> Z.min (rM M) (lenZ content - rL M) <= lenZ (buff_data b')).
  Proof.
    intros (c & pend & HR & Hsrc & Econt & Hstat & Hbs & Hg & Hfl & HL & Hbig).
    assert (Efill : fillbuff ops fuel b = fill_base ops fuel b).
    { unfold fillbuff. pose proof (st_ck _ Hstat) as Hck. unfold base_mode in Hck.
      destruct (br_ck b) as [k|]; [now rewrite Hck|reflexivity]. }
    rewrite Efill. unfold fill_base, br_empty. rewrite (st_all _ Hstat).
    destruct (buff_empty b) eqn:Ebe.
    2:{ (* buffer not empty: nothing happens *)
        cbn [negb]. pose proof Ebe as Ebd. apply buff_nonempty_data in Ebd.
        exists b. split; [reflexivity|].
        split; [exists c, pend; repeat (split; [assumption|]); assumption|].
        split; [auto|]. split; [|discriminate]. rewrite Ebe. discriminate. }
    cbn [negb]. apply buff_empty_data in Ebe. rewrite Ebe in Econt. cbn [app] in Econt. subst pend.
    destruct (0 <? rem_length b) eqn:Erem.
    { (* unused data is waiting: end of this member *)
      destruct Hsrc as [Hst|(_ & Hini & Hnil)].
      2:{ exfalso. unfold rem_length in Erem. unfold buff_data in Ebe.
          assert (unused b = []) as Eu.
          { destruct (startd b ++ c) as [|x0 xs] eqn:Esc.
            - destruct (Hnil eq_refl) as (_ & _ & _ & t & Et). unfold unused. now rewrite Et.
            - assert (exists d, first_block b d) as (d & Hfb).
              { unfold first_block. destruct (startd b) as [|y ys]; [|eauto]. cbn [app] in Esc. subst c.
                destruct (HD _ _ _ HR (st_block _ Hstat)) as (d & rest & s' & E1 & _ & _ & _ & Hn).
                exists d, s'. split; [assumption|]. intros ->. specialize (Hn eq_refl). discriminate. }
              destruct (Hini d Hfb) as (t & Et & _). unfold unused. now rewrite Et. }
          rewrite Eu in Erem. destruct (br_buff b) as [x|]; [subst x|]; cbn in Erem; lia. }
      destruct (steady_not_done_rem _ _ _ _ _ Hst Ebe ltac:(lia)) as (Hs0 & -> & Eaft & Hu).
      rewrite Hs0 in Eaft. cbn [app] in Eaft.
      exists b. split; [reflexivity|].
      split. { exists c, []. split; [assumption|]. split; [now left|]. split; [now rewrite Ebe|].
        split; [assumption|]. split; [assumption|]. split; [assumption|]. split; [assumption|]. split; assumption. }
      split; [assumption|]. split.
      - intros _. split; [reflexivity|]. exists c. split; [assumption|]. split; [assumption|]. contradiction.
      - intros _ _. pose proof (lenZ_nonneg (buff_data b)). rewrite lenZ_nil. lia. }
    (* a block [d] is fetched *)
    assert (Hread : forall s' d rest, R s' rest -> startd b ++ c = d ++ rest ->
              (startd b = [] -> o_read ops (Some (br_block b)) (br_stream b) = (Ok d, s')) ->
              (startd b <> [] -> d = startd b) ->
              (d = [] -> startd b ++ c = []) ->
              (startd b = [] -> (exact_read ops R -> d = takeZ (br_block b) c)) ->
              forall b1, b1 = set_start (if is_nil (startd b) then br_start b else None) (set_stream s' b) ->
              exists b', fill_loop ops fuel d (process_read d b1) = (Ok tt, b')
                /\ BI M gz g after b' content /\ startd b' = []
                /\ (buff_empty b' = true -> content = [] /\ exists c', R (br_stream b') c'
                      /\ after = unused b' ++ c' /\ (unused b' = [] -> c' = []))
                /\ (startd b = [] -> Z.min (rM M) (lenZ content - rL M) <= lenZ (buff_data b'))).
    { intros s' d rest HR' Edata Eread Estart Hdnil Hexact b1 Eb1.
      assert (Hs1 : startd b1 = []).
      { subst b1. unfold startd at 1. cbn. destruct (is_nil (startd b)) eqn:En; [|reflexivity].
        apply is_nil_true in En. exact En. }
      assert (Hfr1 : frame b b1) by (subst b1; repeat split).
      assert (Hstr1 : br_stream b1 = s') by (subst b1; reflexivity).
      assert (Hbd1 : buff_data b1 = []) by (subst b1; exact Ebe).
      assert (Hdt1 : br_dtype b1 = br_dtype b) by (subst b1; reflexivity).
      assert (Hdec1 : br_dec b1 = br_dec b) by (subst b1; reflexivity).
      assert (Hnb1 : br_nblk b1 = br_nblk b) by (subst b1; reflexivity).
      destruct d as [|d0 dt].
      - (* end of stream *)
        specialize (Hdnil eq_refl). rewrite Hdnil in Edata. cbn [app] in Edata. subst rest.
        assert (startd b = [] /\ c = []) as [Hsb ->] by (now apply app_eq_nil).
        assert (content = [] /\ src gz b1 [] [] after /\ after = unused b1) as (-> & Hst1 & Eaft).
        { destruct Hsrc as [Hst|(_ & _ & Hnil)].
          - rewrite Hdnil in Hst. unfold src. rewrite Hs1. cbn [app].
            unfold steady in Hst |- *. unfold unused. rewrite Hdec1.
            destruct (br_dec b) as [[zs|u|]|]; [| |contradiction|].
            + destruct Hst as (-> & fin & Ez & ->). cbn in Ez. injection Ez as <- <-.
              repeat split. left. split; [reflexivity|]. exists (DActive zs). split; reflexivity.
            + destruct Hst as (-> & _ & -> & ->). rewrite app_nil_r. split; [reflexivity|]. split; [|reflexivity]. left. repeat split. exact Hs1.
            + destruct Hst as (-> & -> & ->). split; [reflexivity|]. split; [|reflexivity]. left. repeat split.
          - destruct (Hnil Hdnil) as (-> & -> & Hn0 & t & Et).
            unfold unused. rewrite Hdec1, Et. split; [reflexivity|]. split; [|reflexivity].
            right. rewrite Hs1. cbn [app]. split; [assumption|]. split.
            + intros d Hfb. exfalso. unfold first_block in Hfb. rewrite Hs1 in Hfb.
              destruct Hfb as (s2 & E2 & Hd2).
              destruct (HD s' [] (br_block b1)) as (d' & rest & s3 & E3 & _ & Ed3 & _); [assumption|rewrite (proj2 (proj2 Hfr1)); apply Hstat|].
              rewrite Hstr1, E3 in E2. injection E2 as <- <-. destruct d'; [contradiction|discriminate].
            + intros _. rewrite Hnb1, Hdec1, Et. eauto. }
        assert (fill_loop ops fuel [] (process_read [] b1) = (Ok tt, process_read [] b1)) as ->.
        { pose proof (Hfuel _ _ HR). destruct fuel; [lia|]. reflexivity. }
        exists (process_read [] b1). split; [reflexivity|]. split.
        { exists [], []. split; [cbn; rewrite Hstr1; assumption|]. split.
          { destruct Hst1 as [Hst1|(_ & Hi & Hn)]; [left; exact Hst1|right].
            split; [reflexivity|]. split; [exact Hi|exact Hn]. }
          split; [reflexivity|]. split; [eapply statics_frame; [exact Hfr1|assumption]|].
          split; [contradiction|]. split; [cbn; rewrite Hdt1; assumption|].
          split; [assumption|]. split; [assumption|].
          destruct Hbig as [|[Hex Hb]]; [now left|right]. split; [assumption|].
          destruct gz; [right; left; exact HL|].
          change (br_block (process_read [] b1)) with (br_block b1). rewrite (proj2 (proj2 Hfr1)). exact Hb. }
        split; [exact Hs1|]. split.
        { intros _. split; [reflexivity|]. exists []. split; [cbn; rewrite Hstr1; assumption|].
          rewrite app_nil_r. split; [exact Eaft|auto]. }
        intros _. cbn. lia.
      - set (dd := d0 :: dt) in *.
        assert (Hdd : dd <> []) by discriminate.
        assert (exists pend', content = buff_data (process_read dd b1) ++ pend'
                  /\ steady gz (process_read dd b1) rest pend' after
                  /\ startd (process_read dd b1) = [] /\ br_stream (process_read dd b1) = br_stream b1
                  /\ frame b1 (process_read dd b1)
                  /\ (br_dtype b1 = Some Gzip -> br_dtype (process_read dd b1) = Some Gzip)
                  /\ (gz = false -> buff_data (process_read dd b1) = dd))
          as (pend' & Ep & Hst' & Hs' & Estr & Hfr & Hdt & Hpl).
        { destruct Hsrc as [Hst|(_ & Hini & _)].
          - rewrite Edata in Hst.
            assert (steady gz b1 (dd ++ rest) content after) as Hst1.
            { unfold steady in Hst |- *. rewrite Hdec1. destruct (br_dec b) as [[zs|u|]|]; auto.
              destruct Hst as (? & ? & ?); auto. }
            destruct (process_steady gz b1 dd rest content after Hs1 Hdd Hst1) as (p' & E1 & E2 & E3 & E4 & E5 & E6).
            exists p'. repeat (split; [assumption|]). split; [now rewrite E6|].
            intros ->. unfold steady in Hst1. unfold process_read. rewrite (is_nil_false' dd Hdd).
            unfold decompress. destruct (br_dec b1) as [[zs|u|]|]; try (destruct Hst1; discriminate); try contradiction. reflexivity.
          - assert (initial gz b dd (startd b ++ c) content after) as Hi.
            { apply Hini. unfold first_block. destruct (startd b) as [|y ys] eqn:Esb.
              - exists s'. auto.
              - apply Estart. discriminate. }
            rewrite Edata in Hi.
            assert (initial gz b1 dd (dd ++ rest) content after) as Hi1.
            { unfold initial in *. rewrite Hdec1, Hdt1, Hnb1. exact Hi. }
            apply (process_initial gz b1 dd rest content after Hs1 Hdd Hi1). }
        set (b2 := process_read dd b1) in *.
        assert (Hroom2 : gz = true -> rM M <= 1 \/ (exact_read ops R /\ gz_room (rL M) b2 rest pend' after
                   /\ (startd b = [] -> lenZ (startd b ++ c) - lenZ after <= br_block b \/ lenZ pend' <= rL M))).
        { intros ->. destruct Hbig as [|[Hex Hb]]; [now left|right]. split; [exact Hex|].
          assert (Hb2 : br_block b2 = br_block b) by (rewrite (proj2 (proj2 Hfr)); apply Hfr1).
          assert (Hlt : lenZ (startd b ++ c) - lenZ after <= br_block b -> gz_room (rL M) b2 rest pend' after).
          { intros H. left. rewrite Hs'. cbn [app]. rewrite Hb2. rewrite Edata, lenZ_app in H. pose proof (lenZ_nonneg dd). lia. }
          assert (Hle : lenZ pend' <= rL M -> gz_room (rL M) b2 rest pend' after) by (intros H; right; now left).
          destruct Hb as [H|[H|(zs & fin & o & f & Edec & Ez & Eo & Hl)]].
          - split; [auto|]. intros _. now left.
          - assert (lenZ pend' <= rL M) by (rewrite Ep, lenZ_app in H; pose proof (lenZ_nonneg (buff_data b2)); lia). split; [auto|]. intros _. now right.
          - rewrite Edata in Ez, Eo. rewrite <- Hdec1 in Edec.
            destruct (zfeed_app zl _ _ _ _ _ Ez) as [(u & E1 & ->)|(o1 & zs1 & p1 & E1 & E2 & Ec1)].
            + destruct (process_active b1 dd zs _ _ Hs1 Hdd Edec E1) as [Eb _]. fold b2 in Eb. rewrite Eb in Ep.
              assert (lenZ pend' <= rL M).
              { apply (f_equal lenZ) in Ep. rewrite lenZ_app in Ep. pose proof (lenZ_nonneg pend'). lia. }
              split; [auto|]. intros _. now right.
            + destruct (process_active b1 dd zs _ _ Hs1 Hdd Edec E1) as [Eb Ed2]. fold b2 in Eb, Ed2.
              rewrite Eb, Ec1 in Ep. apply app_inv_head in Ep. subst p1.
              destruct (Z.le_gt_cases (br_block b) (lenZ dd)) as [Hbd|Hbd].
              * rewrite takeZ_app_le in Eo by lia.
                assert (lenZ pend' <= rL M).
                { rewrite <- (takeZ_dropZ (br_block b) dd) in E1.
                  destruct (zfeed_mono zl _ _ _ _ _ E1) as (o' & f' & E' & Ho). rewrite Eo in E'. injection E' as <- <-.
                  rewrite Ec1, lenZ_app in Hl. lia. }
                split; [auto|]. intros _. now right.
              * rewrite takeZ_app_ge in Eo by lia. rewrite (zfeed_app_active zl _ _ _ _ _ E1) in Eo.
                destruct (zfeed zl zs1 (takeZ (br_block b - lenZ dd) rest)) as [[o2 f2]|] eqn:E2'; [|discriminate]. injection Eo as <- <-.
                split.
                { pose proof E2 as E3. rewrite <- (takeZ_dropZ (br_block b) rest) in E3.
                  destruct (zfeed_mono zl _ _ _ _ _ E3) as (o' & f' & E' & _).
                  right. right. exists zs1, fin, o', f'. rewrite Hs'. cbn [app]. rewrite Hb2. split; [exact Ed2|]. split; [exact E2|]. split; [exact E'|].
                  rewrite <- (takeZ_dropZ (br_block b - lenZ dd) (takeZ (br_block b) rest)) in E'.
                  rewrite takeZ_takeZ, Z.min_l in E' by (pose proof (lenZ_pos dd Hdd); lia).
                  destruct (zfeed_mono zl _ _ _ _ _ E') as (o'' & f'' & E'' & Ho). rewrite E2' in E''. injection E'' as <- <-.
                  rewrite Ec1, !lenZ_app in Hl. lia. }
                intros Hsb. right. rewrite Hsb in Edata. cbn [app] in Edata. specialize (Hexact Hsb Hex).
                assert (rest = []) as ->.
                { pose proof (st_block _ Hstat). rewrite Hexact in Hbd. rewrite lenZ_takeZ in Hbd by lia.
                  assert (E0 : dd = c) by (rewrite Hexact; apply takeZ_all; lia). rewrite E0 in Edata.
                  rewrite <- (app_nil_r c) in Edata at 1. now apply app_inv_head in Edata. }
                cbn in E2. injection E2 as <- _. exact HL. }
        assert (Hbig2 : rM M <= 1 \/ startd b <> [] \/ Z.min (rM M) (lenZ content - rL M) <= lenZ (buff_data b2)).
        { destruct (Z.le_gt_cases (rM M) 1) as [Hm1|Hm1]; [now left|].
          destruct Hbig as [|[Hex Hb]]; [now left|right].
          destruct (startd b) as [|y ys] eqn:Esb; [right|left; discriminate].
          cbn [app] in *. pose proof (st_block _ Hstat) as HB.
          specialize (Hexact eq_refl Hex).
          destruct gz.
          - destruct (Hroom2 eq_refl) as [Hr|(_ & _ & Hr)]; [lia|].
            specialize (Hr eq_refl). cbn [app] in Hr. clear Hb. destruct Hr as [Hb|Hr]; [|rewrite Ep, lenZ_app; lia].
            (* the member fits in the block *)
            assert (pend' = []) as ->.
            { unfold steady in Hst'. destruct (br_dec b2) as [[zs|u|]|]; [| |contradiction|].
              2:{ now destruct Hst' as (_ & _ & -> & _). }
              2:{ destruct Hst'; discriminate. }
              destruct Hst' as (_ & fin & Ez & Ea).
              destruct rest as [|r0 rt] eqn:Erest; [cbn in Ez; now injection Ez as <-|exfalso].
              assert (lenZ dd = br_block b) as Elen.
              { rewrite Hexact. rewrite lenZ_takeZ by lia.
                assert (lenZ dd <= br_block b) by (rewrite Hexact, lenZ_takeZ; lia).
                rewrite Edata, lenZ_app, lenZ_cons. pose proof (lenZ_nonneg rt).
                assert (~ lenZ c <= br_block b); [|rewrite Edata, lenZ_app, lenZ_cons in *; lia].
                intros Hle. rewrite takeZ_all in Hexact by assumption. rewrite Hexact in Edata.
                apply (f_equal lenZ) in Edata. rewrite lenZ_app, lenZ_cons in Edata. lia. }
              rewrite Edata, lenZ_app in Hb.
              destruct fin as [z|u|]; cbn [dun] in Ea; subst after.
              - rewrite lenZ_nil, lenZ_cons in Hb. pose proof (lenZ_nonneg rt). lia.
              - destruct (zfeed_unused zl _ _ _ _ Ez) as (m & Em & Hm & _).
                rewrite Em, lenZ_app in Hb. apply lenZ_pos in Hm. lia.
              - now apply (zfeed_notbad zl _ _ _ _ Ez). }
            rewrite app_nil_r in Ep. rewrite Ep. lia.
          - rewrite (Hpl eq_refl). rewrite Hexact, lenZ_takeZ by lia.
            assert (content = c) as ->.
            { rewrite Ep, (Hpl eq_refl), Edata. f_equal.
              unfold steady in Hst'. destruct (br_dec b2) as [[zs|u|]|]; [| |contradiction|]; try (destruct Hst'; discriminate).
              now destruct Hst' as (_ & -> & _). }
            lia. }
        edestruct (fill_loop_ok gz fuel dd b2 rest pend' after) as (b' & c' & pend'' & E1 & (E2 & E2') & E3 & E4 & E5 & E6 & E7 & E8 & E9 & E10).
        + rewrite Estr, Hstr1. exact HR'.
        + exact Hst'.
        + exact Hs'.
        + eapply statics_frame; [|exact Hstat]. eapply frame_trans; eassumption.
        + discriminate.
        + intros Ed2 Eb2. exfalso. unfold steady in Hst'. rewrite Ed2 in Hst'. destruct Hst' as (-> & _).
          rewrite (Hpl eq_refl) in Eb2. contradiction.
        + pose proof (Hfuel _ _ HR'). lia.
        + assert (Hfrb : frame b b') by (eapply frame_trans; [|exact E5]; eapply frame_trans; eassumption).
          assert (Econt' : content = buff_data b' ++ pend'') by (rewrite <- E7; exact Ep).
          exists b'. split; [exact E1|]. split; [|split; [exact E4|split]].
          * exists c', pend''. split; [exact E2|]. split; [left; rewrite E4; exact E3|].
            split; [exact Econt'|]. split; [eapply statics_frame; eassumption|].
            split; [intros _; exact E4|]. split; [intros Hgt; rewrite E6; auto; apply Hdt; rewrite Hdt1; auto|].
            split; [assumption|]. split; [assumption|].
            destruct gz.
            { destruct (Hroom2 eq_refl) as [Hm|(Hex & Hr & _)]; [now left|right]. split; [assumption|]. now apply E10. }
            destruct Hbig as [|[Hex Hb]]; [now left|right]. split; [assumption|].
            rewrite (proj2 (proj2 Hfrb)). assumption.
          * intros Hbe. apply buff_empty_data in Hbe. destruct (E9 Hbe) as (-> & Ea & Hu).
            rewrite Hbe in Econt'. split; [exact Econt'|]. exists c'. auto.
          * intros Hsb. destruct Hbig2 as [Hm|[Hm|Hm]]; [|contradiction|].
            -- destruct content as [|x0 xs]; [rewrite lenZ_nil; pose proof (lenZ_nonneg (buff_data b')); lia|].
               assert (buff_data b' <> []) as Hne.
               { intros Hbe. destruct (E9 Hbe) as (-> & _). rewrite Hbe in Econt'. discriminate. }
               apply lenZ_pos in Hne. lia.
            -- destruct (buff_data b2) as [|y0 ys] eqn:Eb2.
               ++ rewrite lenZ_nil in Hm. pose proof (lenZ_nonneg (buff_data b')). lia.
               ++ rewrite E8 by discriminate. exact Hm. }
    destruct (br_start b) as [[|x0 xs]|] eqn:Estb.
    2:{ assert (Esd : startd b = x0 :: xs) by (unfold startd; now rewrite Estb).
        edestruct (Hread (br_stream b) (x0 :: xs) c HR) as (b' & E1 & E2 & E3 & E4 & _);
          [now rewrite Esd|congruence|congruence|discriminate|congruence|reflexivity|].
        exists b'. rewrite Esd in E1. cbn [is_nil] in E1. split; [exact E1|]. split; [exact E2|]. split; [exact E3|].
        split; [exact E4|]. rewrite Esd. discriminate. }
    all: assert (Esd : startd b = []) by (unfold startd; now rewrite Estb).
    all: destruct (HD _ _ _ HR (st_block _ Hstat)) as (d & rest & s' & Eo & HR' & Ec & Hlen & Hnil).
    all: rewrite Eo.
    all: edestruct (Hread s' d rest HR') as (b' & E1 & E2 & E3 & E4 & E5);
          [now rewrite Esd|auto|congruence|rewrite Esd; exact Hnil| |reflexivity|].
    1,3: intros _ Hex; destruct (Hex _ _ _ HR (st_block _ Hstat)) as (s2 & Eo2 & _); congruence.
    all: rewrite Esd in E1; cbn [is_nil] in E1.
    all: exists b'; split; [rewrite <- E1; f_equal; unfold set_start, set_stream; cbn; now rewrite Estb|].
    all: split; [exact E2|]; split; [exact E3|]; split; [exact E4|]; auto.
  Qed.
End Fill.

Section FillOk.
  Context {zl : zenv} {S : Type} (ops : sops S) (fuel : nat) (R : S -> bytes -> Prop).
  Notation BR := (breader zl S).
  Context (HD : delivers ops R) (Hfuel : forall s c, R s c -> (List.length c + 3 <= fuel)%nat).
  Notation BI := (BI (zl:=zl) ops fuel R).

  Lemma BI_take (M : rlim) gz g after b content n : BI M gz g after b content -> 0 <= n <= lenZ (buff_data b) ->
    BI M gz g after (set_bbuff (Some (dropZ n (buff_data b))) b) (dropZ n content).
  Proof.
    intros (c & pend & HR & Hsrc & -> & Hstat & Hbs & Hg & Hfl & HL & Hbig) Hn.
    exists c, pend. split; [exact HR|]. split.
    { destruct Hsrc as [Hst|(Eb & Hi & Hnil)]; [left; exact Hst|right].
      split; [rewrite Eb; reflexivity|]. split; [exact Hi|exact Hnil]. }
    split; [rewrite dropZ_app_le by lia; reflexivity|].
    split; [destruct Hstat; now split|]. split.
    { intros H. apply Hbs. intros E. rewrite E in H. now apply H. }
    split; [exact Hg|]. split; [|split; [exact HL|exact Hbig]].
    rewrite dropZ_app_le, app_length by lia. rewrite app_length in Hfl.
    assert (lenZ (dropZ n (buff_data b)) <= lenZ (buff_data b)) by (rewrite lenZ_dropZ by lia; lia).
    unfold lenZ in *. lia.
  Qed.

  Lemma BI_fill_ok (M : rlim) gz g after : fill_ok ops fuel M (BI M gz g after).
  Proof.
    split.
    - intros b c HB. destruct (BI_fill ops fuel R HD Hfuel _ _ _ _ _ _ HB) as (b' & E & HB' & Hs & He & HM).
      exists b'. repeat (split; [assumption|]). split; [intros H; apply He; assumption|assumption].
    - intros b content (c & pend & _ & _ & -> & _). eauto.
    - intros. now apply BI_take.
    - intros b c (? & ? & _ & _ & _ & [Hall _ _] & _). unfold br_empty. rewrite Hall.
      destruct (buff_empty b); reflexivity.
    - intros b c (? & ? & _ & _ & _ & _ & _ & _ & H & _). exact H.
  Qed.

  (** ** The initial states *)
  Definition full_ok (M : Z) (gz : bool) (block total : Z) : Prop :=
    M <= 1 \/ (exact_read ops R /\ if gz then total <= block else M <= block).
  (** a compressed stream [data] with the content [out]: [full_ok], or its first block brings
      all but the last [rL M] bytes *)
  Definition part_ok (M : rlim) (zs : zS zl) (block : Z) (data out after : bytes) : Prop :=
    0 <= rL M
    /\ (rM M <= 1 \/ (exact_read ops R
         /\ (lenZ data - lenZ after <= block
             \/ lenZ out <= rL M
             \/ exists o f, zfeed zl zs (takeZ block data) = Some (o, f) /\ lenZ out - rL M <= lenZ o))).
  Lemma full_part (M : Z) zs block data out after : full_ok M true block (lenZ data - lenZ after) ->
    part_ok M zs block data out after.
  Proof using. clear. intros [H|[He H]]; (split; [cbn; lia|]); [now left|right]. split; [exact He|]. now left. Qed.

  (** block_size reads of an undecoded stream *)
  Lemma BI_plain M s c block start ck : R s c -> 0 < block -> full_ok M false block 0 ->
    match ck with None => True | Some k => ck_not k = true end ->
    let st := match start with Some d => d | None => [] end in
    (List.length (st ++ c) + 3 <= fuel)%nat ->
    BI M false false [] (set_ck ck (br_new s block None start false)) (st ++ c).
  Proof.
    intros HR Hb Hf Hck st Hl. exists c, (st ++ c). split; [exact HR|].
    split; [left; unfold steady; cbn; auto|]. split; [reflexivity|].
    split; [split; [reflexivity|exact Hck|exact Hb]|]. split; [contradiction|]. split; [discriminate|].
    split; [exact Hl|]. split; [apply Z.le_refl|]. exact Hf.
  Qed.

  (** compressed content, from any initial decompressor *)
  Lemma BI_member_part (M : rlim) t s c block start out fin : R s c -> 0 < block ->
    let st := match start with Some d => d | None => [] end in
    zfeed zl (zinit zl t) (st ++ c) = Some (out, fin) ->
    part_ok M (zinit zl t) block (st ++ c) out (dun fin) ->
    (List.length out + 3 <= fuel)%nat ->
    BI M true (match t with Gzip => true | _ => false end) (dun fin) (br_new s block (Some t) start false) out.
  Proof.
    intros HR Hb st Hz Hf Hl. exists c, out. split; [exact HR|].
    split; [left; unfold steady; cbn; split; [reflexivity|]; exists fin; auto|].
    split; [reflexivity|]. split; [split; [reflexivity|exact Logic.I|exact Hb]|].
    split; [contradiction|]. split; [destruct t; auto; discriminate|]. split; [exact Hl|].
    destruct Hf as [HL Hf]. split; [exact HL|].
    destruct Hf as [Hf|[He Hf]]; [now left|right]. split; [exact He|]. unfold gz_room. cbn [br_new br_block br_dec startd br_start]. fold st.
    destruct Hf as [Hf|[Hf|(o & f & E & Hf)]]; [now left|right; now left|right; right]. exists (zinit zl t), fin, o, f. auto.
  Qed.

  Lemma BI_member (M : Z) t s c block start out fin : R s c -> 0 < block ->
    let st := match start with Some d => d | None => [] end in
    zfeed zl (zinit zl t) (st ++ c) = Some (out, fin) ->
    full_ok M true block (lenZ (st ++ c) - lenZ (dun fin)) ->
    (List.length out + 3 <= fuel)%nat ->
    BI M true (match t with Gzip => true | _ => false end) (dun fin) (br_new s block (Some t) start false) out.
  Proof. intros HR Hb st Hz Hf Hl. apply (BI_member_part M t s c block start out fin HR Hb Hz); [now apply full_part|exact Hl]. Qed.

  (** the reader moved to the next member (read_next_member) *)
  Lemma BI_next_member (M0 M : rlim) gz after b content out fin u c' :
    BI M0 gz true after b content -> br_dec b = Some (DDone u) -> u <> [] -> R (br_stream b) c' ->
    buff_data b = [] -> after = u ++ c' ->
    zfeed zl (zinit zl Gzip) after = Some (out, fin) ->
    part_ok M (zinit zl Gzip) (br_block b) after out (dun fin) ->
    (List.length out + 3 <= fuel)%nat ->
    exists b', read_next_member b = (true, b') /\ BI M true true (dun fin) b' out.
  Proof.
    intros (c & pend & _ & _ & _ & Hstat & _ & Hg & _) Ed Hu HR Hb0 -> Hz Hf Hl.
    unfold read_next_member. rewrite Ed. destruct u as [|u0 ut]; [contradiction|].
    eexists. split; [reflexivity|]. exists c', out. rewrite (Hg eq_refl).
    split; [exact HR|]. split; [left; unfold steady; cbn; split; [reflexivity|]; exists fin; split; [exact Hz|reflexivity]|].
    split; [change (out = buff_data b ++ out); rewrite Hb0; reflexivity|].
    split; [destruct Hstat; now split|].
    split; [change (buff_data b <> [] -> u0 :: ut = []); rewrite Hb0; contradiction|].
    split; [reflexivity|]. split; [exact Hl|].
    destruct Hf as [HL Hf]. split; [exact HL|].
    destruct Hf as [Hf|[He Hf]]; [now left|right]. split; [exact He|].
    destruct Hf as [Hf|[Hf|(o & f & E & Hf)]]; [now left|right; now left|right; right]. exists (zinit zl Gzip), fin, o, f. auto.
  Qed.

  (** data not in the expected format: the first block shows it *)
  Lemma BI_detect (M : Z) gz t s c block p q pend after : R s c -> 0 < block ->
    c = p ++ q -> zfeed zl (zinit zl t) p = None ->
    (forall d s', o_read ops (Some block) s = (Ok d, s') -> lenZ p <= lenZ d) ->
    ((t = Deflate /\ gz = true /\ exists fin, zfeed zl (zinit zl DeflateAlt) c = Some (pend, fin) /\ after = dun fin)
     \/ (gz = false /\ t <> Deflate /\ pend = c /\ after = [])) ->
    full_ok M gz block (lenZ c - lenZ after) ->
    (List.length pend + 3 <= fuel)%nat ->
    BI M gz (match t with Gzip => true | _ => false end) after (br_new s block (Some t) None false) pend.
  Proof.
    intros HR Hb Ec Hp Hfirst Hcase Hf Hl. exists c, pend. split; [exact HR|]. split.
    { right. split; [reflexivity|]. split.
      - intros d (s' & E & Hd). exists t. cbn in E |- *. repeat (split; [reflexivity|]). split.
        + destruct (HD _ _ _ HR Hb) as (d' & rest & s2 & E2 & _ & Ec2 & _). rewrite E in E2. injection E2 as <- <-.
          specialize (Hfirst _ _ E).
          assert (exists r, d = p ++ r) as (r & ->); [|now apply zfeed_None_app].
          exists (dropZ (lenZ p) d). rewrite <- (takeZ_dropZ (lenZ p) d) at 1. f_equal.
          rewrite <- (takeZ_app_le _ d rest) by assumption. rewrite <- Ec2, Ec. apply takeZ_app_exact.
        + destruct Hcase as [H|(-> & Ht & -> & ->)]; [now left|right]. repeat split; auto. contradiction.
      - intros E0. cbn in E0. subst c. apply app_eq_nil in E0 as [-> _]. discriminate. }
    split; [reflexivity|]. split; [split; [reflexivity|exact Logic.I|exact Hb]|].
    split; [contradiction|]. split; [destruct t; auto; discriminate|]. split; [exact Hl|]. split; [apply Z.le_refl|].
    destruct Hf as [|[He Hf]]; [now left|right]. split; [exact He|]. destruct gz; [left|]; exact Hf.
  Qed.
End FillOk.

(** ** Programs of calls *)
Definition mem_result (c : call) (content : bytes) : bytes :=
  match c with CRead n => read_of n content | CLine n => line_of n content end.

Definition mem_like {S} (ops : sops S) (ok : call -> Prop) (R : S -> bytes -> Prop) : Prop :=
  forall s c k, R s c -> ok k ->
  exists s', do_call ops k s = (Ok (mem_result k c), s') /\ R s' (dropZ (lenZ (mem_result k c)) c).

Lemma run_calls_mem {S} (ops : sops S) ok R : mem_like ops ok R -> forall cs s c,
  R s c -> Forall ok cs ->
  exists s', run_calls ops cs s = (map Ok (fst (mem_calls cs c)), s') /\ R s' (snd (mem_calls cs c)).
Proof.
  intros HM. induction cs as [|k cs IH]; intros s c HR Hok.
  - exists s. now split.
  - inversion Hok as [|? ? Hk Hcs]; subst. destruct (HM s c k HR Hk) as (s1 & E & HR1).
    destruct (IH _ _ HR1 Hcs) as (s2 & E2 & HR2).
    cbn [run_calls mem_calls]. rewrite E, E2. fold (mem_result k c).
    destruct (mem_calls cs _) as [l rest]. cbn. exists s2. now split.
Qed.

(** read with any non-negative or omitted length, readline without length *)
Definition br_call (k : call) : Prop :=
  match k with CRead n => nonneg n | CLine None => True | CLine (Some n) => n = 0 end.

Lemma br_mem_like {zl S} (ops : sops S) fuel (M : rlim) (I : breader zl S -> bytes -> Prop) :
  fill_ok ops fuel M I -> mem_like (br_ops ops fuel) br_call I.
Proof.
  intros FO b c k HI Hk. destruct k as [n|[n|]]; cbn [do_call br_ops o_read o_readline mem_result] in *.
  - apply (br_read_ok ops fuel M I FO); assumption.
  - cbn in Hk. subst n. exists b. unfold br_readline. cbn. rewrite takeZ_0 by lia. rewrite lenZ_nil, dropZ_0 by lia. now split.
  - destruct (br_readline_None ops fuel M I FO b c HI) as (b' & E & HI'). exists b'. split; [exact E|].
    cbn [line_of]. now rewrite <- drop_line_dropZ.
Qed.

Lemma br_readline_exact0 {zl S} (ops : sops S) fuel (M : Z) (I : breader zl S -> bytes -> Prop) :
  fill_ok ops fuel M I -> forall b c k, I b c -> 0 < k -> lenZ (takeZ k (take_line c)) <= M ->
    exists b', br_readline ops fuel (Some k) b = (Ok (takeZ k (take_line c)), b')
               /\ I b' (dropZ (lenZ (takeZ k (take_line c))) c).
Proof.
  intros FO b c k HI Hk Hl. apply (br_readline_exact ops fuel M I FO); [assumption|lia|exact Hl|]. cbn [rl0 rL].
  rewrite lenZ_takeZ by lia. pose proof (f_equal lenZ (take_drop_line c)) as Ht. rewrite lenZ_app in Ht. pose proof (lenZ_nonneg (drop_line c)). lia.
Qed.

(** with limits on readline, when every line cut to its limit is at most M long *)
Lemma br_mem_like_lines {zl S} (ops : sops S) fuel (M : Z) (I : breader zl S -> bytes -> Prop) :
  fill_ok ops fuel M I ->
  mem_like (br_ops ops fuel) (fun k => match k with CRead n => nonneg n | CLine None => True | CLine (Some n) => 0 <= n <= M end) I.
Proof.
  intros FO b c k HI Hk. destruct k as [n|[n|]].
  - apply (br_mem_like ops fuel M I FO); assumption.
  - destruct (Z.eq_dec n 0) as [->|Hn]; [now apply (br_mem_like ops fuel M I FO)|].
    cbn [do_call br_ops o_readline mem_result]. unfold line_of. replace (n <? 0) with false by lia.
    apply (br_readline_exact0 ops fuel M I FO); [assumption|lia|]. rewrite lenZ_takeZ by lia. lia.
  - now apply (br_mem_like ops fuel M I FO).
Qed.

(** ** End of a member *)
Section MemberEnd.
  Context {zl : zenv} {S : Type} (ops : sops S) (fuel : nat) (R : S -> bytes -> Prop).
  Notation BR := (breader zl S).
  Context (HD : delivers ops R) (Hfuel : forall s c, R s c -> (List.length c + 3 <= fuel)%nat).
  Notation BI := (BI (zl:=zl) ops fuel R).

  (** the reader has found the end of its content *)
  Definition at_end (after : bytes) (b : BR) : Prop :=
    buff_data b = [] /\ exists c', R (br_stream b) c' /\ after = unused b ++ c' /\ (unused b = [] -> c' = []).

  Lemma read_end (M : rlim) gz g after n : forall len acc b c, BI M gz g after b c ->
    nonneg len -> (match len with Some k => lenZ c < k | None => True end) -> (List.length c + 2 <= n)%nat ->
    exists b', read_loop ops fuel n len acc b = (Ok (acc ++ c), b') /\ BI M gz g after b' [] /\ at_end after b'.
  Proof.
    pose proof (BI_fill_ok (zl:=zl) ops fuel R HD Hfuel M gz g after) as FO.
    induction n as [|n IH]; intros len acc b c HI Hl Hk Hn; [lia|].
    cbn [read_loop].
    assert (match len with None => true | Some k => 0 <? k end = true) as ->.
    { destruct len as [k|]; [|reflexivity]. pose proof (lenZ_nonneg c). lia. }
    destruct (BI_fill ops fuel R HD Hfuel _ _ _ _ _ _ HI) as (b1 & Ef & HI1 & Hs & He & _).
    rewrite Ef, (fo_empty _ _ _ _ FO _ _ HI1). destruct (buff_empty b1) eqn:Eb.
    - destruct (He eq_refl) as (-> & Hend). exists b1. rewrite app_nil_r. split; [reflexivity|].
      split; [exact HI1|]. split; [now apply buff_empty_data|exact Hend].
    - destruct (fo_buff _ _ _ _ FO _ _ HI1) as (rest & Ec). apply buff_nonempty_data in Eb.
      assert (read_of len (buff_data b1) = buff_data b1) as Er.
      { unfold read_of. destruct len as [k|]; [|reflexivity]. cbn in Hl. replace (k <? 0) with false by lia.
        apply takeZ_all. rewrite Ec, lenZ_app in Hk. pose proof (lenZ_nonneg rest). lia. }
      rewrite Er. pose proof (lenZ_pos _ Eb) as Hpos.
      pose proof (BI_take ops fuel R Hfuel M gz g after b1 c (lenZ (buff_data b1)) HI1 ltac:(lia)) as HI2.
      replace (dropZ (lenZ (buff_data b1)) c) with rest in HI2 by (rewrite Ec; symmetry; apply dropZ_app_exact).
      edestruct (IH (match len with Some k => Some (k - lenZ (buff_data b1)) | None => None end) (acc ++ buff_data b1) _ _ HI2)
        as (b' & E & HI' & Hend).
      + destruct len as [k|]; [|exact Logic.I]. cbn. rewrite Ec, lenZ_app in Hk. pose proof (lenZ_nonneg rest). lia.
      + destruct len as [k|]; [|exact Logic.I]. rewrite Ec, lenZ_app in Hk. lia.
      + rewrite Ec, app_length in Hn. unfold lenZ in Hpos. lia.
      + exists b'. rewrite E. rewrite Ec, app_assoc. auto.
  Qed.

  Lemma br_read_end (M : rlim) gz g after len b c : BI M gz g after b c ->
    nonneg len -> (match len with Some k => lenZ c < k | None => True end) ->
    exists b', br_read ops fuel len b = (Ok c, b') /\ BI M gz g after b' [] /\ at_end after b'.
  Proof.
    intros HB Hl Hk. pose proof HB as (? & ? & _ & _ & _ & _ & _ & _ & Hf & _).
    destruct (read_end M gz g after fuel len [] b c HB Hl Hk ltac:(lia)) as (b' & E & H). exists b'. now split.
  Qed.

  Lemma next_member_false after b : at_end after b -> (unused b = [] <-> after = []).
  Proof.
    intros (_ & c' & _ & E & H). split.
    - intros Hu. rewrite E, Hu, (H Hu). reflexivity.
    - intros ->. destruct (unused b); [reflexivity|discriminate].
  Qed.

  Lemma next_member_iff after b : at_end after b -> fst (read_next_member b) = negb (is_nil after).
  Proof.
    intros H. pose proof (next_member_false after b H) as Hi. unfold read_next_member, unused in *.
    destruct (br_dec b) as [[zs|u|]|].
    1,3,4: destruct Hi as [Hi _]; rewrite (Hi eq_refl); reflexivity.
    destruct u as [|u0 ut]; [rewrite (proj1 Hi eq_refl); reflexivity|].
    cbn. destruct after as [|x t]; [|reflexivity]. now destruct Hi as [_ Hi]; specialize (Hi eq_refl).
  Qed.

  Lemma next_member_part (M0 M : rlim) gz after b out fin : BI M0 gz true after b [] -> at_end after b -> after <> [] ->
    zfeed zl (zinit zl Gzip) after = Some (out, fin) ->
    part_ok ops R M (zinit zl Gzip) (br_block b) after out (dun fin) ->
    (List.length out + 3 <= fuel)%nat ->
    exists b', read_next_member b = (true, b') /\ BI M true true (dun fin) b' out /\ br_block b' = br_block b.
  Proof.
    intros HB Hend Ha Hz Hf Hl. pose proof (next_member_false _ _ Hend) as Hi.
    destruct Hend as (Hb & c' & HR & Ea & _).
    assert (exists u, br_dec b = Some (DDone u) /\ unused b = u /\ u <> []) as (u & Ed & Eu & Hu).
    { unfold unused in *. destruct (br_dec b) as [[zs|u|]|].
      1,3,4: destruct Hi as [Hi _]; specialize (Hi eq_refl); contradiction.
      exists u. repeat split. intros ->. now apply Ha, Hi. }
    rewrite Eu in Ea.
    destruct (BI_next_member ops fuel R M0 M gz after b [] out fin u c' HB Ed Hu HR Hb Ea Hz Hf Hl) as (b' & E & HB').
    exists b'. split; [exact E|]. split; [exact HB'|].
    unfold read_next_member in E. rewrite Ed in E. destruct u; [contradiction|]. now injection E as <-.
  Qed.

  Lemma next_member (M : Z) gz after b out fin : BI M gz true after b [] -> at_end after b -> after <> [] ->
    zfeed zl (zinit zl Gzip) after = Some (out, fin) ->
    full_ok ops R M true (br_block b) (lenZ after - lenZ (dun fin)) ->
    (List.length out + 3 <= fuel)%nat ->
    exists b', read_next_member b = (true, b') /\ BI M true true (dun fin) b' out /\ br_block b' = br_block b.
  Proof. intros HB Hend Ha Hz Hf Hl. apply (next_member_part M M gz after b out fin HB Hend Ha Hz); [now apply full_part|exact Hl]. Qed.
End MemberEnd.
