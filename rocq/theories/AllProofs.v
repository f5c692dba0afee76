(** * AllProofs: lemmas on read_all_members=True *)
From Coq Require Import List ZArith NArith Bool Lia.
From Coq Require Import ZifyBool ZifyNat ZifyN.
From Verif Require Import PyBase Facts Streams StreamSpec StreamProofs BufProofs FillProofs AllSpec.
Import ListNotations.
Open Scope Z_scope.

Section All.
  Context {zl : zenv} {S : Type} (ops : sops S) (fuel : nat) (R : S -> bytes -> Prop) (ne : bool).
  Notation BR := (breader zl S).
  Context (HD : delivers ops R) (Hfuel : forall s c, R s c -> (List.length c + 3 <= fuel)%nat).

  Definition all_dec (dec : option (dobj (zS zl))) (data c : bytes) : Prop :=
    match dec with
    | Some (DActive zs) => exists o data' c', zfeed zl zs data = Some (o, DDone data')
                              /\ (ne = true -> o <> []) /\ members zl ne data' c' /\ c = o ++ c'
    | Some (DDone u) => members zl ne (u ++ data) c
    | _ => False
    end.

  Record all_static (b : BR) : Prop := {
    as_all : br_all b = true; as_ck : br_ck b = None; as_type : br_dtype b = Some Gzip;
    as_block : 0 < br_block b }.

  (** with [n] bytes still to be decompressed *)
  Definition AI (n : nat) (b : BR) (content : bytes) : Prop :=
    all_static b /\ exists rem c0, R (br_stream b) rem /\ content = buff_data b ++ c0
    /\ (all_dec (br_dec b) (startd b ++ rem) c0
        \/ (startd b = [] /\ rem = [] /\ c0 = [] /\ exists zs, br_dec b = Some (DActive zs)))
    /\ (forall u, br_dec b = Some (DDone u) -> startd b = [])
    /\ n = (List.length (startd b) + List.length rem + List.length (unused b))%nat
    /\ (ne = true -> rem = [] \/ (exact_read ops R /\ lenZ rem <= br_block b /\ startd b = []
                                  /\ exists zs, br_dec b = Some (DActive zs))).

  Lemma members_nil c : members zl ne [] c -> c = [].
  Proof.
    intros H. inversion H as [|m o d c' Hm Hne Hd E]; [reflexivity|].
    apply app_eq_nil in E as [-> ->]. discriminate Hm.
  Qed.

  Lemma members_start data c : members zl ne data c -> data <> [] ->
    all_dec (Some (DActive (zinit zl Gzip))) data c.
  Proof.
    intros H Hd. inversion H as [|m o d c' Hm Hne Hms E]; subst; [contradiction|].
    exists o, d, c'. split; [|auto]. exact (zfeed_app_done zl m _ d o [] Hm).
  Qed.

  Definition is_active (dec : option (dobj (zS zl))) : Prop := exists zs, dec = Some (DActive zs).

  (** one block of data, with [rem] to follow *)
  Lemma process_all (b : BR) d rem c :
    d <> [] -> all_dec (br_dec b) (d ++ rem) c -> (ne = true -> rem = []) ->
    let b' := process_read d b in
    br_stream b' = br_stream b /\ startd b' = startd b /\ (all_static b -> all_static b')
    /\ (exists c0, c = buff_data b' ++ c0 /\ all_dec (br_dec b') rem c0)
    /\ (is_active (br_dec b) -> (List.length (unused b') < List.length d)%nat /\ (ne = true -> buff_data b' <> []))
    /\ (br_dec b = Some (DDone []) -> br_dec b' = Some (DDone d)).
  Proof.
    intros Hd Hdec Hne. cbv zeta. unfold process_read, decompress.
    assert (En : is_nil d = false) by now apply is_nil_false. rewrite En.
    destruct (br_dec b) as [[zs|u|]|] eqn:Ed; cbn in Hdec; try contradiction.
    - destruct Hdec as (o & data' & c' & Ez & Ho & Hms & ->).
      unfold dobj_decompress.
      destruct (zfeed_app zl _ _ _ _ _ Ez) as [(u & E1 & E2)|(o1 & zs' & p' & E1 & E2 & ->)]; rewrite E1.
      + injection E2 as ->. destruct (zfeed_unused zl _ _ _ _ E1) as (m & -> & Hm & _).
        cbn. split; [reflexivity|]. split; [reflexivity|].
        split; [intros [A B C D]; split; assumption|].
        split; [exists c'; split; [reflexivity|exact Hms]|].
        split; [|discriminate]. intros _. split; [|exact Ho].
        rewrite app_length. destruct m; [contradiction|]. cbn. lia.
      + cbn. split; [reflexivity|]. split; [reflexivity|].
        split; [intros [A B C D]; split; assumption|].
        assert (ne = false) as Ene.
        { destruct ne; [|reflexivity]. rewrite (Hne eq_refl) in E2. discriminate. }
        split; [exists (p' ++ c'); split; [now rewrite app_assoc|exists p', data', c'; split; [exact E2|]; split; [congruence|auto]]|].
        split; [|discriminate]. intros _. split; [|congruence].
        destruct d; [contradiction|]. cbn. lia.
    - cbn. split; [reflexivity|]. split; [reflexivity|].
      split; [intros [A B C D]; split; assumption|].
      split; [exists c; split; [reflexivity|]; rewrite <- app_assoc; exact Hdec|].
      split; [intros (zs & E); discriminate|]. intros [= ->]. reflexivity.
  Qed.

  Lemma process_end (b : BR) : let b' := process_read [] b in
    br_stream b' = br_stream b /\ startd b' = startd b /\ (all_static b -> all_static b')
    /\ br_dec b' = br_dec b /\ buff_data b' = [].
  Proof. cbv zeta. repeat split; destruct H; assumption. Qed.

  (** the state after some blocks; [c] remains, buffered or not *)
  Definition mid (n : nat) (b : BR) (c : bytes) : Prop :=
    all_static b /\ startd b = [] /\ exists rem c0, R (br_stream b) rem /\ c = buff_data b ++ c0
    /\ all_dec (br_dec b) rem c0 /\ n = (List.length rem + List.length (unused b))%nat
    /\ (ne = true -> rem = []).

  Lemma mid_AI n b c : mid n b c -> AI n b c.
  Proof.
    intros (Hst & Hs & rem & c0 & HR & -> & Hdec & -> & Hne).
    split; [assumption|]. exists rem, c0. rewrite Hs. cbn [app List.length]. repeat split; auto.
  Qed.

  Lemma fill_loop_all k : forall d n b c, (n + 1 < k)%nat -> mid n b c -> d <> [] ->
    exists n' b', fill_loop ops k d b = (Ok tt, b') /\ AI n' b' c /\ (n' <= n)%nat
      /\ (buff_data b' = [] -> c = [] \/ unused b' <> []).
  Proof.
    induction k as [|k IH]; intros d n b c Hk Hm Hd; [lia|].
    cbn [fill_loop]. unfold fill_cond.
    rewrite (proj2 (is_nil_false d) Hd). cbn [negb andb].
    pose proof Hm as (Hst & Hs & rem & c0 & HR & Ec & Hdec & En & Hne).
    destruct (is_nil (unused b)) eqn:Eu.
    2:{ rewrite andb_false_r. cbn [andb]. exists n, b. split; [reflexivity|]. split; [now apply mid_AI|]. split; [lia|].
        intros Eb. right. apply is_nil_false in Eu. auto. }
    apply is_nil_true in Eu.
    destruct (buff_empty b) eqn:Eb.
    2:{ rewrite andb_false_r. exists n, b. split; [reflexivity|]. split; [now apply mid_AI|]. split; [lia|].
        apply buff_nonempty_data in Eb. contradiction. }
    apply buff_empty_data in Eb. rewrite Eb in Ec. cbn [app] in Ec. subst c0.
    destruct (br_dec b) as [dd|] eqn:Ed; [|contradiction]. cbn [andb].
    destruct (HD _ _ _ HR (as_block _ Hst)) as (x & rest & s' & -> & HR' & Er & Hx & Hx0).
    destruct x as [|y x].
    { rewrite (Hx0 eq_refl) in *. destruct rest; [|discriminate]. clear Er Hx0.
      assert (c = []) as ->.
      { destruct dd as [zs|u|]; cbn in Hdec; [|unfold unused in Eu; rewrite Ed in Eu; subst u; now apply members_nil|contradiction].
        destruct Hdec as (o & data' & c' & E & _). discriminate. }
      destruct (process_end (set_stream s' b)) as (P1 & P2 & P3 & P4 & P5).
      set (b1 := process_read [] (set_stream s' b)) in *.
      destruct k as [|k]; [lia|]. cbn [fill_loop]. unfold fill_cond. cbn [is_nil negb andb].
      exists n, b1. split; [reflexivity|]. split; [|split; [lia|now left]].
      apply mid_AI. split; [apply P3; destruct Hst; split; assumption|]. split; [rewrite P2; exact Hs|].
      exists [], []. rewrite P1, P4, P5. split; [exact HR'|]. split; [reflexivity|].
      split; [cbn; rewrite Ed; exact Hdec|]. split; [|auto].
      assert (unused b1 = unused b) as -> by (unfold unused; now rewrite P4). exact En. }
    clear Hx0. rewrite Er in Hdec.
    destruct (process_all (set_stream s' b) (y :: x) rest c ltac:(discriminate)) as (P1 & P2 & P3 & (c1 & Ec1 & P4) & P5 & P6).
    { cbn [br_dec set_stream]. rewrite Ed. exact Hdec. }
    { intros E. specialize (Hne E). rewrite Hne in Er. discriminate. }
    set (b1 := process_read (y :: x) (set_stream s' b)) in *. cbn [br_dec set_stream br_stream startd br_start] in *.
    set (n1 := (List.length rest + List.length (unused b1))%nat).
    assert (Hm1 : mid n1 b1 c).
    { split; [apply P3; destruct Hst; split; assumption|]. split; [rewrite P2; exact Hs|].
      exists rest, c1. rewrite P1. split; [exact HR'|]. split; [exact Ec1|]. split; [exact P4|]. split; [reflexivity|].
      intros E. specialize (Hne E). rewrite Hne in Er. discriminate. }
    assert (ne = false) as Ene.
    { destruct ne; [|reflexivity]. rewrite (Hne eq_refl) in Er. discriminate. }
    rewrite Er, app_length in En. rewrite Eu in En. cbn [List.length] in En.
    destruct dd as [zs|u|]; [| |contradiction].
    - destruct (P5 ltac:(now exists zs)) as [P7 _]. cbn [List.length] in P7.
      destruct (IH (y :: x) n1 b1 c ltac:(unfold n1; lia) Hm1 ltac:(discriminate)) as (n' & b' & E & HA & Hn' & Hst').
      exists n', b'. split; [exact E|]. split; [exact HA|]. split; [unfold n1 in *; lia|].
      exact Hst'.
    - unfold unused in Eu. rewrite Ed in Eu. subst u. specialize (P6 Ed).
      assert (Eu1 : unused b1 = y :: x) by (unfold unused; now rewrite P6).
      destruct k as [|k]; [lia|]. cbn [fill_loop]. unfold fill_cond. rewrite Eu1. cbn [is_nil negb andb].
      rewrite andb_false_r. cbn [andb].
      exists n1, b1. split; [reflexivity|]. split; [now apply mid_AI|]. split; [unfold n1; rewrite Eu1; cbn [List.length]; lia|].
      intros _. right. congruence.
  Qed.

  Lemma fill_loop_stop k d (b : BR) : buff_data b <> [] -> (0 < k)%nat -> fill_loop ops k d b = (Ok tt, b).
  Proof.
    intros Hb Hk. destruct k as [|k]; [lia|]. cbn [fill_loop]. unfold fill_cond.
    apply buff_nonempty_data in Hb. rewrite Hb. now rewrite andb_false_r.
  Qed.

  (** after read_next_member, if it applies *)
  Lemma next_AI n b c : AI n b c -> buff_data b = [] ->
    AI n (snd (read_next_member b)) c /\ unused (snd (read_next_member b)) = []
    /\ buff_data (snd (read_next_member b)) = []
    /\ (unused b <> [] -> startd (snd (read_next_member b)) <> []
        /\ is_active (br_dec (snd (read_next_member b)))).
  Proof.
    intros HA Hb. unfold read_next_member. destruct (br_dec b) as [[zs|[|x u]|]|] eqn:Ed; cbn [snd].
    - unfold unused. rewrite Ed. split; [assumption|]. split; [reflexivity|]. split; [assumption|]. intros H; now contradiction H.
    - unfold unused. rewrite Ed. split; [assumption|]. split; [reflexivity|]. split; [assumption|]. intros H; now contradiction H.
    - pose proof HA as (Hst & rem & c0 & HR & -> & Hdec & Hs & -> & Hne).
      specialize (Hs _ Ed). rewrite Hb. cbn [app]. assert (Eub : unused b = x :: u) by (unfold unused; now rewrite Ed).
      assert (Hn : ne = true -> rem = []).
      { intros E. destruct (Hne E) as [|(_ & _ & _ & zs & E2)]; [assumption|congruence]. }
      set (b1 := init_decomp (br_dtype b) (set_start (Some (x :: u)) b)).
      assert (br_dec b1 = Some (DActive (zinit zl Gzip))) as Ed1.
      { unfold b1. rewrite (as_type _ Hst). reflexivity. }
      assert (unused b1 = []) as Eu by (unfold unused; now rewrite Ed1).
      split; [|split; [exact Eu|split; [exact Hb|intros _; split; [discriminate|eexists; exact Ed1]]]].
      split; [destruct Hst; split; assumption|]. exists rem, c0.
      change (init_decomp (br_dtype b) (set_start (Some (x :: u)) b)) with b1. replace (startd b1) with (x :: u) by reflexivity. rewrite Eu, Eub, Ed1, Hs.
      split; [exact HR|]. split; [replace (buff_data b1) with (buff_data b) by reflexivity; now rewrite Hb|].
      split; [left|].
      { destruct Hdec as [Hdec|(_ & _ & _ & zs & E2)]; [|congruence]. rewrite Ed, Hs in Hdec. cbn [app] in Hdec.
        apply members_start; [exact Hdec|discriminate]. }
      split; [discriminate|]. split; [cbn [List.length]; lia|]. intros E. left. auto.
    - exfalso. destruct HA as (_ & rem & c0 & _ & _ & [H|(_ & _ & _ & zs & E)] & _); rewrite Ed in *; [contradiction|discriminate].
    - exfalso. destruct HA as (_ & rem & c0 & _ & _ & [H|(_ & _ & _ & zs & E)] & _); rewrite Ed in *; [contradiction|discriminate].
  Qed.

  (** the amount of data is bounded by the fuel *)
  Definition bounded (n : nat) : Prop := (n + 3 <= fuel)%nat.

  Lemma fill_all n b c : AI n b c -> bounded n ->
    exists n' b', fillbuff ops fuel b = (Ok tt, b') /\ AI n' b' c /\ (n' <= n)%nat
      /\ (buff_data b' = [] -> c = [] \/ unused b' <> [])
      /\ (buff_data b = [] -> startd b <> [] -> is_active (br_dec b) -> (n' < n)%nat)
      /\ (ne = true -> buff_data b' = [] -> c = []).
  Proof.
    intros HA Hbd. pose proof HA as (Hst & _). unfold fillbuff. rewrite (as_ck _ Hst). unfold fill_base, br_empty.
    rewrite (as_all _ Hst).
    destruct (buff_empty b) eqn:Eb; cbn [negb].
    2:{ apply buff_nonempty_data in Eb. exists n, b. split; [reflexivity|]. split; [assumption|]. split; [lia|].
        split; [contradiction|]. split; contradiction. }
    apply buff_empty_data in Eb.
    destruct (next_AI n b c HA Eb) as (HA1 & Eu1 & Eb1 & Hnx).
    assert (Hsame : startd b <> [] -> is_active (br_dec b) -> snd (read_next_member b) = b).
    { intros _ (zs & E). unfold read_next_member. now rewrite E. }
    set (b1 := snd (read_next_member b)) in *.
    assert (rem_length b1 = 0) as ->.
    { unfold rem_length. rewrite Eu1. unfold buff_data in Eb1. destruct (br_buff b1) as [[|]|]; [reflexivity|discriminate|reflexivity]. }
    cbn [Z.ltb Z.compare].
    clear HA Hst. pose proof HA1 as (Hst & rem & c0 & HR & Ec & Hdec & Hsd & En & Hne).
    rewrite Eb1 in Ec. cbn [app] in Ec. subst c0. rewrite Eu1 in En. cbn [List.length] in En.
    destruct (startd b1) as [|x st] eqn:Es.
    - (* read a block *)
      assert (Hstart : match br_start b1 with Some ((_ :: _) as d) => False | _ => True end).
      { unfold startd in Es. destruct (br_start b1) as [[|]|]; [exact I|discriminate|exact I]. }
      assert (Hgoal : exists n' b', match o_read ops (Some (br_block b1)) (br_stream b1) with
          | (Ok d, s') => fill_loop ops fuel d (process_read d (set_stream s' b1))
          | (Err e, s') => (Err e, set_stream s' b1)
          end = (Ok tt, b') /\ AI n' b' c /\ (n' <= n)%nat
        /\ (buff_data b' = [] -> c = [] \/ unused b' <> [])
        /\ (buff_data b = [] -> startd b <> [] -> is_active (br_dec b) -> (n' < n)%nat)
        /\ (ne = true -> buff_data b' = [] -> c = [])).
      { destruct (HD _ _ _ HR (as_block _ Hst)) as (d & rest & s' & Erd & HR' & Er & Hx & Hx0). rewrite Erd.
        cbn [app] in Hdec.
        destruct d as [|y d].
        { rewrite (Hx0 eq_refl) in *. destruct rest; [|discriminate].
          assert (c = []) as ->.
          { destruct Hdec as [Hdec|(_ & _ & E & _)]; [|exact E].
            destruct (br_dec b1) as [[zs|u|]|] eqn:Ed; cbn in Hdec; try contradiction.
            - destruct Hdec as (o & data' & c' & E & _). discriminate.
            - unfold unused in Eu1. rewrite Ed in Eu1. subst u. now apply members_nil. }
          destruct (process_end (set_stream s' b1)) as (P1 & P2 & P3 & P4 & P5).
          set (b2 := process_read [] (set_stream s' b1)) in *.
          destruct fuel as [|k] eqn:Ef; [unfold bounded in Hbd; lia|]. cbn [fill_loop]. unfold fill_cond. cbn [is_nil negb andb].
          exists n, b2. split; [reflexivity|]. split; [|split; [lia|split; [auto|split; [|auto]]]; intros _ Hs0 Ha0; rewrite (Hsame Hs0 Ha0) in Es; contradiction].
          split; [apply P3; destruct Hst; split; assumption|]. exists [], [].
          rewrite P1, P2, P4, P5. cbn [br_stream set_stream br_dec].
          assert (unused b2 = unused b1) as -> by (unfold unused; now rewrite P4).
          replace (startd (set_stream s' b1)) with (startd b1) by reflexivity. rewrite Es, Eu1.
          split; [exact HR'|]. split; [reflexivity|].
          split; [exact Hdec|]. split; [auto|]. split; [exact En|]. auto. }
        assert (Hall : all_dec (br_dec b1) ((y :: d) ++ rest) c).
        { destruct Hdec as [Hdec|(_ & E & _)]; [|rewrite E in Er; discriminate]. now rewrite <- Er. }
        assert (Hnr : ne = true -> rest = []).
        { intros E. destruct (Hne E) as [E2|(HE & Hlb & _)]; [rewrite E2 in Er; discriminate|].
          destruct (HE _ _ (br_block b1) HR (as_block _ Hst)) as (s2 & E3 & _). rewrite Erd in E3. injection E3 as E4 _.
          rewrite takeZ_all in E4 by lia. rewrite <- E4 in Er. apply (f_equal (@List.length N)) in Er.
          rewrite app_length in Er. destruct rest; [reflexivity|cbn in Er; lia]. }
        destruct (process_all (set_stream s' b1) (y :: d) rest c ltac:(discriminate) Hall Hnr)
          as (P1 & P2 & P3 & (c1 & Ec1 & P4) & P5 & P6).
        set (b2 := process_read (y :: d) (set_stream s' b1)) in *. cbn [br_dec set_stream br_stream] in *.
        replace (startd (set_stream s' b1)) with (startd b1) in P2 by reflexivity. rewrite Es in P2.
        set (n2 := (List.length rest + List.length (unused b2))%nat).
        assert (Hm2 : mid n2 b2 c).
        { split; [apply P3; destruct Hst; split; assumption|]. split; [exact P2|].
          exists rest, c1. rewrite P1. split; [exact HR'|]. split; [exact Ec1|]. split; [exact P4|]. split; [reflexivity|exact Hnr]. }
        rewrite Er in En. cbn [app List.length] in En. rewrite app_length in En.
        assert (Hn2 : (n2 <= n)%nat).
        { destruct (br_dec b1) as [[zs|u|]|] eqn:Ed1; try contradiction.
          - destruct (P5 ltac:(now exists zs)) as [P7 _]. cbn [List.length] in P7. unfold n2. lia.
          - assert (u = []) as -> by (unfold unused in Eu1; now rewrite Ed1 in Eu1).
            specialize (P6 eq_refl). unfold n2, unused. rewrite P6. cbn [List.length]. lia. }
        destruct (ne) eqn:Ene.
        { assert (buff_data b2 <> []) as Hb2.
          { destruct (Hne eq_refl) as [E2|(_ & _ & _ & Hact)]; [rewrite E2 in Er; discriminate|].
            destruct (P5 Hact) as [_ H]. exact (H eq_refl). }
          rewrite (fill_loop_stop fuel (y :: d) b2 Hb2) by (unfold bounded in Hbd; lia).
          exists n2, b2. split; [reflexivity|]. split; [now apply mid_AI|]. split; [exact Hn2|].
          split; [contradiction|]. split; [|contradiction]. intros _ Hs0 Ha0. rewrite (Hsame Hs0 Ha0) in Es. contradiction. }
        destruct (fill_loop_all fuel (y :: d) n2 b2 c ltac:(unfold bounded in Hbd; lia) Hm2 ltac:(discriminate))
          as (n' & b' & E & HA' & Hn' & Hst').
        exists n', b'. split; [exact E|]. split; [exact HA'|]. split; [lia|]. split; [exact Hst'|].
        split; [|discriminate]. intros _ Hs0 Ha0. rewrite (Hsame Hs0 Ha0) in Es. contradiction. }
      destruct (br_start b1) as [[|]|]; [exact Hgoal|contradiction|exact Hgoal].
    - assert (br_start b1 = Some (x :: st)) as ->.
      { unfold startd in Es. destruct (br_start b1) as [[|]|]; [discriminate| |discriminate]. now rewrite Es. }
      assert (Hall : all_dec (br_dec b1) ((x :: st) ++ rem) c).
      { destruct Hdec as [Hdec|(E & _)]; [exact Hdec|discriminate]. }
      assert (Hact : is_active (br_dec b1)).
      { destruct (br_dec b1) as [[zs|u|]|] eqn:Ed; try contradiction; [now exists zs|]. specialize (Hsd _ eq_refl). discriminate. }
      assert (Hnr : ne = true -> rem = []).
      { intros E. destruct (Hne E) as [|(_ & _ & E2 & _)]; [assumption|discriminate]. }
      destruct (process_all (set_start None b1) (x :: st) rem c ltac:(discriminate) Hall Hnr)
        as (P1 & P2 & P3 & (c1 & Ec1 & P4) & P5 & P6).
      set (b2 := process_read (x :: st) (set_start None b1)) in *. cbn [br_dec set_start br_stream] in *.
      replace (startd (set_start None b1)) with (@nil N) in P2 by reflexivity.
      set (n2 := (List.length rem + List.length (unused b2))%nat).
      assert (Hm2 : mid n2 b2 c).
      { split; [apply P3; destruct Hst; split; assumption|]. split; [exact P2|].
        exists rem, c1. rewrite P1. split; [exact HR|]. split; [exact Ec1|]. split; [exact P4|]. split; [reflexivity|exact Hnr]. }
      destruct (P5 Hact) as [P7 P8].
      assert (Hn2 : (n2 < n)%nat) by (unfold n2; lia).
      destruct (ne) eqn:Ene.
      { specialize (P8 eq_refl).
        rewrite (fill_loop_stop fuel (x :: st) b2 P8) by (unfold bounded in Hbd; lia).
        exists n2, b2. split; [reflexivity|]. split; [now apply mid_AI|]. split; [lia|].
        split; [contradiction|]. split; [intros; lia|contradiction]. }
      destruct (fill_loop_all fuel (x :: st) n2 b2 c ltac:(unfold bounded in Hbd; lia) Hm2 ltac:(discriminate))
        as (n' & b' & E & HA' & Hn' & Hst').
      exists n', b'. split; [exact E|]. split; [exact HA'|]. split; [lia|]. split; [exact Hst'|].
      split; [|discriminate]. intros _ _ _. lia.
  Qed.

  Lemma AI_take n b c k : AI n b c -> 0 <= k <= lenZ (buff_data b) ->
    AI n (set_bbuff (Some (dropZ k (buff_data b))) b) (dropZ k c).
  Proof.
    intros (Hst & rem & c0 & HR & -> & H) Hk. split; [destruct Hst; split; assumption|].
    exists rem, c0. split; [exact HR|]. split; [now rewrite dropZ_app_le by lia|]. exact H.
  Qed.

  (** a read returns a beginning of what is left *)
  Lemma read_loop_all m : forall n len acc b c, AI n b c -> bounded n -> nonneg len ->
    (List.length c + 2 <= m)%nat ->
    exists n' out rest b', read_loop ops fuel m len acc b = (Ok (acc ++ out), b') /\ c = out ++ rest
      /\ AI n' b' rest /\ (n' <= n)%nat
      /\ (match len with Some k => lenZ out <= k | None => True end)
      /\ ((match len with Some k => lenZ out = k | None => False end)
          \/ rest = [] \/ (startd b' <> [] /\ is_active (br_dec b') /\ ne = false /\ buff_data b' = []
                          /\ (startd b <> [] -> is_active (br_dec b) -> buff_data b = [] -> (n' < n)%nat))).
  Proof.
    induction m as [|m IH]; intros n len acc b c HA Hbd Hl Hm; [lia|].
    cbn [read_loop].
    destruct (match len with None => true | Some k => 0 <? k end) eqn:Ek.
    2:{ destruct len as [k|]; [|discriminate]. cbn in Hl. assert (k = 0) as -> by lia.
        exists n, [], c, b. rewrite app_nil_r. cbn [app].
        split; [reflexivity|]. split; [reflexivity|]. split; [assumption|]. split; [lia|]. split; [cbn; lia|]. left. reflexivity. }
    destruct (fill_all n b c HA Hbd) as (n1 & b1 & -> & HA1 & Hn1 & He & Hlt & Hne).
    unfold br_empty. pose proof HA1 as (Hst1 & _). rewrite (as_all _ Hst1).
    destruct (buff_empty b1) eqn:Eb.
    - apply buff_empty_data in Eb.
      destruct (next_AI n1 b1 c HA1 Eb) as (HA2 & _ & Hb2 & Hnx).
      exists n1, [], c, (snd (read_next_member b1)). rewrite app_nil_r. cbn [app].
      split; [reflexivity|]. split; [reflexivity|]. split; [exact HA2|]. split; [exact Hn1|].
      split; [destruct len as [k|]; [cbn; lia|exact I]|]. right.
      destruct c as [|x c]; [now left|right].
      destruct (He Eb) as [|Hu]; [discriminate|]. destruct (Hnx Hu) as [H1 H2].
      split; [exact H1|]. split; [exact H2|]. split.
      { destruct ne; [|reflexivity]. specialize (Hne eq_refl Eb). discriminate. }
      split; [exact Hb2|].
      intros Hs Ha Hb. exact (Hlt Hb Hs Ha).
    - apply buff_nonempty_data in Eb.
      assert (exists rest, c = buff_data b1 ++ rest) as (rest & Ec).
      { destruct HA1 as (_ & rem & c0 & _ & E & _). eauto. }
      set (x := buff_data b1) in *. pose proof (lenZ_pos _ Eb) as Hp.
      set (out := read_of len x).
      assert (Ho : 0 < lenZ out <= lenZ x /\ out = takeZ (lenZ out) x
                   /\ match len with Some k => lenZ out <= k | None => True end).
      { unfold out, read_of. destruct len as [k|].
        - cbn in Hl. replace (k <? 0) with false by lia. rewrite lenZ_takeZ by lia. split; [lia|]. split; [|lia].
          destruct (Z.le_gt_cases k (lenZ x)); [now rewrite Z.min_l|]. rewrite Z.min_r by lia.
          rewrite !takeZ_all by lia. reflexivity.
        - split; [lia|]. split; [|exact I]. now rewrite takeZ_all by lia. }
      destruct Ho as (Ho1 & Ho2 & Ho3).
      pose proof (AI_take n1 b1 c (lenZ out) HA1 ltac:(fold x; lia)) as HA2. fold x in HA2.
      assert (El : lenZ (dropZ (lenZ out) c) = lenZ c - lenZ out).
      { rewrite lenZ_dropZ by lia. rewrite Ec, lenZ_app. pose proof (lenZ_nonneg rest). lia. }
      destruct (IH n1 (match len with Some k => Some (k - lenZ out) | None => None end) (acc ++ out) _ _ HA2
        ltac:(unfold bounded in *; lia)) as (n' & o2 & r2 & b' & E & Ec2 & HA' & Hn' & Hk' & Hfin).
      { destruct len as [k|]; [|exact I]. unfold nonneg. lia. }
      { unfold lenZ in *. lia. }
      exists n', (out ++ o2), r2, b'.
      split; [rewrite E; now rewrite app_assoc|]. split.
      { rewrite <- app_assoc, <- Ec2. rewrite Ho2 at 1.
        replace (takeZ (lenZ out) x) with (takeZ (lenZ out) c) by (rewrite Ec, takeZ_app_le by lia; reflexivity).
        symmetry. apply takeZ_dropZ. }
      split; [exact HA'|]. split; [lia|]. split.
      { destruct len as [k|]; [|exact I]. rewrite lenZ_app. lia. }
      destruct Hfin as [Hf|[Hf|(H1 & H2 & H3 & H3b & H4)]]; [left|right; now left|right; right].
      { destruct len as [k|]; [|exact Hf]. rewrite lenZ_app. lia. }
      split; [exact H1|]. split; [exact H2|]. split; [exact H3|]. split; [exact H3b|].
      intros Hs Ha Hb.
      specialize (Hlt Hb Hs Ha). lia.
  Qed.

  Lemma AI_new s data c block : R s data -> members zl ne data c -> 0 < block ->
    (ne = true -> exact_read ops R /\ lenZ data <= block) ->
    AI (List.length data) (dbr_new s block None true) c.
  Proof using Type.
    intros HR Hm Hb Hne. split; [split; [reflexivity|reflexivity|reflexivity|exact Hb]|].
    exists data, c. split; [exact HR|]. split; [reflexivity|]. split.
    { destruct data as [|x d].
      - right. rewrite (members_nil _ Hm). split; [reflexivity|]. split; [reflexivity|]. split; [reflexivity|]. eexists. reflexivity.
      - left. apply members_start; [exact Hm|discriminate]. }
    split; [discriminate|]. split; [clear; cbn; lia|].
    intros E. right. destruct (Hne E). split; [assumption|]. split; [assumption|]. split; [reflexivity|]. eexists. reflexivity.
  Qed.

  (** what is not yet returned is never lost: enough further read() calls return it *)
  Lemma reads_n_all k : forall n b c, AI n b c -> bounded n -> (List.length c + 2 <= fuel)%nat ->
    (2 * n + 2 <= k)%nat \/ (startd b <> [] /\ is_active (br_dec b) /\ buff_data b = [] /\ (2 * n + 1 <= k)%nat) ->
    reads_n ops fuel k b = Ok c.
  Proof.
    assert (Hdone : forall j n b, AI n b [] -> bounded n -> (2 <= fuel)%nat -> reads_n ops fuel j b = Ok []).
    { induction j as [|j IH]; intros n b HA Hbd Hf; [reflexivity|]. cbn [reads_n]. unfold br_read.
      destruct (read_loop_all fuel n None [] b [] HA Hbd I ltac:(cbn; lia)) as (n' & out & rest & b' & -> & Ec & HA' & Hn' & _).
      symmetry in Ec. apply app_eq_nil in Ec as [-> ->]. cbn [app].
      rewrite (IH n' b' HA') by (unfold bounded in *; lia). reflexivity. }
    induction k as [|k IH]; intros n b c HA Hbd Hf Hk; [lia|].
    cbn [reads_n]. unfold br_read.
    destruct (read_loop_all fuel n None [] b c HA Hbd I Hf) as (n' & out & rest & b' & -> & -> & HA' & Hn' & _ & [[]|[->|(H1 & H2 & _ & Hb' & H4)]]).
    - cbn [app]. rewrite (Hdone k n' b' HA') by (unfold bounded in *; lia). reflexivity.
    - cbn [app]. rewrite app_length in Hf.
      rewrite (IH n' b' rest HA'); [reflexivity|unfold bounded in *; lia|lia|].
      right. split; [exact H1|]. split; [exact H2|]. split; [exact Hb'|].
      destruct Hk as [Hk|(S1 & S2 & S3 & Hk)]; [lia|]. specialize (H4 S1 S2 S3). lia.
  Qed.
End All.
