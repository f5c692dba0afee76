(** * BufProofs: lemmas on BufferedReader (Streams.v, section Buffered) *)
From Coq Require Import List ZArith NArith Bool Lia.
From Coq Require Import ZifyBool ZifyNat ZifyN.
From Verif Require Import PyBase Facts Streams StreamSpec StreamProofs.
Import ListNotations.
Open Scope Z_scope.

(** ** The read loops, for any way of filling the buffer *)
(** how much a fill brings: at least [rM] bytes, except for the last [rL] bytes of the content *)
Record rlim := mk_rlim { rM : Z; rL : Z }.
Definition rl0 (M : Z) : rlim := mk_rlim M 0.
Coercion rl0 : Z >-> rlim.

Section Loops.
  Context {zl : zenv} {S : Type} (ops : sops S) (fuel : nat).
  Notation BR := (breader zl S).
  Notation fill := (fillbuff (zl:=zl) ops fuel).

  Definition startd (b : BR) : bytes := match br_start b with Some d => d | None => [] end.

  (** [I b c]: reader [b] still delivers exactly [c].  [M]: fills from an empty
      buffer bring at least [rM M] bytes, if so many are left before the last [rL M]. *)
  Record fill_ok (M : rlim) (I : BR -> bytes -> Prop) : Prop := {
    fo_fill : forall b c, I b c ->
      exists b', fill b = (Ok tt, b') /\ I b' c /\ startd b' = []
                 /\ (buff_empty b' = true -> c = [])
                 /\ (buff_empty b = true -> startd b = [] ->
                     Z.min (rM M) (lenZ c - rL M) <= lenZ (buff_data b'));
    fo_buff : forall b c, I b c -> exists rest, c = buff_data b ++ rest;
    fo_take : forall b c n, I b c -> 0 <= n <= lenZ (buff_data b) ->
      I (set_bbuff (Some (dropZ n (buff_data b))) b) (dropZ n c);
    fo_empty : forall b c, I b c -> br_empty b = (buff_empty b, b);
    fo_fuel : forall b c, I b c -> (List.length c + 3 <= fuel)%nat
  }.

  Lemma buff_empty_data (b : BR) : buff_empty b = true <-> buff_data b = [].
  Proof. unfold buff_empty, buff_data. destruct (br_buff b) as [[|]|]; intuition discriminate. Qed.

  Lemma buff_nonempty_data (b : BR) : buff_empty b = false <-> buff_data b <> [].
  Proof. rewrite <- buff_empty_data. destruct (buff_empty b); intuition discriminate. Qed.

  Lemma buff_data_set x (b : BR) : buff_data (set_bbuff (Some x) b) = x.
  Proof. reflexivity. Qed.

  Lemma startd_set_bbuff x (b : BR) : startd (set_bbuff x b) = startd b.
  Proof. reflexivity. Qed.

  Context (M : rlim) (I : BR -> bytes -> Prop) (FO : fill_ok M I).

  (** one fill: either the end, or a non-empty buffer [x] *)
  Lemma fill_step b c : I b c ->
    exists b1, fill b = (Ok tt, b1) /\ startd b1 = [] /\
      ((c = [] /\ br_empty b1 = (true, b1) /\ I b1 []) \/
       (exists x rest, x <> [] /\ buff_data b1 = x /\ br_empty b1 = (false, b1) /\ c = x ++ rest
          /\ (forall o y, x = o ++ y -> I (set_bbuff (Some (dropZ (lenZ o) x)) b1) (y ++ rest))
          /\ (buff_empty b = true -> startd b = [] -> Z.min (rM M) (lenZ c - rL M) <= lenZ x))).
  Proof.
    intros HI. destruct (fo_fill _ _ FO b c HI) as (b1 & Ef & HI1 & Hst & He & HM).
    exists b1. split; [assumption|]. split; [assumption|].
    pose proof (fo_empty _ _ FO _ _ HI1) as Eb. destruct (buff_empty b1) eqn:E1.
    - left. rewrite (He eq_refl) in *. auto.
    - right. destruct (fo_buff _ _ FO _ _ HI1) as (rest & Ec).
      exists (buff_data b1), rest. apply buff_nonempty_data in E1.
      repeat (split; [auto; fail|]). split; [|assumption].
      intros o y Ex. replace (y ++ rest) with (dropZ (lenZ o) c).
      + apply (fo_take _ _ FO); [assumption|]. rewrite Ex, lenZ_app.
        pose proof (lenZ_nonneg o). pose proof (lenZ_nonneg y). lia.
      + rewrite Ec, Ex, <- app_assoc. apply dropZ_app_exact.
  Qed.

  (** read(k), k >= 0, and read() *)
  Lemma read_loop_ok n : forall len acc b c,
    I b c -> nonneg len -> (List.length c + 2 <= n)%nat ->
    exists b', read_loop ops fuel n len acc b = (Ok (acc ++ read_of len c), b')
               /\ I b' (dropZ (lenZ (read_of len c)) c).
  Proof.
    induction n as [|n IH]; intros len acc b c HI Hl Hn; [lia|].
    cbn [read_loop].
    destruct (match len with None => true | Some k => 0 <? k end) eqn:El.
    2:{ destruct len as [k|]; [|discriminate]. cbn in Hl.
        assert (k = 0) as -> by lia. unfold read_of. cbn. rewrite takeZ_0, app_nil_r, lenZ_nil, dropZ_0 by lia.
        exists b. now split. }
    destruct (fill_step b c HI) as (b1 & -> & _ & [(-> & -> & HI1)|(x & rest & Hx & Ex & -> & Ec & Htake & _)]).
    - assert (read_of len [] = []) as -> by (unfold read_of; destruct len as [k|]; [destruct (k <? 0)|]; reflexivity).
      rewrite app_nil_r, lenZ_nil. exists b1. now split.
    - rewrite Ex. apply lenZ_pos in Hx.
      set (len' := match len with Some k => Some (k - lenZ (read_of len x)) | None => None end).
      assert (exists y, x = read_of len x ++ y /\ 0 < lenZ (read_of len x) /\ nonneg len'
                        /\ read_of len c = read_of len x ++ read_of len' (y ++ rest)) as (y & Ey & Hout & Hl' & Ero).
      { unfold len', read_of. destruct len as [k|].
        - cbn in Hl. replace (k <? 0) with false by lia. exists (dropZ k x). rewrite takeZ_dropZ.
          rewrite lenZ_takeZ by lia. split; [reflexivity|]. split; [lia|]. split; [cbn; lia|].
          replace (k - Z.min k (lenZ x) <? 0) with false by lia. subst c.
          destruct (Z.le_gt_cases k (lenZ x)).
          + rewrite takeZ_app_le by assumption. rewrite Z.min_l by assumption.
            now rewrite (takeZ_0 (k - k)), app_nil_r by lia.
          + rewrite takeZ_app_ge by lia. rewrite Z.min_r by lia.
            rewrite (takeZ_all k x), (dropZ_all k x) by lia. reflexivity.
        - exists []. rewrite app_nil_r. repeat split; auto. }
      set (out := read_of len x) in *. clearbody len'.
      specialize (Htake _ _ Ey).
      edestruct (IH len' (acc ++ out) _ _ Htake) as (b' & Er & HI'); [assumption| |].
      { rewrite Ec, Ey, !app_length in Hn. unfold lenZ in Hout. rewrite app_length. lia. }
      exists b'. rewrite Er, Ero, app_assoc. split; [reflexivity|].
      rewrite lenZ_app. replace c with (out ++ y ++ rest) by (rewrite Ec, Ey at 1; now rewrite app_assoc).
      set (q := read_of _ (y ++ rest)) in *. pose proof (lenZ_nonneg q).
      rewrite dropZ_app_ge by lia. now replace (lenZ out + lenZ q - lenZ out) with (lenZ q) by lia.
  Qed.

  Lemma br_read_ok len b c : I b c -> nonneg len ->
    exists b', br_read ops fuel len b = (Ok (read_of len c), b')
               /\ I b' (dropZ (lenZ (read_of len c)) c).
  Proof.
    intros HI Hl. unfold br_read. pose proof (fo_fuel _ _ FO _ _ HI).
    destruct (read_loop_ok fuel len [] b c HI Hl ltac:(lia)) as (b' & E & H'). exists b'. now split.
  Qed.

  (** what one readline on a buffer [x] gives *)
  Lemma line_of_buffer len x rest : x <> [] -> match len with Some k => 0 < k | None => True end ->
    let out := line_of len x in
    exists y, x = out ++ y /\ out <> [] /\
      ( (line_of len (x ++ rest) = out /\ (ends_lf out = true \/ exists k, len = Some k /\ k = lenZ out))
      \/ (y = [] /\ out = x /\ ~ In LF x /\ (forall k, len = Some k -> lenZ x < k)) ).
  Proof.
    intros Hx Hk. cbv zeta. exists (dropZ (lenZ (line_of len x)) x).
    split; [symmetry; apply line_of_split|].
    assert (E : line_of len x = match len with Some k => takeZ k (take_line x) | None => take_line x end).
    { unfold line_of. destruct len as [k|]; [|reflexivity]. now replace (k <? 0) with false by lia. }
    assert (E2 : line_of len (x++rest) = match len with Some k => takeZ k (take_line (x++rest)) | None => take_line (x++rest) end).
    { unfold line_of. destruct len as [k|]; [|reflexivity]. now replace (k <? 0) with false by lia. }
    rewrite E, E2. clear E E2.
    assert (take_line x <> []) as Ht by (rewrite take_line_nil; assumption).
    apply lenZ_pos in Ht. split.
    { destruct len as [k|]; intros E0; apply (f_equal lenZ) in E0; rewrite lenZ_nil in E0; [|lia].
      rewrite lenZ_takeZ in E0; lia. }
    destruct (take_line_cases x) as [(p & Et & Hp & Ex)|(Hno & Et & _)].
    2:{ rewrite Et, take_line_app_noLF by assumption. destruct len as [k|].
      + destruct (Z.le_gt_cases k (lenZ x)).
        * left. rewrite takeZ_app_le by assumption. split; [reflexivity|]. right. exists k.
          rewrite lenZ_takeZ by lia. split; [reflexivity|lia].
        * right. rewrite takeZ_all by lia. rewrite dropZ_all by lia.
          repeat split; auto. intros k' [= ->]. lia.
      + right. rewrite dropZ_all by lia. repeat split; auto. discriminate. }
    { left. assert (In LF x) as Hi by (rewrite Ex, in_app_iff; right; now left).
      rewrite take_line_hasLF by assumption. split; [reflexivity|].
      rewrite Et. destruct len as [k|].
      + destruct (Z.le_gt_cases k (lenZ (p ++ [LF]))).
        * right. exists k. rewrite lenZ_takeZ by lia. split; [reflexivity|lia].
        * left. rewrite takeZ_all by lia. apply ends_lf_app.
      + left. apply ends_lf_app. }
  Qed.

  (** readline(): the whole line *)
  Lemma line_loop_done n k line (b : BR) : (0 < n)%nat ->
    ends_lf line = true \/ (exists m, k = Some m /\ m <> 0 /\ m - lenZ line <= 0) ->
    line_loop ops fuel n k line b = (Ok line, b).
  Proof.
    intros Hn H. destruct n; [lia|]. cbn [line_loop].
    destruct (ends_lf line); [reflexivity|]. destruct H as [|(m & -> & Hm & Hle)]; [discriminate|].
    replace (m =? 0) with false by lia. now replace (m - lenZ line <=? 0) with true by lia.
  Qed.

  Lemma line_loop_None n : forall line b c,
    I b c -> ~ In LF line -> (List.length c + 2 <= n)%nat ->
    exists b', line_loop ops fuel n None line b = (Ok (line ++ take_line c), b') /\ I b' (drop_line c).
  Proof.
    induction n as [|n IH]; intros line b c HI Hno Hn; [lia|].
    cbn [line_loop]. rewrite (ends_lf_noLF line Hno : ends_lf line = false).
    destruct (fill_step b c HI) as (b1 & -> & _ & [(-> & -> & HI1)|(x & rest & Hx & Ex & -> & Ec & Htake & _)]).
    - cbn. rewrite app_nil_r. exists b1. now split.
    - unfold buff_line. rewrite Ex.
      destruct (line_of_buffer None x rest Hx Logic.I) as (y & Exy & Hout & [(El & Hend)|(-> & Eo & Hno2 & _)]).
      + specialize (Htake _ _ Exy). cbn [line_of] in *.
        rewrite line_loop_done.
        2:{ rewrite Ec, app_length in Hn. destruct x; [contradiction|cbn in Hn; lia]. }
        2:{ left. destruct Hend as [Hend|(k & Hk & _)]; [|discriminate].
            destruct (take_line_cases x) as [(p & Et & _)|(Hno2 & Et & _)].
            - rewrite Et, app_assoc. apply ends_lf_app.
            - rewrite Et in Hend. unfold ends_lf in Hend. now rewrite ends_lf_noLF in Hend. }
        eexists. subst c. rewrite El. split; [reflexivity|].
        rewrite drop_line_dropZ, El. rewrite Exy at 4. rewrite <- app_assoc, dropZ_app_exact. assumption.
      + specialize (Htake _ _ Exy). cbn [line_of app] in *. rewrite Eo in *.
        edestruct (IH (line ++ x) _ _ Htake) as (b' & Er & HI').
        { rewrite in_app_iff. tauto. }
        { assert (0 < List.length x)%nat by (destruct x; [contradiction|cbn; lia]).
          rewrite Ec, app_length in Hn. lia. }
        exists b'. rewrite Er. subst c.
        rewrite take_line_app_noLF by assumption. rewrite app_assoc. split; [reflexivity|].
        rewrite drop_line_dropZ, take_line_app_noLF by assumption. rewrite lenZ_app.
        pose proof (lenZ_nonneg (take_line rest)).
        rewrite dropZ_app_ge by lia. replace (lenZ x + lenZ (take_line rest) - lenZ x) with (lenZ (take_line rest)) by lia.
        now rewrite <- drop_line_dropZ.
  Qed.

  Lemma br_readline_None b c : I b c ->
    exists b', br_readline ops fuel None b = (Ok (take_line c), b') /\ I b' (drop_line c).
  Proof.
    intros HI. pose proof (fo_fuel _ _ FO _ _ HI) as Hf. unfold br_readline.
    destruct (fill_step b c HI) as (b1 & -> & _ & [(-> & -> & HI1)|(x & rest & Hx & Ex & -> & Ec & Htake & _)]).
    - exists b1. now split.
    - unfold buff_line. rewrite Ex.
      destruct (line_of_buffer None x rest Hx Logic.I) as (y & Exy & Hout & [(El & Hend)|(-> & Eo & Hno2 & _)]);
      specialize (Htake _ _ Exy); cbn [line_of app] in *.
      + rewrite line_loop_done; [|lia|].
        2:{ left. destruct Hend as [Hend|(k & Hk & _)]; [assumption|discriminate]. }
        eexists. subst c. rewrite El. split; [reflexivity|].
        rewrite drop_line_dropZ, El. rewrite Exy at 4. rewrite <- app_assoc, dropZ_app_exact. assumption.
      + rewrite Eo in *. subst c. rewrite app_length in Hf.
        edestruct (line_loop_None fuel x _ _ Htake) as (b' & Er & HI'); [assumption|lia|].
        exists b'. rewrite Er. rewrite take_line_app_noLF by assumption. split; [reflexivity|].
        rewrite drop_line_dropZ, take_line_app_noLF by assumption. rewrite lenZ_app.
        pose proof (lenZ_nonneg (take_line rest)).
        rewrite dropZ_app_ge by lia. replace (lenZ x + lenZ (take_line rest) - lenZ x) with (lenZ (take_line rest)) by lia.
        now rewrite <- drop_line_dropZ.
  Qed.

  (** readline(k): a beginning of the line cut to k bytes *)
  Lemma line_loop_Some n : forall k line b c,
    I b c -> ~ In LF line -> line <> [] -> 0 < k -> (List.length c + 2 <= n)%nat ->
    exists out rest b' more, line_loop ops fuel n (Some k) line b = (Ok (line ++ out), b') /\ I b' rest
       /\ c = out ++ rest /\ takeZ (Z.max 0 (k - lenZ line)) (take_line c) = out ++ more.
  Proof.
    induction n as [|n IH]; intros k line b c HI Hno Hne Hk Hn; [lia|].
    cbn [line_loop]. rewrite (ends_lf_noLF line Hno : ends_lf line = false).
    replace (k =? 0) with false by lia.
    destruct (k - lenZ line <=? 0) eqn:Estop.
    { exists [], c, b, (takeZ (Z.max 0 (k - lenZ line)) (take_line c)). rewrite app_nil_r. auto. }
    rewrite Z.max_r by lia. set (k' := k - lenZ line) in *.
    destruct (fill_step b c HI) as (b1 & -> & _ & [(-> & -> & HI1)|(x & rest & Hx & Ex & -> & Ec & Htake & _)]).
    - exists [], [], b1, []. rewrite app_nil_r. auto.
    - unfold buff_line. rewrite Ex.
      destruct (line_of_buffer (Some k') x rest Hx ltac:(cbn iota; lia)) as (y & Exy & Hout & [(El & Hend)|(-> & Eo & Hno2 & Hlt)]);
      specialize (Htake _ _ Exy).
      + rewrite line_loop_done.
        2:{ rewrite Ec, app_length in Hn. destruct x; [contradiction|cbn in Hn; lia]. }
        2:{ destruct Hend as [Hend|(m & [= <-] & Em)].
            - left. unfold ends_lf in *. apply endswith_spec in Hend as (r & Hr).
              apply endswith_spec. exists (line ++ r). now rewrite Hr, app_assoc.
            - right. exists k'. rewrite lenZ_app, <- Em. pose proof (lenZ_nonneg line).
              split; [reflexivity|]. lia. }
        eexists (line_of (Some k') x), (y ++ rest), _, []. split; [reflexivity|]. split; [exact Htake|].
        split.
        * rewrite Ec. rewrite Exy at 1. now rewrite app_assoc.
        * rewrite app_nil_r. rewrite <- El, <- Ec. unfold line_of. now replace (k' <? 0) with false by lia.
      + rewrite Eo in *. cbn [app] in Htake. specialize (Hlt _ eq_refl).
        edestruct (IH k' (line ++ x) _ _ Htake) as (out & rst & b' & more & Er & HI' & Erest & Emore).
        { rewrite in_app_iff. tauto. }
        { destruct line; [contradiction|discriminate]. }
        { lia. }
        { assert (0 < List.length x)%nat by (destruct x; [contradiction|cbn; lia]).
          rewrite Ec, app_length in Hn. lia. }
        rewrite Er. exists (x ++ out), rst, b'. eexists. rewrite app_assoc. split; [reflexivity|].
        split; [assumption|]. split; [rewrite Ec, Erest; now rewrite app_assoc|].
        rewrite Ec, take_line_app_noLF by assumption. rewrite takeZ_app_ge by lia. rewrite <- app_assoc. f_equal.
        rewrite lenZ_app in Emore. pose proof (lenZ_nonneg line).
        set (a := Z.max 0 _) in Emore. assert (a <= k' - lenZ x) as Ha by (unfold a; lia).
        rewrite <- (takeZ_dropZ a (takeZ (k' - lenZ x) (take_line rest))). rewrite takeZ_takeZ, Z.min_l by assumption.
        rewrite Emore. now rewrite <- app_assoc.
  Qed.

  Lemma br_readline_prefix b c k : I b c -> 0 < k ->
    exists out rest b', br_readline ops fuel (Some k) b = (Ok out, b') /\ I b' rest
       /\ c = out ++ rest /\ (out = [] -> c = []) /\ exists more, takeZ k (take_line c) = out ++ more.
  Proof.
    intros HI Hk. pose proof (fo_fuel _ _ FO _ _ HI) as Hf. unfold br_readline.
    replace (k =? 0) with false by lia.
    destruct (fill_step b c HI) as (b1 & -> & _ & [(-> & -> & HI1)|(x & rest & Hx & Ex & -> & Ec & Htake & _)]).
    - exists [], [], b1. repeat (split; [auto; fail|]). now exists [].
    - unfold buff_line. rewrite Ex.
      destruct (line_of_buffer (Some k) x rest Hx Hk) as (y & Exy & Hout & [(El & Hend)|(-> & Eo & Hno2 & Hlt)]);
      specialize (Htake _ _ Exy).
      + rewrite line_loop_done; [|lia|].
        2:{ destruct Hend as [Hend|(m & [= <-] & Em)]; [now left|right].
            exists k. split; [reflexivity|]. lia. }
        eexists (line_of (Some k) x), (y ++ rest), _. split; [reflexivity|]. split; [exact Htake|].
        split; [rewrite Ec; rewrite Exy at 1; now rewrite app_assoc|]. split; [now intros E0|].
        exists []. rewrite app_nil_r. rewrite <- El, <- Ec. unfold line_of. now replace (k <? 0) with false by lia.
      + rewrite Eo in *. cbn [app] in Htake. specialize (Hlt _ eq_refl).
        subst c. rewrite app_length in Hf.
        edestruct (line_loop_Some fuel k x _ _ Htake) as (out & rst & b' & more & Er & HI' & Erest & Emore);
          [assumption|assumption|assumption|lia|].
        rewrite Er. exists (x ++ out), rst, b'. split; [reflexivity|]. split; [assumption|].
        split; [rewrite Erest; now rewrite app_assoc|].
        split; [destruct x; [contradiction|discriminate]|].
        rewrite take_line_app_noLF by assumption. rewrite takeZ_app_ge by lia.
        rewrite Z.max_r in Emore by lia. exists more. rewrite Emore. now rewrite app_assoc.
  Qed.

  (** ... and exactly that when it is not longer than [rM M] and does not touch the last [rL M] bytes *)
  Lemma br_readline_exact b c k : I b c -> 0 < k -> lenZ (takeZ k (take_line c)) <= rM M ->
    lenZ (takeZ k (take_line c)) <= lenZ c - rL M ->
    exists b', br_readline ops fuel (Some k) b = (Ok (takeZ k (take_line c)), b')
               /\ I b' (dropZ (lenZ (takeZ k (take_line c))) c).
  Proof.
    intros HI Hk HM HL. pose proof (fo_fuel _ _ FO _ _ HI) as Hf. unfold br_readline.
    replace (k =? 0) with false by lia.
    assert (Elo : forall l, takeZ k (take_line l) = line_of (Some k) l).
    { intros l. unfold line_of. now replace (k <? 0) with false by lia. }
    destruct (fill_step b c HI) as (b1 & -> & Hs1 & [(-> & -> & HI1)|(x & rest & Hx & Ex & -> & Ec & Htake & _)]).
    { exists b1. now split. }
    unfold buff_line. rewrite Ex.
    destruct (line_of_buffer (Some k) x rest Hx Hk) as (y & Exy & Hout & [(El & Hend)|(-> & Eo & Hno2 & Hlt)]);
    specialize (Htake _ _ Exy).
    { rewrite line_loop_done; [|lia|].
      2:{ destruct Hend as [Hend|(m & [= <-] & Em)]; [now left|right].
          exists k. split; [reflexivity|]. lia. }
      eexists. subst c. rewrite Elo, El. split; [reflexivity|].
      rewrite Exy at 4. rewrite <- app_assoc, dropZ_app_exact. exact Htake. }
    rewrite Eo in *. cbn [app] in Htake. specialize (Hlt _ eq_refl).
    set (b2 := set_bbuff _ b1) in *.
    destruct fuel as [|f] eqn:Efuel; [lia|]. cbn [line_loop].
    rewrite (ends_lf_noLF x Hno2 : ends_lf x = false).
    replace (k =? 0) with false by lia. replace (k - lenZ x <=? 0) with false by lia.
    rewrite <- Efuel in *.
    assert (Ec1 : takeZ k (take_line c) = x ++ takeZ (k - lenZ x) (take_line rest)).
    { subst c. rewrite take_line_app_noLF by assumption. apply takeZ_app_ge. lia. }
    destruct (fill_step b2 rest Htake) as (b3 & -> & _ & [(-> & -> & HI3)|(x2 & rest2 & Hx2 & Ex2 & -> & Ec2 & Htake2 & Hbig)]).
    { exists b3. rewrite Ec1. cbn. rewrite app_nil_r. split; [reflexivity|]. subst c.
      rewrite app_nil_r. rewrite dropZ_all by lia. exact HI3. }
    set (k2 := k - lenZ x) in *.
    unfold buff_line. rewrite Ex2.
    assert (Elo2 : forall l, takeZ k2 (take_line l) = line_of (Some k2) l).
    { intros l. unfold line_of. now replace (k2 <? 0) with false by lia. }
    destruct (line_of_buffer (Some k2) x2 rest2 Hx2 ltac:(cbn iota; lia)) as (y2 & Exy2 & Hout2 & [(El2 & Hend2)|(-> & Eo2 & Hno3 & Hlt2)]);
    specialize (Htake2 _ _ Exy2).
    { rewrite line_loop_done.
      2:{ subst c. rewrite app_length in Hf. destruct x; [contradiction|cbn in Hf; lia]. }
      2:{ destruct Hend2 as [Hend2|(m & [= <-] & Em)].
          - left. unfold ends_lf in *. apply endswith_spec in Hend2 as (r & Hr).
            apply endswith_spec. exists (x ++ r). now rewrite Hr, app_assoc.
          - right. exists k2. rewrite lenZ_app, <- Em. pose proof (lenZ_nonneg x).
            split; [reflexivity|]. lia. }
      eexists. rewrite Ec1. rewrite Elo2, Ec2, El2. split; [reflexivity|].
      rewrite Ec, Ec2. rewrite Exy2 at 4. rewrite <- !app_assoc. rewrite app_assoc, dropZ_app_exact. exact Htake2. }
    specialize (Hlt2 _ eq_refl). rewrite Eo2 in *. cbn [app] in Htake2.
    assert (Heb2 : buff_empty b2 = true).
    { apply buff_empty_data. unfold b2. rewrite buff_data_set. apply dropZ_all. lia. }
    specialize (Hbig Heb2 Hs1).
    assert (rest2 = []) as ->.
    { destruct rest2 as [|z r2]; [reflexivity|exfalso].
      assert (Hn : exists n, n = lenZ (takeZ k (take_line c)) /\ n <= rM M /\ n <= lenZ c - rL M) by eauto.
      destruct Hn as (n & En & HM' & HL'). rewrite Ec1, Ec2, lenZ_app in En. rewrite take_line_app_noLF in En by assumption.
      rewrite takeZ_app_ge, lenZ_app in En by lia. rewrite lenZ_takeZ in En by lia.
      rewrite Ec, Ec2, !lenZ_app, lenZ_cons in HL'.
      assert (take_line (z :: r2) <> []) as Ht by (rewrite take_line_nil; discriminate).
      apply lenZ_pos in Ht, Hx. rewrite Ec2, lenZ_app, lenZ_cons in Hbig.
      pose proof (lenZ_nonneg r2). lia. }
    rewrite app_nil_r in Ec2.
    assert (Eres : takeZ k2 (take_line rest) = x2).
    { subst rest. rewrite take_line_noLF by assumption. apply takeZ_all. lia. }
    assert (Hdrop : dropZ (lenZ (x ++ x2)) c = []).
    { subst c rest. apply dropZ_all. lia. }
    rewrite Ec1, Eres, Hdrop.
    destruct f as [|f']; [subst c; rewrite app_length in Hf; destruct x; [contradiction|cbn in Hf; lia]|].
    cbn [line_loop].
    replace (ends_lf (x ++ x2)) with false by (symmetry; apply ends_lf_noLF; rewrite in_app_iff; tauto).
    replace (k2 =? 0) with false by lia.
    destruct (k2 - lenZ (x ++ x2) <=? 0).
    - eexists. split; [reflexivity|]. exact Htake2.
    - destruct (fill_step _ _ Htake2) as (b5 & E5 & _ & [(_ & E6 & HI5)|(x3 & r3 & Hx3 & _ & _ & Ec3 & _)]).
      + rewrite E5, E6. exists b5. now split.
      + destruct x3; [contradiction|discriminate].
  Qed.

  Lemma br_exact_read : exact_read (br_ops ops fuel) I.
  Proof.
    intros b c k HI Hk. cbn [br_ops o_read].
    destruct (br_read_ok (Some k) b c HI ltac:(cbn; lia)) as (b' & E & HI').
    unfold read_of in *. replace (k <? 0) with false in * by lia.
    exists b'. split; [assumption|]. now rewrite dropZ_len_takeZ in HI'.
  Qed.

  Lemma br_line_prefix : line_prefix (br_ops ops fuel) I.
  Proof.
    intros b c k HI Hk. cbn [br_ops o_readline].
    destruct (br_readline_prefix b c k HI Hk) as (out & rest & b' & E & HI' & Ec & Hn & more & Hm).
    exists out, rest, b'. repeat (split; [assumption|]).
    assert (lenZ out <= k).
    { apply (f_equal lenZ) in Hm. rewrite lenZ_takeZ, lenZ_app in Hm by lia.
      pose proof (lenZ_nonneg more). lia. }
    repeat (split; [assumption|]). exists (more ++ dropZ k (take_line c)).
    rewrite app_assoc, <- Hm. now rewrite takeZ_dropZ.
  Qed.

  Lemma br_full_line : exact_full_line (br_ops ops fuel) I.
  Proof. intros b c HI. exact (br_readline_None b c HI). Qed.
End Loops.
