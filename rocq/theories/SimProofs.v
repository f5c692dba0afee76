(** * SimProofs: functions that work on any stream give related results on related streams *)
From Coq Require Import String List ZArith NArith Bool Lia.
From Verif Require Import PyBase Utf8 Codecs Headers Streams TimeUtils Loader.
Import ListNotations.
Open Scope Z_scope.

(** same result, related states *)
Definition same {A S1 S2} (Q : S1 -> S2 -> Prop) (x : res A * S1) (y : res A * S2) : Prop :=
  fst x = fst y /\ Q (snd x) (snd y).

Section Sim.
  Context {S1 S2 : Type} (rl1 : S1 -> res bytes * S1) (rl2 : S2 -> res bytes * S2) (Q : S1 -> S2 -> Prop).
  Hypothesis HQ : forall a b, Q a b -> same Q (rl1 a) (rl2 b).


  Lemma next_line_sim total a b : Q a b -> same Q (next_line rl1 total a) (next_line rl2 total b).
  Proof.
    intros H. unfold next_line. specialize (HQ a b H). destruct HQ as [E1 E2].
    destruct (rl1 a) as [x a'], (rl2 b) as [y b']. cbn in E1, E2. subst y. destruct x; now split.
  Qed.

  Lemma cont_loop_sim n : forall value line total a b, Q a b -> same Q (cont_loop rl1 n value line total a) (cont_loop rl2 n value line total b).
  Proof.
    induction n as [|n IH]; intros value line total a b H; cbn [cont_loop]; [now split|].
    destruct (negb (is_nil line) && starts_sp_tab line); [|now split].
    destruct (next_line_sim total a b H) as [E1 E2].
    destruct (next_line rl1 total a) as [x a'], (next_line rl2 total b) as [y b']. cbn in E1, E2. subst y.
    destruct x as [[l t]|e]; [now apply IH|now split].
  Qed.

  Lemma header_loop_sim fuel n : forall acc line total a b, Q a b -> same Q (header_loop rl1 fuel n acc line total a) (header_loop rl2 fuel n acc line total b).
  Proof.
    induction n as [|n IH]; intros acc line total a b H; cbn [header_loop]; [now split|].
    destruct (is_nil line); [now split|]. destruct (split_header line) as [name value].
    destruct (next_line_sim total a b H) as [E1 E2].
    destruct (next_line rl1 total a) as [x a'], (next_line rl2 total b) as [y b']. cbn in E1, E2. subst y.
    destruct x as [[l t]|e]; [|now split].
    destruct (cont_loop_sim fuel value l t a' b' E2) as [E3 E4].
    destruct (cont_loop rl1 fuel value l t a') as [x a''], (cont_loop rl2 fuel value l t b') as [y b'']. cbn in E3, E4. subst y.
    destruct x as [[[v l'] t']|e]; [now apply IH|now split].
  Qed.

  Lemma parse_sim fuel p full a b : Q a b -> same Q (parse rl1 fuel p full a) (parse rl2 fuel p full b).
  Proof.
    intros H. unfold parse.
    assert (X : exists r a1 b1, (match full with Some h => (Ok h, a) | None => match rl1 a with (Ok b, s') => (Ok (HBytes b), s') | (Err e, s') => (Err e, s') end end) = (r, a1)
      /\ (match full with Some h => (Ok h, b) | None => match rl2 b with (Ok b, s') => (Ok (HBytes b), s') | (Err e, s') => (Err e, s') end end) = (r, b1) /\ Q a1 b1).
    { destruct full as [h|]; [now exists (Ok h), a, b|]. destruct (HQ a b H) as [E1 E2].
      destruct (rl1 a) as [x a'], (rl2 b) as [y b']. cbn in E1, E2. subst y. destruct x; eexists _, _, _; (split; [reflexivity|]); (split; [reflexivity|]); assumption. }
    destruct X as (r & a1 & b1 & -> & -> & H1). destruct r as [h|e]; [|now split].
    destruct (lenZ (decode_hline h) =? 0); [now split|].
    destruct (is_nil (urstrip (decode_hline h))); [now split|].
    set (ps := if p_verify p then _ else _). destruct ps as [[proto st]|]; [|now split].
    destruct (next_line_sim (lenZ (decode_hline h)) a1 b1 H1) as [E1 E2].
    destruct (next_line rl1 _ a1) as [x a'], (next_line rl2 _ b1) as [y b']. cbn in E1, E2. subst y.
    destruct x as [[l t]|e]; [|now split].
    destruct (header_loop_sim fuel fuel [] l t a' b' E2) as [E3 E4].
    destruct (header_loop rl1 fuel fuel [] l t a') as [x a''], (header_loop rl2 fuel fuel [] l t b') as [y b'']. cbn in E3, E4. subst y.
    destruct x as [[hs tot]|e]; now split.
  Qed.
End Sim.

Lemma load_http_sim {S1 S2} (o1 : sops S1) (o2 : sops S2) (Q : S1 -> S2 -> Prop) fuel v t uri len a b :
  (forall a b, Q a b -> same Q (o_readline o1 None a) (o_readline o2 None b)) -> Q a b ->
  same Q (load_http_headers o1 fuel v t uri len a) (load_http_headers o2 fuel v t uri len b).
Proof.
  intros HQ H. unfold load_http_headers.
  destruct (match len with Some 0 => true | _ => false end); [now split|].
  destruct (negb (is_http_record t)); [now split|]. destruct uri as [u|]; [|now split].
  destruct (negb (is_http_uri u)); [now split|].
  destruct (otype_is t "request").
  - destruct (parse_sim _ _ Q HQ fuel (mk_parser HTTP_VERBS v) None a b H) as [E1 E2].
    destruct (parse (o_readline o1 None) fuel _ None a) as [x a'], (parse (o_readline o2 None) fuel _ None b) as [y b'].
    cbn in E1, E2. subst y. destruct x; now split.
  - destruct (parse_sim _ _ Q HQ fuel (mk_parser HTTP_TYPES v) None a b H) as [E1 E2].
    destruct (parse (o_readline o1 None) fuel _ None a) as [x a'], (parse (o_readline o2 None) fuel _ None b) as [y b'].
    cbn in E1, E2. subst y. destruct x as [x|[]]; try (now split). destruct (otype_is t "revisit"); now split.
Qed.

(** The same when the streams need to agree only as long as the lines are not blank:
    [Q] before a line is read, [P] after it, and [Q] again if the line was not blank. *)
Section Sim2.
  Context {S1 S2 : Type} (rl1 : S1 -> res bytes * S1) (rl2 : S2 -> res bytes * S2) (Q P : S1 -> S2 -> Prop).
  Hypothesis HQP : forall a b, Q a b -> P a b.
  Hypothesis HQ : forall a b, Q a b ->
    (exists x a' b', rl1 a = (Ok x, a') /\ rl2 b = (Ok x, b') /\ P a' b' /\ (urstrip (decode_header x) <> [] -> Q a' b'))
    \/ (exists e a' b', rl1 a = (Err e, a') /\ rl2 b = (Err e, b') /\ P a' b').

  Lemma next_line_sim2 total a b : Q a b ->
    (exists l t a' b', next_line rl1 total a = (Ok (l, t), a') /\ next_line rl2 total b = (Ok (l, t), b') /\ P a' b' /\ (l <> [] -> Q a' b'))
    \/ (exists e a' b', next_line rl1 total a = (Err e, a') /\ next_line rl2 total b = (Err e, b') /\ P a' b').
  Proof.
    intros H. unfold next_line. destruct (HQ a b H) as [(x & a' & b' & -> & -> & HP & HN)|(e & a' & b' & -> & -> & HP)].
    - left. eexists _, _, _, _. split; [reflexivity|]. split; [reflexivity|]. now split.
    - right. eexists _, _, _. split; [reflexivity|]. now split.
  Qed.

  Lemma cont_loop_sim2 n : forall value line total a b, P a b -> (line <> [] -> Q a b) ->
    (exists v l t a' b', cont_loop rl1 n value line total a = (Ok (v, l, t), a') /\ cont_loop rl2 n value line total b = (Ok (v, l, t), b') /\ P a' b' /\ (l <> [] -> Q a' b'))
    \/ (exists e a' b', cont_loop rl1 n value line total a = (Err e, a') /\ cont_loop rl2 n value line total b = (Err e, b') /\ P a' b').
  Proof.
    induction n as [|n IH]; intros value line total a b HP HN; cbn [cont_loop].
    - right. exists OutOfFuel, a, b. auto.
    - destruct line as [|x line]; [left; cbn; eexists _, _, _, _, _; split; [reflexivity|]; split; [reflexivity|]; now split|].
      destruct (negb (is_nil (x :: line)) && starts_sp_tab (x :: line)); [|left; eexists _, _, _, _, _; split; [reflexivity|]; split; [reflexivity|]; now split].
      destruct (next_line_sim2 total a b (HN ltac:(discriminate))) as [(l & t & a' & b' & -> & -> & HP' & HN')|(e & a' & b' & -> & -> & HP')].
      + now apply IH.
      + right. eexists _, _, _. split; [reflexivity|]. now split.
  Qed.

  Lemma header_loop_sim2 fuel n : forall acc line total a b, P a b -> (line <> [] -> Q a b) ->
    same P (header_loop rl1 fuel n acc line total a) (header_loop rl2 fuel n acc line total b).
  Proof.
    induction n as [|n IH]; intros acc line total a b HP HN; cbn [header_loop]; [now split|].
    destruct line as [|x line]; [now split|]. cbn [is_nil]. destruct (split_header (x :: line)) as [name value].
    destruct (next_line_sim2 total a b (HN ltac:(discriminate))) as [(l & t & a' & b' & -> & -> & HP' & HN')|(e & a' & b' & -> & -> & HP')]; [|now split].
    destruct (cont_loop_sim2 fuel value l t a' b' HP' HN') as [(v & l' & t' & a2 & b2 & -> & -> & HP2 & HN2)|(e & a2 & b2 & -> & -> & HP2)]; [now apply IH|now split].
  Qed.

  Lemma parse_sim2 fuel p a b : Q a b -> same P (parse rl1 fuel p None a) (parse rl2 fuel p None b).
  Proof.
    intros H. unfold parse. destruct (HQ a b H) as [(x & a' & b' & -> & -> & HP & HN)|(e & a' & b' & -> & -> & HP)]; [|now split].
    cbn [decode_hline]. destruct (lenZ (decode_header x) =? 0); [now split|].
    destruct (urstrip (decode_header x)) as [|y st] eqn:Es; [now split|]. cbn [is_nil].
    specialize (HN ltac:(discriminate)). rewrite <- Es.
    set (ps := if p_verify p then _ else _). destruct ps as [[proto s]|]; [|now split].
    destruct (next_line_sim2 (lenZ (decode_header x)) a' b' HN) as [(l & t & a2 & b2 & -> & -> & HP2 & HN2)|(e & a2 & b2 & -> & -> & HP2)]; [|now split].
    destruct (header_loop_sim2 fuel fuel [] l t a2 b2 HP2 HN2) as [E3 E4].
    destruct (header_loop rl1 fuel fuel [] l t a2) as [z a3], (header_loop rl2 fuel fuel [] l t b2) as [z' b3]. cbn in E3, E4. subst z'.
    destruct z as [[hs tot]|e]; now split.
  Qed.
End Sim2.

Lemma load_http_sim2 {S1 S2} (o1 : sops S1) (o2 : sops S2) (Q P : S1 -> S2 -> Prop) fuel v t uri len a b :
  (forall a b, Q a b -> P a b) ->
  (forall a b, Q a b ->
    (exists x a' b', o_readline o1 None a = (Ok x, a') /\ o_readline o2 None b = (Ok x, b') /\ P a' b' /\ (urstrip (decode_header x) <> [] -> Q a' b'))
    \/ (exists e a' b', o_readline o1 None a = (Err e, a') /\ o_readline o2 None b = (Err e, b') /\ P a' b')) ->
  Q a b ->
  same P (load_http_headers o1 fuel v t uri len a) (load_http_headers o2 fuel v t uri len b).
Proof.
  intros HQP HQ H. pose proof (HQP a b H) as HP. unfold load_http_headers.
  destruct (match len with Some 0 => true | _ => false end); [now split|].
  destruct (negb (is_http_record t)); [now split|]. destruct uri as [u|]; [|now split].
  destruct (negb (is_http_uri u)); [now split|].
  destruct (otype_is t "request").
  - destruct (parse_sim2 _ _ Q P HQ fuel (mk_parser HTTP_VERBS v) a b H) as [E1 E2].
    destruct (parse (o_readline o1 None) fuel _ None a) as [x a'], (parse (o_readline o2 None) fuel _ None b) as [y b'].
    cbn in E1, E2. subst y. destruct x; now split.
  - destruct (parse_sim2 _ _ Q P HQ fuel (mk_parser HTTP_TYPES v) a b H) as [E1 E2].
    destruct (parse (o_readline o1 None) fuel _ None a) as [x a'], (parse (o_readline o2 None) fuel _ None b) as [y b'].
    cbn in E1, E2. subst y. destruct x as [x|[]]; try (now split). destruct (otype_is t "revisit"); now split.
Qed.
