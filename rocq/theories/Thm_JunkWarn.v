(** * Thm_JunkWarn: proofs of the theorems restated in Props_JunkWarn.v *)
From Coq Require Import String List ZArith NArith Bool Lia.
From Verif Require Import PyBase Headers Streams Loader Iterator StreamSpec WriterSpec IterSpec Toy.
Import ListNotations.
Open Scope Z_scope.

From Coq Require Import ZifyBool ZifyNat ZifyN.
From Verif Require Import Facts StreamProofs BufProofs FillProofs CallProofs SimProofs HeaderProofs WriterProofs IterProofs.

Definition all_white (t : bytes) : bool := forallb is_bspace t.
(** [skipped] holds whole lines; every line after the first is blank *)
Definition first_any (skipped : bytes) : Prop :=
  skipped = [] \/ exists line b, skipped = line ++ b /\ ~ In LF (removelast line) /\ line <> [] /\ all_white b = true.

Lemma white_strip l : all_white l = is_nil (rstripp is_bspace l).
Proof.
  unfold all_white. destruct (forallb is_bspace l) eqn:E; [now rewrite rstripp_all|].
  destruct (rstripp is_bspace l) eqn:E2; [|reflexivity]. apply rstripp_nil_all in E2. congruence.
Qed.
Lemma line_once c : ~ In LF (removelast (take_line c)).
Proof.
  induction c as [|x c IH]; [intros []|]. cbn [take_line]. destruct (x =? LF)%N eqn:E; [intros []|].
  destruct (take_line c) as [|y l] eqn:E2; [intros []|]. change (removelast (x :: y :: l)) with (x :: removelast (y :: l)). intros [->|H]; [now rewrite N.eqb_refl in E|exact (IH H)].
Qed.
Lemma skip_rest n : forall size errs c nl sz er c', skip_blank n false size errs c = (nl, sz, er, c') -> (List.length c < n)%nat ->
  exists sk, c = sk ++ (match nl with Some l => l | None => [] end) ++ c' /\ sz = size + lenZ sk /\ er = errs /\ all_white sk = true
    /\ match nl with None => c' = [] | Some l => all_white l = false /\ ~ In LF (removelast l) /\ (c' = [] \/ exists a, l = a ++ [LF]) end.
Proof.
  induction n as [|n IH]; intros size errs c nl sz er c' H Hn; [lia|]. cbn [skip_blank] in H.
  pose proof (take_line_nil c) as Hnil. pose proof (take_drop_line c) as Hs. pose proof (line_once c) as Ho.
  assert (Hlf : drop_line c = [] \/ exists a, take_line c = a ++ [LF]).
  { clear. induction c as [|x c IH]; [now left|]. cbn [take_line drop_line]. destruct (x =? LF)%N eqn:E.
    - right. exists []. apply N.eqb_eq in E. now subst.
    - destruct IH as [IH|(a & IH)]; [now left|right]. exists (x :: a). now rewrite IH. }
  destruct (take_line c) as [|x line] eqn:E.
  - injection H as <- <- <- <-. exists []. rewrite (proj1 Hnil eq_refl). cbn. repeat split; lia.
  - rewrite orb_false_r in H. rewrite <- white_strip in H. destruct (all_white (x :: line)) eqn:Ew.
    + apply IH in H; [|rewrite <- Hs, app_length in Hn; cbn [List.length] in Hn; lia]. destruct H as (sk & E1 & E2 & E3 & E4 & E5).
      exists ((x :: line) ++ sk). rewrite <- Hs, E1. split; [apply app_assoc|]. split; [rewrite lenZ_app; lia|]. split; [exact E3|]. split; [|exact E5].
      unfold all_white in *. rewrite forallb_app. now rewrite Ew, E4.
    + injection H as <- <- <- <-. exists []. cbn [app]. split; [now symmetry|]. split; [cbn; lia|]. split; [reflexivity|]. split; [reflexivity|].
      split; [exact Ew|]. split; [exact Ho|]. destruct Hlf as [->|Hlf]; [now left|now right].
Qed.
Lemma skip_first n c nl sz er c' : skip_blank n true 0 0 c = (nl, sz, er, c') -> (List.length c < n)%nat ->
  exists sk, c = sk ++ (match nl with Some l => l | None => [] end) ++ c' /\ sz = lenZ sk /\ er = (if all_white (take_line c) then 0 else 1) /\ first_any sk
    /\ match nl with None => c' = [] | Some l => all_white l = false /\ ~ In LF (removelast l) /\ (c' = [] \/ exists a, l = a ++ [LF]) end.
Proof.
  destruct n as [|n]; intros H Hn; [lia|]. cbn [skip_blank] in H. pose proof (take_line_nil c) as Hnil. pose proof (take_drop_line c) as Hs. pose proof (line_once c) as Ho.
  destruct (take_line c) as [|x line] eqn:E.
  - injection H as <- <- <- <-. exists []. rewrite (proj1 Hnil eq_refl). cbn. repeat split. now left.
  - rewrite orb_true_r, <- white_strip in H.
    apply skip_rest in H; [|rewrite <- Hs, app_length in Hn; cbn [List.length] in Hn; lia]. destruct H as (sk & E1 & E2 & E3 & E4 & E5).
    exists ((x :: line) ++ sk). rewrite <- Hs, E1. split; [apply app_assoc|]. split; [rewrite lenZ_app; lia|]. split; [exact E3|]. split; [|exact E5].
    right. exists (x :: line), sk. repeat split; auto. discriminate.
Qed.

Lemma C109_skipped_pf :
  forall (zl : zenv) fuel data sched block known,
  gz_magic zl -> first_two block sched -> enough fuel data ->
  (data = [] \/ exists a b t, data = a :: b :: t /\ (a, b) <> (31%N, 139%N)) ->
  exists skipped next rest r',
    consume_loop (zl:=zl) fuel fuel true 0 0 (it_reader (iter_new (raw_open data sched) block known))
      = (Ok (next, lenZ skipped, if all_white (take_line data) then 0 else 1), r')
    /\ data = skipped ++ (match next with Some l => l | None => [] end) ++ rest
    /\ first_any skipped
    /\ match next with
       | None => rest = []
       | Some l => all_white l = false /\ ~ In LF (removelast l) /\ (rest = [] \/ exists a, l = a ++ [LF])
       end.
Proof.
intros zl fuel data sched block known Hz [Hb Hs] Hfu Hd.
set (T := 0 + lenZ data). set (C0 := lenZ data). set (f := mk_raw data 0 sched).
assert (HR : raw_R T fuel f data) by (unfold raw_R, f, T; cbn; repeat split; exact Hfu).
assert (HD : delivers raw_ops (raw_R T fuel)) by apply raw_delivers.
assert (HRr : forall s c, raw_R T fuel s c -> raw_R T fuel s c) by auto.
assert (Hfull : full_ok raw_ops (raw_R T fuel) 0 false block 0) by (left; discriminate).
assert (Hfirst : forall d s', o_read raw_ops (Some block) f = (Ok d, s') -> data = [] \/ 2 <= lenZ d).
{ intros d s' E. destruct Hd as [->|(a & b & t & Ed & _)]; [now left|right].
  unfold raw_ops, o_read, raw_read, f in E. cbn [rw_rest rw_sched rw_pos] in E. replace (0 <? block) with true in E by lia.
  rewrite Ed in E.
  assert (G : forall m, 2 <= m -> 2 <= lenZ (takeZ m (a :: b :: t))).
  { intros m Hm. rewrite lenZ_takeZ by lia. rewrite !lenZ_cons. pose proof (lenZ_nonneg t). lia. }
  destruct sched as [|k sc]; injection E as <- <-; apply G; lia. }
pose proof (plainQ_open (zl:=zl) fuel 0 (raw_R T fuel) f _ block HD HR Hz Hb Hfull Hfu Hd Hfirst) as HQ. fold C0 in HQ.
pose proof (plainQ_ok (zl:=zl) fuel 0 T C0 (raw_R T fuel) HD HRr) as FO.
pose proof (br_full_line raw_ops fuel (rl0 0) _ FO) as HL.
pose proof (br_exact_read raw_ops fuel (rl0 0) _ FO) as HE.
pose proof (fun s c k HQ' Hk' Hle => br_readline_exact0 raw_ops fuel 0 _ FO s c k HQ' Hk' Hle) as HX.
pose proof (fo_fuel _ _ _ _ FO) as HF.
destruct (consume_ok (zl:=zl) fuel (plainQ fuel 0 C0 (raw_R T fuel)) (rl0 0) HL HE ltac:(intros s c k A1 A2 A3 _; exact (HX s c k A1 A2 A3)) HF ltac:(cbn; lia) fuel true 0 0 (it_reader (iter_new (zl:=zl) f block known)) data HQ) as (nl & sz & er & c' & r' & E & Hsk & _).
{ unfold enough in Hfu. lia. }
destruct (skip_first fuel data nl sz er c' Hsk) as (sk & E1 & -> & -> & E4 & E5). { unfold enough in Hfu. lia. }
exists sk, nl, c', r'. change (raw_open data sched) with f. rewrite E. now repeat split.
Qed.
