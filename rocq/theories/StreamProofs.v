(** * StreamProofs: lemmas on the readers of Streams.v *)
From Coq Require Import List ZArith NArith Bool Lia.
From Coq Require Import ZifyBool ZifyNat ZifyN.
From Verif Require Import PyBase Facts Streams StreamSpec.
Import ListNotations.
Open Scope Z_scope.

(** ** The raw file *)
Definition raw_R (T : Z) (fuel : nat) (s : raw) (c : bytes) : Prop :=
  rw_rest s = c /\ rw_pos s + lenZ c = T /\ (List.length c + 3 <= fuel)%nat.

Lemma length_app_le {A} (a b c : list A) : c = a ++ b -> (List.length b <= List.length c)%nat.
Proof. intros ->. rewrite app_length. lia. Qed.

Lemma raw_R_step T fuel s c out rest sched :
  raw_R T fuel s c -> c = out ++ rest ->
  raw_R T fuel (mk_raw rest (rw_pos s + lenZ out) sched) rest.
Proof.
  intros (_ & Ep & Hf) ->. unfold raw_R. cbn.
  rewrite lenZ_app in Ep. rewrite app_length in Hf. repeat split; lia.
Qed.

Lemma raw_delivers T fuel : delivers raw_ops (raw_R T fuel).
Proof.
  intros s c k HR Hk. unfold raw_ops, o_read, raw_read.
  replace (0 <? k) with true by lia.
  assert (exists m sched, (match rw_rest s, rw_sched s with
                           | [], sc => (k, sc) | _, [] => (k, []) | _, x :: t => (Z.min k (Z.max 1 x), t) end)
                          = (m, sched) /\ 0 < m <= k) as (m & sched & -> & Hm).
  { destruct (rw_rest s), (rw_sched s); eexists _, _; (split; [reflexivity|]); lia. }
  destruct HR as (E & HR). rewrite E.
  exists (takeZ m c), (dropZ m c), (mk_raw (dropZ m c) (rw_pos s + lenZ (takeZ m c)) sched).
  split; [reflexivity|]. split.
  - eapply raw_R_step; [exact (conj E HR)|]. symmetry. apply takeZ_dropZ.
  - split; [symmetry; apply takeZ_dropZ|]. split; [rewrite lenZ_takeZ; lia|].
    intros H. apply lenZ_0. apply (f_equal lenZ) in H. rewrite lenZ_takeZ, lenZ_nil in H by lia.
    pose proof (lenZ_nonneg c). lia.
Qed.

Lemma raw_exact_line T fuel : exact_line raw_ops (raw_R T fuel).
Proof.
  intros s c k HR Hk. unfold raw_ops, o_readline, raw_readline, line_of.
  replace (k <? 0) with false by lia. destruct HR as (E & HR). rewrite E.
  eexists. split; [reflexivity|].
  eapply raw_R_step; [exact (conj E HR)|].
  pose proof (line_of_split (Some k) c) as Hs. unfold line_of in Hs.
  replace (k <? 0) with false in Hs by lia. now symmetry.
Qed.

Lemma raw_exact_full_line T fuel : exact_full_line raw_ops (raw_R T fuel).
Proof.
  intros s c HR. unfold raw_ops, o_readline, raw_readline, line_of.
  destruct HR as (E & HR). rewrite E.
  eexists. split; [reflexivity|]. rewrite drop_line_dropZ.
  eapply raw_R_step; [exact (conj E HR)|].
  rewrite <- drop_line_dropZ. symmetry. apply take_drop_line.
Qed.

Lemma raw_exact_full_read T fuel : exact_full_read raw_ops (raw_R T fuel).
Proof.
  intros s c HR. unfold raw_ops, o_read, raw_read.
  destruct HR as (E & HR). rewrite E. eexists. split; [reflexivity|].
  eapply (raw_R_step T fuel s c c []); [exact (conj E HR)|now rewrite app_nil_r].
Qed.

(** exact_line gives line_prefix *)
Lemma exact_line_prefix {S} (ops : sops S) R : exact_line ops R -> line_prefix ops R.
Proof.
  intros H s c k HR Hk. destruct (H s c k HR Hk) as (s' & E & HR').
  exists (takeZ k (take_line c)), (dropZ (lenZ (takeZ k (take_line c))) c), s'.
  split; [assumption|]. split; [assumption|].
  pose proof (line_of_split (Some k) c) as Hs. unfold line_of in Hs.
  replace (k <? 0) with false in Hs by lia.
  split; [now symmetry|]. split; [rewrite lenZ_takeZ; lia|]. split.
  - intros E0. apply take_line_nil. apply lenZ_0.
    apply (f_equal lenZ) in E0. rewrite lenZ_takeZ, lenZ_nil in E0 by lia.
    pose proof (lenZ_nonneg (take_line c)). lia.
  - exists (dropZ k (take_line c)). now rewrite takeZ_dropZ.
Qed.

Lemma exact_read_delivers {S} (ops : sops S) R : exact_read ops R -> delivers ops R.
Proof.
  intros H s c k HR Hk. destruct (H s c k HR Hk) as (s' & E & HR').
  exists (takeZ k c), (dropZ k c), s'. rewrite takeZ_dropZ.
  repeat split; auto; [rewrite lenZ_takeZ; lia|].
  intros E0. apply lenZ_0. apply (f_equal lenZ) in E0. rewrite lenZ_takeZ, lenZ_nil in E0 by lia.
  pose proof (lenZ_nonneg c). lia.
Qed.

(** ** LimitReader *)
Section Lim.
  Context {S : Type} (ops : sops S) (R : S -> bytes -> Prop).

  (** [c] is what the LimitReader still delivers, [tail] what remains beyond it *)
  Definition lim_R (tail : bytes) (l : limr S) (c : bytes) : Prop :=
    R (lm_stream l) (c ++ tail) /\ lenZ c <= lm_limit l /\ (tail <> [] -> lm_limit l = lenZ c).

  Lemma lim_R_new s c n : R s c -> 0 <= n -> lim_R (dropZ n c) (lim_new s n) (takeZ n c).
  Proof.
    intros H Hn. unfold lim_R, lim_new. cbn. rewrite takeZ_dropZ. split; [assumption|].
    rewrite lenZ_takeZ by assumption. split; [lia|]. intros Ht.
    apply lenZ_pos in Ht. rewrite lenZ_dropZ in Ht by assumption. lia.
  Qed.

  Lemma lim_R_limit0 tail l c : lim_R tail l c -> lm_limit l = 0 -> c = [].
  Proof. intros (_ & H & _) E. apply lenZ_0. pose proof (lenZ_nonneg c). lia. Qed.

  (** consuming [out] *)
  Lemma lim_R_step tail l c out rest s' :
    lim_R tail l c -> c = out ++ rest -> R s' (rest ++ tail) ->
    lim_R tail (lim_update out s' l) rest.
  Proof.
    intros (_ & H1 & H2) -> HR. rewrite lenZ_app in *. unfold lim_R, lim_update. cbn.
    split; [assumption|]. split; [lia|]. intros Ht. specialize (H2 Ht). lia.
  Qed.

  (** a prefix of c ++ tail no longer than the limit is a prefix of c *)
  Lemma lim_R_within tail l c out rest :
    lim_R tail l c -> c ++ tail = out ++ rest -> lenZ out <= lm_limit l ->
    exists r, c = out ++ r /\ rest = r ++ tail.
  Proof.
    intros (_ & H1 & H2) E Hl. assert (lenZ out <= lenZ c) as Hle.
    { destruct tail as [|x t]; [|rewrite <- H2; [assumption|discriminate]].
      rewrite app_nil_r in E. subst c. rewrite lenZ_app. pose proof (lenZ_nonneg rest). lia. }
    exists (dropZ (lenZ out) c).
    assert (takeZ (lenZ out) c = out) as Et.
    { rewrite <- (takeZ_app_le _ c tail) by assumption. rewrite E. apply takeZ_app_exact. }
    split.
    - rewrite <- Et at 1. symmetry. apply takeZ_dropZ.
    - rewrite <- (dropZ_app_exact out rest), <- E. now apply dropZ_app_le.
  Qed.

  Lemma lim_delivers tail : delivers ops R -> delivers (lim_ops ops) (lim_R tail).
  Proof.
    intros HD l c k HR Hk. unfold lim_ops, o_read, lim_read, lim_len.
    destruct (Z.min k (lm_limit l) =? 0) eqn:E.
    - assert (c = []) as -> by (eapply lim_R_limit0; [eassumption|destruct HR as (_ & HR2 & _); pose proof (lenZ_nonneg c); lia]).
      exists [], [], l. rewrite lenZ_nil. repeat (split; [auto; lia|]). auto.
    - pose proof HR as (HR1 & HR2 & HR3). pose proof (lenZ_nonneg c).
      destruct (HD _ _ (Z.min k (lm_limit l)) HR1 ltac:(lia)) as (out & rest & s' & Eo & HR' & Ec & Hl & Hn).
      rewrite Eo. destruct (lim_R_within _ _ _ _ _ HR Ec ltac:(lia)) as (r & -> & ->).
      exists out, r, (lim_update out s' l). split; [reflexivity|].
      split; [eapply lim_R_step; eauto|]. split; [reflexivity|]. split; [lia|].
      intros ->. specialize (Hn eq_refl). destruct r; [reflexivity|discriminate].
  Qed.

  Lemma lim_line_prefix tail : line_prefix ops R -> line_prefix (lim_ops ops) (lim_R tail).
  Proof.
    intros HD l c k HR Hk. unfold lim_ops, o_readline, lim_readline, lim_len.
    destruct (Z.min k (lm_limit l) =? 0) eqn:E.
    - assert (c = []) as -> by (eapply lim_R_limit0; [eassumption|destruct HR as (_ & HR2 & _); pose proof (lenZ_nonneg c); lia]).
      exists [], [], l. rewrite lenZ_nil. repeat (split; [auto; lia|]). now exists [].
    - pose proof HR as (HR1 & HR2 & HR3). pose proof (lenZ_nonneg c).
      destruct (HD _ _ (Z.min k (lm_limit l)) HR1 ltac:(lia))
        as (out & rest & s' & Eo & HR' & Ec & Hl & Hn & more & Hmore).
      rewrite Eo. destruct (lim_R_within _ _ _ _ _ HR Ec ltac:(lia)) as (r & -> & ->).
      exists out, r, (lim_update out s' l). split; [reflexivity|].
      split; [eapply lim_R_step; eauto|]. split; [reflexivity|]. split; [lia|]. split.
      { intros ->. specialize (Hn eq_refl). destruct r; [reflexivity|discriminate]. }
      clear - Hmore. rewrite <- app_assoc in Hmore.
      destruct (In_LF_dec out) as [Hi|Hi].
      + rewrite take_line_hasLF in Hmore by assumption.
        exists []. rewrite take_line_hasLF, app_nil_r by assumption.
        pose proof (take_drop_line out) as Ho. rewrite Hmore in Ho.
        rewrite <- app_assoc in Ho. symmetry in Ho. rewrite <- (app_nil_r out) in Ho at 1.
        apply app_inv_head in Ho. symmetry in Ho. apply app_eq_nil in Ho as [-> _]. now rewrite app_nil_r in Hmore.
      + exists (take_line r). now rewrite take_line_app_noLF.
  Qed.

  Lemma lim_exact_read tail : exact_read ops R -> exact_read (lim_ops ops) (lim_R tail).
  Proof.
    intros HD l c k HR Hk. unfold lim_ops, o_read, lim_read, lim_len.
    destruct (Z.min k (lm_limit l) =? 0) eqn:E.
    - assert (c = []) as -> by (eapply lim_R_limit0; [eassumption|destruct HR as (_ & HR2 & _); pose proof (lenZ_nonneg c); lia]). exists l. now split.
    - pose proof HR as (HR1 & HR2 & HR3). pose proof (lenZ_nonneg c).
      destruct (HD _ _ (Z.min k (lm_limit l)) HR1 ltac:(lia)) as (s' & Eo & HR').
      rewrite Eo.
      assert (takeZ (Z.min k (lm_limit l)) (c ++ tail) = takeZ k c) as Et.
      { destruct tail as [|x t].
        - rewrite app_nil_r. destruct (Z.le_gt_cases k (lm_limit l)).
          + now rewrite Z.min_l.
          + rewrite !takeZ_all by lia. reflexivity.
        - assert (lm_limit l = lenZ c) as El by (apply HR3; discriminate). rewrite El.
          rewrite takeZ_app_le by lia. destruct (Z.le_gt_cases k (lenZ c)).
          + now rewrite Z.min_l.
          + rewrite !takeZ_all by lia. reflexivity. }
      rewrite Et. exists (lim_update (takeZ k c) s' l). split; [reflexivity|].
      eapply lim_R_step; [eassumption|symmetry; apply takeZ_dropZ|].
      assert (dropZ (Z.min k (lm_limit l)) (c ++ tail) = dropZ k c ++ tail) as Ed.
      { apply (app_inv_head (takeZ k c)). rewrite <- Et at 1. rewrite takeZ_dropZ.
        rewrite app_assoc, takeZ_dropZ. reflexivity. }
      now rewrite <- Ed.
  Qed.

  (** cutting a line by the limit *)
  Lemma take_line_takeZ m (l : bytes) : takeZ m (take_line l) = take_line (takeZ m l).
  Proof.
    revert m. induction l as [|c t IH]; intros m; [reflexivity|]. cbn [take_line takeZ].
    destruct (0 <? m) eqn:Em.
    - cbn [take_line]. destruct (N.eqb c LF) eqn:Ec.
      + cbn [takeZ]. now rewrite Em.
      + cbn [takeZ]. rewrite Em. now rewrite IH.
    - rewrite takeZ_0 by lia. reflexivity.
  Qed.

  Lemma lim_take_line tail l c k : lim_R tail l c -> 0 < k ->
    takeZ (Z.min k (lm_limit l)) (take_line (c ++ tail)) = takeZ k (take_line c).
  Proof.
    intros HR Hk. pose proof HR as (HR1 & HR2 & HR3). pose proof (lenZ_nonneg c).
    rewrite !take_line_takeZ. f_equal.
    destruct tail as [|x t].
    - rewrite app_nil_r. destruct (Z.le_gt_cases k (lm_limit l)).
      + now rewrite Z.min_l.
      + rewrite !takeZ_all by lia. reflexivity.
    - assert (lm_limit l = lenZ c) as El by (apply HR3; discriminate). rewrite El.
      rewrite takeZ_app_le by lia. destruct (Z.le_gt_cases k (lenZ c)).
      + now rewrite Z.min_l.
      + rewrite !takeZ_all by lia. reflexivity.
  Qed.

  Lemma lim_exact_line tail : exact_line ops R -> exact_line (lim_ops ops) (lim_R tail).
  Proof.
    intros HD l c k HR Hk. unfold lim_ops, o_readline, lim_readline, lim_len.
    destruct (Z.min k (lm_limit l) =? 0) eqn:E.
    - assert (c = []) as -> by (eapply lim_R_limit0; [eassumption|destruct HR as (_ & HR2 & _); pose proof (lenZ_nonneg c); lia]). exists l. now split.
    - pose proof HR as (HR1 & HR2 & HR3). pose proof (lenZ_nonneg c).
      destruct (HD _ _ (Z.min k (lm_limit l)) HR1 ltac:(lia)) as (s' & Eo & HR').
      rewrite (lim_take_line _ _ _ _ HR Hk) in *. rewrite Eo.
      eexists. split; [reflexivity|].
      pose proof (line_of_split (Some k) c) as Hs. unfold line_of in Hs.
      replace (k <? 0) with false in Hs by lia.
      eapply lim_R_step; [eassumption|symmetry; exact Hs|].
      rewrite <- dropZ_app_le; [assumption|].
      rewrite <- Hs at 2. rewrite lenZ_app. pose proof (lenZ_nonneg (dropZ (lenZ (takeZ k (take_line c))) c)). lia.
  Qed.

  (** the calls without argument *)
  Lemma lim_read_None l : lim_read ops None l = lim_read ops (Some (lm_limit l)) l.
  Proof. unfold lim_read, lim_len. now rewrite Z.min_id. Qed.
  Lemma lim_readline_None l : lim_readline ops None l = lim_readline ops (Some (lm_limit l)) l.
  Proof. unfold lim_readline, lim_len. now rewrite Z.min_id. Qed.
  Lemma lim_read_0 l n : lim_len n l = 0 -> lim_read ops n l = (Ok [], l).
  Proof. intros E. unfold lim_read. now rewrite E. Qed.
  Lemma lim_readline_0 l n : lim_len n l = 0 -> lim_readline ops n l = (Ok [], l).
  Proof. intros E. unfold lim_readline. now rewrite E. Qed.

  Lemma lim_exact_full_line tail : exact_line ops R -> exact_full_line (lim_ops ops) (lim_R tail).
  Proof.
    intros HD l c HR. unfold lim_ops, o_readline. rewrite lim_readline_None.
    pose proof HR as (HR1 & HR2 & HR3). pose proof (lenZ_nonneg c).
    destruct (Z.eq_dec (lm_limit l) 0) as [E|E].
    - assert (c = []) as -> by (eapply lim_R_limit0; eauto).
      rewrite lim_readline_0 by (unfold lim_len; lia). exists l. now split.
    - destruct (lim_exact_line tail HD l c (lm_limit l) HR ltac:(lia)) as (s' & Eo & HR').
      cbn [o_readline lim_ops] in Eo. rewrite Eo.
      assert (takeZ (lm_limit l) (take_line c) = take_line c) as Et.
      { apply takeZ_all. rewrite <- (take_drop_line c), lenZ_app in HR2.
        pose proof (lenZ_nonneg (drop_line c)). lia. }
      rewrite Et in *. exists s'. split; [reflexivity|]. now rewrite drop_line_dropZ.
  Qed.
End Lim.
