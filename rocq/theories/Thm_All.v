(** * Thm_All: proofs of the theorems restated in Props_All.v *)
From Coq Require Import String List ZArith NArith Bool Lia.
From Coq Require Import ZifyBool ZifyNat ZifyN.
From Verif Require Import PyBase Streams StreamSpec AllSpec Toy.
Import ListNotations.
Open Scope Z_scope.

From Verif Require Import Facts StreamProofs BufProofs FillProofs CallProofs AllProofs.

Lemma reads_prefix {zl S} (ops : sops S) fuel R ne : delivers ops R -> (forall s c, R s c -> (List.length c + 3 <= fuel)%nat) ->
  forall ks n (b : breader zl S) c, AI ops R ne n b c -> bounded fuel n -> (List.length c + 2 <= fuel)%nat ->
  Forall nonneg ks ->
  exists outs rest b', run_calls (br_ops ops fuel) (map CRead ks) b = (map Ok outs, b')
    /\ c = concat outs ++ rest
    /\ (ne = true -> outs = fst (mem_calls (map CRead ks) c)).
Proof.
  intros HD Hf. induction ks as [|k ks IH]; intros n b c HA Hb Hc Hk.
  - exists [], c, b. repeat split.
  - inversion Hk as [|? ? Hk0 Hks]; subst.
    destruct (read_loop_all ops fuel R ne HD Hf fuel n k [] b c HA Hb Hk0 Hc) as (n' & out & rest & b1 & E & -> & HA1 & Hn & Hle & Hfin).
    rewrite app_length in Hc.
    destruct (IH n' b1 rest HA1 ltac:(unfold bounded in *; lia) ltac:(lia) Hks) as (outs & rest2 & b2 & E2 & Er & Hne).
    exists (out :: outs), rest2, b2. cbn [map run_calls do_call br_ops o_read]. unfold br_read. rewrite E. cbn [app].
    fold (br_ops (zl:=zl) ops fuel). rewrite E2. split; [reflexivity|]. split; [cbn [concat]; rewrite Er at 1; apply app_assoc|].
    intros En. specialize (Hne En). cbn [mem_calls].
    assert (read_of k (out ++ rest) = out) as Er2.
    { unfold read_of. destruct Hfin as [Hf1|[->|(_ & _ & H & _)]]; [| |congruence].
      - destruct k as [k|]; [|contradiction]. cbn in Hk0. replace (k <? 0) with false by lia. rewrite <- Hf1. apply takeZ_app_exact.
      - rewrite app_nil_r. destruct k as [k|]; [|reflexivity]. cbn in Hk0. replace (k <? 0) with false by lia. now apply takeZ_all. }
    rewrite Er2, dropZ_app_exact.
    destruct (mem_calls (map CRead ks) rest) as [l r]. cbn in *. now rewrite Hne.
Qed.

Lemma C10_read_all_refuted_pf :
  exists ms content block fuel, members toy_z true ms content /\ 0 < block /\ enough fuel ms
  /\ fst (run_calls (br_ops raw_ops fuel) [CRead (Some 3); CRead (Some 3)] (dbr_new (zl:=toy_z) (raw_open ms []) block None true))
     = [Ok (lit "abc"); Ok []] /\ content = lit "abcxyz".
Proof.
  exists (toy_gz (lit "abc") ++ toy_gz (lit "xyz") ++ []), (lit "abc" ++ lit "xyz" ++ []), 9, 60%nat.
  split; [repeat constructor; discriminate|]. split; [lia|]. split; [unfold enough; cbn; lia|].
  split; vm_compute; reflexivity.
Qed.

Lemma C10_read_all_empty_refuted_pf :
  exists ms content fuel, members toy_z false ms content /\ enough fuel ms
  /\ fst (br_read raw_ops fuel None (dbr_new (zl:=toy_z) (raw_open ms []) 16384 None true)) = Ok []
  /\ content = lit "xyz".
Proof.
  exists (toy_gz [] ++ toy_gz (lit "xyz") ++ []), ([] ++ lit "xyz" ++ []), 60%nat.
  split; [repeat (constructor; [reflexivity|discriminate|]); constructor|]. split; [unfold enough; cbn; lia|].
  split; vm_compute; reflexivity.
Qed.

Lemma C10_read_all_partial_pf :
  forall (zl : zenv) fuel ms content block ks,
  members zl true ms content -> enough fuel ms -> enough fuel content -> 0 < block -> lenZ ms <= block ->
  Forall nonneg ks ->
  fst (run_calls (br_ops raw_ops fuel) (map CRead ks) (dbr_new (zl:=zl) (raw_open ms []) block None true))
  = map Ok (fst (mem_calls (map CRead ks) content)).
Proof.
  intros zl fuel ms content block ks Hm Hf Hc Hb Hl Hk.
  pose proof (fun s c (H : raw_RX (lenZ ms) fuel s c) => raw_R_fuel _ _ _ _ (proj1 H)) as Hfu.
  pose proof (AI_new (zl:=zl) raw_ops (raw_RX (lenZ ms) fuel) true _ ms content block (raw_RX_open ms fuel Hf) Hm Hb
     (fun _ => conj (raw_exact_read _ _) Hl)) as HA.
  destruct (reads_prefix raw_ops fuel _ true (raw_deliversX _ _) Hfu ks _ _ _ HA ltac:(unfold bounded, enough in *; lia)
     ltac:(unfold enough in *; lia) Hk) as (outs & rest & b' & E & _ & Hne).
  rewrite E. cbn [fst]. now rewrite (Hne eq_refl).
Qed.

Lemma C10_read_all_prefix_partial_pf :
  forall (zl : zenv) fuel ms content block sched ks,
  members zl false ms content -> enough fuel ms -> enough fuel content -> 0 < block -> Forall nonneg ks ->
  exists outs rest,
    fst (run_calls (br_ops raw_ops fuel) (map CRead ks) (dbr_new (zl:=zl) (raw_open ms sched) block None true)) = map Ok outs
    /\ content = concat outs ++ rest.
Proof.
  intros zl fuel ms content block sched ks Hm Hf Hc Hb Hk.
  pose proof (fun s c (H : raw_R (lenZ ms) fuel s c) => raw_R_fuel _ _ _ _ H) as Hfu.
  pose proof (AI_new (zl:=zl) raw_ops (raw_R (lenZ ms) fuel) false _ ms content block (raw_R_open ms sched fuel Hf) Hm Hb
     ltac:(discriminate)) as HA.
  destruct (reads_prefix raw_ops fuel _ false (raw_delivers _ _) Hfu ks _ _ _ HA ltac:(unfold bounded, enough in *; lia)
     ltac:(unfold enough in *; lia) Hk) as (outs & rest & b' & E & Ec & _).
  exists outs, rest. rewrite E. auto.
Qed.

Lemma C10_nothing_lost_partial_pf :
  forall (zl : zenv) fuel ms content block sched k,
  members zl false ms content -> enough fuel ms -> enough fuel content -> 0 < block ->
  (2 * List.length ms + 2 <= k)%nat ->
  reads_n raw_ops fuel k (dbr_new (zl:=zl) (raw_open ms sched) block None true) = Ok content.
Proof.
  intros zl fuel ms content block sched k Hm Hf Hc Hb Hk.
  pose proof (fun s c (H : raw_R (lenZ ms) fuel s c) => raw_R_fuel _ _ _ _ H) as Hfu.
  pose proof (AI_new (zl:=zl) raw_ops (raw_R (lenZ ms) fuel) false _ ms content block (raw_R_open ms sched fuel Hf) Hm Hb
     ltac:(discriminate)) as HA.
  apply (reads_n_all raw_ops fuel _ false (raw_delivers _ _) Hfu k _ _ _ HA); unfold bounded, enough in *; try lia.
Qed.
