(** * Thm_Stream: proofs of the theorems restated in Props_Stream.v *)
From Coq Require Import String List ZArith NArith Bool Lia.
From Coq Require Import ZifyBool ZifyNat ZifyN.
From Verif Require Import PyBase Streams StreamSpec.
Import ListNotations.
Open Scope Z_scope.

From Verif Require Import Facts StreamProofs BufProofs FillProofs CallProofs.

Lemma lim_call_tell {S} (ops : sops S) k l out l' :
  do_call (lim_ops ops) k l = (Ok out, l') -> lim_tell l' = lim_tell l + lenZ out.
Proof.
  destruct k as [n|n]; cbn [do_call lim_ops o_read o_readline]; unfold lim_read, lim_readline;
  (destruct (lim_len n l =? 0); [intros [= <- <-]; rewrite lenZ_nil; lia|]).
  - destruct (o_read ops _ _) as [[b|e] s']; [|discriminate]. intros [= <- <-]. unfold lim_tell, lim_update. cbn. lia.
  - destruct (o_readline ops _ _) as [[b|e] s']; [|discriminate]. intros [= <- <-]. unfold lim_tell, lim_update. cbn. lia.
Qed.

Lemma lim_calls_tell {S} (ops : sops S) cs : forall l bs l',
  run_calls (lim_ops ops) cs l = (map Ok bs, l') -> lim_tell l' = lim_tell l + lenZ (concat bs).
Proof.
  induction cs as [|k cs IH]; intros l bs l' H; cbn [run_calls] in H.
  - destruct bs; [|discriminate]. injection H as <-. cbn. lia.
  - destruct (do_call (lim_ops ops) k l) as [[b|e] l1] eqn:E.
    + destruct (run_calls (lim_ops ops) cs l1) as [rs l2] eqn:E2. destruct bs as [|b' bs]; [discriminate|].
      injection H as <- -> <-. apply IH in E2. apply lim_call_tell in E. cbn. rewrite lenZ_app. lia.
    + destruct bs as [|? [|]]; discriminate.
Qed.

Lemma C01_limit_confined_pf :
  forall (S : Type) (ops : sops S) (R : S -> bytes -> Prop),
  delivers ops R -> line_prefix ops R ->
  forall s c limit calls, R s c -> 0 <= limit -> nonneg_calls calls ->
  exists bs rest l,
    run_calls (lim_ops ops) calls (lim_new s limit) = (map Ok bs, l)
    /\ c = concat bs ++ rest /\ R (lm_stream l) rest
    /\ lenZ (concat bs) <= limit
    /\ lim_tell l = lenZ (concat bs).
Proof.
  intros S ops R HD HL s c limit calls HR Hlim Hc.
  destruct (run_calls_conf (lim_ops ops) _ _ (lim_conf_like ops R (dropZ limit c) HD HL) calls
              (lim_new s limit) (takeZ limit c) (lim_R_new R s c limit HR Hlim) Hc)
    as (bs & rest & l & E & Ec & (HR' & _ & _)).
  exists bs, (rest ++ dropZ limit c), l. split; [exact E|]. split.
  { rewrite app_assoc, <- Ec. symmetry. apply takeZ_dropZ. }
  split; [exact HR'|]. split.
  { apply (f_equal lenZ) in Ec. rewrite lenZ_takeZ, lenZ_app in Ec by assumption. pose proof (lenZ_nonneg rest). lia. }
  rewrite (lim_calls_tell ops calls _ _ _ E). unfold lim_tell, lim_new. cbn. lia.
Qed.

Lemma C01_limit_file_pf :
  forall data sched limit calls, 0 <= limit -> nonneg_calls calls ->
  exists bs l,
    run_calls (lim_ops raw_ops) calls (lim_new (raw_open data sched) limit) = (map Ok bs, l)
    /\ data = concat bs ++ rw_rest (lm_stream l)
    /\ lenZ (concat bs) <= limit
    /\ rw_pos (lm_stream l) = lenZ (concat bs)
    /\ lim_tell l = lenZ (concat bs).
Proof.
  intros data sched limit calls Hlim Hc.
  set (fuel := (List.length data + 3)%nat).
  destruct (C01_limit_confined_pf raw raw_ops (raw_R (lenZ data) fuel) (raw_delivers _ _)
             (exact_line_prefix _ _ (raw_exact_line _ _)) (raw_open data sched) data limit calls
             (raw_R_open data sched fuel ltac:(lia)) Hlim Hc) as (bs & rest & l & E & Ed & HR & Hl & Ht).
  destruct HR as (<- & Hp & _). exists bs, l. repeat (split; [assumption|]). split; [|exact Ht].
  apply (f_equal lenZ) in Ed. rewrite lenZ_app in Ed. lia.
Qed.

Lemma C01_limit_exact_pf :
  forall data limit calls, 0 <= limit -> nonneg_calls calls ->
  fst (run_calls (lim_ops raw_ops) calls (lim_new (raw_open data []) limit))
  = map Ok (fst (mem_calls calls (takeZ limit data))).
Proof.
  intros data limit calls Hlim Hc. set (fuel := (List.length data + 3)%nat).
  destruct (run_calls_mem (lim_ops raw_ops) _ _
              (lim_mem_like raw_ops (raw_RX (lenZ data) fuel) (dropZ limit data) (raw_exact_read _ _) (raw_exact_lineX _ _))
              calls (lim_new (raw_open data []) limit) (takeZ limit data)
              (lim_R_new _ _ _ _ (raw_RX_open data fuel ltac:(lia)) Hlim) Hc) as (s' & E & _).
  now rewrite E.
Qed.

Lemma C02_limit_drain_pf :
  forall (S : Type) (ops : sops S) (R : S -> bytes -> Prop), delivers ops R ->
  forall s c limit sizes n, R s c -> 0 <= limit -> (forall i, 0 < sizes i) -> (List.length c < n)%nat ->
  exists l, drain_reads (lim_ops ops) n sizes 0 (lim_new s limit) = (Ok (takeZ limit c), l)
            /\ R (lm_stream l) (dropZ limit c).
Proof.
  intros S ops R HD s c limit sizes n HR Hlim Hs Hn.
  destruct (drain_ok (lim_ops ops) _ (lim_delivers ops R (dropZ limit c) HD) n sizes 0 (lim_new s limit) (takeZ limit c) Hs
             (lim_R_new R s c limit HR Hlim)) as (l & E & HR' & _).
  { pose proof (takeZ_dropZ limit c) as H. apply (f_equal (@List.length N)) in H. rewrite app_length in H. lia. }
  exists l. now split.
Qed.

Lemma C02_limit_drain_file_pf :
  forall data sched limit sizes, 0 <= limit -> (forall i, 0 < sizes i) ->
  exists l, drain_reads (lim_ops raw_ops) (Datatypes.S (List.length data)) sizes 0 (lim_new (raw_open data sched) limit)
            = (Ok (takeZ limit data), l)
            /\ rw_rest (lm_stream l) = dropZ limit data.
Proof.
  intros data sched limit sizes Hlim Hs. set (fuel := (List.length data + 3)%nat).
  destruct (C02_limit_drain_pf raw raw_ops _ (raw_delivers (lenZ data) fuel) (raw_open data sched) data limit sizes (Datatypes.S (List.length data))
    (raw_R_open data sched fuel ltac:(lia)) Hlim Hs ltac:(lia)) as (l & E & (HR & _)). exists l. now split.
Qed.

Lemma C03_negative_length_refuted_pf :
  (exists data limit out l, 0 <= limit
     /\ lim_read raw_ops (Some (-1)) (lim_new (raw_open data []) limit) = (Ok out, l) /\ limit < lenZ out)
  /\ (exists data limit out l, 0 <= limit
     /\ lim_readline raw_ops (Some (-1)) (lim_new (raw_open data []) limit) = (Ok out, l) /\ limit < lenZ out).
Proof.
  split; exists (lit "abcdef"), 2, (lit "abcdef"); eexists; (split; [lia|]);
  (split; [vm_compute; reflexivity|vm_compute; reflexivity]).
Qed.

Lemma C03_limit_length_partial_pf :
  forall data sched limit calls k, 0 <= limit -> nonneg_calls calls -> nonneg (call_arg k) ->
  exists b l, do_call (lim_ops raw_ops) k
     (snd (run_calls (lim_ops raw_ops) calls (lim_new (raw_open data sched) limit))) = (Ok b, l) /\ lenZ b <= limit.
Proof.
  intros data sched limit calls k Hlim Hc Hk. set (fuel := (List.length data + 3)%nat).
  pose proof (lim_conf_like raw_ops (raw_R (lenZ data) fuel) (dropZ limit data) (raw_delivers _ _) (exact_line_prefix _ _ (raw_exact_line _ _))) as HC.
  destruct (run_calls_conf (lim_ops raw_ops) _ _ HC calls (lim_new (raw_open data sched) limit) (takeZ limit data)
     (lim_R_new _ _ _ _ (raw_R_open data sched fuel ltac:(lia)) Hlim) Hc) as (bs & rest & l & E & Ec & HR).
  rewrite E. cbn [snd]. destruct (HC l rest k HR Hk) as (out & r2 & l2 & E2 & Er & _).
  exists out, l2. split; [exact E2|].
  apply (f_equal lenZ) in Ec. rewrite Er, !lenZ_app, lenZ_takeZ in Ec by assumption.
  pose proof (lenZ_nonneg (concat bs)). pose proof (lenZ_nonneg r2). lia.
Qed.

Lemma C04_wrap_fresh_pf :
  forall (S : Type) (ops : sops S) (R : S -> bytes -> Prop), delivers ops R ->
  forall s c k sizes n, R s c -> 0 <= k -> (forall i, 0 < sizes i) -> (List.length c < n)%nat ->
  exists l l', lim_wrap (inl s) (Some (str_of_Z k)) = inr l
     /\ drain_reads (lim_ops ops) n sizes 0 l = (Ok (takeZ k c), l') /\ lim_tell l = 0.
Proof.
  intros S ops R HD s c k sizes n HR Hk Hs Hn. unfold lim_wrap. rewrite py_int_str by assumption.
  replace (0 <=? k) with true by lia.
  destruct (C02_limit_drain_pf S ops R HD s c k sizes n HR Hk Hs Hn) as (l & E & _).
  exists (lim_new s k), l. split; [reflexivity|]. split; [exact E|]. unfold lim_tell, lim_new. cbn. lia.
Qed.

Lemma C04_wrap_limited_pf :
  forall data sched limit calls k sizes, 0 <= limit -> nonneg_calls calls -> 0 <= k -> (forall i, 0 < sizes i) ->
  exists bs l l1 l2,
    run_calls (lim_ops raw_ops) calls (lim_new (raw_open data sched) limit) = (map Ok bs, l)
    /\ lim_wrap (inr l) (Some (str_of_Z k)) = inr l1
    /\ drain_reads (lim_ops raw_ops) (Datatypes.S (List.length data)) sizes 0 l1
       = (Ok (takeZ (Z.min (limit - lenZ (concat bs)) k) (dropZ (lenZ (concat bs)) data)), l2).
Proof.
  intros data sched limit calls k sizes Hlim Hc Hk Hs. set (fuel := (List.length data + 3)%nat).
  pose proof (raw_delivers (lenZ data) fuel) as HD.
  destruct (C01_limit_file_pf data sched limit calls Hlim Hc) as (bs & l & E & Ed & Hl & Hp & Ht).
  unfold lim_tell in Ht.
  assert (Ho : lm_orig l = limit).
  { clear - E. revert bs E. generalize (lim_new (raw_open data sched) limit) (eq_refl : lm_orig (lim_new (raw_open data sched) limit) = limit).
    induction calls as [|c cs IH]; intros l0 Ho bs E; cbn [run_calls] in E.
    - destruct bs; [|discriminate]. injection E as <-. exact Ho.
    - destruct (do_call (lim_ops raw_ops) c l0) as [[b|e] l1] eqn:E1.
      + destruct (run_calls (lim_ops raw_ops) cs l1) as [rs l2] eqn:E2. destruct bs as [|b' bs]; [discriminate|].
        injection E as <- -> <-. eapply (IH l1); [|exact E2].
        destruct c as [n|n]; cbn [do_call lim_ops o_read o_readline] in E1; unfold lim_read, lim_readline in E1;
        (destruct (lim_len n l0 =? 0); [injection E1 as <- <-; exact Ho|]).
        * destruct (o_read raw_ops _ _) as [[q|e] s']; [|discriminate]. injection E1 as <- <-. exact Ho.
        * destruct (o_readline raw_ops _ _) as [[q|e] s']; [|discriminate]. injection E1 as <- <-. exact Ho.
      + destruct bs as [|? [|]]; discriminate. }
  assert (Hlm : lm_limit l = limit - lenZ (concat bs)) by lia.
  set (rest := rw_rest (lm_stream l)) in *.
  assert (Hrest : dropZ (lenZ (concat bs)) data = rest) by (rewrite Ed; apply dropZ_app_exact).
  set (m := Z.min (lm_limit l) k).
  assert (HR : raw_R (lenZ data) fuel (lm_stream l) rest).
  { split; [reflexivity|]. rewrite Ed at 1. rewrite Hp, lenZ_app. split; [reflexivity|].
    unfold fuel. rewrite Ed, app_length. fold rest. lia. }
  assert (HRm : lim_R (raw_R (lenZ data) fuel) (dropZ m rest) (mk_lim (lm_stream l) m (lm_orig l)) (takeZ m rest)).
  { destruct (lim_R_new _ _ _ m HR ltac:(lia)) as (H1 & H2 & H3). split; [exact H1|]. split; [exact H2|exact H3]. }
  destruct (drain_ok (lim_ops raw_ops) _ (lim_delivers raw_ops _ (dropZ m rest) HD) (Datatypes.S (List.length data)) sizes 0 _ _ Hs HRm) as (l2 & E2 & _).
  { pose proof (takeZ_dropZ m rest) as H. apply (f_equal (@List.length N)) in H. rewrite app_length in H.
    rewrite Ed, app_length. lia. }
  exists bs, l, (mk_lim (lm_stream l) m (lm_orig l)), l2. split; [exact E|]. split; [|rewrite Hrest, <- Hlm; exact E2].
  unfold lim_wrap. rewrite py_int_str by assumption. now replace (0 <=? k) with true by lia.
Qed.

Lemma int_digits_nodigit base st acc l : l <> [] -> forallb (fun c => match digit_in base c with None => true | _ => false end) l = true ->
  int_digits base st acc l = None.
Proof.
  destruct l as [|c t]; [contradiction|]. intros _ H. cbn in *. apply andb_prop in H as [Hc Ht].
  destruct (digit_in base c); [discriminate|]. destruct ((c =? 95)%N && st); [|reflexivity].
  destruct t as [|c2 t]; [reflexivity|]. cbn in Ht. apply andb_prop in Ht as [Hc2 _].
  destruct (digit_in base c2); [discriminate|reflexivity].
Qed.
Lemma forallb_lstripp p q l : forallb q l = true -> forallb q (lstripp p l) = true.
Proof. induction l as [|c t IH]; cbn; [auto|]. intros H. destruct (p c); [apply IH; now apply andb_prop in H|exact H]. Qed.
Lemma forallb_rstripp p q l : forallb q l = true -> forallb q (rstripp p l) = true.
Proof.
  intros H. destruct (rstripp_split p l) as (b & E & _). rewrite E, forallb_app in H. now apply andb_prop in H.
Qed.
Lemma py_int_nodigit s : forallb (fun c => match digit_in 10 (to_ascii_digit c) with None => true | _ => false end) s = true ->
  py_int s = None.
Proof.
  intros H. unfold py_int, int_core.
  assert (Hm : forallb (fun c => match digit_in 10 c with None => true | _ => false end) (map to_ascii_digit s) = true).
  { clear - H. induction s; cbn in *; [auto|]. apply andb_prop in H as [-> H]. cbn. auto. }
  assert (Hstr : forallb (fun c => match digit_in 10 c with None => true | _ => false end) (stripp is_bspace (map to_ascii_digit s)) = true).
  { unfold stripp. repeat (apply forallb_lstripp || apply forallb_rstripp). exact Hm. }
  set (l := stripp is_bspace (map to_ascii_digit s)) in *. clearbody l. clear Hm H s.
  assert (Hn : forall l', forallb (fun c => match digit_in 10 c with None => true | _ => false end) l' = true -> int_digits 10 false 0 l' = None).
  { intros l' H. destruct l'; [reflexivity|]. apply int_digits_nodigit; [discriminate|exact H]. }
  assert (Hcase : exists neg l', (match l with 43%N :: t => (false, t) | 45%N :: t => (true, t) | _ => (false, l) end) = (neg, l')
            /\ forallb (fun c => match digit_in 10 c with None => true | _ => false end) l' = true).
  { destruct l as [|c t]; [eauto|]. pose proof Hstr as Hs2. cbn [forallb] in Hs2. apply andb_prop in Hs2 as [_ Ht].
    destruct (N.eq_dec c 43) as [->|H1]; [eauto|]. destruct (N.eq_dec c 45) as [->|H2]; [eauto|].
    exists false, (c :: t). split; [|exact Hstr].
    destruct c as [|p]; [reflexivity|]. do 6 (destruct p as [p|p|]; try reflexivity); congruence. }
  destruct Hcase as (neg & l' & -> & Hl'). change (10 =? 16)%N with false. cbv beta iota zeta. now rewrite (Hn l' Hl').
Qed.
Lemma py_int_neg n : 0 <= n -> py_int (45%N :: str_of_Z n) = Some (- n).
Proof.
  intros Hn. pose proof (py_int_str n Hn) as H. unfold py_int, int_core in *.
  pose proof (str_of_Z_digits n Hn) as Hd. pose proof (str_of_Z_nonnil n) as Hnn.
  assert (Hm : map to_ascii_digit (str_of_Z n) = str_of_Z n).
  { apply map_to_ascii_digit_ascii. eapply forallb_impl; [|exact Hd]. unfold is_digit. intros. lia. }
  cbn [map]. change (to_ascii_digit 45) with 45%N. rewrite Hm in *.
  assert (Hs : stripp is_bspace (45%N :: str_of_Z n) = 45%N :: str_of_Z n).
  { unfold stripp. rewrite rstripp_id; [reflexivity|right].
    destruct (exists_last Hnn) as (a & c & E). exists (45%N :: a), c. rewrite E. split; [reflexivity|].
    rewrite E, forallb_app in Hd. apply andb_prop in Hd as [_ Hc]. cbn in Hc. unfold is_digit in Hc. unfold is_bspace. lia. }
  rewrite Hs. change (10 =? 16)%N with false. cbv beta iota zeta.
  assert (E : str_of_Z n = dec_of_N (Z.to_N n)) by (unfold str_of_Z; destruct n; [reflexivity|reflexivity|lia]).
  rewrite E, int_digits_dec. f_equal. lia.
Qed.

Lemma C04_wrap_invalid_pf :
  forall (S : Type) (s : S + limr S),
  lim_wrap s None = s
  /\ (forall cl, (forall c, In c cl -> ~ (48 <= to_ascii_digit c <= 57)%N) -> lim_wrap s (Some cl) = s)
  /\ (forall n, 0 < n -> lim_wrap s (Some (lit "-" ++ str_of_Z n)) = s).
Proof.
  intros S s. split; [reflexivity|]. split.
  - intros cl H. unfold lim_wrap. rewrite py_int_nodigit; [reflexivity|].
    apply forallb_forall. intros c Hc. specialize (H c Hc). unfold digit_in, hexval.
    set (d := to_ascii_digit c) in *. destruct ((48 <=? d)%N && (d <=? 57)%N) eqn:E; [lia|].
    destruct ((97 <=? d)%N && (d <=? 102)%N) eqn:E2.
    + now replace (d - 87 <? 10)%N with false by lia.
    + destruct ((65 <=? d)%N && (d <=? 70)%N) eqn:E3; [|reflexivity].
      now replace (d - 55 <? 10)%N with false by lia.
  - intros n Hn. unfold lim_wrap. change (lit "-" ++ str_of_Z n) with (45%N :: str_of_Z n).
    rewrite py_int_neg by lia. now replace (0 <=? - n) with false by lia.
Qed.

Lemma C04_wrap_tell_refuted_pf :
  exists data limit k l, 0 <= k <= limit
    /\ lim_wrap (inr (lim_new (raw_open data []) limit)) (Some (str_of_Z k)) = inr l /\ lim_tell l <> 0.
Proof.
  exists (lit "abcdefghij"), 8, 5. eexists. split; [lia|]. split; [vm_compute; reflexivity|]. vm_compute. discriminate.
Qed.
