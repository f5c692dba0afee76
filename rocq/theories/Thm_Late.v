(** * Thm_Late: proofs of the theorems restated in Props_Late.v *)
From Coq Require Import String List ZArith NArith Bool Lia.
From Coq Require Import ZifyBool ZifyNat ZifyN.
From Verif Require Import PyBase Utf8 Codecs Streams StreamSpec Toy.
Import ListNotations.
Open Scope Z_scope.

From Verif Require Import Facts.

Ltac st := try unfold set_stream; try unfold set_bbuff; try unfold add_counts; try unfold set_dec; try unfold init_decomp;
  cbn [br_dec br_stream br_block br_dtype br_buff br_start br_num_read br_nblk br_all br_ck].
Lemma raw_block rest pos sched block : 0 < block -> exists d rest' pos' sched',
  raw_read (Some block) (mk_raw rest pos sched) = (Ok d, mk_raw rest' pos' sched') /\ d ++ rest' = rest /\ (rest <> [] -> d <> []).
Proof.
  intros Hb. unfold raw_read. cbn [rw_rest rw_sched rw_pos]. replace (0 <? block) with true by lia.
  assert (G : forall m sc, 1 <= m -> exists d rest' pos' sched',
    (Ok (takeZ m rest), mk_raw (dropZ m rest) (pos + lenZ (takeZ m rest)) sc) = (Ok d, mk_raw rest' pos' sched') /\ d ++ rest' = rest /\ (rest <> [] -> d <> [])).
  { intros m sc Hm. eexists _, _, _, _. split; [reflexivity|]. split; [apply takeZ_dropZ|]. intros Hr E. apply (f_equal lenZ) in E.
    rewrite lenZ_takeZ in E by lia. destruct rest as [|a rest]; [contradiction|]. rewrite lenZ_cons, lenZ_nil in E. pose proof (lenZ_nonneg rest). lia. }
  destruct rest as [|a rest]; [apply G; lia|]. destruct sched; apply G; lia.
Qed.
Lemma plain_read (zl : zenv) fuel block ty : 0 < block -> (0 < fuel)%nat -> forall n rest pos sched x acc nr nb,
  (2 * List.length rest + 2 * List.length x + 1 < n)%nat ->
  fst (read_loop (zl:=zl) raw_ops fuel n None acc (mk_br (mk_raw rest pos sched) block ty None (Some x) None nr nb false None)) = Ok (acc ++ x ++ rest).
Proof.
  intros Hb Hf. induction n as [|n IH]; intros rest pos sched x acc nr nb Hn; [lia|].
  cbn [read_loop]. unfold fillbuff, fill_base, br_empty, buff_empty. cbn [br_ck br_buff br_all].
  destruct x as [|a x].
  - cbn [negb]. unfold rem_length, unused. cbn [br_buff br_dec]. change (0 <? lenZ (@nil N) + lenZ (@nil N)) with false. cbn [br_start br_block br_stream].
    destruct (raw_block rest pos sched block Hb) as (d & rest' & pos' & sched' & E & Ed & Hne). cbn [o_read raw_ops]. rewrite E.
    destruct fuel as [|fuel]; [lia|]. destruct d as [|a d].
    + destruct rest as [|c rest]; [|exfalso; now apply Hne]. cbn. now rewrite app_nil_r.
    + unfold process_read, decompress, set_stream. cbn [is_nil br_dec]. cbn [fill_loop]. unfold fill_cond. st. cbn [is_nil negb andb].
      unfold buff_data. st. cbn [read_of]. rewrite (dropZ_all (lenZ (a :: d)) (a :: d)) by lia.
      st.
      rewrite IH; [now rewrite <- Ed, <- app_assoc|]. rewrite <- Ed in Hn. rewrite app_length in Hn. cbn [List.length] in *. lia.
  - cbn [negb]. unfold buff_data. st. cbn [read_of]. rewrite (dropZ_all (lenZ (a :: x)) (a :: x)) by lia.
    st.
    rewrite IH; [now rewrite <- app_assoc|]. cbn [List.length] in *. lia.
Qed.

Lemma C09_late_refuted_pf :
  forall (zl : zenv) fuel p q rest block sched s,
  zfeed zl (zinit zl Deflate) p = None -> zfeed zl (zinit zl DeflateAlt) p = Some ([], DActive s) -> zfeed zl s q = None ->
  0 < lenZ p <= block -> 0 < lenZ q <= block -> (2 * List.length (p ++ q ++ rest) + 3 < fuel)%nat ->
  let data := p ++ q ++ rest in
  fst (br_read raw_ops fuel None (br_new (zl:=zl) (raw_open data (lenZ p :: lenZ q :: sched)) block (Some Deflate) None false)) = Ok (q ++ rest)
  /\ q ++ rest <> data.
Proof.
intros zl fuel p q rest block sched s Hp Ha Hq Lp Lq Hfu data. split.
2:{ intros E. apply (f_equal lenZ) in E. unfold data in E. rewrite !lenZ_app in E. lia. }
assert (P : exists c p', p = c :: p') by (destruct p; [cbn in Lp; lia|eauto]). destruct P as (c & p' & Ep).
assert (Q : exists c q', q = c :: q') by (destruct q; [cbn in Lq; lia|eauto]). destruct Q as (d & q' & Eq).
unfold br_read. destruct fuel as [|[|[|fuel]]]; [lia|lia|lia|].
set (f := Datatypes.S (Datatypes.S (Datatypes.S fuel))) in *.
replace (read_loop (zl:=zl) raw_ops f f) with (read_loop (zl:=zl) raw_ops f (Datatypes.S (Datatypes.S (Datatypes.S fuel)))) by reflexivity.
set (nn := Datatypes.S (Datatypes.S fuel)).
cbn [read_loop]. unfold fillbuff, fill_base, br_empty, buff_empty, br_new. cbn [br_ck br_buff br_all negb].
unfold rem_length, unused. cbn [br_buff br_dec]. change (0 <? 0 + lenZ (@nil N)) with false. cbn [br_start br_block br_stream].
assert (R1 : raw_read (Some block) (raw_open data (lenZ p :: lenZ q :: sched)) = (Ok p, mk_raw (q ++ rest) (0 + lenZ p) (lenZ q :: sched))).
{ unfold raw_read, raw_open. cbn [rw_rest rw_sched rw_pos]. replace (0 <? block) with true by lia. unfold data. rewrite Ep at 1. cbn [app].
  replace (Z.min block (Z.max 1 (lenZ p))) with (lenZ p) by lia. now rewrite takeZ_app_exact, dropZ_app_exact. }
assert (R2 : raw_read (Some block) (mk_raw (q ++ rest) (0 + lenZ p) (lenZ q :: sched)) = (Ok q, mk_raw rest (0 + lenZ p + lenZ q) sched)).
{ unfold raw_read. cbn [rw_rest rw_sched rw_pos]. replace (0 <? block) with true by lia. rewrite Eq at 1. cbn [app].
  replace (Z.min block (Z.max 1 (lenZ q))) with (lenZ q) by lia. now rewrite takeZ_app_exact, dropZ_app_exact. }
cbn [o_read raw_ops]. rewrite R1.
assert (Np : is_nil p = false) by now rewrite Ep. assert (Nq : is_nil q = false) by now rewrite Eq.
unfold process_read at 1. rewrite Np. unfold decompress at 1. st. rewrite Np. unfold dobj_decompress at 1. rewrite Hp. cbn [br_nblk br_dtype].
cbn [Z.eqb]. unfold dobj_decompress at 1. rewrite Ha.
assert (FL : forall x b, fill_loop (zl:=zl) raw_ops f x b = if fill_cond x b then match raw_read (Some (br_block b)) (br_stream b) with (Ok d0, s') => fill_loop raw_ops (Datatypes.S (Datatypes.S fuel)) d0 (process_read d0 (set_stream s' b)) | (Err e, s') => (Err e, set_stream s' b) end else (Ok tt, b)) by reflexivity.
rewrite FL. cbn [fill_loop]. st. unfold fill_cond at 1. rewrite Np. st.
unfold unused, buff_empty. st. cbn [negb andb is_nil].
rewrite R2. st.
assert (PR : forall B : breader zl raw, br_dec B = Some (DActive s) -> br_nblk B = 0 -> br_dtype B = Some DeflateAlt ->
  process_read (zl:=zl) q B = set_bbuff (Some q) (add_counts (lenZ q) (set_dec None B))).
{ intros B B1 B2 B3. unfold process_read. rewrite Nq. unfold decompress. rewrite B1, Nq. unfold dobj_decompress. rewrite Hq, B2, B3. reflexivity. }
rewrite !PR by reflexivity. st. unfold fill_cond. st. rewrite Nq. cbn [negb andb]. st.
replace (match q with [] => true | _ :: _ => false end) with false by now rewrite Eq.
cbn iota beta.
unfold buff_data. st. cbn [read_of]. rewrite (dropZ_all (lenZ q) q) by lia.
st.
etransitivity; [apply plain_read; [lia|unfold f; lia|]|reflexivity].
rewrite !app_length, Ep, Eq in Hfu. cbn [List.length] in *. unfold f in Hfu; unfold nn; lia.
Qed.
