(** * Thm_Buffered: proofs of the theorems restated in Props_Buffered.v *)
From Coq Require Import String List ZArith NArith Bool Lia.
From Coq Require Import ZifyBool ZifyNat ZifyN.
From Verif Require Import PyBase Streams StreamSpec Toy.
Import ListNotations.
Open Scope Z_scope.

From Verif Require Import Facts StreamProofs BufProofs FillProofs CallProofs.

Lemma plain_br_call calls : nonneg_calls calls -> full_lines calls -> Forall br_call calls.
Proof.
  unfold nonneg_calls, full_lines. rewrite !Forall_forall. intros H1 H2 k Hk.
  specialize (H1 k Hk). specialize (H2 k Hk). destruct k as [n|[n|]]; cbn in *; auto. contradiction.
Qed.

Lemma C05_buffered_transparent_pf :
  forall (zl : zenv) (S : Type) (ops : sops S) (R : S -> bytes -> Prop) fuel,
  delivers ops R -> (forall s c, R s c -> enough fuel c) ->
  forall s data block calls, R s data -> 0 < block -> nonneg_calls calls -> full_lines calls ->
  fst (run_calls (br_ops ops fuel) calls (br_new (zl:=zl) s block None None false))
  = map Ok (fst (mem_calls calls data)).
Proof.
  intros zl S ops R fuel HD Hf s data block calls HR Hb Hc Hl.
  assert (HB : BI (zl:=zl) ops fuel R 1 false false [] (br_new s block None None false) data).
  { apply (BI_plain ops fuel R 1 s data block None None HR Hb); [left; lia|exact I|apply (Hf _ _ HR)]. }
  destruct (run_calls_mem _ _ _ (br_mem_like ops fuel 1 _ (BI_fill_ok ops fuel R HD Hf 1 false false [])) calls _ _ HB
     (plain_br_call _ Hc Hl)) as (b' & E & _).
  now rewrite E.
Qed.

Lemma C05_buffered_file_pf :
  forall (zl : zenv) fuel data sched block calls,
  enough fuel data -> 0 < block -> nonneg_calls calls -> full_lines calls ->
  fst (run_calls (br_ops raw_ops fuel) calls (br_new (zl:=zl) (raw_open data sched) block None None false))
  = map Ok (fst (mem_calls calls data)).
Proof.
  intros zl fuel data sched block calls Hf Hb Hc Hl.
  apply (C05_buffered_transparent_pf zl raw raw_ops (raw_R (lenZ data) fuel) fuel (raw_delivers _ _)); auto.
  - intros s c H. exact (raw_R_fuel _ _ _ _ H).
  - now apply raw_R_open.
Qed.

Lemma C06_readline_limit_refuted_pf :
  exists data block n fuel, 0 < block /\ 0 <= n /\ enough fuel data
  /\ fst (br_readline raw_ops fuel (Some n) (br_new (zl:=toy_z) (raw_open data []) block None None false))
     <> Ok (line_of (Some n) data).
Proof.
  exists (lit "abcdefghijkl"), 4, 12, 40%nat. repeat split; try lia; [unfold enough; cbn; lia|]. vm_compute. discriminate.
Qed.

Lemma C06_readline_limit_prefix_partial_pf :
  forall (zl : zenv) fuel data sched block calls n b,
  enough fuel data -> 0 < block -> nonneg_calls calls -> full_lines calls -> 0 < n ->
  snd (run_calls (br_ops raw_ops fuel) calls (br_new (zl:=zl) (raw_open data sched) block None None false)) = b ->
  let rest := snd (mem_calls calls data) in
  exists out more b', br_readline raw_ops fuel (Some n) b = (Ok out, b')
    /\ line_of (Some n) rest = out ++ more
    /\ (out = [] -> rest = [])
    /\ br_read raw_ops fuel None b' = (Ok (dropZ (lenZ out) rest), snd (br_read raw_ops fuel None b')).
Proof.
  intros zl fuel data sched block calls n b Hf Hb Hc Hl Hn Eb rest.
  pose proof (fun s c => raw_R_fuel (lenZ data) fuel s c) as Hfu.
  assert (HB : BI (zl:=zl) raw_ops fuel (raw_R (lenZ data) fuel) 1 false false [] (br_new (raw_open data sched) block None None false) data).
  { apply (BI_plain raw_ops fuel _ 1 _ data block None None (raw_R_open data sched fuel Hf) Hb); [left; lia|exact I|exact Hf]. }
  pose proof (BI_fill_ok (zl:=zl) raw_ops fuel _ (raw_delivers (lenZ data) fuel) Hfu 1 false false []) as FO.
  destruct (run_calls_mem _ _ _ (br_mem_like raw_ops fuel 1 _ FO) calls _ _ HB (plain_br_call _ Hc Hl)) as (b0 & E & HB0).
  rewrite E in Eb. cbn in Eb. subst b0.
  destruct (br_readline_prefix raw_ops fuel 1 _ FO b _ n HB0 Hn) as (out & rst & b' & E1 & HB' & Ec & Hnil & more & Hm).
  exists out, more, b'. fold rest in Ec, Hnil, Hm. split; [exact E1|]. split.
  { unfold line_of. now replace (n <? 0) with false by lia. }
  split; [exact Hnil|].
  destruct (br_read_ok raw_ops fuel 1 _ FO None b' rst HB' I) as (b2 & E2 & _). rewrite E2. cbn.
  rewrite Ec, dropZ_app_exact. reflexivity.
Qed.

Lemma C06_readline_limit_partial_pf :
  forall (zl : zenv) fuel data block calls,
  enough fuel data -> 0 < block -> nonneg_calls calls ->
  (forall p q, data = p ++ q -> lenZ (take_line q) <= block) ->
  fst (run_calls (br_ops raw_ops fuel) calls (br_new (zl:=zl) (raw_open data []) block None None false))
  = map Ok (fst (mem_calls calls data)).
Proof.
  intros zl fuel data block calls Hf Hb Hc Hlines.
  assert (Hfu : forall s c, raw_RX (lenZ data) fuel s c -> (List.length c + 3 <= fuel)%nat).
  { intros s c [H _]. exact (raw_R_fuel _ _ _ _ H). }
  assert (HB : BI (zl:=zl) raw_ops fuel (raw_RX (lenZ data) fuel) block false false [] (br_new (raw_open data []) block None None false) data).
  { apply (BI_plain raw_ops fuel _ block _ data block None None (raw_RX_open data fuel Hf) Hb); [right; split; [apply raw_exact_read|lia]|exact I|exact Hf]. }
  pose proof (BI_fill_ok (zl:=zl) raw_ops fuel _ (raw_deliversX (lenZ data) fuel) Hfu block false false []) as FO.
  destruct (run_calls_mem _ _ _ (br_mem_like_short raw_ops fuel block _ FO) calls _ _ (conj HB Hlines) Hc) as (b0 & E & _).
  now rewrite E.
Qed.

Lemma C07_gzip_member_pf :
  forall (zl : zenv) fuel m out after sched block calls,
  is_member zl m out -> enough fuel (m ++ after) -> enough fuel out -> 0 < block ->
  nonneg_calls calls -> full_lines calls ->
  exists b, run_calls (br_ops raw_ops fuel) calls (dbr_new (zl:=zl) (raw_open (m ++ after) sched) block None false)
            = (map Ok (fst (mem_calls calls out)), b)
    /\ (snd (mem_calls calls out) = [] -> exists b1, br_read raw_ops fuel (Some 1) b = (Ok [], b1)
          /\ fst (read_next_member b1) = negb (is_nil after)).
Proof.
  intros zl fuel m out after sched block calls Hm Hf Ho Hb Hc Hl.
  pose proof (fun s c => raw_R_fuel (lenZ (m ++ after)) fuel s c) as Hfu.
  pose proof (raw_delivers (lenZ (m ++ after)) fuel) as HD.
  assert (HB : BI (zl:=zl) raw_ops fuel (raw_R (lenZ (m ++ after)) fuel) 1 true true after (dbr_new (raw_open (m ++ after) sched) block None false) out).
  { apply (BI_member raw_ops fuel _ 1 Gzip _ (m ++ after) block None out (DDone after) (raw_R_open _ sched fuel Hf) Hb);
    [exact (zfeed_app_done zl m _ after out [] Hm)|left; lia|exact Ho]. }
  pose proof (BI_fill_ok (zl:=zl) raw_ops fuel _ HD Hfu 1 true true after) as FO.
  destruct (run_calls_mem _ _ _ (br_mem_like raw_ops fuel 1 _ FO) calls _ _ HB (plain_br_call _ Hc Hl)) as (b0 & E & HB0).
  exists b0. split; [exact E|]. intros E0. rewrite E0 in HB0.
  destruct (br_read_end raw_ops fuel _ HD Hfu 1 true true after (Some 1) b0 [] HB0 ltac:(cbn; lia) ltac:(cbn; lia)) as (b1 & E1 & _ & He).
  exists b1. split; [exact E1|]. exact (next_member_iff _ _ _ He).
Qed.

Lemma C07_all_members_pf :
  forall (zl : zenv) fuel ms sched block n,
  ms <> [] -> Forall (fun m => is_member zl (fst m) (snd m) /\ enough fuel (snd m)) ms ->
  enough fuel (concat (map fst ms)) -> 0 < block -> (List.length ms <= n)%nat ->
  member_contents raw_ops fuel n (dbr_new (zl:=zl) (raw_open (concat (map fst ms)) sched) block None false)
  = map (fun m => Ok (snd m)) ms.
Proof.
  intros zl fuel ms sched block n Hne Hms Hf Hb Hn.
  set (data := concat (map fst ms)) in *.
  pose proof (fun s c => raw_R_fuel (lenZ data) fuel s c) as Hfu.
  pose proof (raw_delivers (lenZ data) fuel) as HD.
  assert (Hgen : forall ms n b, (List.length ms < n)%nat ->
    Forall (fun m => is_member zl (fst m) (snd m) /\ enough fuel (snd m)) ms ->
    forall out, BI (zl:=zl) raw_ops fuel (raw_R (lenZ data) fuel) 1 true true (concat (map fst ms)) b out ->
    member_contents raw_ops fuel n b = Ok out :: map (fun m => Ok (snd m)) ms).
  { intros ms0; induction ms0 as [|[m o] ms0 IH]; intros n0 b Hn0 Hms0 out HB; (destruct n0 as [|n0]; [cbn in Hn0; lia|]); cbn [member_contents].
    - destruct (br_read_end raw_ops fuel _ HD Hfu 1 true true _ None b out HB I I) as (b1 & -> & HB1 & He).
      pose proof (next_member_iff _ _ _ He) as Hm. destruct (read_next_member b1) as [more b2]. cbn in Hm. subst more. reflexivity.
    - destruct (br_read_end raw_ops fuel _ HD Hfu 1 true true _ None b out HB I I) as (b1 & -> & HB1 & He).
      inversion Hms0 as [|? ? [Hm Ho] Hms0']; subst. cbn [map concat fst snd] in *.
      destruct (next_member raw_ops fuel (raw_R (lenZ data) fuel) 1 true _ b1 o (DDone (concat (map fst ms0))) HB1 He) as (b2 & -> & HB2 & _).
      + intros E. apply app_eq_nil in E as [-> _]. discriminate.
      + exact (zfeed_app_done zl m _ _ o [] Hm).
      + left. lia.
      + exact Ho.
      + cbn [map]. f_equal. cbn [dun] in HB2. apply (IH n0 b2); [cbn in Hn0; lia|assumption|exact HB2]. }
  destruct ms as [|[m o] ms]; [contradiction|]. inversion Hms as [|? ? [Hm Ho] Hms']; subst. cbn [map fst snd] in *.
  apply Hgen; [exact Hn|assumption|].
  apply (BI_member raw_ops fuel _ 1 Gzip _ data block None o (DDone (concat (map fst ms))) (raw_R_open _ sched fuel Hf) Hb);
    [exact (zfeed_app_done zl m _ _ o [] Hm)|left; lia|exact Ho].
Qed.

Lemma C08_passthrough_partial_pf :
  forall (zl : zenv) fuel a b t sched block calls,
  gz_magic zl -> (a, b) <> (31%N, 139%N) ->
  let data := a :: b :: t in
  enough fuel data -> 2 <= block -> (match sched with [] => True | k :: _ => 2 <= k end) ->
  nonneg_calls calls -> full_lines calls ->
  fst (run_calls (br_ops raw_ops fuel) calls (dbr_new (zl:=zl) (raw_open data sched) block None false))
  = map Ok (fst (mem_calls calls data)).
Proof.
  intros zl fuel a b t sched block calls [_ Hz] Hab data Hf Hb Hs Hc Hl.
  pose proof (fun s c => raw_R_fuel (lenZ data) fuel s c) as Hfu.
  pose proof (raw_delivers (lenZ data) fuel) as HD.
  assert (HB : BI (zl:=zl) raw_ops fuel (raw_R (lenZ data) fuel) 1 false true [] (dbr_new (raw_open data sched) block None false) data).
  { apply (BI_detect raw_ops fuel _ HD 1 false Gzip _ data block [a; b] t data []); auto.
    - now apply raw_R_open.
    - lia.
    - intros d s' E. cbn [o_read raw_ops] in E. unfold raw_read in E. replace (0 <? block) with true in E by lia.
      cbn [raw_open rw_sched rw_rest] in E.
      assert (Hdl : 2 <= lenZ data) by (unfold data; rewrite !lenZ_cons; pose proof (lenZ_nonneg t); lia).
      change (lenZ [a; b]) with 2. clear - E Hdl Hs Hb.
      unfold data in E at 1. cbn beta iota in E. clearbody data.
      destruct sched as [|k ks]; apply (f_equal fst) in E; cbn [fst] in E; injection E as E; rewrite <- E, lenZ_takeZ by lia; lia.
    - right. repeat split; auto. discriminate.
    - left. lia. }
  destruct (run_calls_mem _ _ _ (br_mem_like raw_ops fuel 1 _ (BI_fill_ok (zl:=zl) raw_ops fuel _ HD Hfu 1 false true [])) calls _ _ HB (plain_br_call _ Hc Hl)) as (b0 & E & _).
  now rewrite E.
Qed.

Lemma toy_gz_magic_pf : gz_magic toy_z.
Proof.
  split.
  - intros a. cbn. destruct (N.eqb a 31); eexists; reflexivity.
  - intros a b H. change (match toy_step TG0 a with
      | ZErr => None | ZEnd out => Some (out, DDone [b])
      | ZMore s' out => match zfeed toy_z s' [b] with Some (o, d) => Some (out ++ o, d) | None => None end end = None).
    unfold toy_step. destruct (N.eqb_spec a 31) as [->|Ha]; [|reflexivity].
    change (match (match (if (b =? 139)%N then ZMore TB [] else ZErr) with
      | ZErr => None | ZEnd out => Some (out, DDone [])
      | ZMore s' out => Some (out ++ [], DActive s') end) with Some (o, d) => Some ([] ++ o, d) | None => None end = @None (bytes * dobj toyst)).
    destruct (N.eqb_spec b 139) as [->|Hb]; [congruence|reflexivity].
Qed.

Lemma C08_passthrough_refuted_pf :
  forall (zl : zenv), gz_magic zl ->
  exists data sched block fuel, 0 < block /\ enough fuel data /\
   (exists a b t, data = a :: b :: t /\ (a, b) <> (31%N, 139%N)) /\
   fst (br_read raw_ops fuel None (dbr_new (zl:=zl) (raw_open data sched) block None false)) <> Ok data.
Proof.
  intros zl [H1 H2]. exists (lit "ab"), [1], 8, 5%nat. split; [lia|]. split; [unfold enough; cbn; lia|].
  split; [exists 97%N, 98%N, []; split; [reflexivity|congruence]|].
  destruct (H1 97%N) as (s & E1).
  assert (E2 : zfeed zl s [98%N] = None).
  { specialize (H2 97%N 98%N ltac:(congruence)). change [97%N; 98%N] with ([97%N] ++ [98%N]) in H2.
    rewrite (zfeed_app_active zl [97%N] _ [98%N] _ _ E1) in H2. destruct (zfeed zl s [98%N]) as [[p f]|]; [discriminate|reflexivity]. }
  unfold br_read. cbn -[zfeed]. rewrite E1. cbn -[zfeed]. rewrite E2. cbn -[zfeed]. discriminate.
Qed.

Lemma C09_deflate_pf :
  forall (zl : zenv) fuel data sched block calls,
  enough fuel data -> 0 < block -> nonneg_calls calls -> full_lines calls ->
  let run := fst (run_calls (br_ops raw_ops fuel) calls
                    (br_new (zl:=zl) (raw_open data sched) block (Some Deflate) None false)) in
  let first_read := fst (o_read raw_ops (Some block) (raw_open data sched)) in
  (forall out fin, zfeed zl (zinit zl Deflate) data = Some (out, fin) -> enough fuel out ->
     run = map Ok (fst (mem_calls calls out)))
  /\ (forall p q out fin, data = p ++ q -> zfeed zl (zinit zl Deflate) p = None ->
        (forall d, first_read = Ok d -> lenZ p <= lenZ d) ->
        zfeed zl (zinit zl DeflateAlt) data = Some (out, fin) -> enough fuel out ->
        run = map Ok (fst (mem_calls calls out)))
  /\ (forall p q, data = p ++ q -> zfeed zl (zinit zl Deflate) p = None -> zfeed zl (zinit zl DeflateAlt) p = None ->
        (forall d, first_read = Ok d -> lenZ p <= lenZ d) ->
        run = map Ok (fst (mem_calls calls data))).
Proof.
  intros zl fuel data sched block calls Hf Hb Hc Hl run first_read.
  pose proof (fun s c => raw_R_fuel (lenZ data) fuel s c) as Hfu.
  pose proof (raw_delivers (lenZ data) fuel) as HD.
  pose proof (raw_R_open data sched fuel Hf) as HR.
  assert (Hrun : forall gz g after out,
     BI (zl:=zl) raw_ops fuel (raw_R (lenZ data) fuel) 1 gz g after (br_new (raw_open data sched) block (Some Deflate) None false) out ->
     run = map Ok (fst (mem_calls calls out))).
  { intros gz g after out HB.
    destruct (run_calls_mem _ _ _ (br_mem_like raw_ops fuel 1 _ (BI_fill_ok (zl:=zl) raw_ops fuel _ HD Hfu 1 gz g after)) calls _ _ HB (plain_br_call _ Hc Hl)) as (b0 & E & _).
    unfold run. now rewrite E. }
  assert (Hfirst : forall p : bytes, (forall d, first_read = Ok d -> lenZ p <= lenZ d) ->
     forall d s', o_read raw_ops (Some block) (raw_open data sched) = (Ok d, s') -> lenZ p <= lenZ d).
  { intros p H d s' E. apply H. unfold first_read. now rewrite E. }
  split; [|split].
  - intros out fin Hz Ho. apply (Hrun true false (dun fin)).
    apply (BI_member raw_ops fuel _ 1 Deflate _ data block None out fin HR Hb); [exact Hz|left; lia|exact Ho].
  - intros p q out fin Ed Hp Hfr Hz Ho. apply (Hrun true false (dun fin)).
    apply (BI_detect raw_ops fuel _ HD 1 true Deflate _ data block p q out (dun fin)); eauto.
    + left. repeat split. eauto.
    + left. lia.
  - intros p q Ed Hp Hp2 Hfr. apply (Hrun false false []).
    exists data, data. split; [exact HR|]. split.
    { right. split; [reflexivity|]. split.
      - intros d (s' & E & Hd). change (o_read raw_ops (Some block) (raw_open data sched) = (Ok d, s')) in E. exists Deflate. cbn. repeat (split; [reflexivity|]).
        specialize (Hfirst p Hfr d s' E).
        destruct (HD _ _ _ HR Hb) as (d' & rest & s2 & E2 & _ & Ec2 & _). rewrite E in E2. injection E2 as <- <-.
        assert (exists r, d = p ++ r) as (r & ->).
        { exists (dropZ (lenZ p) d). rewrite <- (takeZ_dropZ (lenZ p) d) at 1. f_equal.
          rewrite <- (takeZ_app_le _ d rest) by assumption. rewrite <- Ec2, Ed. apply takeZ_app_exact. }
        split; [now apply zfeed_None_app|]. right. repeat split. intros _. now apply zfeed_None_app.
      - intros E0. cbn in E0. rewrite E0 in Ed. symmetry in Ed. apply app_eq_nil in Ed as [-> _]. discriminate. }
    split; [reflexivity|]. split; [split; [reflexivity|exact I|exact Hb]|].
    split; [contradiction|]. split; [discriminate|]. split; [exact Hf|split; [apply Z.le_refl|left; apply Z.le_refl]].
Qed.
