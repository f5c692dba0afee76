(** * Thm_Chunk: proofs of the theorems restated in Props_Chunk.v *)
From Coq Require Import String List ZArith NArith Bool Lia.
From Coq Require Import ZifyBool ZifyNat ZifyN.
From Verif Require Import PyBase Headers Streams Loader StreamSpec WriterSpec ChunkSpec Toy.
Import ListNotations.
Open Scope Z_scope.

From Verif Require Import Facts HeaderProofs StreamProofs BufProofs FillProofs CallProofs ChunkProofs.

Lemma plain_br_call calls : nonneg_calls calls -> full_lines calls -> Forall br_call calls.
Proof.
  unfold nonneg_calls, full_lines. rewrite !Forall_forall. intros H1 H2 k Hk.
  specialize (H1 k Hk). specialize (H2 k Hk). destruct k as [n|[n|]]; cbn in *; auto. contradiction.
Qed.

Section Gen.
  Context {zl : zenv} {S : Type} (ops : sops S) (fuel : nat) (R : S -> bytes -> Prop)
          (HX : paired ops R) (HL : short_line ops R)
          (Hfuel : forall s c, R s c -> (List.length c + 3 <= fuel)%nat).
  Lemma ck_calls rexc after (b : breader zl S) c calls :
    CI ops fuel R rexc after b c -> nonneg_calls calls -> full_lines calls ->
    exists b', run_calls (br_ops ops fuel) calls b = (map Ok (fst (mem_calls calls c)), b')
      /\ (exists y, R (br_stream b') (y ++ after))
      /\ exists b2, br_read ops fuel None b' = (Ok (snd (mem_calls calls c)), b2) /\ R (br_stream b2) after.
  Proof.
    intros HC Hc Hl. pose proof (CI_fill_ok (zl:=zl) ops fuel R HX HL Hfuel rexc after) as FO.
    destruct (run_calls_mem _ _ _ (br_mem_like ops fuel 1 _ FO) calls _ _ HC (plain_br_call _ Hc Hl)) as (b' & E & HC').
    exists b'. split; [exact E|]. split; [exact (CI_after ops fuel R _ _ _ _ HC')|].
    destruct (CI_read_end ops fuel R HX HL Hfuel rexc after fuel None [] b' _ HC' I I) as (b2 & E2 & _ & HR2).
    { destruct HC' as [Hf _]. lia. }
    exists b2. now split.
  Qed.

  Lemma CE_calls ks : forall b p, CE (zl:=zl) fuel R b p -> Forall (fun k => 0 <= k) ks -> total ks <= lenZ p ->
    exists b', run_calls (br_ops ops fuel) (map (fun k => CRead (Some k)) ks) b
               = (map Ok (fst (mem_calls (map (fun k => CRead (Some k)) ks) p)), b')
      /\ CE fuel R b' (dropZ (total ks) p).
  Proof.
    induction ks as [|k ks IH]; intros b p HC Hk Ht.
    - exists b. cbn. rewrite dropZ_0 by lia. auto.
    - inversion Hk as [|? ? Hk0 Hks]; subst. cbn [total] in *.
      assert (0 <= total ks) as Hp. { clear -Hks. induction Hks; cbn [total]; lia. }
      destruct HC as [Hf HC']. pose proof (conj Hf HC' : CE fuel R b p) as HC. clear HC'.
      pose proof (CE_read_loop ops fuel R HX HL Hfuel fuel (Some k) [] b p HC Hk0 ltac:(lia)) as Hr. cbn iota in Hr.
      replace (k <=? lenZ p) with true in Hr by lia. destruct Hr as (b1 & E1 & HC1).
      cbn [map run_calls do_call br_ops o_read]. unfold br_read. rewrite E1. cbn [app].
      assert (lenZ (takeZ k p) = k) as El by (rewrite lenZ_takeZ by lia; lia).
      destruct (IH b1 (dropZ k p) HC1 Hks) as (b' & E & HC2).
      { rewrite lenZ_dropZ by lia. lia. }
      fold (br_ops (zl:=zl) ops fuel). rewrite E. exists b'. split.
      + cbn [mem_calls read_of]. replace (k <? 0) with false by lia. rewrite El.
        destruct (mem_calls (map (fun k0 => CRead (Some k0)) ks) (dropZ k p)); reflexivity.
      + rewrite dropZ_dropZ in HC2 by lia. replace (k + total ks) with (total ks + k) by lia. exact HC2.
  Qed.

  Lemma CE_raises b p len : CE (zl:=zl) fuel R b p -> nonneg len ->
    match len with Some k => lenZ p < k | None => True end ->
    exists x, fst (br_read ops fuel len b) = Err (ChunkedExn x).
  Proof.
    intros HC Hl Hk. pose proof HC as [Hf _].
    pose proof (CE_read_loop ops fuel R HX HL Hfuel fuel len [] b p HC Hl ltac:(lia)) as Hr. unfold br_read.
    destruct len as [k|].
    - replace (k <=? lenZ p) with false in Hr by lia. destruct Hr as (x & b' & ->). now exists x.
    - destruct Hr as (x & b' & ->). now exists x.
  Qed.
End Gen.

Lemma file_at s t fuel c : raw_RP t fuel s c -> fst (raw_read None s) = Ok c.
Proof. intros [(<- & _) _]. reflexivity. Qed.

Lemma C11_chunked_pf :
  forall (zl : zenv) (S : Type) (ops : sops S) (R : S -> bytes -> Prop) fuel,
  paired ops R -> short_line ops R -> (forall s c, R s c -> enough fuel c) ->
  forall s w payload after block rexc calls,
  R s (w ++ after) -> chunked_body w payload -> enough fuel payload -> 0 < block ->
  nonneg_calls calls -> full_lines calls ->
  exists b, run_calls (br_ops ops fuel) calls (ckr_new (zl:=zl) s block None rexc)
            = (map Ok (fst (mem_calls calls payload)), b)
    /\ (exists y, R (br_stream b) (y ++ after))
    /\ exists b2, br_read ops fuel None b = (Ok (snd (mem_calls calls payload)), b2) /\ R (br_stream b2) after.
Proof.
  intros zl S ops R fuel HX HL Hf s w payload after block rexc calls HR Hw Hp Hb Hc Hl.
  apply (ck_calls ops fuel R HX HL Hf rexc); try assumption.
  exact (CI_new ops fuel R rexc after s (w ++ after) payload block None HR Hb (yields_body rexc after w payload Hw) Hp).
Qed.

Lemma C11_chunked_file_pf :
  forall (zl : zenv) fuel sched w payload after block rexc calls,
  no_single sched -> chunked_body w payload -> enough fuel (w ++ after) -> enough fuel payload -> 0 < block ->
  nonneg_calls calls -> full_lines calls ->
  exists b, run_calls (br_ops raw_ops fuel) calls (ckr_new (zl:=zl) (raw_open (w ++ after) sched) block None rexc)
            = (map Ok (fst (mem_calls calls payload)), b)
    /\ exists b2, br_read raw_ops fuel None b = (Ok (snd (mem_calls calls payload)), b2)
                  /\ fst (o_read raw_ops None (br_stream b2)) = Ok after.
Proof.
  intros zl fuel sched w payload after block rexc calls Hsc Hw Hf Hp Hb Hc Hl.
  assert (Hfu : forall s c, raw_RP (lenZ (w ++ after)) fuel s c -> enough fuel c).
  { intros s c [H _]. exact (raw_R_fuel _ _ _ _ H). }
  destruct (C11_chunked_pf zl raw raw_ops (raw_RP (lenZ (w ++ after)) fuel) fuel (raw_paired _ _)
     (exact_short_line _ _ (raw_exact_lineP _ _)) Hfu (raw_open (w ++ after) sched) w payload after block rexc calls)
    as (b & E & _ & b2 & E2 & HR2); auto.
  { now apply raw_RP_open. }
  exists b. split; [exact E|]. exists b2. split; [exact E2|]. exact (file_at _ _ _ _ HR2).
Qed.

Lemma C12_cut_returns_prefix_pf :
  forall (zl : zenv) fuel sched w p l n d block calls,
  no_single sched -> chunks w p -> size_line l n -> lenZ d < n -> n <= 2147483648 ->
  enough fuel (w ++ l ++ d) -> enough fuel (p ++ d) -> 0 < block ->
  nonneg_calls calls -> full_lines calls ->
  fst (run_calls (br_ops raw_ops fuel) calls (ckr_new (zl:=zl) (raw_open (w ++ l ++ d) sched) block None false))
  = map Ok (fst (mem_calls calls (p ++ d))).
Proof.
  intros zl fuel sched w p l n d block calls Hsc Hw Hl Hd Hn Hf Hp Hb Hc Hfl.
  pose proof (fun s c (H : raw_RP (lenZ (w ++ l ++ d)) fuel s c) => raw_R_fuel _ _ _ _ (proj1 H)) as Hfu.
  destruct (ck_calls (zl:=zl) raw_ops fuel (raw_RP (lenZ (w ++ l ++ d)) fuel) (raw_paired _ _)
     (exact_short_line _ _ (raw_exact_lineP _ _)) Hfu false [] (ckr_new (raw_open (w ++ l ++ d) sched) block None false) (p ++ d) calls) as (b & E & _); auto.
  2:{ now rewrite E. }
  apply (CI_new raw_ops fuel _ false [] _ (w ++ l ++ d)); auto.
  - now apply raw_RP_open.
  - apply yields_chunks; [assumption|]. apply (y_cut false [] None l n d d None); auto. split; reflexivity.
Qed.

Lemma C12_cut_raises_pf :
  forall (zl : zenv) fuel sched w p l n d block ks len,
  no_single sched -> chunks w p -> size_line l n -> lenZ d < n -> n <= 2147483648 ->
  enough fuel (w ++ l ++ d) -> enough fuel p -> 0 < block ->
  Forall (fun k => 0 <= k) ks -> total ks <= lenZ p ->
  match len with Some k => lenZ p - total ks < k | None => True end ->
  exists b, run_calls (br_ops raw_ops fuel) (map (fun k => CRead (Some k)) ks)
              (ckr_new (zl:=zl) (raw_open (w ++ l ++ d) sched) block None true)
            = (map Ok (fst (mem_calls (map (fun k => CRead (Some k)) ks) p)), b)
    /\ exists x, fst (br_read raw_ops fuel len b) = Err (ChunkedExn x).
Proof.
  intros zl fuel sched w p l n d block ks len Hsc Hw Hl Hd Hn Hf Hp Hb Hk Ht Hlen.
  pose proof (fun s c (H : raw_RP (lenZ (w ++ l ++ d)) fuel s c) => raw_R_fuel _ _ _ _ (proj1 H)) as Hfu.
  pose proof (raw_paired (lenZ (w ++ l ++ d)) fuel) as HX.
  pose proof (exact_short_line _ _ (raw_exact_lineP (lenZ (w ++ l ++ d)) fuel)) as HL.
  assert (HC : CE (zl:=zl) fuel (raw_RP (lenZ (w ++ l ++ d)) fuel) (ckr_new (raw_open (w ++ l ++ d) sched) block None true) p).
  { apply (CE_new fuel _ _ (w ++ l ++ d)); auto.
    - now apply raw_RP_open.
    - rewrite <- (app_nil_r p). apply fails_chunks; [assumption|]. now apply (f_cut None l n d). }
  destruct (CE_calls raw_ops fuel _ HX HL Hfu ks _ _ HC Hk Ht) as (b & E & HC2).
  exists b. split; [exact E|].
  assert (0 <= total ks) as H0. { clear -Hk. induction Hk; cbn [total]; lia. }
  apply (CE_raises raw_ops fuel _ HX HL Hfu b _ len HC2).
  - destruct len as [k|]; [|exact I]. cbn. lia.
  - destruct len as [k|]; [|exact I]. rewrite lenZ_dropZ by lia. lia.
Qed.

Lemma C13_not_chunked_pf :
  forall (zl : zenv) fuel sched data block calls,
  no_single sched -> no_size_line data -> enough fuel data -> 0 < block -> nonneg_calls calls -> full_lines calls ->
  fst (run_calls (br_ops raw_ops fuel) calls (ckr_new (zl:=zl) (raw_open data sched) block None false))
  = map Ok (fst (mem_calls calls data)).
Proof.
  intros zl fuel sched data block calls Hsc Hd Hf Hb Hc Hfl.
  pose proof (fun s c (H : raw_RP (lenZ data) fuel s c) => raw_R_fuel _ _ _ _ (proj1 H)) as Hfu.
  destruct (ck_calls (zl:=zl) raw_ops fuel (raw_RP (lenZ data) fuel) (raw_paired _ _)
     (exact_short_line _ _ (raw_exact_lineP _ _)) Hfu false [] (ckr_new (raw_open data sched) block None false) data calls) as (b & E & _); auto.
  2:{ now rewrite E. }
  apply (CI_new raw_ops fuel _ false [] _ data); auto.
  - now apply raw_RP_open.
  - now apply y_plain.
Qed.

Lemma C13_nothing_before_pf :
  forall (zl : zenv) fuel sched data block len,
  no_single sched -> no_size_line data -> enough fuel data -> (3 <= fuel)%nat -> 0 < block ->
  match len with Some k => 0 < k | None => True end ->
  exists x, fst (br_read raw_ops fuel len (ckr_new (zl:=zl) (raw_open data sched) block None true)) = Err (ChunkedExn x).
Proof.
  intros zl fuel sched data block len Hsc Hd Hf H3 Hb Hk.
  pose proof (fun s c (H : raw_RP (lenZ data) fuel s c) => raw_R_fuel _ _ _ _ (proj1 H)) as Hfu.
  apply (CE_raises raw_ops fuel (raw_RP (lenZ data) fuel) (raw_paired _ _)
           (exact_short_line _ _ (raw_exact_lineP _ _)) Hfu _ []).
  - apply (CE_new fuel _ _ data); auto.
    + now apply raw_RP_open.
    + now apply f_plain.
  - destruct len as [k|]; [|exact I]. cbn. lia.
  - destruct len as [k|]; [|exact I]. cbn. lia.
Qed.

Lemma C14_fallback_refuted_pf :
  exists w p l d t fuel, chunks w p /\ size_line l (lenZ d) /\ takeZ 2 t <> [13; 10]%N
  /\ enough fuel (w ++ l ++ d ++ t)
  /\ fst (br_read raw_ops fuel None (ckr_new (zl:=toy_z) (raw_open (w ++ l ++ d ++ t) []) 16384 None false))
     <> Ok (p ++ l ++ d ++ t).
Proof.
  exists (lit "2" ++ [13;10]%N ++ lit "ab" ++ [13;10]%N), (lit "ab"), (lit "3" ++ [13;10]%N), (lit "cde"), (lit "XYrest"), 60%nat.
  split.
  { apply (chunks_cons (lit "2" ++ [13;10]%N) (lit "ab") [] []); [|discriminate|cbn; lia|constructor].
    exists (lit "2"), []. repeat split; try reflexivity; try (cbn; lia); [apply (hn_one 50%N 2); reflexivity|now left]. }
  split.
  { exists (lit "3"), []. repeat split; try reflexivity; try (cbn; lia); [apply (hn_one 51%N 3); reflexivity|now left]. }
  split; [discriminate|]. split; [unfold enough; cbn; lia|]. vm_compute. discriminate.
Qed.

Lemma C14_fallback_partial_pf :
  forall (zl : zenv) fuel sched w p t block calls,
  no_single sched -> chunks w p -> no_size_line t -> enough fuel (w ++ t) -> enough fuel (p ++ t) -> 0 < block ->
  nonneg_calls calls -> full_lines calls ->
  fst (run_calls (br_ops raw_ops fuel) calls (ckr_new (zl:=zl) (raw_open (w ++ t) sched) block None false))
  = map Ok (fst (mem_calls calls (p ++ t))).
Proof.
  intros zl fuel sched w p t block calls Hsc Hw Ht Hf Hp Hb Hc Hfl.
  pose proof (fun s c (H : raw_RP (lenZ (w ++ t)) fuel s c) => raw_R_fuel _ _ _ _ (proj1 H)) as Hfu.
  destruct (ck_calls (zl:=zl) raw_ops fuel (raw_RP (lenZ (w ++ t)) fuel) (raw_paired _ _)
     (exact_short_line _ _ (raw_exact_lineP _ _)) Hfu false [] (ckr_new (raw_open (w ++ t) sched) block None false) (p ++ t) calls) as (b & E & _); auto.
  2:{ now rewrite E. }
  apply (CI_new raw_ops fuel _ false [] _ (w ++ t)); auto.
  - now apply raw_RP_open.
  - apply yields_chunks; [assumption|]. now apply y_plain.
Qed.

Lemma C14_broken_terminator_partial_pf :
  forall (zl : zenv) fuel sched w p l d t block calls,
  no_single sched -> chunks w p -> size_line l (lenZ d) -> lenZ d <= 2147483648 -> takeZ 2 t <> [13; 10]%N ->
  enough fuel (w ++ l ++ d ++ t) -> enough fuel (p ++ l ++ d ++ dropZ 2 t) -> 0 < block ->
  nonneg_calls calls -> full_lines calls ->
  fst (run_calls (br_ops raw_ops fuel) calls (ckr_new (zl:=zl) (raw_open (w ++ l ++ d ++ t) sched) block None false))
  = map Ok (fst (mem_calls calls (p ++ l ++ d ++ dropZ 2 t))).
Proof.
  intros zl fuel sched w p l d t block calls Hsc Hw Hl Hd Ht Hf Hp Hb Hc Hfl.
  pose proof (fun s c (H : raw_RP (lenZ (w ++ l ++ d ++ t)) fuel s c) => raw_R_fuel _ _ _ _ (proj1 H)) as Hfu.
  destruct (ck_calls (zl:=zl) raw_ops fuel (raw_RP (lenZ (w ++ l ++ d ++ t)) fuel) (raw_paired _ _)
     (exact_short_line _ _ (raw_exact_lineP _ _)) Hfu false [] (ckr_new (raw_open (w ++ l ++ d ++ t) sched) block None false)
     (p ++ l ++ d ++ dropZ 2 t) calls) as (b & E & _); auto.
  2:{ now rewrite E. }
  apply (CI_new raw_ops fuel _ false [] _ (w ++ l ++ d ++ t)); auto.
  - now apply raw_RP_open.
  - apply yields_chunks; [assumption|]. now apply y_broken.
Qed.

Section CS.
  Context {zl : zenv} {S : Type} (ops : sops S) (fuel : nat) (R : S -> bytes -> Prop)
          (HX : paired ops R) (HL : short_line ops R)
          (Hfuel : forall s c, R s c -> (List.length c + 3 <= fuel)%nat).
  (** the record's stream, a LimitReader *)
  Definition rs_R (tail : bytes) (r : rstream S) (c : bytes) : Prop := exists l, r = RSlim l /\ lim_R R tail l c.
  Lemma rs_paired tail : paired (rs_ops ops) (rs_R tail).
  Proof.
    destruct (lim_paired ops R tail HX) as [HD HP]. split.
    - intros r c k (l & -> & HR) Hk. destruct (HD l c k HR Hk) as (out & rest & l' & E & HR' & H).
      cbn [rs_ops o_read rs_read] in *. cbn [lim_ops o_read] in E. rewrite E. exists out, rest, (RSlim l'). split; [reflexivity|]. split; [now exists l'|exact H].
    - intros r c (l & -> & HR). destruct (HP l c HR) as (l' & E & HR').
      cbn [rs_ops o_read rs_read] in *. cbn [lim_ops o_read] in E. rewrite E. exists (RSlim l'). split; [reflexivity|]. now exists l'.
  Qed.
  Lemma rs_short_line tail : short_line (rs_ops ops) (rs_R tail).
  Proof.
    intros r c k (l & -> & HR) Hk. destruct (lim_short_line ops R tail HL l c k HR Hk) as (l' & E & HR').
    cbn [rs_ops o_readline rs_readline] in *. cbn [lim_ops o_readline] in E. rewrite E. exists (RSlim l'). split; [reflexivity|]. now exists l'.
  Qed.
  Lemma rs_fuel tail r c : rs_R tail r c -> (List.length c + 3 <= fuel)%nat.
  Proof. intros (l & -> & HR & _). pose proof (Hfuel _ _ HR) as H. rewrite app_length in H. lia. Qed.
  Lemma rs_new s w after : R s (w ++ after) -> rs_R after (RSlim (lim_new s (lenZ w))) w.
  Proof.
    intros HR. exists (lim_new s (lenZ w)). split; [reflexivity|].
    pose proof (lim_R_new R s (w ++ after) (lenZ w) HR (lenZ_nonneg w)) as H.
    now rewrite takeZ_app_exact, dropZ_app_exact in H.
  Qed.
  Lemma cs_calls (b : breader zl (rstream S)) calls : 
    fst (run_calls (cs_ops ops fuel) calls (CSbuf b)) = fst (run_calls (br_ops (rs_ops ops) fuel) calls b).
  Proof.
    revert b. induction calls as [|k calls IH]; intros b; [reflexivity|].
    destruct k as [n|n]; cbn [run_calls do_call cs_ops o_read o_readline cs_read cs_readline br_ops].
    - destruct (br_read (rs_ops ops) fuel n b) as [[x|e] b']; [|reflexivity].
      specialize (IH b'). fold (cs_ops (zl:=zl) ops fuel). fold (br_ops (zl:=zl) (rs_ops ops) fuel).
      destruct (run_calls (cs_ops ops fuel) calls (CSbuf b')), (run_calls (br_ops (rs_ops ops) fuel) calls b'). cbn in *. now rewrite IH.
    - destruct (br_readline (rs_ops ops) fuel n b) as [[x|e] b']; [|reflexivity].
      specialize (IH b'). fold (cs_ops (zl:=zl) ops fuel). fold (br_ops (zl:=zl) (rs_ops ops) fuel).
      destruct (run_calls (cs_ops ops fuel) calls (CSbuf b')), (run_calls (br_ops (rs_ops ops) fuel) calls b'). cbn in *. now rewrite IH.
  Qed.
  Lemma value_get name h v : value_of name (sh_headers h) = Some v -> get_header name h = Some v /\ sah_bool h = true.
  Proof.
    unfold value_of, get_header, sah_bool. destruct (sh_headers h) as [|x t] eqn:E; [discriminate|].
    intros H. split; [|cbn; now rewrite ?orb_true_r]. revert H. generalize (x :: t). clear. intros l.
    induction l as [|[a b] l IH]; [discriminate|]. cbn [filter hget fst].
    destruct (name_eq a name); [cbn; auto|exact IH].
  Qed.
  Lemma value_none name h : value_of name (sh_headers h) = None -> get_header name h = None.
  Proof.
    unfold value_of, get_header. generalize (sh_headers h). intros l.
    induction l as [|[a b] l IH]; [reflexivity|]. cbn [filter hget fst].
    destruct (name_eq a name); [discriminate|exact IH].
  Qed.
  Lemma BUFF_pos : 0 < BUFF_SIZE. Proof. reflexivity. Qed.
End CS.

Lemma C15_content_stream_pf :
  forall (zl : zenv) (S : Type) (ops : sops S) (R : S -> bytes -> Prop) fuel,
  paired ops R -> short_line ops R -> (forall s c, R s c -> enough fuel c) ->
  forall s w after z payload h calls,
  R s (w ++ after) -> chunked_body w z -> is_member zl z payload ->
  declares h "transfer-encoding" "chunked" -> declares_ci h "content-encoding" "gzip" ->
  enough fuel payload -> nonneg_calls calls -> full_lines calls ->
  fst (run_calls (cs_ops ops fuel) calls (content_stream (zl:=zl) (Some h) (RSlim (lim_new s (lenZ w)))))
  = map Ok (fst (mem_calls calls payload)).
Proof.
  intros zl S ops R fuel HX HL Hf s w after z payload h calls HR Hw Hz Ht (e & He & Ee) Hp Hc Hl.
  destruct (value_get _ _ _ Ht) as [Gt Hbool]. destruct (value_get _ _ _ He) as [Ge _].
  unfold content_stream, content_encoding, is_chunked. rewrite Hbool, Gt, Ge. rewrite leqb_refl.
  destruct e as [|x e]; [discriminate|]. rewrite Ee. change (leqb (lit "gzip") (lit "gzip")) with true. cbn iota.
  rewrite cs_calls.
  destruct (ck_calls (zl:=zl) (rs_ops ops) fuel (rs_R R after) (rs_paired ops R HX after)
     (rs_short_line ops R HL after) (rs_fuel fuel R Hf after) false [] (ckr_new (RSlim (lim_new s (lenZ w))) BUFF_SIZE (Some Gzip) false) payload calls)
    as (b & E & _); auto.
  2:{ now rewrite E. }
  apply (CI_new (rs_ops ops) fuel _ false [] _ w payload BUFF_SIZE (Some Gzip)); auto.
  - now apply rs_new.
  - exact BUFF_pos.
  - rewrite <- (app_nil_r w). exact (yields_zbody false [] w z Gzip payload _ Hw Hz).
Qed.

Lemma C15_chunked_only_pf :
  forall (zl : zenv) (S : Type) (ops : sops S) (R : S -> bytes -> Prop) fuel,
  paired ops R -> short_line ops R -> (forall s c, R s c -> enough fuel c) ->
  forall s w after payload h calls,
  R s (w ++ after) -> chunked_body w payload ->
  declares h "transfer-encoding" "chunked" -> value_of (lit "content-encoding") (sh_headers h) = None ->
  enough fuel payload -> nonneg_calls calls -> full_lines calls ->
  fst (run_calls (cs_ops ops fuel) calls (content_stream (zl:=zl) (Some h) (RSlim (lim_new s (lenZ w)))))
  = map Ok (fst (mem_calls calls payload)).
Proof.
  intros zl S ops R fuel HX HL Hf s w after payload h calls HR Hw Ht He Hp Hc Hl.
  destruct (value_get _ _ _ Ht) as [Gt Hbool]. pose proof (value_none _ _ He) as Ge.
  unfold content_stream, content_encoding, is_chunked. rewrite Hbool, Gt, Ge. rewrite leqb_refl.
  rewrite cs_calls.
  destruct (ck_calls (zl:=zl) (rs_ops ops) fuel (rs_R R after) (rs_paired ops R HX after)
     (rs_short_line ops R HL after) (rs_fuel fuel R Hf after) false [] (ckr_new (RSlim (lim_new s (lenZ w))) BUFF_SIZE None false) payload calls)
    as (b & E & _); auto.
  2:{ now rewrite E. }
  apply (CI_new (rs_ops ops) fuel _ false [] _ w payload BUFF_SIZE None); auto.
  - now apply rs_new.
  - exact BUFF_pos.
  - rewrite <- (app_nil_r w). exact (yields_body false [] w payload Hw).
Qed.

Lemma C15_encoded_only_pf :
  forall (zl : zenv) (S : Type) (ops : sops S) (R : S -> bytes -> Prop) fuel,
  delivers ops R -> (forall s c, R s c -> enough fuel c) ->
  forall s z after t payload h calls,
  R s (z ++ after) -> (exists u, zfeed zl (zinit zl t) z = Some (payload, DDone u)) ->
  (t = Gzip /\ declares_ci h "content-encoding" "gzip" \/ t = Deflate /\ declares_ci h "content-encoding" "deflate") ->
  value_of (lit "transfer-encoding") (sh_headers h) = None ->
  enough fuel payload -> nonneg_calls calls -> full_lines calls ->
  fst (run_calls (cs_ops ops fuel) calls (content_stream (zl:=zl) (Some h) (RSlim (lim_new s (lenZ z)))))
  = map Ok (fst (mem_calls calls payload)).
Proof.
  intros zl S ops R fuel HD Hf s z after t payload h calls HR (u & Hz) Ht Hch Hp Hc Hl.
  assert (Hcs : content_stream (zl:=zl) (Some h) (RSlim (lim_new s (lenZ z)))
                = CSbuf (br_new (RSlim (lim_new s (lenZ z))) BUFF_SIZE (Some t) None false)).
  { pose proof (value_none _ _ Hch) as Gc.
    assert (exists e, value_of (lit "content-encoding") (sh_headers h) = Some e
              /\ (t = Gzip /\ lower e = lit "gzip" \/ t = Deflate /\ lower e = lit "deflate")) as (e & He & Ee).
    { destruct Ht as [(-> & e & He & Ee)|(-> & e & He & Ee)]; exists e; auto. }
    destruct (value_get _ _ _ He) as [Ge Hbool].
    unfold content_stream, content_encoding, is_chunked. rewrite Hbool, Gc, Ge.
    destruct e as [|x e]; [destruct Ee as [[_ Ee]|[_ Ee]]; discriminate|].
    destruct Ee as [[-> Ee]|[-> Ee]]; rewrite Ee; reflexivity. }
  rewrite Hcs, cs_calls.
  assert (HD' : delivers (rs_ops ops) (rs_R R after)).
  { intros r c k (l & -> & HRl) Hk. destruct (lim_delivers ops R after HD l c k HRl Hk) as (out & rest & l' & E & HR' & H').
    cbn [rs_ops o_read rs_read] in *. cbn [lim_ops o_read] in E. rewrite E. exists out, rest, (RSlim l'). split; [reflexivity|]. split; [now exists l'|exact H']. }
  pose proof (rs_fuel fuel R Hf after) as Hfu.
  assert (HB : BI (zl:=zl) (rs_ops ops) fuel (rs_R R after) 1 true (match t with Gzip => true | _ => false end) u
                 (br_new (RSlim (lim_new s (lenZ z))) BUFF_SIZE (Some t) None false) payload).
  { apply (BI_member (rs_ops ops) fuel _ 1 t _ z BUFF_SIZE None payload (DDone u) (rs_new R s z after HR) BUFF_pos Hz);
      [left; lia|exact Hp]. }
  pose proof (BI_fill_ok (zl:=zl) (rs_ops ops) fuel _ HD' Hfu 1 true (match t with Gzip => true | _ => false end) u) as FO.
  destruct (run_calls_mem _ _ _ (br_mem_like (rs_ops ops) fuel 1 _ FO) calls _ _ HB (plain_br_call _ Hc Hl)) as (b' & E & _).
  now rewrite E.
Qed.

Lemma C15_file_pf :
  forall (zl : zenv) fuel w after z payload h block calls,
  chunked_body w z -> is_member zl z payload ->
  declares h "transfer-encoding" "chunked" -> declares_ci h "content-encoding" "gzip" ->
  enough fuel (w ++ after) -> enough fuel payload -> 64 <= block -> nonneg_calls calls -> full_lines calls ->
  fst (run_calls (cs_ops (br_ops raw_ops fuel) fuel) calls
         (content_stream (zl:=zl) (Some h)
            (RSlim (lim_new (br_new (zl:=zl) (raw_open (w ++ after) []) block None None false) (lenZ w)))))
  = map Ok (fst (mem_calls calls payload)).
Proof.
  intros zl fuel w after z payload h block calls Hw Hz Ht He Hf Hp Hb Hc Hl.
  set (data := w ++ after) in *.
  assert (Hfu : forall s c, raw_RX (lenZ data) fuel s c -> (List.length c + 3 <= fuel)%nat).
  { intros s c [H _]. exact (raw_R_fuel _ _ _ _ H). }
  assert (HB : BI (zl:=zl) raw_ops fuel (raw_RX (lenZ data) fuel) block false false [] (br_new (raw_open data []) block None None false) data).
  { apply (BI_plain raw_ops fuel _ block _ data block None None (raw_RX_open data fuel Hf) ltac:(lia)); [right; split; [apply raw_exact_read|lia]|exact I|exact Hf]. }
  pose proof (BI_fill_ok (zl:=zl) raw_ops fuel _ (raw_deliversX (lenZ data) fuel) Hfu block false false []) as FO.
  apply (C15_content_stream_pf zl _ (br_ops raw_ops fuel) _ fuel (exact_paired _ _ (br_exact_read raw_ops fuel block _ FO))
     (br_short_line raw_ops fuel block _ FO Hb) (fo_fuel _ _ _ _ FO) _ w after z); auto.
Qed.

Lemma C66_cut_anywhere_refuted_pf :
  exists w payload cut rest fuel, chunked_body w payload /\ w = cut ++ rest /\ enough fuel cut
  /\ exists out, fst (br_read raw_ops fuel None (ckr_new (zl:=toy_z) (raw_open cut []) 16384 None false)) = Ok out
     /\ ~ exists more, payload = out ++ more.
Proof.
  exists (lit "3" ++ [13;10]%N ++ lit "abc" ++ [13;10]%N ++ lit "0" ++ [13;10]%N ++ [13;10]%N), (lit "abc"),
    (lit "3" ++ [13;10]%N ++ lit "abc" ++ [13]%N), ([10]%N ++ lit "0" ++ [13;10]%N ++ [13;10]%N), 40%nat.
  split.
  { exists (lit "3" ++ [13;10]%N ++ lit "abc" ++ [13;10]%N), (lit "0" ++ [13;10]%N). split; [reflexivity|]. split.
    - apply (chunks_cons (lit "3" ++ [13;10]%N) (lit "abc") [] []); [|discriminate|cbn; lia|constructor].
      exists (lit "3"), []. repeat split; try reflexivity; try (cbn; lia); [apply (hn_one 51%N 3); reflexivity|now left].
    - exists (lit "0"), []. repeat split; try reflexivity; try (cbn; lia); [apply (hn_one 48%N 0); reflexivity|now left]. }
  split; [reflexivity|]. split; [unfold enough; cbn; lia|].
  eexists. split; [vm_compute; reflexivity|]. intros (more & E). discriminate.
Qed.

Lemma size_line_lf l n : size_line l n -> exists a, l = a ++ [13; 10]%N /\ ~ In 10%N a /\ lenZ l <= 64.
Proof.
  intros (hex & ext & -> & Hh & _ & He & Hl). exists (hex ++ ext). rewrite <- app_assoc.
  split; [reflexivity|]. split; [|rewrite !app_assoc in *; assumption].
  rewrite in_app_iff. intros [H|H]; [|contradiction]. clear -Hh H.
  induction Hh; cbn [In app] in H.
  - destruct H as [->|[]]. vm_compute in H0 || vm_compute in H. discriminate.
  - apply in_app_iff in H. destruct H as [H|[->|[]]]; auto. vm_compute in H0. discriminate.
Qed.

Lemma take_line_no_lf t : ~ In 10%N t -> take_line t = t.
Proof.
  induction t as [|x t IH]; [reflexivity|]. intros H. cbn [In] in H. cbn [take_line].
  destruct (N.eqb_spec x LF) as [->|_]; [exfalso; apply H; now left|]. rewrite IH by tauto. reflexivity.
Qed.

Lemma part_no_size_line l n t r : size_line l n -> l = t ++ r -> r <> [] -> no_size_line t.
Proof.
  intros Hl E Hr k. destruct (size_line_lf _ _ Hl) as (a & Ea & Ha & _).
  assert (Ht : ~ In 10%N t).
  { destruct (exists_last Hr) as (r' & x & ->). rewrite Ea in E.
    change ([13;10]%N) with ([13]%N ++ [10]%N) in E. rewrite !app_assoc in E.
    apply app_inj_tail in E. destruct E as (E & _). intros H.
    assert (In 10%N (a ++ [13%N])) as H2 by (rewrite E, in_app_iff; now left).
    rewrite in_app_iff in H2. destruct H2 as [H2|[H2|[]]]; [tauto|discriminate]. }
  unfold head_line. rewrite take_line_no_lf by assumption. intros (body & s & E2 & _).
  apply Ht. rewrite <- (takeZ_dropZ 64 t), E2, !in_app_iff. left. right. right. now left.
Qed.

Lemma cut_lift l d cut good out : size_line l (lenZ d) -> d <> [] -> lenZ d <= 2147483648 ->
  cut_shows cut good out -> cut_shows (l ++ d ++ [13; 10]%N ++ cut) (d ++ good) (d ++ out).
Proof.
  intros Hl Hd Hs H. destruct H as [w p l' t r n Hw H1 H2 H3|w p l' n d' Hw H1 H2 H3|w p l' d' t Hw H1 H2 H3|w p H].
  - replace (l ++ d ++ [13;10]%N ++ w ++ t) with ((l ++ d ++ [13;10]%N ++ w) ++ t) by (now rewrite <- !app_assoc).
    rewrite !(app_assoc d p). eapply cut_in_size_line; eauto. now apply chunks_cons.
  - replace (l ++ d ++ [13;10]%N ++ w ++ l' ++ d') with ((l ++ d ++ [13;10]%N ++ w) ++ l' ++ d') by (now rewrite <- !app_assoc).
    rewrite !(app_assoc d p). eapply cut_in_data; eauto. now apply chunks_cons.
  - replace (l ++ d ++ [13;10]%N ++ w ++ l' ++ d' ++ t) with ((l ++ d ++ [13;10]%N ++ w) ++ l' ++ d' ++ t) by (now rewrite <- !app_assoc).
    rewrite !(app_assoc d p). eapply cut_in_crlf; eauto. now apply chunks_cons.
  - apply cut_nothing. destruct H as (w1 & l0 & -> & Hw & H0).
    exists (l ++ d ++ [13;10]%N ++ w1), l0. split; [now rewrite <- !app_assoc|]. split; [|assumption]. now apply chunks_cons.
Qed.

Lemma cut_line l n cut rest tail : size_line l n -> l ++ tail = cut ++ rest ->
  (exists r, l = cut ++ r /\ r <> []) \/ exists t, cut = l ++ t /\ tail = t ++ rest.
Proof.
  intros Hl E. apply app_eq_app in E. destruct E as (e & [(E1 & E2)|(E1 & E2)]).
  - destruct e as [|x e].
    + right. exists []. rewrite app_nil_r in *. split; [now symmetry|]. now rewrite E2.
    + left. exists (x :: e). split; [assumption|discriminate].
  - right. now exists e.
Qed.

Lemma cut_crlf (d cut rest tail : bytes) : d ++ [13; 10]%N ++ tail = cut ++ rest ->
  (exists r, d = cut ++ r /\ r <> []) \/ (exists t, cut = d ++ t /\ (t = [] \/ t = [13]%N))
  \/ exists t, cut = d ++ [13; 10]%N ++ t /\ tail = t ++ rest.
Proof.
  intros E. apply app_eq_app in E. destruct E as (e & [(E1 & E2)|(E1 & E2)]).
  - destruct e as [|x e].
    + right. left. exists []. rewrite app_nil_r in *. split; [now symmetry|now left].
    + left. exists (x :: e). split; [assumption|discriminate].
  - destruct e as [|x [|y e]].
    + right. left. exists []. split; [assumption|now left].
    + right. left. exists [x]. split; [assumption|]. cbn [app] in E2. injection E2 as <- _. now right.
    + right. right. cbn [app] in E2. injection E2 as <- <- E2. exists e. split; [exact E1|exact E2].
Qed.

Lemma cut_chunks w p : chunks w p -> forall tail cut rest, w ++ tail = cut ++ rest ->
  (exists good out more, p = good ++ more /\ cut_shows cut good out) \/ exists t, cut = w ++ t /\ tail = t ++ rest.
Proof.
  induction 1 as [|l d w p Hl Hd Hs Hw IH]; intros tail cut rest E.
  - right. exists cut. split; [reflexivity|exact E].
  - rewrite <- !app_assoc in E. destruct (cut_line _ _ _ _ _ Hl E) as [(r & E1 & Hr)|(c1 & -> & E1)].
    + left. exists [], cut, (d ++ p). split; [reflexivity|].
      apply (cut_in_size_line [] [] l cut r (lenZ d)); auto using chunks_nil.
    + destruct (cut_crlf _ _ _ _ E1) as [(r & -> & Hr)|[(t & -> & Ht)|(c2 & -> & E2)]].
      * left. exists c1, c1, (r ++ p). split; [now rewrite app_assoc|].
        apply (cut_in_data [] [] l (lenZ (c1 ++ r)) c1); auto using chunks_nil.
        unfold lenZ. rewrite app_length. destruct r; [contradiction|]. cbn [length]. lia.
      * left. exists d, (l ++ d), p. split; [reflexivity|].
        apply (cut_in_crlf [] [] l d t); auto using chunks_nil.
      * destruct (IH _ _ _ E2) as [(g & o & m & -> & H)|(t & -> & E3)].
        { left. exists (d ++ g), (d ++ o), m. split; [now rewrite app_assoc|]. now apply cut_lift. }
        { right. exists t. split; [now rewrite <- !app_assoc|assumption]. }
Qed.

Lemma cut_body w payload cut rest : chunked_body w payload -> w = cut ++ rest ->
  exists good out more, payload = good ++ more /\ cut_shows cut good out.
Proof.
  intros (w1 & l & -> & Hw & Hl) E. rewrite <- ?app_assoc in E.
  destruct (cut_chunks _ _ Hw _ _ _ E) as [H|(t & -> & E2)]; [assumption|].
  destruct (cut_line _ _ _ _ _ Hl E2) as [(r & E1 & Hr)|(c & -> & E1)].
  - exists payload, (payload ++ t), []. rewrite app_nil_r. split; [reflexivity|]. eapply cut_in_size_line; eauto.
  - assert (E3 : [] ++ [13;10]%N ++ [] = c ++ rest) by exact E1.
    destruct (cut_crlf _ _ _ _ E3) as [(r & E4 & Hr)|[(t & -> & Ht)|(c2 & -> & E4)]].
    + destruct c; [|discriminate]. cbn [app] in E4. now subst r.
    + exists payload, (payload ++ l), []. rewrite app_nil_r. split; [reflexivity|].
      pose proof (cut_in_crlf w1 payload l [] t Hw Hl ltac:(cbn; lia) Ht) as H. now rewrite !app_nil_r in H.
    + destruct c2; [|discriminate]. exists payload, payload, []. rewrite app_nil_r. split; [reflexivity|].
      apply cut_nothing. now exists w1, l.
Qed.

Lemma chunks_len w p : chunks w p -> (length p <= length w)%nat.
Proof. induction 1; rewrite ?app_length; cbn [length]; lia. Qed.

Lemma cut_len cut good out : cut_shows cut good out -> (length out <= length cut)%nat.
Proof.
  destruct 1 as [w p l t r n Hw _ _ _|w p l n d Hw _ _ _|w p l d t Hw _ _ _|w p (w1 & l0 & -> & Hw & _)];
    apply chunks_len in Hw; rewrite !app_length; lia.
Qed.

Lemma C66_cut_partial_pf :
  forall (zl : zenv) fuel sched w payload cut rest block,
  no_single sched -> chunked_body w payload -> w = cut ++ rest -> enough fuel cut -> 0 < block ->
  exists good out more, payload = good ++ more /\ cut_shows cut good out
    /\ forall calls, nonneg_calls calls -> full_lines calls ->
       fst (run_calls (br_ops raw_ops fuel) calls (ckr_new (zl:=zl) (raw_open cut sched) block None false))
       = map Ok (fst (mem_calls calls out)).
Proof.
  intros zl fuel sched w payload cut rest block Hsc Hw E Hf Hb.
  destruct (cut_body _ _ _ _ Hw E) as (good & out & more & Ep & H).
  exists good, out, more. split; [assumption|]. split; [assumption|]. intros calls Hc Hl.
  assert (Hfo : enough fuel out) by (apply cut_len in H; unfold enough in *; lia).
  clear Hw E Ep. destruct H as [w0 p l t r n Hw H1 H2 H3|w0 p l n d Hw H1 H2 H3|w0 p l d t Hw H1 H2 H3|w0 p H].
  - apply C14_fallback_partial_pf; auto. eapply part_no_size_line; eauto.
  - eapply C12_cut_returns_prefix_pf; eauto.
  - assert (E : dropZ 2 t = []) by (destruct H3 as [->| ->]; reflexivity).
    rewrite <- (app_nil_r d) at 2. rewrite <- E. apply C14_broken_terminator_partial_pf; auto.
    + destruct H3 as [->| ->]; discriminate.
    + now rewrite E, app_nil_r.
  - destruct (C11_chunked_file_pf zl fuel sched w0 p [] block false calls Hsc H) as (b & E & _); auto.
    + now rewrite app_nil_r.
    + rewrite app_nil_r in E. now rewrite E.
Qed.

Lemma C67_trailers_refuted_pf :
  exists w payload l trailer fuel, chunks w payload /\ size_line l 0 /\ is_nil trailer = false
  /\ enough fuel (w ++ l ++ trailer ++ [13; 10; 13; 10]%N)
  /\ fst (br_read raw_ops fuel None (ckr_new (zl:=toy_z) (raw_open (w ++ l ++ trailer ++ [13; 10; 13; 10]%N) []) 16384 None false))
     <> Ok payload.
Proof.
  exists (lit "3" ++ [13;10]%N ++ lit "abc" ++ [13;10]%N), (lit "abc"), (lit "0" ++ [13;10]%N), (lit "X-Sum: 1"), 60%nat.
  split.
  { apply (chunks_cons (lit "3" ++ [13;10]%N) (lit "abc") [] []); [|discriminate|cbn; lia|constructor].
    exists (lit "3"), []. repeat split; try reflexivity; try (cbn; lia); [apply (hn_one 51%N 3); reflexivity|now left]. }
  split.
  { exists (lit "0"), []. repeat split; try reflexivity; try (cbn; lia); [apply (hn_one 48%N 0); reflexivity|now left]. }
  split; [reflexivity|]. split; [unfold enough; cbn; lia|]. vm_compute. discriminate.
Qed.

Lemma C67_trailers_partial_pf :
  forall (zl : zenv) fuel sched w payload l trailer block calls,
  no_single sched -> chunks w payload -> size_line l 0 -> takeZ 2 trailer <> [13; 10]%N ->
  enough fuel (w ++ l ++ trailer) -> enough fuel (payload ++ l ++ dropZ 2 trailer) -> 0 < block ->
  nonneg_calls calls -> full_lines calls ->
  fst (run_calls (br_ops raw_ops fuel) calls (ckr_new (zl:=zl) (raw_open (w ++ l ++ trailer) sched) block None false))
  = map Ok (fst (mem_calls calls (payload ++ l ++ dropZ 2 trailer))).
Proof.
  intros zl fuel sched w payload l trailer block calls Hsc Hw Hl Ht Hf Hp Hb Hc Hfl.
  exact (C14_broken_terminator_partial_pf zl fuel sched w payload l [] trailer block calls Hsc Hw Hl ltac:(cbn; lia) Ht Hf Hp Hb Hc Hfl).
Qed.

Lemma C68_short_reads_partial_pf :
  forall (zl : zenv) fuel sched w payload after block rexc calls,
  no_single sched -> chunked_body w payload -> enough fuel (w ++ after) -> enough fuel payload -> 0 < block ->
  nonneg_calls calls -> full_lines calls ->
  fst (run_calls (br_ops (lim_ops raw_ops) fuel) calls (ckr_new (zl:=zl) (lim_new (raw_open (w ++ after) sched) (lenZ w)) block None rexc))
  = map Ok (fst (mem_calls calls payload)).
Proof.
  intros zl fuel sched w payload after block rexc calls Hsc Hw Hf Hp Hb Hc Hl.
  set (T := lenZ (w ++ after)).
  assert (Hfu : forall l c, lim_R (raw_RP T fuel) after l c -> enough fuel c).
  { intros l c ([H _] & _). apply raw_R_fuel in H. rewrite app_length in H. unfold enough. lia. }
  destruct (C11_chunked_pf zl _ (lim_ops raw_ops) (lim_R (raw_RP T fuel) after) fuel (lim_paired _ _ _ (raw_paired _ _))
     (lim_short_line _ _ _ (exact_short_line _ _ (raw_exact_lineP _ _))) Hfu (lim_new (raw_open (w ++ after) sched) (lenZ w)) w payload [] block rexc calls)
    as (b & E & _); auto.
  { rewrite app_nil_r. pose proof (lim_R_new (raw_RP T fuel) _ (w ++ after) (lenZ w) (raw_RP_open (w ++ after) sched fuel Hsc Hf) (lenZ_nonneg w)) as H.
    now rewrite takeZ_app_exact, dropZ_app_exact in H. }
  now rewrite E.
Qed.

Lemma C68_short_reads_refuted_pf :
  exists w payload sched fuel, chunked_body w payload /\ enough fuel w
  /\ fst (br_read raw_ops fuel None (ckr_new (zl:=toy_z) (raw_open w sched) 16384 None false)) <> Ok payload.
Proof.
  exists (lit "3" ++ [13;10]%N ++ lit "abc" ++ [13;10]%N ++ lit "0" ++ [13;10]%N ++ [13;10]%N), (lit "abc"), [3; 1], 40%nat.
  split.
  { exists (lit "3" ++ [13;10]%N ++ lit "abc" ++ [13;10]%N), (lit "0" ++ [13;10]%N). split; [reflexivity|]. split.
    - apply (chunks_cons (lit "3" ++ [13;10]%N) (lit "abc") [] []); [|discriminate|cbn; lia|constructor].
      exists (lit "3"), []. repeat split; try reflexivity; try (cbn; lia); [apply (hn_one 51%N 3); reflexivity|now left].
    - exists (lit "0"), []. repeat split; try reflexivity; try (cbn; lia); [apply (hn_one 48%N 0); reflexivity|now left]. }
  split; [unfold enough; cbn; lia|]. vm_compute. discriminate.
Qed.
