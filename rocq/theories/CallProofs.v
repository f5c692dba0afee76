(** * CallProofs: programs of calls on LimitReader and BufferedReader *)
From Coq Require Import List ZArith NArith Bool Lia.
From Coq Require Import ZifyBool ZifyNat ZifyN.
From Verif Require Import PyBase Facts Streams StreamSpec StreamProofs BufProofs FillProofs.
Import ListNotations.
Open Scope Z_scope.

(** ** LimitReader: exact underlying stream *)
Lemma lim_mem_like {S} (ops : sops S) R tail : exact_read ops R -> exact_line ops R ->
  mem_like (lim_ops ops) (fun k => nonneg (call_arg k)) (lim_R R tail).
Proof.
  intros HE HL l c k HR Hk. pose proof HR as (_ & Hlim & _). pose proof (lenZ_nonneg c) as Hc0.
  assert (Hread : forall n, 0 <= n -> exists s', lim_read ops (Some n) l = (Ok (takeZ n c), s')
            /\ lim_R R tail s' (dropZ (lenZ (takeZ n c)) c)).
  { intros n Hn. destruct (Z.eq_dec n 0) as [->|Hn0].
    - rewrite lim_read_0 by (unfold lim_len; lia). rewrite takeZ_0, lenZ_nil, dropZ_0 by lia. exists l. now split.
    - destruct (lim_exact_read ops R tail HE l c n HR ltac:(lia)) as (s' & E & HR').
      exists s'. split; [exact E|]. now rewrite dropZ_len_takeZ. }
  assert (Hline : forall n, 0 <= n -> exists s', lim_readline ops (Some n) l = (Ok (takeZ n (take_line c)), s')
            /\ lim_R R tail s' (dropZ (lenZ (takeZ n (take_line c))) c)).
  { intros n Hn. destruct (Z.eq_dec n 0) as [->|Hn0].
    - rewrite lim_readline_0 by (unfold lim_len; lia). rewrite takeZ_0, lenZ_nil, dropZ_0 by lia. exists l. now split.
    - exact (lim_exact_line ops R tail HL l c n HR ltac:(lia)). }
  destruct k as [[n|]|[n|]]; cbn [do_call lim_ops o_read o_readline mem_result call_arg nonneg] in *.
  - unfold read_of. replace (n <? 0) with false by lia. now apply Hread.
  - rewrite lim_read_None. destruct (Hread (lm_limit l) ltac:(lia)) as (s' & E & H).
    rewrite takeZ_all in * by assumption. exists s'. now split.
  - unfold line_of. replace (n <? 0) with false by lia. now apply Hline.
  - rewrite lim_readline_None. destruct (Hline (lm_limit l) ltac:(lia)) as (s' & E & H).
    assert (lenZ (take_line c) <= lm_limit l) as Hle.
    { pose proof (take_drop_line c) as Ht. apply (f_equal lenZ) in Ht. rewrite lenZ_app in Ht.
      pose proof (lenZ_nonneg (drop_line c)). lia. }
    rewrite (takeZ_all _ _ Hle) in E, H. exists s'. now split.
Qed.

(** ** any underlying stream *)
Definition conf_like {S} (ops : sops S) (ok : call -> Prop) (R : S -> bytes -> Prop) : Prop :=
  forall s c k, R s c -> ok k ->
  exists out rest s', do_call ops k s = (Ok out, s') /\ c = out ++ rest /\ R s' rest.

Lemma run_calls_conf {S} (ops : sops S) ok R : conf_like ops ok R -> forall cs s c,
  R s c -> Forall ok cs ->
  exists bs rest s', run_calls ops cs s = (map Ok bs, s') /\ c = concat bs ++ rest /\ R s' rest.
Proof.
  intros HM. induction cs as [|k cs IH]; intros s c HR Hok.
  - exists [], c, s. repeat split; auto.
  - inversion Hok as [|? ? Hk Hcs]; subst. destruct (HM s c k HR Hk) as (out & r1 & s1 & E & -> & HR1).
    destruct (IH _ _ HR1 Hcs) as (bs & rest & s2 & E2 & -> & HR2).
    cbn [run_calls]. rewrite E, E2. exists (out :: bs), rest, s2. cbn. rewrite app_assoc. auto.
Qed.

Lemma lim_conf_like {S} (ops : sops S) R tail : delivers ops R -> line_prefix ops R ->
  conf_like (lim_ops ops) (fun k => nonneg (call_arg k)) (lim_R R tail).
Proof.
  intros HD HL l c k HR Hk. pose proof HR as (_ & Hlim & _). pose proof (lenZ_nonneg c) as Hc0.
  assert (Hread : forall n, 0 <= n -> exists out rest s', lim_read ops (Some n) l = (Ok out, s') /\ c = out ++ rest
            /\ lim_R R tail s' rest).
  { intros n Hn. destruct (Z.eq_dec n 0) as [->|Hn0].
    - rewrite lim_read_0 by (unfold lim_len; lia). exists [], c, l. repeat split; auto; apply HR.
    - destruct (lim_delivers ops R tail HD l c n HR ltac:(lia)) as (out & rest & s' & E & HR' & Ec & _).
      exists out, rest, s'. auto. }
  assert (Hline : forall n, 0 <= n -> exists out rest s', lim_readline ops (Some n) l = (Ok out, s') /\ c = out ++ rest
            /\ lim_R R tail s' rest).
  { intros n Hn. destruct (Z.eq_dec n 0) as [->|Hn0].
    - rewrite lim_readline_0 by (unfold lim_len; lia). exists [], c, l. repeat split; auto; apply HR.
    - destruct (lim_line_prefix ops R tail HL l c n HR ltac:(lia)) as (out & rest & s' & E & HR' & Ec & _).
      exists out, rest, s'. auto. }
  destruct k as [[n|]|[n|]]; cbn [do_call lim_ops o_read o_readline call_arg nonneg] in *.
  - now apply Hread.
  - rewrite lim_read_None. apply Hread. lia.
  - now apply Hline.
  - rewrite lim_readline_None. apply Hline. lia.
Qed.

(** ** draining *)
Lemma drain_ok {S} (ops : sops S) R : delivers ops R -> forall n sizes k s c,
  (forall i, 0 < sizes i) -> R s c -> (List.length c < n)%nat ->
  exists s', drain_reads ops n sizes k s = (Ok c, s') /\ R s' [].
Proof.
  intros HD. induction n as [|n IH]; intros sizes k s c Hs HR Hn; [lia|].
  cbn [drain_reads]. destruct (HD s c (sizes k) HR (Hs k)) as (out & rest & s' & E & HR' & -> & _ & Hnil).
  rewrite E. destruct out as [|x o].
  - exists s'. specialize (Hnil eq_refl). cbn in Hnil. subst rest. now split.
  - rewrite app_length in Hn. cbn in Hn.
    destruct (IH sizes (Datatypes.S k) s' rest Hs HR' ltac:(lia)) as (s2 & E2 & HR2). rewrite E2. exists s2. now split.
Qed.

(** ** BufferedReader with limited readline, on short lines *)
Definition lines_le (M : Z) (c : bytes) : Prop := forall p q, c = p ++ q -> lenZ (take_line q) <= M.

Lemma lines_le_drop M c n : lines_le M c -> lines_le M (dropZ n c).
Proof.
  intros H p q E. apply (H (takeZ n c ++ p) q). rewrite <- app_assoc, <- E. symmetry. apply takeZ_dropZ.
Qed.

Lemma br_mem_like_short {zl S} (ops : sops S) fuel (M : Z) (I : breader zl S -> bytes -> Prop) :
  fill_ok ops fuel M I ->
  mem_like (br_ops ops fuel) (fun k => nonneg (call_arg k)) (fun b c => I b c /\ lines_le M c).
Proof.
  intros FO b c k [HI Hl] Hk.
  assert (exists b', do_call (br_ops ops fuel) k b = (Ok (mem_result k c), b') /\ I b' (dropZ (lenZ (mem_result k c)) c))
    as (b' & E & HI').
  { destruct k as [n|[n|]].
    - now apply (br_mem_like ops fuel M I FO).
    - cbn in Hk. destruct (Z.eq_dec n 0) as [->|Hn]; [now apply (br_mem_like ops fuel M I FO)|].
      cbn [do_call br_ops o_readline mem_result]. unfold line_of. replace (n <? 0) with false by lia.
      apply (br_readline_exact0 ops fuel M I FO); [assumption|lia|].
      specialize (Hl [] c eq_refl). rewrite lenZ_takeZ by lia. lia.
    - now apply (br_mem_like ops fuel M I FO). }
  exists b'. split; [exact E|]. split; [exact HI'|]. now apply lines_le_drop.
Qed.

(** exact raw file *)
Definition raw_RX (T : Z) (fuel : nat) (s : raw) (c : bytes) : Prop := raw_R T fuel s c /\ rw_sched s = [].

Lemma raw_exact_read T fuel : exact_read raw_ops (raw_RX T fuel).
Proof.
  intros s c k [HR Hs] Hk. unfold raw_ops, o_read, raw_read. replace (0 <? k) with true by lia.
  replace (match rw_rest s, rw_sched s with
           | [], sc => (k, sc) | _, [] => (k, []) | _, x :: t => (Z.min k (Z.max 1 x), t) end)
    with (k, @nil Z) by (rewrite Hs; now destruct (rw_rest s)).
  destruct HR as (E & HR). rewrite E. eexists. split; [reflexivity|]. split; [|reflexivity].
  eapply raw_R_step; [exact (conj E HR)|]. symmetry. apply takeZ_dropZ.
Qed.
Lemma raw_exact_lineX T fuel : exact_line raw_ops (raw_RX T fuel).
Proof.
  intros s c k [HR Hs] Hk. destruct (raw_exact_line T fuel s c k HR Hk) as (s' & E & HR').
  exists s'. split; [exact E|]. split; [exact HR'|].
  apply (f_equal snd) in E. cbn in E. subst s'. exact Hs.
Qed.
Lemma raw_deliversX T fuel : delivers raw_ops (raw_RX T fuel).
Proof. apply exact_read_delivers, raw_exact_read. Qed.

Lemma raw_R_open data sched fuel : (List.length data + 3 <= fuel)%nat ->
  raw_R (lenZ data) fuel (raw_open data sched) data.
Proof. intros. unfold raw_R. cbn. auto. Qed.
Lemma raw_RX_open data fuel : (List.length data + 3 <= fuel)%nat ->
  raw_RX (lenZ data) fuel (raw_open data []) data.
Proof. intros. split; [now apply raw_R_open|reflexivity]. Qed.
Lemma raw_R_fuel T fuel s c : raw_R T fuel s c -> (List.length c + 3 <= fuel)%nat.
Proof. intros (_ & _ & H). exact H. Qed.
