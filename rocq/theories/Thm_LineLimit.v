(** * Thm_LineLimit: proofs of the theorems restated in Props_LineLimit.v *)
From Coq Require Import String List ZArith NArith Bool.
From Verif Require Import PyBase Streams StreamSpec Toy.
Import ListNotations.
Open Scope Z_scope.

From Coq Require Import Lia ZifyBool ZifyNat ZifyN.
From Verif Require Import Facts StreamProofs.

Lemma no_lf_line l : ~ In LF l -> take_line l = l.
Proof. induction l as [|c l IH]; intros H; [reflexivity|]. cbn [take_line]. destruct (c =? LF)%N eqn:E; [apply N.eqb_eq in E; subst; destruct H; now left|]. rewrite IH; [reflexivity|]. intros X. apply H. now right. Qed.
Lemma no_lf_end l : ~ In LF l -> ends_lf l = false.
Proof.
  intros H. unfold ends_lf, endswith. destruct (rev l) as [|c t] eqn:E; [reflexivity|]. cbn [rev app startswith]. destruct (LF =? c)%N eqn:Ec; [|reflexivity].
  apply N.eqb_eq in Ec. subst c. destruct H. apply in_rev. rewrite E. now left.
Qed.
Lemma in_takeZ (c : N) n l : In c (takeZ n l) -> In c l. Proof. intros H. rewrite <- (takeZ_dropZ n l). apply in_or_app. now left. Qed.
Lemma in_dropZ (c : N) n l : In c (dropZ n l) -> In c l. Proof. intros H. rewrite <- (takeZ_dropZ n l). apply in_or_app. now right. Qed.

(** a plain reader with nothing buffered over a file with the rest [q] *)
Definition plain {zl} (B : Z) (q : bytes) (b : breader zl raw) : Prop :=
  br_block b = B /\ br_dec b = None /\ (br_start b = None) /\ br_all b = false /\ br_ck b = None /\ buff_empty b = true
  /\ rw_rest (br_stream b) = q /\ rw_sched (br_stream b) = [].
Lemma fill_plain {zl} fuel B q (b : breader zl raw) : (1 <= fuel)%nat -> 0 < B -> q <> [] -> plain B q b ->
  exists b', fillbuff raw_ops fuel b = (Ok tt, b') /\ br_empty b' = (false, b') /\ buff_data b' = takeZ B q /\ forall x, lenZ x = 0 -> plain B (dropZ B q) (set_bbuff (Some x) b').
Proof.
  intros Hf HB Hq (H1 & H2 & H3 & H4 & H5 & H6 & H7 & H8). destruct b as [[r p s] bl ty d bu st n nb al ck]. cbn in *. subst.
  unfold fillbuff. cbn [br_ck]. unfold fill_base, br_empty. rewrite H6. cbn [br_all negb br_start br_block br_stream].
  unfold rem_length, unused. cbn [br_buff br_dec].
  assert (E : match bu with Some x => lenZ x | None => 0 end = 0) by (unfold buff_empty in H6; cbn in H6; destruct bu as [[|? ?]|]; [reflexivity|discriminate|reflexivity]). rewrite E. change (0 <? 0 + lenZ []) with false. cbn iota.
  unfold raw_ops. cbn [o_read]. unfold raw_read. cbn [rw_rest rw_sched rw_pos]. replace (0 <? B) with true by lia. destruct q as [|c r]; [contradiction|].
  set (q := c :: r) in *. assert (NN : is_nil (takeZ B q) = false). { destruct (takeZ B q) eqn:E2; [|reflexivity]. apply (f_equal lenZ) in E2. rewrite lenZ_takeZ in E2 by lia. unfold q in E2. rewrite lenZ_cons in E2. pose proof (lenZ_nonneg r). change (lenZ []) with 0 in E2. lia. }
  unfold process_read. rewrite NN. unfold decompress. cbn [set_stream br_dec]. destruct fuel as [|f]; [lia|]. cbn [fill_loop]. unfold fill_cond. cbn [br_dec set_bbuff add_counts]. rewrite andb_false_r. cbn [andb].
  eexists. split; [reflexivity|]. unfold buff_empty. cbn [br_buff]. destruct (takeZ B q) as [|y t] eqn:E2; [discriminate|]. rewrite <- E2 in *. split; [rewrite E2; reflexivity|]. split; [reflexivity|].
  intros x Hx. apply lenZ_0 in Hx. subst x. repeat split.
Qed.
Lemma loop_plain {zl} fuel B n m : (1 <= fuel)%nat -> 0 < B -> 0 < n -> 2 <= m -> B * (m - 1) * m < 2 * n <= B * m * (m + 1) ->
  forall N i k q line (b : breader zl raw), (Z.to_nat (m - i) < N)%nat -> 1 <= i < m -> 2 * k = 2 * n - B * i * (i - 1) -> ~ In LF line -> ~ In LF q -> lenZ line = i * B -> n - i * B <= lenZ q -> plain B q b ->
  fst (line_loop raw_ops fuel N (Some k) line b) = Ok (line ++ takeZ (Z.min (m * B) ((m - 1) * B + (k - i * B) - (B * (m - 1) * m - B * i * (i + 1)) / 2) - i * B) q).
Proof.
  intros Hf HB Hn Hm HT. induction N as [|N IH]; intros i k q line b HN Hi Hk L1 L2 Hl Hq Hp; [lia|]. cbn [line_loop]. rewrite (no_lf_end line L1).
  assert (G : B * i * (i + 1) <= B * (m - 1) * m) by nia. replace (k =? 0) with false by nia. replace (k - lenZ line <=? 0) with false by nia.
  assert (Q : 0 < lenZ q) by nia. destruct (fill_plain fuel B q b Hf HB) as (b1 & F1 & F2 & F3 & F4); [intros ->; now cbn in Q|exact Hp|].
  rewrite F1, F2. unfold buff_line. rewrite F3. assert (N1 : ~ In LF (takeZ B q)) by (intros X; apply L2; now apply in_takeZ in X).
  unfold line_of. replace (k - lenZ line <? 0) with false by nia. rewrite (no_lf_line _ N1), takeZ_takeZ. set (k1 := k - lenZ line) in *.
  destruct (Z.eq_dec (i + 1) m) as [Em|Em].
  - (* the last piece *)
    assert (P : lenZ (takeZ (Z.min k1 B) q) = Z.min k1 B) by (rewrite lenZ_takeZ by nia; nia).
    destruct N as [|N']; [lia|]. cbn [line_loop]. rewrite no_lf_end by (intros X; apply in_app_or in X as [X|X]; [now apply L1|apply in_takeZ in X; now apply L2]).
    replace (k1 =? 0) with false by nia. rewrite lenZ_app, P. replace (k1 - (lenZ line + Z.min k1 B) <=? 0) with true by nia. cbn [fst]. do 3 f_equal.
    subst m. replace (B * (i + 1 - 1) * (i + 1) - B * i * (i + 1)) with 0 by ring. change (0 / 2) with 0. unfold k1. rewrite Hl. lia.
  - assert (G2 : B * (i + 1) * (i + 2) <= B * (m - 1) * m) by nia. assert (K : B < k1) by (unfold k1; nia). replace (Z.min k1 B) with B by lia.
    assert (P : lenZ (takeZ B q) = B) by (rewrite lenZ_takeZ by lia; nia).
    assert (D : dropZ (lenZ (takeZ B q)) (takeZ B q) = []) by now apply dropZ_all. rewrite D.
    rewrite (IH (i + 1) k1 (dropZ B q)).
    + rewrite <- app_assoc. do 2 f_equal. set (T := (B * (m - 1) * m - B * (i + 1) * (i + 1 + 1)) / 2).
      assert (ET : (B * (m - 1) * m - B * i * (i + 1)) / 2 = T + B * (i + 1)). { unfold T. replace (B * (m - 1) * m - B * i * (i + 1)) with (B * (m - 1) * m - B * (i + 1) * (i + 1 + 1) + B * (i + 1) * 2) by ring. now rewrite Z.div_add by lia. }
      rewrite ET. set (X := Z.min (m * B) ((m - 1) * B + (k1 - (i + 1) * B) - T)).
      replace (Z.min (m * B) ((m - 1) * B + (k - i * B) - (T + B * (i + 1))) - i * B) with (B + (X - (i + 1) * B)) by (unfold X, k1; rewrite Hl; lia).
      assert (T0 : 2 * T <= B * (m - 1) * m - B * (i + 1) * (i + 1 + 1)) by (unfold T; apply Z.mul_div_le; lia).
      assert (X0 : 0 <= X - (i + 1) * B) by (unfold X, k1; nia).
      rewrite <- (takeZ_dropZ B q) at 3. rewrite takeZ_app_ge by lia. rewrite P. do 2 f_equal. lia.
    + lia.
    + lia.
    + unfold k1. rewrite Hl. nia.
    + intros X. apply in_app_or in X as [X|X]; [now apply L1|]. now apply N1.
    + intros X. apply in_dropZ in X. now apply L2.
    + rewrite lenZ_app, P, Hl. lia.
    + rewrite lenZ_dropZ by lia. nia.
    + now apply F4.
Qed.

Lemma C06_exact_refuted_pf :
  forall (zl : zenv) fuel data B n m, enough fuel data -> 0 < B -> 0 < n <= lenZ data -> ~ In LF data ->
  1 <= m -> B * (m - 1) * m < 2 * n <= B * m * (m + 1) ->
  let got := Z.min (m * B) ((m - 1) * B + n - B * (m - 1) * m / 2) in
  fst (br_readline raw_ops fuel (Some n) (br_new (zl:=zl) (raw_open data []) B None None false)) = Ok (takeZ got data)
  /\ (2 * B < n -> got < n).
Proof.
intros zl fuel data B n m Hf HB Hn HL Hm HT got. unfold enough in Hf. split.
- unfold br_readline. replace (n =? 0) with false by lia. set (b0 := br_new (raw_open data []) B None None false).
  assert (P0 : plain B data b0) by (repeat split).
  destruct (fill_plain fuel B data b0) as (b1 & F1 & F2 & F3 & F4); [lia|exact HB|intros ->; cbn in Hn; lia|exact P0|]. rewrite F1, F2. unfold buff_line. rewrite F3.
  assert (N1 : ~ In LF (takeZ B data)) by (intros X; apply HL; now apply in_takeZ in X). unfold line_of. replace (n <? 0) with false by lia. rewrite (no_lf_line _ N1), takeZ_takeZ.
  destruct (Z.eq_dec m 1) as [->|M].
  + assert (n <= B) by lia. replace (Z.min n B) with n by lia. destruct fuel as [|f]; [lia|]. cbn [line_loop]. rewrite no_lf_end by (intros X; apply in_takeZ in X; now apply HL).
    replace (n =? 0) with false by lia. rewrite lenZ_takeZ by lia. replace (n - Z.min n (lenZ data) <=? 0) with true by lia. cbn [fst]. do 2 f_equal. unfold got. change (1 - 1) with 0. rewrite Z.mul_0_r, !Z.mul_0_l. change (0 / 2) with 0. lia.
  + assert (B < n) by nia. replace (Z.min n B) with B by lia. assert (P : lenZ (takeZ B data) = B) by (rewrite lenZ_takeZ by lia; lia).
    rewrite (dropZ_all (lenZ (takeZ B data)) (takeZ B data)) by lia.
    assert (FM : m * 1 <= lenZ data) by nia. 
    rewrite (loop_plain fuel B n m ltac:(lia) HB ltac:(lia) ltac:(lia) HT fuel 1 n (dropZ B data) (takeZ B data)); try lia; try assumption.
    * f_equal. assert (ET : B * (m - 1) * m / 2 = (B * (m - 1) * m - B * 1 * (1 + 1)) / 2 + B) by (rewrite <- Z.div_add by lia; f_equal; ring).
      assert (TT : 2 * (B * (m - 1) * m / 2) <= B * (m - 1) * m) by (apply Z.mul_div_le; lia).
      unfold got. rewrite ET in *. set (T := (B * (m - 1) * m - B * 1 * (1 + 1)) / 2) in *. 
      rewrite <- (takeZ_dropZ B data) at 3. rewrite takeZ_app_ge by nia. rewrite P. do 2 f_equal. lia.
    * unfold lenZ in FM. rewrite <- (length_lenZ data) in FM || idtac. pose proof (lenZ_length data) as LL. lia.
    * intros X. apply in_dropZ in X. now apply HL.
    * rewrite lenZ_dropZ by lia. lia.
    * now apply F4.
- intros H2. assert (3 <= m \/ m = 2) as [M| ->] by nia.
  + unfold got. assert (B * (m - 1) * m / 2 > (m - 1) * B). { assert (2 * ((m - 1) * B + 1) <= B * (m - 1) * m) by nia. pose proof (Z.div_le_mono (2 * ((m - 1) * B + 1)) (B * (m - 1) * m) 2). rewrite Z.mul_comm, Z.div_mul in H0 by lia. lia. } lia.
  + unfold got. lia.
Qed.
