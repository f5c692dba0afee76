(** * Facts: lemmas about the primitives of PyBase. *)
From Coq Require Import List ZArith NArith Bool String Lia.
From Coq Require Import ZifyBool ZifyNat ZifyN.
From Verif Require Import PyBase.
Import ListNotations.
Open Scope Z_scope.
Ltac Zify.zify_post_hook ::= Z.div_mod_to_equations.

Lemma takeZ_firstn {A} n (l : list A) : takeZ n l = firstn (Z.to_nat n) l.
Proof.
  revert n. induction l as [|x t IH]; intros n; cbn [takeZ].
  - now rewrite firstn_nil.
  - destruct (0 <? n) eqn:E.
    + replace (Z.to_nat n) with (S (Z.to_nat (n - 1))) by lia. cbn. now rewrite IH.
    + replace (Z.to_nat n) with O by lia. reflexivity.
Qed.

Lemma dropZ_skipn {A} n (l : list A) : dropZ n l = skipn (Z.to_nat n) l.
Proof.
  revert n. induction l as [|x t IH]; intros n; cbn [dropZ].
  - now rewrite skipn_nil.
  - destruct (0 <? n) eqn:E.
    + replace (Z.to_nat n) with (S (Z.to_nat (n - 1))) by lia. cbn. now rewrite IH.
    + replace (Z.to_nat n) with O by lia. reflexivity.
Qed.

Lemma takeZ_dropZ {A} n (l : list A) : takeZ n l ++ dropZ n l = l.
Proof. rewrite takeZ_firstn, dropZ_skipn. apply firstn_skipn. Qed.

Lemma lenZ_nonneg {A} (l : list A) : 0 <= lenZ l.
Proof. unfold lenZ. lia. Qed.

Lemma lenZ_nil {A} : lenZ (@nil A) = 0.
Proof. reflexivity. Qed.

Lemma lenZ_cons {A} (x : A) l : lenZ (x :: l) = lenZ l + 1.
Proof. unfold lenZ. cbn [List.length]. lia. Qed.

Lemma lenZ_app {A} (a b : list A) : lenZ (a ++ b) = lenZ a + lenZ b.
Proof. unfold lenZ. rewrite app_length. lia. Qed.

Lemma lenZ_0 {A} (l : list A) : lenZ l = 0 -> l = [].
Proof. unfold lenZ. destruct l; cbn; [easy|lia]. Qed.

Lemma lenZ_pos {A} (l : list A) : l <> [] -> 0 < lenZ l.
Proof. unfold lenZ. destruct l; cbn; [easy|lia]. Qed.

Lemma lenZ_takeZ {A} n (l : list A) : 0 <= n -> lenZ (takeZ n l) = Z.min n (lenZ l).
Proof. intros. rewrite takeZ_firstn. unfold lenZ. rewrite firstn_length. lia. Qed.

Lemma lenZ_takeZ_le {A} n (l : list A) : 0 <= n -> lenZ (takeZ n l) <= n.
Proof. intros. rewrite lenZ_takeZ; lia. Qed.

Lemma lenZ_dropZ {A} n (l : list A) : 0 <= n -> lenZ (dropZ n l) = Z.max 0 (lenZ l - n).
Proof. intros. rewrite dropZ_skipn. unfold lenZ. rewrite skipn_length. lia. Qed.

Lemma takeZ_all {A} n (l : list A) : lenZ l <= n -> takeZ n l = l.
Proof. intros. rewrite takeZ_firstn. apply firstn_all2. unfold lenZ in *. lia. Qed.

Lemma dropZ_all {A} n (l : list A) : lenZ l <= n -> dropZ n l = [].
Proof. intros. rewrite dropZ_skipn. apply skipn_all2. unfold lenZ in *. lia. Qed.

Lemma takeZ_0 {A} n (l : list A) : n <= 0 -> takeZ n l = [].
Proof. intros. rewrite takeZ_firstn. replace (Z.to_nat n) with O by lia. reflexivity. Qed.

Lemma dropZ_0 {A} n (l : list A) : n <= 0 -> dropZ n l = l.
Proof. intros. rewrite dropZ_skipn. replace (Z.to_nat n) with O by lia. reflexivity. Qed.

Lemma takeZ_app_exact {A} (a b : list A) : takeZ (lenZ a) (a ++ b) = a.
Proof.
  rewrite takeZ_firstn. unfold lenZ. rewrite Nat2Z.id, firstn_app, Nat.sub_diag, firstn_all.
  cbn. apply app_nil_r.
Qed.

Lemma dropZ_app_exact {A} (a b : list A) : dropZ (lenZ a) (a ++ b) = b.
Proof.
  rewrite dropZ_skipn. unfold lenZ. rewrite Nat2Z.id, skipn_app, Nat.sub_diag, skipn_all.
  reflexivity.
Qed.

Lemma takeZ_app_le {A} n (a b : list A) : n <= lenZ a -> takeZ n (a ++ b) = takeZ n a.
Proof.
  intros. rewrite !takeZ_firstn. rewrite firstn_app.
  replace (Z.to_nat n - List.length a)%nat with O by (unfold lenZ in *; lia).
  cbn. apply app_nil_r.
Qed.

Lemma takeZ_app_ge {A} n (a b : list A) : lenZ a <= n -> takeZ n (a ++ b) = a ++ takeZ (n - lenZ a) b.
Proof.
  intros. rewrite !takeZ_firstn. rewrite firstn_app. f_equal.
  - apply firstn_all2. unfold lenZ in *. lia.
  - f_equal. unfold lenZ in *. lia.
Qed.

Lemma dropZ_app_le {A} n (a b : list A) : n <= lenZ a -> dropZ n (a ++ b) = dropZ n a ++ b.
Proof.
  intros. rewrite !dropZ_skipn. rewrite skipn_app.
  replace (Z.to_nat n - List.length a)%nat with O by (unfold lenZ in *; lia). reflexivity.
Qed.

Lemma dropZ_app_ge {A} n (a b : list A) : lenZ a <= n -> dropZ n (a ++ b) = dropZ (n - lenZ a) b.
Proof.
  intros. rewrite !dropZ_skipn. rewrite skipn_app.
  rewrite skipn_all2 by (unfold lenZ in *; lia). cbn. f_equal. unfold lenZ in *; lia.
Qed.

Lemma takeZ_takeZ {A} n m (l : list A) : takeZ n (takeZ m l) = takeZ (Z.min n m) l.
Proof. rewrite !takeZ_firstn, firstn_firstn. f_equal. lia. Qed.

Lemma dropZ_dropZ {A} n m (l : list A) : 0 <= n -> 0 <= m -> dropZ n (dropZ m l) = dropZ (n + m) l.
Proof.
  intros. rewrite !dropZ_skipn.
  replace (Z.to_nat (n + m)) with (Z.to_nat m + Z.to_nat n)%nat by lia.
  revert l. generalize (Z.to_nat m) as k. induction k; intros l; [reflexivity|].
  destruct l; cbn; [now rewrite skipn_nil|apply IHk].
Qed.

(** the part consumed by a result [out] which is a prefix *)
Lemma dropZ_len_takeZ {A} n (l : list A) : dropZ (lenZ (takeZ n l)) l = dropZ n l.
Proof.
  rewrite <- (takeZ_dropZ n l) at 2. apply dropZ_app_exact.
Qed.

Lemma lenZ_length {A} (l : list A) : Z.to_nat (lenZ l) = List.length l.
Proof. unfold lenZ. lia. Qed.

Lemma is_nil_true {A} (l : list A) : is_nil l = true <-> l = [].
Proof. destruct l; cbn; split; congruence. Qed.
Lemma is_nil_false {A} (l : list A) : is_nil l = false <-> l <> [].
Proof. destruct l; cbn; split; congruence. Qed.

Lemma leqb_eq a b : leqb a b = true <-> a = b.
Proof.
  revert b. induction a as [|x a IH]; intros [|y b]; cbn; try (split; congruence).
  rewrite andb_true_iff, IH, N.eqb_eq. split; [intros [-> ->]|intros [= -> ->]]; auto.
Qed.
Lemma leqb_refl a : leqb a a = true.
Proof. now apply leqb_eq. Qed.
Lemma leqb_neq a b : leqb a b = false <-> a <> b.
Proof. rewrite <- leqb_eq. destruct (leqb a b); split; congruence. Qed.

Lemma startswith_spec p l : startswith p l = true <-> exists r, l = p ++ r.
Proof.
  revert l. induction p as [|x p IH]; intros l; cbn.
  - split; [exists l; reflexivity|reflexivity].
  - destruct l as [|y l]; [split; [easy|intros [r [=]]]|].
    rewrite andb_true_iff, N.eqb_eq, IH. split.
    + intros [-> [r ->]]. now exists r.
    + intros [r [= -> ->]]. split; [reflexivity|now exists r].
Qed.

Lemma endswith_spec p l : endswith p l = true <-> exists r, l = r ++ p.
Proof.
  unfold endswith. rewrite startswith_spec. split; intros [r H].
  - exists (rev r). rewrite <- (rev_involutive l), H, rev_app_distr, rev_involutive. reflexivity.
  - exists (rev r). rewrite H, rev_app_distr. reflexivity.
Qed.

(** ** Lines *)
Lemma take_drop_line l : take_line l ++ drop_line l = l.
Proof.
  induction l as [|c t IH]; cbn; [reflexivity|].
  destruct (N.eqb c LF); cbn; [reflexivity|now rewrite IH].
Qed.

Lemma drop_line_dropZ l : drop_line l = dropZ (lenZ (take_line l)) l.
Proof.
  rewrite <- (take_drop_line l) at 3. now rewrite dropZ_app_exact.
Qed.

Lemma take_line_nil l : take_line l = [] <-> l = [].
Proof. destruct l as [|c t]; cbn; [easy|]. destruct (N.eqb c LF); split; congruence. Qed.

Lemma take_line_noLF l : ~ In LF l -> take_line l = l.
Proof.
  induction l as [|c t IH]; cbn; [reflexivity|]. intros H.
  destruct (N.eqb_spec c LF); [subst; tauto|]. now rewrite IH by tauto.
Qed.

Lemma take_line_app_noLF a b : ~ In LF a -> take_line (a ++ b) = a ++ take_line b.
Proof.
  induction a as [|c t IH]; cbn; [reflexivity|]. intros H.
  destruct (N.eqb_spec c LF); [subst; tauto|]. now rewrite IH by tauto.
Qed.

Lemma take_line_hasLF a b : In LF a -> take_line (a ++ b) = take_line a.
Proof.
  induction a as [|c t IH]; cbn; [easy|].
  destruct (N.eqb_spec c LF); [reflexivity|]. intros [->|H]; [congruence|].
  now rewrite IH.
Qed.

Lemma take_line_LF a b : ~ In LF a -> take_line (a ++ LF :: b) = a ++ [LF].
Proof. intros. rewrite take_line_app_noLF by assumption. reflexivity. Qed.

Lemma In_LF_dec (l : bytes) : {In LF l} + {~ In LF l}.
Proof. apply in_dec, N.eq_dec. Qed.

(** a line either ends in LF, or contains none and is everything *)
Lemma take_line_cases l :
  (exists a, take_line l = a ++ [LF] /\ ~ In LF a /\ l = a ++ LF :: drop_line l)
  \/ (~ In LF l /\ take_line l = l /\ drop_line l = []).
Proof.
  induction l as [|c t IH]; cbn.
  - right. auto.
  - destruct (N.eqb_spec c LF) as [->|Hc].
    + left. exists []. auto.
    + destruct IH as [(a & E & Hn & El)|(Hn & E & Ed)].
      * left. exists (c :: a). rewrite E. split; [reflexivity|]. split.
        -- cbn. intros [?|?]; [congruence|auto].
        -- cbn. now rewrite <- El.
      * right. rewrite E, Ed. split; [|auto]. intros [?|?]; [congruence|auto].
Qed.

Lemma ends_lf_app a : endswith [LF] (a ++ [LF]) = true.
Proof. apply endswith_spec. now exists a. Qed.

Lemma ends_lf_noLF a : ~ In LF a -> endswith [LF] a = false.
Proof.
  intros H. destruct (endswith [LF] a) eqn:E; [|reflexivity].
  apply endswith_spec in E. destruct E as [r ->]. exfalso. apply H. apply in_or_app. right. now left.
Qed.

Lemma prefix_drop {A} (a l b : list A) : l = a ++ b -> a ++ dropZ (lenZ a) l = l.
Proof. intros ->. now rewrite dropZ_app_exact. Qed.

Lemma read_of_split n l : read_of n l ++ dropZ (lenZ (read_of n l)) l = l.
Proof.
  unfold read_of. destruct n as [k|].
  - destruct (k <? 0); [now rewrite dropZ_all, app_nil_r by lia|].
    rewrite dropZ_len_takeZ. apply takeZ_dropZ.
  - now rewrite dropZ_all, app_nil_r by lia.
Qed.

Lemma line_of_prefix n l : exists r, take_line l = line_of n l ++ r.
Proof.
  unfold line_of. destruct n as [k|]; [|exists []; now rewrite app_nil_r].
  destruct (k <? 0); [exists []; now rewrite app_nil_r|].
  exists (dropZ k (take_line l)). now rewrite takeZ_dropZ.
Qed.

Lemma line_of_split n l : line_of n l ++ dropZ (lenZ (line_of n l)) l = l.
Proof.
  destruct (line_of_prefix n l) as [r E].
  apply (prefix_drop _ _ (r ++ drop_line l)).
  now rewrite app_assoc, <- E, take_drop_line.
Qed.

(** ** strip *)
Lemma lstripp_app p a b : forallb p a = true -> lstripp p (a ++ b) = lstripp p b.
Proof.
  induction a as [|c t IH]; cbn; [reflexivity|]. intros H. apply andb_true_iff in H as [-> H]. auto.
Qed.

Lemma lstripp_id p l : match l with c :: _ => p c = false | [] => True end -> lstripp p l = l.
Proof. destruct l; cbn; [reflexivity|]. now intros ->. Qed.

Lemma rstripp_all p l : forallb p l = true -> rstripp p l = [].
Proof.
  induction l as [|c t IH]; cbn; [reflexivity|]. intros H. apply andb_true_iff in H as [Hc H].
  now rewrite IH, Hc.
Qed.

Lemma rstripp_nil_all p l : rstripp p l = [] -> forallb p l = true.
Proof.
  induction l as [|c t IH]; cbn; [reflexivity|].
  destruct (rstripp p t) eqn:E; [|discriminate].
  destruct (p c) eqn:Ec; [|discriminate]. cbn. auto.
Qed.

Lemma rstripp_app p a b : forallb p b = true -> rstripp p (a ++ b) = rstripp p a.
Proof.
  induction a as [|c t IH]; cbn; intros H.
  - now apply rstripp_all.
  - now rewrite IH.
Qed.

(** last character not stripped *)
Lemma rstripp_last p a c : p c = false -> rstripp p (a ++ [c]) = a ++ [c].
Proof.
  intros H. induction a as [|x t IH]; cbn.
  - now rewrite H.
  - rewrite IH. destruct (t ++ [c]) eqn:E; [now destruct t|reflexivity].
Qed.

Lemma rstripp_id p l : (l = [] \/ exists a c, l = a ++ [c] /\ p c = false) -> rstripp p l = l.
Proof. intros [->|(a & c & -> & H)]; [reflexivity|now apply rstripp_last]. Qed.

(** decomposition: rstrip removes a suffix of stripped characters *)
Lemma rstripp_split p l : exists b, l = rstripp p l ++ b /\ forallb p b = true.
Proof.
  induction l as [|c t (b & E & Hb)]; cbn.
  - now exists [].
  - destruct (rstripp p t) as [|x r] eqn:Er.
    + destruct (p c) eqn:Ec.
      * exists (c :: t). cbn. rewrite Ec. cbn. split; [reflexivity|]. now apply rstripp_nil_all.
      * exists t. split; [reflexivity|now apply rstripp_nil_all].
    + exists b. cbn. split; [|assumption]. rewrite E at 1. reflexivity.
Qed.

(** ** split1 *)
Lemma split1_spec c l a b : split1 c l = Some (a, b) <-> l = a ++ c :: b /\ ~ In c a.
Proof.
  revert a b. induction l as [|x t IH]; intros a b; cbn.
  - split; [discriminate|]. intros [E _]. now destruct a.
  - destruct (N.eqb_spec x c) as [->|Hx].
    + split.
      * intros [= <- <-]. auto.
      * intros [E H]. destruct a as [|y a]; cbn in *; [congruence|].
        injection E as -> _. exfalso. apply H. now left.
    + destruct (split1 c t) as [[a' b']|] eqn:Es.
      * split.
        -- intros [= <- <-]. destruct (proj1 (IH a' b') eq_refl) as [-> Hn]. split; [reflexivity|].
           cbn. intros [?|?]; congruence || auto.
        -- intros [E H]. destruct a as [|y a]; cbn in E; [congruence|].
           injection E as -> Et.
           assert (Some (a', b') = Some (a, b)) as [= -> ->]; [|reflexivity].
           apply IH. split; [assumption|]. intros Hi. apply H. now right.
      * split; [discriminate|]. intros [E H]. destruct a as [|y a]; cbn in E; [congruence|].
        injection E as -> Et. assert (None = Some (a, b)) as [=].
        apply IH. split; [assumption|]. intros Hi. apply H. now right.
Qed.

Lemma split1_None c l : split1 c l = None <-> ~ In c l.
Proof.
  induction l as [|x t IH]; cbn; [easy|].
  destruct (N.eqb_spec x c) as [->|Hx].
  - split; [discriminate|]. intros H. exfalso. auto.
  - destruct (split1 c t) as [[]|].
    + split; [discriminate|]. intros H. exfalso.
      assert (~ ~ In c t) as Hn by (intros Hn; apply IH in Hn; discriminate).
      apply Hn. intros Hi. apply H. now right.
    + split; [|reflexivity]. intros _ [?|?]; [congruence|]. now apply (proj1 IH).
Qed.

(** ** decimal printing and parsing *)
Lemma digit_in10 d : (d < 10)%N -> digit_in 10 (48 + d) = Some d.
Proof.
  intros H. unfold digit_in, hexval.
  replace ((48 <=? 48 + d)%N && (48 + d <=? 57)%N) with true by lia.
  replace (48 + d - 48)%N with d by lia.
  replace (d <? 10)%N with true by lia. reflexivity.
Qed.

(** reading digits d1..dk continues with the accumulated value *)
Lemma dec_digits_read fuel n acc st a0 :
  (n < 2 ^ N.of_nat fuel)%N -> (0 < fuel)%nat ->
  exists k, int_digits 10 st a0 (dec_digits fuel n acc) = int_digits 10 true (a0 * 10 ^ k + n)%N acc
            /\ (n < 10 ^ k)%N.
Proof.
  revert n acc st a0. induction fuel as [|f IH]; intros n acc st a0 Hn Hf; [lia|].
  cbn [dec_digits]. destruct (n <? 10)%N eqn:E.
  - exists 1%N. cbn [int_digits]. rewrite digit_in10 by (apply N.mod_upper_bound; lia).
    rewrite N.mod_small by lia. split; [|lia].
    now replace (a0 * 10 ^ 1 + n)%N with (a0 * 10 + n)%N by lia.
  - assert (1 < f)%nat as Hf1.
    { destruct f as [|[|f]]; [..|lia].
      - replace (2 ^ N.of_nat 1)%N with 2%N in Hn by reflexivity. lia.
      - replace (2 ^ N.of_nat 2)%N with 4%N in Hn by reflexivity. lia. }
    destruct (IH (n / 10)%N ((48 + n mod 10)%N :: acc) st a0) as (k & Ek & Hk).
    + replace (N.of_nat (S f)) with (N.succ (N.of_nat f)) in Hn by lia.
      rewrite N.pow_succ_r' in Hn. apply N.div_lt_upper_bound; lia.
    + lia.
    + exists (N.succ k). rewrite Ek. cbn [int_digits].
      rewrite digit_in10 by (apply N.mod_upper_bound; lia).
      rewrite N.pow_succ_r'. split.
      * f_equal. pose proof (N.div_mod n 10 ltac:(lia)). nia.
      * pose proof (N.div_mod n 10 ltac:(lia)). assert (n mod 10 < 10)%N by (apply N.mod_upper_bound; lia). nia.
Qed.

Lemma log2_fuel n : (n < 2 ^ N.of_nat (S (N.to_nat (N.log2 n))))%N.
Proof.
  replace (N.of_nat (S (N.to_nat (N.log2 n)))) with (N.succ (N.log2 n)) by lia.
  destruct n as [|p]; [cbn; lia|]. apply N.log2_spec. lia.
Qed.

Lemma int_digits_dec n : int_digits 10 false 0 (dec_of_N n) = Some n.
Proof.
  unfold dec_of_N.
  destruct (dec_digits_read (S (N.to_nat (N.log2 n))) n [] false 0%N) as (k & E & _).
  - apply log2_fuel.
  - lia.
  - rewrite E. reflexivity.
Qed.

Definition is_digit (c : N) : bool := ((48 <=? c) && (c <=? 57))%N.

Lemma dec_digits_isdigit fuel n acc :
  forallb is_digit acc = true -> forallb is_digit (dec_digits fuel n acc) = true.
Proof.
  revert n acc. induction fuel as [|f IH]; intros n acc H; cbn [dec_digits]; [assumption|].
  assert (is_digit (48 + n mod 10)%N = true) as Hd.
  { unfold is_digit. assert (n mod 10 < 10)%N by (apply N.mod_upper_bound; lia). lia. }
  destruct (n <? 10)%N; [|apply IH]; cbn [forallb]; now rewrite Hd.
Qed.

Lemma dec_of_N_digits n : forallb is_digit (dec_of_N n) = true.
Proof. now apply dec_digits_isdigit. Qed.

Lemma dec_digits_nonnil fuel n acc : (0 < fuel)%nat -> dec_digits fuel n acc <> [].
Proof.
  revert n acc. induction fuel as [|f IH]; intros n acc H; [lia|]. cbn [dec_digits].
  destruct (n <? 10)%N; [discriminate|].
  destruct f; [cbn; discriminate|]. apply IH. lia.
Qed.
Lemma dec_of_N_nonnil n : dec_of_N n <> [].
Proof. apply dec_digits_nonnil. lia. Qed.

Lemma digits_not_bspace l : forallb is_digit l = true -> stripp is_bspace l = l.
Proof.
  intros H. unfold stripp.
  assert (rstripp is_bspace l = l) as ->.
  { apply rstripp_id. destruct l as [|x l']; [now left|right].
    destruct (exists_last (l:=x::l')) as (a & c & E); [discriminate|].
    exists a, c. split; [assumption|]. rewrite E, forallb_app in H.
    apply andb_true_iff in H as [_ H]. cbn in H. unfold is_digit, is_bspace in *. lia. }
  apply lstripp_id. destruct l; [exact I|]. cbn in H. apply andb_true_iff in H as [H _].
  unfold is_digit, is_bspace in *. lia.
Qed.

Lemma map_to_ascii_digit_ascii l : forallb (fun c => c <? 127)%N l = true -> map to_ascii_digit l = l.
Proof.
  induction l as [|c t IH]; cbn; [reflexivity|]. intros H. apply andb_true_iff in H as [Hc H].
  rewrite IH by assumption. unfold to_ascii_digit. now rewrite Hc.
Qed.

Lemma forallb_impl {A} (p q : A -> bool) l :
  (forall x, p x = true -> q x = true) -> forallb p l = true -> forallb q l = true.
Proof.
  intros H. induction l as [|x t IH]; cbn; [reflexivity|]. intros E.
  apply andb_true_iff in E as [Ex Et]. now rewrite (H _ Ex), IH.
Qed.

Lemma int_core_digits l v : forallb is_digit l = true -> int_digits 10 false 0 l = Some v ->
  int_core 10 l = Some (Z.of_N v).
Proof.
  intros H E. unfold int_core. rewrite digits_not_bspace by assumption.
  destruct l as [|x t]; [discriminate|].
  assert (is_digit x = true) as Hx by (cbn in H; now apply andb_true_iff in H as [? _]).
  assert (x <> 43 /\ x <> 45)%N as [H1 H2] by (unfold is_digit in Hx; lia).
  replace (match x :: t with 43%N :: t0 => (false, t0) | 45%N :: t0 => (true, t0) | _ => (false, x :: t) end)
    with (false, x :: t).
  - cbn [N.eqb Pos.eqb]. now rewrite E.
  - clear -Hx. unfold is_digit in Hx. assert (48 <= x <= 57)%N as Hr by lia. clear Hx.
    assert (x = 48 \/ x = 49 \/ x = 50 \/ x = 51 \/ x = 52 \/ x = 53 \/ x = 54 \/ x = 55
            \/ x = 56 \/ x = 57)%N as Hc by lia.
    decompose [or] Hc; subst; reflexivity.
Qed.

(** int(str(n)) = n for n >= 0 *)
Lemma py_int_str n : 0 <= n -> py_int (str_of_Z n) = Some n.
Proof.
  intros H. unfold str_of_Z. replace (n <? 0) with false by lia. unfold py_int.
  rewrite map_to_ascii_digit_ascii.
  - rewrite (int_core_digits _ (Z.to_N n)).
    + f_equal. lia.
    + apply dec_of_N_digits.
    + apply int_digits_dec.
  - eapply forallb_impl; [|apply dec_of_N_digits]. unfold is_digit. intros. lia.
Qed.

Lemma str_of_Z_digits n : 0 <= n -> forallb is_digit (str_of_Z n) = true.
Proof. intros. unfold str_of_Z. replace (n <? 0) with false by lia. apply dec_of_N_digits. Qed.

Lemma str_of_Z_nonnil n : str_of_Z n <> [].
Proof. unfold str_of_Z. destruct (n <? 0); [discriminate|apply dec_of_N_nonnil]. Qed.
