(** * CodecProofs: base32, base16 and base64 *)
From Coq Require Import String List ZArith NArith Bool Lia.
From Coq Require Import ZifyBool ZifyNat ZifyN.
From Verif Require Import PyBase Codecs Facts HeaderProofs.
Import ListNotations.
Open Scope N_scope.

Definition byte (b : N) : Prop := b < 256.
Definition bytes_ok (l : bytes) : Prop := Forall byte l.

Lemma list5_ind (P : bytes -> Prop) :
  P [] -> (forall a, P [a]) -> (forall a b, P [a; b]) -> (forall a b c, P [a; b; c]) -> (forall a b c d, P [a; b; c; d]) ->
  (forall a b c d e t, P t -> P (a :: b :: c :: d :: e :: t)) -> forall l, P l.
Proof.
  intros H0 H1 H2 H3 H4 H5. fix IH 1. intros l.
  destruct l as [|a [|b [|c [|d [|e t]]]]]; [exact H0|apply H1|apply H2|apply H3|apply H4|apply H5, IH].
Qed.
Lemma list3_ind (P : bytes -> Prop) :
  P [] -> (forall a, P [a]) -> (forall a b, P [a; b]) ->
  (forall a b c t, P t -> P (a :: b :: c :: t)) -> forall l, P l.
Proof. intros H0 H1 H2 H5. fix IH 1. intros l. destruct l as [|a [|b [|c t]]]; [exact H0|apply H1|apply H2|apply H5, IH]. Qed.

Lemma b32char_inj v w : v < 32 -> w < 32 -> b32char v = b32char w -> v = w.
Proof. unfold b32char. intros Hv Hw. destruct (v <? 26) eqn:E1, (w <? 26) eqn:E2; lia. Qed.

Lemma div_lt a q m : 0 < q -> a < q * m -> a / q < m.
Proof. intros Hq H. apply N.div_lt_upper_bound; [lia|exact H]. Qed.
Lemma mod_lt a q : 0 < q -> a mod q < q.
Proof. intros H. apply N.mod_lt. lia. Qed.
Lemma split_eq q x y x' y' : y < q -> y' < q -> x * q + y = x' * q + y' -> x = x' /\ y = y'.
Proof. intros H1 H2 H. assert (x = x') by nia. subst. split; lia. Qed.
Lemma q1 a a' : a / 8 = a' / 8 -> a mod 8 = a' mod 8 -> a = a'.
Proof. divmod. Qed.
Lemma q2 b b' : b / 64 = b' / 64 -> b / 2 mod 32 = b' / 2 mod 32 -> b mod 2 = b' mod 2 -> b = b'.
Proof.
  intros H1 H2 H3. rewrite (N.div_mod b 2), (N.div_mod b' 2) by lia. rewrite H3. f_equal. f_equal.
  rewrite (N.div_mod (b / 2) 32), (N.div_mod (b' / 2) 32) by lia. rewrite H2. f_equal. f_equal.
  rewrite !N.div_div by lia. exact H1.
Qed.
Lemma q3 b b' : b / 16 = b' / 16 -> b mod 16 = b' mod 16 -> b = b'.
Proof. divmod. Qed.
Lemma q4 b b' : b / 128 = b' / 128 -> b / 4 mod 32 = b' / 4 mod 32 -> b mod 4 = b' mod 4 -> b = b'.
Proof.
  intros H1 H2 H3. rewrite (N.div_mod b 4), (N.div_mod b' 4) by lia. rewrite H3. f_equal. f_equal.
  rewrite (N.div_mod (b / 4) 32), (N.div_mod (b' / 4) 32) by lia. rewrite H2. f_equal. f_equal.
  rewrite !N.div_div by lia. exact H1.
Qed.
Lemma q5 b b' : b / 32 = b' / 32 -> b mod 32 = b' mod 32 -> b = b'.
Proof. divmod. Qed.

Lemma bnd_m x q m : negb (q =? 0) && (q <=? m) = true -> x mod q < m.
Proof. intros H. apply andb_true_iff in H as [H1 H2]. generalize (N.mod_lt x q). lia. Qed.
Lemma bnd_d x q m : x < 256 -> negb (q =? 0) && (256 <=? q * m) = true -> x / q < m.
Proof. intros Hx H. apply andb_true_iff in H as [H1 H2]. apply div_lt; lia. Qed.
Lemma bnd_mk x q k m : negb (q =? 0) && negb (k =? 0) && (q * k <=? m) = true -> x mod q * k < m.
Proof. intros H. generalize (N.mod_lt x q). rewrite !andb_true_iff in H. destruct H as [[H1 H2] H3]. generalize (x mod q). intros y Hy. nia. Qed.
Lemma bnd_ma x q k y m : negb (q =? 0) && (q * k <=? m) = true -> y < k -> x mod q * k + y < m.
Proof. intros H Hk. generalize (N.mod_lt x q). rewrite !andb_true_iff in H. destruct H as [H1 H3]. generalize (x mod q). intros z Hy. nia. Qed.
Ltac bnd := repeat match goal with
  | |- _ mod _ < _ => apply bnd_m; reflexivity
  | |- _ / _ < _ => apply bnd_d; [assumption|reflexivity]
  | |- _ mod _ * _ < _ => apply bnd_mk; reflexivity
  | |- _ mod _ * _ + _ < _ => apply bnd_ma; [reflexivity|]
  end.
Ltac inj32 := repeat match goal with
  | H : b32char _ = b32char _ |- _ => apply b32char_inj in H; [|bnd|bnd] end;
  repeat match goal with
  | H : ?x * ?q + ?y = ?x' * ?q + ?y' |- _ => apply split_eq in H; [destruct H|bnd|bnd]
  | H : ?x * ?q = ?x' * ?q |- _ => apply N.mul_cancel_r in H; [|discriminate] end.
Ltac bytes_split := unfold bytes_ok, byte in *; repeat match goal with
  | H : Forall _ (_ :: _) |- _ => inversion H; clear H; subst end.

Lemma b32encode_inj h : forall h', bytes_ok h -> bytes_ok h' -> List.length h = List.length h' -> b32encode h = b32encode h' -> h = h'.
Proof.
  induction h as [|a|a b|a b c|a b c d|a b c d e t IH] using list5_ind; intros h' Hh Hh' Hl E.
  - destruct h'; [reflexivity|discriminate].
  - destruct h' as [|a' [|? ?]]; try discriminate. bytes_split. cbn [b32encode] in E. injection E as E1 E2. inj32.
    f_equal. now apply q1.
  - destruct h' as [|a' [|b' [|? ?]]]; try discriminate. bytes_split. cbn [b32encode] in E. injection E as E1 E2 E3 E4. inj32.
    f_equal; [now apply q1|]. f_equal. now apply q2.
  - destruct h' as [|a' [|b' [|c' [|? ?]]]]; try discriminate. bytes_split. cbn [b32encode] in E. injection E as E1 E2 E3 E4 E5. inj32.
    f_equal; [now apply q1|]. f_equal; [now apply q2|]. f_equal. now apply q3.
  - destruct h' as [|a' [|b' [|c' [|d' [|? ?]]]]]; try discriminate. bytes_split. cbn [b32encode] in E. injection E as E1 E2 E3 E4 E5 E6 E7. inj32.
    f_equal; [now apply q1|]. f_equal; [now apply q2|]. f_equal; [now apply q3|]. f_equal. now apply q4.
  - destruct h' as [|a' [|b' [|c' [|d' [|e' t']]]]]; try discriminate. bytes_split. cbn [b32encode app] in E. injection E as E1 E2 E3 E4 E5 E6 E7 E8 E9. inj32.
    f_equal; [now apply q1|]. f_equal; [now apply q2|]. f_equal; [now apply q3|]. f_equal; [now apply q4|]. f_equal; [now apply q5|].
    apply IH; auto. now injection Hl.
Qed.

Lemma b32encode_len h : Z.of_nat (List.length (b32encode h)) = (8 * ((Z.of_nat (List.length h) + 4) / 5))%Z.
Proof.
  induction h as [|a|a b|a b c|a b c d|a b c d e t IH] using list5_ind; try reflexivity.
  cbn [b32encode app List.length]. rewrite !Nat2Z.inj_succ in *. divmod.
Qed.
Lemma b16encode_len up h : List.length (b16encode up h) = (2 * List.length h)%nat.
Proof. induction h as [|b t IH]; cbn [b16encode List.length] in *; lia. Qed.
Lemma b64encode_len url h : Z.of_nat (List.length (b64encode url h)) = (4 * ((Z.of_nat (List.length h) + 2) / 3))%Z.
Proof.
  induction h as [|a|a b|a b c t IH] using list3_ind; try reflexivity.
  cbn [b64encode app List.length]. rewrite !Nat2Z.inj_succ in *. divmod.
Qed.

(** ** base16, either case *)
Lemma hexval_lower c : hexval (lower1 c) = hexval c.
Proof.
  unfold lower1, hexval. destruct ((65 <=? c) && (c <=? 90))%N eqn:E; [|reflexivity].
  replace ((48 <=? c + 32) && (c + 32 <=? 57)) with false by lia. replace ((48 <=? c) && (c <=? 57)) with false by lia.
  replace ((97 <=? c) && (c <=? 102)) with false by lia. replace ((65 <=? c + 32) && (c + 32 <=? 70)) with false by lia.
  replace ((97 <=? c + 32) && (c + 32 <=? 102)) with ((65 <=? c) && (c <=? 70)) by lia. replace (c + 32 - 87) with (c - 55) by lia. reflexivity.
Qed.
Lemma hexval_digit d : d < 16 -> hexval (if d <? 10 then 48 + d else 87 + d) = Some d.
Proof.
  intros H. unfold hexval. destruct (d <? 10) eqn:E.
  - replace ((48 <=? 48 + d) && (48 + d <=? 57)) with true by lia. f_equal. lia.
  - replace ((48 <=? 87 + d) && (87 + d <=? 57)) with false by lia. replace ((97 <=? 87 + d) && (87 + d <=? 102)) with true by lia. f_equal. lia.
Qed.
Lemma b16decode_ok h : forall v, bytes_ok h -> lower v = b16encode false h -> b16decode v = Some h.
Proof.
  induction h as [|b h IH]; intros v Hh E; cbn [b16encode] in E.
  - destruct v; [reflexivity|discriminate].
  - destruct v as [|c1 [|c2 v]]; try discriminate. unfold lower in *. cbn [map] in E. injection E as E1 E2 E3. bytes_split.
    cbn [b16decode]. rewrite <- (hexval_lower c1), <- (hexval_lower c2), E1, E2. cbv zeta beta.
    rewrite !hexval_digit by bnd. rewrite (IH v) by assumption. cbn [option_map]. f_equal. f_equal. divmod.
Qed.
Lemma lower_ascii v w : lower v = w -> ascii_only w = true -> ascii_only v = true.
Proof.
  unfold ascii_only. revert w. induction v as [|c v IH]; intros w E H; [reflexivity|]. destruct w as [|x w]; [discriminate|].
  unfold lower in *. cbn [map] in E. injection E as E1 E2. cbn [forallb] in *. apply andb_true_iff in H as [H1 H2].
  rewrite (IH w E2 H2). unfold lower1 in E1. destruct ((65 <=? c) && (c <=? 90))%N eqn:Ec; lia.
Qed.
Lemma b16encode_ascii up h : bytes_ok h -> ascii_only (b16encode up h) = true.
Proof.
  intros Hh. unfold ascii_only. induction h as [|b h IH]; [reflexivity|]. bytes_split. cbn [b16encode forallb]. rewrite IH by assumption.
  rewrite andb_true_r. apply andb_true_iff. split.
  - destruct (b / 16 <? 10) eqn:E; [lia|]. destruct up; divmod.
  - destruct (b mod 16 <? 10) eqn:E; [lia|]. destruct up; divmod.
Qed.
Lemma b16_wrapper_ok h v : bytes_ok h -> lower v = b16encode false h -> b16_wrapper v = Some h.
Proof.
  intros Hh E. unfold b16_wrapper. rewrite (lower_ascii v _ E (b16encode_ascii false h Hh)). cbn [negb]. now apply b16decode_ok.
Qed.

(** ** base64, either alphabet *)
Lemma dm q x y : y < q -> (x * q + y) / q = x /\ (x * q + y) mod q = y.
Proof.
  intros H. assert (q <> 0) by lia. rewrite N.add_comm. rewrite N.div_add, N.mod_add by assumption.
  rewrite N.div_small, N.mod_small by assumption. split; lia.
Qed.
Lemma j4 a : a / 4 * 4 + a mod 4 = a. Proof. rewrite (N.div_mod a 4) at 3 by discriminate. lia. Qed.
Lemma j16 a : a / 16 * 16 + a mod 16 = a. Proof. rewrite (N.div_mod a 16) at 3 by discriminate. lia. Qed.
Lemma j64 a : a / 64 * 64 + a mod 64 = a. Proof. rewrite (N.div_mod a 64) at 3 by discriminate. lia. Qed.
Lemma e1 a : a / 4 * 4 + (a mod 4 * 16) / 16 = a.
Proof. rewrite N.div_mul by discriminate. apply j4. Qed.
Lemma e2 a b : b < 256 -> a / 4 * 4 + (a mod 4 * 16 + b / 16) / 16 = a.
Proof. intros H. rewrite (proj1 (dm 16 (a mod 4) (b / 16) ltac:(bnd))). apply j4. Qed.
Lemma e3 a b : b < 256 -> (a mod 4 * 16 + b / 16) mod 16 * 16 + b mod 16 * 4 / 4 = b.
Proof. intros H. rewrite (proj2 (dm 16 (a mod 4) (b / 16) ltac:(bnd))). rewrite N.div_mul by discriminate. apply j16. Qed.
Lemma e4 a b c : b < 256 -> c < 256 -> (a mod 4 * 16 + b / 16) mod 16 * 16 + (b mod 16 * 4 + c / 64) / 4 = b.
Proof. intros H H'. rewrite (proj2 (dm 16 (a mod 4) (b / 16) ltac:(bnd))), (proj1 (dm 4 (b mod 16) (c / 64) ltac:(bnd))). apply j16. Qed.
Lemma e5 b c : c < 256 -> (b mod 16 * 4 + c / 64) mod 4 * 64 + c mod 64 = c.
Proof. intros H. rewrite (proj2 (dm 4 (b mod 16) (c / 64) ltac:(bnd))). apply j64. Qed.
Lemma b64val_char v : v < 64 -> b64val (b64char false v) = Some v.
Proof.
  intros H. unfold b64char, b64val. destruct (v <? 26) eqn:E1.
  { replace ((65 <=? 65 + v) && (65 + v <=? 90)) with true by lia. f_equal. lia. }
  destruct (v <? 52) eqn:E2.
  { replace ((65 <=? 71 + v) && (71 + v <=? 90)) with false by lia. replace ((97 <=? 71 + v) && (71 + v <=? 122)) with true by lia. f_equal. lia. }
  destruct (v <? 62) eqn:E3.
  { replace ((65 <=? v - 4) && (v - 4 <=? 90)) with false by lia. replace ((97 <=? v - 4) && (v - 4 <=? 122)) with false by lia.
    replace ((48 <=? v - 4) && (v - 4 <=? 57)) with true by lia. f_equal. lia. }
  destruct (v =? 62) eqn:E4; cbn; f_equal; lia.
Qed.
Lemma b64char_ne61 u v : v < 64 -> (b64char u v =? 61) = false.
Proof. intros H. unfold b64char. destruct (v <? 26) eqn:E1, (v <? 52) eqn:E2, (v <? 62) eqn:E3, (v =? 62) eqn:E4, u; lia. Qed.

Lemma a2b_char q l p v t : v < 64 -> a2b_base64 q l p (b64char false v :: t) =
  (if q =? 0 then a2b_base64 1 v 0 t
   else if q =? 1 then option_map (cons (l * 4 + v / 16)) (a2b_base64 2 (v mod 16) 0 t)
   else if q =? 2 then option_map (cons (l * 16 + v / 4)) (a2b_base64 3 (v mod 4) 0 t)
   else option_map (cons (l * 64 + v)) (a2b_base64 0 0 0 t)).
Proof. intros H. cbn [a2b_base64]. rewrite b64char_ne61, b64val_char by assumption. reflexivity. Qed.

Ltac a2b := rewrite !a2b_char by bnd; cbn [N.eqb Pos.eqb]; cbn [a2b_base64 N.eqb Pos.eqb N.leb N.compare Pos.compare Pos.compare_cont N.add Pos.add Pos.succ option_map].
Lemma a2b_ok h : bytes_ok h -> a2b_base64 0 0 0 (b64encode false h) = Some h.
Proof.
  induction h as [|a|a b|a b c t IH] using list3_ind; intros Hh; bytes_split; cbn [b64encode app].
  - reflexivity.
  - a2b. now rewrite e1.
  - a2b. now rewrite e2, e3.
  - rewrite !a2b_char by bnd. cbn [N.eqb Pos.eqb]. rewrite IH by assumption. cbn [option_map]. now rewrite e2, e4, e5.
Qed.

Definition tr64 (c : N) : N := if c =? 45 then 43 else if c =? 95 then 47 else c.
Lemma tr64_id1 c : c <> 45 -> c <> 95 -> tr64 c = c.
Proof. intros H1 H2. unfold tr64. destruct (c =? 45) eqn:E1; [lia|]. destruct (c =? 95) eqn:E2; [lia|reflexivity]. Qed.
Lemma tr64_char u v : v < 64 -> tr64 (b64char u v) = b64char false v.
Proof.
  intros H. unfold b64char. destruct (v <? 26) eqn:E1; [apply tr64_id1; lia|]. destruct (v <? 52) eqn:E2; [apply tr64_id1; lia|].
  destruct (v <? 62) eqn:E3; [apply tr64_id1; lia|]. destruct (v =? 62), u; reflexivity.
Qed.
Lemma tr64_enc u h : bytes_ok h -> map tr64 (b64encode u h) = b64encode false h.
Proof.
  induction h as [|a|a b|a b c t IH] using list3_ind; intros Hh; bytes_split; cbn [b64encode app map]; rewrite ?tr64_char by bnd; try reflexivity.
  rewrite IH by assumption. reflexivity.
Qed.
Lemma tr64_id l : has_char 45 l || has_char 95 l = false -> map tr64 l = l.
Proof.
  induction l as [|c l IH]; [reflexivity|]. unfold has_char in *. cbn [existsb map]. intros H.
  rewrite !orb_false_iff in H. destruct H as [[H1 H2] [H3 H4]].
  rewrite IH by (now rewrite H2, H4). f_equal. apply tr64_id1; lia.
Qed.
Lemma b64encode_ascii u h : bytes_ok h -> ascii_only (b64encode u h) = true.
Proof.
  unfold ascii_only. assert (Hc : forall v, v < 64 -> (b64char u v <? 128) = true).
  { intros v Hv. unfold b64char. destruct (v <? 26) eqn:E1, (v <? 52) eqn:E2, (v <? 62) eqn:E3, (v =? 62) eqn:E4, u; lia. }
  induction h as [|a|a b|a b c t IH] using list3_ind; intros Hh; bytes_split; cbn [b64encode app forallb]; rewrite ?Hc by bnd; try reflexivity.
  now rewrite IH.
Qed.
Lemma b64_wrapper_ok u h : bytes_ok h -> b64_wrapper (b64encode u h) = Some h.
Proof.
  intros Hh. unfold b64_wrapper. rewrite b64encode_ascii by assumption. cbn [negb].
  change (fun c => if c =? 45 then 43 else if c =? 95 then 47 else c) with tr64.
  destruct (_ || _) eqn:E.
  - rewrite tr64_enc by assumption. now apply a2b_ok.
  - rewrite <- (tr64_id _ E), tr64_enc by assumption. now apply a2b_ok.
Qed.
